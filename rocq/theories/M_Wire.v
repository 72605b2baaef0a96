(** The ceremony messages on the wire: the structures of messages/p2p_message.go and
    BulkWireMsg (common/tss.go:80-84) as JSON, the places that write them
    (common/tss.go:446-499, 673-704, common/tss_helper.go:221-272,
    p2p/communication.go:420-443) and the places that read them
    (common/tss.go:248-252, 331-397, 843-868, p2p/communication.go:160-176).

    btss.MessageRouting and btss.PartyID (tss-lib, tss/message.go and tss/party_id.go)
    and the rules of encoding/json are modelled from knowledge of their source.
    Simplifications: those of [M_Json] and of the field names of [M_Storage]; a nil and
    an empty slice are one value, written as null; when a list stands twice under one
    name in an object, the second one starts afresh; what a failing Unmarshal leaves in
    the structure is not kept, since no caller looks at it. *)
From Coq Require Import ZArith NArith Ascii String List.
From stdpp Require Import base list strings.
From Verif Require Import Base M_Base64 M_Json M_Storage M_Http M_Common M_Stream M_OutCh.

(** ** The structures *)

(** tss-lib MessageWrapper_PartyID: id, moniker and key, each left out when empty. *)
Record pparty := PParty { pp_id : string; pp_moniker : string; pp_key : bytes }.
(** tss-lib PartyID: a pointer to the above, embedded, and an index. *)
Record party := Party { pa_in : option pparty; pa_index : Z }.
(** tss-lib MessageRouting *)
Record mrouting := MRouting {
  mr_from : option party; mr_to : list (option party);
  mr_bcast : bool; mr_old : bool; mr_both : bool }.
(** messages/p2p_message.go:73-78 (WireMessage) *)
Record wmsg := WMsg { wm_routing : option mrouting; wm_round : string; wm_body : bytes; wm_sig : bytes }.
(** common/tss.go:80-84 (BulkWireMsg) *)
Record bmsg := BMsg { bm_body : bytes; bm_ident : string; bm_routing : option mrouting }.
(** messages/p2p_message.go:85-90 (TssControl) *)
Record tcontrol := TControl { tc_hash : string; tc_key : string; tc_type : N; tc_msg : option wmsg }.
(** messages/p2p_message.go:48-52 (WrappedMessage) *)
Record wrapped := Wrapped { wr_type : N; wr_id : string; wr_payload : bytes }.

(** ** Writing *)

(** encoding/json encode.go (encodeByteSlice) *)
Definition bytes_json (b : bytes) : json :=
  match b with [] => JNull | _ => JStr (EncodeToString b) end.
Definition opt_json {A} (f : A -> json) (o : option A) : json :=
  match o with None => JNull | Some x => f x end.

Definition pparty_fields (q : pparty) : list (string * json) :=
  (if String.eqb (pp_id q) "" then [] else [("id", JStr (pp_id q))])
    ++ (if String.eqb (pp_moniker q) "" then [] else [("moniker", JStr (pp_moniker q))])
    ++ match pp_key q with [] => [] | k => [("key", bytes_json k)] end.
Definition party_json (p : party) : json :=
  JObj (match pa_in p with None => [] | Some q => pparty_fields q end ++ [("index", JNum (pa_index p))]).
Definition routing_json (r : mrouting) : json :=
  JObj [("From", opt_json party_json (mr_from r));
        ("To", match mr_to r with [] => JNull | l => JArr (map (opt_json party_json) l) end);
        ("IsBroadcast", JBool (mr_bcast r)); ("IsToOldCommittee", JBool (mr_old r));
        ("IsToOldAndNewCommittees", JBool (mr_both r))].
Definition wmsg_json (w : wmsg) : json :=
  JObj [("routing", opt_json routing_json (wm_routing w)); ("round_info", JStr (wm_round w));
        ("message", bytes_json (wm_body w)); ("signature", bytes_json (wm_sig w))].
Definition bmsg_json (b : bmsg) : json :=
  JObj [("WiredBulkMsgs", bytes_json (bm_body b)); ("MsgIdentifier", JStr (bm_ident b));
        ("Routing", opt_json routing_json (bm_routing b))].
Definition confirm_json (c : confirm) : json :=
  JObj [("P2PID", JStr (v_p2p c)); ("key", JStr (v_key c)); ("hash", JStr (v_hash c))].
Definition control_json (c : tcontrol) : json :=
  JObj [("reqest_hash", JStr (tc_hash c)); ("request_key", JStr (tc_key c));
        ("request_type", JNum (Z.of_N (tc_type c))); ("message_body", opt_json wmsg_json (tc_msg c))].
Definition done_json (d : bool) : json := JObj [("task_done", JBool d)].
Definition wrapped_json (w : wrapped) : json :=
  JObj [("message_type", JNum (Z.of_N (wr_type w))); ("message_id", JStr (wr_id w));
        ("payload", bytes_json (wr_payload w))].

(** json.Marshal of a non-nil []BulkWireMsg, common/tss.go:451 *)
Definition bulk_enc (l : list bmsg) : bytes := json_enc (JArr (map bmsg_json l)).

(** ** Reading *)

Definition put_bool (v : json) (old : bool) : option bool :=
  match v with JBool b => Some b | JNull => Some old | _ => None end.
Definition put_uint8 (v : json) (old : N) : option N :=
  match v with
  | JNum z => if (Z.leb 0 z && Z.ltb z 256)%bool then Some (Z.to_N z) else None
  | JNull => Some old
  | _ => None
  end.
Fixpoint put_elems {A} (f : json -> option A) (l : list json) : option (list A) :=
  match l with
  | [] => Some []
  | v :: r => match f v, put_elems f r with Some x, Some t => Some (x :: t) | _, _ => None end
  end.
(** A byte slice: base64 text, or an array of numbers. *)
Definition put_bytes (v : json) : option bytes :=
  match v with
  | JNull => Some []
  | JStr s => DecodeString s
  | JArr l => map ascii_of_N <$> put_elems (fun x => put_uint8 x 0) l
  | _ => None
  end.
(** A structure: null leaves it, an object is read field by field. *)
Definition put_struct {A} (field : string -> json -> A -> option A) (v : json) (old : A) : option A :=
  match v with
  | JNull => Some old
  | JObj l => fold_left (fun acc kv => match acc with None => None | Some x => field (fold_name (fst kv)) (snd kv) x end)
                l (Some old)
  | _ => None
  end.
(** A pointer to a structure: null sets it to nil; otherwise what it points to is
    changed, or a new structure made. *)
Definition put_ptr {A} (field : string -> json -> A -> option A) (zero : A) (v : json) (old : option A) : option (option A) :=
  match v with
  | JNull => Some None
  | _ => Some <$> put_struct field v (default zero old)
  end.

(** PartyID: a field of the embedded structure makes one if there is none. *)
Definition party_field (name : string) (v : json) (p : party) : option party :=
  let q := default (PParty "" "" []) (pa_in p) in
  if String.eqb name "id" then
    match put_string v (pp_id q) with Some x => Some (Party (Some (PParty x (pp_moniker q) (pp_key q))) (pa_index p)) | None => None end
  else if String.eqb name "moniker" then
    match put_string v (pp_moniker q) with Some x => Some (Party (Some (PParty (pp_id q) x (pp_key q))) (pa_index p)) | None => None end
  else if String.eqb name "key" then
    match put_bytes v with Some x => Some (Party (Some (PParty (pp_id q) (pp_moniker q) x)) (pa_index p)) | None => None end
  else if String.eqb name "index" then
    match put_int64 v (pa_index p) with Some x => Some (Party (pa_in p) x) | None => None end
  else Some p.
Definition put_party (v : json) (old : option party) : option (option party) :=
  put_ptr party_field (Party None 0) v old.
Definition routing_field (name : string) (v : json) (r : mrouting) : option mrouting :=
  if String.eqb name "from" then
    match put_party v (mr_from r) with Some x => Some (MRouting x (mr_to r) (mr_bcast r) (mr_old r) (mr_both r)) | None => None end
  else if String.eqb name "to" then
    match match v with JNull => Some [] | JArr l => put_elems (fun x => put_party x None) l | _ => None end with
    | Some x => Some (MRouting (mr_from r) x (mr_bcast r) (mr_old r) (mr_both r))
    | None => None
    end
  else if String.eqb name "isbroadcast" then
    match put_bool v (mr_bcast r) with Some x => Some (MRouting (mr_from r) (mr_to r) x (mr_old r) (mr_both r)) | None => None end
  else if String.eqb name "istooldcommittee" then
    match put_bool v (mr_old r) with Some x => Some (MRouting (mr_from r) (mr_to r) (mr_bcast r) x (mr_both r)) | None => None end
  else if String.eqb name "istooldandnewcommittees" then
    match put_bool v (mr_both r) with Some x => Some (MRouting (mr_from r) (mr_to r) (mr_bcast r) (mr_old r) x) | None => None end
  else Some r.
Definition put_routing (v : json) (old : option mrouting) : option (option mrouting) :=
  put_ptr routing_field (MRouting None [] false false false) v old.
Definition wmsg_field (name : string) (v : json) (w : wmsg) : option wmsg :=
  if String.eqb name "routing" then
    match put_routing v (wm_routing w) with Some x => Some (WMsg x (wm_round w) (wm_body w) (wm_sig w)) | None => None end
  else if String.eqb name "round_info" then
    match put_string v (wm_round w) with Some x => Some (WMsg (wm_routing w) x (wm_body w) (wm_sig w)) | None => None end
  else if String.eqb name "message" then
    match put_bytes v with Some x => Some (WMsg (wm_routing w) (wm_round w) x (wm_sig w)) | None => None end
  else if String.eqb name "signature" then
    match put_bytes v with Some x => Some (WMsg (wm_routing w) (wm_round w) (wm_body w) x) | None => None end
  else Some w.
Definition wmsg_zero : wmsg := WMsg None "" [] [].
Definition bmsg_field (name : string) (v : json) (b : bmsg) : option bmsg :=
  if String.eqb name "wiredbulkmsgs" then
    match put_bytes v with Some x => Some (BMsg x (bm_ident b) (bm_routing b)) | None => None end
  else if String.eqb name "msgidentifier" then
    match put_string v (bm_ident b) with Some x => Some (BMsg (bm_body b) x (bm_routing b)) | None => None end
  else if String.eqb name "routing" then
    match put_routing v (bm_routing b) with Some x => Some (BMsg (bm_body b) (bm_ident b) x) | None => None end
  else Some b.
Definition confirm_field (name : string) (v : json) (c : confirm) : option confirm :=
  if String.eqb name "p2pid" then
    match put_string v (v_p2p c) with Some x => Some (Confirm x (v_key c) (v_hash c)) | None => None end
  else if String.eqb name "key" then
    match put_string v (v_key c) with Some x => Some (Confirm (v_p2p c) x (v_hash c)) | None => None end
  else if String.eqb name "hash" then
    match put_string v (v_hash c) with Some x => Some (Confirm (v_p2p c) (v_key c) x) | None => None end
  else Some c.
Definition control_field (name : string) (v : json) (c : tcontrol) : option tcontrol :=
  if String.eqb name "reqest_hash" then
    match put_string v (tc_hash c) with Some x => Some (TControl x (tc_key c) (tc_type c) (tc_msg c)) | None => None end
  else if String.eqb name "request_key" then
    match put_string v (tc_key c) with Some x => Some (TControl (tc_hash c) x (tc_type c) (tc_msg c)) | None => None end
  else if String.eqb name "request_type" then
    match put_uint8 v (tc_type c) with Some x => Some (TControl (tc_hash c) (tc_key c) x (tc_msg c)) | None => None end
  else if String.eqb name "message_body" then
    match put_ptr wmsg_field wmsg_zero v (tc_msg c) with Some x => Some (TControl (tc_hash c) (tc_key c) (tc_type c) x) | None => None end
  else Some c.
Definition done_field (name : string) (v : json) (d : bool) : option bool :=
  if String.eqb name "task_done" then put_bool v d else Some d.
Definition wrapped_field (name : string) (v : json) (w : wrapped) : option wrapped :=
  if String.eqb name "message_type" then
    match put_uint8 v (wr_type w) with Some x => Some (Wrapped x (wr_id w) (wr_payload w)) | None => None end
  else if String.eqb name "message_id" then
    match put_string v (wr_id w) with Some x => Some (Wrapped (wr_type w) x (wr_payload w)) | None => None end
  else if String.eqb name "payload" then
    match put_bytes v with Some x => Some (Wrapped (wr_type w) (wr_id w) x) | None => None end
  else Some w.

(** json.Unmarshal into a fresh structure; [None]: an error *)
Definition unmarshal {A} (put : json -> option A) (b : bytes) : option A :=
  match json_dec b with Some v => put v | None => None end.
Definition wmsg_dec : bytes -> option wmsg := unmarshal (fun v => put_struct wmsg_field v wmsg_zero).
Definition confirm_dec : bytes -> option confirm := unmarshal (fun v => put_struct confirm_field v (Confirm "" "" "")).
Definition control_dec : bytes -> option tcontrol := unmarshal (fun v => put_struct control_field v (TControl "" "" 0 None)).
Definition done_dec : bytes -> option bool := unmarshal (fun v => put_struct done_field v false).
Definition wrapped_dec : bytes -> option wrapped := unmarshal (fun v => put_struct wrapped_field v (Wrapped 0 "" [])).
(** common/tss.go:249-252 *)
Definition bulk_dec : bytes -> option (list bmsg) := unmarshal (fun v =>
  match v with
  | JNull => Some []
  | JArr l => put_elems (fun x => put_struct bmsg_field x (BMsg [] "" None)) l
  | _ => None
  end).

(** ** What the handlers use of them *)

(** messages/p2p_message.go:13-31 *)
Definition type_of (n : N) : mtype :=
  match n with
  | 0%N => TSSKeyGenMsg | 1%N => TSSKeySignMsg | 2%N => TSSKeyGenVerMsg | 3%N => TSSKeySignVerMsg
  | 4%N => TSSControlMsg | 5%N => TSSTaskDone | _ => UnknownType
  end.
Definition number_of (t : mtype) : N :=
  match t with
  | TSSKeyGenMsg => 0 | TSSKeySignMsg => 1 | TSSKeyGenVerMsg => 2 | TSSKeySignVerMsg => 3
  | TSSControlMsg => 4 | TSSTaskDone => 5 | UnknownType => 6
  end.
Definition sender_of (p : option party) : sender :=
  match p with
  | None => FNil
  | Some (Party None _) => FBare
  | Some (Party (Some q) _) => FId (pp_id q)
  end.
(** Of a destination only the id is looked at. *)
Definition dest_of (p : option party) : string :=
  match p with Some (Party (Some q) _) => pp_id q | _ => "" end.
Definition routing_of (r : mrouting) : routing :=
  Routing (sender_of (mr_from r)) (map dest_of (mr_to r)) (mr_bcast r).
Definition wire_of (w : wmsg) : wire :=
  Wire (routing_of <$> wm_routing w) (wm_round w) (wm_body w) (wm_sig w).
Definition bulk_of (b : bmsg) : bulk := Bulk (bm_body b) (bm_ident b) (routing_of <$> bm_routing b).
Definition control_of (c : tcontrol) : control :=
  Control (tc_hash c) (tc_key c) (type_of (tc_type c)) (wire_of <$> tc_msg c).

(** common/tss.go:331-397: the decoded payload of a wrapped message *)
Definition inmsg_of (w : wrapped) : inmsg :=
  match type_of (wr_type w) with
  | (TSSKeyGenMsg | TSSKeySignMsg) as t => MShare t (wire_of <$> wmsg_dec (wr_payload w))
  | (TSSKeyGenVerMsg | TSSKeySignVerMsg) as t => MVer t (confirm_dec (wr_payload w))
  | TSSTaskDone => MDone (done_dec (wr_payload w))
  | TSSControlMsg => MCtl (control_of <$> control_dec (wr_payload w))
  | UnknownType => MOther
  end.
(** common/tss.go:855-861: a message taken from the channel; [None]: it is skipped *)
Definition inbound (data : bytes) : option inmsg := inmsg_of <$> wrapped_dec data.
(** p2p/communication.go:166-174: the type and the id [readFromStream] takes from a
    message *)
Definition topic_of (data : bytes) : option (nat * string) :=
  match wrapped_dec data with Some w => Some (N.to_nat (wr_type w), wr_id w) | None => None end.
(** The environment of the handlers with the JSON of the bulk messages. *)
Definition wire_env (E : env) : env :=
  Env (e_sha E) (e_verify E) (fun b => map bulk_of <$> bulk_dec b) (e_parse E) (e_pub E) (e_peer_ok E).

(** ** What a node puts on the wire *)

(** json.Marshal of a wrapped message, p2p/communication.go:427; the payloads of
    common/tss.go:467-475 (a bulk message), 685-693 (a confirmation),
    common/tss_helper.go:222-231 (task done) and 256-265 (a control message) *)
Definition wrap (t : N) (msgID : string) (payload : json) : bytes :=
  json_enc (wrapped_json (Wrapped t msgID (json_enc payload))).
Definition share_data (t : mtype) (msgID : string) (w : wmsg) : bytes := wrap (number_of t) msgID (wmsg_json w).
Definition confirm_data (t : mtype) (msgID : string) (c : confirm) : bytes := wrap (number_of t) msgID (confirm_json c).
Definition done_data (msgID : string) : bytes := wrap (number_of TSSTaskDone) msgID (done_json true).
Definition control_data (msgID : string) (c : tcontrol) : bytes := wrap (number_of TSSControlMsg) msgID (control_json c).

(** [full] gives the routing tss-lib made for a share, of which [M_OutCh] keeps the ids
    only (common/tss.go:503-519). *)
Definition bmsg_of (full : entry -> mrouting) (e : entry) : bmsg := BMsg (en_body e) (en_ident e) (Some (full e)).
(** json.Marshal(wiredMsgList), common/tss.go:451 *)
Definition entries_enc (full : entry -> mrouting) (l : list entry) : bytes := bulk_enc (map (bmsg_of full) l).
(** common/tss.go:449, 462-467: the wire message of a bulk message *)
Definition wmsg_sent (full : entry -> mrouting) (t : sent) : wmsg :=
  WMsg (full <$> head (t_list t)) (t_round t) (t_body t) (t_sig t).
