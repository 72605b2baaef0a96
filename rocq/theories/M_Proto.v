(** Protocol buffers (proto3) as written and read by google.golang.org/protobuf v1.25.0,
    for the messages of messages/join_party.proto, messages/signature_notifier.proto
    and tss-lib's common.ECSignature. The library is modelled from knowledge of its
    source (encoding/protowire, internal/impl); it is not part of /repo. *)
From Coq Require Import ZArith NArith Ascii String List.
From stdpp Require Import base list strings.
From Verif Require Import Base M_Notifier M_Join.
From Verif Require Export M_Utf8.

Local Open Scope N_scope.

(** ** Writing *)

(** protowire.AppendVarint: seven bits a byte, least significant first *)
Fixpoint put_varint_fuel (fuel : nat) (v : N) : bytes :=
  match fuel with
  | O => []
  | S f => if v <? 128 then [ascii_of_N v] else ascii_of_N (v mod 128 + 128) :: put_varint_fuel f (v / 128)
  end.
(** a number of 64 bits needs at most ten bytes *)
Definition put_varint (v : N) : bytes := put_varint_fuel 10 v.
Definition put_tag (num typ : N) : bytes := put_varint (num * 8 + typ).

(** Fields of wire type 2, written always and written unless empty *)
Definition put_bytes (num : N) (b : bytes) : bytes :=
  put_tag num 2 ++ put_varint (N.of_nat (length b)) ++ b.
Definition put_bytes_nz (num : N) (b : bytes) : bytes :=
  match b with [] => [] | _ => put_bytes num b end.
(** An enumeration, written unless zero; the values here are not negative *)
Definition put_enum_nz (num v : N) : bytes := if v =? 0 then [] else put_tag num 0 ++ put_varint v.

(** ** Reading *)

(** protowire.ConsumeVarint: at most ten bytes, the tenth at most 1 *)
Fixpoint get_varint_fuel (fuel : nat) (b : bytes) : option (N * bytes) :=
  match b with
  | [] => None
  | c :: r =>
      match fuel with
      | O => None
      | S O => if byte_val c <? 2 then Some (byte_val c, r) else None
      | S f =>
          if byte_val c <? 128 then Some (byte_val c, r)
          else match get_varint_fuel f r with
          | Some (v, t) => Some (byte_val c - 128 + 128 * v, t)
          | None => None
          end
      end
  end.
Definition get_varint (b : bytes) : option (N * bytes) := get_varint_fuel 10 b.
(** protowire.ConsumeBytes *)
Definition get_bytes (b : bytes) : option (bytes * bytes) :=
  match get_varint b with
  | Some (n, r) => if N.of_nat (length r) <? n then None else Some (take (N.to_nat n) r, drop (N.to_nat n) r)
  | None => None
  end.
Definition get_fixed (n : nat) (b : bytes) : option bytes :=
  if Nat.ltb (length b) n then None else Some (drop n b).

(** protowire.ConsumeFieldValue on a group: what follows its end marker. The fuel
    bounds the number of fields. *)
Fixpoint skip_group (fuel : nat) (num : N) (b : bytes) : option bytes :=
  match fuel with
  | O => None
  | S f =>
      match get_varint b with
      | None => None
      | Some (tag, r) =>
          let num2 := tag / 8 in
          if ((num2 <? 1) || (2147483647 <? num2))%bool then None
          else
            let next o := match o with Some r' => skip_group f num r' | None => None end in
            match tag mod 8 with
            | 0 => next match get_varint r with Some (_, r') => Some r' | None => None end
            | 1 => next (get_fixed 8 r)
            | 2 => next match get_bytes r with Some (_, r') => Some r' | None => None end
            | 3 => next (skip_group f num2 r)
            | 4 => if num2 =? num then Some r else None
            | 5 => next (get_fixed 4 r)
            | _ => None
            end
      end
  end.

(** A field: its number, and its value if it is of wire type 0 or 2 *)
Inductive pval := PVarint (v : N) | PBytes (b : bytes) | PSkipped.

(** internal/impl decode.go (unmarshalPointer): the fields one after the other. A
    field the message does not have, or of a wire type the message does not expect, is
    skipped in the same way, so that the fields can be read before they are looked at. *)
Fixpoint get_fields (fuel : nat) (b : bytes) : option (list (N * pval)) :=
  match b with
  | [] => Some []
  | _ =>
      match fuel with
      | O => None
      | S f =>
          match get_varint b with
          | None => None
          | Some (tag, r) =>
              let num := tag / 8 in
              if ((num <? 1) || (536870911 <? num))%bool then None
              else
                let next o := match o with
                  | Some (v, r') => match get_fields f r' with Some l => Some ((num, v) :: l) | None => None end
                  | None => None
                  end in
                let skip o := next match o with Some r' => Some (PSkipped, r') | None => None end in
                match tag mod 8 with
                | 0 => next match get_varint r with Some (v, r') => Some (PVarint v, r') | None => None end
                | 1 => skip (get_fixed 8 r)
                | 2 => next match get_bytes r with Some (v, r') => Some (PBytes v, r') | None => None end
                | 3 => skip (skip_group (length r) num r)
                | 5 => skip (get_fixed 4 r)
                | _ => None
                end
          end
      end
  end.
Definition proto_fields (b : bytes) : option (list (N * pval)) := get_fields (length b) b.


(** int32(v) of the varint of an enumeration, as a number of 32 bits *)
Definition enum_of (v : N) : N := v mod 4294967296.

(** ** messages.KeysignSignature: ID = 1, Signatures = 2, KeysignStatus = 3 *)
Definition Status_Success : N := 1.
Definition Status_Failed : N := 2.
Record kswire := KsWire { kw_id : string; kw_sigs : list bytes; kw_status : N }.
(** proto.Marshal refuses a string that is not UTF-8 *)
Definition ks_marshal (m : kswire) : option bytes :=
  if text_ok (kw_id m) then
    Some (put_bytes_nz 1 (to_bytes (kw_id m)) ++ concat (map (put_bytes 2) (kw_sigs m)) ++ put_enum_nz 3 (kw_status m))
  else None.
Definition ks_put (acc : option kswire) (f : N * pval) : option kswire :=
  match acc with
  | None => None
  | Some m =>
      match f with
      | (1, PBytes b) => if utf8_valid b then Some (KsWire (of_bytes b) (kw_sigs m) (kw_status m)) else None
      | (2, PBytes b) => Some (KsWire (kw_id m) (kw_sigs m ++ [b]) (kw_status m))
      | (3, PVarint v) => Some (KsWire (kw_id m) (kw_sigs m) (enum_of v))
      | _ => acc
      end
  end.
Definition ks_unmarshal (b : bytes) : option kswire :=
  match proto_fields b with
  | Some l => fold_left ks_put l (Some (KsWire "" [] 0))
  | None => None
  end.

(** As the notifier (M_Notifier) uses it: a message is a success or a failure,
    keysign/signature_notifier.go:77,117-130. *)
Definition notify_marshal (m : ksmsg) : option bytes :=
  ks_marshal (KsWire (km_id m) (km_sigs m) (if km_success m then Status_Success else Status_Failed)).
Definition notify_unmarshal (b : bytes) : option ksmsg :=
  match ks_unmarshal b with
  | Some m => Some (KsMsg (kw_id m) (kw_sigs m) (kw_status m =? Status_Success))
  | None => None
  end.

(** ** tss-lib common.ECSignature: signature = 1, signature_recovery = 2, r = 3, s = 4, m = 5 *)
Definition sig_marshal (s : ecsig) : option bytes :=
  Some (put_bytes_nz 1 (default [] (sg_signature s)) ++ put_bytes_nz 2 (sg_recovery s) ++
        put_bytes_nz 3 (sg_R s) ++ put_bytes_nz 4 (sg_S s) ++ put_bytes_nz 5 (sg_M s)).
(** An empty value read is nil: append([]byte(nil), v...) *)
Definition nil_if_empty (b : bytes) : option bytes := match b with [] => None | _ => Some b end.
Definition sig_put (s : ecsig) (f : N * pval) : ecsig :=
  match f with
  | (1, PBytes b) => EcSig (nil_if_empty b) (sg_recovery s) (sg_R s) (sg_S s) (sg_M s)
  | (2, PBytes b) => EcSig (sg_signature s) b (sg_R s) (sg_S s) (sg_M s)
  | (3, PBytes b) => EcSig (sg_signature s) (sg_recovery s) b (sg_S s) (sg_M s)
  | (4, PBytes b) => EcSig (sg_signature s) (sg_recovery s) (sg_R s) b (sg_M s)
  | (5, PBytes b) => EcSig (sg_signature s) (sg_recovery s) (sg_R s) (sg_S s) b
  | _ => s
  end.
Definition sig_unmarshal (b : bytes) : option ecsig :=
  match proto_fields b with
  | Some l => Some (fold_left sig_put l (EcSig None [] [] [] []))
  | None => None
  end.

(** ** messages.JoinPartyRequest: ID = 1 *)
Definition old_marshal (id : string) : option bytes :=
  if text_ok id then Some (put_bytes_nz 1 (to_bytes id)) else None.
Definition old_put (acc : option string) (f : N * pval) : option string :=
  match acc with
  | None => None
  | Some _ =>
      match f with
      | (1, PBytes b) => if utf8_valid b then Some (of_bytes b) else None
      | _ => acc
      end
  end.
Definition old_unmarshal (b : bytes) : option string :=
  match proto_fields b with
  | Some l => fold_left old_put l (Some ""%string)
  | None => None
  end.

(** ** messages.JoinPartyLeaderComm: ID = 1, MsgType = 2, type = 3, PeerIDs = 4 *)
Definition lm_marshal (m : leadermsg) : option bytes :=
  if (text_ok (lm_id m) && text_ok (lm_msgtype m) && forallb text_ok (lm_peers m))%bool then
    Some (put_bytes_nz 1 (to_bytes (lm_id m)) ++ put_bytes_nz 2 (to_bytes (lm_msgtype m)) ++
          put_enum_nz 3 (N.of_nat (lm_type m)) ++ concat (map (fun p => put_bytes 4 (to_bytes p)) (lm_peers m)))
  else None.
Definition lm_put (acc : option leadermsg) (f : N * pval) : option leadermsg :=
  match acc with
  | None => None
  | Some m =>
      match f with
      | (1, PBytes b) => if utf8_valid b then Some (LeaderMsg (of_bytes b) (lm_msgtype m) (lm_type m) (lm_peers m)) else None
      | (2, PBytes b) => if utf8_valid b then Some (LeaderMsg (lm_id m) (of_bytes b) (lm_type m) (lm_peers m)) else None
      | (3, PVarint v) => Some (LeaderMsg (lm_id m) (lm_msgtype m) (N.to_nat (enum_of v)) (lm_peers m))
      | (4, PBytes b) => if utf8_valid b then Some (LeaderMsg (lm_id m) (lm_msgtype m) (lm_type m) (lm_peers m ++ [of_bytes b])) else None
      | _ => acc
      end
  end.
Definition lm_unmarshal (b : bytes) : option leadermsg :=
  match proto_fields b with
  | Some l => fold_left lm_put l (Some (LeaderMsg "" "" 0 []))
  | None => None
  end.

(** ** What the stream handlers make of a payload *)

(** p2p/party_coordinator.go:112-127 (HandleStream) *)
Definition old_incoming (payload : bytes) : option incoming :=
  match old_unmarshal payload with Some id => Some (InOld id) | None => None end.
(** p2p/party_coordinator.go:147-189 (HandleStreamWithLeader): the payload is read twice *)
Definition leader_incoming (payload : bytes) : option incoming :=
  match old_unmarshal payload with
  | None => None
  | Some _ => match lm_unmarshal payload with Some m => Some (InLeader m) | None => None end
  end.

(** ** What is sent *)

(** p2p/party_coordinator.go:498-504 (JoinPartyWithRetry) *)
Definition old_payload (id : string) : option bytes := old_marshal id.
(** p2p/party_coordinator.go:337-340, 244-250 (sendRequestToLeader): only the id and the
    kind are set *)
Definition request_payload (id : string) : option bytes := lm_marshal (LeaderMsg id "request" 0 []).
(** p2p/party_coordinator.go:221-242 (sendResponseToAll): the same bytes to every peer
    but the node itself *)
Definition response_payloads (me : string) (m : leadermsg) (peers : list string) : list (string * bytes) :=
  match lm_marshal (LeaderMsg (lm_id m) "response" (lm_type m) (lm_peers m)) with
  | None => []
  | Some b => map (fun p => (p, b)) (List.filter (fun p => negb (String.eqb p me)) peers)
  end.

(** The notifier with this codec; the curve is still a parameter. *)
Definition proto_env (point : string -> option (N * N)) (verify : N * N -> bytes -> N -> N -> bool) : nenv :=
  NEnv point verify sig_marshal sig_unmarshal notify_marshal notify_unmarshal.
