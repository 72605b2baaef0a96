(** Model of the outgoing side of TssCommon: ProcessOutCh and sendBulkMsg,
    common/tss.go:446-562.

    One goroutine calls ProcessOutCh for the messages of all local parties
    (keygen/tss_keygen.go:205, keysign/tss_keysign.go:234), so a run is the list of
    the messages in the order they arrive. JSON encoding and signing are external
    functions. btss.PartyID.String() (tss-lib: "{index,moniker}") is a field of the
    destination. *)
From Coq Require Import ZArith Ascii String List.
From stdpp Require Import base list strings gmap.
From Verif Require Import Base.

(** A destination: its id and what String() gives. *)
Record dest := Dest { d_id : string; d_str : string }.
(** btss.MessageRouting *)
Record orouting := ORouting { or_from : string; or_to : list dest; or_bcast : bool }.
(** A message of a local party: Type(), the moniker of From, and what WireBytes()
    returns ([None]: error). *)
Record emission := Emission {
  em_type : string; em_ident : string; em_wire : option (bytes * orouting) }.
(** BulkWireMsg, common/tss.go:80-92 *)
Record entry := Entry { en_body : bytes; en_ident : string; en_routing : orouting }.
(** What is given to the p2p layer: the wire message and the peers. *)
Record sent := Sent {
  t_round : string; t_routing : orouting; t_body : bytes; t_sig : bytes;
  t_peers : list string;
  t_list : list entry (* ghost: the encoded list *) }.

Record oenv := OEnv {
  oe_enc : list entry -> bytes;             (* json.Marshal *)
  oe_sign : bytes -> option bytes;          (* privateKey.Sign *)
  oe_msgid : string; oe_num : nat;          (* msgID, msgNum *)
  oe_peers : list string;                   (* P2PPeers *)
  oe_id2peer : gmap string string           (* PartyIDtoP2PID *)
}.

Record ostate := OState {
  os_uni : gmap string (list entry);        (* cachedWireUnicastMsgLists *)
  os_bc : gmap string (list entry);         (* cachedWireBroadcastMsgLists *)
  os_sent : list sent;
  os_crash : bool }.
Definition oinit : ostate := OState ∅ ∅ [] false.

(** The part of a string before the first ":" (strings.Split(key, ":")[0]). *)
Fixpoint before_colon (b : bytes) : bytes :=
  match b with
  | [] => []
  | c :: b' => if Ascii.eqb c ":" then [] else c :: before_colon b'
  end.

(** The key of a unicast message, common/tss.go:522. *)
Definition uni_key (type dst : string) : string :=
  String.append type (String.append ":" dst).

Section Out.
  Variable E : oenv.

  (** common/tss.go:446-499 (sendBulkMsg) on a non-empty list; [None] if signing
      fails, and then nothing is sent. *)
  Definition sendBulkMsg (round : string) (l : list entry) (r : orouting) : option sent :=
    let buf := oe_enc E l in
    match oe_sign E (buf ++ to_bytes (oe_msgid E)) with
    | None => None
    | Some sig =>
        let peers := match or_to r with
                     | [] => oe_peers E
                     | to => omap (fun d => oe_id2peer E !! d_id d) to
                     end in
        Some (Sent round r buf sig peers l)
    end.

  (** The body of the two Range loops, common/tss.go:533-559, as a function from
      the cache and the log; [name] gives the round of a key. *)
  Definition flush_one (name : string -> string) (kv : string * list entry)
      (ms : gmap string (list entry) * list sent) : gmap string (list entry) * list sent :=
    let '(m, out) := ms in
    if Nat.eqb (length (snd kv)) (oe_num E) then
      match snd kv with
      | [] => (m, out) (* wiredMsgList[0]: no empty list is ever stored *)
      | e :: _ =>
          match sendBulkMsg (name (fst kv)) (snd kv) (en_routing e) with
          | None => (m, out)
          | Some t => (delete (fst kv) m, out ++ [t])
          end
      end
    else (m, out).

  Definition flush (ord : order) (name : string -> string) (m : gmap string (list entry))
      (out : list sent) : gmap string (list entry) * list sent :=
    foldl (fun a kv => flush_one name kv a) (m, out) (permute ord (map_to_list m)).

  (** common/tss.go:501-562 (ProcessOutCh); the orders are those of the two
      Range calls. *)
  Definition ProcessOutCh (em : emission) (o1 o2 : order) (s : ostate) : ostate :=
    match em_wire em with
    | None => s (* returns an error *)
    | Some (body, r) =>
        let e := Entry body (em_ident em) r in
        let stored :=
          if or_bcast r then
            Some (OState (os_uni s) (<[em_type em := default [] (os_bc s !! em_type em) ++ [e]]> (os_bc s))
                         (os_sent s) (os_crash s))
          else match or_to r with
          | [] => None (* r.To[0] *)
          | d :: _ =>
              let k := uni_key (em_type em) (d_str d) in
              Some (OState (<[k := default [] (os_uni s !! k) ++ [e]]> (os_uni s)) (os_bc s)
                           (os_sent s) (os_crash s))
          end in
        match stored with
        | None => OState (os_uni s) (os_bc s) (os_sent s) true
        | Some s1 =>
            let '(u, out1) := flush o1 (fun k => of_bytes (before_colon (to_bytes k))) (os_uni s1) (os_sent s1) in
            let '(b, out2) := flush o2 (fun k => k) (os_bc s1) out1 in
            OState u b out2 (os_crash s1)
        end
    end.

  Definition ostep (s : ostate) (x : emission * order * order) : ostate :=
    let '(em, o1, o2) := x in if os_crash s then s else ProcessOutCh em o1 o2 s.
  Definition orun (tr : list (emission * order * order)) : ostate := foldl ostep oinit tr.
End Out.
