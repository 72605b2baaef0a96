(** Property theorems: threshold, leader, request id, parties, hash integer. *)
From Coq Require Import ZArith NArith Ascii String List Lia.
From stdpp Require Import base list strings gmap sorting.
From Verif Require Import Base L_Base M_Base64 M_Conv S_Conv L_Conv.

(** ** C02 *)
(** Two nodes that know the same participants elect the same leader, and it is a
    participant with the smallest ticket. *)
Theorem C02_leader_agreement :
  forall (sha : bytes -> string) msgID height ids1 ids2 l1 l2,
    (forall x, x ∈ ids1 <-> x ∈ ids2) ->
    no_ticket_collision sha msgID height ids1 ->
    LeaderNode sha msgID height ids1 = Some l1 ->
    LeaderNode sha msgID height ids2 = Some l2 ->
    l1 = l2 /\ smallest_ticket sha msgID height ids1 l1.
Proof.
  intros sha m h ids1 ids2 l1 l2 Hs Hc H1 H2.
  apply LeaderNode_smallest in H1, H2.
  split; [exact (smallest_ticket_unique sha m h ids1 ids2 l1 l2 Hs Hc H1 H2)|exact H1].
Qed.
Print Assumptions C02_leader_agreement.

(** Non-vacuity: three participants, two orders with a repetition; the toy hash
    keeps the whole text, so tickets do not collide. *)
Example C02_example :
  let ids1 := ["bob"; "alice"; "carol"] in
  let ids2 := ["carol"; "bob"; "alice"; "bob"] in
  (forall x, x ∈ ids1 <-> x ∈ ids2) /\
  no_ticket_collision of_bytes "m" 7 ids1 /\
  LeaderNode of_bytes "m" 7 ids1 = Some "alice" /\
  LeaderNode of_bytes "m" 7 ids2 = Some "alice".
Proof.
  split_and!; [| |vm_compute; reflexivity|vm_compute; reflexivity].
  - intros x. rewrite !elem_of_cons, elem_of_nil. tauto.
  - intros x y _ _ H. apply of_bytes_inj in H. apply app_inv_head in H.
    apply app_inv_head in H. by apply to_bytes_inj.
Qed.

(** ** C03 *)
Theorem C03_leader_rejects_exactly_invalid :
  forall (sha : bytes -> string) msgID height ids,
    LeaderNode sha msgID height ids = None <-> ids = [] \/ msgID = EmptyString \/ height = 0%Z.
Proof. exact LeaderNode_none. Qed.
Print Assumptions C03_leader_rejects_exactly_invalid.
Example C03_example :
  LeaderNode of_bytes "m" (-3) ["a"] = Some "a" /\ LeaderNode of_bytes "m" 0 ["a"] = None.
Proof. split; vm_compute; reflexivity. Qed.

(** ** C04 *)
Theorem C04_request_id_order_independent :
  forall (sha : bytes -> string) r1 r2,
    same_request r1 r2 -> fst (requestToMsgId sha r1) = fst (requestToMsgId sha r2).
Proof. intros sha r1 r2 H. by rewrite (requestToMsgId_perm sha r1 r2 H). Qed.
Print Assumptions C04_request_id_order_independent.

Theorem C04_request_id_error :
  forall (sha : bytes -> string) r,
    fst (requestToMsgId sha r) = None <-> nothing_to_hash r.
Proof. exact requestToMsgId_error. Qed.
Print Assumptions C04_request_id_error.

Example C04_example :
  let r1 := KeysignReq "pool" ["bXNnMg=="; "bXNnMQ=="] ["k2"; "k1"; "k3"] 10 "0.14.0" in
  let r2 := KeysignReq "pool" ["bXNnMQ=="; "bXNnMg=="] ["k1"; "k2"; "k3"] 10 "0.14.0" in
  same_request r1 r2 /\
  fst (requestToMsgId of_bytes r1) = Some "bXNnMQ==,bXNnMg==k1k2k3".
Proof.
  split; [|vm_compute; reflexivity]. constructor; [apply Permutation_swap|].
  apply Permutation_swap.
Qed.

(** ** C05 *)
(** The claim is false: whatever the hash, two signing requests for different
    pool keys get the same id, and so do two keygens with different participants
    and a signing and a keygen. *)
Theorem C05_request_id_injective_refuted :
  forall (sha : bytes -> string),
    (exists p1 p2 msgs signers h v,
       p1 <> p2 /\ msgs <> [] /\
       fst (requestToMsgId sha (KeysignReq p1 msgs signers h v)) =
       fst (requestToMsgId sha (KeysignReq p2 msgs signers h v)) /\
       fst (requestToMsgId sha (KeysignReq p1 msgs signers h v)) <> None) /\
    (exists k1 k2 h v,
       ~ k1 ≡ₚ k2 /\
       fst (requestToMsgId sha (KeygenReq k1 h v)) = fst (requestToMsgId sha (KeygenReq k2 h v)) /\
       fst (requestToMsgId sha (KeygenReq k1 h v)) <> None).
Proof.
  intros sha. split.
  - exists "pool1", "pool2", ["bXNn"], ["key"], 1%Z, "0.14.0". split_and!; done.
  - exists ["ab"; "c"], ["a"; "bc"], 1%Z, "0.14.0". split_and!; [|done|done].
    intros H. assert ("ab" ∈ ["a"; "bc"]) as Hin by (rewrite <- H; left).
    rewrite !elem_of_cons, elem_of_nil in Hin. intuition discriminate.
Qed.
Print Assumptions C05_request_id_injective_refuted.

(** Nor is it true of signing requests for one pool with keys of one length and
    messages in base64: a message that ends in a key stands for a signer. *)
Theorem C05_message_or_signer_refuted :
  ~ forall (sha : bytes -> string) n p m1 m2 s1 s2 h v id,
    uniform n s1 -> uniform n s2 ->
    Forall (fun m => DecodeString m <> None) m1 -> Forall (fun m => DecodeString m <> None) m2 ->
    fst (requestToMsgId sha (KeysignReq p m1 s1 h v)) = Some id ->
    fst (requestToMsgId sha (KeysignReq p m2 s2 h v)) = Some id ->
    m1 ≡ₚ m2.
Proof.
  intros H. assert (P : ["bXNn"] ≡ₚ ["bXNnthorpub1"]).
  { eapply (H of_bytes 8 "pool" ["bXNn"] ["bXNnthorpub1"] ["thorpub1"; "thorpub2"] ["thorpub2"] 1%Z "0.14.0").
    - split; [lia|]. intros k Hk. rewrite !elem_of_cons, elem_of_nil in Hk. destruct Hk as [->|[->|[]]]; reflexivity.
    - split; [lia|]. intros k Hk. rewrite !elem_of_cons, elem_of_nil in Hk. destruct Hk as [->|[]]; reflexivity.
    - repeat constructor; vm_compute; discriminate.
    - repeat constructor; vm_compute; discriminate.
    - vm_compute. reflexivity.
    - vm_compute. reflexivity. }
  apply Permutation_length_1 in P. discriminate P.
Qed.
Print Assumptions C05_message_or_signer_refuted.

(** ** C124. What holds: with keys of one length (and, for signing, comma-free messages
    and as many signers), requests with the same id differ at most by the order of
    their lists, the pool key, the height and the version. *)
Theorem C124_keygen_id_injective :
  forall (sha : bytes -> string) n k1 k2 h1 h2 v1 v2 id,
    uniform n k1 -> uniform n k2 ->
    not_a_collision sha (material (KeygenReq k1 h1 v1)) (material (KeygenReq k2 h2 v2)) ->
    fst (requestToMsgId sha (KeygenReq k1 h1 v1)) = Some id ->
    fst (requestToMsgId sha (KeygenReq k2 h2 v2)) = Some id ->
    k1 ≡ₚ k2.
Proof.
  intros sha n k1 k2 h1 h2 v1 v2 id U1 U2 Hc E1 E2.
  apply (keygen_material_inj n k1 k2 h1 h2 v1 v2 U1 U2), Hc.
  by rewrite (requestToMsgId_material sha _ _ E1), (requestToMsgId_material sha _ _ E2).
Qed.
Print Assumptions C124_keygen_id_injective.

Theorem C124_keysign_id_injective :
  forall (sha : bytes -> string) n p1 p2 m1 m2 s1 s2 h1 h2 v1 v2 id,
    uniform n s1 -> uniform n s2 -> length s1 = length s2 -> m1 <> [] -> m2 <> [] ->
    (forall m, m ∈ m1 -> no_comma m) -> (forall m, m ∈ m2 -> no_comma m) ->
    not_a_collision sha (material (KeysignReq p1 m1 s1 h1 v1)) (material (KeysignReq p2 m2 s2 h2 v2)) ->
    fst (requestToMsgId sha (KeysignReq p1 m1 s1 h1 v1)) = Some id ->
    fst (requestToMsgId sha (KeysignReq p2 m2 s2 h2 v2)) = Some id ->
    m1 ≡ₚ m2 /\ s1 ≡ₚ s2.
Proof.
  intros sha n p1 p2 m1 m2 s1 s2 h1 h2 v1 v2 id U1 U2 Hl N1 N2 C1 C2 Hc E1 E2.
  apply (keysign_material_inj n p1 p2 m1 m2 s1 s2 h1 h2 v1 v2); try done. apply Hc.
  by rewrite (requestToMsgId_material sha _ _ E1), (requestToMsgId_material sha _ _ E2).
Qed.
Print Assumptions C124_keysign_id_injective.

Example C124_example :
  let m1 := ["bXNnMQ=="; "bXNn"] in let s1 := ["k1"; "k2"] in
  uniform 2 s1 /\ (forall m, m ∈ m1 -> no_comma m) /\
  fst (requestToMsgId of_bytes (KeysignReq "p" m1 s1 1 "0.14.0")) = Some "bXNn,bXNnMQ==k1k2".
Proof.
  split_and!; [| |vm_compute; reflexivity].
  - split; [lia|]. intros k. rewrite !elem_of_cons, elem_of_nil. intros [-> | [-> | []]]; done.
  - intros m. rewrite !elem_of_cons, elem_of_nil. unfold no_comma.
    intros [-> | [-> | []]]; cbn; rewrite !elem_of_cons, elem_of_nil; intuition discriminate.
Qed.

(** ** C06 *)
Theorem C06_parties_order_independent :
  forall (key_bytes : string -> option bytes) keys1 keys2 loc,
    keys1 ≡ₚ keys2 -> GetParties key_bytes keys1 loc = GetParties key_bytes keys2 loc.
Proof. exact GetParties_perm. Qed.
Print Assumptions C06_parties_order_independent.

Theorem C06_party_table :
  forall (key_bytes : string -> option bytes) keys loc ps lp,
    GetParties key_bytes keys loc = Some (ps, lp) -> party_table_ok key_bytes keys loc ps lp.
Proof. exact GetParties_some. Qed.
Print Assumptions C06_party_table.

Theorem C06_parties_error :
  forall (key_bytes : string -> option bytes) keys loc,
    GetParties key_bytes keys loc = None <->
    (exists k, k ∈ keys /\ key_bytes k = None) \/ loc ∉ keys.
Proof. exact GetParties_none. Qed.
Print Assumptions C06_parties_error.

Example C06_example :
  (* "c" has the smallest key although it is the last string *)
  let kb := fun s => match to_bytes s with
                     | [c] => Some [ascii_of_N (200 - byte_val c)] | _ => None end in
  GetParties kb ["b"; "c"; "a"] "b" =
    Some ([Party "2" 101 0; Party "1" 102 1; Party "0" 103 2], Party "1" 102 1) /\
  GetParties kb ["b"; "c"; "a"] "z" = None /\ GetParties kb ["b"; "long"] "b" = None.
Proof. split_and!; vm_compute; reflexivity. Qed.

(** ** C07 *)
Theorem C07_hash_int :
  forall msg, MsgToHashInt msg = be_val (take 32 msg) /\ (MsgToHashInt msg < 2 ^ 256)%N.
Proof. intros msg. split; [apply MsgToHashInt_take|apply MsgToHashInt_bound]. Qed.
Print Assumptions C07_hash_int.

(** Two payloads get the same integer exactly when their first 32 bytes are the
    same up to leading zero bytes. *)
Theorem C07_hash_int_same :
  forall m1 m2, MsgToHashInt m1 = MsgToHashInt m2 <->
    strip_zeros (take 32 m1) = strip_zeros (take 32 m2).
Proof. intros m1 m2. rewrite !MsgToHashInt_take. apply be_val_strip_inj. Qed.
Print Assumptions C07_hash_int_same.

Example C07_example :
  MsgToHashInt (to_bytes "AB") = 16706%N /\
  MsgToHashInt (replicate 32 "A"%char ++ to_bytes "x") = MsgToHashInt (replicate 32 "A"%char ++ to_bytes "y").
Proof. split; vm_compute; reflexivity. Qed.
