(** Which strings are messages, and what they stand for: C181, C182. *)
From Coq Require Import ZArith NArith Ascii String List Lia.
From stdpp Require Import base list strings gmap sorting.
From Verif Require Import Base L_Base M_Conv S_Conv L_Conv M_Base64 S_Base64 L_Base64 L_Base64b M_Batch S_Batch P_Conv.

Local Open Scope string_scope.

(** ** C181. A string is decoded to a payload exactly when it stands for it. *)
Theorem C181_decodes_exactly s b : DecodeString s = Some b <-> decodes_to (to_bytes s) b.
Proof. apply decode_iff. Qed.
Print Assumptions C181_decodes_exactly.

(** A string stands for one payload at most, and what the answer says stands for the
    payload that the string of the request stands for. *)
Theorem C181_answer_stands_for_the_same s b :
  decodes_to (to_bytes s) b ->
  decodes_to (to_bytes (EncodeToString b)) b /\ forall b', decodes_to (to_bytes s) b' -> b' = b.
Proof.
  intros H. split.
  - apply C181_decodes_exactly, DecodeString_Encode.
  - intros b' H'. apply C181_decodes_exactly in H, H'. congruence.
Qed.
Print Assumptions C181_answer_stands_for_the_same.

(** "AB" and "==" on two lines stand for one zero byte; so does "AA==". A missing or
    excess "=", a character after it or a space make the text unreadable. *)
Example C181_case :
  decodes_to (to_bytes (String "A" (String "B" (String "010" "==")))) ["000"%char] /\
  decodes_to (to_bytes "AA==") ["000"%char] /\
  (forall b, ~ decodes_to (to_bytes "AA=") b) /\ (forall b, ~ decodes_to (to_bytes "A===") b) /\
  (forall b, ~ decodes_to (to_bytes "AA==AAAA") b) /\ (forall b, ~ decodes_to (to_bytes "AA= =") b).
Proof.
  split_and!; try (intros b H); try (apply C181_decodes_exactly in H; discriminate H);
    apply C181_decodes_exactly; reflexivity.
Qed.

(** ** C182. Requests for the same payloads have the same id when their messages are
    canonical. *)
Theorem C182_canonical_same_id sha p1 p2 strs1 strs2 ps1 ps2 s1 s2 h1 h2 v1 v2 :
  Forall (fun s => canonical (to_bytes s)) strs1 -> Forall (fun s => canonical (to_bytes s)) strs2 ->
  Forall2 (fun s b => decodes_to (to_bytes s) b) strs1 ps1 ->
  Forall2 (fun s b => decodes_to (to_bytes s) b) strs2 ps2 ->
  ps1 ≡ₚ ps2 -> s1 ≡ₚ s2 ->
  fst (requestToMsgId sha (KeysignReq p1 strs1 s1 h1 v1)) = fst (requestToMsgId sha (KeysignReq p2 strs2 s2 h2 v2)).
Proof.
  intros C1 C2 D1 D2 Hp Hs.
  assert (Hstr : forall strs ps, Forall (fun s => canonical (to_bytes s)) strs ->
    Forall2 (fun s b => decodes_to (to_bytes s) b) strs ps -> strs = EncodeToString <$> ps).
  { intros strs ps HC HD. induction HD as [|s b strs ps Hb _ IH]; [reflexivity|].
    apply Forall_cons in HC as [Hc HC]. cbn. f_equal; [|apply IH, HC].
    apply canonical_encode in Hc as (b' & Hb'). apply C181_decodes_exactly in Hb.
    unfold DecodeString in Hb. rewrite Hb', decode_encode in Hb. injection Hb as ->.
    unfold EncodeToString. rewrite <- Hb'. symmetry. apply of_to_bytes. }
  rewrite (Hstr _ _ C1 D1), (Hstr _ _ C2 D2). cbn [requestToMsgId fst].
  rewrite (sort_strings_eq _ _ (fmap_Permutation EncodeToString _ _ Hp)), (sort_strings_eq _ _ Hs). reflexivity.
Qed.
Print Assumptions C182_canonical_same_id.

(** With another spelling of the same payload the id is another, unless the hash
    collides: the nodes do not meet although they would sign the same. *)
Theorem C182_spelling_changes_the_id sha pool signers h v s s' b :
  decodes_to (to_bytes s) b -> decodes_to (to_bytes s') b -> s <> s' ->
  not_a_collision sha (material (KeysignReq pool [s] signers h v)) (material (KeysignReq pool [s'] signers h v)) ->
  msgsToSign sha (KeysignReq pool [s] signers h v) = msgsToSign sha (KeysignReq pool [s'] signers h v) /\
  fst (requestToMsgId sha (KeysignReq pool [s] signers h v)) <> fst (requestToMsgId sha (KeysignReq pool [s'] signers h v)).
Proof.
  intros H1 H2 Hne Hc. apply C181_decodes_exactly in H1, H2.
  assert (Hone : forall x : string, sort_strings [x] = [x]).
  { intros x. pose proof (sort_strings_perm [x]) as Hp. symmetry in Hp. apply Permutation_singleton_l in Hp. exact Hp. }
  split.
  - unfold msgsToSign. cbn [requestToMsgId snd]. rewrite !Hone. cbn [decode_msgs]. rewrite H1, H2. reflexivity.
  - intros He. assert (Hm : material (KeysignReq pool [s] signers h v) = material (KeysignReq pool [s'] signers h v)).
    { revert He Hc. cbn [requestToMsgId fst material]. unfold MsgToHashString, not_a_collision.
      destruct (to_bytes (join_strings "," (sort_strings [s])) ++ _)%list as [|c1 t1],
        (to_bytes (join_strings "," (sort_strings [s'])) ++ _)%list as [|c2 t2]; intros He Hc;
        [reflexivity|discriminate|discriminate|]. apply Hc. congruence. }
    cbn [material] in Hm. rewrite !Hone in Hm. apply app_inv_tail, to_bytes_inj in Hm. exact (Hne Hm).
Qed.
Print Assumptions C182_spelling_changes_the_id.

Example C182_case :
  let r1 := KeysignReq "pool" ["AA=="; "bXNn"] ["k1"; "k2"] 10 "0.14.0" in
  let r2 := KeysignReq "pool" ["bXNn"; "AA=="] ["k2"; "k1"] 10 "0.14.0" in
  Forall (fun s => canonical (to_bytes s)) ["AA=="; "bXNn"] /\
  fst (requestToMsgId of_bytes r1) = fst (requestToMsgId of_bytes r2) /\
  decodes_to (to_bytes "AA==") ["000"%char] /\ decodes_to (to_bytes "AB==") ["000"%char] /\
  fst (requestToMsgId of_bytes (KeysignReq "pool" ["AA=="] ["k1"] 10 "0.14.0")) = Some "AA==k1" /\
  fst (requestToMsgId of_bytes (KeysignReq "pool" ["AB=="] ["k1"] 10 "0.14.0")) = Some "AB==k1".
Proof.
  split_and!; try (apply C181_decodes_exactly); try reflexivity.
  repeat constructor.
  - eapply can_one with (na := 0) (nb := 0); reflexivity.
  - eapply can_more with (na := 27) (nb := 23) (nc := 13) (nd := 39); try reflexivity. constructor.
Qed.
