(** Batch signing: C08, C09, C63, C95-C97. *)
From Coq Require Import NArith Ascii String List Lia.
From stdpp Require Import base list strings gmap sorting.
From Verif Require Import Base L_Base M_Conv M_Base64 S_Base64 L_Base64 M_Sort L_Sort M_Notifier S_Notifier
  M_Batch S_Batch L_Batch.

Local Open Scope string_scope.

(** *** Preliminaries *)

Section Batch.
  Variable sha : bytes -> string.

  Lemma msgsToSign_inv pool strs signers h v msgs :
    msgsToSign sha (KeysignReq pool strs signers h v) = Some msgs ->
    exists ps, payloads strs ps /\ msgs ≡ₚ ps /\
      StronglySorted N.ge (MsgToHashInt <$> msgs).
  Proof.
    unfold msgsToSign. simpl. destruct (decode_msgs (sort_strings strs)) as [l|] eqn:Hd; [|discriminate].
    intros [= <-]. apply decode_msgs_payloads in Hd.
    destruct (payloads_perm _ strs _ Hd) as (ps & Hps & Hp); [apply sort_strings_perm|].
    exists ps. split; [exact Hps|]. split; [|apply sort_msgs_desc].
    rewrite sort_msgs_perm. exact Hp.
  Qed.

  Lemma all_signed_sorted over msgs endCh : StronglySorted N.ge (MsgToHashInt <$> msgs) ->
    all_signed over msgs endCh ->
    length (sort_sigs endCh) = length msgs /\
    forall k m g, msgs !! k = Some m -> sort_sigs endCh !! k = Some g ->
      be_val (sg_M g) = MsgToHashInt m /\ over (MsgToHashInt m) g.
  Proof.
    intros Hs (sigs & Hp & Hf).
    assert (Heq : (fun g => be_val (sg_M g)) <$> sort_sigs endCh = MsgToHashInt <$> msgs).
    { apply desc_unique; [apply sort_sigs_desc|exact Hs|].
      transitivity ((fun g => be_val (sg_M g)) <$> sigs).
      { apply fmap_Permutation. rewrite sort_sigs_perm. exact Hp. }
      assert (H : (fun g => be_val (sg_M g)) <$> sigs = MsgToHashInt <$> msgs); [|exact (eq_ind _ (fun l => _ ≡ₚ l) (Permutation_refl _) _ H)].
      clear Hs Hp. induction Hf as [|m g msgs sigs [Hm _] Hf IH]; [reflexivity|].
      rewrite !fmap_cons. f_equal; [exact Hm|exact IH]. }
    split.
    - rewrite <- (fmap_length MsgToHashInt msgs), <- Heq, fmap_length. reflexivity.
    - intros k m g Hm Hg.
      assert (Hk : ((fun g => be_val (sg_M g)) <$> sort_sigs endCh) !! k = (MsgToHashInt <$> msgs) !! k)
        by (rewrite Heq; reflexivity).
      rewrite !list_lookup_fmap, Hm, Hg in Hk. simpl in Hk. injection Hk as Hk.
      split; [exact Hk|]. rewrite <- Hk.
      assert (Hin : g ∈ sigs).
      { rewrite <- Hp, <- (sort_sigs_perm endCh). eapply elem_of_list_lookup_2, Hg. }
      clear -Hf Hin. induction Hf as [|m g' msgs sigs [Hm Ho] Hf IH]; [inversion Hin|].
      apply elem_of_cons in Hin as [->|Hin]; [rewrite Hm; exact Ho|apply IH, Hin].
  Qed.

  (** ** C08. Whatever the order of the messages in the request and of the ends of
      the sessions, the answer has one entry per message of the request, and the
      k-th entry carries a signature over the integer of the k-th message. *)
  Theorem C08_signatures_next_to_their_messages over pool strs signers h v msgs endCh :
    strs <> [] ->
    msgsToSign sha (KeysignReq pool strs signers h v) = Some msgs ->
    all_signed over msgs endCh ->
    exists results resp ps sigs,
      collect (length msgs) [] endCh = Some results /\
      batchSignatures (sort_sigs results) msgs = Some resp /\
      payloads strs ps /\ (rs_msg <$> resp) ≡ₚ (EncodeToString <$> ps) /\
      sigs ≡ₚ endCh /\ length sigs = length resp /\
      forall k x, resp !! k = Some x -> exists m g,
        DecodeString (rs_msg x) = Some m /\ sigs !! k = Some g /\
        over (MsgToHashInt m) g /\
        rs_r x = EncodeToString (sg_R g) /\ rs_s x = EncodeToString (sg_S g) /\
        rs_recovery x = EncodeToString (sg_recovery g).
  Proof.
    intros Hne Hm Hs. destruct (msgsToSign_inv _ _ _ _ _ _ Hm) as (ps & Hps & Hp & Hd).
    destruct (all_signed_sorted over msgs endCh Hd Hs) as [Hlen Hk].
    assert (Hle : length endCh = length msgs).
    { rewrite <- Hlen. apply Permutation_length. symmetry. apply sort_sigs_perm. }
    assert (Hnil : endCh <> []).
    { intros ->. simpl in Hle. symmetry in Hle. apply nil_length_inv in Hle. subst msgs.
      apply Permutation_nil in Hp. subst ps. inversion Hps; congruence. }
    pose proof (collect_all endCh [] Hnil) as Hc. simpl in Hc. rewrite Hle in Hc.
    destruct (batch_loop_ok (sort_sigs endCh) 0 msgs) as (resp & Hr & Hrl & Hrk); [lia|].
    exists endCh, resp, ps, (sort_sigs endCh).
    split; [exact Hc|]. split; [exact Hr|]. split; [exact Hps|]. split.
    { transitivity (EncodeToString <$> msgs); [|apply fmap_Permutation; exact Hp].
      assert (Heq : rs_msg <$> resp = EncodeToString <$> msgs); [|exact (eq_ind _ (fun l => _ ≡ₚ l) (Permutation_refl _) _ Heq)].
      apply list_eq. intros k.
      rewrite !list_lookup_fmap.
      destruct (resp !! k) as [x|] eqn:Hx.
      - destruct (Hrk k x Hx) as (m & g & H1 & _ & ->). simpl in H1. rewrite H1. reflexivity.
      - apply lookup_ge_None in Hx. rewrite (proj2 (lookup_ge_None msgs k)) by lia. reflexivity. }
    split; [apply sort_sigs_perm|]. split; [lia|].
    intros k x Hx. destruct (Hrk k x Hx) as (m & g & H1 & H2 & ->). simpl in H1.
    exists m, g. simpl. split; [apply DecodeString_Encode|]. split; [exact H2|].
    split; [apply (Hk k m g H1 H2)|]. auto.
  Qed.

  (** ** C09. The sessions of two nodes that got the same messages in any order
      have the same identifiers and integers at the same positions. *)
  Theorem C09_same_identifiers pool strs1 strs2 signers1 signers2 h1 h2 v1 v2 :
    strs1 ≡ₚ strs2 ->
    (sessions <$> msgsToSign sha (KeysignReq pool strs1 signers1 h1 v1)) =
    (sessions <$> msgsToSign sha (KeysignReq pool strs2 signers2 h2 v2)).
  Proof.
    intros Hp. unfold msgsToSign. simpl. rewrite (sort_strings_eq _ _ Hp). reflexivity.
  Qed.

  (** Also when the nodes got different base64 strings of the same integers. *)
  Theorem C09_same_identifiers_by_value pool1 pool2 strs1 strs2 ps1 ps2 signers1 signers2 h1 h2 v1 v2 :
    payloads strs1 ps1 -> payloads strs2 ps2 ->
    MsgToHashInt <$> ps1 ≡ₚ MsgToHashInt <$> ps2 ->
    exists m1 m2,
      msgsToSign sha (KeysignReq pool1 strs1 signers1 h1 v1) = Some m1 /\
      msgsToSign sha (KeysignReq pool2 strs2 signers2 h2 v2) = Some m2 /\
      sessions m1 = sessions m2.
  Proof.
    intros H1 H2 Hp.
    assert (Hok : forall strs ps, payloads strs ps -> exists l, decode_msgs (sort_strings strs) = Some l /\ ps ≡ₚ l).
    { intros strs ps H. destruct (payloads_perm strs (sort_strings strs) ps H) as (l & Hl & Hpl);
        [symmetry; apply sort_strings_perm|]. exists l. split; [apply decode_msgs_payloads, Hl|exact Hpl]. }
    destruct (Hok _ _ H1) as (l1 & Hl1 & Hp1). destruct (Hok _ _ H2) as (l2 & Hl2 & Hp2).
    exists (sort_msgs l1), (sort_msgs l2). unfold msgsToSign. simpl. rewrite Hl1, Hl2.
    split; [reflexivity|]. split; [reflexivity|].
    apply sessions_by_int, desc_unique; [apply sort_msgs_desc|apply sort_msgs_desc|].
    transitivity (MsgToHashInt <$> ps1); [apply fmap_Permutation; rewrite sort_msgs_perm; symmetry; exact Hp1|].
    rewrite Hp. apply fmap_Permutation. rewrite sort_msgs_perm. exact Hp2.
  Qed.

  (** An identifier determines the position and the integer, on whatever node and
      in whatever batch. *)
  Theorem C09_identifiers_are_not_shared msgs1 msgs2 i j id m n :
    sessions msgs1 !! i = Some (id, m) -> sessions msgs2 !! j = Some (id, n) -> i = j /\ m = n.
  Proof.
    intros H1 H2. apply sessions_lookup in H1 as (x & _ & [= -> ->]).
    apply sessions_lookup in H2 as (y & _ & [= H ->]). apply moniker_inj in H. exact H.
  Qed.

  (** No session replaces another in the table: there are as many as messages,
      duplicates included, each with the integer of its message. *)
  Theorem C09_one_session_per_message msgs :
    size (partyMap msgs) = length msgs /\
    forall k m, msgs !! k = Some m -> exists id,
      partyMap msgs !! id = Some (MsgToHashInt m) /\
      forall k', fst <$> sessions msgs !! k' = Some id <-> k' = k.
  Proof.
    destruct (foldl_map_nodup (sessions msgs) ∅ (sessions_nodup msgs)) as (H1 & H2 & H3).
    { intros s _. apply lookup_empty. }
    unfold partyMap. split.
    - rewrite H1, map_size_empty. unfold sessions. rewrite imap_length. reflexivity.
    - intros k m Hk.
      assert (Hs : sessions msgs !! k = Some (moniker k (MsgToHashInt m), MsgToHashInt m)).
      { apply sessions_lookup. eauto. }
      exists (moniker k (MsgToHashInt m)). split.
      + apply (H2 (moniker k (MsgToHashInt m), MsgToHashInt m)). eapply elem_of_list_lookup_2, Hs.
      + intros k'. split.
        * intros Hk'. apply fmap_Some in Hk' as (s & Hs' & He).
          apply sessions_lookup in Hs' as (m' & _ & ->). simpl in He.
          apply moniker_inj in He as [-> _]. reflexivity.
        * intros ->. rewrite Hs. reflexivity.
  Qed.

  (** ** C95. The list a signer broadcasts is accepted by every node waiting with
      the same messages, in whatever order that node got them. The law of [verify]
      is that ecdsa.Verify looks at the message through the same integer. *)
  Theorem C95_honest_batch_is_accepted E id pool strs1 strs2 ps1 ps2 signers1 signers2 h1 h2 v1 v2 msgs1 msgs2 endCh n :
    (forall p m1 m2 r s, MsgToHashInt m1 = MsgToHashInt m2 -> ne_verify E p m1 r s = ne_verify E p m2 r s) ->
    payloads strs1 ps1 -> payloads strs2 ps2 -> MsgToHashInt <$> ps1 ≡ₚ MsgToHashInt <$> ps2 ->
    strs1 <> [] ->
    msgsToSign sha (KeysignReq pool strs1 signers1 h1 v1) = Some msgs1 ->
    msgsToSign sha (KeysignReq pool strs2 signers2 h2 v2) = Some msgs2 ->
    all_signed (fun z g => sg_signature g <> None /\
      forall m, MsgToHashInt m = z -> verifies E pool m g) msgs1 endCh ->
    NewNotifier id msgs2 pool = Some n ->
    ProcessSignature E n (sort_sigs endCh) = PsDeliver.
  Proof.
    intros Hlaw Hp1 Hp2 Hp Hne Hm1 Hm2 Hs Hn.
    destruct (msgsToSign_inv _ _ _ _ _ _ Hm1) as (ps1' & Hps1 & Hpp1 & Hd1).
    destruct (msgsToSign_inv _ _ _ _ _ _ Hm2) as (ps2' & Hps2 & Hpp2 & Hd2).
    assert (Hfun : forall strs a b, payloads strs a -> payloads strs b -> a = b).
    { intros strs a b Ha Hb. apply decode_msgs_payloads in Ha, Hb. congruence. }
    rewrite (Hfun _ _ _ Hps1 Hp1) in Hpp1. rewrite (Hfun _ _ _ Hps2 Hp2) in Hpp2.
    assert (Heq : MsgToHashInt <$> msgs1 = MsgToHashInt <$> msgs2).
    { apply desc_unique; [exact Hd1|exact Hd2|].
      rewrite (fmap_Permutation MsgToHashInt _ _ Hpp1), (fmap_Permutation MsgToHashInt _ _ Hpp2). exact Hp. }
    destruct (all_signed_sorted _ msgs1 endCh Hd1 Hs) as [Hlen Hk].
    assert (Hl2 : length msgs2 = length msgs1).
    { rewrite <- (fmap_length MsgToHashInt msgs1), Heq, fmap_length. reflexivity. }
    unfold NewNotifier in Hn.
    destruct (Nat.eqb (String.length id) 0); [discriminate|].
    destruct (Nat.eqb (length msgs2) 0) eqn:H0; [discriminate|]. apply Nat.eqb_neq in H0.
    destruct (Nat.eqb (String.length pool) 0); [discriminate|]. injection Hn as <-.
    unfold ProcessSignature. simpl.
    destruct (sort_sigs endCh) as [|g0 rest] eqn:Hsort; [simpl in Hlen; lia|]. rewrite <- Hsort in *.
    clear Hsort g0 rest.
    assert (Hloop : forall sigs i, i + length sigs = length msgs2 ->
      (forall k g, sigs !! k = Some g -> sort_sigs endCh !! (i + k) = Some g) ->
      verify_loop E pool msgs2 i sigs = PsDeliver).
    { induction sigs as [|g sigs IH]; intros i Hi Hg; [reflexivity|]. simpl. simpl in Hi.
      destruct (lookup_lt_is_Some_2 msgs2 i) as (m2 & Hmi); [lia|]. rewrite Hmi.
      destruct (lookup_lt_is_Some_2 msgs1 i) as (m1 & Hmi1); [lia|].
      pose proof (Hg 0 g eq_refl) as Hg0. rewrite Nat.add_0_r in Hg0.
      destruct (Hk i m1 g Hmi1 Hg0) as (_ & Hnn & Hv).
      destruct (sg_signature g); [|congruence].
      assert (He : MsgToHashInt m2 = MsgToHashInt m1).
      { assert (H : (MsgToHashInt <$> msgs1) !! i = (MsgToHashInt <$> msgs2) !! i) by (rewrite Heq; reflexivity).
        rewrite !list_lookup_fmap, Hmi, Hmi1 in H. simpl in H. congruence. }
      destruct (Hv m2 He) as (p & Hpt & Hver). unfold verifySignature. rewrite Hpt, Hver.
      apply IH; [lia|]. intros k g' Hk'. rewrite Nat.add_succ_l, <- Nat.add_succ_r. apply Hg. exact Hk'. }
    apply Hloop; [simpl; lia|]. intros k g H. exact H.
  Qed.

  (** ** C96. Two nodes whose sessions produced the same signatures answer the same,
      whatever the order of the messages and of the ends of the sessions, when the
      integers of the messages are distinct. *)
  Theorem C96_nodes_answer_the_same over pool strs1 strs2 signers1 signers2 h1 h2 v1 v2 msgs1 msgs2 endCh1 endCh2 :
    strs1 ≡ₚ strs2 ->
    msgsToSign sha (KeysignReq pool strs1 signers1 h1 v1) = Some msgs1 ->
    msgsToSign sha (KeysignReq pool strs2 signers2 h2 v2) = Some msgs2 ->
    NoDup (MsgToHashInt <$> msgs1) ->
    all_signed over msgs1 endCh1 -> endCh1 ≡ₚ endCh2 ->
    sort_sigs endCh1 = sort_sigs endCh2 /\
    batchSignatures (sort_sigs endCh1) msgs1 = batchSignatures (sort_sigs endCh2) msgs2.
  Proof.
    intros Hp Hm1 Hm2 Hnd Hs1 He.
    assert (msgs2 = msgs1) as ->.
    { unfold msgsToSign in Hm1, Hm2. simpl in Hm1, Hm2. rewrite (sort_strings_eq _ _ Hp) in Hm1. congruence. }
    destruct (msgsToSign_inv _ _ _ _ _ _ Hm1) as (ps & _ & _ & Hd).
    assert (Hs2 : all_signed over msgs1 endCh2).
    { destruct Hs1 as (sigs & Hps & Hf). exists sigs. split; [|exact Hf]. rewrite <- He. exact Hps. }
    destruct (all_signed_sorted _ _ _ Hd Hs1) as [Hl1 Hk1].
    destruct (all_signed_sorted _ _ _ Hd Hs2) as [Hl2 Hk2].
    assert (Hsame : sort_sigs endCh1 = sort_sigs endCh2); [|rewrite Hsame; auto].
    apply list_eq_same_length with (length msgs1); [exact Hl2|congruence|].
    intros k g1 g2 Hlt Hg1 Hg2.
    destruct (lookup_lt_is_Some_2 msgs1 k Hlt) as (m & Hm).
    destruct (Hk1 _ _ _ Hm Hg1) as [Hv1 _].
    assert (Hin : g1 ∈ sort_sigs endCh2).
    { rewrite sort_sigs_perm, <- He, <- sort_sigs_perm. eapply elem_of_list_lookup_2, Hg1. }
    apply elem_of_list_lookup in Hin as (k' & Hk').
    assert (Hlt' : (k' < length msgs1)%nat) by (apply lookup_lt_Some in Hk'; lia).
    destruct (lookup_lt_is_Some_2 msgs1 k' Hlt') as (m' & Hm').
    destruct (Hk2 _ _ _ Hm' Hk') as [Hv2 _].
    assert (k = k').
    { eapply (NoDup_lookup _ _ _ (MsgToHashInt m) Hnd); rewrite list_lookup_fmap.
      - rewrite Hm. reflexivity.
      - rewrite Hm'. simpl. congruence. }
    subst k'. congruence.
  Qed.

  (** ** C97. The code never indexes outside the messages when it answers with at
      most as many signatures as messages, and always does with more. *)
  Theorem C97_answer_panics_exactly_on_excess sigs msgs :
    batchSignatures sigs msgs = None <-> length msgs < length sigs.
  Proof.
    unfold batchSignatures. split.
    - intros H. destruct (Nat.lt_ge_cases (length msgs) (length sigs)) as [Hl|Hl]; [exact Hl|].
      destruct (batch_loop_ok sigs 0 msgs) as (r & Hr & _); [lia|]. congruence.
    - intros H. apply batch_loop_panic; [lia|]. intros ->. simpl in H. lia.
  Qed.
End Batch.

Print Assumptions C08_signatures_next_to_their_messages.
Print Assumptions C09_same_identifiers.
Print Assumptions C09_same_identifiers_by_value.
Print Assumptions C09_identifiers_are_not_shared.
Print Assumptions C09_one_session_per_message.
Print Assumptions C95_honest_batch_is_accepted.
Print Assumptions C96_nodes_answer_the_same.
Print Assumptions C97_answer_panics_exactly_on_excess.

(** ** C63. What is encoded decodes to itself. *)
Theorem C63_payload_round_trip b : DecodeString (EncodeToString b) = Some b.
Proof. apply DecodeString_Encode. Qed.
Print Assumptions C63_payload_round_trip.

(** A decodable string comes back unchanged exactly when it is canonical. *)
Theorem C63_string_round_trip s b :
  DecodeString s = Some b -> (EncodeToString b = s <-> canonical (to_bytes s)).
Proof.
  intros Hd. unfold EncodeToString, DecodeString in *. split.
  - intros <-. rewrite to_of_bytes. apply encode_canonical.
  - intros Hc. apply canonical_encode in Hc as (b' & Hb). rewrite Hb, decode_encode in Hd.
    injection Hd as ->. rewrite <- Hb. apply of_to_bytes.
Qed.
Print Assumptions C63_string_round_trip.

(** Canonical strings are decodable. *)
Theorem C63_canonical_is_decodable s : canonical (to_bytes s) -> exists b, DecodeString s = Some b.
Proof.
  intros Hc. apply canonical_encode in Hc as (b & Hb). exists b.
  unfold DecodeString. rewrite Hb. apply decode_encode.
Qed.
Print Assumptions C63_canonical_is_decodable.

(** Different payloads have different strings in the answer. *)
Theorem C63_strings_are_not_shared a b : EncodeToString a = EncodeToString b -> a = b.
Proof. apply EncodeToString_inj. Qed.
Print Assumptions C63_strings_are_not_shared.

(** *** Concrete cases *)

Definition toy_sha (b : bytes) : string := of_bytes b.
(** "world", "hello", "world" again, and "hello" with a leading zero byte, which is
    the same integer as "hello". *)
Definition toy_strs : list string := ["d29ybGQ="; "aGVsbG8="; "d29ybGQ="; "AGhlbGxv"].
Definition toy_req : request := KeysignReq "pool" toy_strs ["a"] 10 "0.14.0".
Definition toy_msgs : list bytes :=
  [to_bytes "world"; to_bytes "world"; to_bytes "hello"; Ascii.zero :: to_bytes "hello"].
(** The signature number [i] of an integer; here R is the number and S the integer. *)
Definition toy_sig (i : nat) (m : bytes) : ecsig :=
  EcSig (Some (to_bytes "s")) (to_bytes "v") (to_bytes (itoa (N.of_nat i))) m m.
Definition toy_sigs : list ecsig := imap toy_sig toy_msgs.
(** The sessions end in the order 3, 1, 0, 2. *)
Definition toy_end : list ecsig :=
  [toy_sig 3 (Ascii.zero :: to_bytes "hello"); toy_sig 1 (to_bytes "world");
   toy_sig 0 (to_bytes "world"); toy_sig 2 (to_bytes "hello")].

Example toy_msgsToSign : msgsToSign toy_sha toy_req = Some toy_msgs.
Proof. vm_compute. reflexivity. Qed.
Example toy_sessions : fst <$> sessions toy_msgs =
  ["512970878052:0"; "512970878052:1"; "448378203247:2"; "448378203247:3"].
Proof. vm_compute. reflexivity. Qed.
Example toy_end_perm : toy_end ≡ₚ toy_sigs.
Proof.
  change toy_sigs with [toy_sig 0 (to_bytes "world"); toy_sig 1 (to_bytes "world");
    toy_sig 2 (to_bytes "hello"); toy_sig 3 (Ascii.zero :: to_bytes "hello")].
  unfold toy_end. generalize (toy_sig 3 (Ascii.zero :: to_bytes "hello")), (toy_sig 1 (to_bytes "world")),
    (toy_sig 0 (to_bytes "world")), (toy_sig 2 (to_bytes "hello")).
  intros a b c d. rewrite (Permutation_app_comm [a] [b; c; d]). simpl. rewrite (Permutation_swap c b). reflexivity.
Qed.
Example toy_all_signed :
  all_signed (fun z g => sg_signature g <> None /\ be_val (sg_S g) = z) toy_msgs toy_end.
Proof.
  exists toy_sigs. split; [exact toy_end_perm|].
  repeat (constructor; [split; [vm_compute; reflexivity|split; [discriminate|vm_compute; reflexivity]]|]). constructor.
Qed.
(** The answer of C08 for this case: both "world" first, the two forms of "hello"
    after them. *)
Example toy_answer :
  option_map (map rs_msg) (batchSignatures (sort_sigs toy_end) toy_msgs) =
  Some ["d29ybGQ="; "d29ybGQ="; "aGVsbG8="; "AGhlbGxv"].
Proof. vm_compute. reflexivity. Qed.
(** With equal integers the order of the signatures does depend on the order of the
    ends: the hypothesis of C96 is needed. *)
Example toy_duplicates_differ : sort_sigs toy_end <> sort_sigs toy_sigs.
Proof.
  intros H. apply (f_equal (map (fun g => of_bytes (sg_R g)))) in H. vm_compute in H. discriminate H.
Qed.
(** Hypotheses of C96: two distinct messages. *)
Example toy_distinct : exists msgs,
  msgsToSign toy_sha (KeysignReq "pool" ["d29ybGQ="; "aGVsbG8="] ["a"] 10 "0.14.0") = Some msgs /\
  NoDup (MsgToHashInt <$> msgs) /\
  all_signed (fun _ _ => True) msgs [toy_sig 1 (to_bytes "hello"); toy_sig 0 (to_bytes "world")].
Proof.
  exists [to_bytes "world"; to_bytes "hello"]. split; [vm_compute; reflexivity|]. split.
  - change (NoDup [512970878052%N; 448378203247%N]). repeat constructor; set_solver.
  - exists [toy_sig 0 (to_bytes "world"); toy_sig 1 (to_bytes "hello")]. split; [apply Permutation_swap|].
    repeat (constructor; [split; [vm_compute; reflexivity|exact Logic.I]|]). constructor.
Qed.
(** Hypotheses of C95: "verification" compares S with the integer, a node that got
    the messages in another order and another encoding waits. *)
Definition toy_env : nenv :=
  NEnv (fun _ => Some (0, 0)%N) (fun _ m _ s => N.eqb (MsgToHashInt m) s)
    (fun _ => None) (fun _ => None) (fun _ => None) (fun _ => None).
Example toy_accepted : exists n msgs2,
  msgsToSign toy_sha (KeysignReq "pool" ["AGhlbGxv"; "AGhlbGxv"; "d29ybGR="; "d29ybGQ="] [] 1 "0.14.0") = Some msgs2 /\
  NewNotifier "id" msgs2 "pool" = Some n /\ ProcessSignature toy_env n (sort_sigs toy_end) = PsDeliver /\
  all_signed (fun z g => sg_signature g <> None /\
      forall m, MsgToHashInt m = z -> verifies toy_env "pool" m g) toy_msgs toy_end.
Proof.
  eexists _, [to_bytes "world"; to_bytes "world"; Ascii.zero :: to_bytes "hello"; Ascii.zero :: to_bytes "hello"].
  split; [vm_compute; reflexivity|]. split; [reflexivity|]. split; [vm_compute; reflexivity|].
  destruct toy_all_signed as (sigs & Hp & Hf). exists sigs. split; [exact Hp|].
  eapply Forall2_impl; [exact Hf|]. intros m g (H1 & H2 & H3). split; [exact H1|]. split; [exact H2|].
  intros m' Hm'. exists (0, 0)%N. split; [reflexivity|]. apply N.eqb_eq. congruence.
Qed.
(** Non-canonical strings: the unused bits are not zero, or there is a line end.
    Both decode to "A", whose string is "QQ==". *)
Example toy_noncanonical :
  DecodeString "QR==" = Some (to_bytes "A") /\
  DecodeString (of_bytes (to_bytes "Q" ++ [ascii_of_N 10] ++ to_bytes "Q==")) = Some (to_bytes "A") /\
  EncodeToString (to_bytes "A") = "QQ==" /\ canonical (to_bytes "QQ==").
Proof.
  repeat split; try (vm_compute; reflexivity).
  apply (can_one _ _ 16 16); reflexivity.
Qed.
(** More signatures than messages. *)
Example toy_excess : batchSignatures toy_sigs [to_bytes "world"] = None.
Proof. vm_compute. reflexivity. Qed.
