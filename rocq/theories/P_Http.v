(** The HTTP endpoints: C57, C114-C116. *)
From Coq Require Import ZArith NArith Ascii String List Lia.
From stdpp Require Import base list strings.
From Verif Require Import Base L_Base M_Conv M_Base64 L_Base64 M_Batch M_Common M_KeySign M_Utf8 S_Utf8 L_Utf8 M_Json L_Json S_Json L_JsonSpec M_Storage L_Storage M_Keygen
  M_Http S_Http L_Http L_Path.

Local Open Scope string_scope.

(** *** Names *)

Definition lowercase (c : ascii) : bool := (negb (N.leb 65 (byte_val c) && N.leb (byte_val c) 90) && N.ltb (byte_val c) 128)%bool.
Lemma lowercase_spec b : lowercase b = true <-> ~ is_upper b /\ (byte_val b < 128)%N.
Proof.
  unfold lowercase, is_upper. rewrite andb_true_iff, negb_true_iff, N.ltb_lt. split; intros [H1 H2]; (split; [|exact H2]).
  - intros [H3 H4]. apply N.leb_le in H3, H4. rewrite H3, H4 in H1. discriminate.
  - destruct (N.leb_spec 65 (byte_val b)), (N.leb_spec (byte_val b) 90); cbn; try reflexivity. lia.
Qed.
Lemma lower_same a b : lowercase b = true -> (lower a = b <-> same_letter a b).
Proof.
  rewrite lowercase_spec. unfold lower, same_letter. intros [Hb _]. split.
  - intros <-. destruct ((65 <=? byte_val a)%N && (byte_val a <=? 90)%N)%bool eqn:E; [|left; reflexivity].
    apply andb_prop in E as [E1 E2]. apply N.leb_le in E1, E2. right. left. split; [split; lia|].
    unfold byte_val. rewrite N_ascii_embedding; [reflexivity|]. unfold byte_val in *. lia.
  - intros [->|[[[H1 H2] He]|[H _]]].
    + destruct ((65 <=? byte_val b)%N && (byte_val b <=? 90)%N)%bool eqn:E; [|reflexivity].
      apply andb_prop in E as [E1 E2]. apply N.leb_le in E1, E2. exfalso. apply Hb. split; lia.
    + apply N.leb_le in H1, H2. rewrite H1, H2. cbn [andb]. rewrite <- He. unfold byte_val. apply ascii_N_embedding.
    + contradiction.
Qed.
Lemma same_ascii a b : same_letter a b -> (byte_val b < 128)%N -> (byte_val a < 128)%N.
Proof. unfold same_letter, is_upper. intros [->|[[X Y]|[X Y]]] Hl; lia. Qed.
Lemma fold_ascii a l : (byte_val a < 128)%N -> fold_bytes (a :: l) = lower a :: fold_bytes l.
Proof.
  intros H. destruct l as [|b l]; [reflexivity|]. cbn [fold_bytes]. unfold is_byte.
  destruct (N.eqb_spec (byte_val a) 0xC5); [lia|]. destruct (N.eqb_spec (byte_val a) 0xE2); [lia|]. cbn [andb]. destruct l; reflexivity.
Qed.
Lemma fold_spelled l n : forallb lowercase n = true -> (fold_bytes l = n <-> spelled l n).
Proof.
  intros Hn. split.
  - intros <-. assert (Hf : forall k l, length l <= k -> forallb lowercase (fold_bytes l) = true -> spelled l (fold_bytes l)).
    { clear l Hn. intros k. induction k as [|k IH]; intros l Hl Hn; [destruct l; [constructor|simpl in Hl; lia]|].
      assert (Hsame : forall a, lowercase (lower a) = true -> same_letter a (lower a)) by (intros a Ha; apply lower_same; [exact Ha|reflexivity]).
      destruct l as [|a [|b l]]; [constructor|constructor; [|constructor]|].
      { apply Hsame. cbn [fold_bytes forallb] in Hn. apply andb_prop in Hn as [Hn _]. exact Hn. }
      cbn [fold_bytes] in *. destruct (is_byte 0xC5 a && is_byte 0xBF b)%bool eqn:E1.
      { apply andb_prop in E1 as [Ea Eb]. apply N.eqb_eq in Ea, Eb. apply sp_long_s; [assumption..|left; reflexivity|].
        cbn [forallb] in Hn. apply andb_prop in Hn as [_ Hn]. apply IH; [simpl in Hl; lia|exact Hn]. }
      destruct l as [|c l].
      { cbn [forallb] in Hn. apply andb_prop in Hn as [Ha Hn]. apply sp_letter; [apply Hsame, Ha|]. apply (IH [b]); [simpl in *; lia|exact Hn]. }
      destruct (is_byte 0xE2 a && is_byte 0x84 b && is_byte 0xAA c)%bool eqn:E2.
      { apply andb_prop in E2 as [E2 Ec]. apply andb_prop in E2 as [Ea Eb]. apply N.eqb_eq in Ea, Eb, Ec.
        apply sp_kelvin; [assumption..|left; reflexivity|].
        cbn [forallb] in Hn. apply andb_prop in Hn as [_ Hn]. apply IH; [simpl in Hl; lia|exact Hn]. }
      cbn [forallb] in Hn. apply andb_prop in Hn as [Ha Hn]. apply sp_letter; [apply Hsame, Ha|]. apply (IH (b :: c :: l)); [simpl in *; lia|exact Hn]. }
    apply (Hf (length l)); [lia|exact Hn].
  - intros H. revert Hn. induction H as [|a b l n Hs _ IH|a b c l n Ha Hb Hc _ IH|a b c d l n Ha Hb Hc Hd _ IH]; intros Hn;
      [reflexivity|cbn [forallb] in Hn; apply andb_prop in Hn as [Hx Hn]; specialize (IH Hn)..].
    + assert (Hl := Hx). apply lowercase_spec in Hl as [_ Hl]. rewrite fold_ascii by (eapply same_ascii; eassumption).
      rewrite IH. f_equal. apply lower_same; assumption.
    + cbn [fold_bytes]. unfold is_byte. rewrite Ha, Hb. cbn [N.eqb Pos.eqb andb]. rewrite IH. f_equal.
      destruct Hc as [->| ->]; [reflexivity|discriminate Hx].
    + cbn [fold_bytes]. unfold is_byte. rewrite Ha, Hb, Hc. cbn [N.eqb Pos.eqb andb]. rewrite IH. f_equal.
      destruct Hd as [->| ->]; [reflexivity|discriminate Hx].
Qed.
Lemma named_iff k name : forallb lowercase (to_bytes name) = true -> (String.eqb (fold_name k) name = true <-> named k name).
Proof.
  intros Hn. rewrite String.eqb_eq. unfold fold_name, named. rewrite <- fold_spelled by exact Hn.
  split; [intros <-; symmetry; apply to_of_bytes|]. intros ->. apply of_to_bytes.
Qed.

(** *** Values *)

Lemma put_string_ok v old : text_or_null v <-> exists s, put_string v old = Some s.
Proof.
  unfold text_or_null. split.
  - intros [->|(s & ->)]; simpl; eauto.
  - destruct v; intros (t & H); simpl in H; try discriminate; eauto.
Qed.
Lemma put_strings_ok l : Forall text_or_null l <-> exists s, put_strings l = Some s.
Proof.
  induction l as [|v l IH]; [split; [exists []; reflexivity|constructor]|]. cbn [put_strings]. rewrite Forall_cons, (put_string_ok v ""), IH. split.
  - intros ((s & ->) & (t & ->)). eauto.
  - intros (s & H). destruct (put_string v "") eqn:E1; [|discriminate]. destruct (put_strings l) eqn:E2; [|discriminate]. eauto.
Qed.
Lemma put_list_ok v : texts_or_null v <-> exists s, put_list v = Some s.
Proof.
  unfold texts_or_null. split.
  - intros [->|(l & -> & H)]; [simpl; eauto|]. apply put_strings_ok, H.
  - destruct v as [| | | |l| |]; intros (t & H); simpl in H; try discriminate; eauto. right. exists l. split; [reflexivity|].
    apply put_strings_ok. eauto.
Qed.
Lemma put_int64_ok v old : number_or_null v <-> exists z, put_int64 v old = Some z.
Proof.
  unfold number_or_null, int64, put_int64. split.
  - intros [->|(z & -> & H1 & H2)]; [eauto|]. apply Z.leb_le in H1. apply Z.ltb_lt in H2. rewrite H1, H2. simpl. eauto.
  - destruct v as [| |z| | | |]; intros (t & H); try discriminate; eauto.
    destruct (Z.leb (- 2 ^ 63) z) eqn:E1; [|discriminate]. destruct (Z.ltb z (2 ^ 63)) eqn:E2; [|discriminate].
    right. exists z. split; [reflexivity|]. split; [apply Z.leb_le, E1|apply Z.ltb_lt, E2].
Qed.

Lemma named_refl n : named n n.
Proof. unfold named. induction (to_bytes n); constructor; [left; reflexivity|assumption]. Qed.
Lemma named_not k a b : forallb lowercase (to_bytes a) = true -> forallb lowercase (to_bytes b) = true -> a <> b ->
  named k a -> ~ named k b.
Proof.
  intros Ha Hb Hne H1 H2. apply (named_iff k a Ha), String.eqb_eq in H1. apply (named_iff k b Hb), String.eqb_eq in H2. congruence.
Qed.

Lemma put_keygen_none l : fold_left put_keygen l None = None.
Proof. induction l; [reflexivity|exact IHl]. Qed.
Lemma put_keysign_none l : fold_left put_keysign l None = None.
Proof. induction l; [reflexivity|exact IHl]. Qed.

Ltac by_name k n :=
  let E := fresh "E" in
  assert (E := named_iff k n eq_refl); destruct (String.eqb (fold_name k) n).

Lemma keygen_fill l acc :
  Forall (fun kv =>
    (named (fst kv) "keys" -> texts_or_null (snd kv)) /\
    (named (fst kv) "block_height" -> number_or_null (snd kv)) /\
    (named (fst kv) "tss_version" -> text_or_null (snd kv))) l <->
  exists r, fold_left put_keygen l (Some acc) = Some r.
Proof.
  revert acc. induction l as [|[k x] l IH]; intros [[keys h] v]; [split; [eexists; reflexivity|constructor]|].
  rewrite Forall_cons. cbn [fold_left fst snd]. unfold put_keygen at 2. cbn [fst snd].
  by_name k "keys"; [|by_name k "block_height"; [|by_name k "tss_version"]].
  - assert (Hk : named k "keys") by (apply E; reflexivity). rewrite (put_list_ok x). split.
    + intros [(H & _) Hl]. destruct (H Hk) as (s & ->). apply IH, Hl.
    + intros (r & H). destruct (put_list x) as [s|] eqn:Ex; [|rewrite put_keygen_none in H; discriminate].
      split; [|apply (IH (s, h, v)); eauto]. split; [eauto|].
      split; intros Hn; exfalso; revert Hn; eapply named_not; try exact Hk; (reflexivity || discriminate).
  - assert (Hk : named k "block_height") by (apply E0; reflexivity). rewrite (put_int64_ok x h). split.
    + intros [(_ & H & _) Hl]. destruct (H Hk) as (s & ->). apply IH, Hl.
    + intros (r & H). destruct (put_int64 x h) as [s|] eqn:Ex; [|rewrite put_keygen_none in H; discriminate].
      split; [|apply (IH (keys, s, v)); eauto]. split; [|split; [eauto|]];
      intros Hn; exfalso; revert Hn; eapply named_not; try exact Hk; (reflexivity || discriminate).
  - assert (Hk : named k "tss_version") by (apply E1; reflexivity). rewrite (put_string_ok x v). split.
    + intros [(_ & _ & H) Hl]. destruct (H Hk) as (s & ->). apply IH, Hl.
    + intros (r & H). destruct (put_string x v) as [s|] eqn:Ex; [|rewrite put_keygen_none in H; discriminate].
      split; [|apply (IH (keys, h, s)); eauto]. split; [|split; [|eauto]];
      intros Hn; exfalso; revert Hn; eapply named_not; try exact Hk; (reflexivity || discriminate).
  - assert (forall n, (false = true <-> named k n) -> ~ named k n) as Hno by (intros n [_ H] Hn; apply H in Hn; discriminate).
    apply Hno in E, E0, E1. split; [intros [_ Hl]; apply IH, Hl|]. intros H. split; [tauto|]. apply (IH (keys, h, v)), H.
Qed.

Lemma keysign_fill l acc :
  Forall (fun kv =>
    (named (fst kv) "pool_pub_key" -> text_or_null (snd kv)) /\
    (named (fst kv) "messages" -> texts_or_null (snd kv)) /\
    (named (fst kv) "signer_pub_keys" -> texts_or_null (snd kv)) /\
    (named (fst kv) "block_height" -> number_or_null (snd kv)) /\
    (named (fst kv) "tss_version" -> text_or_null (snd kv))) l <->
  exists r, fold_left put_keysign l (Some acc) = Some r.
Proof.
  revert acc. induction l as [|[k x] l IH]; intros [[[[pool msgs] signers] h] v]; [split; [eexists; reflexivity|constructor]|].
  rewrite Forall_cons. cbn [fold_left fst snd]. unfold put_keysign at 2. cbn [fst snd].
  by_name k "pool_pub_key"; [|by_name k "messages"; [|by_name k "signer_pub_keys"; [|by_name k "block_height"; [|by_name k "tss_version"]]]].
  1: assert (Hk : named k "pool_pub_key") by (apply E; reflexivity); assert (Hv := put_string_ok x pool); destruct (put_string x pool) as [s|] eqn:Ex.
  3: assert (Hk : named k "messages") by (apply E0; reflexivity); assert (Hv := put_list_ok x); destruct (put_list x) as [s|] eqn:Ex.
  5: assert (Hk : named k "signer_pub_keys") by (apply E1; reflexivity); assert (Hv := put_list_ok x); destruct (put_list x) as [s|] eqn:Ex.
  7: assert (Hk : named k "block_height") by (apply E2; reflexivity); assert (Hv := put_int64_ok x h); destruct (put_int64 x h) as [s|] eqn:Ex.
  9: assert (Hk : named k "tss_version") by (apply E3; reflexivity); assert (Hv := put_string_ok x v); destruct (put_string x v) as [s|] eqn:Ex.
  2,4,6,8,10: rewrite put_keysign_none; split; [|intros (r & H); discriminate];
    intros [(H1 & H2 & H3 & H4 & H5) _]; exfalso;
    first [destruct (proj1 Hv (H1 Hk)) as (s & H)|destruct (proj1 Hv (H2 Hk)) as (s & H)|destruct (proj1 Hv (H3 Hk)) as (s & H)
          |destruct (proj1 Hv (H4 Hk)) as (s & H)|destruct (proj1 Hv (H5 Hk)) as (s & H)]; discriminate.
  1-5: rewrite <- IH; split; [intros [_ Hl]; exact Hl|]; intros Hl; split; [|exact Hl];
    assert (Hv' := proj2 Hv (ex_intro _ s eq_refl)); repeat split; intros Hn; try exact Hv';
    exfalso; revert Hn; eapply named_not; try exact Hk; (reflexivity || discriminate).
  assert (forall n, (false = true <-> named k n) -> ~ named k n) as Hno by (intros n [_ H] Hn; apply H in Hn; discriminate).
  apply Hno in E, E0, E1, E2, E3. rewrite <- IH. tauto.
Qed.

Lemma keygen_request_ok0 b : (exists q, keygen_request b = Some q) <-> exists v, first_value b = Some v /\ keygen_typed v.
Proof.
  unfold keygen_request, keygen_typed. destruct (first_value b) as [v|]; [|split; [intros (? & ?)|intros (? & ? & _)]; discriminate].
  destruct v as [| | | | |l|]; try (split; [intros (? & ?); discriminate|intros (? & H & [?|(? & ? & _)]); congruence]).
  - split; [intros _; eauto|eauto].
  - assert (H := keygen_fill l ([], 0%Z, "")). destruct (fold_left put_keygen l _) as [[[? ?] ?]|].
    + split; [|eauto]. intros _. eexists. split; [reflexivity|]. right. eexists. split; [reflexivity|]. apply H. eauto.
    + split; [intros (? & ?); discriminate|]. intros (v & [= <-] & [Hn|(l' & [= <-] & Hl)]); [discriminate|]. apply H in Hl as (? & ?). discriminate.
Qed.
Lemma keysign_request_ok0 b : (exists q, keysign_request b = Some q) <-> exists v, first_value b = Some v /\ keysign_typed v.
Proof.
  unfold keysign_request, keysign_typed. destruct (first_value b) as [v|]; [|split; [intros (? & ?)|intros (? & ? & _)]; discriminate].
  destruct v as [| | | | |l|]; try (split; [intros (? & ?); discriminate|intros (? & H & [?|(? & ? & _)]); congruence]).
  - split; [intros _; eauto|eauto].
  - assert (H := keysign_fill l ("", [], [], 0%Z, "")). destruct (fold_left put_keysign l _) as [[[[[? ?] ?] ?] ?]|].
    + split; [|eauto]. intros _. eexists. split; [reflexivity|]. right. eexists. split; [reflexivity|]. apply H. eauto.
    + split; [intros (? & ?); discriminate|]. intros (v & [= <-] & [Hn|(l' & [= <-] & Hl)]); [discriminate|]. apply H in Hl as (? & ?). discriminate.
Qed.

Lemma keygen_request_ok b : (exists q, keygen_request b = Some q) <-> exists v, begins v b /\ keygen_typed v.
Proof.
  rewrite keygen_request_ok0. split; intros (v & Hv & Ht); exists v; (split; [|exact Ht]).
  - apply first_value_begins, Hv.
  - apply first_value_iff; [|exact Hv]. destruct Ht as [->|(l & -> & _)]; eauto.
Qed.
Lemma keysign_request_ok b : (exists q, keysign_request b = Some q) <-> exists v, begins v b /\ keysign_typed v.
Proof.
  rewrite keysign_request_ok0. split; intros (v & Hv & Ht); exists v; (split; [|exact Ht]).
  - apply first_value_begins, Hv.
  - apply first_value_iff; [|exact Hv]. destruct Ht as [->|(l & -> & _)]; eauto.
Qed.

(** What is taken from a body is text. *)
Lemma put_string_text v old s : json_texts v -> text old -> put_string v old = Some s -> text s.
Proof. intros Hv Ho. destruct v; try discriminate; cbn [put_string]; intros [= <-]; [exact Ho|]. inversion Hv. assumption. Qed.
Lemma text_empty : text "".
Proof. exists []. split; [reflexivity|constructor]. Qed.
Lemma put_strings_text l t : Forall json_texts l -> put_strings l = Some t -> Forall text t.
Proof.
  intros H. revert t. induction H as [|v l Hv _ IH]; intros t; cbn [put_strings]; [intros [= <-]; constructor|].
  destruct (put_string v "") as [s|] eqn:Hs; [|discriminate]. destruct (put_strings l) as [r|]; [|discriminate]. intros [= <-].
  constructor; [|apply IH; reflexivity]. exact (put_string_text _ _ _ Hv text_empty Hs).
Qed.
Lemma put_list_text v t : json_texts v -> put_list v = Some t -> Forall text t.
Proof.
  intros H. destruct v; cbn [put_list]; try discriminate; [intros [= <-]; constructor|]. intros Ht. inversion H; subst. eapply put_strings_text; eassumption.
Qed.
Lemma keygen_put_texts l acc r : Forall (fun kv => text (fst kv) /\ json_texts (snd kv)) l ->
  (Forall text acc.1.1 /\ text acc.2) -> fold_left put_keygen l (Some acc) = Some r -> Forall text r.1.1 /\ text r.2.
Proof.
  intros Hl. revert acc. induction Hl as [|[k v] l [_ Hv] _ IH]; intros [[keys h] ver] Ha; cbn [fold_left]; [intros [= <-]; exact Ha|].
  cbn [fst snd] in *. destruct (put_keygen (Some (keys, h, ver)) (k, v)) as [acc'|] eqn:E; [|rewrite put_keygen_none; discriminate].
  apply IH. clear IH. unfold put_keygen in E. cbn [fst snd] in E. destruct Ha as [Ha1 Ha2].
  destruct (String.eqb _ "keys").
  { destruct (put_list v) as [x|] eqn:Ex; [|discriminate]. injection E as <-. split; [|exact Ha2]. eapply put_list_text; eassumption. }
  destruct (String.eqb _ "block_height").
  { destruct (put_int64 v h); [|discriminate]. injection E as <-. split; assumption. }
  destruct (String.eqb _ "tss_version"); [|injection E as <-; split; assumption].
  destruct (put_string v ver) as [x|] eqn:Ex; [|discriminate]. injection E as <-. split; [exact Ha1|]. exact (put_string_text _ _ _ Hv Ha2 Ex).
Qed.
Lemma keysign_put_texts l acc r : Forall (fun kv => text (fst kv) /\ json_texts (snd kv)) l ->
  (text acc.1.1.1.1 /\ Forall text acc.1.1.1.2 /\ Forall text acc.1.1.2 /\ text acc.2) -> fold_left put_keysign l (Some acc) = Some r ->
  text r.1.1.1.1 /\ Forall text r.1.1.1.2 /\ Forall text r.1.1.2 /\ text r.2.
Proof.
  intros Hl. revert acc. induction Hl as [|[k v] l [_ Hv] _ IH]; intros [[[[pool msgs] signers] h] ver] Ha; cbn [fold_left]; [intros [= <-]; exact Ha|].
  cbn [fst snd] in *. destruct (put_keysign (Some (pool, msgs, signers, h, ver)) (k, v)) as [acc'|] eqn:E; [|rewrite put_keysign_none; discriminate].
  apply IH. clear IH. unfold put_keysign in E. cbn [fst snd] in E. destruct Ha as (Ha1 & Ha2 & Ha3 & Ha4).
  destruct (String.eqb _ "pool_pub_key").
  { destruct (put_string v pool) as [x|] eqn:Ex; [|discriminate]. injection E as <-.
    split; [exact (put_string_text _ _ _ Hv Ha1 Ex)|]. auto. }
  destruct (String.eqb _ "messages").
  { destruct (put_list v) as [x|] eqn:Ex; [|discriminate]. injection E as <-. split; [exact Ha1|]. split; [eapply put_list_text; eassumption|auto]. }
  destruct (String.eqb _ "signer_pub_keys").
  { destruct (put_list v) as [x|] eqn:Ex; [|discriminate]. injection E as <-. split; [exact Ha1|]. split; [exact Ha2|].
    split; [eapply put_list_text; eassumption|exact Ha4]. }
  destruct (String.eqb _ "block_height").
  { destruct (put_int64 v h); [|discriminate]. injection E as <-. auto. }
  destruct (String.eqb _ "tss_version"); [|injection E as <-; auto].
  destruct (put_string v ver) as [x|] eqn:Ex; [|discriminate]. injection E as <-. split; [exact Ha1|]. split; [exact Ha2|]. split; [exact Ha3|].
  exact (put_string_text _ _ _ Hv Ha4 Ex).
Qed.
Lemma begins_texts v b : begins v b -> json_texts v.
Proof. intros (_ & w & x & r & _ & Hx & _). exact (value_texts v x Hx). Qed.
Lemma keygen_request_texts b q : keygen_request b = Some q -> request_texts q.
Proof.
  unfold keygen_request. destruct (first_value b) as [v|] eqn:Hv; [|discriminate]. apply first_value_begins, begins_texts in Hv.
  destruct v as [| | | | |l|]; try discriminate; [intros [= <-]; split; [constructor|apply text_empty]|].
  inversion Hv as [| | | | |l' Hl|]; subst. pose proof (keygen_put_texts l ([], 0%Z, "")) as Hp.
  destruct (fold_left put_keygen l _) as [[[keys h] ver]|]; [|discriminate]. intros [= <-].
  exact (Hp _ Hl (conj (Forall_nil_2 _) text_empty) eq_refl).
Qed.
Lemma keysign_request_texts b q : keysign_request b = Some q -> request_texts q.
Proof.
  unfold keysign_request. destruct (first_value b) as [v|] eqn:Hv; [|discriminate]. apply first_value_begins, begins_texts in Hv.
  destruct v as [| | | | |l|]; try discriminate;
    [intros [= <-]; split; [apply text_empty|]; split; [constructor|]; split; [constructor|apply text_empty]|].
  inversion Hv as [| | | | |l' Hl|]; subst. pose proof (keysign_put_texts l ("", [], [], 0%Z, "")) as Hp.
  destruct (fold_left put_keysign l _) as [[[[[pool msgs] signers] h] ver]|]; [|discriminate]. intros [= <-].
  exact (Hp _ Hl (conj text_empty (conj (Forall_nil_2 _) (conj (Forall_nil_2 _) text_empty))) eq_refl).
Qed.
Lemma put_texts l : put_list (texts l) = Some l.
Proof. apply put_strings_map. Qed.
Lemma put_height h old : int64 h -> put_int64 (JNum h) old = Some h.
Proof. intros [H1 H2]. simpl. apply Z.leb_le in H1. apply Z.ltb_lt in H2. rewrite H1, H2. reflexivity. Qed.

Lemma keygen_fold keys h v l : int64 h ->
  Forall (fun kv => kv ∈ keygen_fields keys h v \/ forall f, f ∈ keygen_fields keys h v -> ~ named (fst kv) (fst f)) l ->
  forall k0 h0 v0, exists k1 h1 v1, fold_left put_keygen l (Some (k0, h0, v0)) = Some (k1, h1, v1) /\
    (k1 = keys \/ (k1 = k0 /\ "keys" ∉ map fst l)) /\
    (h1 = h \/ (h1 = h0 /\ "block_height" ∉ map fst l)) /\
    (v1 = v \/ (v1 = v0 /\ "tss_version" ∉ map fst l)).
Proof.
  intros Hh. induction 1 as [|[k x] l Hx Hl IH]; intros k0 h0 v0.
  { eexists _, _, _. split; [reflexivity|]. repeat split; right; (split; [reflexivity|apply not_elem_of_nil]). }
  cbn [fold_left map fst].
  assert (Hgo : forall k' h' v', put_keygen (Some (k0, h0, v0)) (k, x) = Some (k', h', v') ->
    (k' = keys \/ (k' = k0 /\ k <> "keys")) -> (h' = h \/ (h' = h0 /\ k <> "block_height")) -> (v' = v \/ (v' = v0 /\ k <> "tss_version")) ->
    exists k1 h1 v1, fold_left put_keygen l (put_keygen (Some (k0, h0, v0)) (k, x)) = Some (k1, h1, v1) /\
    (k1 = keys \/ (k1 = k0 /\ "keys" ∉ k :: map fst l)) /\
    (h1 = h \/ (h1 = h0 /\ "block_height" ∉ k :: map fst l)) /\
    (v1 = v \/ (v1 = v0 /\ "tss_version" ∉ k :: map fst l))).
  { intros k' h' v' -> H1 H2 H3. destruct (IH k' h' v') as (k1 & h1 & v1 & He & I1 & I2 & I3). exists k1, h1, v1. split; [exact He|].
    rewrite !not_elem_of_cons. split; [|split].
    - destruct I1 as [->|[-> I1]]; [left; reflexivity|]. destruct H1 as [->|[-> H1]]; [left; reflexivity|right; auto].
    - destruct I2 as [->|[-> I2]]; [left; reflexivity|]. destruct H2 as [->|[-> H2]]; [left; reflexivity|right; auto].
    - destruct I3 as [->|[-> I3]]; [left; reflexivity|]. destruct H3 as [->|[-> H3]]; [left; reflexivity|right; auto]. }
  destruct Hx as [Hx|Hx].
  - unfold keygen_fields in Hx. rewrite !elem_of_cons, elem_of_nil in Hx. destruct Hx as [Hx|[Hx|[Hx|[]]]]; injection Hx as -> ->.
    + apply (Hgo keys h0 v0); [|auto|right; split; [reflexivity|discriminate]..].
      cbn [put_keygen fst snd]. rewrite put_texts. reflexivity.
    + apply (Hgo k0 h v0); [|(auto || (right; split; [reflexivity|discriminate]))..].
      cbn [put_keygen fst snd]. rewrite put_height by exact Hh. reflexivity.
    + apply (Hgo k0 h0 v); [|(auto || (right; split; [reflexivity|discriminate]))..]. reflexivity.
  - assert (Hne : forall n, forallb lowercase (to_bytes n) = true -> (exists y, (n, y) ∈ keygen_fields keys h v) ->
      String.eqb (fold_name k) n = false /\ k <> n).
    { intros n Hn (y & Hy). assert (H := Hx _ Hy). cbn [fst] in H. split.
      - destruct (String.eqb (fold_name k) n) eqn:E; [|reflexivity]. apply (named_iff k n Hn) in E. contradiction.
      - intros ->. apply H. apply named_refl. }
    destruct (Hne "keys" eq_refl) as [E1 N1]; [eexists; apply elem_of_list_here|].
    destruct (Hne "block_height" eq_refl) as [E2 N2]; [eexists; apply elem_of_list_further, elem_of_list_here|].
    destruct (Hne "tss_version" eq_refl) as [E3 N3]; [eexists; do 2 apply elem_of_list_further; apply elem_of_list_here|].
    apply (Hgo k0 h0 v0); [|right; auto..]. cbn [put_keygen fst snd]. rewrite E1, E2, E3. reflexivity.
Qed.

Lemma keysign_fold pool msgs signers h v l : int64 h ->
  Forall (fun kv => kv ∈ keysign_fields pool msgs signers h v \/
    forall f, f ∈ keysign_fields pool msgs signers h v -> ~ named (fst kv) (fst f)) l ->
  forall p0 m0 s0 h0 v0, exists p1 m1 s1 h1 v1,
    fold_left put_keysign l (Some (p0, m0, s0, h0, v0)) = Some (p1, m1, s1, h1, v1) /\
    (p1 = pool \/ (p1 = p0 /\ "pool_pub_key" ∉ map fst l)) /\
    (m1 = msgs \/ (m1 = m0 /\ "messages" ∉ map fst l)) /\
    (s1 = signers \/ (s1 = s0 /\ "signer_pub_keys" ∉ map fst l)) /\
    (h1 = h \/ (h1 = h0 /\ "block_height" ∉ map fst l)) /\
    (v1 = v \/ (v1 = v0 /\ "tss_version" ∉ map fst l)).
Proof.
  intros Hh. induction 1 as [|[k x] l Hx Hl IH]; intros p0 m0 s0 h0 v0.
  { eexists _, _, _, _, _. split; [reflexivity|]. repeat split; right; (split; [reflexivity|apply not_elem_of_nil]). }
  cbn [fold_left map fst].
  assert (Hgo : forall p' m' s' h' v', put_keysign (Some (p0, m0, s0, h0, v0)) (k, x) = Some (p', m', s', h', v') ->
    (p' = pool \/ (p' = p0 /\ k <> "pool_pub_key")) -> (m' = msgs \/ (m' = m0 /\ k <> "messages")) ->
    (s' = signers \/ (s' = s0 /\ k <> "signer_pub_keys")) ->
    (h' = h \/ (h' = h0 /\ k <> "block_height")) -> (v' = v \/ (v' = v0 /\ k <> "tss_version")) ->
    exists p1 m1 s1 h1 v1, fold_left put_keysign l (put_keysign (Some (p0, m0, s0, h0, v0)) (k, x)) = Some (p1, m1, s1, h1, v1) /\
    (p1 = pool \/ (p1 = p0 /\ "pool_pub_key" ∉ k :: map fst l)) /\
    (m1 = msgs \/ (m1 = m0 /\ "messages" ∉ k :: map fst l)) /\
    (s1 = signers \/ (s1 = s0 /\ "signer_pub_keys" ∉ k :: map fst l)) /\
    (h1 = h \/ (h1 = h0 /\ "block_height" ∉ k :: map fst l)) /\
    (v1 = v \/ (v1 = v0 /\ "tss_version" ∉ k :: map fst l))).
  { intros p' m' s' h' v' -> H1 H2 H3 H4 H5. destruct (IH p' m' s' h' v') as (p1 & m1 & s1 & h1 & v1 & He & I1 & I2 & I3 & I4 & I5).
    exists p1, m1, s1, h1, v1. split; [exact He|]. rewrite !not_elem_of_cons. split; [|split; [|split; [|split]]].
    - destruct I1 as [->|[-> I1]]; [left; reflexivity|]. destruct H1 as [->|[-> H1]]; [left; reflexivity|right; auto].
    - destruct I2 as [->|[-> I2]]; [left; reflexivity|]. destruct H2 as [->|[-> H2]]; [left; reflexivity|right; auto].
    - destruct I3 as [->|[-> I3]]; [left; reflexivity|]. destruct H3 as [->|[-> H3]]; [left; reflexivity|right; auto].
    - destruct I4 as [->|[-> I4]]; [left; reflexivity|]. destruct H4 as [->|[-> H4]]; [left; reflexivity|right; auto].
    - destruct I5 as [->|[-> I5]]; [left; reflexivity|]. destruct H5 as [->|[-> H5]]; [left; reflexivity|right; auto]. }
  destruct Hx as [Hx|Hx].
  - unfold keysign_fields in Hx. rewrite !elem_of_cons, elem_of_nil in Hx. destruct Hx as [Hx|[Hx|[Hx|[Hx|[Hx|[]]]]]]; injection Hx as -> ->.
    + apply (Hgo pool m0 s0 h0 v0); [|(left; reflexivity) || (right; split; [reflexivity|discriminate])..]. reflexivity.
    + apply (Hgo p0 msgs s0 h0 v0); [|(left; reflexivity) || (right; split; [reflexivity|discriminate])..].
      cbn [put_keysign fst snd]. rewrite put_texts. reflexivity.
    + apply (Hgo p0 m0 signers h0 v0); [|(left; reflexivity) || (right; split; [reflexivity|discriminate])..].
      cbn [put_keysign fst snd]. rewrite put_texts. reflexivity.
    + apply (Hgo p0 m0 s0 h v0); [|(left; reflexivity) || (right; split; [reflexivity|discriminate])..].
      cbn [put_keysign fst snd]. rewrite put_height by exact Hh. reflexivity.
    + apply (Hgo p0 m0 s0 h0 v); [|(left; reflexivity) || (right; split; [reflexivity|discriminate])..]. reflexivity.
  - assert (Hne : forall n, forallb lowercase (to_bytes n) = true -> (exists y, (n, y) ∈ keysign_fields pool msgs signers h v) ->
      String.eqb (fold_name k) n = false /\ k <> n).
    { intros n Hn (y & Hy). assert (H := Hx _ Hy). cbn [fst] in H. split.
      - destruct (String.eqb (fold_name k) n) eqn:E; [|reflexivity]. apply (named_iff k n Hn) in E. contradiction.
      - intros ->. apply H. apply named_refl. }
    destruct (Hne "pool_pub_key" eq_refl) as [E1 N1]; [eexists; apply elem_of_list_here|].
    destruct (Hne "messages" eq_refl) as [E2 N2]; [eexists; do 1 apply elem_of_list_further; apply elem_of_list_here|].
    destruct (Hne "signer_pub_keys" eq_refl) as [E3 N3]; [eexists; do 2 apply elem_of_list_further; apply elem_of_list_here|].
    destruct (Hne "block_height" eq_refl) as [E4 N4]; [eexists; do 3 apply elem_of_list_further; apply elem_of_list_here|].
    destruct (Hne "tss_version" eq_refl) as [E5 N5]; [eexists; do 4 apply elem_of_list_further; apply elem_of_list_here|].
    apply (Hgo p0 m0 s0 h0 v0); [|right; auto..]. cbn [put_keysign fst snd]. rewrite E1, E2, E3, E4, E5. reflexivity.
Qed.

(** *** Reading answers *)

Lemma member_fun k v x y : member k v x -> member k v y -> x = y.
Proof.
  intros (l1 & l2 & -> & H1) (l3 & l4 & H & H2). assert (He : (l1 ++ (k, x) :: l2)%list = (l3 ++ (k, y) :: l4)%list) by congruence.
  assert (Hin : (k, x) ∈ (l3 ++ (k, y) :: l4)%list) by (rewrite <- He; apply elem_of_app; right; apply elem_of_list_here).
  apply elem_of_app in Hin as [Hin|Hin].
  - exfalso. apply H2. rewrite map_app. apply elem_of_app. left. apply (elem_of_list_fmap_1 fst) in Hin. exact Hin.
  - apply elem_of_cons in Hin as [Hin|Hin]; [congruence|]. exfalso. apply H2. rewrite map_app. apply elem_of_app. right.
    apply (elem_of_list_fmap_1 fst) in Hin. exact Hin.
Qed.
Lemma member_lacks k v x : member k v x -> lacks k v -> False.
Proof.
  intros (l1 & l2 & -> & _) (l & H & Hn). injection H as <-. apply Hn. rewrite map_app. apply elem_of_app. right. apply elem_of_list_here.
Qed.
Lemma says_bytes_fun k v a b : says_bytes k v a -> says_bytes k v b -> a = b.
Proof.
  intros Ha Hb. destruct a as [|x a], b as [|y b]; [reflexivity| | |].
  - destruct Hb as (s & Hs & _). destruct Ha as [Ha|Ha]; [assert (X := member_fun _ _ _ _ Ha Hs); discriminate|].
    exfalso. exact (member_lacks _ _ _ Hs Ha).
  - destruct Ha as (s & Hs & _). destruct Hb as [Hb|Hb]; [assert (X := member_fun _ _ _ _ Hb Hs); discriminate|].
    exfalso. exact (member_lacks _ _ _ Hs Hb).
  - destruct Ha as (s & Hs & Ha), Hb as (t & Ht & Hb). assert (X := member_fun _ _ _ _ Hs Ht). congruence.
Qed.
Lemma Forall2_fun {A B} (R : A -> B -> Prop) l a b : (forall x y z, R x y -> R x z -> y = z) -> Forall2 R l a -> Forall2 R l b -> a = b.
Proof.
  intros HR H. revert b. induction H as [|x y l a Hx Hl IH]; intros b Hb; inversion Hb; subst; [reflexivity|]. f_equal; eauto.
Qed.
Lemma says_node_fun v a b : says_node v a -> says_node v b -> a = b.
Proof.
  intros (H1 & H2 & H3) (G1 & G2 & G3). destruct a as [a1 a2 a3], b as [b1 b2 b3]. cbn [n_pub n_data n_sig] in *.
  assert (X := member_fun _ _ _ _ H1 G1). rewrite (says_bytes_fun _ _ _ _ H2 G2), (says_bytes_fun _ _ _ _ H3 G3). congruence.
Qed.
Lemma says_blame_fun v a b : says_blame v a -> says_blame v b -> a = b.
Proof.
  intros (H1 & H2 & H3) (G1 & G2 & G3). destruct a as [ra ua na], b as [rb ub nb]. cbn [bl_reason bl_unicast bl_nodes] in *.
  assert (X := member_fun _ _ _ _ H1 G1). assert (Y := member_fun _ _ _ _ H2 G2).
  assert (na = nb); [|congruence].
  destruct na as [|x na], nb as [|y nb]; [reflexivity| | |].
  - destruct G3 as (l & G & _). exfalso. exact (member_lacks _ _ _ G H3).
  - destruct H3 as (l & G & _). exfalso. exact (member_lacks _ _ _ G G3).
  - destruct H3 as (l & H & Hl), G3 as (l' & G & Gl). assert (Z := member_fun _ _ _ _ H G). injection Z as <-.
    exact (Forall2_fun _ _ _ _ says_node_fun Hl Gl).
Qed.
Lemma says_status_fun v a b : says_status v a -> says_status v b -> a = b.
Proof.
  intros [[-> H]|[[-> H]|[-> H]]] [[-> G]|[[-> G]|[-> G]]]; try reflexivity; assert (X := member_fun _ _ _ _ H G); discriminate.
Qed.
Lemma says_keygen_fun v a b : says_keygen v a -> says_keygen v b -> a = b.
Proof.
  intros (H1 & H2 & H3 & w & H4 & H5) (G1 & G2 & G3 & w' & G4 & G5). destruct a as [a1 a2 a3 a4], b as [b1 b2 b3 b4]. cbn [kr_pub kr_addr kr_status kr_blame] in *.
  assert (X := member_fun _ _ _ _ H1 G1). assert (Y := member_fun _ _ _ _ H2 G2). rewrite (says_status_fun _ _ _ H3 G3).
  assert (Z := member_fun _ _ _ _ H4 G4). subst w'. rewrite (says_blame_fun _ _ _ H5 G5). congruence.
Qed.
Lemma says_sig_fun v a b : says_sig v a -> says_sig v b -> a = b.
Proof.
  intros (H1 & H2 & H3 & H4) (G1 & G2 & G3 & G4). destruct a as [a1 a2 a3 a4], b as [b1 b2 b3 b4]. cbn [rs_msg rs_r rs_s rs_recovery] in *.
  assert (X := member_fun _ _ _ _ H1 G1). assert (Y := member_fun _ _ _ _ H2 G2).
  assert (Z := member_fun _ _ _ _ H3 G3). assert (W := member_fun _ _ _ _ H4 G4). congruence.
Qed.
Lemma says_keysign_fun v a b : says_keysign v a -> says_keysign v b -> a = b.
Proof.
  intros (H1 & H3 & w & H4 & H5) (G1 & G3 & w' & G4 & G5). destruct a as [sa ta ba], b as [sb tb bb]. cbn [rp_sigs rp_status rp_blame] in *.
  rewrite (says_status_fun _ _ _ H3 G3). assert (Z := member_fun _ _ _ _ H4 G4). subst w'. rewrite (says_blame_fun _ _ _ H5 G5).
  assert (sa = sb); [|congruence].
  destruct sa as [|x sa], sb as [|y sb]; [reflexivity| | |].
  - destruct G1 as (l & G & _). assert (X := member_fun _ _ _ _ H1 G). discriminate.
  - destruct H1 as (l & G & _). assert (X := member_fun _ _ _ _ G1 G). discriminate.
  - destruct H1 as (l & H & Hl), G1 as (l' & G & Gl). assert (Z := member_fun _ _ _ _ H G). injection Z as <-.
    exact (Forall2_fun _ _ _ _ says_sig_fun Hl Gl).
Qed.

Ltac mem n := match goal with |- member ?k (JObj ?l) ?x => exists (take n l), (drop (S n) l); split; [reflexivity|];
  cbn [take drop app map fst]; rewrite ?not_elem_of_cons; repeat split; try discriminate; apply not_elem_of_nil end.
Ltac lack := eexists; split; [reflexivity|]; cbn [app map fst]; rewrite ?not_elem_of_cons; repeat split; try discriminate; apply not_elem_of_nil.

Lemma node_says n : says_node (node_json n) n.
Proof.
  destruct n as [p d s]. unfold node_json, says_node. cbn [n_pub n_data n_sig]. split; [|split].
  - destruct s; mem 0.
  - destruct d as [|x d]; cbn [says_bytes json_data]; [left|exists (EncodeToString (x :: d)); split; [|apply DecodeString_Encode]]; destruct s; mem 1.
  - destruct s as [|x s]; cbn [says_bytes]; [right; lack|]. exists (EncodeToString (x :: s)). split; [|apply DecodeString_Encode]. mem 2.
Qed.
Lemma blame_says b : says_blame (blame_json b) b.
Proof.
  destruct b as [r u ns]. unfold blame_json, says_blame. cbn [bl_reason bl_unicast bl_nodes]. split; [|split].
  - destruct ns; mem 0.
  - destruct ns; mem 1.
  - destruct ns as [|x ns]; [lack|]. exists (map node_json (x :: ns)). split; [mem 2|].
    generalize (x :: ns). intros l. induction l; constructor; [apply node_says|assumption].
Qed.
Lemma kresp_says r : says_keygen (kresp_json r) r.
Proof.
  destruct r as [p a s b]. unfold says_keygen, kresp_json. cbn [kr_pub kr_addr kr_status kr_blame]. split; [mem 0|]. split; [mem 1|]. split.
  - unfold says_status. destruct s; [left|right; left|right; right]; (split; [reflexivity|mem 2]).
  - exists (blame_json b). split; [mem 3|]. apply blame_says.
Qed.
Lemma rsig_says g : says_sig (rsig_json g) g.
Proof. unfold says_sig, rsig_json. split; [mem 0|]. split; [mem 1|]. split; [mem 2|mem 3]. Qed.
Lemma resp_says r : says_keysign (resp_json r) r.
Proof.
  destruct r as [gs s b]. unfold says_keysign, resp_json. cbn [rp_sigs rp_status rp_blame]. split; [|split].
  - destruct gs as [|x gs]; [mem 0|]. exists (map rsig_json (x :: gs)). split; [mem 0|].
    generalize (x :: gs). intros l. induction l; constructor; [apply rsig_says|assumption].
  - unfold says_status. destruct s; [left|right; left|right; right]; (split; [reflexivity|mem 1]).
  - exists (blame_json b). split; [mem 2|]. apply blame_says.
Qed.

(** The answers are not deep. *)
Lemma node_nesting n : (nesting (node_json n) <= 1)%N.
Proof. destruct n as [p d s]. unfold node_json, json_data. cbn [n_pub n_data n_sig]. destruct d, s; cbn [nesting map fold_right snd app]; lia. Qed.
Lemma blame_nesting b : (nesting (blame_json b) <= 3)%N.
Proof.
  destruct b as [r u ns]. unfold blame_json. cbn [bl_reason bl_unicast bl_nodes]. destruct ns as [|n l]; [cbn; lia|].
  set (x := JArr (map node_json (n :: l))).
  assert (Hx : (nesting x <= 2)%N).
  { apply (nesting_arr 1). generalize (n :: l). clear. intros l. induction l; constructor; [apply node_nesting|assumption]. }
  clearbody x. cbn [nesting map fold_right snd app]. lia.
Qed.
Lemma kresp_nesting r : (nesting (kresp_json r) <= max_nesting)%N.
Proof.
  unfold kresp_json. pose proof (blame_nesting (kr_blame r)) as H. set (x := blame_json (kr_blame r)) in *. clearbody x.
  cbn [nesting map fold_right snd]. unfold max_nesting. lia.
Qed.
Lemma resp_nesting r : (nesting (resp_json r) <= max_nesting)%N.
Proof.
  unfold resp_json. pose proof (blame_nesting (rp_blame r)) as H. set (x := blame_json (rp_blame r)) in *. clearbody x.
  set (y := match rp_sigs r with [] => JNull | _ => _ end).
  assert (Hy : (nesting y <= 2)%N).
  { unfold y. destruct (rp_sigs r) as [|g l]; [cbn; lia|]. apply (nesting_arr 1). generalize (g :: l). clear. intros l.
    induction l; constructor; [cbn; lia|assumption]. }
  clearbody y. cbn [nesting map fold_right snd]. unfold max_nesting. lia.
Qed.

(** The answers of text are texts. *)
Lemma node_texts n : text (n_pub n) -> json_texts (node_json n).
Proof.
  intros H. unfold node_json, json_data. constructor. apply Forall_app. split.
  - constructor; [split; [apply ascii_string; reflexivity|constructor; exact H]|]. constructor; [|constructor].
    split; [apply ascii_string; reflexivity|]. cbn [snd]. destruct (n_data n); constructor. apply base64_text.
  - destruct (n_sig n); constructor; [|constructor]. split; [apply ascii_string; reflexivity|]. constructor. apply base64_text.
Qed.
Lemma blame_json_texts b : blame_texts b -> json_texts (blame_json b).
Proof.
  intros [H1 H2]. unfold blame_json. constructor. apply Forall_app. split.
  - constructor; [split; [apply ascii_string; reflexivity|constructor; exact H1]|]. constructor; [|constructor].
    split; [apply ascii_string; reflexivity|constructor].
  - destruct (bl_nodes b) as [|n l]; [constructor|]. constructor; [|constructor]. split; [apply ascii_string; reflexivity|]. cbn [snd]. constructor.
    clear H1. induction H2 as [|m l' Hm _ IH]; constructor; [apply node_texts, Hm|exact IH].
Qed.
Lemma kresp_texts r : keygen_texts r -> json_texts (kresp_json r).
Proof.
  intros (H1 & H2 & H3). unfold kresp_json. constructor.
  constructor; [split; [apply ascii_string; reflexivity|constructor; exact H1]|].
  constructor; [split; [apply ascii_string; reflexivity|constructor; exact H2]|].
  constructor; [split; [apply ascii_string; reflexivity|constructor]|].
  constructor; [split; [apply ascii_string; reflexivity|apply blame_json_texts, H3]|]. constructor.
Qed.
Lemma resp_texts r : keysign_texts r -> json_texts (resp_json r).
Proof.
  intros (H1 & H2). unfold resp_json. constructor.
  constructor; [split; [apply ascii_string; reflexivity|]|].
  { cbn [snd]. destruct (rp_sigs r) as [|g l]; [constructor|]. constructor.
    induction H1 as [|x l' (Hx1 & Hx2 & Hx3 & Hx4) _ IH]; constructor; [|exact IH].
    unfold rsig_json. constructor. repeat (apply Forall_cons; split); try apply Forall_nil_2;
      (split; [apply ascii_string; reflexivity|constructor; assumption]). }
  constructor; [split; [apply ascii_string; reflexivity|constructor]|].
  constructor; [split; [apply ascii_string; reflexivity|apply blame_json_texts, H2]|]. constructor.
Qed.

(** ** C57. An error of Keygen is not answered as an error. *)
Theorem C57_keygen_errors_refuted :
  ~ forall keygen keysign peer metrics b q r,
    fst (serve keygen keysign peer metrics (HReq "POST" "/keygen" b)) = Some q -> keygen q = (r, true) ->
    a_code (snd (serve keygen keysign peer metrics (HReq "POST" "/keygen" b))) <> 200.
Proof.
  intros H.
  refine (H (fun _ => (KResp "" "" Fail no_blame, true)) (fun _ => (empty_resp, true)) "p" (fun _ => HAns 200 [])
    (to_bytes "null") (KeygenReq [] 0 "") (KResp "" "" Fail no_blame) _ _ _); vm_compute; reflexivity.
Qed.
Print Assumptions C57_keygen_errors_refuted.

Section Serve.
  Context (keygen : request -> kresp * bool) (keysign : request -> response * bool) (peer : string).
  Context (metrics : hreq -> hans).
  Local Notation srv := (serve keygen keysign peer metrics).
  Lemma serve_keysign b : srv (HReq "POST" "/keysign" b) = keySignHandler keysign (HReq "POST" "/keysign" b).
  Proof. reflexivity. Qed.
  Lemma serve_keygen b : srv (HReq "POST" "/keygen" b) = keygenHandler keygen (HReq "POST" "/keygen" b).
  Proof. reflexivity. Qed.

  (** ** C117. The status of an answer. *)
  Theorem C117_keysign_status b :
    let r := HReq "POST" "/keysign" b in
    (a_code (snd (srv r)) = 400 <-> ~ exists v, begins v b /\ keysign_typed v) /\
    (a_code (snd (srv r)) = 500 <-> exists q resp, fst (srv r) = Some q /\ keysign q = (resp, true)) /\
    (a_code (snd (srv r)) = 200 <-> exists q resp, fst (srv r) = Some q /\ keysign q = (resp, false)) /\
    (a_code (snd (srv r)) = 400 <-> fst (srv r) = None) /\
    (a_code (snd (srv r)) <> 200 -> a_body (snd (srv r)) = []) /\
    In (a_code (snd (srv r))) [200; 400; 500].
  Proof.
    cbv zeta. rewrite ?serve_keysign. unfold keySignHandler. cbn [h_method h_body].
    change (String.eqb "POST" "POST") with true. cbn [negb]. rewrite <- keysign_request_ok.
    destruct (keysign_request b) as [q|].
    - destruct (keysign q) as [resp err] eqn:Ek. destruct err; cbn [fst snd a_code a_body].
      + split; [split; [discriminate|]; intros H; exfalso; apply H; eauto|]. split; [split; eauto|]. split.
        { split; [discriminate|]. intros (q' & r' & [= <-] & H). congruence. }
        split; [split; discriminate|]. split; [reflexivity|]. cbn; auto.
      + split; [split; [discriminate|]; intros H; exfalso; apply H; eauto|]. split.
        { split; [discriminate|]. intros (q' & r' & [= <-] & H). congruence. }
        split; [split; eauto|]. split; [split; discriminate|]. split; [congruence|]. cbn; auto.
    - cbn [fst snd a_code a_body]. split; [split; [|reflexivity]; intros _ (q & H); discriminate|].
      split; [split; [discriminate|]; intros (? & ? & ? & _); discriminate|].
      split; [split; [discriminate|]; intros (? & ? & ? & _); discriminate|]. split; [tauto|]. split; [reflexivity|]. cbn; auto.
  Qed.

  Theorem C117_keygen_status b :
    let r := HReq "POST" "/keygen" b in
    (a_code (snd (srv r)) = 400 <-> ~ exists v, begins v b /\ keygen_typed v) /\
    (a_code (snd (srv r)) = 200 <-> exists q, fst (srv r) = Some q) /\
    (a_code (snd (srv r)) = 400 <-> fst (srv r) = None) /\
    (a_code (snd (srv r)) <> 200 -> a_body (snd (srv r)) = []).
  Proof.
    cbv zeta. rewrite ?serve_keygen. unfold keygenHandler. cbn [h_method h_body].
    change (String.eqb "POST" "POST") with true. cbn [negb]. rewrite <- keygen_request_ok.
    destruct (keygen_request b) as [q|].
    - destruct (keygen q) as [resp err] eqn:Ek. cbn [fst snd a_code a_body].
      split; [split; [discriminate|]; intros H; exfalso; apply H; eauto|]. split; [split; eauto|]. split; [split; discriminate|]. congruence.
    - cbn [fst snd a_code a_body]. split; [split; [|reflexivity]; intros _ (q & H); discriminate|].
      split; [split; [discriminate|]; intros (? & ?); discriminate|]. split; [tauto|]. reflexivity.
  Qed.

  (** Nothing but a POST of these two paths reaches the server; the other endpoints
      answer with their own status. A path that is not in canonical form is redirected. *)
  Theorem C117_other_requests r :
    (forall q, fst (srv r) = Some q -> h_method r = "POST" /\ (h_path r = "/keygen" \/ h_path r = "/keysign")) /\
    (~ canonical (h_path r) -> srv r = (None, HAns 301 [])) /\
    (canonical (h_path r) -> ~ In (h_path r) ["/keygen"; "/keysign"; "/ping"; "/p2pid"; "/metrics"] -> a_code (snd (srv r)) = 404) /\
    (In (h_path r) ["/keygen"; "/keysign"] -> h_method r <> "POST" -> a_code (snd (srv r)) = 405) /\
    (In (h_path r) ["/ping"; "/p2pid"] -> h_method r <> "GET" -> a_code (snd (srv r)) = 405) /\
    (h_path r = "/ping" -> h_method r = "GET" -> srv r = (None, HAns 200 [])) /\
    (h_path r = "/p2pid" -> h_method r = "GET" -> srv r = (None, HAns 200 (to_bytes peer))) /\
    (h_path r = "/metrics" -> srv r = (None, metrics r)).
  Proof.
    destruct r as [m p b]. rewrite <- clean_iff. cbn [h_path h_method].
    assert (Hs : forall q, fst (srv (HReq m p b)) = Some q -> m = "POST" /\ (p = "/keygen" \/ p = "/keysign")).
    { intros q. unfold serve. cbn [h_path h_method].
      destruct (negb (String.eqb (cleanPath p) p)); [discriminate|].
      destruct (String.eqb_spec p "/keygen") as [->|]; [destruct (String.eqb_spec m "POST"); [auto|discriminate]|].
      destruct (String.eqb_spec p "/keysign") as [->|]; [destruct (String.eqb_spec m "POST"); [auto|discriminate]|].
      destruct (String.eqb p "/ping"); [destruct (String.eqb m "GET"); discriminate|].
      destruct (String.eqb p "/p2pid"); [destruct (String.eqb m "GET"); discriminate|].
      destruct (String.eqb p "/metrics"); discriminate. }
    split; [exact Hs|]. clear Hs.
    split; [|split; [|split; [|split; [|split; [|split]]]]].
    - intros N. unfold serve. cbn [h_path]. destruct (String.eqb_spec (cleanPath p) p); [contradiction|reflexivity].
    - intros Hc N. unfold serve. cbn [h_path h_method]. rewrite Hc, String.eqb_refl. cbn [negb].
      assert (F : forall q, In q ["/keygen"; "/keysign"; "/ping"; "/p2pid"; "/metrics"] -> String.eqb p q = false).
      { intros q Hq. destruct (String.eqb_spec p q) as [->|]; [contradiction|reflexivity]. }
      rewrite !F by (cbn; auto 10). reflexivity.
    - intros [<-|[<-|[]]] N; apply String.eqb_neq in N; unfold serve; cbn [h_path h_method]; rewrite N; reflexivity.
    - intros [<-|[<-|[]]] N; apply String.eqb_neq in N; unfold serve; cbn [h_path h_method]; rewrite N; reflexivity.
    - intros -> ->. reflexivity.
    - intros -> ->. reflexivity.
    - intros ->. reflexivity.
  Qed.

  (** ** C114. The body of a 200 answer is one JSON text that states the response of the
      server, and no other response. *)
  Theorem C114_keygen_answer b q :
    fst (srv (HReq "POST" "/keygen" b)) = Some q -> keygen_texts (fst (keygen q)) ->
    exists v, (forall v', document v' (a_body (snd (srv (HReq "POST" "/keygen" b)))) <-> v' = v) /\
      forall r, says_keygen v r <-> r = fst (keygen q).
  Proof.
    rewrite ?serve_keygen. unfold keygenHandler. cbn [h_method h_body].
    change (String.eqb "POST" "POST") with true. cbn [negb].
    destruct (keygen_request b) as [q'|]; [|discriminate].
    destruct (keygen q') as [resp err] eqn:Ek. cbn [fst snd a_body]. intros [= <-]. rewrite Ek. cbn [fst]. intros Ht.
    exists (kresp_json resp). split.
    { intros v'. rewrite <- json_dec_iff, json_dec_enc by (apply kresp_texts, Ht || apply kresp_nesting). split; congruence. } intros r. split; [|intros ->; apply kresp_says].
    intros H. exact (says_keygen_fun _ _ _ H (kresp_says resp)).
  Qed.
  Theorem C114_keysign_answer b q r :
    fst (srv (HReq "POST" "/keysign" b)) = Some q -> keysign q = (r, false) -> keysign_texts r ->
    exists v, (forall v', document v' (a_body (snd (srv (HReq "POST" "/keysign" b)))) <-> v' = v) /\
      forall r', says_keysign v r' <-> r' = r.
  Proof.
    rewrite ?serve_keysign. unfold keySignHandler. cbn [h_method h_body].
    change (String.eqb "POST" "POST") with true. cbn [negb].
    destruct (keysign_request b) as [q'|]; [|discriminate].
    destruct (keysign q') as [resp err] eqn:Ek. cbn [fst snd a_body]. intros [= <-]. rewrite Ek. intros [= -> ->]. cbn [a_body]. intros Ht.
    exists (resp_json r). split.
    { intros v'. rewrite <- json_dec_iff, json_dec_ind by (apply resp_texts, Ht || apply resp_nesting). split; congruence. } intros r'. split; [|intros ->; apply resp_says].
    intros H. exact (says_keysign_fun _ _ _ H (resp_says r)).
  Qed.

  (** ** C116. A request a client states in JSON, however it is written and in any order
      of fields, is the one the server gets. Whatever the body is, all strings of the
      request the server gets are text. *)
  Theorem C116_request_is_text r q : fst (srv r) = Some q -> request_texts q.
  Proof.
    destruct r as [m p b]. unfold serve. cbn [h_path h_method]. destruct (negb _); [discriminate|].
    destruct (String.eqb p "/keygen").
    { destruct (String.eqb m "POST"); [|discriminate]. unfold keygenHandler. cbn [h_method h_body]. destruct (negb _); [discriminate|].
      destruct (keygen_request b) as [q'|] eqn:Hq; [|discriminate]. destruct (keygen q'). cbn [fst]. intros [= <-]. eapply keygen_request_texts, Hq. }
    destruct (String.eqb p "/keysign").
    { destruct (String.eqb m "POST"); [|discriminate]. unfold keySignHandler. cbn [h_method h_body]. destruct (negb _); [discriminate|].
      destruct (keysign_request b) as [q'|] eqn:Hq; [|discriminate]. destruct (keysign q'). cbn [fst]. intros [= <-]. eapply keysign_request_texts, Hq. }
    destruct (String.eqb p "/ping"); [destruct (String.eqb m "GET"); discriminate|].
    destruct (String.eqb p "/p2pid"); [destruct (String.eqb m "GET"); discriminate|].
    destruct (String.eqb p "/metrics"); discriminate.
  Qed.
  Theorem C116_keygen_request keys h v l b :
    int64 h -> states (keygen_fields keys h v) l -> begins (JObj l) b ->
    fst (srv (HReq "POST" "/keygen" b)) = Some (KeygenReq keys h v).
  Proof.
    intros Hh [Hin Hl] Hb. rewrite ?serve_keygen. unfold keygenHandler. cbn [h_method h_body].
    change (String.eqb "POST" "POST") with true. cbn [negb].
    assert (Hq : keygen_request b = Some (KeygenReq keys h v)).
    { unfold keygen_request. rewrite (proj2 (first_value_iff (JObj l) b ltac:(eauto)) Hb).
      destruct (keygen_fold keys h v l Hh Hl [] 0%Z "") as (k1 & h1 & v1 & -> & H1 & H2 & H3).
      assert (Hm : forall n y, (n, y) ∈ keygen_fields keys h v -> n ∈ map fst l).
      { intros n y Hy. apply Hin, (elem_of_list_fmap_1 fst) in Hy. exact Hy. }
      destruct H1 as [->|[_ []]]; [|eapply Hm; apply elem_of_list_here].
      destruct H2 as [->|[_ []]]; [|eapply Hm; apply elem_of_list_further, elem_of_list_here].
      destruct H3 as [->|[_ []]]; [|eapply Hm; do 2 apply elem_of_list_further; apply elem_of_list_here]. reflexivity. }
    rewrite Hq. destruct (keygen _). reflexivity.
  Qed.
  Theorem C116_keysign_request pool msgs signers h v l b :
    int64 h -> states (keysign_fields pool msgs signers h v) l -> begins (JObj l) b ->
    fst (srv (HReq "POST" "/keysign" b)) = Some (KeysignReq pool msgs signers h v).
  Proof.
    intros Hh [Hin Hl] Hb. rewrite ?serve_keysign. unfold keySignHandler. cbn [h_method h_body].
    change (String.eqb "POST" "POST") with true. cbn [negb].
    assert (Hq : keysign_request b = Some (KeysignReq pool msgs signers h v)).
    { unfold keysign_request. rewrite (proj2 (first_value_iff (JObj l) b ltac:(eauto)) Hb).
      destruct (keysign_fold pool msgs signers h v l Hh Hl "" [] [] 0%Z "") as (p1 & m1 & s1 & h1 & v1 & -> & H1 & H2 & H3 & H4 & H5).
      assert (Hm : forall n y, (n, y) ∈ keysign_fields pool msgs signers h v -> n ∈ map fst l).
      { intros n y Hy. apply Hin, (elem_of_list_fmap_1 fst) in Hy. exact Hy. }
      destruct H1 as [->|[_ []]]; [|eapply Hm; apply elem_of_list_here].
      destruct H2 as [->|[_ []]]; [|eapply Hm; do 1 apply elem_of_list_further; apply elem_of_list_here].
      destruct H3 as [->|[_ []]]; [|eapply Hm; do 2 apply elem_of_list_further; apply elem_of_list_here].
      destruct H4 as [->|[_ []]]; [|eapply Hm; do 3 apply elem_of_list_further; apply elem_of_list_here].
      destruct H5 as [->|[_ []]]; [|eapply Hm; do 4 apply elem_of_list_further; apply elem_of_list_here]. reflexivity. }
    rewrite Hq. destruct (keysign _). reflexivity.
  Qed.
End Serve.
Print Assumptions C117_keysign_status.
Print Assumptions C117_keygen_status.
Print Assumptions C117_other_requests.
Print Assumptions C114_keygen_answer.
Print Assumptions C114_keysign_answer.
Print Assumptions C116_request_is_text.
Print Assumptions C116_keygen_request.
Print Assumptions C116_keysign_request.

(** ** C115. A body that is not one JSON text, or does not state the keys to generate
    with or the messages to sign, still reaches the server. *)
Theorem C115_only_requests_reach_the_server_refuted :
  ~ forall keygen keysign peer metrics b q,
    fst (serve keygen keysign peer metrics (HReq "POST" "/keysign" b)) = Some q -> exists v, document v b.
Proof.
  intros H.
  destruct (H (fun _ => (empty_kresp, true)) (fun _ => (empty_resp, true)) "p" (fun _ => HAns 200 [])
    (to_bytes "{}]") (KeysignReq "" [] [] 0 "") eq_refl) as (v & Hv).
  apply json_dec_iff in Hv. vm_compute in Hv. discriminate.
Qed.
Print Assumptions C115_only_requests_reach_the_server_refuted.
Theorem C115_fields_must_be_given_refuted :
  ~ forall keygen keysign peer metrics b q v,
    fst (serve keygen keysign peer metrics (HReq "POST" "/keysign" b)) = Some q -> document v b ->
    exists x, member "messages" v x.
Proof.
  intros H.
  destruct (H (fun _ => (empty_kresp, true)) (fun _ => (empty_resp, true)) "p" (fun _ => HAns 200 [])
    (to_bytes "{}") (KeysignReq "" [] [] 0 "") (JObj []) eq_refl (proj1 (json_dec_iff (to_bytes "{}") (JObj [])) eq_refl)) as (x & l1 & l2 & Hv & _).
  destruct l1; discriminate.
Qed.
Print Assumptions C115_fields_must_be_given_refuted.

(** *** Examples *)

Example ex_paths :
  let f p := a_code (snd (serve (fun _ => (empty_kresp, true)) (fun _ => (empty_resp, true)) "p" (fun _ => HAns 200 []) (HReq "GET" p []))) in
  map f ["/ping"; "//ping"; "/x/../ping"; "/ping/"; "ping"; ""; "/metrics"; "/keygen"] = [200; 301; 301; 404; 301; 301; 200; 405].
Proof. vm_compute. reflexivity. Qed.

Definition ex_nodes : list node := [Node "thorpub1" (to_bytes "xy") (to_bytes "s"); Node "thorpub2" [] []].
Definition ex_kg (q : request) : kresp * bool := (KResp "pk" "addr" Fail (Blame "timeout" true ex_nodes), true).
Definition ex_ks (q : request) : response * bool :=
  match q with
  | KeysignReq _ msgs _ _ _ => (Resp (map (fun m => RSig m "cg==" "cw==" "AA==") msgs) Success no_blame, Nat.eqb (length msgs) 0)
  | _ => (empty_resp, true)
  end.
Definition q1 : string := String quote "".
Example ex_ks_request :
  let body := to_bytes ("{" ++ q1 ++ "extra" ++ q1 ++ ":[], " ++ q1 ++ "tss_version" ++ q1 ++ ": " ++ q1 ++ "0.13.0" ++ q1 ++ ","
     ++ q1 ++ "block_height" ++ q1 ++ ":-7," ++ q1 ++ "Messages" ++ q1 ++ ":[" ++ q1 ++ "aGk=" ++ q1 ++ "]} tail") in
  fst (serve ex_kg ex_ks "peer" (fun _ => HAns 200 []) (HReq "POST" "/keysign" body)) = Some (KeysignReq "" ["aGk="] [] (-7) "0.13.0") /\
  a_code (snd (serve ex_kg ex_ks "peer" (fun _ => HAns 200 []) (HReq "POST" "/keysign" body))) = 200.
Proof. vm_compute. auto. Qed.
(** The answers of the examples consist of text, and a body with escapes begins with an
    object that states a request. *)
Example ex_texts : keygen_texts (fst (ex_kg (KeygenReq [] 0 ""))) /\ keysign_texts (fst (ex_ks (KeysignReq "p" ["aGk="; "AA=="] [] 3 "v"))).
Proof.
  split; [split; [apply ascii_string; reflexivity|]; split; [apply ascii_string; reflexivity|]|];
    (split; [|repeat constructor; apply ascii_string; reflexivity]); [apply ascii_string; reflexivity|].
  repeat (apply Forall_cons; split); try apply Forall_nil_2; repeat split; apply ascii_string; reflexivity.
Qed.
Example ex_escapes :
  let body := to_bytes (" {" ++ q1 ++ "\u0054SS_version" ++ q1 ++ " :" ++ q1 ++ "\ud83d\ude00\ud800" ++ q1 ++ ", " ++ q1 ++ "x" ++ q1 ++ ":-0.5E+3}..") in
  begins (JObj [("TSS_version", JStr (of_bytes (map ascii_of_nat [240; 159; 152; 128; 239; 191; 189]))); ("x", JReal)]) body /\
  fst (serve ex_kg ex_ks "peer" (fun _ => HAns 200 []) (HReq "POST" "/keygen" body)) =
    Some (KeygenReq [] 0 (of_bytes (map ascii_of_nat [240; 159; 152; 128; 239; 191; 189]))).
Proof. split; [apply first_value_iff; [eauto|]; vm_compute; reflexivity|vm_compute; reflexivity]. Qed.
Example ex_keysign_text :
  of_bytes (a_body (snd (serve ex_kg ex_ks "peer" (fun _ => HAns 200 []) (HReq "POST" "/keysign" (json_enc (JObj (keysign_fields "p" ["aGk="] [] 3 "v"))))))) =
  let t := String tab "" in let n := String newline "" in
  "{" ++ n ++ t ++ q1 ++ "signatures" ++ q1 ++ ": [" ++ n ++ t ++ t ++ "{" ++ n ++
  t ++ t ++ t ++ q1 ++ "signed_msg" ++ q1 ++ ": " ++ q1 ++ "aGk=" ++ q1 ++ "," ++ n ++
  t ++ t ++ t ++ q1 ++ "r" ++ q1 ++ ": " ++ q1 ++ "cg==" ++ q1 ++ "," ++ n ++
  t ++ t ++ t ++ q1 ++ "s" ++ q1 ++ ": " ++ q1 ++ "cw==" ++ q1 ++ "," ++ n ++
  t ++ t ++ t ++ q1 ++ "recovery_id" ++ q1 ++ ": " ++ q1 ++ "AA==" ++ q1 ++ n ++ t ++ t ++ "}" ++ n ++ t ++ "]," ++ n ++
  t ++ q1 ++ "status" ++ q1 ++ ": 1," ++ n ++ t ++ q1 ++ "blame" ++ q1 ++ ": {" ++ n ++
  t ++ t ++ q1 ++ "fail_reason" ++ q1 ++ ": " ++ q1 ++ q1 ++ "," ++ n ++
  t ++ t ++ q1 ++ "is_broadcast" ++ q1 ++ ": false" ++ n ++ t ++ "}" ++ n ++ "}".
Proof. vm_compute. reflexivity. Qed.
Example ex_states : states (keygen_fields ["a"; "b"] 5 "v")
  [("tss_version", JStr "v"); ("other", JNull); ("keys", texts ["a"; "b"]); ("block_height", JNum 5)] /\ int64 5.
Proof.
  split; [|unfold int64; lia]. unfold states, keygen_fields. split.
  - intros f. rewrite !elem_of_cons. tauto.
  - apply Forall_cons_2; [left; do 2 apply elem_of_list_further; apply elem_of_list_here|].
    apply Forall_cons_2; [|apply Forall_cons_2; [left; apply elem_of_list_here|]; apply Forall_cons_2;
      [left; apply elem_of_list_further, elem_of_list_here|apply Forall_nil_2]].
    right. intros f Hf Hn. rewrite !elem_of_cons, elem_of_nil in Hf.
    destruct Hf as [->|[->|[->|[]]]]; cbn [fst] in Hn; apply named_iff in Hn; try reflexivity; vm_compute in Hn; discriminate.
Qed.
