(** Lemmas about UTF-8. *)
From Coq Require Import ZArith NArith Ascii String List Lia ZifyNat ZifyN.
From stdpp Require Import base list strings.
From Verif Require Import Base L_Base M_Utf8 S_Utf8.

Local Open Scope N_scope.

Lemma cont_iff c : cont c = true <-> exists k, k < 64 /\ byte_val c = 0x80 + k.
Proof.
  unfold cont. rewrite andb_true_iff, !N.leb_le. split.
  - intros. exists (byte_val c - 128). lia.
  - intros (k & ? & ->). lia.
Qed.
Lemma within_iff lo hi c : within lo hi c = true <-> lo <= byte_val c <= hi.
Proof. unfold within. rewrite andb_true_iff, !N.leb_le. reflexivity. Qed.

Lemma div64 n a b : b < 64 -> n = a * 64 + b -> n / 64 = a /\ n mod 64 = b.
Proof.
  intros H ->. rewrite (N.add_comm (a * 64)). split.
  - rewrite N.div_add, N.div_small by lia. lia.
  - rewrite N.mod_add, N.mod_small by lia. reflexivity.
Qed.
Lemma digits2 n a b : b < 64 -> n = a * 64 + b -> n / 64 = a /\ n mod 64 = b.
Proof. apply div64. Qed.
Lemma digits3 n a b c : b < 64 -> c < 64 -> n = (a * 64 + b) * 64 + c ->
  n / 4096 = a /\ n / 64 mod 64 = b /\ n mod 64 = c.
Proof.
  intros Hb Hc Hn. destruct (div64 n _ c Hc Hn) as [H1 H2].
  change 4096 with (64 * 64). rewrite <- N.div_div by lia. rewrite H1.
  destruct (div64 (a * 64 + b) a b Hb eq_refl). auto.
Qed.
Lemma digits4 n a b c d : b < 64 -> c < 64 -> d < 64 -> n = ((a * 64 + b) * 64 + c) * 64 + d ->
  n / 262144 = a /\ n / 4096 mod 64 = b /\ n / 64 mod 64 = c /\ n mod 64 = d.
Proof.
  intros Hb Hc Hd Hn. destruct (div64 n _ d Hd Hn) as [H1 H2].
  destruct (digits3 ((a * 64 + b) * 64 + c) a b c Hb Hc eq_refl) as (H3 & H4 & H5).
  change 262144 with (64 * 4096). rewrite <- N.div_div, H1 by lia.
  replace (n / 4096) with (n / 64 / 64) by (rewrite N.div_div by lia; reflexivity). rewrite H1. auto.
Qed.

Lemma utf8_valid_char ch r : utf8_char ch -> utf8_valid (ch ++ r) = utf8_valid r.
Proof.
  intros H. inversion H as [c Hc|n a b Hn Ha Hb|n a b c Hn Hs Ha Hb Hc|n a b c d Hn Ha Hb Hc Hd]; subst; cbn [app utf8_valid].
  - rewrite (proj2 (N.ltb_lt _ _)) by exact Hc. reflexivity.
  - assert (Hm : n mod 64 < 64) by (apply N.mod_lt; lia).
    assert (Hd : n = n / 64 * 64 + n mod 64) by (pose proof (N.div_mod n 64 ltac:(lia)); lia).
    rewrite (proj2 (N.ltb_ge (byte_val a) 128)) by lia.
    rewrite (proj2 (within_iff 194 223 a)) by lia.
    rewrite (proj2 (cont_iff b)) by eauto. reflexivity.
  - assert (Hm : n mod 64 < 64) by (apply N.mod_lt; lia).
    assert (Hm2 : n / 64 mod 64 < 64) by (apply N.mod_lt; lia).
    assert (Hd : n = (n / 4096 * 64 + n / 64 mod 64) * 64 + n mod 64).
    { change 4096 with (64 * 64). rewrite <- N.div_div by lia.
      pose proof (N.div_mod n 64 ltac:(lia)). pose proof (N.div_mod (n / 64) 64 ltac:(lia)). lia. }
    rewrite (proj2 (N.ltb_ge (byte_val a) 128)) by lia.
    replace (within 194 223 a) with false by (symmetry; apply not_true_iff_false; rewrite within_iff; lia).
    rewrite (proj2 (within_iff 224 239 a)) by lia. rewrite (proj2 (cont_iff c)) by eauto.
    rewrite (proj2 (within_iff _ _ b)); [reflexivity|].
    destruct (N.eqb_spec (byte_val a) 224), (N.eqb_spec (byte_val a) 237); lia.
  - assert (Hm : n mod 64 < 64) by (apply N.mod_lt; lia).
    assert (Hm2 : n / 64 mod 64 < 64) by (apply N.mod_lt; lia).
    assert (Hm3 : n / 4096 mod 64 < 64) by (apply N.mod_lt; lia).
    assert (Hdd : n = ((n / 262144 * 64 + n / 4096 mod 64) * 64 + n / 64 mod 64) * 64 + n mod 64).
    { replace (n / 262144) with (n / 64 / 64 / 64) by (rewrite !N.div_div by lia; reflexivity).
      replace (n / 4096) with (n / 64 / 64) by (rewrite !N.div_div by lia; reflexivity).
      pose proof (N.div_mod n 64 ltac:(lia)). pose proof (N.div_mod (n / 64) 64 ltac:(lia)).
      pose proof (N.div_mod (n / 64 / 64) 64 ltac:(lia)). lia. }
    rewrite (proj2 (N.ltb_ge (byte_val a) 128)) by lia.
    replace (within 194 223 a) with false by (symmetry; apply not_true_iff_false; rewrite within_iff; lia).
    replace (within 224 239 a) with false by (symmetry; apply not_true_iff_false; rewrite within_iff; lia).
    rewrite (proj2 (within_iff 240 244 a)) by lia. rewrite (proj2 (cont_iff c)) by eauto. rewrite (proj2 (cont_iff d)) by eauto.
    rewrite (proj2 (within_iff _ _ b)); [reflexivity|].
    destruct (N.eqb_spec (byte_val a) 240), (N.eqb_spec (byte_val a) 244); lia.
Qed.

Lemma utf8_valid_iff b : utf8_valid b = true <-> utf8_text b.
Proof.
  split.
  - remember (length b) as n eqn:Hn. assert (Hle : (length b <= n)%nat) by lia. clear Hn. revert b Hle.
    induction n as [|n IH]; intros b Hle H.
    { destruct b; [|cbn in Hle; lia]. exists []. auto. }
    assert (Hcons : forall ch r, b = ch ++ r -> ch <> [] -> utf8_char ch -> utf8_valid r = true -> utf8_text b).
    { intros ch r -> Hne Hc Hr. destruct (IH r) as (l & -> & Hl); [|exact Hr|].
      - rewrite app_length in Hle. destruct ch; [congruence|]. cbn in Hle. lia.
      - exists (ch :: l). split; [reflexivity|]. constructor; assumption. }
    destruct b as [|c0 r0]; [exists []; auto|]. cbn [utf8_valid] in H.
    destruct (N.ltb_spec (byte_val c0) 128) as [H0|H0].
    { apply (Hcons [c0] r0); [reflexivity|discriminate|constructor; exact H0|exact H]. }
    destruct r0 as [|c1 r1]; [discriminate|]. destruct (within 194 223 c0) eqn:Hw.
    { apply within_iff in Hw. apply andb_true_iff in H as [Hc H]. apply cont_iff in Hc as (k & Hk & Hc).
      apply (Hcons [c0; c1] r1); [reflexivity|discriminate| |exact H].
      destruct (digits2 ((byte_val c0 - 192) * 64 + k) _ _ Hk eq_refl) as [H1 H2].
      apply (utf8_two ((byte_val c0 - 192) * 64 + k)); [lia|rewrite H1; lia|rewrite H2; lia]. }
    destruct r1 as [|c2 r2]; [discriminate|]. destruct (within 224 239 c0) eqn:Hw3.
    { apply within_iff in Hw3. apply andb_true_iff in H as [H H3]. apply andb_true_iff in H as [H1 H2].
      apply cont_iff in H2 as (k & Hk & Hc). apply within_iff in H1.
      apply (Hcons [c0; c1; c2] r2); [reflexivity|discriminate| |exact H3].
      assert (Hj : byte_val c1 - 128 < 64 /\ 128 <= byte_val c1).
      { destruct (N.eqb_spec (byte_val c0) 224), (N.eqb_spec (byte_val c0) 237); lia. }
      destruct Hj as [Hj Hj']. destruct (digits3 (((byte_val c0 - 224) * 64 + (byte_val c1 - 128)) * 64 + k) _ _ _ Hj Hk eq_refl) as (D1 & D2 & D3).
      apply (utf8_three (((byte_val c0 - 224) * 64 + (byte_val c1 - 128)) * 64 + k));
        [| |rewrite D1; lia|rewrite D2; lia|rewrite D3; lia];
        destruct (N.eqb_spec (byte_val c0) 224), (N.eqb_spec (byte_val c0) 237); lia. }
    destruct r2 as [|c3 r3]; [discriminate|].
    apply andb_true_iff in H as [H H5]. apply andb_true_iff in H as [H H4]. apply andb_true_iff in H as [H H3].
    apply andb_true_iff in H as [H1 H2]. apply within_iff in H1. apply within_iff in H2.
    apply cont_iff in H3 as (k & Hk & Hc). apply cont_iff in H4 as (j & Hj & Hd).
    apply (Hcons [c0; c1; c2; c3] r3); [reflexivity|discriminate| |exact H5].
    assert (Hi : byte_val c1 - 128 < 64 /\ 128 <= byte_val c1).
    { destruct (N.eqb_spec (byte_val c0) 240), (N.eqb_spec (byte_val c0) 244); lia. }
    destruct Hi as [Hi Hi']. destruct (digits4 ((((byte_val c0 - 240) * 64 + (byte_val c1 - 128)) * 64 + k) * 64 + j) _ _ _ _ Hi Hk Hj eq_refl) as (D1 & D2 & D3 & D4).
    apply (utf8_four ((((byte_val c0 - 240) * 64 + (byte_val c1 - 128)) * 64 + k) * 64 + j));
      [|rewrite D1; lia|rewrite D2; lia|rewrite D3; lia|rewrite D4; lia].
    destruct (N.eqb_spec (byte_val c0) 240), (N.eqb_spec (byte_val c0) 244); lia.
  - intros (l & -> & Hl). induction Hl as [|ch l Hc Hl IH]; [reflexivity|]. cbn [concat].
    rewrite utf8_valid_char by exact Hc. exact IH.
Qed.
Lemma text_ok_iff s : text_ok s = true <-> text s.
Proof. apply utf8_valid_iff. Qed.

(** ** The character at the beginning *)

Lemma rune_len_char ch r : utf8_char ch -> rune_len (ch ++ r) = length ch.
Proof.
  intros H. inversion H as [c Hc|n a b Hn Ha Hb|n a b c Hn Hs Ha Hb Hc|n a b c d Hn Ha Hb Hc Hd]; subst; cbn [app rune_len length].
  - rewrite (proj2 (N.ltb_lt _ _)) by exact Hc. reflexivity.
  - assert (Hm : n mod 64 < 64) by (apply N.mod_lt; lia).
    assert (Hd : n = n / 64 * 64 + n mod 64) by (pose proof (N.div_mod n 64 ltac:(lia)); lia).
    rewrite (proj2 (N.ltb_ge (byte_val a) 128)) by lia.
    rewrite (proj2 (within_iff 194 223 a)) by lia.
    rewrite (proj2 (cont_iff b)) by eauto. reflexivity.
  - assert (Hm : n mod 64 < 64) by (apply N.mod_lt; lia).
    assert (Hm2 : n / 64 mod 64 < 64) by (apply N.mod_lt; lia).
    assert (Hd : n = (n / 4096 * 64 + n / 64 mod 64) * 64 + n mod 64).
    { change 4096 with (64 * 64). rewrite <- N.div_div by lia.
      pose proof (N.div_mod n 64 ltac:(lia)). pose proof (N.div_mod (n / 64) 64 ltac:(lia)). lia. }
    rewrite (proj2 (N.ltb_ge (byte_val a) 128)) by lia.
    replace (within 194 223 a) with false by (symmetry; apply not_true_iff_false; rewrite within_iff; lia).
    rewrite (proj2 (within_iff 224 239 a)) by lia. rewrite (proj2 (cont_iff c)) by eauto.
    rewrite (proj2 (within_iff _ _ b)); [reflexivity|].
    destruct (N.eqb_spec (byte_val a) 224), (N.eqb_spec (byte_val a) 237); lia.
  - assert (Hm : n mod 64 < 64) by (apply N.mod_lt; lia).
    assert (Hm2 : n / 64 mod 64 < 64) by (apply N.mod_lt; lia).
    assert (Hm3 : n / 4096 mod 64 < 64) by (apply N.mod_lt; lia).
    assert (Hdd : n = ((n / 262144 * 64 + n / 4096 mod 64) * 64 + n / 64 mod 64) * 64 + n mod 64).
    { replace (n / 262144) with (n / 64 / 64 / 64) by (rewrite !N.div_div by lia; reflexivity).
      replace (n / 4096) with (n / 64 / 64) by (rewrite !N.div_div by lia; reflexivity).
      pose proof (N.div_mod n 64 ltac:(lia)). pose proof (N.div_mod (n / 64) 64 ltac:(lia)).
      pose proof (N.div_mod (n / 64 / 64) 64 ltac:(lia)). lia. }
    rewrite (proj2 (N.ltb_ge (byte_val a) 128)) by lia.
    replace (within 194 223 a) with false by (symmetry; apply not_true_iff_false; rewrite within_iff; lia).
    replace (within 224 239 a) with false by (symmetry; apply not_true_iff_false; rewrite within_iff; lia).
    rewrite (proj2 (within_iff 240 244 a)) by lia. rewrite (proj2 (cont_iff c)) by eauto. rewrite (proj2 (cont_iff d)) by eauto.
    rewrite (proj2 (within_iff _ _ b)); [reflexivity|].
    destruct (N.eqb_spec (byte_val a) 240), (N.eqb_spec (byte_val a) 244); lia.
Qed.
Lemma char_nonempty ch : utf8_char ch -> exists c l, ch = c :: l.
Proof. inversion 1; eauto. Qed.
Lemma rune_len_pos b n : rune_len b = S n -> exists r, b = take (S n) b ++ r /\ utf8_char (take (S n) b) /\ length (take (S n) b) = S n.
Proof.
  intros H.
  assert (Hgo : forall ch r, b = ch ++ r -> utf8_char ch -> exists r, b = take (S n) b ++ r /\ utf8_char (take (S n) b) /\ length (take (S n) b) = S n).
  { intros ch r -> Hc. rewrite rune_len_char in H by exact Hc. rewrite <- H, take_app. eauto. }
  destruct b as [|c0 r0]; [discriminate|]. cbn [rune_len] in H.
  destruct (N.ltb_spec (byte_val c0) 128) as [H0|H0].
  { apply (Hgo [c0] r0); [reflexivity|constructor; exact H0]. }
  destruct r0 as [|c1 r1]; [discriminate|]. destruct (within 194 223 c0) eqn:Hw.
  { apply within_iff in Hw. destruct (cont c1) eqn:Hc; [|discriminate]. apply cont_iff in Hc as (k & Hk & Hc).
    apply (Hgo [c0; c1] r1); [reflexivity|].
    destruct (digits2 ((byte_val c0 - 192) * 64 + k) _ _ Hk eq_refl) as [H1 H2].
    apply (utf8_two ((byte_val c0 - 192) * 64 + k)); [lia|rewrite H1; lia|rewrite H2; lia]. }
  destruct r1 as [|c2 r2]; [discriminate|]. destruct (within 224 239 c0) eqn:Hw3.
  { apply within_iff in Hw3. destruct (_ && _)%bool eqn:E in H; [|discriminate]. apply andb_true_iff in E as [H1 H2].
    apply cont_iff in H2 as (k & Hk & Hc). apply within_iff in H1.
    apply (Hgo [c0; c1; c2] r2); [reflexivity|].
    assert (Hj : byte_val c1 - 128 < 64 /\ 128 <= byte_val c1).
    { destruct (N.eqb_spec (byte_val c0) 224), (N.eqb_spec (byte_val c0) 237); lia. }
    destruct Hj as [Hj Hj']. destruct (digits3 (((byte_val c0 - 224) * 64 + (byte_val c1 - 128)) * 64 + k) _ _ _ Hj Hk eq_refl) as (D1 & D2 & D3).
    apply (utf8_three (((byte_val c0 - 224) * 64 + (byte_val c1 - 128)) * 64 + k));
      [| |rewrite D1; lia|rewrite D2; lia|rewrite D3; lia];
      destruct (N.eqb_spec (byte_val c0) 224), (N.eqb_spec (byte_val c0) 237); lia. }
  destruct r2 as [|c3 r3]; [discriminate|].
  destruct (_ && _)%bool eqn:E in H; [|discriminate].
  apply andb_true_iff in E as [E H4]. apply andb_true_iff in E as [E H3].
  apply andb_true_iff in E as [H1 H2]. apply within_iff in H1. apply within_iff in H2.
  apply cont_iff in H3 as (k & Hk & Hc). apply cont_iff in H4 as (j & Hj & Hd).
  apply (Hgo [c0; c1; c2; c3] r3); [reflexivity|].
  assert (Hi : byte_val c1 - 128 < 64 /\ 128 <= byte_val c1).
  { destruct (N.eqb_spec (byte_val c0) 240), (N.eqb_spec (byte_val c0) 244); lia. }
  destruct Hi as [Hi Hi']. destruct (digits4 ((((byte_val c0 - 240) * 64 + (byte_val c1 - 128)) * 64 + k) * 64 + j) _ _ _ _ Hi Hk Hj eq_refl) as (D1 & D2 & D3 & D4).
  apply (utf8_four ((((byte_val c0 - 240) * 64 + (byte_val c1 - 128)) * 64 + k) * 64 + j));
    [|rewrite D1; lia|rewrite D2; lia|rewrite D3; lia|rewrite D4; lia].
  destruct (N.eqb_spec (byte_val c0) 240), (N.eqb_spec (byte_val c0) 244); lia.
Qed.
Lemma rune_len_zero c b : rune_len (c :: b) = 0%nat <-> (forall ch r, utf8_char ch -> c :: b <> ch ++ r).
Proof.
  split.
  - intros H ch r Hc He. rewrite He, rune_len_char in H by exact Hc. destruct (char_nonempty ch Hc) as (x & l & ->). discriminate.
  - intros H. destruct (rune_len (c :: b)) as [|n] eqn:E; [reflexivity|].
    destruct (rune_len_pos _ _ E) as (r & He & Hc & _). destruct (H _ _ Hc He).
Qed.

Lemma coerce_from_skip l : forall b, coerce_from (length l) (l ++ b) = coerce b.
Proof. induction l as [|x l IH]; intros b; [reflexivity|]. cbn [length app coerce_from]. apply IH. Qed.
Lemma coerce_char ch b : utf8_char ch -> coerce (ch ++ b) = ch ++ coerce b.
Proof.
  intros H. pose proof (rune_len_char ch b H) as Hl. destruct (char_nonempty ch H) as (c & l & ->).
  unfold coerce at 1. cbn [app] in *. cbn [coerce_from]. rewrite Hl.
  change (length (c :: l)) with (S (length l)). cbv iota beta.
  replace (take (S (length l)) (c :: l ++ b)) with (c :: l) by (symmetry; apply (take_app (c :: l))).
  rewrite coerce_from_skip. reflexivity.
Qed.
Lemma coerce_bad c b : rune_len (c :: b) = 0%nat -> coerce (c :: b) = rune_error ++ coerce b.
Proof. intros H. unfold coerce at 1. cbn [coerce_from]. rewrite H. reflexivity. Qed.
(** Bytes begin with a character or with a byte that begins none. *)
Lemma bytes_ind_rune (P : bytes -> Prop) : P [] -> (forall ch b, utf8_char ch -> P b -> P (ch ++ b)) ->
  (forall c b, rune_len (c :: b) = 0%nat -> P b -> P (c :: b)) -> forall b, P b.
Proof.
  intros H0 H1 H2 b. remember (length b) as n eqn:Hn. assert (Hle : (length b <= n)%nat) by lia. clear Hn. revert b Hle.
  induction n as [|n IH]; intros b Hle; [destruct b; [exact H0|cbn in Hle; lia]|].
  destruct b as [|c b]; [exact H0|]. destruct (rune_len (c :: b)) as [|k] eqn:E.
  - apply H2; [exact E|]. apply IH. cbn in Hle. lia.
  - destruct (rune_len_pos _ _ E) as (r & He & Hc & Hl). rewrite He. apply H1; [exact Hc|]. apply IH.
    apply (f_equal length) in He. rewrite app_length, Hl in He. cbn [length] in *. lia.
Qed.
Lemma repaired_coerce b b' : repaired b b' <-> b' = coerce b.
Proof.
  split.
  - induction 1 as [|ch b b' Hc _ ->|c b b' Hn _ ->]; [reflexivity|symmetry; apply coerce_char, Hc|].
    symmetry. apply coerce_bad, rune_len_zero, Hn.
  - intros ->. induction b as [|ch b Hc IH|c b Hn IH] using bytes_ind_rune; [constructor| |].
    + rewrite coerce_char by exact Hc. constructor; assumption.
    + rewrite coerce_bad by exact Hn. constructor; [apply rune_len_zero, Hn|exact IH].
Qed.
Lemma coerce_text b : utf8_text b -> coerce b = b.
Proof.
  intros (l & -> & Hl). induction Hl as [|ch l Hc Hl IH]; [reflexivity|]. cbn [concat]. rewrite coerce_char, IH by exact Hc. reflexivity.
Qed.
Lemma rune_error_char : utf8_char rune_error.
Proof. apply (utf8_three 65533); (reflexivity || lia). Qed.
Lemma coerce_is_text b : utf8_text (coerce b).
Proof.
  induction b as [|ch b Hc (l & Hl & Hf)|c b Hn (l & Hl & Hf)] using bytes_ind_rune; [exists []; split; [reflexivity|constructor]| |].
  - rewrite coerce_char by exact Hc. exists (ch :: l). cbn [concat]. rewrite Hl. split; [reflexivity|]. constructor; assumption.
  - rewrite coerce_bad by exact Hn. exists (rune_error :: l). cbn [concat]. rewrite Hl. split; [reflexivity|]. constructor; [apply rune_error_char|exact Hf].
Qed.
Lemma coerce_idem b : coerce (coerce b) = coerce b.
Proof. apply coerce_text, coerce_is_text. Qed.
Lemma ascii_text b : Forall (fun c => byte_val c < 128) b -> utf8_text b.
Proof.
  induction 1 as [|c b Hc Hb (l & -> & Hl)]; [exists []; split; [reflexivity|constructor]|].
  exists ([c] :: l). split; [reflexivity|]. constructor; [constructor; exact Hc|exact Hl].
Qed.
Lemma coerce_ascii c b : byte_val c < 128 -> coerce (c :: b) = c :: coerce b.
Proof. intros H. apply (coerce_char [c]). constructor. exact H. Qed.
