(** Lemmas for the exported key file. *)
From Coq Require Import ZArith NArith Ascii String List Lia.
From stdpp Require Import base list strings.
From Verif Require Import Base L_Base S_Key S_Recovery M_Recovery.

(** *** Hexadecimal text *)

Lemma hex_digit_ok n : n < 16 -> hex_digit_of (hex_digit (N.of_nat n)) n.
Proof. intros H. do 16 (destruct n as [|n]; [left; reflexivity|]). lia. Qed.
Lemma hex_encode_spells b : hex_of (hex_encode b) b.
Proof.
  unfold hex_of, hex_encode. rewrite to_of_bytes. induction b as [|c b IH]; [constructor|]. cbn [map concat app].
  pose proof (byte_val_lt c) as Hc.
  assert (H1 : (byte_val c / 16 < 16)%N) by (apply N.div_lt_upper_bound; lia).
  assert (H2 : (byte_val c mod 16 < 16)%N) by (apply N.mod_lt; lia).
  replace c with (ascii_of_nat (N.to_nat (byte_val c / 16) * 16 + N.to_nat (byte_val c mod 16))) at 3.
  - rewrite <- (N2Nat.id (byte_val c / 16)) at 1. rewrite <- (N2Nat.id (byte_val c mod 16)) at 1.
    constructor; [apply hex_digit_ok; lia|apply hex_digit_ok; lia|exact IH].
  - unfold ascii_of_nat. rewrite Nat2N.inj_add, Nat2N.inj_mul, !N2Nat.id. change (N.of_nat 16) with 16%N.
    rewrite N.mul_comm, <- N.div_mod by lia. apply ascii_N_embedding.
Qed.

(** *** Counters *)

Fixpoint le_val (b : bytes) : N := match b with [] => 0 | c :: r => byte_val c + 256 * le_val r end.
Lemma be_val_rev b : be_val (rev b) = le_val b.
Proof. induction b as [|c b IH]; [reflexivity|]. cbn [rev le_val]. rewrite be_val_app, IH. lia. Qed.
Lemma le_val_bound b : (le_val b < 256 ^ N.of_nat (length b))%N.
Proof. rewrite <- be_val_rev, <- rev_length. apply be_val_bound. Qed.
Lemma byte_val_of n : (n < 256)%N -> byte_val (ascii_of_N n) = n.
Proof. intros H. unfold byte_val. apply N_ascii_embedding, H. Qed.
Lemma incr_rev_length b : length (incr_rev b) = length b.
Proof. induction b as [|c b IH]; [reflexivity|]. cbn [incr_rev]. destruct (N.eqb _ _); cbn [length]; [rewrite IH|]; reflexivity. Qed.
Lemma incr_rev_val b : (le_val (incr_rev b) = (le_val b + 1) mod 256 ^ N.of_nat (length b))%N.
Proof.
  induction b as [|c b IH]; [reflexivity|]. cbn [incr_rev length]. rewrite Nat2N.inj_succ, N.pow_succ_r by lia.
  pose proof (le_val_bound b) as Hb. pose proof (byte_val_lt c) as Hc. destruct (N.eqb_spec (byte_val c) 255) as [He|Hne].
  - cbn [le_val]. rewrite IH, He. change (byte_val "000"%char) with 0%N.
    replace (255 + 256 * le_val b + 1)%N with (256 * (le_val b + 1))%N by lia.
    rewrite N.mul_mod_distr_l by (try lia; apply N.pow_nonzero; lia). lia.
  - cbn [le_val]. rewrite byte_val_of by lia. rewrite N.mod_small; [lia|]. nia.
Qed.
Lemma incr_length b : length (incr b) = length b.
Proof. unfold incr. rewrite rev_length, incr_rev_length, rev_length. reflexivity. Qed.
Lemma incr_val b : (be_val (incr b) = (be_val b + 1) mod 256 ^ N.of_nat (length b))%N.
Proof. unfold incr. rewrite be_val_rev, incr_rev_val, rev_length, <- be_val_rev, rev_involutive. reflexivity. Qed.
Fixpoint incr_n (n : nat) (b : bytes) : bytes := match n with O => b | S n => incr_n n (incr b) end.
Lemma incr_n_length n b : length (incr_n n b) = length b.
Proof. revert b. induction n as [|n IH]; intros b; [reflexivity|]. cbn. rewrite IH. apply incr_length. Qed.
Lemma incr_n_val n b : (be_val (incr_n n b) = (be_val b + N.of_nat n) mod 256 ^ N.of_nat (length b))%N.
Proof.
  revert b. induction n as [|n IH]; intros b; cbn [incr_n].
  - rewrite N.add_0_r, N.mod_small; [reflexivity|]. apply be_val_bound.
  - rewrite IH, incr_val, incr_length. rewrite N.add_mod_idemp_l by (apply N.pow_nonzero; lia). f_equal. lia.
Qed.

(** *** Numbers as bytes *)

Lemma be_bytes_length n z : length (be_bytes n z) = n.
Proof. revert z. induction n as [|n IH]; intros z; [reflexivity|]. cbn. rewrite app_length, IH. cbn. lia. Qed.
Lemma be_bytes_val n z : (be_val (be_bytes n z) = z mod 256 ^ N.of_nat n)%N.
Proof.
  revert z. induction n as [|n IH]; intros z; [cbn; rewrite N.mod_1_r; reflexivity|]. cbn [be_bytes].
  rewrite be_val_app, IH, byte_val_of by (apply N.mod_lt; lia). rewrite Nat2N.inj_succ, N.pow_succ_r by lia.
  rewrite (N.mod_mul_r z 256 (256 ^ N.of_nat n)) by (try lia; apply N.pow_nonzero; lia). lia.
Qed.
Lemma be_val_inj a b : length a = length b -> be_val a = be_val b -> a = b.
Proof.
  revert b. induction a as [|x a IH] using rev_ind; intros b Hl Hv.
  - destruct b; [reflexivity|discriminate].
  - destruct b as [|y b _] using rev_ind; [rewrite app_length in Hl; cbn in Hl; lia|].
    rewrite !app_length in Hl. cbn in Hl. rewrite !be_val_app in Hv.
    pose proof (byte_val_lt x). pose proof (byte_val_lt y).
    assert (be_val a = be_val b) by lia. assert (byte_val x = byte_val y) by lia. f_equal; [apply IH; [lia|assumption]|].
    f_equal. rewrite <- (ascii_N_embedding x), <- (ascii_N_embedding y). f_equal. assumption.
Qed.

(** *** The stream *)

Section Stream.
  Context (K : kenv) (key : bytes) (Haes : forall b, length b = 16 -> length (ke_aes K key b) = 16).

  Lemma keystream_length n ctr : length ctr = 16 -> length (keystream K key n ctr) = 16 * n.
  Proof.
    revert ctr. induction n as [|n IH]; intros ctr Hc; [reflexivity|]. cbn [keystream]. rewrite app_length, Haes, IH by (try rewrite incr_length; exact Hc). lia.
  Qed.
  Lemma keystream_lookup n ctr i : length ctr = 16 -> i < 16 * n ->
    keystream K key n ctr !! i = ke_aes K key (incr_n (i / 16) ctr) !! (i mod 16).
  Proof.
    revert ctr i. induction n as [|n IH]; intros ctr i Hc Hi; [lia|]. cbn [keystream].
    destruct (Nat.lt_ge_cases i 16) as [Hlt|Hge].
    - rewrite lookup_app_l by (rewrite Haes by exact Hc; exact Hlt). rewrite Nat.div_small, Nat.mod_small by exact Hlt. reflexivity.
    - rewrite lookup_app_r by (rewrite Haes by exact Hc; exact Hge). rewrite Haes by exact Hc.
      rewrite IH by (try rewrite incr_length; lia).
      replace i with (i - 16 + 1 * 16) at 3 4 by lia. rewrite Nat.div_add, Nat.mod_add by lia.
      replace ((i - 16) / 16 + 1) with (S ((i - 16) / 16)) by lia. reflexivity.
  Qed.
  Lemma aes_decrypts plain iv text : length iv = 16 -> aesCTRXOR K key plain iv = Some text -> decrypts (ke_aes K) key iv text plain.
  Proof.
    intros Hiv. unfold aesCTRXOR. destruct (negb _); [discriminate|]. destruct (negb _); [discriminate|].
    intros H. apply Some_inj in H. subst text.
    assert (Hk : length plain <= length (keystream K key (S (length plain / 16)) iv)).
    { rewrite keystream_length by exact Hiv. pose proof (Nat.div_mod (length plain) 16). pose proof (Nat.mod_upper_bound (length plain) 16). lia. }
    split; [rewrite zip_with_length; lia|]. intros i c Hi. apply lookup_zip_with_Some in Hi as (p & k & -> & Hp & Hkk). exists k.
    assert (Hil : i < length plain) by (apply lookup_lt_Some in Hp; exact Hp). split.
    - exists (incr_n (i / 16) iv). split.
      + split; [rewrite incr_n_length; exact Hiv|]. rewrite incr_n_val, Hiv. reflexivity.
      + rewrite <- (keystream_lookup (S (length plain / 16))); [exact Hkk|exact Hiv|].
        pose proof (Nat.div_mod (length plain) 16). pose proof (Nat.mod_upper_bound (length plain) 16). lia.
    - rewrite Hp. f_equal. unfold xor_byte.
      assert (Hx : (N.lxor (byte_val p) (byte_val k) < 256)%N).
      { destruct (N.eq_dec (N.lxor (byte_val p) (byte_val k)) 0) as [->|Hn]; [lia|]. change 256%N with (2 ^ 8)%N. apply N.log2_lt_pow2; [lia|].
        eapply N.le_lt_trans; [apply N.log2_lxor|]. apply N.max_lub_lt.
        - destruct (N.eq_dec (byte_val p) 0) as [->|Hz]; [cbn; lia|]. apply N.log2_lt_pow2; [lia|]. apply (byte_val_lt p).
        - destruct (N.eq_dec (byte_val k) 0) as [->|Hz]; [cbn; lia|]. apply N.log2_lt_pow2; [lia|]. apply (byte_val_lt k). }
      rewrite byte_val_of by exact Hx. rewrite N.lxor_assoc, N.lxor_nilpotent, N.lxor_0_r. symmetry. apply ascii_N_embedding.
  Qed.
End Stream.

Lemma decrypts_fun aes key iv text p1 p2 : decrypts aes key iv text p1 -> decrypts aes key iv text p2 -> p1 = p2.
Proof.
  intros [L1 H1] [L2 H2]. apply list_eq. intros i. destruct (text !! i) as [c|] eqn:E.
  - destruct (H1 i c E) as (k1 & (b1 & [B1 V1] & S1) & ->). destruct (H2 i c E) as (k2 & (b2 & [B2 V2] & S2) & ->).
    assert (b1 = b2) by (apply be_val_inj; congruence). congruence.
  - apply lookup_ge_None in E. rewrite !lookup_ge_None_2 by lia. reflexivity.
Qed.
