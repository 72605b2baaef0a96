(** The field of secp256k1: its order is prime, square roots, points and their bytes. *)
From Coq Require Import ZArith Znumtheory Zpow_facts NArith Ascii List Lia.
From stdpp Require Import base list.
From Verif Require Import Base L_Base M_Recovery M_Keys L_Fermat L_Prime L_KeyFile.

Local Open Scope Z_scope.

Lemma pock3 n p1 a1 p2 a2 p3 a3 : prime p1 -> prime p2 -> prime p3 ->
  (negb (Z.eqb p1 p2) && negb (Z.eqb p1 p3) && negb (Z.eqb p2 p3) && Z.ltb 1 n && Z.ltb n (p1 * p2 * p3 * (p1 * p2 * p3)) &&
   (Z.leb 0 a1 && Z.leb 0 a2 && Z.leb 0 a3) && (witness n p1 a1 && witness n p2 a2 && witness n p3 a3))%bool = true -> prime n.
Proof.
  intros Hp1 Hp2 Hp3 H. apply andb_prop in H as [H Hw]. apply andb_prop in Hw as [Hw Hw3]. apply andb_prop in Hw as [Hw1 Hw2].
  apply andb_prop in H as [H Ha]. apply andb_prop in Ha as [Ha Ha3]. apply andb_prop in Ha as [Ha1 Ha2].
  apply andb_prop in H as [H Hb]. apply andb_prop in H as [H Hn]. apply andb_prop in H as [H Hne3]. apply andb_prop in H as [Hne1 Hne2].
  apply Z.ltb_lt in Hn, Hb. apply Z.leb_le in Ha1, Ha2, Ha3. apply negb_true_iff, Z.eqb_neq in Hne1, Hne2, Hne3.
  destruct (prime_dec n) as [|Hc]; [assumption|]. exfalso.
  destruct (small_divisor n Hn Hc) as (r & Hr & Hrn & Hrr). assert (1 < r) by (destruct Hr; assumption).
  assert (Hd1 := witness_ok n p1 a1 Hn Hp1 Ha1 Hw1 r Hr Hrn). assert (Hd2 := witness_ok n p2 a2 Hn Hp2 Ha2 Hw2 r Hr Hrn).
  assert (Hd3 := witness_ok n p3 a3 Hn Hp3 Ha3 Hw3 r Hr Hrn).
  assert (1 < p1) by (destruct Hp1; assumption). assert (1 < p2) by (destruct Hp2; assumption). assert (1 < p3) by (destruct Hp3; assumption).
  assert (R : forall x y, prime x -> prime y -> x <> y -> rel_prime x y).
  { intros x y Hx Hy Hxy. apply prime_rel_prime; [exact Hx|]. intros D. apply Hxy. apply prime_div_prime in D; auto. }
  assert (Hd : (p1 * p2 * p3 | r - 1)).
  { destruct Hd3 as [k Hk]. rewrite Hk in Hd1, Hd2.
    apply Z.mul_comm in Hd1 || rewrite Z.mul_comm in Hd1. rewrite Z.mul_comm in Hd2.
    apply Gauss in Hd1; [|apply R; assumption]. apply Gauss in Hd2; [|apply R; assumption].
    destruct Hd2 as [j Hj]. rewrite Hj, Z.mul_comm in Hd1. apply Gauss in Hd1; [|apply R; assumption].
    destruct Hd1 as [i Hi]. exists i. rewrite Hk, Hj, Hi. ring. }
  apply Z.divide_pos_le in Hd; [|lia]. nia.
Qed.

Lemma prime_7 : prime 7. Proof. apply (prime_trial _ 1); [lia..|vm_compute; reflexivity]. Qed.
Lemma prime_29 : prime 29. Proof. apply (prime_trial _ 4); [lia..|vm_compute; reflexivity]. Qed.
Lemma prime_53 : prime 53. Proof. apply (prime_trial _ 6); [lia..|vm_compute; reflexivity]. Qed.
Lemma prime_101 : prime 101. Proof. apply (prime_trial _ 9); [lia..|vm_compute; reflexivity]. Qed.
Lemma prime_239 : prime 239. Proof. apply (prime_trial _ 14); [lia..|vm_compute; reflexivity]. Qed.
Lemma prime_20113 : prime 20113. Proof. apply (prime_trial _ 140); [lia..|vm_compute; reflexivity]. Qed.
Lemma prime_1206781 : prime 1206781. Proof. apply (pock1 _ 20113 2 prime_20113). vm_compute. reflexivity. Qed.
Lemma prime_96557 : prime 96557. Proof. apply (pock2 _ 101 2 239 2 prime_101 prime_239). vm_compute. reflexivity. Qed.
Lemma prime_7240687 : prime 7240687. Proof. apply (pock1 _ 1206781 2 prime_1206781). vm_compute. reflexivity. Qed.
Lemma prime_107590001 : prime 107590001. Proof. apply (pock3 _ 53 2 29 2 7 2 prime_53 prime_29 prime_7). vm_compute. reflexivity. Qed.
Lemma prime_p128 : prime 255515944373312847190720520512484175977.
Proof. apply (pock3 _ 7240687 2 107590001 2 96557 2 prime_7240687 prime_107590001 prime_96557). vm_compute. reflexivity. Qed.
Lemma prime_p237 : prime 205115282021455665897114700593932402728804164701536103180137503955397371.
Proof. apply (pock1 _ 255515944373312847190720520512484175977 2 prime_p128). vm_compute. reflexivity. Qed.
Lemma secp_p_prime : prime secp_p.
Proof. apply (pock1 _ 205115282021455665897114700593932402728804164701536103180137503955397371 2 prime_p237). vm_compute. reflexivity. Qed.

(** *** Square roots modulo a prime that is 3 modulo 4 *)

Section Roots.
  Context (p : Z) (Hp : prime p) (H4 : p mod 4 = 3).
  Lemma p_pos : 2 < p. Proof. pose proof (prime_ge_2 p Hp). destruct (Z.eq_dec p 2) as [->|]; [discriminate H4|lia]. Qed.
  Lemma p_odd : Z.odd p = true.
  Proof.
    rewrite (Z.div_mod p 4), H4 by lia. replace (4 * (p / 4) + 3) with (1 + 2 * (2 * (p / 4) + 1)) by ring. apply Z.odd_add_mul_2.
  Qed.
  Lemma quarter : (p + 1) / 4 = p / 4 + 1.
  Proof. pose proof p_pos. rewrite (Z.div_mod p 4), H4 at 1 by lia. replace (4 * (p / 4) + 3 + 1) with ((p / 4 + 1) * 4) by ring. apply Z.div_mul. lia. Qed.
  Lemma mod_eq a b : a mod p = b mod p <-> (p | a - b).
  Proof.
    pose proof p_pos. split.
    - intros E. exists (a / p - b / p). pose proof (Z.div_mod a p ltac:(lia)). pose proof (Z.div_mod b p ltac:(lia)). lia.
    - intros [k Hk]. replace a with (b + k * p) by lia. apply Z.mod_add. lia.
  Qed.
  Definition root (z : Z) : Z := z ^ ((p + 1) / 4) mod p.
  Lemma root_square y : root (y * y mod p) * root (y * y mod p) mod p = y * y mod p.
  Proof.
    pose proof p_pos as Hp2. assert (Hq : 0 <= p / 4) by (apply Z.div_pos; lia).
    unfold root. rewrite quarter. rewrite <- Zmult_mod. rewrite <- Z.pow_add_r by lia.
    rewrite <- Zpower_mod by lia. rewrite <- Z.pow_2_r, <- Z.pow_mul_r by lia.
    replace (2 * (p / 4 + 1 + (p / 4 + 1))) with ((p - 1) + 2) by (pose proof (Z.div_mod p 4 ltac:(lia)); lia).
    rewrite Z.pow_add_r by lia. apply mod_eq. destruct (Zdivide_dec p y) as [[k ->]|Hn].
    - exists ((k * p) ^ (p - 1) * (k * k * p) - k * k * p). rewrite Z.pow_2_r. ring.
    - destruct (fermat_Z p y Hp Hn) as [k Hk]. exists (k * y ^ 2). replace (y ^ (p - 1)) with (k * p + 1) by lia. ring.
  Qed.
  Lemma root_range z : 0 <= root z < p.
  Proof. pose proof p_pos. apply Z.mod_pos_bound. lia. Qed.
  Lemma roots_two s y : 0 <= s < p -> 0 <= y < p -> s * s mod p = y * y mod p -> s = y \/ s + y = p \/ (s = 0 /\ y = 0).
  Proof.
    intros Hs Hy E. apply mod_eq in E. replace (s * s - y * y) with ((s - y) * (s + y)) in E by ring.
    apply (prime_mult p Hp) in E as [[k Hk]|[k Hk]].
    - left. assert (k = 0) by nia. lia.
    - right. assert (0 <= k < 2) by nia. assert (k = 0 \/ k = 1) as [->| ->] by lia; lia.
  Qed.
  Lemma odd_other y : Z.odd (p - y) = negb (Z.odd y).
  Proof. rewrite Z.odd_sub, p_odd. destruct (Z.odd y); reflexivity. Qed.
  (** The root of the parity that is asked for *)
  Lemma root_choice y : 0 <= y < p ->
    (if Bool.eqb (Z.odd y) (Z.odd (root (y * y mod p))) then root (y * y mod p) else (- root (y * y mod p)) mod p) = y.
  Proof.
    intros Hy. pose proof p_pos. set (s := root (y * y mod p)).
    assert (Hs : 0 <= s < p) by apply root_range. assert (E : s * s mod p = y * y mod p) by apply root_square. clearbody s.
    destruct (roots_two s y Hs Hy E) as [->|[Hsy|[-> ->]]].
    - rewrite Bool.eqb_reflx. reflexivity.
    - replace s with (p - y) by lia. rewrite odd_other. destruct (Z.odd y) eqn:O; cbn [Bool.eqb negb].
      + replace (- (p - y)) with (y + (-1) * p) by ring. rewrite Z.mod_add, Z.mod_small by lia. reflexivity.
      + replace (- (p - y)) with (y + (-1) * p) by ring. rewrite Z.mod_add, Z.mod_small by lia. reflexivity.
    - reflexivity.
  Qed.
End Roots.

(** *** Points *)

Definition point (x y : Z) : Prop := 0 <= x < secp_p /\ 0 <= y < secp_p /\ y * y mod secp_p = curve_rhs x.
Lemma secp_p_value : secp_p = 2 ^ 256 - 2 ^ 32 - 977. Proof. reflexivity. Qed.
Lemma secp_p_mod4 : secp_p mod 4 = 3. Proof. reflexivity. Qed.
Lemma secp_p_range : 0 < secp_p < 2 ^ 256. Proof. split; reflexivity. Qed.
Lemma field_sqrt_root z : field_sqrt z = root secp_p z.
Proof. unfold field_sqrt, root. apply Zpow_mod_correct. discriminate. Qed.
Lemma be_val_range b : length b = 32%nat -> (be_val b < 2 ^ 256)%N.
Proof. intros H. pose proof (le_val_bound (rev b)) as L. rewrite <- be_val_rev, rev_involutive, rev_length, H in L. exact L. Qed.
Global Opaque secp_p.

Lemma parse_sound b x y : ParsePubKey b = Some (x, y) -> point x y.
Proof.
  unfold ParsePubKey. destruct b as [|f r]; [discriminate|].
  match goal with |- match ?e with _ => _ end = _ -> _ => destruct e as [[x' y']|] eqn:E; [|discriminate] end.
  destruct (Z.ltb_spec x' secp_p) as [Hx|]; [|discriminate]. destruct (Z.ltb_spec y' secp_p) as [Hy|]; [|discriminate].
  cbn [andb]. destruct (isOnCurve x' y') eqn:C; [|discriminate]. intros H. injection H as -> ->.
  unfold isOnCurve in C. apply Z.eqb_eq in C.
  assert (0 <= x /\ 0 <= y) as [X0 Y0]; [|repeat split; assumption].
  destruct (Nat.eqb _ 65).
  - match type of E with (if ?t then _ else _) = _ => destruct t; [|discriminate] end. injection E as <- <-. split; apply N2Z.is_nonneg.
  - destruct (Nat.eqb _ 33); [|discriminate]. destruct (N.eqb _ 2); [|discriminate].
    match type of E with (if ?t then _ else _) = _ => destruct t; [|discriminate] end. injection E as <- E2. split; [apply N2Z.is_nonneg|].
    clear - E2. subst y. rewrite field_sqrt_root. match goal with |- 0 <= (if ?t then _ else _) => destruct t end.
    + exact (proj1 (root_range secp_p secp_p_prime secp_p_mod4 _)).
    + exact (proj1 (Z.mod_pos_bound _ _ (proj1 secp_p_range))).
Qed.
Lemma byte_val_23 (b : bool) : byte_val (ascii_of_N (if b then 3 else 2)) = (if b then 3 else 2)%N.
Proof. destruct b; reflexivity. Qed.
Lemma parse_serialize x y : point x y -> ParsePubKey (SerializeCompressed (x, y)) = Some (x, y).
Proof.
  intros (Hx & Hy & C). unfold SerializeCompressed, ParsePubKey. cbn [fst snd].
  assert (L : length (ascii_of_N (if Z.odd y then 3 else 2) :: be_bytes 32 (Z.to_N x)) = 33%nat) by (cbn [length]; rewrite be_bytes_length; reflexivity).
  rewrite L. cbn [Nat.eqb]. rewrite byte_val_23.
  replace (N.odd (if Z.odd y then 3 else 2)) with (Z.odd y) by (destruct (Z.odd y); reflexivity).
  replace (N.eqb (N.land (if Z.odd y then 3 else 2) 254) 2) with true by (destruct (Z.odd y); reflexivity).
  assert (V : Z.of_N (be_val (be_bytes 32 (Z.to_N x))) = x).
  { rewrite be_bytes_val, N.mod_small; [apply Z2N.id; lia|]. pose proof secp_p_range. apply N2Z.inj_lt. rewrite Z2N.id by lia.
    change (Z.of_N (256 ^ N.of_nat 32)) with (2 ^ 256). lia. }
  rewrite V, <- C, field_sqrt_root. rewrite (root_choice secp_p secp_p_prime secp_p_mod4 y Hy), Z.eqb_refl, Bool.eqb_reflx. cbn [andb].
  destruct (Z.ltb_spec x secp_p); [|lia]. destruct (Z.ltb_spec y secp_p); [|lia]. unfold isOnCurve. rewrite C, Z.eqb_refl. reflexivity.
Qed.
Lemma land_254 n : (n < 256)%N -> N.land n 254 = 2%N -> n = 2%N \/ n = 3%N.
Proof.
  intros Hn. assert (H : forallb (fun k => implb (N.eqb (N.land (N.of_nat k) 254) 2) (Nat.eqb k 2 || Nat.eqb k 3)) (seq 0 256) = true) by (vm_compute; reflexivity).
  rewrite forallb_forall in H. specialize (H (N.to_nat n) ltac:(apply in_seq; lia)). rewrite N2Nat.id in H. intros E. rewrite E in H. cbn [N.eqb Pos.eqb implb] in H.
  apply Bool.orb_true_iff in H as [H|H]; apply Nat.eqb_eq in H; lia.
Qed.
Lemma serialize_parse b x y : length b = 33%nat -> ParsePubKey b = Some (x, y) -> SerializeCompressed (x, y) = b.
Proof.
  intros L. unfold ParsePubKey. destruct b as [|f r]; [discriminate|]. rewrite L. cbn [Nat.eqb].
  destruct (N.eqb_spec (N.land (byte_val f) 254) 2) as [F|]; [|discriminate]. set (s := if Bool.eqb _ _ then _ else _).
  destruct (Z.eqb _ _ && Bool.eqb _ _)%bool eqn:T; [|discriminate]. apply andb_prop in T as [_ T]. apply Bool.eqb_prop in T.
  destruct (_ && _ && _)%bool; [|discriminate]. intros H. injection H as <- <-. unfold SerializeCompressed. cbn [fst snd]. rewrite <- T. f_equal.
  - destruct (land_254 (byte_val f) (byte_val_lt f) F) as [E|E]; rewrite E; cbv [N.odd];
      (transitivity (ascii_of_N (byte_val f)); [rewrite E; reflexivity|apply ascii_N_embedding]).
  - rewrite N2Z.id. injection L as L. apply be_val_inj; [rewrite be_bytes_length; congruence|]. rewrite be_bytes_val, N.mod_small; [reflexivity|].
    change (256 ^ N.of_nat 32)%N with (2 ^ 256)%N. apply be_val_range, L.
Qed.
Lemma serialize_inj x y x' y' : point x y -> point x' y' -> SerializeCompressed (x, y) = SerializeCompressed (x', y') -> (x, y) = (x', y').
Proof. intros H H' E. apply parse_serialize in H, H'. congruence. Qed.
