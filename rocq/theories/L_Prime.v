(** The order of secp256k1 is prime (Pocklington). *)
From Coq Require Import ZArith Znumtheory Zpow_facts List Lia.
From stdpp Require Import base list.
From Verif Require Import L_Fermat M_Recovery.

Local Open Scope Z_scope.

Lemma prime_divisor n : 1 < n -> exists r, prime r /\ (r | n) /\ r <= n.
Proof.
  assert (H : forall m : nat, forall n, Z.to_nat n = m -> 1 < n -> exists r, prime r /\ (r | n) /\ r <= n).
  { intros m. induction m as [m IH] using lt_wf_ind. intros n' Hm Hn. destruct (prime_dec n') as [Hp|Hp].
    - exists n'. split; [exact Hp|]. split; [reflexivity|lia].
    - destruct (not_prime_divide n' Hn Hp) as (d & Hd & Hdiv). destruct (IH (Z.to_nat d)) with (n := d) as (r & Hr & Hrd & Hle); [lia|reflexivity|lia|].
      exists r. split; [exact Hr|]. split; [exact (Z.divide_trans _ _ _ Hrd Hdiv)|lia]. }
  apply (H (Z.to_nat n)). reflexivity.
Qed.
Lemma small_divisor n : 1 < n -> ~ prime n -> exists r, prime r /\ (r | n) /\ r * r <= n.
Proof.
  intros Hn Hp. destruct (not_prime_divide n Hn Hp) as (d & Hd & [e He]).
  assert (He1 : 1 < e) by nia. destruct (Z.le_gt_cases d e) as [Hle|Hgt].
  - destruct (prime_divisor d) as (r & Hr & Hrd & Hrl); [lia|]. assert (1 < r) by (destruct Hr; assumption). exists r. split; [exact Hr|]. split; [|nia].
    apply (Z.divide_trans _ d); [exact Hrd|]. exists e. lia.
  - destruct (prime_divisor e) as (r & Hr & Hrd & Hrl); [lia|]. assert (1 < r) by (destruct Hr; assumption). exists r. split; [exact Hr|]. split; [|nia].
    apply (Z.divide_trans _ e); [exact Hrd|]. exists d. lia.
Qed.

(** Small primes by trial division *)
Definition trial (n m : Z) : bool :=
  forallb (fun k => negb (Z.eqb (n mod (Z.of_nat k + 2)) 0)) (seq 0 (Z.to_nat m)).
Lemma prime_trial n m : 1 < n -> 0 <= m -> n < (m + 2) * (m + 2) -> trial n m = true -> prime n.
Proof.
  intros Hn Hm Hb Ht. destruct (prime_dec n) as [|Hp]; [assumption|]. exfalso.
  destruct (small_divisor n Hn Hp) as (r & Hr & Hrd & Hrr). assert (1 < r) by (destruct Hr; assumption).
  unfold trial in Ht. rewrite forallb_forall in Ht. specialize (Ht (Z.to_nat (r - 2))).
  assert (Hin : In (Z.to_nat (r - 2)) (seq 0 (Z.to_nat m))) by (apply in_seq; nia).
  apply Ht in Hin. rewrite Z2Nat.id in Hin by lia. replace (r - 2 + 2) with r in Hin by ring.
  apply Z.mod_divide in Hrd; [|lia]. rewrite Hrd in Hin. discriminate.
Qed.

(** *** Pocklington *)

Lemma pow_one_mult r a m k : 0 <= m -> 0 <= k -> (r | a ^ m - 1) -> (r | a ^ (m * k) - 1).
Proof.
  intros Hm Hk H. rewrite Z.pow_mul_r by assumption. revert H. generalize (a ^ m). intros b H.
  revert k Hk. apply natlike_ind.
  - exists 0. rewrite Z.pow_0_r. ring.
  - intros k Hk IH. rewrite Z.pow_succ_r by exact Hk. destruct H as [u Hu], IH as [v Hv].
    exists (u * b ^ k + v). replace (b * b ^ k - 1) with ((b - 1) * b ^ k + (b ^ k - 1)) by ring. rewrite Hu, Hv. ring.
Qed.
Lemma pow_one_gcd r a m n : prime r -> ~ (r | a) -> 0 < m -> 0 < n -> (r | a ^ m - 1) -> (r | a ^ n - 1) -> (r | a ^ Z.gcd m n - 1).
Proof.
  intros Hr Ha Hm Hn H1 H2. pose proof (Z.gcd_nonneg m n) as Hg.
  (* u m = v n + gcd with u, v not negative *)
  destruct (Z.gcd_bezout m n (Z.gcd m n) eq_refl) as (u & v & Huv).
  set (k := Z.abs u + Z.abs v).
  assert (Hpos : 0 <= u + k * n /\ 0 <= k * m - v) by (unfold k; nia).
  assert (He : (u + k * n) * m = (k * m - v) * n + Z.gcd m n) by nia.
  assert (Ha1 : (r | a ^ ((u + k * n) * m) - 1)) by (rewrite Z.mul_comm; apply pow_one_mult; [lia|tauto|exact H1]).
  assert (Ha2 : (r | a ^ ((k * m - v) * n) - 1)) by (rewrite Z.mul_comm; apply pow_one_mult; [lia|tauto|exact H2]).
  rewrite He, Z.pow_add_r in Ha1 by nia. destruct Ha1 as [x Hx], Ha2 as [y Hy].
  exists (x - y * a ^ Z.gcd m n). nia.
Qed.
Lemma pock_factor n p a : 1 < n -> prime p -> (p | n - 1) -> 0 <= a ->
  Zpow_mod a (n - 1) n = 1 -> Z.gcd (Zpow_mod a ((n - 1) / p) n - 1) n = 1 ->
  forall r, prime r -> (r | n) -> (p | r - 1).
Proof.
  intros Hn Hp [c Hc] Ha H1 H2 r Hr Hrn. assert (Hp1 : 1 < p) by (destruct Hp; assumption). assert (Hr1 : 1 < r) by (destruct Hr; assumption).
  assert (Hc0 : 0 < c) by nia.
  assert (Hcp : (n - 1) / p = c) by (rewrite Hc; apply Z.div_mul; lia). rewrite Hcp in H2.
  rewrite Zpow_mod_correct in H1, H2 by lia.
  assert (Hm : forall e, 0 <= e -> (n | a ^ e - (a ^ e) mod n)).
  { intros e _. exists (a ^ e / n). pose proof (Z.div_mod (a ^ e) n). lia. }
  assert (Hone : (r | a ^ (n - 1) - 1)).
  { apply (Z.divide_trans _ n); [exact Hrn|]. rewrite <- H1 at 2. apply Hm. lia. }
  assert (Hnot : ~ (r | a ^ c - 1)).
  { intros H. assert (Hd : (r | Z.gcd ((a ^ c) mod n - 1) n)).
    { apply Z.gcd_greatest; [|exact Hrn]. replace ((a ^ c) mod n - 1) with ((a ^ c - 1) - (a ^ c - (a ^ c) mod n)) by ring.
      apply Z.divide_sub_r; [exact H|]. apply (Z.divide_trans _ n); [exact Hrn|]. apply Hm. lia. }
    rewrite H2 in Hd. apply Z.divide_1_r_nonneg in Hd; lia. }
  assert (Hra : ~ (r | a)).
  { intros H. assert (Hd : (r | 1)).
    { replace 1 with (a ^ (n - 1) - (a ^ (n - 1) - 1)) by ring. apply Z.divide_sub_r; [|exact Hone].
      replace (n - 1) with (Z.succ (n - 2)) by lia. rewrite Z.pow_succ_r by lia. apply Z.divide_mul_l, H. }
    apply Z.divide_1_r_nonneg in Hd; lia. }
  set (d := Z.gcd (n - 1) (r - 1)).
  assert (Hd1 : (r | a ^ d - 1)).
  { apply pow_one_gcd; [exact Hr|exact Hra|lia|lia|exact Hone|]. apply fermat_Z; [exact Hr|exact Hra]. }
  assert (Hdn : (d | n - 1)) by apply Z.gcd_divide_l. assert (Hdr : (d | r - 1)) by apply Z.gcd_divide_r.
  assert (Hd0 : 0 <= d) by apply Z.gcd_nonneg.
  destruct Hdn as [k Hk]. assert (Hkp : ~ (p | k)).
  { intros [j Hj]. apply Hnot. replace c with (d * j) by nia. apply pow_one_mult; [exact Hd0|nia|exact Hd1]. }
  assert (Hpd : (p | k * d)) by (rewrite <- Hk, Hc; exists c; ring).
  destruct (prime_mult p Hp _ _ Hpd) as [H|H]; [contradiction|]. exact (Z.divide_trans _ _ _ H Hdr).
Qed.

(** One large prime factor of [n - 1], or two *)
Definition witness (n p a : Z) : bool :=
  (Z.eqb ((n - 1) mod p) 0 && Z.eqb (Zpow_mod a (n - 1) n) 1 && Z.eqb (Z.gcd (Zpow_mod a ((n - 1) / p) n - 1) n) 1)%bool.
Lemma witness_ok n p a : 1 < n -> prime p -> 0 <= a -> witness n p a = true -> forall r, prime r -> (r | n) -> (p | r - 1).
Proof.
  intros Hn Hp Ha Hw. apply andb_prop in Hw as [Hw H3]. apply andb_prop in Hw as [H1 H2]. apply Z.eqb_eq in H1, H2, H3.
  apply (pock_factor n p a); try assumption. apply Z.mod_divide; [destruct Hp; lia|exact H1].
Qed.
Lemma pock1 n p a : prime p -> (Z.ltb 1 n && Z.ltb n (p * p) && Z.leb 0 a && witness n p a)%bool = true -> prime n.
Proof.
  intros Hp H. apply andb_prop in H as [H Hw]. apply andb_prop in H as [H Ha]. apply andb_prop in H as [Hn Hb].
  apply Z.ltb_lt in Hn, Hb. apply Z.leb_le in Ha. destruct (prime_dec n) as [|Hc]; [assumption|]. exfalso.
  destruct (small_divisor n Hn Hc) as (r & Hr & Hrn & Hrr). assert (1 < r) by (destruct Hr; assumption).
  assert (Hd := witness_ok n p a Hn Hp Ha Hw r Hr Hrn). apply Z.divide_pos_le in Hd; [|lia]. assert (1 < p) by (destruct Hp; assumption). nia.
Qed.
Lemma pock2 n p1 a1 p2 a2 : prime p1 -> prime p2 ->
  (negb (Z.eqb p1 p2) && Z.ltb 1 n && Z.ltb n (p1 * p2 * (p1 * p2)) && Z.leb 0 a1 && Z.leb 0 a2 && witness n p1 a1 && witness n p2 a2)%bool = true -> prime n.
Proof.
  intros Hp1 Hp2 H. apply andb_prop in H as [H Hw2]. apply andb_prop in H as [H Hw1]. apply andb_prop in H as [H Ha2].
  apply andb_prop in H as [H Ha1]. apply andb_prop in H as [H Hb]. apply andb_prop in H as [Hne Hn].
  apply Z.ltb_lt in Hn, Hb. apply Z.leb_le in Ha1, Ha2. apply negb_true_iff, Z.eqb_neq in Hne.
  destruct (prime_dec n) as [|Hc]; [assumption|]. exfalso.
  destruct (small_divisor n Hn Hc) as (r & Hr & Hrn & Hrr). assert (1 < r) by (destruct Hr; assumption).
  assert (Hd1 := witness_ok n p1 a1 Hn Hp1 Ha1 Hw1 r Hr Hrn). assert (Hd2 := witness_ok n p2 a2 Hn Hp2 Ha2 Hw2 r Hr Hrn).
  assert (1 < p1) by (destruct Hp1; assumption). assert (1 < p2) by (destruct Hp2; assumption).
  assert (Hd : (p1 * p2 | r - 1)).
  { destruct Hd2 as [k Hk]. rewrite Hk in Hd1. rewrite Z.mul_comm in Hd1. apply Gauss in Hd1.
    - destruct Hd1 as [j Hj]. exists j. rewrite Hk, Hj. ring.
    - apply rel_prime_sym, prime_rel_prime; [exact Hp2|]. intros Hdv. apply Hne. apply prime_div_prime in Hdv; auto. }
  apply Z.divide_pos_le in Hd; [|lia]. nia.
Qed.

Lemma prime_1871 : prime 1871. Proof. apply (prime_trial _ 42); [lia..|vm_compute; reflexivity]. Qed.
Lemma prime_28181 : prime 28181. Proof. apply (prime_trial _ 166); [lia..|vm_compute; reflexivity]. Qed.
Lemma prime_9349 : prime 9349. Proof. apply (prime_trial _ 96); [lia..|vm_compute; reflexivity]. Qed.
Lemma prime_120233 : prime 120233. Proof. apply (prime_trial _ 346); [lia..|vm_compute; reflexivity]. Qed.
Lemma prime_1627771 : prime 1627771. Proof. apply (pock1 _ 1871 2 prime_1871). vm_compute. reflexivity. Qed.
Lemma prime_297159362677 : prime 297159362677. Proof. apply (pock1 _ 1627771 2 prime_1627771). vm_compute. reflexivity. Qed.
Lemma prime_545358713 : prime 545358713. Proof. apply (pock1 _ 28181 2 prime_28181). vm_compute. reflexivity. Qed.
Lemma prime_44706919 : prime 44706919. Proof. apply (pock1 _ 9349 2 prime_9349). vm_compute. reflexivity. Qed.
Lemma prime_p95 : prime 29047611873442575647497758179.
Proof. apply (pock2 _ 297159362677 2 545358713 2 prime_297159362677 prime_545358713). vm_compute. reflexivity. Qed.
Lemma prime_p109 : prime 341948486974166000522343609283189.
Proof. apply (pock1 _ 29047611873442575647497758179 2 prime_p95). vm_compute. reflexivity. Qed.
Lemma prime_p68 : prime 174723607534414371449.
Proof. apply (pock2 _ 44706919 2 120233 2 prime_44706919 prime_120233). vm_compute. reflexivity. Qed.
Lemma secp_n_prime : prime secp_n.
Proof. apply (pock2 _ 341948486974166000522343609283189 2 174723607534414371449 2 prime_p109 prime_p68). vm_compute. reflexivity. Qed.
