(** Interpolation modulo a prime, and tss-lib's ReConstruct. *)
From Coq Require Import ZArith Znumtheory NArith List Lia Setoid Morphisms Ring.
From stdpp Require Import base list.
From Verif Require Import Base S_Recovery M_Recovery.

Local Open Scope Z_scope.

(** *** The extended Euclidean algorithm *)

Lemma euclid_inv n g fuel r0 r1 s0 s1 d s :
  (n | r0 - s0 * g) -> (n | r1 - s1 * g) -> euclid fuel r0 r1 s0 s1 = (d, s) -> (n | d - s * g).
Proof.
  revert r0 r1 s0 s1. induction fuel as [|fuel IH]; intros r0 r1 s0 s1 H0 H1; cbn [euclid].
  - intros [= <- <-]. exact H0.
  - destruct (Z.eqb r1 0); [intros [= <- <-]; exact H0|]. apply IH; [exact H1|].
    destruct H0 as [a Ha], H1 as [b Hb]. destruct (Z.eq_dec r1 0) as [->|Hr].
    + rewrite Zmod_0_r, Zdiv_0_r. exists a. lia.
    + exists (a - r0 / r1 * b). pose proof (Z.div_mod r0 r1 Hr). nia.
Qed.
Lemma euclid_gcd fuel r0 r1 s0 s1 d s : 0 <= r1 <= r0 -> (2 * Z.to_nat (Z.log2 r1) + 2 <= fuel)%nat \/ (r1 = 0) ->
  euclid fuel r0 r1 s0 s1 = (d, s) -> d = Z.gcd r0 r1.
Proof.
  remember (Z.to_nat r1) as m eqn:Hm. revert fuel r0 r1 s0 s1 Hm.
  induction m as [m IH] using lt_wf_ind. intros fuel r0 r1 s0 s1 Hm Hr Hf.
  destruct (Z.eq_dec r1 0) as [->|Hr1].
  { rewrite Z.gcd_0_r, Z.abs_eq by lia. destruct fuel; cbn [euclid]; [intros [= <- _]; reflexivity|]. rewrite Z.eqb_refl. intros [= <- _]. reflexivity. }
  destruct Hf as [Hf|]; [|contradiction]. destruct fuel as [|fuel]; [lia|]. cbn [euclid].
  apply Z.eqb_neq in Hr1 as Hb. rewrite Hb.
  assert (Hmod : 0 <= r0 mod r1 < r1) by (apply Z.mod_pos_bound; lia).
  assert (Hg : Z.gcd r0 r1 = Z.gcd r1 (r0 mod r1)) by (rewrite (Z.gcd_comm r1), Z.gcd_mod by lia; apply Z.gcd_comm). rewrite Hg.
  destruct (Z.eq_dec (r0 mod r1) 0) as [Hz|Hz].
  { apply (IH (Z.to_nat (r0 mod r1))); [lia|reflexivity|lia|right; exact Hz]. }
  destruct fuel as [|fuel]; [lia|]. cbn [euclid]. apply Z.eqb_neq in Hz as Hb2. rewrite Hb2.
  set (r2 := r0 mod r1) in *.
  assert (Hmod2 : 0 <= r1 mod r2 < r2) by (apply Z.mod_pos_bound; lia).
  assert (Hg2 : Z.gcd r1 r2 = Z.gcd r2 (r1 mod r2)) by (rewrite (Z.gcd_comm r2), Z.gcd_mod by lia; apply Z.gcd_comm). rewrite Hg2.
  apply (IH (Z.to_nat (r1 mod r2))); [lia|reflexivity|lia|].
  destruct (Z.eq_dec (r1 mod r2) 0) as [|Hz3]; [right; assumption|left].
  assert (Hhalf : 2 * (r1 mod r2) < r1) by (pose proof (Z.div_mod r1 r2 Hz); assert (0 < r1 / r2) by (apply Z.div_str_pos; lia); nia).
  assert (Hl : Z.log2 (r1 mod r2) + 1 <= Z.log2 r1).
  { rewrite Z.add_1_r, <- Z.log2_double by lia. apply Z.log2_le_mono. lia. }
  pose proof (Z.log2_nonneg (r1 mod r2)). lia.
Qed.

Section Mod.
  Context (q : Z) (Hq : prime q).
  Definition eqq (a b : Z) : Prop := (q | a - b).
  Local Infix "==" := eqq (at level 70).

  Instance eqq_equiv : Equivalence eqq.
  Proof.
    split.
    - intros a. exists 0. ring.
    - intros a b [k H]. exists (- k). nia.
    - intros a b c [k H] [l G]. exists (k + l). nia.
  Qed.
  Instance add_eqq : Proper (eqq ==> eqq ==> eqq) Z.add.
  Proof. intros a b [k H] c d [l G]. exists (k + l). nia. Qed.
  Instance sub_eqq : Proper (eqq ==> eqq ==> eqq) Z.sub.
  Proof. intros a b [k H] c d [l G]. exists (k - l). nia. Qed.
  Instance mul_eqq : Proper (eqq ==> eqq ==> eqq) Z.mul.
  Proof.
    intros a b [k H] c d [l G]. exists (k * c + b * l). replace (a * c - b * d) with ((a - b) * c + b * (c - d)) by ring.
    rewrite H, G. ring.
  Qed.
  Lemma q_pos : 1 < q.
  Proof. destruct Hq. assumption. Qed.
  Lemma mod_eqq a : a mod q == a.
  Proof. pose proof q_pos. exists (- (a / q)). pose proof (Z.div_mod a q). lia. Qed.
  Lemma eqq_mod a b : a == b <-> a mod q = b mod q.
  Proof.
    pose proof q_pos. split.
    - intros [k H1]. replace a with (b + k * q) by lia. apply Z_mod_plus_full.
    - intros H1. rewrite <- (mod_eqq a), <- (mod_eqq b), H1. reflexivity.
  Qed.
  Lemma eqq_0 a : a == 0 <-> (q | a).
  Proof. unfold eqq. rewrite Z.sub_0_r. reflexivity. Qed.
  Lemma eqq_small a b : 0 <= a < q -> 0 <= b < q -> a == b -> a = b.
  Proof. intros Ha Hb H. apply eqq_mod in H. rewrite !Z.mod_small in H by assumption. exact H. Qed.
  Lemma eqq_cancel a b : a * b == 0 -> ~ a == 0 -> b == 0.
  Proof. rewrite !eqq_0. intros H Hn. destruct (prime_mult q Hq _ _ H); [contradiction|assumption]. Qed.

  Lemma inverse_ok g : ~ g == 0 -> exists v, ModInverse (g mod q) q = Some v /\ g * v == 1.
  Proof.
    intros Hg. pose proof q_pos as Hp. unfold ModInverse. rewrite Zmod_mod.
    destruct (euclid _ q (g mod q) 0 1) as [d s] eqn:E.
    assert (Hb : 0 <= g mod q < q) by (apply Z.mod_pos_bound; lia).
    assert (Hd : d = Z.gcd q (g mod q)).
    { eapply euclid_gcd; [|left|exact E]; [lia|]. assert (Z.log2 (g mod q) <= Z.log2 q) by (apply Z.log2_le_mono; lia).
      pose proof (Z.log2_nonneg (g mod q)). lia. }
    assert (Hi : (q | d - s * (g mod q))).
    { eapply euclid_inv; [| |exact E]; [exists 1|exists 0]; ring. }
    assert (Hd1 : d = 1).
    { rewrite Hd. apply Zgcd_1_rel_prime. apply prime_rel_prime; [exact Hq|]. intros Hdv. apply Hg.
      rewrite <- (mod_eqq g). apply eqq_0, Hdv. }
    rewrite Hd1 in *. cbn. eexists. split; [reflexivity|]. rewrite mod_eqq. symmetry.
    transitivity (s * (g mod q)); [exact Hi|]. rewrite mod_eqq. replace (s * g) with (g * s) by ring. reflexivity.
  Qed.
  Lemma inverse_none g : g == 0 -> ModInverse (g mod q) q = None.
  Proof.
    intros Hg. pose proof q_pos as Hp. apply eqq_mod in Hg. rewrite Hg, Zmod_0_l. unfold ModInverse. rewrite Zmod_0_l.
    destruct (2 * Z.to_nat (Z.log2 q) + 4)%nat; cbn [euclid].
    - destruct (Z.eqb_spec q 1); [lia|reflexivity].
    - rewrite Z.eqb_refl. destruct (Z.eqb_spec q 1); [lia|reflexivity].
  Qed.
  Definition iv (g : Z) : Z := match ModInverse (g mod q) q with Some v => v | None => 0 end.
  Lemma iv_ok g : ~ g == 0 -> g * iv g == 1.
  Proof. intros H. unfold iv. destruct (inverse_ok g H) as (v & -> & Hv). exact Hv. Qed.

  (** *** Polynomials *)

  Fixpoint sdiv (r : Z) (f : list Z) : list Z :=
    match f with [] => [] | a :: f' => match f' with [] => [] | _ => peval f' r :: sdiv r f' end end.
  Lemma sdiv_ok r f x : peval f x = peval f r + (x - r) * peval (sdiv r f) x.
  Proof.
    induction f as [|a f IH]; [simpl; ring|]. destruct f as [|b f]; [simpl; ring|].
    change (sdiv r (a :: b :: f)) with (peval (b :: f) r :: sdiv r (b :: f)). revert IH. generalize (b :: f). intros f' IH.
    cbn [peval]. rewrite IH. ring.
  Qed.
  Lemma sdiv_length r f : length (sdiv r f) = (length f - 1)%nat.
  Proof.
    induction f as [|a f IH]; [reflexivity|]. destruct f as [|b f]; [reflexivity|].
    change (sdiv r (a :: b :: f)) with (peval (b :: f) r :: sdiv r (b :: f)). cbn [length] in *. rewrite IH. lia.
  Qed.
  Lemma roots xs : distinct q xs -> forall f, (length f <= length xs)%nat -> Forall (fun x => peval f x == 0) xs -> forall y, peval f y == 0.
  Proof.
    unfold distinct. induction xs as [|r xs IH]; intros Hd f Hl Hr y.
    - destruct f; [reflexivity|cbn in Hl; lia].
    - cbn [map] in Hd. apply NoDup_cons in Hd as [Hn Hd]. apply Forall_cons in Hr as [H0 Hr].
      rewrite (sdiv_ok r f y), H0. rewrite (IH Hd (sdiv r f)); [replace (0 + (y - r) * 0) with 0 by ring; reflexivity|rewrite sdiv_length; cbn in Hl; lia|].
      rewrite Forall_forall in Hr |- *. intros x Hx. specialize (Hr x Hx).
      rewrite (sdiv_ok r f x), H0 in Hr. replace (0 + (x - r) * peval (sdiv r f) x) with ((x - r) * peval (sdiv r f) x) in Hr by ring.
      apply (eqq_cancel _ _ Hr). intros He. apply Hn. apply elem_of_list_fmap. exists x. split; [|exact Hx].
      apply eqq_mod. rewrite <- (Z.add_0_r r), <- He. replace (r + (x - r)) with x by ring. reflexivity.
  Qed.

  Fixpoint padd (f g : list Z) : list Z :=
    match f, g with [], _ => g | _, [] => f | a :: f', b :: g' => (a + b) :: padd f' g' end.
  Lemma padd_ok f g x : peval (padd f g) x = peval f x + peval g x.
  Proof. revert g. induction f as [|a f IH]; intros [|b g]; cbn [padd peval]; try ring. rewrite IH. ring. Qed.
  Lemma padd_length f g : length (padd f g) = Nat.max (length f) (length g).
  Proof. revert g. induction f as [|a f IH]; intros [|b g]; cbn [padd length]; auto. rewrite IH. lia. Qed.
  Definition pscale (c : Z) (f : list Z) : list Z := map (fun a => c * a) f.
  Lemma pscale_ok c f x : peval (pscale c f) x = c * peval f x.
  Proof. induction f as [|a f IH]; cbn [pscale map peval]; [ring|]. unfold pscale in IH. rewrite IH. ring. Qed.
  Lemma pscale_length c f : length (pscale c f) = length f.
  Proof. apply map_length. Qed.

  Definition zprod (l : list Z) : Z := fold_right Z.mul 1 l.
  Definition zsum (l : list Z) : Z := fold_right Z.add 0 l.
  Fixpoint lprod (ys : list Z) : list Z :=
    match ys with [] => [1] | y :: r => padd (pscale y (lprod r)) (0 :: pscale (-1) (lprod r)) end.
  Lemma lprod_ok ys x : peval (lprod ys) x = zprod (map (fun y => y - x) ys).
  Proof.
    induction ys as [|y ys IH]; cbn [lprod map zprod fold_right]; [simpl; ring|].
    rewrite padd_ok. cbn [peval]. rewrite !pscale_ok, IH. unfold zprod. ring.
  Qed.
  Lemma lprod_length ys : length (lprod ys) = S (length ys).
  Proof. induction ys as [|y ys IH]; [reflexivity|]. cbn [lprod]. rewrite padd_length. cbn [length]. rewrite !pscale_length, IH. lia. Qed.
  Lemma zprod_0 l : In 0 l -> zprod l = 0.
  Proof. induction l as [|a l IH]; [intros []|]. intros [->|H]; cbn [zprod fold_right]; [ring|]. fold (zprod l). rewrite IH by exact H. ring. Qed.

  (** The weight of number [a] among the others [ys]. *)
  Definition weight (a : Z) (ys : list Z) : Z := zprod (map (fun y => y * iv (y - a)) ys).
  Definition scale_of (a : Z) (ys : list Z) : Z := zprod (map (fun y => iv (y - a)) ys).
  Lemma weight_scale a ys : weight a ys = scale_of a ys * zprod (map (fun y => y - 0) ys).
  Proof.
    unfold weight, scale_of. induction ys as [|y ys IH]; cbn [map zprod fold_right]; [ring|]. unfold zprod in IH. rewrite IH. ring.
  Qed.
  Lemma scale_one a ys : (forall y, In y ys -> ~ y - a == 0) -> scale_of a ys * zprod (map (fun y => y - a) ys) == 1.
  Proof.
    intros H. induction ys as [|y ys IH]; [reflexivity|]. unfold scale_of in *. cbn [map zprod fold_right]. unfold zprod in IH.
    match goal with |- ?i * ?s * (?d * ?p) == 1 => replace (i * s * (d * p)) with ((d * i) * (s * p)) by ring end.
    rewrite IH by (intros z Hz; apply H; right; exact Hz). rewrite iv_ok by (apply H; left; reflexivity). reflexivity.
  Qed.

  Definition idx_sum (m : nat) (g : nat -> Z) : Z := zsum (map g (seq 0 m)).
  Lemma zsum_ext (l : list nat) g h : (forall i, In i l -> g i == h i) -> zsum (map g l) == zsum (map h l).
  Proof.
    induction l as [|i l IH]; intros H; [reflexivity|]. cbn [map zsum fold_right]. fold (zsum (map g l)). fold (zsum (map h l)).
    rewrite (H i) by (left; reflexivity). rewrite IH by (intros j Hj; apply H; right; exact Hj). reflexivity.
  Qed.
  Lemma zsum_one (l : list nat) g k : NoDup l -> In k l -> (forall i, In i l -> i <> k -> g i == 0) -> zsum (map g l) == g k.
  Proof.
    induction l as [|i l IH]; intros Hd Hin Hz; [destruct Hin|]. apply NoDup_cons in Hd as [Hn Hd].
    cbn [map zsum fold_right]. fold (zsum (map g l)). destruct Hin as [->|Hin].
    - assert (Hs : zsum (map g l) == 0).
      { rewrite (zsum_ext l g (fun _ => 0)).
        - clear. induction l as [|i l IH]; [reflexivity|]. cbn [map zsum fold_right]. fold (zsum (map (fun _ => 0) l)). rewrite IH. reflexivity.
        - intros i Hi. apply Hz; [right; exact Hi|]. intros ->. apply Hn, elem_of_list_In, Hi. }
      rewrite Hs. rewrite Z.add_0_r. reflexivity.
    - rewrite (Hz i) by first [left; reflexivity|intros ->; apply Hn, elem_of_list_In, Hin].
      rewrite IH by (assumption || (intros j Hj; apply Hz; right; exact Hj)). reflexivity.
  Qed.

  Fixpoint psum (l : list (list Z)) : list Z := match l with [] => [] | f :: r => padd f (psum r) end.
  Lemma psum_ok l x : peval (psum l) x = zsum (map (fun f => peval f x) l).
  Proof. induction l as [|f l IH]; [reflexivity|]. cbn [psum map zsum fold_right]. rewrite padd_ok, IH. reflexivity. Qed.
  Lemma psum_length l m : Forall (fun f => (length f <= m)%nat) l -> (length (psum l) <= m)%nat.
  Proof. induction 1 as [|f l Hf Hl IH]; cbn [psum length]; [lia|]. rewrite padd_length. lia. Qed.

  Lemma in_delete (xs : list Z) i y : y ∈ delete i xs -> exists j, j <> i /\ xs !! j = Some y.
  Proof.
    intros H. apply elem_of_list_lookup in H as [j Hj]. destruct (Nat.lt_ge_cases j i) as [Hlt|Hge].
    - rewrite lookup_delete_lt in Hj by exact Hlt. exists j. split; [lia|exact Hj].
    - rewrite lookup_delete_ge in Hj by exact Hge. exists (S j). split; [lia|exact Hj].
  Qed.
  Lemma delete_in (xs : list Z) i j y : j <> i -> xs !! j = Some y -> y ∈ delete i xs.
  Proof.
    intros Hne Hj. apply elem_of_list_lookup. destruct (Nat.lt_ge_cases j i) as [Hlt|Hge].
    - exists j. rewrite lookup_delete_lt by exact Hlt. exact Hj.
    - exists (j - 1)%nat. rewrite lookup_delete_ge by lia. replace (S (j - 1)) with j by lia. exact Hj.
  Qed.
  Lemma distinct_ne xs i j a b : distinct q xs -> xs !! i = Some a -> xs !! j = Some b -> i <> j -> ~ a - b == 0.
  Proof.
    intros Hd Ha Hb Hne He. apply Hne. assert (Hab : a == b) by (unfold eqq in *; rewrite Z.sub_0_r in He; exact He).
    apply eqq_mod in Hab. eapply (NoDup_lookup _ i j (a mod q) Hd).
    - rewrite list_lookup_fmap, Ha. reflexivity.
    - rewrite list_lookup_fmap, Hb. cbn. rewrite Hab. reflexivity.
  Qed.

  Definition nthz (xs : list Z) (i : nat) : Z := match xs !! i with Some x => x | None => 0 end.
  Theorem lagrange xs f : distinct q xs -> (length f <= length xs)%nat ->
    idx_sum (length xs) (fun i => peval f (nthz xs i) * weight (nthz xs i) (delete i xs)) == peval f 0.
  Proof.
    intros Hd Hl. set (m := length xs) in *.
    set (term := fun i => pscale (peval f (nthz xs i) * scale_of (nthz xs i) (delete i xs)) (lprod (delete i xs))).
    set (G := padd f (pscale (-1) (psum (map term (seq 0 m))))).
    assert (HG : forall x, peval G x = peval f x - idx_sum m (fun i => peval f (nthz xs i) * scale_of (nthz xs i) (delete i xs) * zprod (map (fun y => y - x) (delete i xs)))).
    { intros x. unfold G. rewrite padd_ok, pscale_ok, psum_ok. unfold idx_sum. rewrite map_map.
      assert (Hm : map (fun i => peval (term i) x) (seq 0 m) = map (fun i => peval f (nthz xs i) * scale_of (nthz xs i) (delete i xs) * zprod (map (fun y => y - x) (delete i xs))) (seq 0 m)).
      { apply map_ext. intros i. unfold term. rewrite pscale_ok, lprod_ok. ring. }
      rewrite Hm. ring. }
    assert (Hlen : (length G <= m)%nat).
    { unfold G. rewrite padd_length, pscale_length. apply Nat.max_lub; [exact Hl|]. apply psum_length. apply Forall_forall.
      intros g Hg. apply elem_of_list_In, in_map_iff in Hg as (i & <- & Hi). apply in_seq in Hi. unfold term.
      rewrite pscale_length, lprod_length, length_delete; [lia|]. apply lookup_lt_is_Some. lia. }
    assert (Hroots : Forall (fun x => peval G x == 0) xs).
    { apply Forall_forall. intros x Hx. apply elem_of_list_lookup in Hx as [k Hk]. rewrite HG.
      assert (Hkm : (k < m)%nat) by (apply lookup_lt_Some in Hk; exact Hk).
      unfold idx_sum. rewrite (zsum_one _ _ k).
      - unfold nthz. rewrite Hk. rewrite <- Z.mul_assoc, scale_one; [rewrite Z.mul_1_r, Z.sub_diag; reflexivity|].
        intros y Hy. apply elem_of_list_In in Hy. apply in_delete in Hy as (j & Hne & Hj). exact (distinct_ne _ _ _ _ _ Hd Hj Hk Hne).
      - apply NoDup_ListNoDup, seq_NoDup.
      - apply in_seq. lia.
      - intros i Hi Hne. rewrite (zprod_0 (map _ _)); [rewrite Z.mul_0_r; reflexivity|].
        apply in_map_iff. exists x. split; [ring|]. apply elem_of_list_In. eapply delete_in; [|exact Hk]. congruence. }
    assert (H0 := roots xs Hd G Hlen Hroots 0). rewrite HG in H0.
    unfold idx_sum in *. symmetry. unfold eqq in *. rewrite Z.sub_0_r in H0.
    assert (Hm : map (fun i => peval f (nthz xs i) * weight (nthz xs i) (delete i xs)) (seq 0 m) = map (fun i => peval f (nthz xs i) * scale_of (nthz xs i) (delete i xs) * zprod (map (fun y => y - 0) (delete i xs))) (seq 0 m)).
    { apply map_ext. intros i. rewrite weight_scale. ring. }
    rewrite Hm. exact H0.
  Qed.

  (** *** ReConstruct *)

  Lemma times_after i j xs a t : (i < j)%nat -> (forall y, In y xs -> ~ y - a == 0) -> 0 <= t < q ->
    exists r, times_loop q i j (map Some xs) (Some a) t = Some r /\ 0 <= r < q /\ r == t * weight a xs.
  Proof.
    revert j t. induction xs as [|x xs IH]; intros j t Hij Hne Ht; cbn [map times_loop].
    - exists t. split; [reflexivity|]. split; [exact Ht|]. unfold weight. cbn. rewrite Z.mul_1_r. reflexivity.
    - destruct (Nat.eqb_spec j i); [lia|]. destruct (inverse_ok (x - a)) as (v & Hv & _); [apply Hne; left; reflexivity|].
      rewrite Hv. pose proof q_pos.
      destruct (IH (S j) (t * (x * v mod q) mod q)) as (r & Hr & Hb & He); [lia|intros y Hy; apply Hne; right; exact Hy|apply Z.mod_pos_bound; lia|].
      exists r. split; [exact Hr|]. split; [exact Hb|]. rewrite He, !mod_eqq. unfold weight. cbn [map zprod fold_right].
      unfold iv at 2. rewrite Hv. replace (t * (x * v) * zprod (map (fun y => y * iv (y - a)) xs)) with (t * (x * v * fold_right Z.mul 1 (map (fun y => y * iv (y - a)) xs))) by (unfold zprod; ring). reflexivity.
  Qed.
  Lemma times_ok i j xs a t : (j <= i < j + length xs)%nat -> (forall y, In y (delete (i - j)%nat xs) -> ~ y - a == 0) -> 0 <= t < q ->
    exists r, times_loop q i j (map Some xs) (Some a) t = Some r /\ 0 <= r < q /\ r == t * weight a (delete (i - j)%nat xs).
  Proof.
    revert j t. induction xs as [|x xs IH]; intros j t Hij Hne Ht; [cbn in Hij; lia|]. cbn [map times_loop].
    destruct (Nat.eqb_spec j i) as [->|Hji].
    - rewrite Nat.sub_diag in *. apply times_after; [lia|exact Hne|exact Ht].
    - replace (i - j)%nat with (S (i - S j)) in * by lia. change (delete (S (i - S j)) (x :: xs)) with (x :: delete (i - S j)%nat xs) in *.
      destruct (inverse_ok (x - a)) as (v & Hv & _); [apply Hne; left; reflexivity|]. rewrite Hv. pose proof q_pos.
      destruct (IH (S j) (t * (x * v mod q) mod q)) as (r & Hr & Hb & He); [cbn in Hij; lia|intros y Hy; apply Hne; right; exact Hy|apply Z.mod_pos_bound; lia|].
      exists r. split; [exact Hr|]. split; [exact Hb|]. rewrite He, !mod_eqq. unfold weight. cbn [map zprod fold_right].
      unfold iv at 2. rewrite Hv. match goal with |- ?a == ?b => replace b with a by (unfold zprod; ring) end. reflexivity.
  Qed.

  Lemma secret_ok th xs vals f : distinct q xs -> length vals = length xs ->
    (forall i x y, xs !! i = Some x -> vals !! i = Some y -> y == f x) ->
    forall k s, (k <= length xs)%nat -> 0 <= s < q ->
    exists r, secret_loop q (map Some xs) k (drop k (zip_with (fun x y => Share th (Some x) (Some y)) xs vals)) s = Some r /\
      0 <= r < q /\ r == s + zsum (map (fun i => f (nthz xs i) * weight (nthz xs i) (delete i xs)) (seq k (length xs - k))).
  Proof.
    intros Hd Hlen Hf k s Hk Hs. remember (length xs - k)%nat as m eqn:Hm. revert k s Hk Hs Hm.
    induction m as [|m IH]; intros k s Hk Hs Hm.
    - rewrite drop_ge by (rewrite zip_with_length; lia). exists s. cbn. rewrite Z.add_0_r. split; [reflexivity|]. split; [exact Hs|reflexivity].
    - destruct (lookup_lt_is_Some_2 xs k) as [x Hx]; [lia|]. destruct (lookup_lt_is_Some_2 vals k) as [y Hy]; [lia|].
      assert (Hz : zip_with (fun x y => Share th (Some x) (Some y)) xs vals !! k = Some (Share th (Some x) (Some y))).
      { rewrite lookup_zip_with, Hx. cbn. rewrite Hy. reflexivity. }
      rewrite (drop_S _ _ _ Hz). cbn [secret_loop sh_id sh_val].
      destruct (times_ok k 0 xs x 1) as (t & Ht & Hb & He); [lia| |pose proof q_pos; lia|].
      { intros z Hz'. rewrite Nat.sub_0_r in Hz'. apply elem_of_list_In in Hz'. apply in_delete in Hz' as (j & Hne & Hj). exact (distinct_ne _ _ _ _ _ Hd Hj Hx Hne). }
      rewrite Nat.sub_0_r in He. rewrite Ht. pose proof q_pos.
      destruct (IH (S k) ((s + y * t mod q) mod q)) as (r & Hr & Hrb & Hre); [lia|apply Z.mod_pos_bound; lia|lia|].
      exists r. split; [exact Hr|]. split; [exact Hrb|]. rewrite Hre. cbn [seq map zsum fold_right].
      rewrite !mod_eqq, He, (Hf k x y Hx Hy). unfold nthz at 3 4. rewrite Hx. unfold zsum.
      match goal with |- ?a == ?b => replace b with a by ring end. reflexivity.
  Qed.

  (** A polynomial through given points. *)
  Theorem interpolate xs ys : distinct q xs -> length ys = length xs ->
    exists f, (length f <= length xs)%nat /\ forall i x y, xs !! i = Some x -> ys !! i = Some y -> peval f x == y.
  Proof.
    intros Hd Hl. set (m := length xs) in *.
    set (term := fun i => pscale (nthz ys i * scale_of (nthz xs i) (delete i xs)) (lprod (delete i xs))).
    exists (psum (map term (seq 0 m))). split.
    - apply psum_length. apply Forall_forall. intros g Hg. apply elem_of_list_In, in_map_iff in Hg as (i & <- & Hi). apply in_seq in Hi. unfold term.
      rewrite pscale_length, lprod_length, length_delete; [lia|]. apply lookup_lt_is_Some. lia.
    - intros k x y Hk Hy. assert (Hkm : (k < m)%nat) by (apply lookup_lt_Some in Hk; exact Hk).
      rewrite psum_ok, map_map. rewrite (zsum_one _ _ k).
      + unfold term. rewrite pscale_ok, lprod_ok. unfold nthz. rewrite Hk, Hy, <- Z.mul_assoc, scale_one; [rewrite Z.mul_1_r; reflexivity|].
        intros z Hz. apply elem_of_list_In in Hz. apply in_delete in Hz as (j & Hne & Hj). exact (distinct_ne _ _ _ _ _ Hd Hj Hk Hne).
      + apply NoDup_ListNoDup, seq_NoDup.
      + apply in_seq. lia.
      + intros i Hi Hne. unfold term. rewrite pscale_ok, lprod_ok, (zprod_0 (map _ _)); [rewrite Z.mul_0_r; reflexivity|].
        apply in_map_iff. exists x. split; [ring|]. apply elem_of_list_In. eapply delete_in; [|exact Hk]. congruence.
  Qed.

  Definition share_of (th : Z) (p : Z * Z) : share := Share th (Some (fst p)) (Some (snd p)).
  Lemma zip_shares th pts : zip_with (fun x y => Share th (Some x) (Some y)) (map fst pts) (map snd pts) = map (share_of th) pts.
  Proof. induction pts as [|p pts IH]; [reflexivity|]. cbn. rewrite IH. reflexivity. Qed.
  Lemma dealt_psum polys x : dealt polys x = peval (psum polys) x.
  Proof. rewrite psum_ok. reflexivity. Qed.
  Theorem reconstruct th pts polys t :
    Forall (degree_at_most t) polys -> (t < length pts)%nat -> distinct q (map fst pts) ->
    Forall (fun p => snd p mod q = dealt polys (fst p) mod q) pts -> th <= Z.of_nat (length pts) ->
    ReConstruct q (map (share_of th) pts) = RcKey (group_secret q polys).
  Proof.
    intros Hdeg Hlen Hd Hs Hth. pose proof q_pos as Hp. unfold ReConstruct.
    destruct (map (share_of th) pts) as [|s0 l] eqn:E; [destruct pts; [cbn in Hlen; lia|discriminate]|].
    rewrite <- E. rewrite map_length.
    assert (Hs0 : sh_threshold s0 = th) by (destruct pts; [discriminate|]; cbn in E; injection E as <- _; reflexivity).
    rewrite Hs0. destruct (Z.ltb_spec (Z.of_nat (length pts)) th); [lia|].
    destruct (secret_ok th (map fst pts) (map snd pts) (dealt polys) Hd) with (k := 0%nat) (s := 0) as (r & Hr & Hb & He).
    - rewrite !map_length. reflexivity.
    - intros i x y Hx Hy. rewrite list_lookup_fmap in Hx, Hy. destruct (pts !! i) as [p|] eqn:Hpi; [|discriminate].
      injection Hx as <-. injection Hy as <-. rewrite Forall_forall in Hs. apply eqq_mod, Hs, elem_of_list_lookup. eauto.
    - lia.
    - lia.
    - rewrite drop_0, zip_shares in Hr. assert (Hids : map sh_id (map (share_of th) pts) = map Some (map fst pts)) by (rewrite !map_map; reflexivity).
      rewrite Hids, Hr. f_equal. apply eqq_small; [exact Hb|apply Z.mod_pos_bound; lia|]. rewrite He. unfold group_secret. rewrite mod_eqq.
      rewrite Z.add_0_l, Nat.sub_0_r, dealt_psum.
      rewrite <- (lagrange (map fst pts) (psum polys) Hd); [|rewrite map_length; transitivity (S t); [apply psum_length, Hdeg|exact Hlen]].
      unfold idx_sum. apply zsum_ext. intros i _. rewrite dealt_psum. reflexivity.
  Qed.
End Mod.
