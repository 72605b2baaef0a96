(** Fermat's little theorem in Z. *)
From Coq Require Import ZArith Znumtheory List Permutation Lia.
Import ListNotations.
Local Open Scope Z_scope.

Definition product (l : list Z) : Z := fold_right Z.mul 1 l.
Lemma product_perm l l' : Permutation l l' -> product l = product l'.
Proof. unfold product. induction 1 as [|x l l1 H IH|x y l|l l1 l2 H1 IH1 H2 IH2]; cbn [fold_right]; [reflexivity|rewrite IH; reflexivity|ring|congruence]. Qed.
Lemma product_map r a l : (r | product (map (fun x => a * x mod r) l) - a ^ Z.of_nat (length l) * product l).
Proof.
  destruct (Z.eq_dec r 0) as [->|Hr].
  - exists 0. enough (product (map (fun x => a * x mod 0) l) = a ^ Z.of_nat (length l) * product l) by lia.
    induction l as [|x l IH]; [reflexivity|]. cbn [map product fold_right length] in *. fold (product l) in *.
    fold (product (map (fun x => a * x mod 0) l)). rewrite Zmod_0_r, IH, Nat2Z.inj_succ, Z.pow_succ_r by lia. ring.
  - induction l as [|x l [k IH]]; [exists 0; cbn; lia|]. cbn [map product fold_right length]. fold (product l).
    fold (product (map (fun x => a * x mod r) l)). rewrite Nat2Z.inj_succ, Z.pow_succ_r by lia.
    rewrite (Z.mod_eq (a * x) r) by exact Hr. exists (a * x * k - (a * x / r) * product (map (fun x => a * x mod r) l)).
    assert (E : product (map (fun x => a * x mod r) l) = a ^ Z.of_nat (length l) * product l + k * r) by lia.
    remember (product (map (fun x => a * x mod r) l)) as P eqn:HP. clear HP IH.
    transitivity ((a * x) * P - r * (a * x / r) * P - a * a ^ Z.of_nat (length l) * (x * product l)); [ring|]. rewrite E. ring.
Qed.

Section Fermat.
  Context (r a : Z) (Hr : prime r) (Hn : ~ (r | a)).

  Let residues : list Z := map (fun i => Z.of_nat i) (seq 1 (Z.to_nat (r - 1))).
  Lemma residues_in x : In x residues <-> 1 <= x < r.
  Proof.
    unfold residues. rewrite in_map_iff. split.
    - intros (i & <- & Hi). apply in_seq in Hi. lia.
    - intros Hx. exists (Z.to_nat x). split; [lia|]. apply in_seq. lia.
  Qed.
  Lemma residues_nodup : NoDup residues.
  Proof. apply FinFun.Injective_map_NoDup; [exact Nat2Z.inj|apply seq_NoDup]. Qed.
  Lemma residues_length : Z.of_nat (length residues) = r - 1.
  Proof. unfold residues. rewrite map_length, seq_length. destruct Hr. lia. Qed.
  Lemma small_not_divided x : 1 <= x < r -> ~ (r | x).
  Proof. intros Hx H. apply Z.divide_pos_le in H; lia. Qed.
  Lemma residues_product : ~ (r | product residues).
  Proof.
    assert (H : forall l, (forall x, In x l -> 1 <= x < r) -> ~ (r | product l)).
    { induction l as [|x l IH]; intros Hl Hd.
      - cbn in Hd. apply Z.divide_1_r_nonneg in Hd; destruct Hr; lia.
      - cbn [product fold_right] in Hd. destruct (prime_mult r Hr _ _ Hd) as [H|H].
        + exact (small_not_divided x (Hl x (or_introl eq_refl)) H).
        + exact (IH (fun y Hy => Hl y (or_intror Hy)) H). }
    apply H. intros x. apply residues_in.
  Qed.
  Lemma times_perm : Permutation (map (fun x => a * x mod r) residues) residues.
  Proof.
    destruct Hr as [H1 _]. apply NoDup_Permutation_bis.
    - assert (G : forall l, NoDup l -> (forall x, In x l -> 1 <= x < r) -> NoDup (map (fun x => a * x mod r) l)).
      { induction l as [|x l IH]; intros Hd Hl; [constructor|]. inversion Hd as [|? ? Hx Hd']; subst. cbn [map]. constructor.
        - intros Hin. apply in_map_iff in Hin as (y & He & Hy).
          assert (D : (r | a * (y - x))).
          { apply Z.mod_divide; [lia|]. rewrite Z.mul_sub_distr_l, Zminus_mod, He, Z.sub_diag. reflexivity. }
          destruct (prime_mult r Hr _ _ D) as [D'|D']; [exact (Hn D')|].
          pose proof (Hl x (or_introl eq_refl)). pose proof (Hl y (or_intror Hy)).
          assert (y - x = 0).
          { destruct D' as [k D']. assert (k = 0) by nia. lia. }
          assert (y = x) by lia. subst y. exact (Hx Hy).
        - apply IH; [exact Hd'|]. intros y Hy. apply Hl. right. exact Hy. }
      apply G; [exact residues_nodup|]. intros x. apply residues_in.
    - rewrite map_length. apply le_n.
    - intros y Hy. apply in_map_iff in Hy as (x & <- & Hx). apply residues_in in Hx. apply residues_in.
      pose proof (Z.mod_pos_bound (a * x) r ltac:(lia)).
      assert (a * x mod r <> 0); [|lia]. intros E. apply Z.mod_divide in E; [|lia].
      destruct (prime_mult r Hr _ _ E) as [D|D]; [exact (Hn D)|exact (small_not_divided x Hx D)].
  Qed.
  Lemma fermat_Z : (r | a ^ (r - 1) - 1).
  Proof.
    pose proof (product_map r a residues) as H. rewrite (product_perm _ _ times_perm), residues_length in H.
    assert (D : (r | (a ^ (r - 1) - 1) * product residues)).
    { apply Z.divide_opp_r. replace (- ((a ^ (r - 1) - 1) * product residues)) with (product residues - a ^ (r - 1) * product residues) by ring. exact H. }
    destruct (prime_mult r Hr _ _ D) as [H'|H']; [exact H'|]. destruct (residues_product H').
  Qed.
End Fermat.
