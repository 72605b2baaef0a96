(** C55, C107, C108: the loop in which keygen and keysign wait for their local party. *)
From Coq Require Import NArith List Lia.
From stdpp Require Import base list.
From Verif Require Import Base M_Loop.

Section Inv.
  Context {M A : Type} (T : N) (need : nat).
  Notation lrun := (lrun (M:=M) (A:=A) T need).
  Notation lstep := (lstep (M:=M) (A:=A) T need).

  Lemma lrun_snoc ls l : lrun (ls ++ [l]) = lstep (lrun ls) l.
  Proof. unfold M_Loop.lrun. rewrite fold_left_app. reflexivity. Qed.
  Lemma lrun_app ls ls' : lrun (ls ++ ls') = fold_left lstep ls' (lrun ls).
  Proof. unfold M_Loop.lrun. rewrite fold_left_app. reflexivity. Qed.

  Definition acts (s : lstate M A) : N := N.of_nat (length (l_sent s) + length (l_got s)).
  Lemma loop_inv ls : let s := lrun ls in
    (l_idle s <= T)%N /\ (l_clock s <= acts s * T + l_idle s)%N /\
    match l_res s with
    | None => length (l_got s) < need \/ need = 0
    | Some (LDone l) => l = l_got s /\ length l = need
    | _ => True
    end.
  Proof.
    induction ls as [|l ls IH] using rev_ind; [cbn; unfold acts; cbn; split; [lia|]; split; [lia|]; lia|].
    rewrite lrun_snoc. cbv zeta in *. set (s := lrun ls) in *. destruct IH as (H1 & H2 & H3). unfold acts in *.
    destruct l as [m|a| | |n|ok| | | |]; cbn [M_Loop.lstep l_idle l_clock l_sent l_got l_res]; auto;
      (destruct (l_res s) as [r|] eqn:Hr; [rewrite Hr in *; auto|]).
    - destruct (ready s || N.ltb T (l_idle s + n))%bool eqn:Hg; [rewrite Hr; auto|].
      apply orb_false_iff in Hg as [_ Hg]. apply N.ltb_ge in Hg. cbn. split; [exact Hg|]. split; [lia|exact H3].
    - destruct (l_out s); [rewrite Hr; auto|]. cbn. rewrite app_length. cbn. split; [lia|]. split; [lia|]. destruct ok; auto.
    - destruct (l_end s); [rewrite Hr; auto|]. cbn. rewrite app_length. cbn. split; [lia|]. split; [lia|].
      destruct (Nat.eqb_spec (length (l_got s) + 1) need) as [He|He].
      + split; [reflexivity|]. rewrite app_length. cbn. exact He.
      + lia.
    - destruct (l_err s); [|rewrite Hr; auto]. cbn. auto.
    - destruct (l_quit s); [|rewrite Hr; auto]. cbn. auto.
    - destruct (N.leb T (l_idle s)); [|rewrite Hr; auto]. cbn. auto.
  Qed.
End Inv.

(** ** C55, C107 *)

(** No bound on the time: as long as the local party keeps producing messages, each
    one restarts the timer. *)
Theorem C55_total_time_bounded_refuted {M A} (m : M) (T : N) need :
  (1 < T)%N -> forall B : N, exists ls, (B < l_clock (lrun (M:=M) (A:=A) T need ls))%N /\ l_res (lrun (M:=M) (A:=A) T need ls) = None.
Proof.
  intros HT.
  assert (H : forall n : nat, exists ls, lrun (M:=M) (A:=A) T need ls =
    LState [] [] false false 0 (N.of_nat n * (T - 1)) (replicate n m) [] None).
  { induction n as [|n (ls & Hls)].
    - exists []. reflexivity.
    - replace (N.of_nat (S n)) with (N.of_nat n + 1)%N by lia. rewrite N.mul_add_distr_r, N.mul_1_l.
      exists (ls ++ [LTick (T - 1); LEmit m; LTakeOut true]). rewrite lrun_app, Hls. cbn [fold_left]. unfold lstep at 3.
      cbn [l_res ready l_out l_end l_err l_quit l_idle orb]. destruct (N.ltb_spec T (0 + (T - 1))); [lia|]. cbn.
      rewrite <- replicate_S_end. reflexivity. }
  intros B. destruct (H (S (N.to_nat B))) as (ls & Hls). exists ls. rewrite Hls. cbn [l_clock l_res].
  split; [|reflexivity]. apply N.lt_le_trans with (N.of_nat (S (N.to_nat B)) * 1)%N; [lia|]. apply N.mul_le_mono_l. lia.
Qed.
Print Assumptions C55_total_time_bounded_refuted.

Example C55_total_time_bounded_refuted_ex : (1 < 30)%N.
Proof. reflexivity. Qed.

(** The time is bounded by the timeout for each message sent and each result, and one
    more. *)
Theorem C107_time_bound {M A} T need (ls : list (llabel M A)) :
  let s := lrun T need ls in
  (l_clock s <= (N.of_nat (length (l_sent s)) + N.of_nat (length (l_got s)) + 1) * T)%N.
Proof. cbv zeta. pose proof (loop_inv T need ls) as H. cbv zeta in H. destruct H as (H1 & H2 & _). unfold acts in *. lia. Qed.
Print Assumptions C107_time_bound.

(** When the timer fires nothing had come for the whole timeout, and it does fire when
    nothing more comes. While something is waiting to be handled no time passes. *)
Definition nothing_waits {M A} (s : lstate M A) : Prop :=
  l_out s = [] /\ l_end s = [] /\ l_err s = false /\ l_quit s = false.
Lemma ready_spec {M A} (s : lstate M A) : ready s = false <-> nothing_waits s.
Proof.
  unfold ready, nothing_waits. split.
  - destruct (l_out s); [|discriminate]. destruct (l_end s); [|discriminate]. intros X. apply orb_false_iff in X. tauto.
  - intros (-> & -> & -> & ->). reflexivity.
Qed.
Theorem C107_silence {M A} T need (ls : list (llabel M A)) :
  let s := lrun T need ls in
  l_res s = None ->
  (forall s', s' = lstep T need s LFire -> s' <> s -> l_idle s = T) /\
  (nothing_waits s -> l_res (lrun T need (ls ++ [LTick (T - l_idle s); LFire])) = Some LTimeout) /\
  (~ nothing_waits s -> forall n, lstep T need s (LTick n) = s).
Proof.
  cbv zeta. intros Hr. pose proof (loop_inv T need ls) as H. cbv zeta in H. destruct H as (H1 & _). split; [|split].
  - intros s' -> Hne. cbn [lstep] in Hne. rewrite Hr in Hne. destruct (N.leb_spec T (l_idle (lrun T need ls))); [lia|congruence].
  - intros Hn. apply ready_spec in Hn. rewrite lrun_app. cbn [fold_left]. unfold lstep at 2. rewrite Hr, Hn. cbn [orb].
    destruct (N.ltb_spec T (l_idle (lrun T need ls) + (T - l_idle (lrun T need ls)))); [lia|]. cbn.
    destruct (N.leb_spec T (l_idle (lrun T need ls) + (T - l_idle (lrun T need ls)))); [reflexivity|lia].
  - intros Hn n. rewrite <- ready_spec in Hn. apply not_false_is_true in Hn. cbn [lstep]. rewrite Hr, Hn. reflexivity.
Qed.
Print Assumptions C107_silence.

(** The loop can always be left without the local party doing anything more. *)
Definition driver {M A} (l : llabel M A) : Prop :=
  match l with LEmit _ | LFinish _ | LFail | LQuit => False | _ => True end.
Theorem C107_always_ends {M A} T need (ls : list (llabel M A)) :
  exists ls', Forall driver ls' /\ l_res (lrun T need (ls ++ ls')) <> None.
Proof.
  assert (H : forall n ls, length (l_out (lrun (M:=M) (A:=A) T need ls)) + length (l_end (lrun T need ls)) <= n ->
    exists ls', Forall driver ls' /\ l_res (lrun T need (ls ++ ls')) <> None).
  { induction n as [|n IH]; clear ls; intros ls Hn.
    - destruct (l_res (lrun T need ls)) as [r|] eqn:Hr; [exists []; split; [constructor|]; rewrite app_nil_r, Hr; discriminate|].
      destruct (l_out (lrun T need ls)) eqn:Ho; [|simpl in Hn; lia]. destruct (l_end (lrun T need ls)) eqn:He; [|simpl in Hn; lia].
      destruct (l_err (lrun T need ls)) eqn:H1.
      { exists [LTakeErr]. split; [repeat constructor|]. rewrite lrun_app. cbn [fold_left lstep]. rewrite Hr, H1. discriminate. }
      destruct (l_quit (lrun T need ls)) eqn:H2.
      { exists [LTakeQuit]. split; [repeat constructor|]. rewrite lrun_app. cbn [fold_left lstep]. rewrite Hr, H2. discriminate. }
      eexists. split; [|rewrite (proj1 (proj2 (C107_silence T need ls Hr))); [discriminate|]].
      + repeat constructor.
      + unfold nothing_waits. auto.
    - destruct (l_res (lrun T need ls)) as [r|] eqn:Hr; [exists []; split; [constructor|]; rewrite app_nil_r, Hr; discriminate|].
      destruct (l_out (lrun T need ls)) as [|m o] eqn:Ho.
      + destruct (l_end (lrun T need ls)) as [|a e] eqn:He; [apply IH; rewrite Ho, He; simpl; lia|].
        destruct (IH (ls ++ [LTakeEnd])) as (ls' & Hd & Hl).
        { rewrite lrun_snoc. cbn [lstep]. rewrite Hr, He. cbn [l_out l_end]. rewrite Ho. simpl in *. lia. }
        exists (LTakeEnd :: ls'). split; [constructor; [exact I|exact Hd]|]. rewrite <- app_assoc in Hl. exact Hl.
      + destruct (IH (ls ++ [LTakeOut true])) as (ls' & Hd & Hl).
        { rewrite lrun_snoc. cbn [lstep]. rewrite Hr, Ho. cbn [l_out l_end]. simpl in *. lia. }
        exists (LTakeOut true :: ls'). split; [constructor; [exact I|exact Hd]|]. rewrite <- app_assoc in Hl. exact Hl. }
  exact (H _ ls (le_n _)).
Qed.
Print Assumptions C107_always_ends.

(** A loop that is done has exactly as many results as it waited for, those of the
    local party in their order. *)
Theorem C107_done {M A} T need (ls : list (llabel M A)) l :
  l_res (lrun T need ls) = Some (LDone l) ->
  length l = need /\ exists rest, flat_map (fun x => match x with LFinish a => [a] | _ => [] end) ls = l ++ rest.
Proof.
  intros Hr. pose proof (loop_inv T need ls) as H. cbv zeta in H. destruct H as (_ & _ & H3). rewrite Hr in H3.
  destruct H3 as [-> Hn]. split; [exact Hn|]. clear Hr Hn.
  assert (He : flat_map (fun x : llabel M A => match x with LFinish a => [a] | _ => [] end) ls =
    l_got (lrun T need ls) ++ l_end (lrun T need ls)); [|eauto].
  induction ls as [|x ls IH] using rev_ind; [reflexivity|]. rewrite lrun_snoc, flat_map_app, IH.
  set (s := lrun T need ls). destruct x; cbn [flat_map app lstep l_got l_end]; rewrite ?app_nil_r; try reflexivity;
    try (rewrite <- app_assoc; reflexivity); (destruct (l_res s); [reflexivity|]).
  - destruct (_ || _)%bool; reflexivity.
  - destruct (l_out s); reflexivity.
  - destruct (l_end s) as [|a r] eqn:Hs; [rewrite Hs, app_nil_r; reflexivity|]. cbn [l_got l_end]. rewrite <- app_assoc. reflexivity.
  - destruct (l_err s); reflexivity.
  - destruct (l_quit s); reflexivity.
  - destruct (N.leb _ _); reflexivity.
Qed.
Print Assumptions C107_done.

Example C107_ex : let ls : list (llabel nat nat) := [LTick 4; LEmit 7; LTakeOut true; LTick 3; LFinish 8; LTakeEnd] in
  l_res (lrun 5 1 ls) = Some (LDone [8]) /\ l_clock (lrun 5 1 ls) = 7%N /\ l_sent (lrun 5 1 ls) = [7].
Proof. vm_compute. auto. Qed.
Example C107_silence_ex : let s := lrun (M:=nat) (A:=nat) 5 1 [LTick 4] in l_res s = None /\ nothing_waits s.
Proof. vm_compute. auto. Qed.

(** Every other ending has its cause: a failure of the local party, a stop request, a
    message that could not be sent; and a failure or a stop request that came is there
    to be taken until the loop has ended. *)
Section Flags.
  Context {M A : Type} (T : N) (need : nat).
  Lemma step_flags (s : lstate M A) x :
    l_err (lstep T need s x) = (match x with LFail => true | _ => l_err s end) /\
    l_quit (lstep T need s x) = (match x with LQuit => true | _ => l_quit s end).
  Proof.
    destruct x; cbn [lstep]; try (split; reflexivity); (destruct (l_res s); [split; reflexivity|]).
    - destruct (_ || _)%bool; split; reflexivity.
    - destruct (l_out s); split; reflexivity.
    - destruct (l_end s); split; reflexivity.
    - destruct (l_err s) eqn:E; split; try reflexivity; exact E.
    - destruct (l_quit s) eqn:E; split; try reflexivity; exact E.
    - destruct (N.leb _ _); split; reflexivity.
  Qed.
  Lemma step_res (s : lstate M A) x r : l_res (lstep T need s x) = Some r ->
    l_res s = Some r \/
    match r with
    | LFailed => l_err s = true | LStopped => l_quit s = true | LNotSent => x = LTakeOut false
    | _ => True
    end.
  Proof.
    destruct x as [m|a| | |n|ok| | | |]; cbn [lstep l_res]; try (intros H; left; exact H);
      (destruct (l_res s) as [r'|] eqn:Hr; [rewrite Hr; auto|]).
    - destruct (_ || _)%bool; [rewrite Hr|]; discriminate.
    - destruct (l_out s); [rewrite Hr; discriminate|]. cbn. destruct ok; [discriminate|]. intros [= <-]. auto.
    - destruct (l_end s); [rewrite Hr; discriminate|]. cbn. destruct (Nat.eqb _ _); [|discriminate]. intros [= <-]. auto.
    - destruct (l_err s); [|rewrite Hr; discriminate]. intros [= <-]. auto.
    - destruct (l_quit s); [|rewrite Hr; discriminate]. intros [= <-]. auto.
    - destruct (N.leb _ _); [|rewrite Hr; discriminate]. intros [= <-]. auto.
  Qed.
  Lemma run_flags (ls : list (llabel M A)) :
    (l_err (lrun T need ls) = true <-> LFail ∈ ls) /\ (l_quit (lrun T need ls) = true <-> LQuit ∈ ls).
  Proof.
    induction ls as [|x ls [H1 H2]] using rev_ind; [cbn; split; split; intros X; inversion X|].
    rewrite lrun_snoc. destruct (step_flags (lrun T need ls) x) as [-> ->]. rewrite !elem_of_app, !elem_of_list_singleton.
    rewrite <- H1, <- H2. destruct x; split; split; intros X; auto; destruct X as [X|X]; auto; discriminate.
  Qed.
End Flags.
Theorem C107_endings {M A} T need (ls : list (llabel M A)) :
  let s := lrun T need ls in
  (l_res s = Some LFailed -> LFail ∈ ls) /\ (l_res s = Some LStopped -> LQuit ∈ ls) /\
  (l_res s = Some LNotSent -> LTakeOut false ∈ ls) /\
  (l_res s = None -> LFail ∈ ls -> l_res (lstep T need s LTakeErr) = Some LFailed) /\
  (l_res s = None -> LQuit ∈ ls -> l_res (lstep T need s LTakeQuit) = Some LStopped).
Proof.
  cbv zeta. destruct (run_flags T need ls) as [H1 H2].
  assert (H : forall r, l_res (lrun T need ls) = Some r ->
    match r with LFailed => LFail ∈ ls | LStopped => LQuit ∈ ls | LNotSent => LTakeOut false ∈ ls | _ => True end).
  { clear H1 H2. intros r. induction ls as [|x ls IH] using rev_ind; [discriminate|]. rewrite lrun_snoc. intros Hr.
    destruct (run_flags T need ls) as [H1 H2]. apply step_res in Hr as [Hr|Hr].
    - specialize (IH Hr). destruct r; auto; apply elem_of_app; auto.
    - destruct r; auto; apply elem_of_app; [tauto|tauto|]. right. apply elem_of_list_singleton. auto. }
  split; [exact (H _)|]. split; [exact (H _)|]. split; [exact (H _)|]. split.
  - intros Hr Hf. cbn [lstep]. rewrite Hr, (proj2 H1 Hf). reflexivity.
  - intros Hr Hf. cbn [lstep]. rewrite Hr, (proj2 H2 Hf). reflexivity.
Qed.
Print Assumptions C107_endings.

Example C107_endings_ex : l_res (lrun (M:=nat) (A:=nat) 5 1 [LEmit 1; LFail; LTick 2]) = None /\
  l_res (lrun (M:=nat) (A:=nat) 5 1 [LQuit; LEmit 1; LTakeOut true; LTakeQuit]) = Some LStopped.
Proof. split; reflexivity. Qed.

(** ** C108 *)

(** A node whose local party is done may return while a message the party produced
    earlier is still in the channel: it is never sent. *)
Theorem C108_done_means_all_sent_refuted {M A} (m : M) (a : A) T :
  exists ls, l_res (lrun T 1 ls) = Some (LDone [a]) /\ l_out (lrun T 1 ls) = [m] /\ l_sent (lrun T 1 ls) = [] /\
    forall ls', l_sent (lrun T 1 (ls ++ ls')) = [].
Proof.
  exists [LEmit m; LFinish a; LTakeEnd]. split; [reflexivity|]. split; [reflexivity|]. split; [reflexivity|].
  intros ls'. rewrite lrun_app.
  assert (H : forall s : lstate M A, l_sent s = [] /\ l_res s = Some (LDone [a]) -> l_sent (fold_left (lstep T 1) ls' s) = []).
  { induction ls' as [|x ls' IH]; intros s [H1 H2]; [exact H1|]. cbn [fold_left]. apply IH.
    destruct x; cbn [lstep l_sent l_res]; auto; rewrite H2; auto. }
  apply H. split; reflexivity.
Qed.
Print Assumptions C108_done_means_all_sent_refuted.
