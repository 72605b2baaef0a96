(** C159: handling a message leaves goroutines behind when the message is refused.
    C160: the work on a message ends, and every share of it is applied once. *)
From Coq Require Import ZArith Ascii String List Lia Permutation.
From stdpp Require Import base list tactics.
From Verif Require Import Base M_Workers S_Workers L_Workers.

(** ** C159 *)

(** However many goroutines there are per message, and for every [N]: after [N] messages
    with one unusable entry each, [n * N] goroutines exist whatever happens next. *)
Theorem C159_no_goroutine_left_refuted :
  forall n N,
  exists tr,
    length (List.filter is_message tr) = N /\ Forall (fun l => l = WCall 1 \/ l = WNext VFail) tr /\
    forall tr', n * N <= alive (wrun n (tr ++ tr')).
Proof.
  intros n N. exists (concat (replicate N [WCall 1; WNext VFail])).
  assert (A : forall s, existsb active s = false ->
            refusals (wrun_from n s (concat (replicate N [WCall 1; WNext VFail]))) = refusals s + N).
  { induction N as [|N IH]; intros s X; [cbn; unfold refusals; lia|].
    cbn [replicate concat]. unfold wrun_from. rewrite fold_left_app.
    assert (Y : fold_left (wstep n) [WCall 1; WNext VFail] s =
                s ++ [Call 0 1 [VFail] [] false CFailed (replicate n WIdle) []]).
    { cbn [fold_left wstep]. rewrite X.
      destruct (on_last_spec (next_entry VFail) (s ++ [Call 1 1 [] [] false CLoop (replicate n WIdle) []]))
        as [[Z _]|(p & c & Z1 & Z2)]; [destruct s; discriminate Z|].
      apply app_inj_tail in Z1 as [<- <-]. exact Z2. }
    rewrite Y. fold (wrun_from n). unfold wrun_from in IH. rewrite IH.
    - unfold refusals. rewrite List.filter_app, app_length. cbn. lia.
    - rewrite existsb_app, X. reflexivity. }
  split; [|split].
  - clear A. induction N as [|N IH]; cbn; [reflexivity|]. f_equal. exact IH.
  - clear A. induction N as [|N IH]; cbn; [constructor|].
    constructor; [left; reflexivity|]. constructor; [right; reflexivity|]. exact IH.
  - intros tr'. unfold wrun, wrun_from in *. rewrite fold_left_app.
    set (s := fold_left (wstep n) (concat (replicate N [WCall 1; WNext VFail])) []) in *.
    etransitivity; [|apply (alive_refusals n)].
    + apply Nat.mul_le_mono_l. etransitivity; [|apply (run_refusals n tr' s)].
      unfold s. rewrite (A [] eq_refl). cbn. lia.
    + apply (run_good n tr' s). apply (run_good n _ []). split; [constructor|].
      intros p c X. destruct p; discriminate X.
Qed.
Print Assumptions C159_no_goroutine_left_refuted.

(** It is exactly the refused messages that leave goroutines behind: between messages
    there are [n] for each of them and no others. *)
Theorem C159_only_refused_messages_leak :
  forall n tr, between_messages (wrun n tr) -> alive (wrun n tr) = n * refusals (wrun n tr).
Proof.
  intros n tr A. apply between_spec in A. destruct (reach_good n tr) as [G _]. revert A.
  unfold alive, refusals. induction G as [|c s K F IH]; [cbn; lia|].
  cbn [existsb List.filter map]. rewrite sum_cons. intros X. apply orb_false_iff in X as [X1 X2].
  rewrite (IH X2). unfold active in X1.
  assert (RF : refused c = match cl_stat c with CFailed => true | _ => false end) by reflexivity.
  destruct (cl_stat c) eqn:E; try discriminate X1; rewrite RF.
  - assert (Z : alive_in c = 0); [|lia].
    apply (ok_done n c K) in E. unfold alive_in. clear -E.
    induction (cl_workers c) as [|w ws IH]; [reflexivity|]. cbn [forallb List.filter] in *. apply andb_prop in E as [E1 E2].
    rewrite exists_ended, E1. cbn. apply IH, E2.
  - rewrite (failed_alive n c K E). cbn [length]. lia.
Qed.
Print Assumptions C159_only_refused_messages_leak.

(** The goroutines of a refused message never end. *)
Theorem C159_they_never_end :
  forall n tr tr' k c,
  wrun n tr !! k = Some c -> cl_stat c = CFailed ->
  exists c', wrun n (tr ++ tr') !! k = Some c' /\ alive_in c' = n.
Proof.
  intros n tr tr' k c L F.
  destruct (run_lookup_failed n tr' (wrun n tr) k c (reach_good n tr) L F) as (c' & L' & F').
  exists c'. unfold wrun, wrun_from in *. rewrite fold_left_app. split; [exact L'|].
  apply failed_alive; [|exact F'].
  eapply Forall_lookup_1; [|exact L'].
  pose proof (reach_good n (tr ++ tr')) as [G _]. unfold wrun, wrun_from in G. rewrite fold_left_app in G. exact G.
Qed.
Print Assumptions C159_they_never_end.

(** ** C160 *)

(** When the handling of a message is over and it was not refused, every entry was looked
    at, no goroutine is left, and each share that was queued was applied exactly once. *)
Theorem C160_every_share_once :
  forall n tr k c,
  1 <= n -> wrun n tr !! k = Some c -> cl_stat c = CDone ->
  length (cl_seen c) = cl_cap c /\ VFail ∉ cl_seen c /\ alive_in c = 0 /\
  forall i, occurrences i (cl_done c) = match cl_seen c !! i with Some VJob => 1 | _ => 0 end.
Proof.
  intros n tr k c N1 L D. destruct (reach_good n tr) as [G _].
  pose proof (Forall_lookup_1 _ _ _ _ G L) as K.
  destruct (ok_shut n c K (or_intror D)) as [Z C]. pose proof (ok_done n c K D) as E.
  split; [pose proof (ok_cap n c K); lia|]. split; [apply (ok_nofail n c K); rewrite D; discriminate|]. split.
  { unfold alive_in. clear -E. induction (cl_workers c) as [|w ws IH]; [reflexivity|].
    cbn [forallb List.filter] in *. apply andb_prop in E as [E1 E2]. rewrite exists_ended, E1. cbn. apply IH, E2. }
  intros i. destruct n as [|n]; [lia|].
  assert (Q : cl_queue c = []).
  { apply (ok_ended _ c K). pose proof (ok_workers _ c K) as W. destruct (cl_workers c) as [|w ws]; [discriminate W|].
    cbn in E. apply andb_prop in E as [E _]. constructor. exact E. }
  rewrite <- (jobs_from_occ 0 (cl_seen c) i). apply occ_perm.
  rewrite <- (ok_jobs _ c K), Q, (all_ended_idle _ E). reflexivity.
Qed.
Print Assumptions C160_every_share_once.

(** At any time, also of a refused message, no share has been applied twice and none that
    was not queued. *)
Theorem C160_no_share_twice :
  forall n tr k c i,
  wrun n tr !! k = Some c ->
  occurrences i (cl_done c) <= match cl_seen c !! i with Some VJob => 1 | _ => 0 end.
Proof.
  intros n tr k c i L. destruct (reach_good n tr) as [G _].
  pose proof (Forall_lookup_1 _ _ _ _ G L) as K.
  rewrite <- (jobs_from_occ 0 (cl_seen c) i). cbn [Nat.add].
  rewrite <- (occ_perm i _ _ (ok_jobs n c K)). unfold occurrences. rewrite !List.filter_app, !app_length. lia.
Qed.
Print Assumptions C160_no_share_twice.

(** Queueing a share never has to wait for a worker: whatever the next entry leads to,
    the loop goes on. *)
Theorem C160_queueing_never_waits :
  forall n tr c v,
  list.last (wrun n tr) = Some c -> cl_stat c = CLoop -> 0 < cl_left c ->
  exists c', list.last (wstep n (wrun n tr) (WNext v)) = Some c' /\ cl_seen c' = cl_seen c ++ [v].
Proof.
  intros n tr c v L S P. destruct (reach_good n tr) as [G _].
  set (s := wrun n tr) in *. clearbody s.
  destruct (on_last_spec (next_entry v) s) as [[-> _]|(p & d & E1 & E2)]; [discriminate L|].
  cbn [wstep]. rewrite E2. rewrite E1, last_snoc in L. injection L as ->.
  rewrite E1 in G. apply Forall_app in G as [_ G]. inversion G as [|x y K _]; subst x y.
  rewrite last_snoc. exists (next_entry v c). split; [reflexivity|].
  pose proof (ok_cap n c K) as KC. pose proof (ok_jobs n c K) as KJ.
  apply Permutation_length in KJ. rewrite !app_length in KJ. pose proof (jobs_from_length 0 (cl_seen c)) as KL.
  destruct c as [rest cap seen q cls st ws dn]; cbn in S, P, KC, KJ, KL. subst st. unfold next_entry.
  destruct rest as [|rest]; [lia|]. destruct v; try reflexivity.
  destruct (Nat.ltb_spec (length q) cap); [reflexivity|lia].
Qed.
Print Assumptions C160_queueing_never_waits.

(** Until the next message only finitely many steps are possible, under any schedule... *)
Theorem C160_work_is_bounded :
  forall n tr, exists B, forall tr', busy_run n (wrun n tr) tr' -> length tr' <= B.
Proof. intros n tr. exists (s_weight (wrun n tr)). intros tr' R. apply busy_run_weight in R. lia. Qed.
Print Assumptions C160_work_is_bounded.

(** ... and when no step is possible the handling of the message is over. *)
Theorem C160_no_deadlock :
  forall n tr, at_rest n (wrun n tr) -> between_messages (wrun n tr).
Proof.
  intros n tr R. apply between_spec. destruct (reach_good n tr) as [G1 G2].
  set (s := wrun n tr) in *. clearbody s.
  destruct s as [|c p _] using rev_ind; [reflexivity|].
  rewrite existsb_app, (G2 p c eq_refl). cbn.
  destruct (active c) eqn:A; [|reflexivity]. exfalso.
  apply Forall_app in G1 as [_ G1]. inversion G1 as [|x y K _]; subst x y.
  assert (OL : forall f, on_last f (p ++ [c]) = p ++ [c] -> f c = c).
  { intros f X. destruct (on_last_spec f (p ++ [c])) as [[Z _]|(p' & c' & Z1 & Z2)]; [destruct p; discriminate Z|].
    apply app_inj_tail in Z1 as [<- <-]. rewrite Z2 in X. apply app_inj_tail in X as [_ X]. exact X. }
  assert (OW : forall i w f, cl_workers c !! i = Some w -> on_worker (length p) i f (p ++ [c]) = p ++ [c] -> f c w = c).
  { intros i w f L X. unfold on_worker in X. rewrite list_lookup_middle, L in X by reflexivity.
    rewrite <- (Nat.add_0_r (length p)), insert_app_r in X. apply app_inj_tail in X as [_ X]. exact X. }
  assert (RN : next_entry VSkip c = c) by (apply OL, (R (WNext VSkip)); reflexivity).
  assert (RC : close_chan c = c) by (apply OL, (R WClose); reflexivity).
  assert (RW : wait_over c = c) by (apply OL, (R WReturn); reflexivity).
  assert (RT : forall i w, cl_workers c !! i = Some w -> take i c w = c)
    by (intros i w L; apply (OW i w _ L), (R (WTake (length p) i)); reflexivity).
  assert (RE : forall i w, cl_workers c !! i = Some w -> end_worker i c w = c)
    by (intros i w L; apply (OW i w _ L), (R (WEnd (length p) i)); reflexivity).
  assert (RF : forall i w, cl_workers c !! i = Some w -> finish i c w = c)
    by (intros i w L; apply (OW i w _ L), (R (WFinish (length p) i)); reflexivity).
  pose proof (ok_shut n c K) as KS.
  destruct c as [rest cap seen q cls st ws dn]; unfold active in A; cbn in A, KS, RN, RC, RW, RT, RE, RF.
  destruct st; try discriminate A.
  - destruct rest as [|rest]; [discriminate RC|]. injection RN as RN _. lia.
  - destruct (KS (or_introl eq_refl)) as [_ ->].
    destruct (forallb ended ws) eqn:E; [discriminate RW|].
    assert (exists i w, ws !! i = Some w /\ ended w = false) as (i & w & L & N).
    { clear -E. induction ws as [|w ws IH]; [discriminate E|]. cbn in E.
      destruct (ended w) eqn:W; [|exists 0, w; auto]. destruct (IH E) as (i & w' & L & N). exists (S i), w'; auto. }
    assert (X : forall w', <[i := w']> ws = ws -> w' = w).
    { intros w' X. rewrite <- X in L. rewrite list_lookup_insert in L; [congruence|].
      rewrite <- (insert_length ws i w'). rewrite X in *. eapply lookup_lt_Some, L. }
    destruct w as [|j|]; [| |discriminate N].
    + destruct q as [|j q].
      * specialize (RE i WIdle L). cbn in RE. injection RE as RE. apply X in RE. discriminate RE.
      * specialize (RT i WIdle L). cbn in RT. injection RT as RT _. apply (f_equal length) in RT. cbn in RT. lia.
    + specialize (RF i (WBusy j) L). cbn in RF. injection RF as RF _. apply X in RF. discriminate RF.
Qed.
Print Assumptions C160_no_deadlock.

(** ** Concrete cases *)

(** Two workers, three entries of which the second is a duplicate *)
Definition ex_message : list wlabel :=
  [WCall 3; WNext VJob; WTake 0 1; WNext VSkip; WNext VJob; WClose; WTake 0 0; WFinish 0 0; WEnd 0 0;
   WFinish 0 1; WEnd 0 1; WReturn].
Example ex_message_done :
  wrun 2 ex_message = [Call 0 3 [VJob; VSkip; VJob] [] true CDone [WEnded; WEnded] [2; 0]].
Proof. reflexivity. Qed.
(** A second message whose second entry is refused: its first share is still applied, and
    the two workers wait for ever. *)
Example ex_refused :
  let s := wrun 2 (ex_message ++ [WCall 2; WNext VJob; WNext VFail; WTake 1 0; WFinish 1 0; WEnd 1 0; WClose; WReturn]) in
  (map cl_stat s, map cl_workers s, map cl_done s, alive s, refusals s) =
  ([CDone; CFailed], [[WEnded; WEnded]; [WIdle; WIdle]], [[2; 0]; [0]], 2, 1).
Proof. reflexivity. Qed.
Example ex_busy : busy_run 2 (wrun 2 [WCall 1]) [WNext VJob; WClose; WTake 0 0; WFinish 0 0; WEnd 0 0; WEnd 0 1; WReturn].
Proof. cbn. repeat split; discriminate. Qed.
Example ex_at_rest : at_rest 1 (wrun 1 [WCall 0; WClose; WEnd 0 0; WReturn]).
Proof.
  intros l M. destruct l as [len|v| |k i|k i|k i|]; [discriminate M| | | | | |]; try reflexivity;
    (destruct k as [|k]; [|reflexivity]; destruct i as [|i]; reflexivity).
Qed.
