(** Lemmas about [M_Workers]. *)
From Coq Require Import ZArith Ascii String List Lia Permutation.
From stdpp Require Import base list tactics.
From Verif Require Import Base M_Workers S_Workers.

Definition busy_jobs (ws : list wstat) : list nat :=
  flat_map (fun w => match w with WBusy j => [j] | _ => [] end) ws.
(** The positions of the entries with a job *)
Fixpoint jobs_from (i : nat) (vs : list verdict) : list nat :=
  match vs with
  | [] => []
  | VJob :: vs' => i :: jobs_from (S i) vs'
  | _ :: vs' => jobs_from (S i) vs'
  end.

Record call_ok (n : nat) (c : call) : Prop := {
  ok_workers : length (cl_workers c) = n;
  ok_cap : cl_left c + length (cl_seen c) = cl_cap c;
  ok_jobs : Permutation (cl_queue c ++ busy_jobs (cl_workers c) ++ cl_done c) (jobs_from 0 (cl_seen c));
  ok_open : (cl_stat c = CLoop \/ cl_stat c = CFailed) -> cl_closed c = false;
  ok_shut : (cl_stat c = CWait \/ cl_stat c = CDone) -> cl_left c = 0 /\ cl_closed c = true;
  ok_ended : Exists (fun w => ended w = true) (cl_workers c) -> cl_closed c = true /\ cl_queue c = [];
  ok_done : cl_stat c = CDone -> forallb ended (cl_workers c) = true;
  ok_nofail : cl_stat c <> CFailed -> VFail ∉ cl_seen c
}.

Lemma jobs_from_app i l v :
  jobs_from i (l ++ [v]) = jobs_from i l ++ (match v with VJob => [i + length l] | _ => [] end).
Proof.
  revert i; induction l as [|u l IH]; intros i; cbn.
  - rewrite Nat.add_0_r; destruct v; reflexivity.
  - rewrite IH. replace (S i + length l) with (i + S (length l)) by lia.
    destruct u; reflexivity.
Qed.
Lemma jobs_from_length i l : length (jobs_from i l) <= length l.
Proof. revert i; induction l as [|u l IH]; intros i; cbn; [lia|]. specialize (IH (S i)). destruct u; cbn; lia. Qed.
Lemma jobs_from_ge i l j : List.In j (jobs_from i l) -> i <= j.
Proof.
  revert i; induction l as [|u l IH]; intros i; cbn; [tauto|].
  destruct u; cbn; intros X; repeat destruct X as [X|X]; try (apply IH in X; lia); lia.
Qed.
Lemma jobs_from_occ i l j :
  occurrences (i + j) (jobs_from i l) = match l !! j with Some VJob => 1 | _ => 0 end.
Proof.
  revert i j; induction l as [|u l IH]; intros i j; [destruct j; reflexivity|].
  assert (N : occurrences i (jobs_from (S i) l) = 0).
  { unfold occurrences. destruct (List.filter (Nat.eqb i) (jobs_from (S i) l)) as [|x xs] eqn:F; [reflexivity|].
    assert (X : List.In x (List.filter (Nat.eqb i) (jobs_from (S i) l))) by (rewrite F; left; reflexivity).
    apply filter_In in X as [X1 X2]. apply Nat.eqb_eq in X2. subst x. apply jobs_from_ge in X1. lia. }
  destruct j as [|j].
  - rewrite Nat.add_0_r. destruct u; cbn [jobs_from lookup list_lookup]; try exact N.
    unfold occurrences in *. cbn. rewrite Nat.eqb_refl. cbn. rewrite N. reflexivity.
  - specialize (IH (S i) j). replace (S i + j) with (i + S j) in IH by lia.
    destruct u; cbn [jobs_from lookup list_lookup]; try exact IH.
    unfold occurrences in *. cbn. destruct (Nat.eqb_spec (i + S j) i); [lia|]. exact IH.
Qed.
Lemma occ_perm i l l' : Permutation l l' -> occurrences i l = occurrences i l'.
Proof.
  unfold occurrences. induction 1 as [|x l l' P IH|x y l|l l' l'' P1 IH1 P2 IH2]; cbn; try congruence.
  - destruct (Nat.eqb i x); cbn; congruence.
  - destruct (Nat.eqb i x), (Nat.eqb i y); reflexivity.
Qed.

Lemma busy_insert ws i w w' :
  ws !! i = Some w ->
  Permutation (busy_jobs (<[i := w']> ws) ++ (match w with WBusy j => [j] | _ => [] end))
              (busy_jobs ws ++ (match w' with WBusy j => [j] | _ => [] end)).
Proof.
  intros L. unfold busy_jobs.
  rewrite insert_take_drop by (eapply lookup_lt_Some; exact L).
  rewrite <- (take_drop_middle ws i w L) at 3.
  rewrite !flat_map_app; cbn [flat_map]. rewrite <- !app_assoc.
  apply Permutation_app_head.
  rewrite (Permutation_app_comm _ (match w with WBusy j => [j] | _ => [] end)).
  rewrite (app_assoc (match w with WBusy j => [j] | _ => [] end)).
  rewrite (Permutation_app_comm _ (_ ++ _)). reflexivity.
Qed.
Lemma busy_app l l' : busy_jobs (l ++ l') = busy_jobs l ++ busy_jobs l'.
Proof. apply flat_map_app. Qed.
Lemma all_ended_idle ws : forallb ended ws = true -> busy_jobs ws = [].
Proof.
  induction ws as [|w ws IH]; cbn; [reflexivity|]. intros X. apply andb_prop in X as [X1 X2].
  destruct w; try discriminate X1. cbn. apply IH, X2.
Qed.

#[local] Arguments busy_jobs : simpl never.
(** ** Each step keeps [call_ok] *)
Lemma new_call_ok n len : call_ok n (Call len len [] [] false CLoop (replicate n WIdle) []).
Proof.
  assert (B : busy_jobs (replicate n WIdle) = []) by (clear; unfold busy_jobs; induction n as [|n IH]; cbn; [reflexivity|exact IH]).
  split; cbn; try (intros [X|X]; discriminate X); try discriminate; auto with lia.
  - apply replicate_length.
  - rewrite B. reflexivity.
  - intros X. exfalso. apply Exists_exists in X as (w & X1 & X2). apply elem_of_list_In in X1. apply elem_of_replicate in X1 as [-> _].
    discriminate X2.
  - intros _ X. apply elem_of_nil in X. exact X.
Qed.

Ltac ok_parts X := destruct X as [Kw Kc Kj Ko Ks Ke Kd Kn]; cbn in *.

Lemma next_entry_ok n v c : call_ok n c -> call_ok n (next_entry v c).
Proof.
  destruct c as [rest cap seen q cls st ws dn]; intros X. unfold next_entry.
  destruct st; try exact X. destruct rest as [|rest]; try exact X.
  destruct v; [destruct (Nat.ltb _ _); [|exact X]| |]; ok_parts X;
    (split; cbn; try (rewrite app_length; cbn); try (rewrite jobs_from_app; cbn);
     try solve [auto with lia | intros [Y|Y]; discriminate Y | discriminate | rewrite app_nil_r; exact Kj
               | intros Y; apply Ke in Y as [Y _]; rewrite Ko in Y by auto; discriminate Y]).
  - rewrite <- app_assoc. cbn [app]. rewrite <- Permutation_cons_append, <- Kj.
    symmetry. apply Permutation_middle.
  - intros _ Y. apply elem_of_app in Y as [Y|Y]; [exact (Kn ltac:(discriminate) Y)|].
    apply elem_of_list_singleton in Y. discriminate Y.
  - intros _ Y. apply elem_of_app in Y as [Y|Y]; [exact (Kn ltac:(discriminate) Y)|].
    apply elem_of_list_singleton in Y. discriminate Y.
Qed.
Lemma close_chan_ok n c : call_ok n c -> call_ok n (close_chan c).
Proof.
  destruct c as [rest cap seen q cls st ws dn]; intros X. unfold close_chan.
  destruct st; try exact X. destruct rest as [|rest]; try exact X.
  ok_parts X. split; cbn; try solve [auto | intros [Y|Y]; discriminate Y | discriminate].
  intros Y. apply Ke in Y as [Y _]. rewrite Ko in Y by auto. discriminate Y.
Qed.
Lemma wait_over_ok n c : call_ok n c -> call_ok n (wait_over c).
Proof.
  destruct c as [rest cap seen q cls st ws dn]; intros X. unfold wait_over.
  destruct st; try exact X. destruct (forallb ended ws) eqn:A; [|exact X].
  ok_parts X. split; cbn; try solve [auto | intros [Y|Y]; discriminate Y | discriminate].
Qed.
Lemma Exists_insert_other (ws : list wstat) i w :
  ended w = false -> Exists (fun w => ended w = true) (<[i := w]> ws) -> Exists (fun w => ended w = true) ws.
Proof.
  intros N X. apply Exists_exists in X as (x & X1 & X2). apply elem_of_list_In in X1. apply Exists_exists.
  apply elem_of_list_lookup in X1 as [j X1].
  apply list_lookup_insert_Some in X1 as [(-> & <- & _)|[_ X1]]; [congruence|].
  exists x. split; [|exact X2]. apply elem_of_list_In. eapply elem_of_list_lookup_2, X1.
Qed.
Lemma take_ok n i c w : cl_workers c !! i = Some w -> call_ok n c -> call_ok n (take i c w).
Proof.
  destruct c as [rest cap seen q cls st ws dn]; intros L X. cbn in L. unfold take.
  destruct w; try exact X. destruct q as [|j q]; try exact X.
  ok_parts X. pose proof (busy_insert ws i WIdle (WBusy j) L) as B. rewrite app_nil_r in B.
  split; cbn; try assumption.
  - rewrite insert_length. exact Kw.
  - rewrite B, <- Kj. rewrite <- app_assoc. cbn. rewrite !app_assoc.
    rewrite <- (Permutation_middle (q ++ busy_jobs ws) dn j). reflexivity.
  - intros Y. apply Exists_insert_other in Y; [|reflexivity]. apply Ke in Y as [_ Y]. discriminate Y.
  - intros Y. apply Kd in Y. exfalso.
    assert (E : Exists (fun w => ended w = true) ws).
    { apply Exists_exists. exists WIdle. split; [apply elem_of_list_In; eapply elem_of_list_lookup_2, L|].
      rewrite forallb_forall in Y. apply Y. apply elem_of_list_In. eapply elem_of_list_lookup_2, L. }
    apply Ke in E as [_ E]. discriminate E.
Qed.
Lemma end_worker_ok n i c w : cl_workers c !! i = Some w -> call_ok n c -> call_ok n (end_worker i c w).
Proof.
  destruct c as [rest cap seen q cls st ws dn]; intros L X. cbn in L. unfold end_worker.
  destruct w; try exact X. destruct q as [|j q]; try exact X. destruct cls; try exact X.
  ok_parts X. pose proof (busy_insert ws i WIdle WEnded L) as B. rewrite !app_nil_r in B.
  split; cbn; try assumption; auto.
  - rewrite insert_length. exact Kw.
  - rewrite B. exact Kj.
  - intros Y. specialize (Kd Y). rewrite forallb_forall in *. intros x I.
    apply elem_of_list_In in I. apply elem_of_list_lookup in I as [k I].
    apply list_lookup_insert_Some in I as [(-> & <- & _)|[_ I]]; [reflexivity|].
    apply Kd, elem_of_list_In. eapply elem_of_list_lookup_2, I.
Qed.
Lemma finish_ok n i c w : cl_workers c !! i = Some w -> call_ok n c -> call_ok n (finish i c w).
Proof.
  destruct c as [rest cap seen q cls st ws dn]; intros L X. cbn in L. unfold finish.
  destruct w as [|j|]; try exact X.
  ok_parts X. pose proof (busy_insert ws i (WBusy j) WIdle L) as B. rewrite !app_nil_r in B.
  split; cbn; try assumption; auto.
  - rewrite insert_length. exact Kw.
  - rewrite <- Kj. apply Permutation_app_head. rewrite <- B, <- app_assoc.
    apply Permutation_app_head. rewrite Permutation_app_comm. reflexivity.
  - intros Y. apply Exists_insert_other in Y; [|reflexivity]. exact (Ke Y).
  - intros Y. specialize (Kd Y). rewrite forallb_forall in Kd.
    specialize (Kd (WBusy j)). discriminate Kd. apply elem_of_list_In. eapply elem_of_list_lookup_2, L.
Qed.

(** ** What a step does to the list of calls *)
Lemma on_last_spec f s :
  (s = [] /\ on_last f s = []) \/ (exists p c, s = p ++ [c] /\ on_last f s = p ++ [f c]).
Proof.
  destruct s as [|c p _] using rev_ind; [left; split; reflexivity|right].
  exists p, c. split; [reflexivity|]. unfold on_last. rewrite last_snoc.
  rewrite app_length. cbn [length]. replace (length p + 1 - 1) with (length p + 0) by lia.
  exact (insert_app_r p [c] 0 (f c)).
Qed.
Lemma on_worker_spec k i f s :
  on_worker k i f s = s \/
  (exists p c q w, s = p ++ c :: q /\ length p = k /\ cl_workers c !! i = Some w /\
     on_worker k i f s = p ++ f c w :: q).
Proof.
  unfold on_worker. destruct (s !! k) as [c|] eqn:L; [|left; reflexivity].
  destruct (cl_workers c !! i) as [w|] eqn:W; [|left; reflexivity]. right.
  exists (firstn k s), c, (skipn (S k) s), w.
  rewrite take_drop_middle by exact L. split; [reflexivity|]. split.
  { apply take_length_le. apply lookup_lt_Some in L. lia. }
  split; [exact W|]. apply insert_take_drop. eapply lookup_lt_Some, L.
Qed.

(** A step either does nothing, or starts a call, or changes one call *)
Inductive call_step : call -> call -> Prop :=
  | cs_next v c : call_step c (next_entry v c)
  | cs_close c : call_step c (close_chan c)
  | cs_wait c : call_step c (wait_over c)
  | cs_take i w c : cl_workers c !! i = Some w -> call_step c (take i c w)
  | cs_end i w c : cl_workers c !! i = Some w -> call_step c (end_worker i c w)
  | cs_finish i w c : cl_workers c !! i = Some w -> call_step c (finish i c w).
Lemma step_spec n s l :
  wstep n s l = s \/
  (exists len, l = WCall len /\ existsb active s = false /\
     wstep n s l = s ++ [Call len len [] [] false CLoop (replicate n WIdle) []]) \/
  (is_message l = false /\
   exists p c c' q, s = p ++ c :: q /\ wstep n s l = p ++ c' :: q /\ call_step c c').
Proof.
  destruct l as [len|v| |k i|k i|k i|]; cbn [wstep is_message].
  - destruct (existsb active s) eqn:A; [left; reflexivity|right; left]. exists len. auto.
  - destruct (on_last_spec (next_entry v) s) as [[-> E]|(p & c & E1 & E2)]; [left; exact E|right; right].
    split; [reflexivity|]. exists p, c, (next_entry v c), []. split; [exact E1|split; [exact E2|constructor]].
  - destruct (on_last_spec close_chan s) as [[-> E]|(p & c & E1 & E2)]; [left; exact E|right; right].
    split; [reflexivity|]. exists p, c, (close_chan c), []. split; [exact E1|split; [exact E2|constructor]].
  - destruct (on_worker_spec k i (take i) s) as [E|(p & c & q & w & E1 & _ & W & E2)]; [left; exact E|right; right].
    split; [reflexivity|]. exists p, c, (take i c w), q. split; [exact E1|split; [exact E2|constructor; exact W]].
  - destruct (on_worker_spec k i (end_worker i) s) as [E|(p & c & q & w & E1 & _ & W & E2)]; [left; exact E|right; right].
    split; [reflexivity|]. exists p, c, (end_worker i c w), q. split; [exact E1|split; [exact E2|constructor; exact W]].
  - destruct (on_worker_spec k i (finish i) s) as [E|(p & c & q & w & E1 & _ & W & E2)]; [left; exact E|right; right].
    split; [reflexivity|]. exists p, c, (finish i c w), q. split; [exact E1|split; [exact E2|constructor; exact W]].
  - destruct (on_last_spec wait_over s) as [[-> E]|(p & c & E1 & E2)]; [left; exact E|right; right].
    split; [reflexivity|]. exists p, c, (wait_over c), []. split; [exact E1|split; [exact E2|constructor]].
Qed.
Lemma call_step_ok n c c' : call_step c c' -> call_ok n c -> call_ok n c'.
Proof.
  destruct 1; intros K.
  - apply next_entry_ok, K.
  - apply close_chan_ok, K.
  - apply wait_over_ok, K.
  - apply take_ok; assumption.
  - apply end_worker_ok; assumption.
  - apply finish_ok; assumption.
Qed.

(** Only the last call can be active *)
Definition good (n : nat) (s : wstate) : Prop :=
  Forall (call_ok n) s /\ forall p c, s = p ++ [c] -> existsb active p = false.
Lemma call_step_inactive c c' : call_step c c' -> active c = false -> active c' = false.
Proof.
  destruct 1 as [v c|c|c|i w c _|i w c _|i w c _]; destruct c as [rest cap seen q cls st ws dn]; unfold active; cbn;
    destruct st; try discriminate; try reflexivity.
  all: intros _; destruct w; try reflexivity; try (destruct q; try reflexivity; destruct cls; reflexivity).
Qed.
Lemma step_good n s l : good n s -> good n (wstep n s l).
Proof.
  intros [G1 G2]. destruct (step_spec n s l) as [E|[(len & -> & A & E)|(_ & p & c & c' & q & E1 & E2 & CS)]].
  - rewrite E. split; assumption.
  - rewrite E. split.
    + apply Forall_app. split; [exact G1|]. constructor; [apply new_call_ok|constructor].
    + intros p c X. apply app_inj_tail in X as [<- _]. exact A.
  - rewrite E2. rewrite E1 in G1. apply Forall_app in G1 as [Gp Gq]. inversion Gq as [|x y Gc Gq']; subst x y.
    split.
    + apply Forall_app. split; [exact Gp|]. constructor; [eapply call_step_ok; eauto|exact Gq'].
    + intros p' d X. destruct q as [|d' q' _] using rev_ind.
      * change (p ++ c' :: []) with (p ++ [c']) in X. apply app_inj_tail in X as [<- _].
        exact (G2 p c E1).
      * rewrite app_comm_cons, app_assoc in X. apply app_inj_tail in X as [<- _].
        specialize (G2 (p ++ c :: q') d'). rewrite E1, app_comm_cons, app_assoc in G2. specialize (G2 eq_refl).
        rewrite existsb_app in *. apply orb_false_iff in G2 as [G2 G3]. cbn [existsb] in *.
        apply orb_false_iff in G3 as [G3 G4].
        rewrite G2, G4, (call_step_inactive c c' CS G3). reflexivity.
Qed.
Lemma run_good n tr s : good n s -> good n (wrun_from n s tr).
Proof. revert s. induction tr as [|l tr IH]; intros s G; [exact G|]. apply IH, step_good, G. Qed.
Lemma reach_good n tr : good n (wrun n tr).
Proof. apply run_good. split; [constructor|]. intros p c X. destruct p; discriminate X. Qed.

(** ** The measure *)
Definition w_weight (w : wstat) : nat := match w with WBusy _ => 2 | WIdle => 1 | WEnded => 0 end.
Definition c_weight (c : call) : nat :=
  5 * cl_left c + 3 * length (cl_queue c) + list_sum (map w_weight (cl_workers c)) +
  match cl_stat c with CLoop => 2 | CWait => 1 | _ => 0 end.
Definition s_weight (s : wstate) : nat := list_sum (map c_weight s).

Lemma sum_cons x l : list_sum (x :: l) = x + list_sum l.
Proof. reflexivity. Qed.
Lemma weight_insert ws i w w' :
  ws !! i = Some w ->
  list_sum (map w_weight (<[i := w']> ws)) + w_weight w = list_sum (map w_weight ws) + w_weight w'.
Proof.
  intros L. rewrite insert_take_drop by (eapply lookup_lt_Some; exact L).
  rewrite <- (take_drop_middle ws i w L) at 3.
  rewrite !map_app, !list_sum_app. cbn [map]. rewrite !sum_cons. lia.
Qed.
Lemma call_step_weight c c' : call_step c c' -> c' = c \/ c_weight c' < c_weight c.
Proof.
  destruct 1 as [v c|c|c|i w c L|i w c L|i w c L]; destruct c as [rest cap seen q cls st ws dn]; unfold c_weight;
    cbn [next_entry close_chan wait_over take end_worker finish cl_left cl_queue cl_workers cl_stat] in *.
  - destruct st; auto. destruct rest as [|rest]; auto.
    destruct v; [destruct (Nat.ltb _ _); auto| |]; right; cbn [cl_left cl_queue cl_workers cl_stat];
      try rewrite app_length; cbn [length]; lia.
  - destruct st; auto. destruct rest as [|rest]; auto. right. cbn [cl_left cl_queue cl_workers cl_stat]. lia.
  - destruct st; auto. destruct (forallb ended ws); auto. right. cbn [cl_left cl_queue cl_workers cl_stat]. lia.
  - destruct w; auto. destruct q as [|j q]; auto. right. cbn [cl_left cl_queue cl_workers cl_stat length].
    pose proof (weight_insert ws i WIdle (WBusy j) L) as Q. cbn [w_weight] in Q. lia.
  - destruct w; auto. destruct q as [|j q]; auto. destruct cls; auto. right. cbn [cl_left cl_queue cl_workers cl_stat length].
    pose proof (weight_insert ws i WIdle WEnded L) as Q. cbn [w_weight] in Q. lia.
  - destruct w as [|j|]; auto. right. cbn [cl_left cl_queue cl_workers cl_stat length].
    pose proof (weight_insert ws i (WBusy j) WIdle L) as Q. cbn [w_weight] in Q. lia.
Qed.
Lemma step_weight n s l : is_message l = false -> wstep n s l <> s -> s_weight (wstep n s l) < s_weight s.
Proof.
  intros M D. destruct (step_spec n s l) as [E|[(len & -> & A & E)|(_ & p & c & c' & q & E1 & E2 & CS)]].
  - contradiction.
  - discriminate M.
  - rewrite E2. rewrite E1. unfold s_weight. rewrite !map_app, !list_sum_app. cbn [map]. rewrite !sum_cons.
    destruct (call_step_weight c c' CS) as [->|L]; [|lia]. exfalso. apply D. rewrite E2, E1. reflexivity.
Qed.
Lemma busy_run_weight n tr s : busy_run n s tr -> length tr + s_weight (wrun_from n s tr) <= s_weight s.
Proof.
  revert s. induction tr as [|l tr IH]; intros s; [intros _; reflexivity|]. intros (M & D & B).
  change (wrun_from n s (l :: tr)) with (wrun_from n (wstep n s l) tr). cbn [length].
  apply IH in B. pose proof (step_weight n s l M D). lia.
Qed.

(** ** A call that has failed keeps its goroutines *)
Lemma call_step_failed n c c' :
  call_ok n c -> call_step c c' -> cl_stat c = CFailed -> cl_stat c' = CFailed.
Proof.
  intros _. destruct 1 as [v c|c|c|i w c _|i w c _|i w c _]; destruct c as [rest cap seen q cls st ws dn]; cbn;
    intros ->; try reflexivity.
  all: destruct w; try reflexivity; try (destruct q; try reflexivity; destruct cls; reflexivity).
Qed.
Lemma exists_ended w : exists_still w = negb (ended w).
Proof. destruct w; reflexivity. Qed.
Lemma active_spec c : active c = false <-> cl_stat c = CDone \/ cl_stat c = CFailed.
Proof.
  unfold active. destruct (cl_stat c); split; try discriminate; try reflexivity; auto; intros [X|X]; discriminate X.
Qed.
Lemma between_spec s : between_messages s <-> existsb active s = false.
Proof.
  unfold between_messages. induction s as [|c s IH]; [split; [reflexivity|constructor]|]. cbn [existsb].
  rewrite Forall_cons_iff, orb_false_iff, active_spec, IH. reflexivity.
Qed.
Lemma failed_alive n c : call_ok n c -> cl_stat c = CFailed -> alive_in c = n.
Proof.
  intros K F. rewrite <- (ok_workers n c K). unfold alive_in.
  assert (X : Forall (fun w => ended w = false) (cl_workers c)).
  { apply Forall_forall. intros w I. destruct (ended w) eqn:E; [|reflexivity]. exfalso.
    assert (Y : Exists (fun w => ended w = true) (cl_workers c)) by (apply Exists_exists; exists w; split; [exact I|exact E]).
    apply (ok_ended n c K) in Y as [Y _]. rewrite (ok_open n c K) in Y by (right; exact F). discriminate Y. }
  clear K F. induction X as [|w ws E X IH]; [reflexivity|]. cbn [List.filter]. rewrite exists_ended, E. cbn. rewrite IH. reflexivity.
Qed.
Lemma step_lookup n s l k c :
  s !! k = Some c -> exists c', wstep n s l !! k = Some c' /\ (c' = c \/ call_step c c').
Proof.
  intros L. destruct (step_spec n s l) as [E|[(len & -> & A & E)|(_ & p & d & d' & q & E1 & E2 & CS)]].
  - rewrite E. eauto.
  - rewrite E. exists c. split; [|auto]. apply lookup_app_l_Some, L.
  - rewrite E2. rewrite E1 in L. destruct (decide (k = length p)) as [->|N].
    + rewrite list_lookup_middle in L by reflexivity. injection L as <-. exists d'.
      rewrite list_lookup_middle by reflexivity. auto.
    + exists c. split; [|auto]. revert L. destruct (decide (k < length p)).
      * rewrite !lookup_app_l by lia. auto.
      * rewrite !lookup_app_r by lia. replace (k - length p) with (S (k - length p - 1)) by lia. cbn. auto.
Qed.
Lemma run_lookup_failed n tr s k c :
  good n s -> s !! k = Some c -> cl_stat c = CFailed ->
  exists c', wrun_from n s tr !! k = Some c' /\ cl_stat c' = CFailed.
Proof.
  revert s c. induction tr as [|l tr IH]; intros s c G L F; [exists c; auto|].
  destruct (step_lookup n s l k c L) as (c' & L' & S').
  apply (IH (wstep n s l) c'); [apply step_good, G|exact L'|].
  destruct S' as [->|S']; [exact F|]. eapply call_step_failed; [|exact S'|exact F].
  eapply Forall_lookup_1; [exact (proj1 G)|exact L].
Qed.
Lemma alive_refusals n s : Forall (call_ok n) s -> n * refusals s <= alive s.
Proof.
  unfold refusals, alive. induction 1 as [|c s K F IH]; [cbn; lia|]. cbn [List.filter map]. rewrite sum_cons.
  destruct (refused c) eqn:R; cbn [length]; [|lia].
  rewrite (failed_alive n c K) by (unfold refused in R; destruct (cl_stat c); congruence). lia.
Qed.
Lemma call_step_refused c c' : call_step c c' -> refused c = true -> refused c' = true.
Proof.
  unfold refused. destruct 1 as [v c|c|c|i w c _|i w c _|i w c _]; destruct c as [rest cap seen q cls st ws dn]; cbn;
    destruct st; try discriminate; try reflexivity.
  all: intros _; destruct w; try reflexivity; try (destruct q; try reflexivity; destruct cls; reflexivity).
Qed.
Lemma step_refusals n s l : refusals s <= refusals (wstep n s l).
Proof.
  unfold refusals. destruct (step_spec n s l) as [E|[(len & -> & A & E)|(_ & p & c & c' & q & E1 & E2 & CS)]].
  - rewrite E. lia.
  - rewrite E, List.filter_app, app_length. lia.
  - rewrite E2, E1, !List.filter_app, !app_length. cbn [List.filter].
    destruct (refused c) eqn:R; [rewrite (call_step_refused c c' CS R); cbn; lia|].
    destruct (refused c'); cbn; lia.
Qed.
Lemma run_refusals n tr s : refusals s <= refusals (wrun_from n s tr).
Proof.
  revert s. induction tr as [|l tr IH]; intros s; [reflexivity|].
  etransitivity; [apply (step_refusals n s l)|apply (IH (wstep n s l))].
Qed.
