(** More lemmas about the signature notifier: crashes and registration. *)
From Coq Require Import ZArith NArith Ascii String List Lia.
From stdpp Require Import base list strings gmap tactics.
From Verif Require Import Base M_Notifier S_Notifier L_Notifier.

(** A list longer than the messages, valid as far as there are messages. *)
Definition overlong (E : nenv) (pool : string) (msgs : list bytes) (d : list ecsig) : Prop :=
  length msgs < length d /\
  forall i s msg, d !! i = Some s -> msgs !! i = Some msg -> verifies E pool msg s.

Lemma process_panic E n d :
  ProcessSignature E n d = PsPanic -> overlong E (no_pool n) (no_messages n) d.
Proof.
  unfold ProcessSignature. destruct d as [|s d]; [discriminate|].
  intros H. apply verify_loop_panic in H. destruct H as [Hl H].
  split; [lia|]. intros i s' msg Hi Hm.
  destruct (H i s' Hi) as (_ & msg' & Hm' & Hv); [eapply lookup_lt_Some; exact Hm|].
  simpl in Hm'. rewrite Hm in Hm'. injection Hm' as <-. exact Hv.
Qed.

Lemma crashed_cause E ls :
  ns_crashed (nrun E ls) = true ->
  exists c id msgs pool b d, started ls c id msgs pool /\ NNotify (Some b) ∈ ls /\
    announces E b id d /\ overlong E pool msgs d.
Proof.
  induction ls as [|l ls IH] using rev_ind; [discriminate|].
  rewrite nrun_snoc. unfold nstep. intros H.
  assert (Hmono : ns_crashed (nrun E ls) = true ->
    exists c id msgs pool b d, started (ls ++ [l]) c id msgs pool /\ NNotify (Some b) ∈ ls ++ [l] /\
      announces E b id d /\ overlong E pool msgs d).
  { intros H'. destruct (IH H') as (c & id & msgs & pool & b & d & ? & ? & ? & ?).
    exists c, id, msgs, pool, b, d. split; [apply started_snoc; assumption|].
    split; [set_solver|]. auto. }
  destruct (ns_crashed (nrun E ls)) eqn:Hcr; [apply Hmono; reflexivity|]. simpl in H.
  destruct (ns_stuck (nrun E ls)); [congruence|].
  destruct l; simpl in H.
  - unfold do_call in H. repeat case_match; simpl in H; congruence.
  - unfold do_notify in H. destruct (decode_notification E payload) as [[id d]|] eqn:Hd; [|congruence].
    unfold do_locked in H. destruct (ns_notifiers (nrun E ls) !! id) as [c|] eqn:Hreg; [|congruence].
    destruct (ns_calls (nrun E ls) !! c) as [[n ph]|] eqn:Hc; [|congruence].
    destruct (ProcessSignature E n d) eqn:Hp; try congruence.
    { destruct (no_resp n); simpl in H; congruence. }
    pose proof (process_panic _ _ _ Hp) as Hov.
    destruct (decode_nonempty _ _ _ _ Hd) as (b & -> & Hann).
    { intros ->. discriminate Hp. }
    destruct (ni_reg _ _ _ (ninv_run E ls) _ _ Hreg) as (n' & ph' & Hc' & <- & _).
    rewrite Hc in Hc'. injection Hc' as <- <-.
    exists c, (no_id n), (no_messages n), (no_pool n), b, d.
    split; [apply started_snoc, (ni_start _ _ _ (ninv_run E ls) _ _ _ Hc)|].
    split; [set_solver|]. auto.
  - unfold do_recv in H. repeat case_match; simpl in H; congruence.
  - unfold do_leave in H. repeat case_match; simpl in H; congruence.
  - unfold do_leave in H. repeat case_match; simpl in H; congruence.
  - unfold do_remove in H. repeat case_match; simpl in H; congruence.
Qed.

(** A waiting call that is the only one with its id is registered until it has
    received something. *)
Lemma registered E ls c id :
  (forall c' msgs pool, NCall c' id msgs pool ∈ ls -> c' = c) ->
  forall n, ns_calls (nrun E ls) !! c = Some (n, WWaiting) -> no_id n = id ->
  no_resp n = None -> ns_notifiers (nrun E ls) !! id = Some c.
Proof.
  induction ls as [|l ls IH] using rev_ind.
  { intros _ n H. discriminate (eq_trans (eq_sym (lookup_empty (M := gmap nat) c)) H). }
  intros Hu. assert (Hu' : forall c' msgs pool, NCall c' id msgs pool ∈ ls -> c' = c).
  { intros c' msgs pool H. apply (Hu c' msgs pool). set_solver. }
  specialize (IH Hu'). rewrite nrun_snoc. intros n H Hid Hresp.
  pose proof (ninv_run E ls) as I.
  revert H. unfold nstep.
  destruct (ns_crashed (nrun E ls) || ns_stuck (nrun E ls))%bool; [intros H; apply (IH n); auto|].
  destruct l; simpl.
  - unfold do_call. destruct (ns_calls (nrun E ls) !! c0) as [[n0 ph0]|] eqn:Hc0;
      [intros H; apply (IH n); auto|].
    destruct (NewNotifier id0 msgs pool) as [n1|] eqn:Hn; simpl.
    + apply NewNotifier_Some in Hn. subst n1. intros H.
      apply lookup_insert_Some in H. destruct H as [[<- [= <-]]|[Hne H]].
      * simpl in Hid. subst id0. apply lookup_insert.
      * simpl. rewrite lookup_insert_ne; [apply (IH n); auto|].
        intros ->. apply Hne. apply (Hu c0 msgs pool). set_solver.
    + intros H. apply lookup_insert_Some in H. destruct H as [[<- [= <-]]|[Hne H]].
      apply (IH n); auto.
  - unfold do_notify. destruct (decode_notification E payload) as [[id' d]|] eqn:Hd;
      [|intros H; apply (IH n); auto].
    unfold do_locked. destruct (ns_notifiers (nrun E ls) !! id') as [c'|] eqn:Hreg;
      [|intros H; apply (IH n); auto].
    destruct (ns_calls (nrun E ls) !! c') as [[n' ph]|] eqn:Hc'; [|intros H; apply (IH n); auto].
    destruct (ProcessSignature E n' d) eqn:Hp; try (intros H; apply (IH n); auto; fail).
    destruct (no_resp n') eqn:Hr'; [intros H; apply (IH n); auto|]. simpl.
    intros H. apply lookup_insert_Some in H. destruct H as [[-> [= <-]]|[Hne H]].
    + simpl in Hresp. discriminate.
    + rewrite lookup_delete_ne; [apply (IH n); auto|].
      intros ->. pose proof (IH n H Hid Hresp) as H2. congruence.
  - unfold do_recv. destruct (ns_calls (nrun E ls) !! c0) as [[[id' msgs pool [d|]] [| |]]|] eqn:Hc0;
      try (intros H; apply (IH n); auto; fail).
    simpl. intros H. apply lookup_insert_Some in H. destruct H as [[-> [= <-]]|[Hne H]].
    apply (IH n); auto.
  - unfold do_leave. destruct (ns_calls (nrun E ls) !! c0) as [[n0 [| |]]|] eqn:Hc0;
      try (intros H; apply (IH n); auto; fail).
    simpl. intros H. apply lookup_insert_Some in H. destruct H as [[-> [= <-]]|[Hne H]].
    apply (IH n); auto.
  - unfold do_leave. destruct (ns_calls (nrun E ls) !! c0) as [[n0 [| |]]|] eqn:Hc0;
      try (intros H; apply (IH n); auto; fail).
    simpl. intros H. apply lookup_insert_Some in H. destruct H as [[-> [= <-]]|[Hne H]].
    apply (IH n); auto.
  - unfold do_remove. destruct (ns_calls (nrun E ls) !! c0) as [[n0 [|r|]]|] eqn:Hc0;
      try (intros H; apply (IH n); auto; fail).
    simpl. intros H. apply lookup_insert_Some in H. destruct H as [[-> [= <-]]|[Hne H]].
    rewrite lookup_delete_ne; [apply (IH n); auto|].
    intros Hno. apply Hne.
    destruct (ni_start _ _ _ I _ _ _ Hc0) as (l1 & l2 & Hls & _).
    apply (Hu' c0 (no_messages n0) (no_pool n0)). rewrite Hls, Hno. set_solver.
Qed.

Lemma deliver_intro E n d :
  d <> [] -> (forall i s, d !! i = Some s -> sg_signature s <> None) ->
  valid_for E (no_pool n) (no_messages n) d -> ProcessSignature E n d = PsDeliver.
Proof.
  intros Hne Hsig Hv. unfold ProcessSignature. destruct d as [|s d]; [congruence|].
  apply verify_loop_deliver. intros k s' Hk. split; [eauto|]. apply Hv. exact Hk.
Qed.

Lemma delivered E ls c id msgs pool b d :
  started ls c id msgs pool -> waiting (nrun E ls) c ->
  ns_crashed (nrun E ls) = false ->
  (* no other call was made with the id *)
  (forall c' msgs' pool', NCall c' id msgs' pool' ∈ ls -> c' = c) ->
  (* nothing was delivered to it before *)
  c ∉ (ns_log (nrun E ls)).*1 ->
  announces E b id d -> d <> [] -> (forall i s, d !! i = Some s -> sg_signature s <> None) ->
  valid_for E pool msgs d ->
  returned (nrun E (ls ++ [NNotify (Some b); NRecv c; NRemove c])) c (WData d).
Proof.
  intros Hst (n & Hc) Hcr Hu Hlog Ha Hne Hsig Hv.
  pose proof (ninv_run E ls) as I.
  destruct (started_unique _ _ _ _ _ _ _ _ Hst (ni_start _ _ _ I _ _ _ Hc)) as (-> & -> & ->).
  assert (Hresp : no_resp n = None).
  { destruct (no_resp n) as [d'|] eqn:Hr; [|reflexivity]. exfalso. apply Hlog.
    apply elem_of_list_fmap. exists (c, d'). split; [reflexivity|].
    eapply (ni_resp _ _ _ I); eauto. }
  pose proof (registered E ls c (no_id n) Hu n Hc eq_refl Hresp) as Hreg.
  pose proof (ni_stuck _ _ _ I) as Hstk.
  exists (Notifier (no_id n) (no_messages n) (no_pool n) None).
  unfold nrun. rewrite fold_left_app. fold (nrun E ls).
  set (s := nrun E ls) in *. cbn [fold_left].
  assert (H1 : nstep E s (NNotify (Some b)) =
    NState (delete (no_id n) (ns_notifiers s))
      (<[c := (Notifier (no_id n) (no_messages n) (no_pool n) (Some d), WWaiting)]> (ns_calls s))
      false false (ns_log s ++ [(c, d)])).
  { unfold nstep. rewrite Hcr, Hstk. cbn [orb]. unfold do_notify.
    rewrite (announces_decode _ _ _ _ Ha). unfold do_locked. rewrite Hreg, Hc.
    rewrite deliver_intro by auto. rewrite Hresp, Hcr, Hstk. reflexivity. }
  rewrite H1. unfold nstep at 2. cbn [ns_crashed ns_stuck orb]. unfold do_recv.
  cbn [ns_calls]. rewrite lookup_insert. unfold set_phase.
  cbn [ns_notifiers ns_calls ns_crashed ns_stuck ns_log].
  unfold nstep. cbn [ns_crashed ns_stuck orb]. unfold do_remove.
  cbn [ns_calls]. rewrite lookup_insert. cbn [ns_calls]. apply lookup_insert.
Qed.
