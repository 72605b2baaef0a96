(** C75: exactly when the handler of an incoming message can still end. *)
From Coq Require Import ZArith NArith Ascii String List Lia.
From stdpp Require Import base list strings gmap.
From Verif Require Import Base L_Base M_Stream S_Stream L_Stream P_Stream M_Comm S_Comm L_Comm L_Comm2 P_Comm.

(** The request has not started to cancel its subscriptions. *)
Definition not_over (st : stage) : Prop := (exists l, st = Subscribing l) \/ st = Working.

Section Ends.
  Context (decode : bytes -> option (topic * string)).
  Notation run := (cm_run decode).

  Lemma take_all n : forall ls h p c d q,
    cm_handlers (run ls) !! h = Some (Handler p c d) -> cm_reqs (run ls) !! c = Some q ->
    rq_stage q = Working -> length (rq_queue q) = n ->
    cm_handlers (run (ls ++ repeat (CTake c h) (S n))) !! h = None.
  Proof.
    induction n as [|n IH]; intros ls h p c d q Hh Hq Hs Hl.
    - change (repeat (CTake c h) 1) with [CTake c h]. rewrite cm_run_snoc. cbn [cm_step]. rewrite Hq, Hs.
      destruct (rq_queue q); [|discriminate Hl]. rewrite Hh, Nat.eqb_refl. cbn. apply lookup_delete.
    - change (repeat (CTake c h) (S (S n))) with ([CTake c h] ++ repeat (CTake c h) (S n)). rewrite app_assoc.
      destruct (rq_queue q) as [|x rest] eqn:Q; [discriminate Hl|].
      apply (IH _ h p c d (with_got rest (rq_got q ++ [x]) q)).
      + rewrite cm_run_snoc. cbn [cm_step]. rewrite Hq, Hs, Q. exact Hh.
      + rewrite cm_run_snoc. cbn [cm_step]. rewrite Hq, Hs, Q. cbn. apply lookup_insert.
      + exact Hs.
      + cbn in Hl |- *. lia.
  Qed.
  Lemma subscribe_all n : forall ls h x q l,
    cm_handlers (run ls) !! h = Some x -> cm_reqs (run ls) !! hd_chan x = Some q ->
    rq_stage q = Subscribing l -> length l = n ->
    exists ls' q', cm_handlers (run (ls ++ ls')) !! h = Some x /\
      cm_reqs (run (ls ++ ls')) !! hd_chan x = Some q' /\ rq_stage q' = Working.
  Proof.
    induction n as [|n IH]; intros ls h x q l Hh Hq Hs Hl.
    - pose proof (ci_wf _ _ (cinv_run decode ls) _ _ Hq) as W. rewrite Hs in W. destruct W as [W _].
      destruct l; [congruence|discriminate Hl].
    - destruct l as [|t l]; [discriminate Hl|].
      set (st := match l with [] => Working | _ => Subscribing l end).
      assert (A : cm_handlers (run (ls ++ [CNext (hd_chan x)])) !! h = Some x /\
                  cm_reqs (run (ls ++ [CNext (hd_chan x)])) !! hd_chan x = Some (with_stage st q)).
      { rewrite cm_run_snoc. cbn [cm_step]. rewrite Hq, Hs. cbn. split; [exact Hh|apply lookup_insert]. }
      destruct A as [A1 A2]. destruct l as [|t' l].
      + exists [CNext (hd_chan x)], (with_stage st q). auto.
      + destruct (IH _ h x _ (t' :: l) A1 A2 eq_refl) as (ls' & q' & B1 & B2 & B3); [cbn in *; lia|].
        exists (CNext (hd_chan x) :: ls'), q'.
        change (CNext (hd_chan x) :: ls') with ([CNext (hd_chan x)] ++ ls'). rewrite app_assoc. auto.
  Qed.

  (** The request is over or about to be, and its channel is full. *)
  Definition shut (h : nat) (x : handler) (s : comm) : Prop :=
    cm_handlers s !! h = Some x /\ exists q, cm_reqs s !! hd_chan x = Some q /\
      ~ not_over (rq_stage q) /\ rq_cap q <= length (rq_queue q).
  Lemma not_working st : ~ not_over st -> st = Done \/ exists l, st = Cancelling l.
  Proof. unfold not_over. destruct st; intros H; eauto; exfalso; apply H; eauto. Qed.

  Lemma shut_step h x l s : shut h x s -> shut h x (cm_step decode l s).
  Proof.
    intros (Hh & q & Hq & Hd & Hf). pose proof (not_working _ Hd) as Hd'.
    assert (Hsame : shut h x s) by (split; eauto).
    assert (Hoth : forall s', cm_handlers s' !! h = Some x -> cm_reqs s' !! hd_chan x = Some q -> shut h x s').
    { intros s' X Y. split; eauto. }
    destruct l as [r k m' cap|r|r|h' p frags|h'|r h']; cbn [cm_step].
    - destruct (cm_reqs s !! r) as [q0|] eqn:Er; [exact Hsame|].
      assert (hd_chan x <> r) by congruence.
      destruct k; [destruct (keygen_busy (cm_reqs s)); [exact Hsame|]|]; apply Hoth; cbn [put_req cm_reqs cm_handlers];
        rewrite ?lookup_insert_ne by congruence; auto.
    - destruct (cm_reqs s !! r) as [q0|] eqn:Er; [|exact Hsame].
      destruct (decide (r = hd_chan x)) as [->|Hne].
      { rewrite Hq in Er. injection Er as <-. destruct Hd' as [E|[[|t l] E]]; rewrite E; try exact Hsame.
        split; [exact Hh|]. cbn. rewrite lookup_insert. eexists. split; [reflexivity|]. cbn. split; [|exact Hf].
        unfold not_over. destruct l; intros [[l' X]|X]; discriminate X. }
      destruct (rq_stage q0) as [[|t l]| |[|t l]|]; try exact Hsame; apply Hoth; cbn [cm_reqs cm_handlers];
        rewrite ?lookup_insert_ne by congruence; auto.
    - destruct (cm_reqs s !! r) as [q0|] eqn:Er; [|exact Hsame].
      destruct (decide (r = hd_chan x)) as [->|Hne].
      { rewrite Hq in Er. injection Er as <-. destruct Hd' as [E|[l E]]; rewrite E; exact Hsame. }
      destruct (rq_stage q0); try exact Hsame; apply Hoth; cbn [put_req cm_reqs cm_handlers];
        rewrite ?lookup_insert_ne by congruence; auto.
    - destruct (cm_handlers s !! h') eqn:Eh; [exact Hsame|]. destruct (rv_to _) as [[c d]|]; [|exact Hsame].
      apply Hoth; cbn [cm_reqs cm_handlers]; rewrite ?lookup_insert_ne by congruence; auto.
    - destruct (cm_handlers s !! h') as [[p c d]|] eqn:Eh; [|exact Hsame].
      destruct (cm_reqs s !! c) as [q0|] eqn:Er; [|exact Hsame].
      destruct (Nat.ltb_spec (length (rq_queue q0)) (rq_cap q0)) as [Hlt|Hge]; [|exact Hsame].
      assert (c <> hd_chan x).
      { intros ->. rewrite Hq in Er. injection Er as <-. lia. }
      assert (h' <> h).
      { intros ->. rewrite Hh in Eh. injection Eh as ->. cbn in *. congruence. }
      apply Hoth; cbn [cm_reqs cm_handlers]; rewrite ?lookup_insert_ne, ?lookup_delete_ne by congruence; auto.
    - destruct (cm_reqs s !! r) as [q0|] eqn:Er; [|exact Hsame].
      destruct (decide (r = hd_chan x)) as [->|Hne].
      { rewrite Hq in Er. injection Er as <-. destruct Hd' as [E|[l E]]; rewrite E; exact Hsame. }
      destruct (rq_stage q0); try exact Hsame. destruct (rq_queue q0).
      + destruct (cm_handlers s !! h') as [[p c d]|] eqn:Eh; [|exact Hsame].
        destruct (Nat.eqb_spec c r) as [->|]; [|exact Hsame].
        assert (h' <> h).
        { intros ->. rewrite Hh in Eh. injection Eh as ->. cbn in *. congruence. }
        apply Hoth; cbn [cm_reqs cm_handlers]; rewrite ?lookup_insert_ne, ?lookup_delete_ne by congruence; auto.
      + apply Hoth; cbn [put_req cm_reqs cm_handlers]; rewrite ?lookup_insert_ne by congruence; auto.
  Qed.
End Ends.

(** At any moment a handler that is still there can end, by some continuation, exactly
    if its request is not over yet or the channel of the request has room. *)
Theorem C75_when_the_handler_can_end :
  forall decode ls h x,
    cm_handlers (cm_run decode ls) !! h = Some x ->
    exists q, cm_reqs (cm_run decode ls) !! hd_chan x = Some q /\
      ((exists ls', cm_handlers (cm_run decode (ls ++ ls')) !! h = None) <->
       not_over (rq_stage q) \/ length (rq_queue q) < rq_cap q).
Proof.
  intros decode ls h [p c d] Hh.
  destruct (ci_hd _ _ (cinv_run decode ls) _ _ Hh) as (q & Hq & _). cbn in Hq |- *. exists q. split; [exact Hq|]. split.
  - intros [ls' He].
    destruct (decide (length (rq_queue q) < rq_cap q)) as [L|L]; [auto|]. left.
    destruct (rq_stage q) as [l| |l|] eqn:S; [left; eauto|right; reflexivity| |]; exfalso.
    all: assert (B : shut h (Handler p c d) (cm_run decode (ls ++ ls')));
      [|destruct B as [B _]; congruence].
    all: clear He; induction ls' as [|l' ls' IH] using rev_ind; [|rewrite app_assoc, cm_run_snoc; apply shut_step, IH].
    all: rewrite app_nil_r; split; [exact Hh|]; exists q; split; [exact Hq|]; rewrite S; split; [|lia].
    all: intros [[l' X]|X]; discriminate X.
  - intros [[[l S]|S]|L].
    + destruct (subscribe_all decode (length l) ls h _ q l Hh Hq S eq_refl) as (ls' & q' & B1 & B2 & B3).
      exists (ls' ++ repeat (CTake c h) (Datatypes.S (length (rq_queue q')))). rewrite app_assoc.
      apply (take_all decode _ _ h p c d q'); auto.
    + exists (repeat (CTake c h) (Datatypes.S (length (rq_queue q)))). apply (take_all decode _ _ h p c d q); auto.
    + exists [CSend h]. rewrite cm_run_snoc. cbn [cm_step]. rewrite Hh, Hq.
      destruct (Nat.ltb_spec (length (rq_queue q)) (rq_cap q)); [|lia]. cbn. apply lookup_delete.
Qed.
Print Assumptions C75_when_the_handler_can_end.

(** Both cases occur: with the request at work the second handler can end; once the
    request is over and its channel full it cannot. *)
Example C75_example :
  let ls := [CStart 0 KGen "a" 1] ++ repeat (CNext 0) 4 ++
     [CStream 0 "p" [ex_frame 4 "a"]; CStream 1 "p" [ex_frame 4 "a"]; CSend 0] in
  cm_handlers (cm_run ex_decode ls) !! 1 = Some (Handler "p" 0 (ex_msg 4 "a")) /\
  cm_handlers (cm_run ex_decode (ls ++ [CTake 0 1; CSend 1])) !! 1 = None /\
  cm_handlers (cm_run ex_decode (ls ++ [CEnd 0; CTake 0 1; CSend 1])) !! 1 = Some (Handler "p" 0 (ex_msg 4 "a")).
Proof. vm_compute. auto. Qed.
