(** C163: key generations take turns. *)
From Coq Require Import ZArith NArith Ascii String List Lia.
From stdpp Require Import base list strings gmap.
From Verif Require Import Base L_Base M_Stream M_Comm S_Comm L_Comm L_Comm2.

Lemma busy_iff rs : keygen_busy rs = true <-> exists r q, rs !! r = Some q /\ rq_kind q = KGen /\ rq_stage q <> Done.
Proof.
  unfold keygen_busy. rewrite existsb_exists. split.
  - intros ([r q] & Hin & Hq). exists r, q. apply elem_of_list_In, elem_of_map_to_list in Hin.
    split; [exact Hin|]. destruct (rq_kind q); [|discriminate]. split; [reflexivity|]. intros X. rewrite X in Hq. discriminate.
  - intros (r & q & Hr & Hk & Hs). exists (r, q). split; [apply elem_of_list_In, elem_of_map_to_list, Hr|].
    rewrite Hk. destruct (rq_stage q); [reflexivity..|contradiction].
Qed.

(** The requests for a key that are under way *)
Definition at_most_one (s : comm) : Prop :=
  forall r1 r2 q1 q2, cm_reqs s !! r1 = Some q1 -> cm_reqs s !! r2 = Some q2 ->
    rq_kind q1 = KGen -> rq_kind q2 = KGen -> rq_stage q1 <> Done -> rq_stage q2 <> Done -> r1 = r2.

Lemma one_update s r q q' :
  at_most_one s -> cm_reqs s !! r = Some q -> rq_kind q' = rq_kind q -> (rq_stage q = Done -> rq_stage q' = Done) ->
  forall subs hs, at_most_one (Comm subs (<[r := q']> (cm_reqs s)) hs).
Proof.
  intros H Hr Hk Hs subs hs r1 r2 q1 q2. cbn. intros L1 L2 K1 K2 S1 S2.
  assert (G : forall r' q0, <[r := q']> (cm_reqs s) !! r' = Some q0 -> rq_kind q0 = KGen -> rq_stage q0 <> Done ->
            exists q1, cm_reqs s !! r' = Some q1 /\ rq_kind q1 = KGen /\ rq_stage q1 <> Done).
  { intros r' q0 L K S. destruct (decide (r' = r)) as [->|N].
    - rewrite lookup_insert in L. injection L as <-. exists q. split; [exact Hr|]. split; [congruence|]. auto.
    - rewrite lookup_insert_ne in L by congruence. eauto. }
  destruct (G _ _ L1 K1 S1) as (x1 & A1 & A2 & A3). destruct (G _ _ L2 K2 S2) as (x2 & B1 & B2 & B3).
  exact (H _ _ _ _ A1 B1 A2 B2 A3 B3).
Qed.

Lemma one_step decode l s : at_most_one s -> at_most_one (cm_step decode l s).
Proof.
  intros H. destruct l as [r k m cap|r|r|h p fr|h|r h]; cbn.
  - destruct (cm_reqs s !! r) as [q|] eqn:L; [exact H|].
    destruct (keygen_busy (cm_reqs s)) eqn:B.
    + destruct k; [exact H|]. intros r1 r2 q1 q2 L1 L2 K1 K2 S1 S2. cbn in L1, L2.
      destruct (decide (r1 = r)) as [->|N1]; [rewrite lookup_insert in L1; injection L1 as <-; discriminate K1|].
      destruct (decide (r2 = r)) as [->|N2]; [rewrite lookup_insert in L2; injection L2 as <-; discriminate K2|].
      rewrite lookup_insert_ne in L1, L2 by congruence. exact (H _ _ _ _ L1 L2 K1 K2 S1 S2).
    + assert (F : forall r' q', cm_reqs s !! r' = Some q' -> rq_kind q' = KGen -> rq_stage q' <> Done -> False).
      { intros r' q' X1 X2 X3. assert (Y : keygen_busy (cm_reqs s) = true) by (apply busy_iff; eauto). congruence. }
      destruct k; intros r1 r2 q1 q2 L1 L2 K1 K2 S1 S2; cbn in L1, L2;
        (destruct (decide (r1 = r)) as [->|N1]; [|rewrite lookup_insert_ne in L1 by congruence; destruct (F _ _ L1 K1 S1)]);
        (destruct (decide (r2 = r)) as [->|N2]; [|rewrite lookup_insert_ne in L2 by congruence; destruct (F _ _ L2 K2 S2)]);
        reflexivity.
  - destruct (cm_reqs s !! r) as [q|] eqn:L; [|exact H].
    destruct (rq_stage q) as [[|t l]| |[|t l]|] eqn:S; try exact H;
      (eapply one_update; [exact H|exact L|reflexivity|congruence]).
  - destruct (cm_reqs s !! r) as [q|] eqn:L; [|exact H].
    destruct (rq_stage q) eqn:S; try exact H. eapply one_update; [exact H|exact L|reflexivity|congruence].
  - destruct (cm_handlers s !! h); [exact H|]. match goal with |- context [rv_to ?x] => destruct (rv_to x) as [[c d]|] end; exact H.
  - destruct (cm_handlers s !! h) as [[p c d]|]; [|exact H]. destruct (cm_reqs s !! c) as [q|] eqn:L; [|exact H].
    match goal with |- context [if ?b then _ else _] => destruct b end; [|exact H]. eapply one_update; [exact H|exact L|reflexivity|auto].
  - destruct (cm_reqs s !! r) as [q|] eqn:L; [|exact H]. destruct (rq_stage q) eqn:S; try exact H.
    destruct (rq_queue q) as [|m rest]; [|eapply one_update; [exact H|exact L|reflexivity|auto]].
    destruct (cm_handlers s !! h) as [[p c d]|]; [|exact H]. destruct (Nat.eqb c r); [|exact H].
    eapply one_update; [exact H|exact L|reflexivity|auto].
Qed.

(** In every run, however requests and incoming streams interleave, at most one request for a
    new key is under way: two different ones are never both started and not over. *)
Theorem C163_one_at_a_time :
  forall decode ls r1 r2 q1 q2,
    cm_reqs (cm_run decode ls) !! r1 = Some q1 -> cm_reqs (cm_run decode ls) !! r2 = Some q2 ->
    rq_kind q1 = KGen -> rq_kind q2 = KGen -> rq_stage q1 <> Done -> rq_stage q2 <> Done -> r1 = r2.
Proof.
  intros decode ls. change (at_most_one (cm_run decode ls)). induction ls as [|l ls IH] using rev_ind.
  - intros r1 r2 q1 q2 X. cbn in X. rewrite lookup_empty in X. discriminate.
  - rewrite cm_run_snoc. apply one_step, IH.
Qed.
Print Assumptions C163_one_at_a_time.

(** Nothing else keeps a request waiting: a request for a key begins as soon as no other one is
    under way, a request for a signature begins at once. *)
Theorem C163_nothing_else_waits :
  forall decode ls r k msgID cap,
    cm_reqs (cm_run decode ls) !! r = None ->
    (k = KSign \/ forall r' q', cm_reqs (cm_run decode ls) !! r' = Some q' -> rq_kind q' = KGen -> rq_stage q' = Done) ->
    exists q, cm_reqs (cm_run decode (ls ++ [CStart r k msgID cap])) !! r = Some q /\
      rq_kind q = k /\ rq_id q = msgID /\ rq_stage q <> Done.
Proof.
  intros decode ls r k msgID cap L F. rewrite cm_run_snoc. cbn. rewrite L.
  exists (Request k msgID cap (Subscribing (topics k)) [] []).
  split; [|split; [reflexivity|split; [reflexivity|discriminate]]].
  destruct F as [->|F]; [cbn; apply lookup_insert|].
  destruct (keygen_busy _) eqn:B; [|destruct k; cbn; apply lookup_insert].
  apply busy_iff in B as (r' & q' & A1 & A2 & A3). destruct (A3 (F _ _ A1 A2)).
Qed.
Print Assumptions C163_nothing_else_waits.

(** Two requests for a key and one for a signature: the second request for a key begins only
    when the first is over. *)
Definition turn_done : list clabel := [CNext 0; CNext 0; CNext 0; CNext 0; CEnd 0; CNext 0; CNext 0; CNext 0; CNext 0].
Example C163_example :
  let d := fun _ : bytes => None in
  let under_way ls := map (fun r => rq_stage <$> cm_reqs (cm_run d ls) !! r) [0; 1; 2] in
  under_way [CStart 0 KGen "a" 1; CStart 1 KGen "b" 1; CStart 2 KSign "c" 1] =
    [Some (Subscribing (topics KGen)); None; Some (Subscribing (topics KSign))] /\
  under_way (CStart 0 KGen "a" 1 :: turn_done ++ [CStart 1 KGen "b" 1]) =
    [Some Done; Some (Subscribing (topics KGen)); None].
Proof. vm_compute. auto. Qed.
