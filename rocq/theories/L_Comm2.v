(** Lemmas: requests and their subscriptions. *)
From Coq Require Import ZArith NArith Ascii String List Lia.
From stdpp Require Import base list strings gmap.
From Verif Require Import Base L_Base M_Stream M_Comm S_Comm L_Comm.

Section comm.
  Context (decode : bytes -> option (topic * string)).
  Notation run := (cm_run decode).

  Lemma cm_run_snoc ls l : run (ls ++ [l]) = cm_step decode l (run ls).
  Proof. unfold cm_run. rewrite fold_left_app. reflexivity. Qed.
  Lemma cm_run_app ls1 ls2 : run (ls1 ++ ls2) = fold_left (fun s l => cm_step decode l s) ls2 (run ls1).
  Proof. unfold cm_run. apply fold_left_app. Qed.

  (** The request will still cancel [t]. *)
  Definition owes (t : topic) (st : stage) : Prop :=
    match st with Subscribing _ | Working => True | Cancelling l => t ∈ l | Done => False end.
  (** The request has subscribed [t] and not cancelled it. *)
  Definition holds (t : topic) (st : stage) : Prop :=
    match st with Subscribing l => t ∉ l | Working => True | Cancelling l => t ∈ l | Done => False end.
  Definition wf_stage (k : kind) (st : stage) : Prop :=
    match st with
    | Subscribing l => l <> [] /\ l `suffix_of` topics k
    | Cancelling l => l <> [] /\ l `suffix_of` topics k
    | _ => True
    end.

  Lemma topics_nodup k : NoDup (topics k).
  Proof. apply (bool_decide_unpack _). destruct k; vm_compute; exact I. Qed.
  Lemma suffix_nodup {A} (l l' : list A) : NoDup l' -> l `suffix_of` l' -> NoDup l.
  Proof. intros H [k ->]. apply NoDup_app in H. tauto. Qed.
  Lemma suffix_in {A} (l l' : list A) x : x ∈ l -> l `suffix_of` l' -> x ∈ l'.
  Proof. intros H [k ->]. set_solver. Qed.
  Lemma suffix_tail {A} (x : A) (l l' : list A) : (x :: l) `suffix_of` l' -> l `suffix_of` l'.
  Proof. apply suffix_cons_l. Qed.

  (** Addressed to request [q]. *)
  Definition mine (q : request) (data : bytes) : Prop :=
    exists t, decode data = Some (t, rq_id q) /\ t ∈ topics (rq_kind q).

  Record cinv (s : comm) : Prop := {
    ci_tidy : tidy (cm_subs s);
    ci_sub : forall t m c, getSubscriber t m (cm_subs s) = Some c ->
      exists q, cm_reqs s !! c = Some q /\ rq_id q = m /\ t ∈ topics (rq_kind q) /\ owes t (rq_stage q);
    ci_wf : forall r q, cm_reqs s !! r = Some q -> wf_stage (rq_kind q) (rq_stage q);
    ci_hd : forall h x, cm_handlers s !! h = Some x ->
      exists q, cm_reqs s !! hd_chan x = Some q /\ mine q (hd_data x);
    ci_q : forall r q p d, cm_reqs s !! r = Some q -> (p, d) ∈ rq_queue q ++ rq_got q -> mine q d;
  }.

  Lemma cinv_init : cinv comm_init.
  Proof.
    split; cbn.
    - intros t ms H. pose proof (lookup_empty (M := gmap nat) (A := gmap string chan) t) as He. congruence.
    - intros t m c H. unfold getSubscriber in H.
      pose proof (lookup_empty (M := gmap nat) (A := gmap string chan) t) as He. rewrite He in H. discriminate.
    - intros r q H. pose proof (lookup_empty (M := gmap nat) (A := request) r) as He. congruence.
    - intros r q H. pose proof (lookup_empty (M := gmap nat) (A := handler) r) as He. congruence.
    - intros r q p d H. pose proof (lookup_empty (M := gmap nat) (A := request) r) as He. congruence.
  Qed.

  (** Updates of one request that keep its kind and id. *)
  Lemma keep_hd s r q q' :
    cinv s -> cm_reqs s !! r = Some q -> rq_kind q' = rq_kind q -> rq_id q' = rq_id q ->
    forall h x, cm_handlers s !! h = Some x ->
      exists q0, <[r := q']> (cm_reqs s) !! hd_chan x = Some q0 /\ mine q0 (hd_data x).
  Proof.
    intros I Hr Hk Hi h x Hx. destruct (ci_hd _ I _ _ Hx) as (q0 & Hq0 & Hm).
    destruct (decide (hd_chan x = r)) as [<-|Hne].
    - rewrite lookup_insert. exists q'. split; [reflexivity|]. rewrite Hr in Hq0. injection Hq0 as <-.
      unfold mine in *. rewrite Hk, Hi. exact Hm.
    - rewrite lookup_insert_ne by congruence. eauto.
  Qed.

  Lemma cinv_step l s : cinv s -> cinv (cm_step decode l s).
  Proof.
    intros I. pose proof I as [It Is Iw Ih Iq]. destruct l as [r k m cap|r|r|h p frags|h|r h]; cbn [cm_step].
    - destruct (cm_reqs s !! r) as [q|] eqn:Er; [exact I|].
      assert (G : cinv (put_req r (Request k m cap (Subscribing (topics k)) [] []) s)).
      { split; cbn [put_req cm_subs cm_reqs cm_handlers].
        - exact It.
        - intros t m' c H. destruct (Is _ _ _ H) as (q & Hq & Hr). exists q.
          rewrite lookup_insert_ne by congruence. auto.
        - intros r' q. destruct (decide (r' = r)) as [->|Hne].
          + rewrite lookup_insert. intros [= <-]. cbn. split; [destruct k; discriminate|reflexivity].
          + rewrite lookup_insert_ne by congruence. apply Iw.
        - intros h x H. destruct (Ih _ _ H) as (q & Hq & Hr). exists q.
          rewrite lookup_insert_ne by congruence. auto.
        - intros r' q p d. destruct (decide (r' = r)) as [->|Hne].
          + rewrite lookup_insert. intros [= <-]. cbn. intros H%elem_of_nil. easy.
          + rewrite lookup_insert_ne by congruence. apply Iq. }
      destruct k; [|exact G]. destruct (keygen_busy (cm_reqs s)); [exact I|exact G].
    - destruct (cm_reqs s !! r) as [q|] eqn:Er; [|exact I].
      pose proof (Iw _ _ Er) as Hw. destruct (rq_stage q) as [[|t l]| |[|t l]|] eqn:Est; try exact I.
      + destruct Hw as [_ Hw].
        set (st' := match l with [] => Working | _ => Subscribing l end).
        split; cbn [cm_subs cm_reqs cm_handlers].
        * apply tidy_set, It.
        * intros t' m' c. rewrite get_set. case_decide as Hd.
          { injection Hd as -> ->. intros [= <-]. exists (with_stage st' q). rewrite lookup_insert.
            split; [reflexivity|]. split; [reflexivity|]. split; [|subst st'; destruct l; exact Logic.I].
            cbn. apply (suffix_in (t :: l)); [set_solver|exact Hw]. }
          intros H. destruct (Is _ _ _ H) as (q0 & Hq & Hi & Ht & Ho).
          destruct (decide (c = r)) as [->|Hne].
          { rewrite lookup_insert. rewrite Er in Hq. injection Hq as <-. exists (with_stage st' q).
            split; [reflexivity|]. split; [exact Hi|]. split; [exact Ht|]. subst st'; destruct l; exact Logic.I. }
          rewrite lookup_insert_ne by congruence. eauto.
        * intros r' q'. destruct (decide (r' = r)) as [->|Hne].
          { rewrite lookup_insert. intros [= <-]. cbn. subst st'.
            destruct l; cbn; [exact Logic.I|]. split; [discriminate|]. eapply suffix_tail; exact Hw. }
          rewrite lookup_insert_ne by congruence. apply Iw.
        * eapply keep_hd; eauto.
        * intros r' q' p d. destruct (decide (r' = r)) as [->|Hne].
          { rewrite lookup_insert. intros [= <-]. cbn. intros H. apply (Iq _ _ _ _ Er H). }
          rewrite lookup_insert_ne by congruence. apply Iq.
      + destruct Hw as [_ Hw].
        set (st' := match l with [] => Done | _ => Cancelling l end).
        split; cbn [cm_subs cm_reqs cm_handlers].
        * apply tidy_cancel, It.
        * intros t' m' c. rewrite get_cancel. case_decide as Hd; [discriminate|].
          intros H. destruct (Is _ _ _ H) as (q0 & Hq & Hi & Ht & Ho).
          destruct (decide (c = r)) as [->|Hne].
          { rewrite lookup_insert. rewrite Er in Hq. injection Hq as <-. exists (with_stage st' q).
            split; [reflexivity|]. split; [exact Hi|]. split; [exact Ht|].
            rewrite Est in Ho. cbn in Ho. apply elem_of_cons in Ho as [->|Ho]; [congruence|].
            subst st'. destruct l; cbn; [apply elem_of_nil in Ho; easy|exact Ho]. }
          rewrite lookup_insert_ne by congruence. eauto.
        * intros r' q'. destruct (decide (r' = r)) as [->|Hne].
          { rewrite lookup_insert. intros [= <-]. cbn. subst st'.
            destruct l; cbn; [exact Logic.I|]. split; [discriminate|]. eapply suffix_tail; exact Hw. }
          rewrite lookup_insert_ne by congruence. apply Iw.
        * eapply keep_hd; eauto.
        * intros r' q' p d. destruct (decide (r' = r)) as [->|Hne].
          { rewrite lookup_insert. intros [= <-]. cbn. intros H. apply (Iq _ _ _ _ Er H). }
          rewrite lookup_insert_ne by congruence. apply Iq.
    - destruct (cm_reqs s !! r) as [q|] eqn:Er; [|exact I].
      destruct (rq_stage q) eqn:Est; try exact I.
      split; cbn [put_req cm_subs cm_reqs cm_handlers].
      + exact It.
      + intros t m c H. destruct (Is _ _ _ H) as (q0 & Hq & Hi & Ht & Ho).
        destruct (decide (c = r)) as [->|Hne].
        { rewrite lookup_insert. rewrite Er in Hq. injection Hq as <-. eexists. split; [reflexivity|]. auto. }
        rewrite lookup_insert_ne by congruence. eauto.
      + intros r' q'. destruct (decide (r' = r)) as [->|Hne].
        { rewrite lookup_insert. intros [= <-]. cbn. split; [destruct (rq_kind q); discriminate|reflexivity]. }
        rewrite lookup_insert_ne by congruence. apply Iw.
      + eapply keep_hd; eauto.
      + intros r' q' p d. destruct (decide (r' = r)) as [->|Hne].
        { rewrite lookup_insert. intros [= <-]. cbn. intros H. apply (Iq _ _ _ _ Er H). }
        rewrite lookup_insert_ne by congruence. apply Iq.
    - destruct (cm_handlers s !! h) eqn:Eh; [exact I|].
      destruct (rv_to (readFromStream decode frags (cm_subs s))) as [[c data]|] eqn:Ev; [|exact I].
      split; cbn [cm_subs cm_reqs cm_handlers]; try assumption.
      intros h' x. destruct (decide (h' = h)) as [->|Hne].
      + rewrite lookup_insert. intros [= <-]. cbn. unfold readFromStream in Ev.
        destruct (fst (fst (ReadStreamWithBuffer frags))) as [b|]; [|discriminate].
        destruct (decode b) as [[t m]|] eqn:Ed; [|discriminate]. cbn in Ev.
        destruct (getSubscriber t m (cm_subs s)) as [c'|] eqn:Eg; [|discriminate].
        injection Ev as -> ->. destruct (Is _ _ _ Eg) as (q & Hq & Hi & Ht & _).
        exists q. split; [exact Hq|]. exists t. rewrite Hi. auto.
      + rewrite lookup_insert_ne by congruence. apply Ih.
    - destruct (cm_handlers s !! h) as [[p c data]|] eqn:Eh; [|exact I].
      destruct (cm_reqs s !! c) as [q|] eqn:Er; [|exact I].
      destruct (length (rq_queue q) <? rq_cap q)%nat; [|exact I].
      destruct (Ih _ _ Eh) as (q0 & Hq0 & Hm). cbn in Hq0, Hm. rewrite Er in Hq0. injection Hq0 as <-.
      split; cbn [cm_subs cm_reqs cm_handlers].
      + exact It.
      + intros t m c' H. destruct (Is _ _ _ H) as (q0 & Hq & Hr). destruct (decide (c' = c)) as [->|Hne].
        { rewrite lookup_insert. rewrite Er in Hq. injection Hq as <-. eauto. }
        rewrite lookup_insert_ne by congruence. eauto.
      + intros r' q'. destruct (decide (r' = c)) as [->|Hne].
        { rewrite lookup_insert. intros [= <-]. apply (Iw _ _ Er). }
        rewrite lookup_insert_ne by congruence. apply Iw.
      + intros h' x Hx. apply lookup_delete_Some in Hx as [_ Hx]. eapply keep_hd; eauto.
      + intros r' q' p' d. destruct (decide (r' = c)) as [->|Hne].
        { rewrite lookup_insert. intros [= <-]. cbn. intros H. unfold mine. cbn.
          rewrite !elem_of_app, elem_of_list_singleton in H. destruct H as [[H|[= -> ->]]|H].
          - apply (Iq _ _ p' d Er). set_solver.
          - exact Hm.
          - apply (Iq _ _ p' d Er). set_solver. }
        rewrite lookup_insert_ne by congruence. apply Iq.
    - destruct (cm_reqs s !! r) as [q|] eqn:Er; [|exact I].
      destruct (rq_stage q) eqn:Est; try exact I.
      assert (G : forall hs q', (forall h x, hs !! h = Some x -> cm_handlers s !! h = Some x) ->
                  rq_kind q' = rq_kind q -> rq_id q' = rq_id q -> rq_stage q' = rq_stage q ->
                  (forall p d, (p, d) ∈ rq_queue q' ++ rq_got q' -> mine q d) ->
                  cinv (Comm (cm_subs s) (<[r := q']> (cm_reqs s)) hs)).
      { intros hs q' Hhs Hk Hi Hst Hq'. split; cbn [cm_subs cm_reqs cm_handlers].
        - exact It.
        - intros t m c' H. destruct (Is _ _ _ H) as (q0 & Hq & Hr). destruct (decide (c' = r)) as [->|Hne].
          { rewrite lookup_insert. rewrite Er in Hq. injection Hq as <-. exists q'. rewrite Hk, Hi, Hst. eauto. }
          rewrite lookup_insert_ne by congruence. eauto.
        - intros r' q0. destruct (decide (r' = r)) as [->|Hne].
          { rewrite lookup_insert. intros [= <-]. rewrite Hk, Hst. apply (Iw _ _ Er). }
          rewrite lookup_insert_ne by congruence. apply Iw.
        - intros h' x Hx. apply Hhs in Hx. eapply keep_hd; eauto.
        - intros r' q0 p' d. destruct (decide (r' = r)) as [->|Hne].
          { rewrite lookup_insert. intros [= <-] H. unfold mine. rewrite Hk, Hi. eapply Hq'. exact H. }
          rewrite lookup_insert_ne by congruence. apply Iq. }
      destruct (rq_queue q) as [|m rest] eqn:Eq.
      + destruct (cm_handlers s !! h) as [[p c data]|] eqn:Eh; [|exact I].
        destruct (Nat.eqb_spec c r) as [->|Hne]; [|exact I].
        apply G; try reflexivity.
        * intros h' x Hx. apply lookup_delete_Some in Hx. tauto.
        * cbn. intros p' d H. rewrite elem_of_app, elem_of_list_singleton in H. destruct H as [H|[= -> ->]].
          -- apply (Iq _ _ p' d Er). rewrite Eq. exact H.
          -- destruct (Ih _ _ Eh) as (q0 & Hq0 & Hm). cbn in Hq0, Hm. rewrite Er in Hq0. injection Hq0 as <-. exact Hm.
      + apply G; try reflexivity; [auto|]. cbn. intros p' d H.
        apply (Iq _ _ p' d Er). rewrite Eq. set_solver.
  Qed.

  Lemma cinv_run ls : cinv (run ls).
  Proof.
    induction ls as [|l ls IH] using rev_ind; [exact cinv_init|]. rewrite cm_run_snoc. apply cinv_step, IH.
  Qed.

  (** ** Requests that do not overlap another one of the same id *)
  Definition single (m : string) (s : comm) : Prop :=
    forall r1 r2 q1 q2, cm_reqs s !! r1 = Some q1 -> cm_reqs s !! r2 = Some q2 ->
      rq_id q1 = m -> rq_id q2 = m -> rq_stage q1 <> Done -> rq_stage q2 <> Done -> r1 = r2.
  Definition connected (m : string) (s : comm) : Prop :=
    forall r q t, cm_reqs s !! r = Some q -> rq_id q = m -> t ∈ topics (rq_kind q) ->
      holds t (rq_stage q) -> getSubscriber t m (cm_subs s) = Some r.

  Lemma holds_not_done t st : holds t st -> st <> Done.
  Proof. intros H ->. exact H. Qed.

  Lemma connected_step m l s :
    cinv s -> single m s -> connected m s -> connected m (cm_step decode l s).
  Proof.
    intros I Hs Hc.
    assert (G : forall r q q' hs, cm_reqs s !! r = Some q -> rq_kind q' = rq_kind q -> rq_id q' = rq_id q ->
                (rq_id q = m -> forall t, t ∈ topics (rq_kind q) -> holds t (rq_stage q') -> holds t (rq_stage q)) ->
                connected m (Comm (cm_subs s) (<[r := q']> (cm_reqs s)) hs)).
    { intros r q q' hs Hr Hk Hi Hst r' q0 t. cbn [cm_reqs cm_subs].
      destruct (decide (r' = r)) as [->|Hne].
      - rewrite lookup_insert. intros [= <-]. rewrite Hk, Hi. intros Hid Ht Hh. eapply Hc; eauto.
      - rewrite lookup_insert_ne by congruence. apply Hc. }
    destruct l as [r k m' cap|r|r|h p frags|h|r h]; cbn [cm_step].
    - destruct (cm_reqs s !! r) as [q|] eqn:Er; [exact Hc|].
      assert (C : connected m (put_req r (Request k m' cap (Subscribing (topics k)) [] []) s)).
      { intros r' q0 t. cbn [put_req cm_reqs cm_subs]. destruct (decide (r' = r)) as [->|Hne].
        - rewrite lookup_insert. intros [= <-]. cbn. intros _ H1 H2. contradiction.
        - rewrite lookup_insert_ne by congruence. apply Hc. }
      destruct k; [|exact C]. destruct (keygen_busy (cm_reqs s)); [exact Hc|exact C].
    - destruct (cm_reqs s !! r) as [q|] eqn:Er; [|exact Hc].
      pose proof (ci_wf _ I _ _ Er) as Hw. pose proof (topics_nodup (rq_kind q)) as Hnd.
      destruct (rq_stage q) as [[|t l]| |[|t l]|] eqn:Est; try exact Hc.
      + destruct Hw as [_ Hw].
        intros r' q0 t'. cbn [cm_reqs cm_subs]. rewrite get_set.
        destruct (decide (r' = r)) as [->|Hne].
        * rewrite lookup_insert. intros [= <-]. cbn. intros Hid Ht Hh. case_decide as Hd; [reflexivity|].
          eapply Hc; [exact Er|exact Hid|exact Ht|]. rewrite Est. cbn.
          apply not_elem_of_cons. split; [congruence|].
          destruct l; [apply not_elem_of_nil|exact Hh].
        * rewrite lookup_insert_ne by congruence. intros Hq Hid Ht Hh. case_decide as Hd.
          { injection Hd as -> Hm. exfalso. apply Hne.
            eapply Hs; [exact Hq|exact Er|exact Hid|congruence| |].
            - eapply holds_not_done; exact Hh. - rewrite Est. discriminate. }
          eapply Hc; eauto.
      + destruct Hw as [_ Hw].
        intros r' q0 t'. cbn [cm_reqs cm_subs]. rewrite get_cancel.
        destruct (decide (r' = r)) as [->|Hne].
        * rewrite lookup_insert. intros [= <-]. cbn. intros Hid Ht Hh.
          assert (Hin : t' ∈ l) by (destruct l; [contradiction|exact Hh]).
          apply suffix_nodup in Hw; [|exact Hnd]. apply NoDup_cons in Hw as [Hni _].
          rewrite decide_False by congruence.
          eapply Hc; [exact Er|exact Hid|exact Ht|]. rewrite Est. cbn. set_solver.
        * rewrite lookup_insert_ne by congruence. intros Hq Hid Ht Hh. case_decide as Hd.
          { injection Hd as -> Hm. exfalso. apply Hne.
            eapply Hs; [exact Hq|exact Er|exact Hid|congruence| |].
            - eapply holds_not_done; exact Hh. - rewrite Est. discriminate. }
          eapply Hc; eauto.
    - destruct (cm_reqs s !! r) as [q|] eqn:Er; [|exact Hc].
      destruct (rq_stage q) eqn:Est; try exact Hc.
      eapply G; [exact Er|reflexivity|reflexivity|]. intros _ t Ht _. rewrite Est. exact Logic.I.
    - destruct (cm_handlers s !! h); [exact Hc|].
      destruct (rv_to _) as [[c d]|]; exact Hc.
    - destruct (cm_handlers s !! h) as [[p c d]|]; [|exact Hc].
      destruct (cm_reqs s !! c) as [q|] eqn:Er; [|exact Hc].
      destruct (length (rq_queue q) <? rq_cap q)%nat; [|exact Hc].
      eapply G; [exact Er|reflexivity|reflexivity|]. auto.
    - destruct (cm_reqs s !! r) as [q|] eqn:Er; [|exact Hc].
      destruct (rq_stage q) eqn:Est; try exact Hc.
      destruct (rq_queue q) as [|x rest].
      + destruct (cm_handlers s !! h) as [[p c d]|]; [|exact Hc].
        destruct (Nat.eqb c r); [|exact Hc]. eapply G; [exact Er|reflexivity|reflexivity|auto].
      + eapply G; [exact Er|reflexivity|reflexivity|auto].
  Qed.

  Lemma connected_run m ls :
    (forall ls1 ls2, ls = ls1 ++ ls2 -> single m (run ls1)) -> connected m (run ls).
  Proof.
    induction ls as [|l ls IH] using rev_ind; intros Hs.
    - intros r q t H. pose proof (lookup_empty (M := gmap nat) (A := request) r) as He. cbn in H. congruence.
    - rewrite cm_run_snoc. apply connected_step; [apply cinv_run| |].
      + apply (Hs ls [l]). reflexivity.
      + apply IH. intros ls1 ls2 ->. apply (Hs ls1 (ls2 ++ [l])). rewrite app_assoc. reflexivity.
  Qed.

  (** ** A handler whose request is over and whose channel is full *)
  Definition stuck (h : nat) (x : handler) (q : request) (s : comm) : Prop :=
    cm_handlers s !! h = Some x /\ cm_reqs s !! hd_chan x = Some q /\
    rq_stage q = Done /\ rq_cap q <= length (rq_queue q).

  Lemma stuck_step h x q l s : stuck h x q s -> stuck h x q (cm_step decode l s).
  Proof.
    intros (Hh & Hq & Hd & Hf). unfold stuck.
    destruct l as [r k m' cap|r|r|h' p frags|h'|r h']; cbn [cm_step].
    - destruct (cm_reqs s !! r) as [q0|] eqn:Er; [auto|].
      assert (hd_chan x <> r) by congruence.
      destruct k; [destruct (keygen_busy (cm_reqs s)); [auto|]|]; cbn [put_req cm_reqs cm_handlers];
        rewrite lookup_insert_ne by congruence; auto.
    - destruct (cm_reqs s !! r) as [q0|] eqn:Er; [|auto].
      destruct (decide (r = hd_chan x)) as [->|Hne].
      { rewrite Hq in Er. injection Er as <-. rewrite Hd. auto. }
      destruct (rq_stage q0) as [[|t l]| |[|t l]|]; auto; cbn [cm_reqs cm_handlers];
        rewrite lookup_insert_ne by congruence; auto.
    - destruct (cm_reqs s !! r) as [q0|] eqn:Er; [|auto].
      destruct (decide (r = hd_chan x)) as [->|Hne].
      { rewrite Hq in Er. injection Er as <-. rewrite Hd. auto. }
      destruct (rq_stage q0); auto; cbn [put_req cm_reqs cm_handlers];
        rewrite lookup_insert_ne by congruence; auto.
    - destruct (cm_handlers s !! h') eqn:Eh; [auto|]. destruct (rv_to _) as [[c d]|]; [|auto].
      cbn [cm_reqs cm_handlers]. rewrite lookup_insert_ne by congruence. auto.
    - destruct (cm_handlers s !! h') as [[p c d]|] eqn:Eh; [|auto].
      destruct (cm_reqs s !! c) as [q0|] eqn:Er; [|auto].
      destruct (Nat.ltb_spec (length (rq_queue q0)) (rq_cap q0)) as [Hlt|Hge]; [|auto].
      assert (c <> hd_chan x).
      { intros ->. rewrite Hq in Er. injection Er as <-. lia. }
      assert (h' <> h).
      { intros ->. rewrite Hh in Eh. injection Eh as ->. cbn in *. congruence. }
      cbn [cm_reqs cm_handlers]. rewrite lookup_insert_ne, lookup_delete_ne by congruence. auto.
    - destruct (cm_reqs s !! r) as [q0|] eqn:Er; [|auto].
      destruct (decide (r = hd_chan x)) as [->|Hne].
      { rewrite Hq in Er. injection Er as <-. rewrite Hd. auto. }
      destruct (rq_stage q0); auto. destruct (rq_queue q0).
      + destruct (cm_handlers s !! h') as [[p c d]|] eqn:Eh; [|auto].
        destruct (Nat.eqb_spec c r) as [->|]; [|auto].
        assert (h' <> h).
        { intros ->. rewrite Hh in Eh. injection Eh as ->. cbn in *. congruence. }
        cbn [cm_reqs cm_handlers]. rewrite lookup_insert_ne, lookup_delete_ne by congruence. auto.
      + cbn [put_req cm_reqs cm_handlers]. rewrite lookup_insert_ne by congruence. auto.
  Qed.
  Lemma stuck_run h x q ls ls' : stuck h x q (run ls) -> stuck h x q (run (ls ++ ls')).
  Proof.
    intros H. induction ls' as [|l ls' IH] using rev_ind; [rewrite app_nil_r; exact H|].
    rewrite app_assoc, cm_run_snoc. apply stuck_step, IH.
  Qed.
End comm.
