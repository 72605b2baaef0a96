(** Locks: no deadlock, no unlocked access to the tables with a lock, and the accesses
    that have none (C202, C203, C204). *)
From Coq Require Import List Lia.
From stdpp Require Import base list relations.
From Verif Require Import Base M_Locks S_Locks.

(** ** What every program satisfies *)

Definition rank (l : lock) : nat := match l with LKeygen => 0 | LSubscribers => 1 | _ => 2 end.
Definition lock_of (x : loc) : option lock :=
  match x with
  | XUnconfirmed c => Some (LUnconfirmed c) | XPeers c => Some (LPeers c) | XCulprits c => Some (LCulprits c)
  | XStored c => Some (LStore c) | XRequested c => Some (LRequested c) | XLastMsg c => Some (LLastMsg c)
  | XUnicast c => Some (LLastMsg c) | XAccepted c => Some (LAccept c) | XBook => Some LBook
  | XResponses g => Some (LStatus g) | XLeaderResponse g => Some (LResponse g) | XStreams m => Some (LStreams m)
  | XTopics => Some LSubscribers | XSubscribers t => Some (LTopic t) | XGroups => Some LGroups
  | XNotifiers => Some LNotifiers
  | _ => None
  end.
Definition covers (w : bool) (x : loc) (hs : list (bool * lock)) : Prop :=
  match lock_of x with None => True | Some l => (true, l) ∈ hs \/ (w = false /\ (false, l) ∈ hs) end.
Definition below (n : nat) (hs : list (bool * lock)) : Prop := Forall (fun h => rank (snd h) < n) hs.
Fixpoint fine (hs : list (bool * lock)) (p : list action) : Prop :=
  match p with
  | [] => hs = []
  | Acquire ex l :: r => below (rank l) hs /\ fine ((ex, l) :: hs) r
  | Release ex l :: r => match hs with h :: hs' => h = (ex, l) /\ fine hs' r | [] => False end
  | Access w x :: r => covers w x hs /\ fine hs r
  end.

Lemma below_le n m hs : n <= m -> below n hs -> below m hs.
Proof. intros H Hb. unfold below in *. eapply Forall_impl; [exact Hb|]. intros a Ha; cbn in *; lia. Qed.
Lemma fine_stored c hs n rest : below 1 hs -> fine hs rest -> fine hs (concat (repeat (stored_get c) n) ++ rest).
Proof.
  intros Hb Hr. induction n as [|n IH]; [exact Hr|].
  cbn [repeat concat stored_get under app fine].
  split; [eapply below_le; [|exact Hb]; cbn; lia|]. split; [left; cbn; left|]. split; [reflexivity|exact IH].
Qed.
Ltac bl := match goal with
  | H : below _ ?hs |- below _ ?hs => eapply below_le; [|exact H]; cbn; lia
  | |- below ?n (_ :: ?hs) => apply (Forall_cons_2 (fun h => rank (snd h) < n)); [cbn; lia|change (below n hs); bl]
  end.
Ltac cov := unfold covers; cbn;
  first [exact I | left; set_solver | right; split; [reflexivity|set_solver]].
Ltac go := cbn [fine under app];
  repeat (first [ match goal with |- _ /\ _ => split end
         | reflexivity
         | match goal with |- below _ _ => bl | |- covers _ _ _ => cov end
         | assumption ]; cbn [fine under app]).
Lemma fine_call k hs rest : below 1 hs -> fine hs rest -> fine hs (trace k ++ rest).
Proof.
  intros Hb Hr. destruct k; cbn [trace];
    repeat match goal with b : bool |- _ => destruct b | i : option nat |- _ => destruct i end;
    cbn [trace set_blame add_blame stored_get last_msg unicast_blame read_peers missing_blame try_get find_group under app];
    try (go; fail).
  cbn [fine]. split; [bl|]. split; [cov|]. split; [cov|]. split; [reflexivity|].
  rewrite <- app_assoc. apply fine_stored; [exact Hb|]. unfold set_blame, under. simpl app. go.
Qed.
Lemma fine_calls ks hs rest : below 1 hs -> fine hs rest -> fine hs (concat (map trace ks) ++ rest).
Proof.
  intros Hb Hr. induction ks as [|k ks IH]; [exact Hr|]. cbn. rewrite <- app_assoc. apply fine_call; auto.
Qed.
Lemma fine_job j rest : fine [] rest -> fine [] (job_trace j ++ rest).
Proof.
  intros Hr. destruct j as [k|ks]; cbn [job_trace].
  - apply fine_call; [constructor|exact Hr].
  - cbn [under app fine]. split; [constructor|]. rewrite <- app_assoc. apply fine_calls.
    + repeat constructor.
    + cbn. auto.
Qed.
Lemma fine_jobs js : fine [] (concat (map job_trace js)).
Proof. induction js as [|j js IH]; [reflexivity|]. cbn. apply fine_job, IH. Qed.

(** ** What every reachable state satisfies *)

Record inv (s : state) : Prop := Inv {
  i_fine : forall i t, s !! i = Some t -> fine (held t) (todo t);
  i_excl : forall i j t u l ex, i <> j -> s !! i = Some t -> s !! j = Some u -> holds true l t -> ~ holds ex l u }.
Lemma inv_start gs : inv (start gs).
Proof.
  assert (H : forall i t, start gs !! i = Some t -> held t = [] /\ fine [] (todo t)).
  { intros i t Ht. unfold start in Ht. rewrite list_lookup_fmap in Ht.
    destruct (gs !! i) as [g|]; [|discriminate]. injection Ht as <-. split; [reflexivity|apply fine_jobs]. }
  constructor.
  - intros i t Ht. destruct (H i t Ht) as [-> Hf]. exact Hf.
  - intros i j t u l ex _ Ht _ Hh. destruct (H i t Ht) as [He _]. unfold holds in Hh. rewrite He in Hh. inversion Hh.
Qed.
Lemma drop_head h hs : drop_lock h (h :: hs) = hs.
Proof. cbn [drop_lock]. apply decide_True. reflexivity. Qed.
Lemma tstep_inv s t t' : fine (held t) (todo t) -> tstep s t t' -> fine (held t') (todo t') /\
  forall ex l, holds ex l t' -> holds ex l t \/ free ex l s.
Proof.
  intros Hf Hs. destruct Hs as [ex l hs r Hfree|ex l hs r Hin|w x hs r]; cbn in *.
  - split; [apply Hf|]. intros ex' l' H. unfold holds in *. cbn in *. inversion H; subst; auto.
  - destruct hs as [|h hs]; [contradiction|]. destruct Hf as [-> Hf]. rewrite drop_head.
    split; [exact Hf|]. intros ex' l' H. left. unfold holds in *. cbn in *. right. exact H.
  - split; [apply Hf|]. intros ex' l' H. left. exact H.
Qed.
Lemma inv_step s s' : inv s -> step s s' -> inv s'.
Proof.
  intros [Hf He] Hs. destruct Hs as [i t t' s Hi Ht]. pose proof (Hf i t Hi) as Hfi.
  destruct (tstep_inv s t t' Hfi Ht) as [Hf' Hh].
  assert (Hlook : forall k u, <[i := t']> s !! k = Some u -> (k = i /\ u = t') \/ (k <> i /\ s !! k = Some u)).
  { intros k u Hk. destruct (decide (k = i)) as [->|Hne].
    - rewrite list_lookup_insert in Hk by (eapply lookup_lt_Some; exact Hi). left. split; congruence.
    - rewrite list_lookup_insert_ne in Hk by congruence. right. auto. }
  constructor.
  - intros k u Hk. destruct (Hlook k u Hk) as [[-> ->]|[_ Hu]]; [exact Hf'|exact (Hf k u Hu)].
  - intros a b x y l ex Hab Ha Hb Hx Hy.
    destruct (Hlook a x Ha) as [[-> ->]|[Hna Hxa]], (Hlook b y Hb) as [[-> ->]|[Hnb Hyb]].
    + congruence.
    + destruct (Hh true l Hx) as [Hold|Hfree].
      * exact (He i b t y l ex Hab Hi Hyb Hold Hy).
      * destruct (Hfree y (elem_of_list_lookup_2 _ _ _ Hyb)) as [Hn1 Hn2]. destruct ex; [exact (Hn1 Hy)|exact (Hn2 eq_refl Hy)].
    + destruct (Hh ex l Hy) as [Hold|Hfree].
      * exact (He a i x t l ex Hab Hxa Hi Hx Hold).
      * destruct (Hfree x (elem_of_list_lookup_2 _ _ _ Hxa)) as [Hn1 _]. exact (Hn1 Hx).
    + exact (He a b x y l ex Hab Hxa Hyb Hx Hy).
Qed.
Lemma inv_reaches gs s : reaches gs s -> inv s.
Proof.
  intros H. unfold reaches in H. remember (start gs) as s0 eqn:E. assert (Hi : inv s0) by (subst; apply inv_start). clear E.
  induction H; [exact Hi|]. apply IHrtc. eapply inv_step; eauto.
Qed.

(** ** Progress *)

Global Instance holds_dec ex l t : Decision (holds ex l t).
Proof. unfold holds. apply _. Defined.
Global Instance waits_dec l t : Decision (waits_exclusively l t).
Proof.
  unfold waits_exclusively. destruct (todo t) as [|[ex l'|ex l'|w x] r].
  - right. intros [? H]. discriminate.
  - destruct ex; [destruct (decide (l' = l)) as [->|Hn]|].
    + left. eauto.
    + right. intros [? H]. congruence.
    + right. intros [? H]. discriminate.
  - right. intros [? H]. discriminate.
  - right. intros [? H]. discriminate.
Defined.
Lemma can_access s i hs w x r : s !! i = Some (Thread hs (Access w x :: r)) -> exists s', sure_step s s'.
Proof.
  intros Hi. eexists. eapply Sure; [exact Hi|constructor|]. intros (l & q & H & _). discriminate.
Qed.
Lemma can_release s i hs ex l r : inv s -> s !! i = Some (Thread hs (Release ex l :: r)) -> exists s', sure_step s s'.
Proof.
  intros Hv Hi. pose proof (i_fine s Hv i _ Hi) as Hf. cbn in Hf. destruct hs as [|h hs]; [contradiction|]. destruct Hf as [-> _].
  eexists. eapply Sure; [exact Hi|constructor; left|]. intros (l' & q & H & _). discriminate.
Qed.
Lemma can_acquire s : inv s -> forall k i hs ex l r,
  3 - rank l <= k -> s !! i = Some (Thread hs (Acquire ex l :: r)) -> exists s', sure_step s s'.
Proof.
  intros Hv. induction k as [|k IH]; intros i hs ex l r Hk Hi; [destruct l; cbn in Hk; lia|].
  destruct (decide (Exists (fun t => holds true l t \/ holds false l t) s)) as [Hex|Hno].
  - apply Exists_exists in Hex as (u & Hu & Hh). apply elem_of_list_lookup in Hu as [j Hj].
    assert (Hin : exists e, (e, l) ∈ held u) by (destruct Hh; eauto). destruct Hin as [e Hin].
    pose proof (i_fine s Hv j u Hj) as Hf. destruct u as [us [|[e' l'|e' l'|w x] q]]; cbn in *.
    + subst us. inversion Hin.
    + eapply (IH j us e' l' q); [|exact Hj]. destruct Hf as [Hb _]. unfold below in Hb. rewrite Forall_forall in Hb.
      specialize (Hb _ Hin). cbn in Hb. destruct l, l'; cbn in *; lia.
    + eapply can_release; eauto.
    + eapply can_access; eauto.
  - assert (Hfree : forall e, free e l s).
    { intros e t Ht. split.
      - intros H. apply Hno. apply Exists_exists. eauto.
      - intros _ H. apply Hno. apply Exists_exists. eauto. }
    destruct (decide (ex = false /\ Exists (waits_exclusively l) s)) as [[-> Hw]|Hn].
    + apply Exists_exists in Hw as (u & Hu & q & Hq). apply elem_of_list_lookup in Hu as [j Hj].
      destruct u as [us ut]. cbn in Hq. subst ut.
      eexists. eapply Sure; [exact Hj|constructor; apply Hfree|]. intros (l' & q' & H & _). discriminate.
    + eexists. eapply Sure; [exact Hi|constructor; apply Hfree|].
      intros (l' & q' & H & u & Hu & Hwu). cbn in H. injection H as -> -> _. apply Hn. split; [reflexivity|].
      apply Exists_exists. eauto.
Qed.
Lemma progress s : inv s -> (exists t, t ∈ s /\ ~ finished t) -> exists s', sure_step s s'.
Proof.
  intros Hv (t & Ht & Hn). apply elem_of_list_lookup in Ht as [i Hi]. destruct t as [hs [|[ex l|ex l|w x] r]].
  - exfalso. apply Hn. reflexivity.
  - eapply (can_acquire s Hv 3); [|exact Hi]. lia.
  - eapply can_release; eauto.
  - eapply can_access; eauto.
Qed.

(** ** C202 *)

(** However many goroutines run whatever calls, they never come to stand on their locks,
    and never release one they do not hold. *)
Theorem C202_no_deadlock :
  forall gs s, reaches gs s -> ~ deadlock s /\ ~ bad_release s.
Proof.
  intros gs s Hr. pose proof (inv_reaches gs s Hr) as Hv. split.
  - intros [Hw Hno]. destruct (progress s Hv Hw) as [s' Hs]. exact (Hno s' Hs).
  - intros (t & ex & l & r & Ht & Hq & Hn). apply elem_of_list_lookup in Ht as [i Hi].
    pose proof (i_fine s Hv i t Hi) as Hf. rewrite Hq in Hf. cbn in Hf. unfold holds in Hn.
    destruct (held t) as [|h hs]; [contradiction|]. destruct Hf as [-> _]. apply Hn. left.
Qed.
Print Assumptions C202_no_deadlock.

Definition left_to_do (s : state) : nat := sum_list_with (fun t => length (todo t)) s.
Lemma sum_insert (f : thread -> nat) s i t t' : s !! i = Some t ->
  sum_list_with f (<[i := t']> s) + f t = sum_list_with f s + f t'.
Proof.
  revert i. induction s as [|u s IH]; intros [|i] Hi; try discriminate.
  - cbn in *. injection Hi as <-. lia.
  - change (<[S i := t']> (u :: s)) with (u :: <[i := t']> s). cbn [sum_list_with]. specialize (IH i Hi). lia.
Qed.
Lemma step_counts s s' : step s s' -> S (left_to_do s') = left_to_do s.
Proof.
  intros [i t t' s0 Hi Ht]. unfold left_to_do. pose proof (sum_insert (fun t => length (todo t)) s0 i t t' Hi) as H.
  assert (Hl : length (todo t) = S (length (todo t'))) by (destruct Ht; reflexivity). cbv beta in H. lia.
Qed.
(** Every run takes exactly as many steps as there are actions, and when nobody can go on
    everybody is done and no lock is held. *)
Theorem C202_all_end :
  forall gs n s, nsteps step n (start gs) s ->
    n + left_to_do s = left_to_do (start gs) /\
    ((forall s', ~ sure_step s s') -> forall t, t ∈ s -> finished t /\ held t = []).
Proof.
  intros gs n s Hn. split.
  - clear -Hn. remember (start gs) as s0 eqn:E. clear E. induction Hn as [|n x y z Hs _ IH]; [reflexivity|].
    apply step_counts in Hs. lia.
  - intros Hno t Ht. assert (Hr : reaches gs s) by (clear -Hn; unfold reaches; induction Hn; [apply rtc_refl|eapply rtc_l; eauto]).
    pose proof (inv_reaches gs s Hr) as Hv.
    assert (Hfin : finished t).
    { destruct (todo t) eqn:E; [exact E|]. exfalso.
      destruct (progress s Hv) as [s' Hs]; [|exact (Hno s' Hs)]. exists t. split; [exact Ht|]. unfold finished. congruence. }
    split; [exact Hfin|]. apply elem_of_list_lookup in Ht as [i Hi]. pose proof (i_fine s Hv i t Hi) as Hf.
    unfold finished in Hfin. rewrite Hfin in Hf. exact Hf.
Qed.
Print Assumptions C202_all_end.

(** ** C203 *)

Theorem C203_no_race :
  forall gs s x, reaches gs s -> protected x -> ~ race x s.
Proof.
  intros gs s x Hr Hp (i & j & t & u & w & v & r & q & Hij & Hi & Hj & Ht & Hu & Hw).
  pose proof (inv_reaches gs s Hr) as Hv.
  pose proof (i_fine s Hv i t Hi) as Hft. pose proof (i_fine s Hv j u Hj) as Hfu.
  rewrite Ht in Hft. rewrite Hu in Hfu. cbn in Hft, Hfu. destruct Hft as [Hct _], Hfu as [Hcu _].
  unfold covers in *. destruct (lock_of x) as [l|] eqn:Hg; [|destruct x; cbn in *; try discriminate; contradiction].
  destruct Hct as [H1|[-> H1]], Hcu as [H2|[-> H2]].
  - exact (i_excl s Hv i j t u l true Hij Hi Hj H1 H2).
  - exact (i_excl s Hv i j t u l false Hij Hi Hj H1 H2).
  - exact (i_excl s Hv j i u t l false (not_eq_sym Hij) Hj Hi H2 H1).
  - destruct Hw; discriminate.
Qed.
Print Assumptions C203_no_race.

(** ** C204 *)

Ltac not_held := intros ? ?; repeat match goal with H : _ ∈ _ :: _ |- _ => apply elem_of_cons in H as [->|H] end;
  try (match goal with H : _ ∈ [] |- _ => inversion H end);
  (split; [intros ?Hh|intros _ ?Hh]); unfold holds in *; cbn in *;
  repeat match goal with H : _ ∈ _ :: _ |- _ => apply elem_of_cons in H as [H|H]; [discriminate|] end;
  match goal with H : _ ∈ [] |- _ => inversion H end.
(** Let goroutine [i] take a step. *)
Ltac st i := eapply rtc_l;
  [eapply (Step i); [reflexivity|first [apply T_access|apply T_release; left|apply T_acquire; not_held]]|];
  repeat rewrite drop_head; simpl insert.
(** The claim that no two goroutines access anything shared at the same time is false: the
    reason of a failure is read at a timeout while a message sets it; a member sets the
    leader of its join while a response is checked against it; the list of accepted
    shares is appended to at a timeout while a share is recorded; and the list of streams
    of a request is appended to at its release while a stream is added. *)
Theorem C204_no_race_anywhere_refuted :
  (exists s, reaches [[Plain (TimeoutBlame 0 false false false false)]; [Plain (ProcessInvalidMsgBlame 0 0)]] s /\ race (XReason 0) s) /\
  (exists s, reaches [[Plain CreateGroup; Plain (SetLeaderByMember 0)]; [Plain (ProcessResponse 0 true true)]] s /\ race (XLeader 0) s) /\
  (exists s, reaches [[Plain (TimeoutBlame 0 false true false true)]; [Plain (UpdateAcceptShare 0)]] s /\ race (XAcceptedArray 0) s) /\
  (exists s, reaches [[Plain (ReleaseStream 0 true true)]; [Plain (AddStream 0 true)]] s /\ race (XStreamsArray 0) s).
Proof.
  split; [|split; [|split]]; eexists; split; unfold reaches, start; cbn [map concat job_trace trace last_msg under app].
  - simpl app. do 3 st 0. do 6 st 1. apply rtc_refl.
  - exists 0, 1. repeat eexists; [lia|]. auto.
  - simpl app. do 3 st 0. do 3 st 1. apply rtc_refl.
  - exists 0, 1. repeat eexists; [lia|]. auto.
  - simpl app. do 21 st 0. do 2 st 1. apply rtc_refl.
  - exists 0, 1. repeat eexists; [lia|]. auto.
  - simpl app. do 3 st 0. do 2 st 1. apply rtc_refl.
  - exists 0, 1. repeat eexists; [lia|]. auto.
Qed.
Print Assumptions C204_no_race_anywhere_refuted.

(** ** Cases *)

(** Five goroutines, one of them in Keygen, at work on the same tables *)
Example C202_example :
  let gs := [[Keygen [SetSubscribe 1; TimeoutBlame 0 true true true true; CancelSubscribe 1 true true; SaveAddressBook]];
             [Plain (GetSubscriber 1 true); Plain (HashCheck 0 true)]; [Plain (HashCheck 0 true); Plain (ProcessInvalidMsgBlame 0 2)];
             [Plain (SetSubscribe 1); Keygen []]; [Plain RetrieveAddressBook]] in
  left_to_do (start gs) = 96 /\ ~ deadlock (start gs).
Proof.
  split; [reflexivity|]. eapply C202_no_deadlock. unfold reaches. apply rtc_refl.
Qed.
(** Two goroutines that take the same two locks in a different order would come to stand:
    the notion is not empty. *)
Example C202_example_deadlock :
  deadlock [Thread [(true, LSubscribers)] [Acquire true (LTopic 0)]; Thread [(true, LTopic 0)] [Acquire true LSubscribers]].
Proof.
  split.
  - eexists. split; [left|]. unfold finished. discriminate.
  - intros s' Hs. inversion Hs as [i t t' s Hi Ht Hb]; subst. destruct i as [|[|i]]; cbn in Hi; try discriminate;
      injection Hi as <-; inversion Ht as [? ? ? ? Hf| |]; subst.
    + destruct (Hf (Thread [(true, LTopic 0)] [Acquire true LSubscribers])) as [H _]; [right; left|]. apply H. left.
    + destruct (Hf (Thread [(true, LSubscribers)] [Acquire true (LTopic 0)])) as [H _]; [left|]. apply H. left.
Qed.
(** Two goroutines in the middle of their work on one table: one is inside, the other has
    to wait. *)
Example C203_example :
  exists s, reaches [[Plain (UpdatePeer 0)]; [Plain (GetPeersStatus 0)]] s /\ protected (XResponses 0) /\
    (exists t r, s !! 0 = Some t /\ todo t = rd (XResponses 0) :: r) /\ (exists u r, s !! 1 = Some u /\ todo u = Acquire false (LStatus 0) :: r).
Proof.
  eexists. split; [|split; [exact I|]].
  - unfold reaches, start; cbn [map concat job_trace trace under app]. simpl app. st 0. apply rtc_refl.
  - split; repeat eexists.
Qed.
