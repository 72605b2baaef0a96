(** Lemmas about the signature notifier. *)
From Coq Require Import ZArith NArith Ascii String List Lia.
From stdpp Require Import base list strings gmap tactics.
From Verif Require Import Base M_Notifier S_Notifier.

(** ** Verification *)

Lemma verify_loop_deliver E pool msgs d i :
  verify_loop E pool msgs i d = PsDeliver <->
  (forall k s, d !! k = Some s ->
     sg_signature s <> None /\ exists msg, msgs !! (i + k) = Some msg /\ verifies E pool msg s).
Proof.
  revert i. induction d as [|s d IH]; intros i; simpl.
  { split; [intros _ k s' H; discriminate H | reflexivity]. }
  split.
  - intros H k s' Hk.
    destruct (msgs !! i) as [msg|] eqn:Hm; [|discriminate].
    destruct (sg_signature s) eqn:Hs; [|discriminate].
    destruct (verifySignature E pool s msg) as [[|]|] eqn:Hv; try discriminate.
    destruct k as [|k]; simpl in Hk.
    + injection Hk as <-. rewrite Hs. split; [discriminate|].
      exists msg. rewrite Nat.add_0_r. split; [exact Hm|].
      unfold verifySignature in Hv. unfold verifies.
      destruct (ne_point E pool) as [p|]; [|discriminate]. exists p.
      injection Hv as Hv. auto.
    + destruct (proj1 (IH (S i)) H k s' Hk) as (? & msg' & ? & ?).
      split; [assumption|]. exists msg'. rewrite Nat.add_succ_r. auto.
  - intros H.
    destruct (H 0 s eq_refl) as (Hs & msg & Hm & p & Hp & Hv).
    rewrite Nat.add_0_r in Hm. rewrite Hm.
    destruct (sg_signature s) eqn:Hs'; [|congruence].
    unfold verifySignature. rewrite Hp, Hv.
    apply IH. intros k s' Hk. destruct (H (S k) s' Hk) as (? & msg' & Hm' & ?).
    split; [assumption|]. exists msg'. rewrite Nat.add_succ_r in Hm'. auto.
Qed.

Lemma verify_loop_panic E pool msgs d i :
  verify_loop E pool msgs i d = PsPanic <->
  (length msgs - i < length d /\
   (forall k s, d !! k = Some s -> i + k < length msgs ->
     sg_signature s <> None /\ exists msg, msgs !! (i + k) = Some msg /\ verifies E pool msg s)).
Proof.
  revert i. induction d as [|s d IH]; intros i; simpl.
  { split; [discriminate | intros [H _]; lia]. }
  split.
  - intros H.
    destruct (msgs !! i) as [msg|] eqn:Hm.
    2: { apply lookup_ge_None in Hm. split; [lia|]. intros; lia. }
    pose proof (lookup_lt_Some _ _ _ Hm) as Hlt.
    destruct (sg_signature s) eqn:Hs; [|discriminate].
    destruct (verifySignature E pool s msg) as [[|]|] eqn:Hv; try discriminate.
    apply IH in H. destruct H as [Hlen H]. split; [lia|].
    intros [|k] s' Hk Hl; simpl in Hk.
    + injection Hk as <-. rewrite Hs. split; [discriminate|].
      exists msg. rewrite Nat.add_0_r. split; [exact Hm|].
      unfold verifySignature in Hv. unfold verifies.
      destruct (ne_point E pool) as [p|]; [|discriminate]. exists p.
      injection Hv as Hv. auto.
    + rewrite Nat.add_succ_r. apply (H k s' Hk). lia.
  - intros [Hlen H].
    destruct (msgs !! i) as [msg|] eqn:Hm; [|reflexivity].
    pose proof (lookup_lt_Some _ _ _ Hm) as Hlt.
    destruct (H 0 s eq_refl) as (Hs & msg' & Hm' & p & Hp & Hv); [lia|].
    rewrite Nat.add_0_r in Hm'. rewrite Hm in Hm'. injection Hm' as <-.
    destruct (sg_signature s) eqn:Hs'; [|congruence].
    unfold verifySignature. rewrite Hp, Hv.
    apply IH. split; [lia|]. intros k s' Hk Hl.
    specialize (H (S k) s' Hk). rewrite Nat.add_succ_r in H. apply H. lia.
Qed.

Lemma deliver_valid E n d :
  ProcessSignature E n d = PsDeliver -> d <> [] /\ valid_for E (no_pool n) (no_messages n) d.
Proof.
  unfold ProcessSignature. destruct d as [|s d]; [discriminate|].
  intros H. split; [discriminate|].
  intros i s' Hi. destruct (proj1 (verify_loop_deliver _ _ _ _ _) H i s' Hi) as (_ & m & ? & ?).
  eauto.
Qed.

Lemma unmarshal_sigs_spec E l r :
  unmarshal_sigs E l = Some r <-> Forall2 (fun b s => ne_unmarshal_sig E b = Some s) l r.
Proof.
  revert r. induction l as [|b l IH]; intros r; simpl.
  - split; [intros [= <-]; constructor | intros H; inversion H; reflexivity].
  - split.
    + destruct (ne_unmarshal_sig E b) eqn:Hb; [|discriminate].
      destruct (unmarshal_sigs E l) eqn:Hl; [|discriminate].
      intros [= <-]. constructor; [assumption|]. apply IH. reflexivity.
    + intros H. inversion H as [|? ? ? ? Hb Hr]; subst. rewrite Hb.
      apply IH in Hr. rewrite Hr. reflexivity.
Qed.

Lemma decode_nonempty E payload id d :
  decode_notification E payload = Some (id, d) -> d <> [] ->
  exists b, payload = Some b /\ announces E b id d.
Proof.
  unfold decode_notification. destruct payload as [b|]; [|discriminate].
  destruct (ne_unmarshal E b) as [m|] eqn:Hm; [|discriminate].
  destruct (Nat.ltb 0 (length (km_sigs m)) && km_success m)%bool eqn:Hc.
  - destruct (unmarshal_sigs E (km_sigs m)) as [sigs|] eqn:Hs; [|discriminate].
    intros [= <- <-] _. exists b. split; [reflexivity|].
    apply andb_prop in Hc. destruct Hc as [_ Hc].
    exists m. split; [exact Hm|]. split; [reflexivity|]. split; [exact Hc|].
    apply unmarshal_sigs_spec. exact Hs.
  - intros [= <- <-] H. congruence.
Qed.

Lemma announces_decode E b id d :
  announces E b id d -> decode_notification E (Some b) = Some (id, d).
Proof.
  intros (m & Hm & <- & Hs & HF). simpl. rewrite Hm, Hs, andb_true_r.
  destruct (Nat.ltb_spec 0 (length (km_sigs m))) as [Hl|Hl].
  - apply unmarshal_sigs_spec in HF. rewrite HF. reflexivity.
  - destruct (km_sigs m); [|simpl in Hl; lia]. inversion HF. reflexivity.
Qed.

(** ** The invariant of the machine *)

Record ninv (E : nenv) (ls : list nlabel) (s : nstate) : Prop := {
  ni_reg : forall id c, ns_notifiers s !! id = Some c ->
    exists n ph, ns_calls s !! c = Some (n, ph) /\ no_id n = id /\ no_resp n = None /\
      c ∉ (ns_log s).*1;
  ni_log : forall c d, (c, d) ∈ ns_log s ->
    exists n ph, ns_calls s !! c = Some (n, ph) /\ d <> [] /\
      valid_for E (no_pool n) (no_messages n) d /\
      exists b, NNotify (Some b) ∈ ls /\ announces E b (no_id n) d;
  ni_resp : forall c n ph d, ns_calls s !! c = Some (n, ph) -> no_resp n = Some d ->
    (c, d) ∈ ns_log s;
  ni_ph : forall c n ph d, ns_calls s !! c = Some (n, ph) ->
    ph = WLeaving (WData d) \/ ph = WDone (WData d) -> (c, d) ∈ ns_log s;
  ni_nodup : NoDup (ns_log s).*1;
  ni_stuck : ns_stuck s = false;
  ni_start : forall c n ph, ns_calls s !! c = Some (n, ph) ->
    started ls c (no_id n) (no_messages n) (no_pool n);
  ni_nostart : forall c, ns_calls s !! c = None -> ns_crashed s = false ->
    forall id msgs pool, NCall c id msgs pool ∉ ls }.

Lemma started_snoc ls l c id msgs pool :
  started ls c id msgs pool -> started (ls ++ [l]) c id msgs pool.
Proof.
  intros (l1 & l2 & -> & H). exists l1, (l2 ++ [l]). split; [|exact H].
  rewrite <- app_assoc. reflexivity.
Qed.

Lemma ninv_frame E ls l s : ninv E ls s ->
  (forall c id msgs pool, l = NCall c id msgs pool -> ns_crashed s = false ->
     ns_calls s !! c <> None) ->
  ninv E (ls ++ [l]) s.
Proof.
  intros I Hl. destruct I. constructor; auto.
  - intros c d H. destruct (ni_log0 c d H) as (n & ph & ? & ? & ? & b & ? & ?).
    exists n, ph. repeat split; auto. exists b. split; [|assumption]. set_solver.
  - intros c n ph H. apply started_snoc, (ni_start0 _ _ ph H).
  - intros c Hc Hcr id msgs pool Hin. apply elem_of_app in Hin. destruct Hin as [Hin|Hin].
    + exact (ni_nostart0 c Hc Hcr _ _ _ Hin).
    + apply elem_of_list_singleton in Hin. symmetry in Hin. exact (Hl _ _ _ _ Hin Hcr Hc).
Qed.

Lemma NewNotifier_Some id msgs pool n :
  NewNotifier id msgs pool = Some n -> n = Notifier id msgs pool None.
Proof.
  unfold NewNotifier. repeat case_match; try discriminate. intros [= <-]. reflexivity.
Qed.

Lemma ninv_call E ls s c id msgs pool :
  ninv E ls s -> ns_crashed s = false ->
  ninv E (ls ++ [NCall c id msgs pool]) (do_call c id msgs pool s).
Proof.
  intros I Hcr. unfold do_call. destruct (ns_calls s !! c) as [[n0 ph0]|] eqn:Hc.
  { apply ninv_frame; [exact I|]. intros c' ? ? ? [= -> -> -> ->] _. congruence. }
  assert (Hst : started (ls ++ [NCall c id msgs pool]) c id msgs pool).
  { exists ls, []. split; [reflexivity|]. intros. apply (ni_nostart _ _ _ I); assumption. }
  assert (Hlogc : forall d, (c, d) ∉ ns_log s).
  { intros d H. destruct (ni_log _ _ _ I c d H) as (n & ph & H' & _). congruence. }
  assert (Hlogc1 : c ∉ (ns_log s).*1).
  { intros H. apply elem_of_list_fmap in H. destruct H as ([c' d] & -> & H).
    exact (Hlogc _ H). }
  assert (Hno : forall c', <[c:=(Notifier id msgs pool None, WDone WErrNew)]> (ns_calls s) !! c' = None
      -> c' <> c /\ ns_calls s !! c' = None).
  { intros c' H. apply lookup_insert_None in H. destruct H. auto. }
  destruct (NewNotifier id msgs pool) as [n|] eqn:Hn.
  - apply NewNotifier_Some in Hn. subst n. simpl. destruct I. constructor; simpl; auto.
    + intros id' c' H. apply lookup_insert_Some in H. destruct H as [[<- <-]|[Hne H]].
      * exists (Notifier id msgs pool None), WWaiting. rewrite lookup_insert. auto.
      * destruct (ni_reg0 _ _ H) as (n & ph & Hc' & ? & ? & ?).
        exists n, ph. rewrite lookup_insert_ne; [auto | congruence].
    + intros c' d H. destruct (ni_log0 c' d H) as (n & ph & Hc' & ? & ? & b & ? & ?).
      exists n, ph. rewrite lookup_insert_ne; [|congruence].
      repeat split; auto. exists b. split; [|assumption]. set_solver.
    + intros c' n ph d H Hr. apply lookup_insert_Some in H. destruct H as [[<- [= <- <-]]|[Hne H]].
      * discriminate Hr.
      * eauto.
    + intros c' n ph d H Hph. apply lookup_insert_Some in H. destruct H as [[<- [= <- <-]]|[Hne H]].
      * destruct Hph; discriminate.
      * eauto.
    + intros c' n ph H. apply lookup_insert_Some in H. destruct H as [[<- [= <- <-]]|[Hne H]].
      * exact Hst.
      * apply started_snoc. eauto.
    + intros c' H _ id' msgs' pool' Hin. apply lookup_insert_None in H. destruct H as [H Hne].
      apply elem_of_app in Hin. destruct Hin as [Hin|Hin].
      * exact (ni_nostart0 c' H Hcr _ _ _ Hin).
      * apply elem_of_list_singleton in Hin. congruence.
  - destruct I. constructor; simpl; auto.
    + intros id' c' H.
      destruct (ni_reg0 _ _ H) as (n & ph & Hc' & ? & ? & ?).
      exists n, ph. rewrite lookup_insert_ne; [auto | congruence].
    + intros c' d H. destruct (ni_log0 c' d H) as (n & ph & Hc' & ? & ? & b & ? & ?).
      exists n, ph. rewrite lookup_insert_ne; [|congruence].
      repeat split; auto. exists b. split; [|assumption]. set_solver.
    + intros c' n ph d H Hr. apply lookup_insert_Some in H. destruct H as [[<- [= <- <-]]|[Hne H]].
      * discriminate Hr.
      * eauto.
    + intros c' n ph d H Hph. apply lookup_insert_Some in H. destruct H as [[<- [= <- <-]]|[Hne H]].
      * destruct Hph; discriminate.
      * eauto.
    + intros c' n ph H. apply lookup_insert_Some in H. destruct H as [[<- [= <- <-]]|[Hne H]].
      * exact Hst.
      * apply started_snoc. eauto.
    + intros c' H _ id' msgs' pool' Hin. apply lookup_insert_None in H. destruct H as [H Hne].
      apply elem_of_app in Hin. destruct Hin as [Hin|Hin].
      * exact (ni_nostart0 c' H Hcr _ _ _ Hin).
      * apply elem_of_list_singleton in Hin. congruence.
Qed.

Lemma ninv_notify E ls s p :
  ninv E ls s -> ninv E (ls ++ [NNotify p]) (do_notify E p s).
Proof.
  intros I.
  assert (Ifr : ninv E (ls ++ [NNotify p]) s).
  { apply ninv_frame; [exact I|]. intros; discriminate. }
  unfold do_notify. destruct (decode_notification E p) as [[id sigs]|] eqn:Hd; [|exact Ifr].
  unfold do_locked. destruct (ns_notifiers s !! id) as [c|] eqn:Hreg; [|exact Ifr].
  destruct (ns_calls s !! c) as [[n ph]|] eqn:Hc; [|exact Ifr].
  destruct (ProcessSignature E n sigs) eqn:Hp; try exact Ifr.
  2: { destruct Ifr. constructor; simpl; auto. intros; discriminate. }
  destruct (ni_reg _ _ _ I _ _ Hreg) as (n' & ph' & Hc' & Hid & Hresp & Hlog).
  rewrite Hc in Hc'. injection Hc' as <- <-. rewrite Hresp.
  destruct (deliver_valid _ _ _ Hp) as [Hne Hval].
  destruct (decode_nonempty _ _ _ _ Hd Hne) as (b & -> & Hann).
  destruct Ifr. constructor; simpl; auto.
  - intros id' c' H. apply lookup_delete_Some in H. destruct H as [Hne' H].
    destruct (ni_reg0 _ _ H) as (n' & ph' & Hc' & ? & ? & Hl).
    assert (c' <> c) by congruence.
    exists n', ph'. rewrite lookup_insert_ne by congruence. repeat split; auto.
    rewrite fmap_app. simpl. set_solver.
  - intros c' d H. apply elem_of_app in H. destruct H as [H|H].
    + destruct (ni_log0 c' d H) as (n' & ph' & Hc' & ? & ? & b' & ? & ?).
      destruct (decide (c' = c)) as [->|Hcc].
      * exfalso. apply Hlog. apply elem_of_list_fmap. exists (c, d). auto.
      * exists n', ph'. rewrite lookup_insert_ne by congruence. eauto 10.
    + apply elem_of_list_singleton in H. injection H as -> ->.
      exists (Notifier (no_id n) (no_messages n) (no_pool n) (Some sigs)), ph.
      rewrite lookup_insert. simpl. split; [reflexivity|]. split; [assumption|].
      split; [assumption|]. exists b. rewrite Hid. split; [set_solver | exact Hann].
  - intros c' n' ph' d H Hr. apply lookup_insert_Some in H. destruct H as [[<- [= <- <-]]|[Hne' H]].
    + simpl in Hr. injection Hr as <-. set_solver.
    + pose proof (ni_resp0 _ _ _ _ H Hr). set_solver.
  - intros c' n' ph' d H Hph. apply lookup_insert_Some in H. destruct H as [[<- [= <- <-]]|[Hne' H]].
    + pose proof (ni_ph0 _ _ _ d Hc Hph). set_solver.
    + pose proof (ni_ph0 _ _ _ d H Hph). set_solver.
  - rewrite fmap_app. apply NoDup_app. split; [assumption|]. split.
    + simpl. set_solver.
    + simpl. apply NoDup_singleton.
  - intros c' n' ph' H. apply lookup_insert_Some in H. destruct H as [[<- [= <- <-]]|[Hne' H]].
    + simpl. eapply ni_start0. exact Hc.
    + eapply ni_start0. exact H.
  - intros c' H Hcr. apply lookup_insert_None in H. destruct H as [H Hne']. auto.
Qed.

Lemma ninv_phase E ls s c n n' ph ph' :
  ninv E ls s -> ns_calls s !! c = Some (n, ph) ->
  no_id n' = no_id n -> no_messages n' = no_messages n -> no_pool n' = no_pool n ->
  (no_resp n' = no_resp n \/ no_resp n' = None) ->
  (forall d, ph' = WLeaving (WData d) \/ ph' = WDone (WData d) -> (c, d) ∈ ns_log s) ->
  ninv E ls (set_phase c n' ph' s).
Proof.
  intros I Hc Hid Hm Hpool Hr Hph. destruct I. constructor; simpl; auto.
  - intros id c' H. destruct (ni_reg0 _ _ H) as (n1 & ph1 & Hc' & ? & Hr1 & ?).
    destruct (decide (c' = c)) as [->|Hne].
    + rewrite Hc in Hc'. injection Hc' as <- <-.
      exists n', ph'. rewrite lookup_insert. repeat split; auto; [congruence|].
      destruct Hr; congruence.
    + exists n1, ph1. rewrite lookup_insert_ne by congruence. auto.
  - intros c' d H. destruct (ni_log0 _ _ H) as (n1 & ph1 & Hc' & ? & Hv & b & Hb & Ha).
    destruct (decide (c' = c)) as [->|Hne].
    + rewrite Hc in Hc'. injection Hc' as <- <-.
      exists n', ph'. rewrite lookup_insert. rewrite Hm, Hpool, Hid. eauto 10.
    + exists n1, ph1. rewrite lookup_insert_ne by congruence. eauto 10.
  - intros c' n1 ph1 d H Hr1. apply lookup_insert_Some in H. destruct H as [[<- [= <- <-]]|[Hne' H]].
    + apply (ni_resp0 c n ph d Hc). destruct Hr; congruence.
    + eauto.
  - intros c' n1 ph1 d H Hr1. apply lookup_insert_Some in H. destruct H as [[<- [= <- <-]]|[Hne' H]].
    + auto.
    + eauto.
  - intros c' n1 ph1 H. apply lookup_insert_Some in H. destruct H as [[<- [= <- <-]]|[Hne' H]].
    + rewrite Hm, Hpool, Hid. eauto.
    + eauto.
  - intros c' H. apply lookup_insert_None in H. destruct H. auto.
Qed.

Lemma ninv_unregister E ls s id :
  ninv E ls s ->
  ninv E ls (NState (delete id (ns_notifiers s)) (ns_calls s) (ns_crashed s) (ns_stuck s) (ns_log s)).
Proof.
  intros I. destruct I. constructor; simpl; auto.
  intros id' c H. apply lookup_delete_Some in H. destruct H as [_ H]. auto.
Qed.

Lemma ninv_step E ls s l : ninv E ls s -> ninv E (ls ++ [l]) (nstep E s l).
Proof.
  intros I. unfold nstep.
  destruct (ns_crashed s || ns_stuck s)%bool eqn:Hcs.
  { rewrite (ni_stuck _ _ _ I), orb_false_r in Hcs. apply ninv_frame; [exact I|].
    intros; congruence. }
  apply orb_false_elim in Hcs. destruct Hcs as [Hcr _].
  destruct l.
  - apply ninv_call; assumption.
  - apply ninv_notify; assumption.
  - assert (Ifr : ninv E (ls ++ [NRecv c]) s) by (apply ninv_frame; [exact I|]; intros; discriminate).
    unfold do_recv. destruct (ns_calls s !! c) as [[[id msgs pool [d|]] [| |]]|] eqn:Hc; try exact Ifr.
    eapply ninv_phase; try exact Hc; simpl; auto.
    intros d' [[= <-]|H]; [|discriminate]. eapply (ni_resp _ _ _ I); [exact Hc | reflexivity].
  - assert (Ifr : ninv E (ls ++ [NTimeout c]) s) by (apply ninv_frame; [exact I|]; intros; discriminate).
    unfold do_leave. destruct (ns_calls s !! c) as [[n [| |]]|] eqn:Hc; try exact Ifr.
    eapply ninv_phase; try exact Hc; simpl; auto.
    intros d' [H|H]; discriminate.
  - assert (Ifr : ninv E (ls ++ [NSig c]) s) by (apply ninv_frame; [exact I|]; intros; discriminate).
    unfold do_leave. destruct (ns_calls s !! c) as [[n [| |]]|] eqn:Hc; try exact Ifr.
    eapply ninv_phase; try exact Hc; simpl; auto.
    intros d' [H|H]; discriminate.
  - assert (Ifr : ninv E (ls ++ [NRemove c]) s) by (apply ninv_frame; [exact I|]; intros; discriminate).
    unfold do_remove. destruct (ns_calls s !! c) as [[n [|r|]]|] eqn:Hc; try exact Ifr.
    apply (ninv_unregister _ _ (set_phase c n (WDone r) s)).
    eapply ninv_phase; try exact Hc; simpl; auto.
    intros d' [H|H]; [discriminate|]. injection H as ->.
    eapply (ni_ph _ _ _ I); [exact Hc | auto].
Qed.

Lemma nrun_snoc E ls l : nrun E (ls ++ [l]) = nstep E (nrun E ls) l.
Proof. unfold nrun. rewrite fold_left_app. reflexivity. Qed.

Lemma ninv_run E ls : ninv E ls (nrun E ls).
Proof.
  induction ls as [|l ls IH] using rev_ind.
  - constructor; simpl.
    + intros id c H. discriminate (eq_trans (eq_sym (lookup_empty (M := gmap string) (A := nat) id)) H).
    + intros c d H. inversion H.
    + intros c n ph d H. discriminate (eq_trans (eq_sym (lookup_empty (M := gmap nat) c)) H).
    + intros c n ph d H. discriminate (eq_trans (eq_sym (lookup_empty (M := gmap nat) c)) H).
    + constructor.
    + reflexivity.
    + intros c n ph H. discriminate (eq_trans (eq_sym (lookup_empty (M := gmap nat) c)) H).
    + intros c _ _ id msgs pool H. inversion H.
  - rewrite nrun_snoc. apply ninv_step, IH.
Qed.

Lemma started_unique ls c id msgs pool id' msgs' pool' :
  started ls c id msgs pool -> started ls c id' msgs' pool' ->
  id = id' /\ msgs = msgs' /\ pool = pool'.
Proof.
  intros (l1 & l2 & H1 & N1) (k1 & k2 & H2 & N2). subst ls.
  assert (Hlen : length l1 = length k1).
  { destruct (lt_eq_lt_dec (length l1) (length k1)) as [[H|H]|H]; [|exact H|].
    - exfalso.
      assert (Hl : (l1 ++ NCall c id msgs pool :: l2) !! length l1 = Some (NCall c id msgs pool)).
      { rewrite lookup_app_r by lia. rewrite Nat.sub_diag. reflexivity. }
      rewrite H2, lookup_app_l in Hl by lia.
      apply elem_of_list_lookup_2 in Hl. exact (N2 _ _ _ Hl).
    - exfalso.
      assert (Hl : (k1 ++ NCall c id' msgs' pool' :: k2) !! length k1 = Some (NCall c id' msgs' pool')).
      { rewrite lookup_app_r by lia. rewrite Nat.sub_diag. reflexivity. }
      rewrite <- H2, lookup_app_l in Hl by lia.
      apply elem_of_list_lookup_2 in Hl. exact (N1 _ _ _ Hl). }
  apply app_inj_1 in H2; [|exact Hlen]. destruct H2 as [_ H2].
  injection H2 as -> -> -> _. auto.
Qed.
