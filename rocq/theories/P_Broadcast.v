(** Property theorems: the sending side (C142-C149). *)
From Coq Require Import ZArith NArith Ascii String List Lia.
From stdpp Require Import base list strings gmap.
From Verif Require Import Base L_Base M_Stream S_Stream L_Stream M_Comm M_Json M_Wire M_Broadcast S_Broadcast L_Broadcast L_Broadcast2.
Local Arguments post_data : simpl never.

(** ** C142 *)
(** Whatever is written was put in the queue, goes to a peer listed with it and not to the
    node itself, and is that message's frame, or the beginning of it. *)
Theorem C142_addressed_only :
  forall self tr o, let s := brun self tr in
    bs_accepted s `sublist_of` asked tr /\
    (o ∈ bs_out s ->
     exists p, bs_accepted s !! ou_task o = Some p /\ ou_peer o ∈ po_peers p /\ ou_peer o <> self /\
       ou_id o = wr_id (po_msg p) /\
       ((N.of_nat (length (post_data p)) <= limit)%N ->
        exists f, frame (post_data p) f /\ ou_bytes o `prefix_of` f)).
Proof.
  intros self tr o s. split.
  - subst s. induction tr as [|l tr IH] using rev_ind; [constructor|]. rewrite brun_snoc. unfold asked in *. rewrite omap_app.
    revert IH. destruct (brun self tr) as [acc q lp ts wg stp cr op os m rs]. cbn [bs_accepted]. intros IH.
    assert (Hr : forall l', acc `sublist_of` omap (fun l => match l with BPut p => Some p | _ => None end) tr ++ l').
    { intros l'. apply sublist_inserts_r. exact IH. }
    unfold bstep. destruct cr; [apply Hr|].
    destruct l as [p| | |k i r|k i cap|k| | |id].
    + destruct (Nat.ltb _ _); cbn [bs_accepted]; [|apply Hr]. cbn. apply sublist_app; [exact IH|reflexivity].
    + destruct lp, q as [|p q]; try apply Hr. destruct (po_peers p); apply Hr.
    + destruct lp, stp; apply Hr.
    + destruct (get_send k i ts) as [[t [p [|st|]]]|]; try apply Hr. destruct (String.eqb p self); [apply Hr|]. destruct r; apply Hr.
    + destruct (get_send k i ts) as [[t [p [|st|]]]|]; apply Hr.
    + destruct (ts !! k) as [[p l [|]]|]; try apply Hr. destruct (forallb is_end l); apply Hr.
    + destruct stp; apply Hr.
    + destruct stp; try apply Hr. destruct (Z.eqb wg 0); apply Hr.
    + destruct (ReleaseStream id m) as [strs m']. apply Hr.
  - intros Ho. pose proof (binv_run self tr) as Hi. fold s in Hi.
    pose proof (bi_out _ _ Hi) as Hf. rewrite Forall_forall in Hf. destruct (Hf o Ho) as (t & cap & H1 & H2 & H3 & H4 & H5).
    exists (tk_post t). split; [|split; [exact H3|split; [exact H2|split; [exact H4|]]]].
    + rewrite (bi_acc _ _ Hi). apply lookup_app_l_Some. change (map tk_post ?l) with (tk_post <$> l). rewrite list_lookup_fmap, H1. reflexivity.
    + intros Hl. pose proof (write_spec (post_data (tk_post t)) (Writer [] cap)) as Hw. cbn zeta in Hw. rewrite H5.
      destruct (WriteStreamWithBuffer (post_data (tk_post t)) (Writer [] cap)) as [ok w]. cbn [snd].
      rewrite N.mod_small in Hw by (unfold limit in Hl; lia). destruct Hw as (Ha & Hb & _).
      eexists. split; [eexists; split; [|reflexivity]; apply put_header; unfold limit in Hl; lia|].
      destruct ok; [rewrite Ha by reflexivity; reflexivity|]. destruct (Hb eq_refl) as (x & Hx & Hp). rewrite Hx. exact Hp.
Qed.
Print Assumptions C142_addressed_only.

(** No peer gets a message more often than it is listed. *)
Theorem C142_at_most_once :
  forall self tr k p q, let s := brun self tr in
    bs_accepted s !! k = Some p -> times_sent k q s <= times_listed q p.
Proof.
  intros self tr k p q s Hk. pose proof (binv_run self tr) as Hi. fold s in Hi.
  destruct (bs_tasks s !! k) as [t|] eqn:Et.
  - rewrite (bi_acc _ _ Hi) in Hk.
    assert (Hp : tk_post t = p).
    { rewrite lookup_app_l in Hk by (rewrite map_length; apply lookup_lt_is_Some; eauto).
      change (map tk_post ?l) with (tk_post <$> l) in Hk. rewrite list_lookup_fmap, Et in Hk. cbn in Hk. congruence. }
    etransitivity; [apply (bi_count _ _ Hi _ _ q Et)|]. subst p.
    destruct (Forall_lookup_1 _ _ _ _ (bi_tasks _ _ Hi) Et) as (Hm & _).
    unfold times_listed, ended_for. rewrite <- Hm. generalize (tk_sends t). intros l. clear.
    induction l as [|x l IH]; [auto|]. cbn [map]. rewrite !filter_cons.
    destruct (decide (sd_peer x = q /\ ended x)) as [[Hx _]|_]; destruct (decide (sd_peer x = q)); try congruence; cbn [length]; lia.
  - assert (Hz : times_sent k q s = 0); [|lia]. unfold times_sent.
    pose proof (bi_out _ _ Hi) as Hf. induction Hf as [|o os Ho Hos IH]; [reflexivity|].
    rewrite filter_cons. destruct (decide _) as [[Hx _]|_]; [|exact IH].
    destruct Ho as (t & cap & Ha & _). congruence.
Qed.
Print Assumptions C142_at_most_once.

Definition ex_post (id : string) (peers : list string) : post := Post peers (Wrapped 0 id (to_bytes "x")).
Definition ex_tr : list blabel :=
  [BPut (ex_post "a" ["p1"; "p2"; "p3"]); BTake; BOpen 0 2 (Some 7); BOpen 0 0 None; BWrite 0 2 1000; BOpen 0 1 (Some 8); BWrite 0 1 3].
Example C142_example :
  let s := brun "p1" ex_tr in
  map (fun o => (ou_task o, ou_peer o, ou_stream o, length (ou_bytes o))) (bs_out s) = [(0, "p3", 7, 56); (0, "p2", 8, 3)] /\
  times_sent 0 "p3" s = 1 /\ times_sent 0 "p1" s = 0 /\ times_listed "p1" (ex_post "a" ["p1"; "p2"; "p3"]) = 1.
Proof. vm_compute. auto. Qed.

(** ** C143 *)
(** While the node is running, and whichever goroutines hang, the other ones can go on
    without them, and then every message ever accepted has reached, as one whole frame,
    every listed peer whose goroutine had not ended before and does not hang. *)
Theorem C143_others_served :
  forall self tr (hang : nat -> nat -> bool), let s := brun self tr in
    bs_stop s = NoStop ->
    exists tr', Forall own_step tr' /\ (forall k i, hang k i = true -> untouched k i tr') /\
      let s' := brun self (tr ++ tr') in
      bs_queue s' = [] /\
      forall k p i q, bs_accepted s !! k = Some p -> po_peers p !! i = Some q -> q <> self ->
        hang k i = false -> ~ finished s k i -> (N.of_nat (length (post_data p)) <= limit)%N ->
        delivered s' k q (post_data p).
Proof.
  intros self tr hang s Hstop. pose proof (binv_run self tr) as Hi. fold s in Hi.
  assert (Hc : bs_crash s = false).
  { destruct (bs_crash s) eqn:E; [|reflexivity]. exfalso. exact (crash_stop self tr E Hstop). }
  pose proof (bi_nostop _ _ Hi Hstop) as Hlp.
  destruct (take_all self s Hc Hlp) as (A1 & A2 & A3 & A4 & A5).
  set (tr1 := replicate (length (bs_queue s)) BTake) in *.
  assert (Hi1 : binv self (brun_from self s tr1)).
  { subst s. rewrite <- brun_app. apply binv_run. }
  assert (Hfin : forall k i, finished (brun_from self s tr1) k i -> finished s k i).
  { intros k i (t & x & Hg & Hx). rewrite A3 in Hg. apply get_send_Some in Hg as [Hg1 Hg2].
    apply lookup_app_Some in Hg1 as [Hg1|[_ Hg1]].
    - exists t, x. split; [apply get_send_Some; auto|exact Hx].
    - exfalso. change (map fresh ?l) with (fresh <$> l) in Hg1. rewrite list_lookup_fmap in Hg1.
      destruct (bs_queue s !! _) as [p|]; [|discriminate]. injection Hg1 as <-. unfold fresh in Hg2.
      destruct (po_peers p) as [|p0 ps] eqn:Ep; cbn [tk_sends] in Hg2; [rewrite lookup_nil in Hg2; discriminate|].
      change (map ?f ?l) with (f <$> l) in Hg2. rewrite list_lookup_fmap in Hg2.
      destruct ((p0 :: ps) !! i); [|discriminate]. injection Hg2 as <-. discriminate. }
  revert A1 A2 A3 A4 A5 Hi1 Hfin. generalize (eq_refl (brun_from self s tr1)). generalize (brun_from self s tr1) at 1 3 4 5 6 7 8 9. intros s1 Es1 A1 A2 A3 A4 A5 Hi1 Hfin.
  set (L := filter (fun x => hang x.1 x.2 = false) (pairs (bs_tasks s1))).
  destruct (plan_spec self L s1 A1) as (P1 & P2 & P3 & P4 & P5).
  exists (tr1 ++ plan self s1 L). split; [|split].
  - apply Forall_app. split.
    + apply Forall_forall. intros l Hl. apply elem_of_replicate in Hl as [-> _]. exact I.
    + eapply Forall_impl; [exact P5|]. intros l (k & i & _ & [[r ->]|[n ->]]); exact I.
  - intros k i Hh. apply Forall_app. split.
    + apply Forall_forall. intros l Hl. apply elem_of_replicate in Hl as [-> _]. exact I.
    + eapply Forall_impl; [exact P5|]. intros l (k' & i' & Hin & Hl). apply elem_of_list_filter in Hin as [Hin _]. cbn in Hin.
      destruct Hl as [[r ->]|[n ->]]; intros [-> ->]; congruence.
  - cbn zeta. rewrite brun_app. fold s. rewrite brun_from_app, <- Es1.
    split; [rewrite (sm_queue _ _ P1); exact A2|].
    intros k p i q Hk Hq Hself Hh Hnf Hl.
    rewrite <- A5, (bi_acc _ _ Hi1), A2, app_nil_r in Hk. change (map tk_post ?l) with (tk_post <$> l) in Hk.
    rewrite list_lookup_fmap in Hk. destruct (bs_tasks s1 !! k) as [t|] eqn:Et; [|discriminate]. injection Hk as Hk.
    destruct (Forall_lookup_1 _ _ _ _ (bi_tasks _ _ Hi1) Et) as (Hm & _).
    assert (Hx : exists x, tk_sends t !! i = Some x /\ sd_peer x = q).
    { rewrite <- Hk, <- Hm in Hq. change (map sd_peer ?l) with (sd_peer <$> l) in Hq. rewrite list_lookup_fmap in Hq.
      destruct (tk_sends t !! i) as [x|]; [|discriminate]. injection Hq as Hq. eauto. }
    destruct Hx as (x & Hx & Hxq).
    assert (Hg : get_send k i (bs_tasks s1) = Some (t, x)) by (apply get_send_Some; auto).
    subst p q. apply (P4 k i t x); auto.
    + apply elem_of_list_filter. split; [exact Hh|]. eapply pairs_in; eauto.
    + intros He. apply Hnf. apply Hfin. exists t, x. auto.
Qed.
Print Assumptions C143_others_served.

(** The goroutine for "p2" hangs; "p3" gets both messages. *)
Example C143_example :
  let tr := [BPut (ex_post "a" ["p2"; "p3"]); BPut (ex_post "b" ["p3"; "p1"]); BTake; BOpen 0 0 (Some 7)] in
  let hang k i := Nat.eqb (k + i) 0 in
  bs_stop (brun "p1" tr) = NoStop /\
  bs_accepted (brun "p1" tr) !! 1 = Some (ex_post "b" ["p3"; "p1"]) /\ hang 1 0 = false /\ hang 0 0 = true /\
  ~ finished (brun "p1" tr) 1 0 /\ ~ finished (brun "p1" tr) 0 1 /\ (N.of_nat (length (post_data (ex_post "b" ["p3"; "p1"]))) <= limit)%N.
Proof.
  split; [reflexivity|]. split; [reflexivity|]. split; [reflexivity|]. split; [reflexivity|].
  split; [|split].
  - intros (t & x & H & _). vm_compute in H. discriminate.
  - intros (t & x & H & Hx). vm_compute in H. injection H as <- <-. discriminate.
  - vm_compute. discriminate.
Qed.

(** ** C144 *)
(** When Stop has returned, every goroutine has ended, and whatever happens later, nothing
    more is opened or written. *)
Theorem C144_stop_waits :
  forall self tr tr', let s := brun self tr in
    bs_stop s = Stopped ->
    (forall k i, started s k i -> finished s k i) /\ bs_loop s = false /\
    bs_out (brun self (tr ++ tr')) = bs_out s /\ bs_opened (brun self (tr ++ tr')) = bs_opened s.
Proof.
  intros self tr tr' s Hs. pose proof (binv_run self tr) as Hi. fold s in Hi.
  pose proof (stopped_halted _ _ Hi Hs) as Hh. split; [|split; [apply Hh|]].
  - intros k i (t & x & Hg). exists t, x. split; [exact Hg|]. apply get_send_Some in Hg as [H1 H2].
    apply elem_of_list_lookup_2 in H1. exact (Forall_lookup_1 _ _ _ _ (proj2 Hh t H1) H2).
  - rewrite brun_app. fold s. apply halted_run. exact Hh.
Qed.
Print Assumptions C144_stop_waits.

(** A call of Stop returns once the goroutines it waits for have ended: there is always a
    way for them to end. *)
Theorem C144_stop_returns :
  forall self tr, bs_stop (brun self tr) = Waiting -> bs_crash (brun self tr) = false ->
    exists tr', Forall own_step tr' /\ bs_stop (brun self (tr ++ tr')) = Stopped.
Proof.
  intros self tr Hs Hc. set (s := brun self tr) in *.
  (* the loop ends *)
  set (s1 := bstep self BExit s).
  assert (H1 : bs_stop s1 = Waiting /\ bs_crash s1 = false /\ bs_loop s1 = false).
  { unfold s1, bstep. destruct s as [acc q lp ts wg stp cr op os m rs]. cbn [bs_stop bs_crash] in *. subst. destruct lp; auto. }
  destruct H1 as (A1 & A2 & A3).
  destruct (plan_spec self (pairs (bs_tasks s1)) s1 A2) as (P1 & P2 & P3 & _ & P5).
  set (s2 := brun_from self s1 (plan self s1 (pairs (bs_tasks s1)))) in *.
  assert (B : bs_stop s2 = Waiting /\ bs_crash s2 = false /\ bs_loop s2 = false).
  { rewrite (sm_stop _ _ P1), (sm_crash _ _ P1), (sm_loop _ _ P1). auto. }
  destruct B as (B1 & B2 & B3).
  assert (Hend : forall t, t ∈ bs_tasks s2 -> Forall ended (tk_sends t)).
  { intros t Hin. apply elem_of_list_lookup_1 in Hin as [k Hk]. apply Forall_lookup. intros i x Hx.
    assert (Hg : status s2 k i = Some x) by (unfold status; rewrite (proj2 (get_send_Some _ _ _ t x)); auto).
    destruct (decide ((k, i) ∈ pairs (bs_tasks s1))) as [Hin|Hin].
    - destruct (get_send k i (bs_tasks s1)) as [[t1 x1]|] eqn:Eg.
      + assert (Hst : status s1 k i = Some x1) by (unfold status; rewrite Eg; reflexivity).
        rewrite (P3 k i x1 Hin Hst) in Hg. injection Hg as <-. reflexivity.
      + exfalso. unfold pairs in Hin. apply elem_of_list_join in Hin as (l & Hl & Hin). apply elem_of_lookup_imap in Hin as (k' & t' & -> & Hk').
        apply elem_of_list_fmap in Hl as (i' & [= -> ->] & Hi'). apply elem_of_seq in Hi'.
        assert (Hx' : is_Some (tk_sends t' !! i')) by (apply lookup_lt_is_Some; lia). destruct Hx' as [y Hy].
        rewrite (proj2 (get_send_Some k' i' _ t' y)) in Eg by auto. discriminate.
    - rewrite P2 in Hg by exact Hin. unfold status in Hg. destruct (get_send k i (bs_tasks s1)) as [[t1 x1]|] eqn:Eg; [|discriminate].
      exfalso. apply Hin. eapply pairs_in; eauto. }
  destruct (over_all self (length (bs_tasks s2)) s2 B2 ltac:(lia) Hend) as (C1 & C2 & C3 & C4 & _ & C6).
  set (tr3 := map BOver (seq 0 (length (bs_tasks s2)))) in *.
  exists ([BExit] ++ plan self s1 (pairs (bs_tasks s1)) ++ tr3 ++ [BStopped]). split.
  - apply Forall_app. split; [constructor; [exact I|constructor]|]. apply Forall_app. split.
    + eapply Forall_impl; [exact P5|]. intros l (k & i & _ & [[r ->]|[n ->]]); exact I.
    + apply Forall_app. split; [|constructor; [exact I|constructor]]. apply Forall_forall. intros l Hl.
      apply elem_of_list_fmap in Hl as (k & -> & _). exact I.
  - assert (E3 : brun_from self s2 tr3 = brun self (tr ++ [BExit] ++ plan self s1 (pairs (bs_tasks s1)) ++ tr3)).
    { rewrite !app_assoc, brun_app, <- !app_assoc. rewrite brun_app. fold s.
      rewrite brun_from_app. reflexivity. }
    pose proof (binv_run self (tr ++ [BExit] ++ plan self s1 (pairs (bs_tasks s1)) ++ tr3)) as Hi. rewrite <- E3 in Hi.
    replace (tr ++ [BExit] ++ plan self s1 (pairs (bs_tasks s1)) ++ tr3 ++ [BStopped])
      with ((tr ++ [BExit] ++ plan self s1 (pairs (bs_tasks s1)) ++ tr3) ++ [BStopped]) by (rewrite <- !app_assoc; reflexivity).
    rewrite brun_snoc, <- E3.
    pose proof (bi_wg _ _ Hi) as Hw. rewrite C2, B3 in Hw.
    assert (Hr : filter running (bs_tasks (brun_from self s2 tr3)) = []).
    { destruct (filter running (bs_tasks (brun_from self s2 tr3))) as [|t l] eqn:E; [reflexivity|]. exfalso.
      assert (Hin : t ∈ filter running (bs_tasks (brun_from self s2 tr3))) by (rewrite E; left).
      apply elem_of_list_filter in Hin as [Hr Hin]. apply elem_of_list_lookup_1 in Hin as [k Hk].
      assert (Hlt : k < length (bs_tasks s2)) by (rewrite <- C4; eapply lookup_lt_Some; eauto).
      specialize (C6 k t Hlt Hk). unfold running in Hr. congruence. }
    rewrite Hr in Hw. cbn in Hw. rewrite B1 in C3. revert C1 C3 Hw.
    destruct (brun_from self s2 tr3) as [acc q lp ts wg stp cr op os m rs]. cbn [bs_crash bs_stop bs_wg]. intros -> -> ->. reflexivity.
Qed.
Print Assumptions C144_stop_returns.

(** The counter of the wait group never goes below zero (which would be a panic), and the
    only panic there is comes from a second call of Stop. *)
Theorem C144_only_second_stop_crashes :
  forall self tr, (0 <= bs_wg (brun self tr))%Z /\
    (bs_crash (brun self tr) = true -> 2 <= stop_calls tr).
Proof.
  intros self tr. split.
  - rewrite (bi_wg _ _ (binv_run self tr)). destruct (bs_loop _); lia.
  - assert (H : (bs_stop (brun self tr) <> NoStop -> 1 <= stop_calls tr) /\
      (bs_crash (brun self tr) = true -> 2 <= stop_calls tr)); [|apply H].
    induction tr as [|l tr IH] using rev_ind; [cbn; split; congruence|]. rewrite brun_snoc.
    assert (Hsp : stop_calls (tr ++ [l]) = stop_calls tr + stop_calls [l]) by (unfold stop_calls; rewrite omap_app, app_length; reflexivity). rewrite Hsp. clear Hsp.
    revert IH. destruct (brun self tr) as [acc q lp ts wg stp cr op os m rs]. cbn [bs_stop bs_crash]. intros [IH1 IH2].
    assert (Hr : (stp <> NoStop -> 1 <= stop_calls tr + stop_calls [l]) /\
      (cr = true -> 2 <= stop_calls tr + stop_calls [l])).
    { split; intros Hx; [specialize (IH1 Hx)|specialize (IH2 Hx)]; lia. }
    unfold bstep. destruct cr; [exact Hr|].
    destruct l as [p| | |k i r|k i cap|k| | |id].
    + destruct (Nat.ltb _ _); exact Hr.
    + destruct lp, q as [|p q]; try exact Hr. destruct (po_peers p); exact Hr.
    + destruct lp, stp; exact Hr.
    + destruct (get_send k i ts) as [[t [p [|st|]]]|]; try exact Hr. destruct (String.eqb p self); [exact Hr|]. destruct r; exact Hr.
    + destruct (get_send k i ts) as [[t [p [|st|]]]|]; exact Hr.
    + destruct (ts !! k) as [[p l [|]]|]; try exact Hr. destruct (forallb is_end l); exact Hr.
    + change (stop_calls [BStop]) with 1.
      destruct stp; cbn [bs_stop bs_crash]; (split; [lia|]); [discriminate| |]; intros _; specialize (IH1 ltac:(discriminate)); lia.
    + destruct stp; try exact Hr. destruct (Z.eqb wg 0); [|exact Hr]. cbn [bs_stop bs_crash]. split; [|discriminate].
      intros _. specialize (IH1 ltac:(discriminate)). lia.
    + destruct (ReleaseStream id m) as [strs m']. exact Hr.
Qed.
Print Assumptions C144_only_second_stop_crashes.

(** Stop is called while a goroutine is writing; it returns after that. *)
Example C144_example :
  let tr := [BPut (ex_post "a" ["p2"]); BTake; BOpen 0 0 (Some 7); BStop; BStopped; BExit; BStopped] in
  let tr' := [BWrite 0 0 1000; BOver 0; BStopped] in
  bs_stop (brun "p1" tr) = Waiting /\ bs_crash (brun "p1" tr) = false /\ bs_stop (brun "p1" (tr ++ tr')) = Stopped /\
  started (brun "p1" (tr ++ tr')) 0 0.
Proof. split; [reflexivity|]. split; [reflexivity|]. split; [reflexivity|]. eexists _, _. reflexivity. Qed.

(** ** C145 *)
(** Stop may not be called twice: the second call panics. *)
Theorem C145_stop_twice_refuted :
  forall self tr, bs_crash (brun self tr) = false -> bs_stop (brun self tr) <> NoStop ->
    bs_crash (brun self (tr ++ [BStop])) = true.
Proof.
  intros self tr. rewrite brun_snoc. destruct (brun self tr) as [acc q lp ts wg stp cr op os m rs].
  cbn [bs_crash bs_stop]. intros -> H. destruct stp; [congruence|reflexivity|reflexivity].
Qed.
Print Assumptions C145_stop_twice_refuted.
Example C145_example :
  bs_crash (brun "p1" [BStop; BExit; BStopped]) = false /\ bs_stop (brun "p1" [BStop; BExit; BStopped]) = Stopped.
Proof. auto. Qed.

(** ** C146 *)
(** A message that was accepted need not be sent by the time Stop returns, and never is
    afterwards. *)
Theorem C146_accepted_lost_refuted :
  forall self q p, q <> self -> po_peers p = [q] ->
    exists tr, bs_accepted (brun self tr) = [p] /\ bs_stop (brun self tr) = Stopped /\
      forall tr', bs_out (brun self (tr ++ tr')) = [].
Proof.
  intros self q p Hq Hp. exists [BPut p; BStop; BExit; BStopped].
  split; [reflexivity|]. split; [reflexivity|]. intros tr'.
  destruct (C144_stop_waits self [BPut p; BStop; BExit; BStopped] tr' eq_refl) as (_ & _ & -> & _). reflexivity.
Qed.
Print Assumptions C146_accepted_lost_refuted.
Example C146_example : "p2" <> "p1" /\ po_peers (ex_post "a" ["p2"]) = ["p2"].
Proof. split; [discriminate|reflexivity]. Qed.

Lemma puts_n self : forall n p s, bs_crash s = false -> length (bs_queue s) + n <= queue_cap ->
  let s' := brun_from self s (replicate n (BPut p)) in
  bs_crash s' = false /\ bs_loop s' = bs_loop s /\ length (bs_queue s') = length (bs_queue s) + n.
Proof.
  induction n as [|n IH]; intros p s Hc Hn; [cbn; auto|].
  cbn [replicate]. change (brun_from self s (BPut p :: ?l)) with (brun_from self (bstep self (BPut p) s) l).
  destruct s as [acc q lp ts wg stp cr op os m rs]. cbn [bs_crash bs_queue bs_loop] in *. subst cr.
  assert (Hlt : (length q <? queue_cap) = true) by (apply Nat.ltb_lt; lia).
  unfold bstep at 1 2 3. cbn zeta. rewrite Hlt.
  destruct (IH p (BState (acc ++ [p]) (q ++ [p]) lp ts wg stp false op os m rs) eq_refl) as (H1 & H2 & H3).
  { cbn [bs_queue]. rewrite app_length. cbn [length]. lia. }
  cbn zeta in H1, H2, H3. rewrite H1, H2, H3. cbn [bs_loop bs_queue]. rewrite app_length. cbn [length]. split; [reflexivity|]. split; [reflexivity|]. lia.
Qed.
(** After Stop, a ceremony that wants to send waits for ever once the queue is full. *)
Theorem C146_sender_blocked_refuted :
  forall self (p : post), exists tr, bs_crash (brun self tr) = false /\ bs_stop (brun self tr) = Stopped /\
    asked tr = replicate queue_cap p /\
    forall tr', bs_accepted (brun self (tr ++ tr')) = bs_accepted (brun self tr).
Proof.
  intros self p. exists ([BStop; BExit; BStopped] ++ replicate queue_cap (BPut p)). rewrite brun_app.
  set (s0 := brun self [BStop; BExit; BStopped]).
  assert (Hinv : forall tr s, bs_loop s = false -> queue_cap <= length (bs_queue s) ->
    bs_accepted (brun_from self s tr) = bs_accepted s).
  { induction tr as [|l tr IH]; intros s Hl Hq; [reflexivity|].
    change (brun_from self s (l :: tr)) with (brun_from self (bstep self l s) tr).
    assert (H : bs_loop (bstep self l s) = false /\ bs_queue (bstep self l s) = bs_queue s /\ bs_accepted (bstep self l s) = bs_accepted s).
    { destruct s as [acc q lp ts wg stp cr op os m rs]. cbn [bs_loop bs_queue bs_accepted] in *. subst lp. unfold bstep. destruct cr; [auto|].
      destruct l as [p'| | |k i r|k i cap|k| | |id].
      - assert (Hlt : (length q <? queue_cap) = false) by (apply Nat.ltb_ge; exact Hq). rewrite Hlt. auto.
      - auto.
      - auto.
      - destruct (get_send k i ts) as [[t [p' [|st|]]]|]; auto. destruct (String.eqb p' self); [auto|]. destruct r; auto.
      - destruct (get_send k i ts) as [[t [p' [|st|]]]|]; auto.
      - destruct (ts !! k) as [[p' l [|]]|]; auto. destruct (forallb is_end l); auto.
      - destruct stp; auto.
      - destruct stp; auto. destruct (Z.eqb wg 0); auto.
      - destruct (ReleaseStream id m) as [strs m']. auto. }
    destruct H as (H1 & H2 & H3). rewrite IH; [exact H3|exact H1|rewrite H2; exact Hq]. }
  assert (Hst : forall n s, bs_stop (brun_from self s (replicate n (BPut p))) = bs_stop s).
  { induction n as [|n IH]; intros s; [reflexivity|]. cbn [replicate].
    change (brun_from self s (BPut p :: ?l)) with (brun_from self (bstep self (BPut p) s) l). rewrite IH.
    destruct s as [acc q lp ts wg stp cr op os m rs]. unfold bstep. destruct cr; [reflexivity|]. destruct (Nat.ltb _ _); reflexivity. }
  destruct (puts_n self queue_cap p s0 eq_refl) as (H1 & H2 & H3); [cbn [s0 bs_queue length]; change (length (bs_queue s0)) with 0; lia|].
  split; [exact H1|]. split; [rewrite Hst; reflexivity|]. split.
  { unfold asked. rewrite omap_app. cbn [omap list_omap app]. generalize queue_cap. induction n as [|n IH]; [reflexivity|]. cbn [replicate]. rewrite <- IH. reflexivity. }
  intros tr'. rewrite brun_app, brun_app. fold s0. apply Hinv.
  - rewrite H2. reflexivity.
  - rewrite H3. change (length (bs_queue s0)) with 0. lia.
Qed.
Print Assumptions C146_sender_blocked_refuted.

(** ** C147 *)
(** Two messages for one peer can be written in the opposite order. *)
Theorem C147_order_refuted :
  forall self q p1 p2, q <> self -> po_peers p1 = [q] -> po_peers p2 = [q] ->
    exists tr, bs_accepted (brun self tr) = [p1; p2] /\
      map (fun o => (ou_task o, ou_peer o)) (bs_out (brun self tr)) = [(1, q); (0, q)].
Proof.
  intros self q p1 p2 Hq H1 H2.
  exists [BPut p1; BPut p2; BTake; BTake; BOpen 0 0 (Some 7); BOpen 1 0 (Some 8); BWrite 1 0 0; BWrite 0 0 0].
  assert (He : String.eqb q self = false) by (apply String.eqb_neq; exact Hq).
  unfold brun, brun_from, b_init. cbn [fold_left]. 
  repeat first [progress (cbn [bstep bs_accepted bs_out length app queue_cap map get_send set_send tk_sends tk_post tk_over po_peers]) | rewrite H1 | rewrite H2 | rewrite He
    | progress (unfold get_send, set_send, queue_cap) | progress cbn ].
  auto.
Qed.
Print Assumptions C147_order_refuted.
Example C147_example : "p2" <> "p1" /\ po_peers (ex_post "a" ["p2"]) = ["p2"] /\ po_peers (ex_post "b" ["p2"]) = ["p2"].
Proof. split; [discriminate|split; reflexivity]. Qed.

(** ** C148 *)
(** Every stream the node opened is in use by a goroutine, or recorded under the id of its
    message, or was reset. After Stop has returned none is in use. *)
Theorem C148_streams_recorded :
  forall self tr st id, let s := brun self tr in
    (st, id) ∈ bs_opened s ->
    (in_use (bs_tasks s) st id \/ accounted s st id) /\ (bs_stop s = Stopped -> accounted s st id).
Proof.
  intros self tr st id s Hin. pose proof (binv_run self tr) as Hi. fold s in Hi.
  pose proof (bi_open _ _ Hi st id Hin) as H. split; [exact H|]. intros Hs. destruct H as [(k & i & t & p & Hg & _)|H]; [|exact H].
  exfalso. pose proof (stopped_halted _ _ Hi Hs) as [_ Hh]. apply get_send_Some in Hg as [H1 H2].
  apply elem_of_list_lookup_2 in H1. pose proof (Forall_lookup_1 _ _ _ _ (Hh t H1) H2) as He. discriminate.
Qed.
Print Assumptions C148_streams_recorded.
(** A recorded stream is reset when the request is released. *)
Theorem C148_release_resets :
  forall self tr st id l, let s := brun self tr in
    bs_crash s = false -> bs_mgr s !! id = Some l -> st ∈ l ->
    st ∈ bs_reset (brun self (tr ++ [BRelease id])).
Proof.
  intros self tr st id l s Hc Hl Hst. rewrite brun_snoc. fold s. revert Hc Hl.
  destruct s as [acc q lp ts wg stp cr op os m rs]. cbn [bs_crash bs_mgr]. intros -> Hl.
  unfold bstep, ReleaseStream, release_read. rewrite Hl. cbn. apply elem_of_app. right. apply elem_of_app. left. exact Hst.
Qed.
Print Assumptions C148_release_resets.
Example C148_example :
  let s := brun "p1" ex_tr in bs_opened s = [(7, "a"); (8, "a")] /\ bs_mgr s !! "a" = Some [7; 8] /\ bs_crash s = false.
Proof. vm_compute. auto. Qed.

(** ** C149 *)
(** A stream opened for a request can outlive the release of the request: a goroutine that
    ends after the release records its stream under an id nobody releases again. *)
Theorem C149_stream_left_refuted :
  forall self q p st, q <> self -> po_peers p = [q] ->
    let id := wr_id (po_msg p) in
    exists tr, (st, id) ∈ bs_opened (brun self tr) /\ BRelease id ∈ tr /\
      forall tr', Forall (fun l => l <> BRelease id /\ forall k i, l <> BOpen k i (Some st)) tr' ->
        id <> UNKNOWN -> st ∉ bs_reset (brun self (tr ++ tr')).
Proof.
  intros self q p st Hq Hp id.
  set (tr := [BPut p; BTake; BOpen 0 0 (Some st); BRelease id; BWrite 0 0 0; BOver 0]). exists tr.
  assert (He : String.eqb q self = false) by (apply String.eqb_neq; exact Hq).
  assert (Hst : exists os, brun self tr = BState [p] [] true [Task p [Send q SEnd] true] 1 NoStop false [(st, id)] os {[id := [st]]} []).
  { eexists. unfold tr, brun, brun_from, b_init. cbn [fold_left].
    assert (E1 : bstep self (BPut p) (BState [] [] true [] 1 NoStop false [] [] ∅ []) = BState [p] [p] true [] 1 NoStop false [] [] ∅ []) by reflexivity.
    rewrite E1. clear E1.
    assert (E2 : bstep self BTake (BState [p] [p] true [] 1 NoStop false [] [] ∅ []) = BState [p] [] true [Task p [Send q SReady] false] 2 NoStop false [] [] ∅ []).
    { unfold bstep. rewrite Hp. reflexivity. }
    rewrite E2. clear E2.
    assert (E3 : bstep self (BOpen 0 0 (Some st)) (BState [p] [] true [Task p [Send q SReady] false] 2 NoStop false [] [] ∅ []) =
      BState [p] [] true [Task p [Send q (SOpen st)] false] 2 NoStop false [(st, id)] [] ∅ []).
    { unfold bstep. cbn [get_send lookup list_lookup tk_sends]. rewrite He. reflexivity. }
    rewrite E3. clear E3.
    assert (E4 : bstep self (BRelease id) (BState [p] [] true [Task p [Send q (SOpen st)] false] 2 NoStop false [(st, id)] [] ∅ []) =
      BState [p] [] true [Task p [Send q (SOpen st)] false] 2 NoStop false [(st, id)] [] ∅ []).
    { unfold bstep, ReleaseStream, release_read. rewrite !lookup_empty. reflexivity. }
    rewrite E4. clear E4.
    unfold bstep at 2. cbn [get_send lookup list_lookup tk_sends].
    cbn [tk_post set_send]. unfold bstep. cbn. unfold AddStream. rewrite lookup_empty. fold id. reflexivity. }
  destruct Hst as [os Hst]. rewrite Hst. split; [left|]. split; [unfold tr; do 3 right; left|].
  intros tr' Hf Hid. rewrite brun_app, Hst.
  set (J := fun s : bstate => st ∉ bs_reset s /\ (forall i l, bs_mgr s !! i = Some l -> st ∈ l -> i = id) /\
     forall k i t x, get_send k i (bs_tasks s) = Some (t, Send x (SOpen st)) -> False).
  assert (HJ : forall tr s, Forall (fun l => l <> BRelease id /\ forall k i, l <> BOpen k i (Some st)) tr -> J s -> J (brun_from self s tr)).
  { clear -Hid. intros tr. induction tr as [|l tr IH]; intros s Hf Hs; [exact Hs|]. apply Forall_cons in Hf as [[Hl1 Hl2] Hf'].
    change (brun_from self s (l :: tr)) with (brun_from self (bstep self l s) tr). apply IH; [exact Hf'|]. clear IH Hf'.
    destruct s as [acc q lp ts wg stp cr op os m rs]. destruct Hs as (J1 & J2 & J3). cbn [bs_reset bs_mgr bs_tasks] in *.
    assert (Hself : J (BState acc q lp ts wg stp false op os m rs)) by (repeat split; assumption).
    assert (Hset : forall k i x, (sd_stat x <> SOpen st) -> forall k' i' t y, get_send k' i' (set_send k i x ts) = Some (t, Send y (SOpen st)) -> False).
    { intros k i x Hx k' i' t y Hg. destruct (decide ((k', i') = (k, i))) as [[= -> ->]|Hne].
      - unfold set_send in Hg. destruct (ts !! k) as [t0|] eqn:Ek; [|apply (J3 _ _ _ _ Hg)].
        apply get_send_Some in Hg as [G1 G2]. rewrite list_lookup_insert in G1 by (apply lookup_lt_is_Some; eauto).
        injection G1 as <-. cbn [tk_sends] in G2. destruct (decide (i < length (tk_sends t0))) as [Hi|Hi].
        + rewrite list_lookup_insert in G2 by exact Hi. injection G2 as ->. apply Hx. reflexivity.
        + apply lookup_lt_Some in G2. rewrite insert_length in G2. lia.
      - pose proof (set_send_status k i x ts k' i' Hne) as Hs. rewrite Hg in Hs. cbn in Hs.
        destruct (get_send k' i' ts) as [[t' y']|] eqn:E; [|discriminate]. cbn in Hs. injection Hs as <-. exact (J3 _ _ _ _ E). }
    unfold bstep. destruct cr; [repeat split; assumption|].
    destruct l as [p'| | |k i r|k i cap|k| | |id'].
    - destruct (Nat.ltb _ _); exact Hself.
    - destruct lp, q as [|p' q]; try exact Hself.
      assert (Hg : forall t0, (forall i x, tk_sends t0 !! i <> Some (Send x (SOpen st))) -> forall k i t x, get_send k i (ts ++ [t0]) = Some (t, Send x (SOpen st)) -> False).
      { intros t0 Ht0 k i t x Hg. apply get_send_Some in Hg as [G1 G2]. apply lookup_app_Some in G1 as [G1|[_ G1]].
        - eapply J3. apply get_send_Some. eauto.
        - apply list_lookup_singleton_Some in G1 as [_ <-]. eapply Ht0; eauto. }
      destruct (po_peers p') as [|p0 ps]; (split; [exact J1|]; split; [exact J2|]); apply Hg; intros i x Hx; cbn [tk_sends] in Hx.
      + rewrite lookup_nil in Hx. discriminate.
      + change (map ?f ?l) with (f <$> l) in Hx. rewrite list_lookup_fmap in Hx. destruct ((p0 :: ps) !! i); discriminate.
    - destruct lp, stp; exact Hself.
    - destruct (get_send k i ts) as [[t [p' [|st'|]]]|]; try exact Hself.
      destruct (String.eqb p' self); [split; [exact J1|]; split; [exact J2|]; apply Hset; discriminate|].
      destruct r as [st'|]; (split; [exact J1|]; split; [exact J2|]); apply Hset; [|discriminate]. cbn. intros [= ->]. exact (Hl2 k i eq_refl).
    - destruct (get_send k i ts) as [[t [p' [|st'|]]]|] eqn:Eg; try exact Hself.
      split; [exact J1|]. split; [|apply Hset; discriminate]. cbn [bs_mgr]. intros i' l Hl Hin.
      assert (Hne : st' <> st) by (intros ->; exact (J3 _ _ _ _ Eg)).
      unfold AddStream in Hl. destruct (m !! wr_id (po_msg (tk_post t))) as [e|] eqn:Em.
      + destruct (decide (i' = wr_id (po_msg (tk_post t)))) as [->|Hn].
        * rewrite lookup_insert in Hl. injection Hl as <-. apply elem_of_app in Hin as [Hin|Hin]; [eapply J2; eauto|].
          apply elem_of_list_singleton in Hin. congruence.
        * rewrite lookup_insert_ne in Hl by congruence. eapply J2; eauto.
      + destruct (decide (i' = wr_id (po_msg (tk_post t)))) as [->|Hn].
        * rewrite lookup_insert in Hl. injection Hl as <-. apply elem_of_list_singleton in Hin. congruence.
        * rewrite lookup_insert_ne in Hl by congruence. eapply J2; eauto.
    - destruct (ts !! k) as [[p' l [|]]|] eqn:Ek; try exact Hself. destruct (forallb is_end l); [|exact Hself].
      split; [exact J1|]. split; [exact J2|]. cbn [bs_tasks]. intros k' i' t x Hg. apply get_send_Some in Hg as [G1 G2].
      destruct (decide (k' = k)) as [->|Hn].
      + rewrite list_lookup_insert in G1 by (apply lookup_lt_is_Some; eauto). injection G1 as <-. cbn [tk_sends] in G2.
        eapply (J3 k i'). apply get_send_Some. split; [exact Ek|exact G2].
      + rewrite list_lookup_insert_ne in G1 by congruence. eapply J3. apply get_send_Some. eauto.
    - destruct stp; exact Hself.
    - destruct stp; try exact Hself. destruct (Z.eqb wg 0); exact Hself.
    - assert (Hne : id' <> id) by congruence. unfold ReleaseStream, release_read.
      assert (Hno : forall i, i <> id -> st ∉ default [] (m !! i)).
      { intros i Hi Hin. destruct (m !! i) as [l|] eqn:E; [|inversion Hin]. cbn in Hin. apply Hi. eapply J2; eauto. }
      assert (Hrs : st ∉ rs ++ default [] (m !! id') ++ default [] (m !! UNKNOWN)).
      { intros Hin. apply elem_of_app in Hin as [Hin|Hin]; [exact (J1 Hin)|]. apply elem_of_app in Hin as [Hin|Hin]; revert Hin; apply Hno; congruence. }
      assert (Hdel : forall i l, delete id' m !! i = Some l -> st ∈ l -> i = id).
      { intros i l Hl Hin. apply lookup_delete_Some in Hl as [_ Hl]. eapply J2; eauto. }
      destruct (m !! id') as [l1|], (m !! UNKNOWN) as [l2|]; cbn [fst snd];
        (split; [cbn [bs_reset]; first [exact Hrs|rewrite app_nil_r; exact J1]|split; [first [exact Hdel|exact J2]|exact J3]]). }
  apply HJ; [exact Hf|]. split; [cbn; intros Hin; inversion Hin|]. split.
  - cbn [bs_mgr]. intros i l Hl _. apply lookup_singleton_Some in Hl as [-> _]. reflexivity.
  - cbn [bs_tasks]. intros k i t x Hg. apply get_send_Some in Hg as [G1 G2]. apply list_lookup_singleton_Some in G1 as [-> <-].
    cbn [tk_sends] in G2. apply list_lookup_singleton_Some in G2 as [_ G2]. discriminate.
Qed.
Print Assumptions C149_stream_left_refuted.
Example C149_example :
  "p2" <> "p1" /\ po_peers (ex_post "a" ["p2"]) = ["p2"] /\ wr_id (po_msg (ex_post "a" ["p2"])) <> UNKNOWN /\
  Forall (fun l => l <> BRelease "a" /\ forall k i, l <> BOpen k i (Some 7)) [BRelease "b"; BStop; BExit; BStopped].
Proof. split; [discriminate|]. split; [reflexivity|]. split; [discriminate|]. repeat constructor; discriminate. Qed.
