(** Lemmas about a ceremony of honest nodes: the network as a whole. *)
From Coq Require Import ZArith NArith Ascii String List Lia.
From stdpp Require Import base list strings gmap.
From Verif Require Import Base L_Base S_Threshold M_Common S_Common L_Common L_Common2 L_Common3 L_Agree M_Honest S_Honest
  L_Honest L_Honest2.

Section Net.
  Context (E : env) (N : ceremony).
  Hypothesis Hwf : well_formed E N.
  Notation at_node := (at_node E N).
  Notation handled_at s q := (handled E (cfg_of N q) (ns_trace s q)).

  (** A message is in the air or was handled. *)
  Definition arrives (s : nstate) (p q : string) (m : inmsg) : Prop :=
    (p, q, m) ∈ ns_air s \/ handled_at s q p m.

  Record netinv (s : nstate) : Prop := {
    ni_fair : fair E N (ns_sent s);
    ni_labels : forall q, Forall (label_ok E N (ns_sent s) q) (ns_trace s q);
    ni_air : forall p q m, (p, q, m) ∈ ns_air s -> legit E N (ns_sent s) p q m;
    ni_sent : forall x p q, x ∈ ns_sent s -> ce_peers N !! sn_id x = Some p -> q ∈ sn_to x ->
      arrives s p q (MShare (sn_type x) (Some (sn_wire x)));
    ni_out : forall p q o, o ∈ s_out (at_node s p) -> q ∈ o_peers o -> arrives s p q (o_msg o);
    ni_done : forall p, p ∈ ns_done s -> member N p /\ forall q, q ∈ others N p -> arrives s p q (MDone (Some true)) }.

  Lemma ni_good s q : netinv s -> member N q -> good E N q (ns_sent s) (at_node s q).
  Proof. intros Hi Hq. apply good_run; [exact Hwf|apply (ni_fair _ Hi)|exact Hq|apply (ni_labels _ Hi)]. Qed.

  Lemma elem_of_frames p q m p' m' to : (p, q, m) ∈ frames p' m' to <-> p = p' /\ m = m' /\ q ∈ to.
  Proof.
    unfold frames. rewrite elem_of_list_In, in_map_iff. split.
    - intros (q' & Heq & Hin). injection Heq as <- <- <-. apply elem_of_list_In in Hin. auto.
    - intros (-> & -> & Hin). exists q. split; [reflexivity|]. apply elem_of_list_In. exact Hin.
  Qed.
  Lemma elem_of_frames_of p q m p' outs : (p, q, m) ∈ frames_of p' outs <->
    p = p' /\ exists o, o ∈ outs /\ m = o_msg o /\ q ∈ o_peers o.
  Proof.
    unfold frames_of. rewrite elem_of_flat_map. split.
    - intros (o & Ho & Hin). apply elem_of_frames in Hin as (-> & -> & Hin). eauto.
    - intros (-> & o & Ho & -> & Hin). exists o. split; [exact Ho|]. apply elem_of_frames. auto.
  Qed.

  Lemma local_out C s l : local_step l -> s_out (step E C s l) = s_out s.
  Proof.
    intros Hl. unfold step. destruct (s_crash s); [reflexivity|].
    destruct l as [o1 o2 p m| | |k res|k]; cbn in Hl.
    - destruct Hl.
    - destruct (s_cur s) as [[[|b rest] key w]|]; try reflexivity. unfold update_one.
      destruct (bool_decide _); [|reflexivity].
      destruct (b_routing b) as [[[| |id] to bc]|]; try reflexivity.
      destruct (cf_parties C !! id); [|reflexivity].
      destruct (GetMsgRound _ _ _ _ _); [|reflexivity].
      destruct (CheckMsgDuplication _ _ _); [reflexivity|].
      destruct (existsb _ _); reflexivity.
    - destruct (s_cur s) as [[[|b rest] key w]|]; try reflexivity.
      destruct (batch_done s); [|reflexivity]. destruct key; reflexivity.
    - subst res. unfold work. destruct (s_pending s !! k); [|reflexivity].
      destruct (GetMsgRound _ _ _ _ _); reflexivity.
    - unfold accept. destruct (s_updated s !! k); [|reflexivity].
      destruct (GetMsgRound _ _ _ _ _); reflexivity.
  Qed.

  Lemma does_self s p l : does s p l p = (ns_trace s p ++ [l])%list.
  Proof. unfold does. destruct (decide (p = p)); congruence. Qed.
  Lemma does_other s p l q : q <> p -> does s p l q = ns_trace s q.
  Proof. intros Hn. unfold does. destruct (decide (q = p)); congruence. Qed.

  Lemma does_handled s p l q p' m :
    handled_at s q p' m -> handled E (cfg_of N q) (does s p l q) p' m.
  Proof.
    intros Hh. destruct (decide (q = p)) as [->|Hn].
    - rewrite does_self. apply handled_snoc. exact Hh.
    - rewrite does_other by exact Hn. exact Hh.
  Qed.

  Lemma does_labels S s p l q : Forall (label_ok E N S q) (ns_trace s q) ->
    (q = p -> label_ok E N S q l) -> Forall (label_ok E N S q) (does s p l q).
  Proof.
    intros Ht Hl. destruct (decide (q = p)) as [->|Hn].
    - rewrite does_self. apply Forall_app. split; [exact Ht|]. repeat constructor. auto.
    - rewrite does_other by exact Hn. exact Ht.
  Qed.

  Lemma netinv_init : netinv n_init.
  Proof.
    constructor; cbn.
    - constructor.
    - constructor.
    - intros p q m Hin. inversion Hin.
    - intros x p q Hin. inversion Hin.
    - intros p q o Hin. inversion Hin.
    - intros p Hin. inversion Hin.
  Qed.

  Lemma netinv_step k s s' : netinv s -> nstep E N k s s' -> netinv s'.
  Proof.
    intros Hi Hst. destruct Hst as [s x p l Hx|s id p Hid|s a b p q m o1 o2 Hair Hcur tr st'|s f Hf|s q l Hl].
    - (* a share is produced *)
      pose proof (fair_snoc E N _ _ _ _ (ni_fair _ Hi) Hx) as HS.
      assert (Hsub : forall y, y ∈ ns_sent s -> y ∈ (ns_sent s ++ [x])%list) by (intros y Hy; apply elem_of_app; auto).
      assert (Harr : forall p' q' m', arrives s p' q' m' ->
                arrives (NState (ns_trace s) (ns_air s ++ frames p (MShare (sn_type x) (Some (sn_wire x))) (sn_to x))
                           (ns_sent s ++ [x]) (ns_done s)) p' q' m').
      { intros p' q' m' [Ha|Ha]; [left; apply elem_of_app; auto|right; exact Ha]. }
      constructor; cbn [ns_trace ns_air ns_sent ns_done].
      + exact HS.
      + intros q. eapply Forall_impl; [apply (ni_labels _ Hi)|]. intros l'. apply label_ok_mono, Hsub.
      + intros p' q' m' Hin. apply elem_of_app in Hin as [Hin|Hin].
        { eapply legit_mono; [exact Hsub|]. apply (ni_air _ Hi), Hin. }
        apply elem_of_frames in Hin as (-> & -> & Hin).
        pose proof (h_to _ _ _ _ _ _ Hx q' Hin) as Ho. apply elem_of_others in Ho as [Hm Hn].
        split; [exists (sn_id x); apply (h_peer _ _ _ _ _ _ Hx)|]. split; [exact Hm|]. split; [congruence|].
        exists x. split; [apply elem_of_app; right; left|]. split; [reflexivity|]. split; [reflexivity|].
        split; [apply (h_peer _ _ _ _ _ _ Hx)|exact Hin].
      + intros y p' q' Hy Hp Hto. apply elem_of_app in Hy as [Hy|Hy].
        { apply Harr, (ni_sent _ Hi); assumption. }
        apply elem_of_list_singleton in Hy as ->. left. apply elem_of_app. right. apply elem_of_frames.
        rewrite (h_peer _ _ _ _ _ _ Hx) in Hp. injection Hp as <-. auto.
      + intros p' q' o Ho Hp. apply Harr. apply (ni_out _ Hi); assumption.
      + intros p' Hp. destruct (ni_done _ Hi p' Hp) as [Hm Hd]. auto.
    - (* a local party is done *)
      assert (Harr : forall p' q' m', arrives s p' q' m' ->
                arrives (NState (ns_trace s) (ns_air s ++ frames p (MDone (Some true)) (others N p))
                           (ns_sent s) (ns_done s ++ [p])) p' q' m').
      { intros p' q' m' [Ha|Ha]; [left; apply elem_of_app; auto|right; exact Ha]. }
      constructor; cbn [ns_trace ns_air ns_sent ns_done]; try apply Hi.
      + intros p' q' m' Hin. apply elem_of_app in Hin as [Hin|Hin]; [apply (ni_air _ Hi), Hin|].
        apply elem_of_frames in Hin as (-> & -> & Hin). apply elem_of_others in Hin as [Hm Hn].
        split; [exists id; exact Hid|]. split; [exact Hm|]. split; [congruence|exact I].
      + intros y p' q' Hy Hp Hto. apply Harr, (ni_sent _ Hi); assumption.
      + intros p' q' o Ho Hp. apply Harr. apply (ni_out _ Hi); assumption.
      + intros p' Hp. apply elem_of_app in Hp as [Hp|Hp].
        * destruct (ni_done _ Hi p' Hp) as [Hm Hd]. auto.
        * apply elem_of_list_singleton in Hp as ->. split; [exists id; exact Hid|].
          intros q Hq. left. apply elem_of_app. right. apply elem_of_frames. auto.
    - (* a message is taken *)
      assert (Hleg : legit E N (ns_sent s) p q m).
      { apply (ni_air _ Hi). rewrite Hair. apply elem_of_app. right. left. }
      assert (Hq : member N q) by apply Hleg.
      pose proof (ni_good s q Hi Hq) as Hg.
      assert (Hlab : forall q', Forall (label_ok E N (ns_sent s) q') (tr q')).
      { intros q'. apply does_labels; [apply (ni_labels _ Hi)|]. intros ->. exact Hleg. }
      assert (Hg' : good E N q (ns_sent s) st').
      { apply good_run; [exact Hwf|apply (ni_fair _ Hi)|exact Hq|apply Hlab]. }
      assert (Hout : exists outs, s_out st' = (s_out (at_node s q) ++ outs)%list).
      { unfold st', tr. rewrite does_self, run_snoc.
        destruct (step_grows E (cfg_of N q) (at_node s q) (LRecv o1 o2 p m)) as (outs & Ho & _).
        - cbn. eapply legit_typed; [apply (ni_fair _ Hi)|exact Hleg].
        - exists outs. exact Ho. }
      destruct Hout as [outs Hout]. rewrite Hout, drop_app.
      assert (Harr : forall p' q' m', arrives s p' q' m' ->
                arrives (NState tr (a ++ b ++ frames_of q outs) (ns_sent s) (ns_done s)) p' q' m').
      { intros p' q' m' [Ha|Ha].
        - rewrite Hair in Ha. apply elem_of_app in Ha as [Ha|Ha]; [left; apply elem_of_app; auto|].
          apply elem_of_cons in Ha as [Ha|Ha].
          + injection Ha as -> -> ->. right. cbn. unfold tr. rewrite does_self.
            exists (ns_trace s q), o1, o2, []. split; [reflexivity|]. split; [exact Hcur|]. apply (g_crash _ _ _ _ _ Hg).
          + left. apply elem_of_app. right. apply elem_of_app. auto.
        - right. apply does_handled. exact Ha. }
      constructor; cbn [ns_trace ns_air ns_sent ns_done].
      + apply (ni_fair _ Hi).
      + exact Hlab.
      + intros p' q' m' Hin. apply elem_of_app in Hin as [Hin|Hin].
        { apply (ni_air _ Hi). rewrite Hair. apply elem_of_app. auto. }
        apply elem_of_app in Hin as [Hin|Hin].
        { apply (ni_air _ Hi). rewrite Hair. apply elem_of_app. right. right. exact Hin. }
        apply elem_of_frames_of in Hin as (-> & o & Ho & -> & Hp).
        apply (g_out _ _ _ _ _ Hg' o q'); [|exact Hp]. rewrite Hout. apply elem_of_app. auto.
      + intros y p' q' Hy Hp Hto. apply Harr, (ni_sent _ Hi); assumption.
      + intros p' q' o Ho Hp. unfold M_Honest.at_node in Ho. cbn [ns_trace] in Ho.
        destruct (decide (p' = q)) as [->|Hn].
        * change (o ∈ s_out st') in Ho. rewrite Hout in Ho. apply elem_of_app in Ho as [Ho|Ho].
          -- apply Harr, (ni_out _ Hi); assumption.
          -- left. apply elem_of_app. right. apply elem_of_app. right. apply elem_of_frames_of.
             split; [reflexivity|]. exists o. auto.
        * unfold tr in Ho. rewrite does_other in Ho by exact Hn. apply Harr, (ni_out _ Hi); assumption.
      + intros p' Hp. destruct (ni_done _ Hi p' Hp) as [Hm Hd]. auto.
    - (* a message is repeated *)
      assert (Harr : forall p' q' m', arrives s p' q' m' ->
                arrives (NState (ns_trace s) (ns_air s ++ [f]) (ns_sent s) (ns_done s)) p' q' m').
      { intros p' q' m' [Ha|Ha]; [left; apply elem_of_app; auto|right; exact Ha]. }
      constructor; cbn [ns_trace ns_air ns_sent ns_done]; try apply Hi.
      + intros p' q' m' Hin. apply elem_of_app in Hin as [Hin|Hin]; [apply (ni_air _ Hi), Hin|].
        apply elem_of_list_singleton in Hin as <-. apply (ni_air _ Hi), Hf.
      + intros y p' q' Hy Hp Hto. apply Harr, (ni_sent _ Hi); assumption.
      + intros p' q' o Ho Hp. apply Harr. apply (ni_out _ Hi); assumption.
      + intros p' Hp. destruct (ni_done _ Hi p' Hp) as [Hm Hd]. auto.
    - (* a node goes on *)
      assert (Harr : forall p' q' m', arrives s p' q' m' ->
                arrives (NState (does s q l) (ns_air s) (ns_sent s) (ns_done s)) p' q' m').
      { intros p' q' m' [Ha|Ha]; [left; exact Ha|right; apply does_handled; exact Ha]. }
      constructor; cbn [ns_trace ns_air ns_sent ns_done]; try apply Hi.
      + intros q'. apply does_labels; [apply (ni_labels _ Hi)|]. intros ->. destruct l; auto. destruct Hl.
      + intros y p' q' Hy Hp Hto. apply Harr, (ni_sent _ Hi); assumption.
      + intros p' q' o Ho Hp. apply Harr, (ni_out _ Hi); [|exact Hp].
        unfold M_Honest.at_node in *. cbn [ns_trace] in Ho. destruct (decide (p' = q)) as [->|Hn].
        * rewrite does_self, run_snoc, local_out in Ho by (destruct l; auto). exact Ho.
        * rewrite does_other in Ho by exact Hn. exact Ho.
      + intros p' Hp. destruct (ni_done _ Hi p' Hp) as [Hm Hd]. auto.
  Qed.

  Lemma netinv_reach s : reachable E N s -> netinv s.
  Proof.
    unfold reachable. intros Hr. pose proof netinv_init as Hi. revert Hi.
    induction Hr as [s|s1 s2 s3 [k Hst] _ IH]; intros Hi; [exact Hi|].
    apply IH. eapply netinv_step; eassumption.
  Qed.

  (** ** Counting the peers *)
  Lemma length_without (l : list string) p : NoDup l -> p ∈ l ->
    S (length (filter (fun x => x <> p) l)) = length l.
  Proof.
    induction l as [|x l IH]; intros Hn Hp; [inversion Hp|].
    apply NoDup_cons in Hn as [Hx Hn]. rewrite filter_cons. destruct (decide (x <> p)) as [Hne|He].
    - cbn. f_equal. apply IH; [exact Hn|]. apply elem_of_cons in Hp as [->|Hp]; [congruence|exact Hp].
    - cbn. f_equal. assert (x = p) as -> by (destruct (decide (x = p)); [assumption|contradiction]).
      clear - Hx. induction l as [|y l IH]; [reflexivity|]. rewrite filter_cons_True by (intros ->; apply Hx; left).
      cbn. f_equal. apply IH. intros Hin. apply Hx. right. exact Hin.
  Qed.

  Lemma peers_NoDup : NoDup (map snd (map_to_list (ce_peers N))).
  Proof.
    assert (Hk : NoDup (map_to_list (ce_peers N)).*1) by apply NoDup_fst_map_to_list.
    assert (Hin : forall id p, (id, p) ∈ map_to_list (ce_peers N) -> ce_peers N !! id = Some p)
      by (intros id p; apply elem_of_map_to_list).
    revert Hk Hin. generalize (map_to_list (ce_peers N)). intros l.
    induction l as [|[id p] l IH]; intros Hk Hin; cbn; [constructor|].
    cbn in Hk. apply NoDup_cons in Hk as [Hk1 Hk2]. constructor.
    - intros Hp. apply elem_of_list_In, in_map_iff in Hp as ([id' p'] & Heq & Hl). cbn in Heq. subst p'.
      apply elem_of_list_In in Hl.
      assert (id' = id) as ->.
      { apply (wf_inj _ _ Hwf _ _ p); apply Hin; [right; exact Hl|left]. }
      apply Hk1. apply elem_of_list_fmap. exists (id, p). auto.
    - apply IH; [exact Hk2|]. intros id' p' Hl. apply Hin. right. exact Hl.
  Qed.

  Lemma others_NoDup q : NoDup (others N q).
  Proof. unfold others. apply NoDup_filter, peers_NoDup. Qed.

  Lemma others_length q : member N q -> S (length (others N q)) = size (ce_peers N).
  Proof.
    intros Hq. unfold others. rewrite length_without; [|apply peers_NoDup|].
    - rewrite map_length. reflexivity.
    - destruct Hq as [id Hid]. apply elem_of_list_In, in_map_iff. exists (id, q). split; [reflexivity|].
      apply elem_of_list_In, elem_of_map_to_list. exact Hid.
  Qed.

  Lemma third_parties q op : member N q -> member N op -> q <> op ->
    S (S (length (filter (fun p => p <> op) (others N q)))) = size (ce_peers N).
  Proof.
    intros Hq Hop Hn. rewrite length_without; [apply others_length, Hq|apply others_NoDup|].
    apply elem_of_others. auto.
  Qed.

  Lemma parties_size : size (ce_parties N) = size (ce_peers N).
  Proof.
    rewrite <- !(size_dom (D := gset string)). f_equal. apply set_eq. intros id.
    rewrite !elem_of_dom. apply (wf_dom _ _ Hwf).
  Qed.

  (** ** Confirmations *)
  Lemma confirm_sent s q p t x op :
    netinv s -> member N q -> bsent N (ns_sent s) x op -> q <> op ->
    handled_at s q p (MShare t (Some (sn_wire x))) ->
    forall q', q' ∈ others N q -> q' <> op ->
      exists o t', o ∈ s_out (at_node s q) /\ q' ∈ o_peers o /\
        o_msg o = MVer t' (Some (Confirm "" (key_of x) (hash_of E x))).
  Proof.
    intros Hi Hq (Hin & Hb & Hop) Hqo (tr1 & o1 & o2 & tr2 & Htr & Hc & Hx) q' Hq' Hqo'.
    pose proof (ni_labels _ Hi q) as Hl. pose proof (labels_typed E N _ _ _ (ni_fair _ Hi) Hl) as Hty.
    assert (Hleg : legit E N (ns_sent s) p q (MShare t (Some (sn_wire x)))).
    { rewrite Htr in Hl. apply Forall_app in Hl as [_ Hl]. apply Forall_cons_1 in Hl as [Hl _]. exact Hl. }
    pose proof (legit_typed E N _ _ _ _ (ni_fair _ Hi) Hleg) as Ht. cbn in Ht.
    destruct (fair_in E N _ x (ni_fair _ Hi) Hin) as (op' & l & Hh).
    assert (op' = op) as -> by (pose proof (h_peer _ _ _ _ _ _ Hh); congruence).
    destruct Hb as (from & to & Hr).
    assert (from = FId (sn_id x)) as ->.
    { destruct (h_route _ _ _ _ _ _ Hh) as (to' & bc & Hr'). congruence. }
    destruct (h_signed _ _ _ _ _ _ Hh) as (kb & Hkb & Hsig).
    set (s1 := run E (cfg_of N q) tr1) in *.
    set (lab := LRecv o1 o2 p (MShare t (Some (sn_wire x)))) in *.
    assert (Hstep : exists o t', o ∈ s_out (step E (cfg_of N q) s1 lab) /\ q' ∈ o_peers o /\
              o_msg o = MVer t' (Some (Confirm "" (key_of x) (hash_of E x)))).
    { unfold step, lab. rewrite Hx, Hc. cbn [ProcessOneMessage]. unfold processTSSMsg. rewrite Hr.
      change (cf_parties (cfg_of N q)) with (cf_parties (cfg_of N op)). rewrite Hkb.
      unfold verifySignature. change (cf_msgid (cfg_of N q)) with (cf_msgid (cfg_of N op)). rewrite Hsig.
      cbn zeta. set (s2 := receiverBroadcastHashToPeers _ _ _ _ _ _).
      assert (Hs2 : exists o t', o ∈ s_out s2 /\ q' ∈ o_peers o /\
                o_msg o = MVer t' (Some (Confirm "" (key_of x) (hash_of E x)))).
      { unfold s2, receiverBroadcastHashToPeers. change (cf_id2peer (cfg_of N q)) with (ce_peers N).
        rewrite Hop. change (cf_peers (cfg_of N q)) with (others N q).
        assert (Hin' : q' ∈ filter (fun p => p <> op) (others N q)) by (apply elem_of_list_filter; auto).
        destruct (filter (fun p => p <> op) (others N q)) as [|p0 ps] eqn:Hps; [inversion Hin'|].
        rewrite <- Hps in Hin'. eexists _, _. split; [cbn; apply elem_of_app; right; left|]. cbn.
        split; [|reflexivity]. rewrite <- Hps. exact Hin'. }
      clearbody s2. destruct Hs2 as (o & t' & Ho & Hrest). exists o, t'. split; [|exact Hrest].
      set (it0 := match s_cache s2 !! _ with None => _ | Some it => _ end).
      clearbody it0. cbn [it_msg].
      destruct (it_msg it0) as [w'|]; [|exact Ho].
      destruct (w_routing w') as [[[| |owner'] to' bc']|]; try exact Ho.
      match goal with |- o ∈ s_out (fst (applyShare _ _ _ _ ?it _ _ _ _ _ ?s3)) =>
        destruct (grows_applyShare E (cfg_of N q) o1 o2 it w' owner' bc' (cache_key (sn_id x) (w_round (sn_wire x))) t s3)
          as (outs & Hg & _); [left; exact Ht|]; rewrite Hg end.
      apply elem_of_app. left. exact Ho. }
    destruct Hstep as (o & t' & Ho & Hrest). exists o, t'. split; [|exact Hrest].
    unfold M_Honest.at_node. rewrite Htr, cons_middle, app_assoc.
    destruct (run_grows E (cfg_of N q) (tr1 ++ [lab]) tr2) as (outs & Hg & _).
    { rewrite Htr in Hty. apply Forall_app in Hty as [_ Hty]. apply Forall_cons_1 in Hty as [_ Hty]. exact Hty. }
    rewrite Hg, run_snoc. apply elem_of_app. left. exact Ho.
  Qed.

  (** ** In a quiet network every message was taken up *)
  Lemma all_taken_up s x l q : netinv s -> ns_air s = [] -> for_me E q (ns_sent s) x l ->
    taken_up E x l (at_node s q).
  Proof.
    intros Hi Hair Hf. pose proof Hf as (Hin & Hto & Hd).
    pose proof (ni_fair _ Hi) as HS.
    destruct (fair_in E N _ x HS Hin) as (op & l' & Hh).
    assert (l' = l) as -> by (pose proof (h_dec _ _ _ _ _ _ Hh); congruence).
    pose proof (h_peer _ _ _ _ _ _ Hh) as Hop.
    pose proof (h_to _ _ _ _ _ _ Hh q Hto) as Hqo. apply elem_of_others in Hqo as [Hq Hqo].
    assert (Harr : forall p' q' m', arrives s p' q' m' -> handled_at s q' p' m').
    { intros p' q' m' [Ha|Ha]; [rewrite Hair in Ha; inversion Ha|exact Ha]. }
    pose proof (Harr _ _ _ (ni_sent _ Hi x op q Hin Hop Hto)) as Hsh.
    destruct (h_route _ _ _ _ _ _ Hh) as (to & bc & Hr).
    destruct (h_signed _ _ _ _ _ _ Hh) as (kb & Hkb & Hsig).
    pose proof (ni_labels _ Hi q) as Hl.
    destruct bc.
    - (* broadcast: everybody else confirms *)
      assert (Hb : is_broadcast (sn_wire x)) by (exists (FId (sn_id x)), to; exact Hr).
      assert (Hbs : bsent N (ns_sent s) x op) by (split; [exact Hin|]; split; [exact Hb|exact Hop]).
      assert (Hopm : member N op) by (exists (sn_id x); exact Hop).
      set (P := filter (fun p => p <> op) (others N q)).
      assert (HP : forall p, p ∈ P -> p <> op /\ member N p /\ p <> q).
      { intros p Hp. apply elem_of_list_filter in Hp as [Hp1 Hp2]. apply elem_of_others in Hp2. tauto. }
      assert (Hver : forall p, p ∈ P -> exists t v, handled_at s q p (MVer t (Some v)) /\ v_key v = key_of x).
      { intros p Hp. destruct (HP p Hp) as (Hpo & Hpm & Hpq).
        assert (Hpto : p ∈ sn_to x).
        { apply (h_bcast _ _ _ _ _ _ Hh Hb). apply elem_of_others. auto. }
        pose proof (Harr _ _ _ (ni_sent _ Hi x op p Hin Hop Hpto)) as Hshp.
        destruct (confirm_sent s p op _ x op Hi Hpm Hbs Hpo Hshp q) as (o & t' & Ho & Hqp & Hom).
        - apply elem_of_others. split; [exact Hq|congruence].
        - congruence.
        - exists t', (Confirm "" (key_of x) (hash_of E x)). split; [|reflexivity].
          rewrite <- Hom. apply Harr, (ni_out _ Hi); assumption. }
      destruct (agreed_is_applied E (cfg_of N q) (sn_wire x) (sn_id x) to kb op l Hr Hkb Hsig Hop Hd
                  (not_eq_sym Hqo) (ns_trace s q) P) as (tr1 & tr2 & Htr & Hap).
      + apply (g_crash _ _ _ _ _ (ni_good s q Hi Hq)).
      + (* nobody contradicts *)
        assert (Hleg : forall p m, handled_at s q p m -> legit E N (ns_sent s) p q m).
        { intros p m (t1 & o1 & o2 & t2 & Htr & _). rewrite Htr in Hl.
          apply Forall_app in Hl as [_ Hl]. apply Forall_cons_1 in Hl as [Hl _]. exact Hl. }
        split.
        * intros p t v Hv Hk. destruct (Hleg _ _ Hv) as (_ & _ & _ & _ & y & op' & (Y1 & Y2 & Y3) & Hky & Hhy & Hpy & _).
          assert (y = x) as ->.
          { apply (fair_key E N Hwf (ns_sent s)); auto. rewrite <- Hky. exact Hk. }
          split; [exact Hhy|congruence].
        * intros w' id ((p & m & Hm & Hcar) & Hsb & _) Hbw (Hsb' & Hnk).
          assert (Hy : exists y, y ∈ ns_sent s /\ w' = sn_wire y).
          { destruct Hcar as [(t & ->)|(c & -> & Hcm)].
            - destruct (Hleg _ _ Hm) as (_ & _ & _ & y & Y1 & Y2 & _). eauto.
            - destruct (Hleg _ _ Hm) as (_ & _ & _ & _ & y & op' & (Y1 & _) & _ & Y2). rewrite Hcm in Y2.
              destruct Y2 as [Y2 _]. eauto. }
          destruct Hy as (y & Hy & ->). f_equal.
          destruct (fair_in E N _ y HS Hy) as (opy & ly & Hhy).
          destruct (h_route _ _ _ _ _ _ Hhy) as (toy & bcy & Hry).
          destruct Hsb' as (to' & bc' & Hr'). rewrite Hry in Hr'. injection Hr' as Hid _ _.
          apply (fair_key E N Hwf (ns_sent s)); auto. unfold key_of, cache_key. rewrite Hid. symmetry. exact Hnk.
      + exists op, (sn_type x). exact Hsh.
      + apply NoDup_filter, others_NoDup.
      + intros Hin'. destruct (HP _ Hin') as (_ & _ & Hc). apply Hc. reflexivity.
      + exact Hver.
      + pose proof (third_parties q op Hq Hopm Hqo) as Hlen. fold P in Hlen.
        unfold cf_threshold. change (cf_parties (cfg_of N q)) with (ce_parties N).
        rewrite parties_size, <- Hlen. unfold threshold_of.
        assert (((2 * Z.of_nat (S (S (length P))) + 2) / 3 <= Z.of_nat (S (S (length P))))%Z).
        { apply Z.div_le_upper_bound; lia. }
        lia.
      + unfold M_Honest.at_node. rewrite Htr in *.
        apply (taken_up_run E N Hwf (ns_sent s) q HS Hq x l tr1 tr2 Hl Hf).
        eapply begun_is_taken_up. exact Hap.
    - (* unicast *)
      destruct Hsh as (tr1 & o1 & o2 & tr2 & Htr & Hc & Hx). unfold M_Honest.at_node.
      rewrite Htr in *. rewrite cons_middle, app_assoc in *.
      apply (taken_up_run E N Hwf (ns_sent s) q HS Hq x l _ tr2 Hl Hf).
      apply Forall_app in Hl as [Hl1 _]. apply Forall_app in Hl1 as [Hl1 _].
      pose proof (good_run E N Hwf (ns_sent s) q HS Hq tr1 Hl1) as Hg.
      destruct (good_updateLocal E N Hwf q (ns_sent s) (run E (cfg_of N q) tr1) x l None HS Hg Hc Hf) as [_ Hcur].
      eapply begun_is_taken_up with (key := None). rewrite run_snoc. unfold step. rewrite Hx, Hc. cbn [ProcessOneMessage].
      unfold processTSSMsg. rewrite Hr.
      change (cf_parties (cfg_of N q)) with (cf_parties (cfg_of N op)). rewrite Hkb.
      unfold verifySignature. change (cf_msgid (cfg_of N q)) with (cf_msgid (cfg_of N op)). rewrite Hsig.
      exact Hcur.
  Qed.
End Net.
