(** Lemmas about a ceremony of honest nodes: histories of a node, and the network. *)
From Coq Require Import ZArith NArith Ascii String List Lia.
From stdpp Require Import base list strings gmap.
From Verif Require Import Base L_Base S_Threshold M_Common S_Common L_Common L_Common2 L_Common3 L_Agree M_Honest S_Honest L_Honest.

Lemma elem_of_flat_map {A B} (f : A -> list B) (l : list A) y :
  y ∈ flat_map f l <-> exists x, x ∈ l /\ y ∈ f x.
Proof.
  rewrite elem_of_list_In, in_flat_map. split; intros (x & H1 & H2); exists x;
    rewrite ?elem_of_list_In in *; auto.
Qed.

Section Net.
  Context (E : env) (N : ceremony).
  Hypothesis Hwf : well_formed E N.

  (** ** The history of one node *)
  Definition label_ok (S : list sending) (q : string) (l : label) : Prop :=
    match l with LRecv _ _ p m => legit E N S p q m | l => local_step l end.

  Lemma label_ok_mono S S' q l : (forall x, x ∈ S -> x ∈ S') -> label_ok S q l -> label_ok S' q l.
  Proof. intros Hs. destruct l; cbn; auto. apply legit_mono, Hs. Qed.

  Lemma legit_typed S p q m : fair E N S -> legit E N S p q m -> well_typed m.
  Proof.
    intros HS (_ & _ & _ & Hm). destruct m as [t [w|]|t [v|]|[[|]|]|[c|]| |]; cbn; auto; try contradiction.
    - destruct Hm as (x & Hx & _ & -> & _). destruct (fair_in E N S x HS Hx) as (p0 & l & Hh).
      apply (h_type _ _ _ _ _ _ Hh).
    - apply Hm.
    - apply Hm.
  Qed.
  Lemma labels_typed S q tr : fair E N S -> Forall (label_ok S q) tr -> Forall well_typed_label tr.
  Proof.
    intros HS Hl. eapply Forall_impl; [exact Hl|]. intros [o1 o2 p m| | | |] Hl'; cbn; auto. eapply legit_typed; eassumption.
  Qed.

  Section Node.
    Context (S : list sending) (q : string).
    Hypothesis HS : fair E N S.
    Hypothesis Hq : member N q.
    Notation C := (cfg_of N q).

    Lemma good_step tr l : good E N q S (run E C tr) -> label_ok S q l ->
      good E N q S (run E C (tr ++ [l])).
    Proof.
      intros Hg Hl. rewrite run_snoc. destruct l as [o1 o2 p m| | |k res|k];
        try (apply good_local; assumption).
      pose proof (announced_step E C tr (LRecv o1 o2 p m) (announced_run E C tr)) as [_ Hd].
      unfold step in *. rewrite (g_crash _ _ _ _ _ Hg) in *.
      destruct (s_cur (run E C tr)) eqn:Hc; [exact Hg|].
      apply good_receive; auto. intros ->. eapply Hd; reflexivity.
    Qed.

    Lemma good_run tr : Forall (label_ok S q) tr -> good E N q S (run E C tr).
    Proof.
      induction tr as [|l tr IH] using rev_ind; intros Hl.
      - eapply good_mono; [|apply good_init]. intros x Hx. inversion Hx.
      - apply Forall_app in Hl as [Hl1 Hl2]. apply good_step; [auto|].
        apply Forall_cons_1 in Hl2 as [Hl2 _]. exact Hl2.
    Qed.

    (** Jobs stay. *)
    Definition has_job (s : state) (b : bulk) : Prop :=
      exists j, j ∈ (s_log s ++ s_pending s)%list /\ share_slot E j = slot_of E b.

    Lemma recv_frame s o1 o2 p m :
      s_log (fst (ProcessOneMessage E C o1 o2 m p s)) = s_log s /\
      s_pending (fst (ProcessOneMessage E C o1 o2 m p s)) = s_pending s.
    Proof.
      assert (m = MDone (Some true) \/ m <> MDone (Some true)) as [->|Hn].
      { destruct m as [| |[[|]|]| | |]; auto; right; discriminate. }
      - cbn [ProcessOneMessage]. destruct (bool_decide _); [auto|]. cbn zeta.
        destruct (Z.eqb _ _); [|auto]. destruct (Nat.eqb _ _); auto.
      - destruct (frame_ProcessOneMessage E C o1 o2 m p s Hn). auto.
    Qed.

    Lemma jobs_stay s l b : good E N q S s -> label_ok S q l -> has_job s b -> has_job (step E C s l) b.
    Proof.
      intros Hg Hl (j & Hj & Hs). unfold step. rewrite (g_crash _ _ _ _ _ Hg).
      assert (Hkeep : forall s', s_log s' = s_log s -> s_pending s' = s_pending s -> has_job s' b).
      { intros s' H1 H2. exists j. rewrite H1, H2. auto. }
      destruct l as [o1 o2 p m| | |k res|k]; cbn in Hl.
      - destruct (s_cur s); [apply Hkeep; reflexivity|].
        destruct (recv_frame s o1 o2 p m). apply Hkeep; assumption.
      - destruct (s_cur s) as [[[|b' rest] key w]|]; try (apply Hkeep; reflexivity).
        unfold update_one. destruct (bool_decide _); [|apply Hkeep; reflexivity].
        destruct (b_routing b') as [[[| |id] to bc]|]; try (apply Hkeep; reflexivity).
        destruct (cf_parties C !! id); [|apply Hkeep; reflexivity].
        destruct (GetMsgRound _ _ _ _ _) as [r|]; [|apply Hkeep; reflexivity].
        destruct (CheckMsgDuplication r id s); [apply Hkeep; reflexivity|].
        destruct (existsb _ _); [apply Hkeep; reflexivity|].
        exists j. split; [|exact Hs]. cbn. rewrite app_assoc. apply elem_of_app. auto.
      - destruct (s_cur s) as [[[|b' rest] key w]|]; try (apply Hkeep; reflexivity).
        destruct (batch_done s); [|apply Hkeep; reflexivity].
        destruct key; apply Hkeep; reflexivity.
      - subst res. unfold work. destruct (s_pending s !! k) as [j0|] eqn:Hj0; [|apply Hkeep; reflexivity].
        pose proof (delete_Permutation _ _ _ Hj0) as Hperm.
        destruct (job_slot E N q S j0 HS) as [r Hr].
        { apply (wk_jobs _ _ _ _ (g_work _ _ _ _ _ Hg)). apply elem_of_app. right.
          eapply elem_of_list_lookup_2; exact Hj0. }
        unfold share_slot in Hr. destruct (GetMsgRound E (j_body j0) _ _ _); [|discriminate].
        exists j. split; [|exact Hs]. cbn. rewrite <- app_assoc. cbn. rewrite <- Hperm. exact Hj.
      - unfold accept. destruct (s_updated s !! k) as [j0|]; [|apply Hkeep; reflexivity].
        destruct (GetMsgRound _ _ _ _ _); apply Hkeep; reflexivity.
    Qed.

    (** Once a message is taken up, each of its entries gets a job. *)
    Definition taken_up (x : sending) (l : list bulk) (s : state) : Prop :=
      (exists rest key, s_cur s = Some (Cur rest key (sn_wire x)) /\
         forall b, b ∈ l -> b ∈ rest \/ has_job s b) \/
      (forall b, b ∈ l -> has_job s b).

    Lemma taken_up_step x l s lb :
      for_me E q S x l -> good E N q S s -> label_ok S q lb -> taken_up x l s -> taken_up x l (step E C s lb).
    Proof.
      intros Hf Hg Hl [(rest & key & Hc & Ht)|Ht].
      2:{ right. intros b Hb. apply jobs_stay; auto. }
      assert (Hsame : forall c, s_cur (step E C s lb) = Some c -> c = Cur rest key (sn_wire x) -> taken_up x l (step E C s lb)).
      { intros c Hc' ->. left. exists rest, key. split; [exact Hc'|].
        intros b Hb. destruct (Ht b Hb) as [Hb'|Hb']; [auto|]. right. apply jobs_stay; auto. }
      destruct lb as [o1 o2 p m| | |k res|k].
      - eapply Hsame; [|reflexivity]. unfold step. rewrite (g_crash _ _ _ _ _ Hg), Hc. exact Hc.
      - destruct rest as [|b0 rest].
        { eapply Hsame; [|reflexivity]. unfold step. rewrite (g_crash _ _ _ _ _ Hg), Hc. exact Hc. }
        assert (Hst : forall b, b ∈ l -> has_job s b -> has_job (step E C s LLoop) b).
        { intros b Hb Hj. apply jobs_stay; auto. }
        destruct (wk_cur _ _ _ _ (g_work _ _ _ _ _ Hg) _ _ _ Hc) as (y & ly & pre & Hfy & Hwy & Hly & _).
        (* the entries of both are the same list *)
        assert (Hll : ly = l).
        { destruct Hf as (_ & _ & D1), Hfy as (_ & _ & D2). rewrite Hwy in D1. congruence. }
        rewrite Hll in Hly. clear Hfy Hll.
        assert (Hb0 : b0 ∈ l) by (rewrite Hly; apply elem_of_app; right; left).
        destruct Hf as (Hin & Hto & Hd). destruct (fair_in E N S x HS Hin) as (p & l' & Hh).
        pose proof Hd as Hd'. rewrite (h_dec _ _ _ _ _ _ Hh) in Hd'. injection Hd' as ->.
        destruct (h_entries _ _ _ _ _ _ Hh b0 Hb0) as (Hses & to & bc & Hr & Hgr).
        assert (Hpk : is_Some (cf_parties C !! sn_id x)).
        { apply (wf_dom _ _ Hwf). exists p. apply (h_peer _ _ _ _ _ _ Hh). }
        destruct Hpk as [kb Hkb].
        destruct (GetMsgRound E (b_body b0) (sn_id x) bc (b_ident b0)) as [r|] eqn:Hgr2; [|congruence].
        assert (Hslot : slot_of E b0 = Some (r, sn_id x)).
        { unfold slot_of. rewrite Hr, Hgr2. reflexivity. }
        left. exists rest, key.
        revert Hst. unfold step. rewrite (g_crash _ _ _ _ _ Hg), Hc. unfold update_one.
        rewrite bool_decide_eq_true_2 by exact Hses. rewrite Hr, Hkb, Hgr2, (g_culprits _ _ _ _ _ Hg).
        cbn [existsb]. destruct (CheckMsgDuplication r (sn_id x) s) eqn:Hdup; cbn [fst]; intros Hst.
        + split; [reflexivity|]. intros b Hb. destruct (Ht b Hb) as [Hb'|Hb']; [|right; apply Hst; auto].
          apply elem_of_cons in Hb' as [->|Hb']; [|auto]. right. apply Hst; [exact Hb0|].
          unfold CheckMsgDuplication in Hdup. apply bool_decide_eq_true in Hdup.
          destruct (wk_acc1 _ _ _ _ (g_work _ _ _ _ _ Hg) _ _ Hdup) as (j & Hj & Hs).
          exists j. split; [apply elem_of_app; auto|congruence].
        + split; [reflexivity|]. intros b Hb. destruct (Ht b Hb) as [Hb'|Hb']; [|right; apply Hst; auto].
          apply elem_of_cons in Hb' as [->|Hb']; [|auto]. right.
          eexists. split.
          * cbn. rewrite app_assoc. apply elem_of_app. right. left.
          * unfold share_slot. cbn. rewrite Hgr2, Hslot. reflexivity.
      - destruct rest as [|b0 rest].
        2:{ eapply Hsame; [|reflexivity]. unfold step. rewrite (g_crash _ _ _ _ _ Hg), Hc. exact Hc. }
        right. intros b Hb. apply jobs_stay; auto. destruct (Ht b Hb) as [Hb'|Hb']; [inversion Hb'|exact Hb'].
      - eapply Hsame; [|reflexivity]. unfold step. rewrite (g_crash _ _ _ _ _ Hg).
        cbn in Hl. subst res. unfold work. destruct (s_pending s !! k); [|exact Hc].
        destruct (GetMsgRound _ _ _ _ _); exact Hc.
      - eapply Hsame; [|reflexivity]. unfold step. rewrite (g_crash _ _ _ _ _ Hg).
        unfold accept. destruct (s_updated s !! k); [|exact Hc].
        destruct (GetMsgRound _ _ _ _ _); exact Hc.
    Qed.

    Lemma taken_up_run x l tr1 tr2 : Forall (label_ok S q) (tr1 ++ tr2) -> for_me E q S x l ->
      taken_up x l (run E C tr1) -> taken_up x l (run E C (tr1 ++ tr2)).
    Proof.
      intros Hl Hf Ht. induction tr2 as [|lb tr2 IH] using rev_ind; [rewrite app_nil_r; exact Ht|].
      rewrite app_assoc in *. apply Forall_app in Hl as [Hl1 Hl2]. apply Forall_cons_1 in Hl2 as [Hl2 _].
      rewrite run_snoc. apply taken_up_step; auto. apply good_run. exact Hl1.
    Qed.

    Lemma begun_is_taken_up x l key s : s_cur s = Some (Cur l key (sn_wire x)) -> taken_up x l s.
    Proof. intros Hc. left. exists l, key. auto. Qed.

    (** An idle node has given each entry of such a message to its local party, once. *)
    Lemma idle_has_all x l s : for_me E q S x l -> good E N q S s -> s_cur s = None -> taken_up x l s ->
      forall b, b ∈ l -> exists i j, s_log s !! i = Some j /\ is_entry b j /\ j_wire j = sn_wire x /\
        forall i' j', s_log s !! i' = Some j' -> is_entry b j' -> i' = i.
    Proof.
      intros Hf Hg Hn Ht b Hb.
      destruct Ht as [(rest & key & Hc & _)|Ht]; [congruence|].
      destruct (Ht b Hb) as (j & Hj & Hs).
      pose proof (g_work _ _ _ _ _ Hg) as Hw.
      destruct (wk_idle _ _ _ _ Hw Hn) as [Hp _]. rewrite Hp, app_nil_r in Hj.
      destruct (wk_jobs _ _ _ _ Hw j) as (y & ly & b' & Hfy & Hb' & He & Hjw); [apply elem_of_app; auto|].
      pose proof (is_entry_slot E b' j He) as Hs'.
      destruct Hf as (Hx & Qx & Dx), Hfy as (Hy & Qy & Dy).
      destruct (fair_slot E N S q x y l ly b b' HS Hx Hy Qx Qy Dx Dy Hb Hb') as [<- <-]; [congruence|].
      apply elem_of_list_lookup in Hj as [i Hi]. exists i, j.
      split; [exact Hi|]. split; [exact He|]. split; [exact Hjw|].
      intros i' j' Hi' He'. pose proof (wk_slots _ _ _ _ Hw) as Hnd. rewrite Hp, app_nil_r in Hnd.
      eapply (NoDup_lookup _ _ _ (share_slot E j) Hnd).
      - change (map (share_slot E) (s_log s)) with (share_slot E <$> s_log s).
        rewrite list_lookup_fmap, Hi'. cbn. f_equal. rewrite (is_entry_slot E b j' He'). congruence.
      - change (map (share_slot E) (s_log s)) with (share_slot E <$> s_log s).
        rewrite list_lookup_fmap, Hi. reflexivity.
    Qed.
  End Node.
End Net.
