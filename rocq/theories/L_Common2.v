(** More lemmas about the message handling: what a handler leaves alone, task
    completion, accepted shares, crashes, requested shares. *)
From Coq Require Import ZArith Ascii String List Lia.
From stdpp Require Import base list strings gmap.
From Verif Require Import Base L_Base S_Threshold M_Common S_Common L_Common.

Section Frame.
  Variable E : env.
  Variable C : cfg.

  (** Fields no handler of shares and confirmations touches. *)
  Record frame (s s' : state) : Prop := Frame {
    f_finished : s_finished s' = s_finished s;
    f_closed : s_closed s' = s_closed s;
    f_accepted : s_accepted s' = s_accepted s;
    f_acclog : s_acclog s' = s_acclog s;
    f_pending : s_pending s' = s_pending s;
    f_updated : s_updated s' = s_updated s;
    f_log : s_log s' = s_log s;
    f_culprits : s_culprits s' = s_culprits s
  }.

  Lemma frame_refl s : frame s s.
  Proof. constructor; reflexivity. Qed.
  Lemma frame_trans s1 s2 s3 : frame s1 s2 -> frame s2 s3 -> frame s1 s3.
  Proof. intros [] []. constructor; congruence. Qed.

  Ltac fr := constructor; reflexivity.

  Lemma frame_updateLocal w key s : frame s (fst (updateLocal E C w key s)).
  Proof.
    unfold updateLocal.
    destruct (w_routing w) as [[[| |id] to bc]|]; try fr.
    destruct (cf_parties C !! id) as [kb|]; [|fr].
    destruct (cf_id2peer C !! id) as [op|]; [|fr].
    destruct (e_dec_bulk E (w_body w)); destruct bc; fr.
  Qed.

  Lemma frame_requestShare ord votes th key t s :
    frame s (fst (requestShareFromPeer E ord votes th key t s)).
  Proof.
    unfold requestShareFromPeer. destruct (getMsgHash ord votes th); [|fr].
    destruct (forallb _ _); [|fr]. destruct t; fr.
  Qed.

  Lemma frame_applyShare o1 o2 it w owner bc key t s :
    frame s (fst (applyShare E C o1 o2 it w owner bc key t s)).
  Proof.
    unfold applyShare. destruct (hashCheck C o1 it owner (cf_threshold C)) as [r it1].
    destruct r; try (destruct (TssWrongShareBlame E C owner); fr).
    - eapply frame_trans; [|apply frame_updateLocal]. fr.
    - eapply frame_trans; [|apply frame_requestShare]. fr.
  Qed.

  Lemma frame_processVerMsg o1 o2 peer v t s :
    frame s (fst (processVerMsg E C o1 o2 peer v t s)).
  Proof.
    unfold processVerMsg. cbn zeta. cbn [it_msg].
    destruct (it_msg _) as [w|].
    - destruct (w_routing w) as [[[| |id] to bc]|]; try fr.
      eapply frame_trans; [|apply frame_applyShare]. fr.
    - eapply frame_trans; [|apply frame_requestShare]. fr.
  Qed.

  Lemma frame_processTSSMsg o1 o2 w t fwd s :
    frame s (fst (processTSSMsg E C o1 o2 w t fwd s)).
  Proof.
    unfold processTSSMsg.
    destruct (w_routing w) as [[[| |owner] to bc]|]; try fr.
    destruct (cf_parties C !! owner) as [kb|]; [|fr].
    destruct (verifySignature E C kb (w_body w) (w_sig w)); [|fr].
    destruct bc; [|apply frame_updateLocal].
    assert (Hr : frame s (if fwd then s else receiverBroadcastHashToPeers E C w owner t s)).
    { destruct fwd; [fr|]. unfold receiverBroadcastHashToPeers.
      destruct (cf_id2peer C !! owner); [|fr]. destruct (filter _ _); fr. }
    cbn zeta. cbn [it_msg].
    destruct (it_msg _) as [w'|].
    - destruct (w_routing w') as [[[| |id] to' bc']|];
        try (eapply frame_trans; [exact Hr|]; fr).
      eapply frame_trans; [exact Hr|]. eapply frame_trans; [|apply frame_applyShare]. fr.
    - eapply frame_trans; [exact Hr|]. fr.
  Qed.

  Lemma frame_ProcessOneMessage o1 o2 m peer s :
    m <> MDone (Some true) -> frame s (fst (ProcessOneMessage E C o1 o2 m peer s)).
  Proof.
    intros Hm. unfold ProcessOneMessage.
    destruct m as [t [w|]|t [v|]|[[|]|]|[c|]| |]; try fr.
    - apply frame_processTSSMsg.
    - destruct (s_cache s !! v_key v) as [it|]; [|apply frame_processVerMsg].
      destruct (it_votes it !! peer); [fr|apply frame_processVerMsg].
    - congruence.
    - destruct (c_msg c) as [w|].
      + destruct (bool_decide _); [|fr]. eapply frame_trans; [|apply frame_processTSSMsg]. fr.
      + destruct (e_peer_ok E peer); [|fr]. unfold processRequestMsgFromPeer.
        destruct (s_stored s !! c_key c); fr.
  Qed.

  (** ** Completion *)

  Definition announced_ok (H : string -> inmsg -> Prop) (s : state) : Prop :=
    (forall p, p ∈ s_finished s <-> H p (MDone (Some true))) /\
    s_closed s = (if (Z.leb 2 (Z.of_nat (size (cf_parties C)))
                      && Z.leb (Z.of_nat (size (cf_parties C)) - 1) (Z.of_nat (size (s_finished s))))%bool
                  then 1 else 0).

  Lemma handled_snoc_inv tr l p m :
    handled E C (tr ++ [l]) p m ->
    handled E C tr p m \/
    (exists o1 o2, l = LRecv o1 o2 p m /\ s_cur (run E C tr) = None /\ s_crash (run E C tr) = false).
  Proof.
    intros (tr1 & o1 & o2 & tr2 & Heq & Hc & Hx).
    destruct tr2 as [|l' tr2 _] using rev_ind.
    - apply app_inj_tail in Heq as [-> ->]. right. exists o1, o2. auto.
    - left. rewrite app_comm_cons, app_assoc in Heq. apply app_inj_tail in Heq as [-> ->].
      exists tr1, o1, o2, tr2. auto.
  Qed.

  Lemma handled_snoc_other tr l p m :
    (forall o1 o2, l <> LRecv o1 o2 p m) ->
    (handled E C (tr ++ [l]) p m <-> handled E C tr p m).
  Proof.
    intros Hl. split; [|apply handled_snoc].
    intros [Hh|(o1 & o2 & -> & _)]%handled_snoc_inv; [exact Hh|]. exfalso. apply (Hl o1 o2 eq_refl).
  Qed.

  Lemma frame_processInvalid r cs s :
    s_finished (processInvalidMsgBlame E C r cs s) = s_finished s /\
    s_closed (processInvalidMsgBlame E C r cs s) = s_closed s /\
    s_crash (processInvalidMsgBlame E C r cs s) = s_crash s /\
    s_accepted (processInvalidMsgBlame E C r cs s) = s_accepted s /\
    s_acclog (processInvalidMsgBlame E C r cs s) = s_acclog s /\
    s_pending (processInvalidMsgBlame E C r cs s) = s_pending s /\
    s_updated (processInvalidMsgBlame E C r cs s) = s_updated s /\
    s_batch (processInvalidMsgBlame E C r cs s) = s_batch s.
  Proof.
    unfold processInvalidMsgBlame. destruct (AccPubKeysFromPartyIDs _ _ _); split_and!; reflexivity.
  Qed.

  Lemma work_frame k res s :
    s_finished (work E C k res s) = s_finished s /\ s_closed (work E C k res s) = s_closed s /\
    s_crash (work E C k res s) = s_crash s /\ s_accepted (work E C k res s) = s_accepted s /\
    s_acclog (work E C k res s) = s_acclog s /\ s_batch (work E C k res s) = s_batch s.
  Proof.
    unfold work. destruct (s_pending s !! k) as [j|]; [|split_and!; reflexivity].
    destruct (GetMsgRound _ _ _ _ _); [|split_and!; reflexivity].
    destruct res as [cs|]; [|split_and!; reflexivity].
    match goal with |- context [processInvalidMsgBlame E C ?r ?c ?s] =>
      pose proof (frame_processInvalid r c s) as Hf end.
    destruct Hf as (-> & -> & -> & -> & -> & _ & _ & ->). split_and!; reflexivity.
  Qed.

  Lemma accept_frame k s :
    s_finished (accept E k s) = s_finished s /\ s_closed (accept E k s) = s_closed s /\
    s_crash (accept E k s) = s_crash s /\ s_batch (accept E k s) = s_batch s /\
    s_pending (accept E k s) = s_pending s.
  Proof.
    unfold accept. destruct (s_updated s !! k) as [j|]; [|split_and!; reflexivity].
    destruct (GetMsgRound _ _ _ _ _); split_and!; reflexivity.
  Qed.

  Lemma update_one_frame b rest key w s :
    s_finished (fst (update_one E C b rest key w s)) = s_finished s /\
    s_closed (fst (update_one E C b rest key w s)) = s_closed s /\
    s_accepted (fst (update_one E C b rest key w s)) = s_accepted s /\
    s_acclog (fst (update_one E C b rest key w s)) = s_acclog s /\
    s_updated (fst (update_one E C b rest key w s)) = s_updated s /\
    s_batch (fst (update_one E C b rest key w s)) = s_batch s.
  Proof.
    unfold update_one. destruct (bool_decide _); [|split_and!; reflexivity].
    destruct (b_routing b) as [[[| |id] to bc]|]; try (split_and!; reflexivity).
    destruct (cf_parties C !! id) as [kb|]; [|split_and!; reflexivity].
    destruct (GetMsgRound _ _ _ _ _) as [r|]; [|split_and!; reflexivity].
    destruct (CheckMsgDuplication r id s); [split_and!; reflexivity|].
    destruct (existsb _ _); split_and!; reflexivity.
  Qed.

  Lemma announced_step tr l :
    announced_ok (handled E C tr) (run E C tr) ->
    announced_ok (handled E C (tr ++ [l])) (step E C (run E C tr) l) /\
    (s_crash (run E C tr) = false -> forall o1 o2 p, l = LRecv o1 o2 p (MDone (Some true)) ->
       s_crash (step E C (run E C tr) l) = false).
  Proof.
    intros [Hf Hc]. set (s := run E C tr) in *.
    assert (Hsame : (forall o1 o2 p, l <> LRecv o1 o2 p (MDone (Some true))) ->
      s_finished (step E C s l) = s_finished s -> s_closed (step E C s l) = s_closed s ->
      announced_ok (handled E C (tr ++ [l])) (step E C s l)).
    { intros Hl H1 H2. split.
      - intros p. rewrite H1, Hf. symmetry. apply handled_snoc_other. intros o1 o2. apply Hl.
      - rewrite H2, H1. exact Hc. }
    assert (Hnoop : step E C s l = s -> (forall p, ~ (exists o1 o2, l = LRecv o1 o2 p (MDone (Some true)) /\
              s_cur s = None /\ s_crash s = false)) ->
        announced_ok (handled E C (tr ++ [l])) (step E C s l)).
    { intros -> Hno. split; [|exact Hc]. intros p. rewrite Hf. split; [apply handled_snoc|].
      intros [Hh|Hh]%handled_snoc_inv; [exact Hh|]. exfalso. exact (Hno p Hh). }
    destruct (s_crash s) eqn:Hcr.
    { split; [|discriminate]. apply Hnoop.
      - unfold step. rewrite Hcr. reflexivity.
      - intros p (o1 & o2 & _ & _ & Hx). congruence. }
    destruct l as [o1 o2 peer m| | |k res|k].
    - destruct (s_cur s) eqn:Hcur.
      { assert (Hst : step E C s (LRecv o1 o2 peer m) = s) by (unfold step; rewrite Hcr, Hcur; reflexivity).
        split; [apply Hnoop; [exact Hst|]|].
        - intros p (? & ? & _ & Hx & _). congruence.
        - intros _ ? ? ? _. rewrite Hst. exact Hcr. }
      assert (Hst : step E C s (LRecv o1 o2 peer m) = fst (ProcessOneMessage E C o1 o2 m peer s))
        by (unfold step; rewrite Hcr, Hcur; reflexivity).
      assert (Hm : m = MDone (Some true) \/ m <> MDone (Some true)).
      { destruct m as [| |[[|]|]| | |]; auto; right; discriminate. }
      destruct Hm as [->|Hm].
      2:{ split.
          - apply Hsame.
            + intros ? ? ? Heq. injection Heq. congruence.
            + rewrite Hst. apply f_finished, frame_ProcessOneMessage, Hm.
            + rewrite Hst. apply f_closed, frame_ProcessOneMessage, Hm.
          - intros _ ? ? ? Heq. injection Heq. congruence. }
      assert (Hnow : handled E C (tr ++ [LRecv o1 o2 peer (MDone (Some true))]) peer (MDone (Some true))).
      { exists tr, o1, o2, []. auto. }
      rewrite Hst. unfold ProcessOneMessage.
      destruct (bool_decide_reflect (peer ∈ s_finished s)) as [Hin|Hnin]; cbn [fst].
      { split; [|auto]. split; [|exact Hc]. intros p. rewrite Hf. split; [apply handled_snoc|].
        intros [Hh|(? & ? & Heq & _)]%handled_snoc_inv; [exact Hh|].
        injection Heq as _ _ <-. apply Hf. exact Hin. }
      assert (Hfin : forall p, p ∈ {[peer]} ∪ s_finished s <->
                handled E C (tr ++ [LRecv o1 o2 peer (MDone (Some true))]) p (MDone (Some true))).
      { intros p. rewrite elem_of_union, elem_of_singleton, Hf. split.
        - intros [->|Hh]; [exact Hnow|apply handled_snoc; exact Hh].
        - intros [Hh|(? & ? & Heq & _)]%handled_snoc_inv; [right; exact Hh|].
          injection Heq as _ _ <-. left. reflexivity. }
      assert (Hsize : size ({[peer]} ∪ s_finished s) = S (size (s_finished s))).
      { rewrite size_union; [rewrite size_singleton; reflexivity|]. set_solver. }
      cbn zeta. cbn [s_finished set_finished s_closed].
      destruct (Z.eqb_spec (Z.of_nat (size ({[peer]} ∪ s_finished s)))
                  (Z.of_nat (size (cf_parties C)) - 1)) as [Heq|Hne]; cbn [fst].
      + assert (Hz : s_closed s = 0).
        { rewrite Hc. destruct (Z.leb_spec 2 (Z.of_nat (size (cf_parties C)))); cbn [andb]; [|reflexivity].
          destruct (Z.leb_spec (Z.of_nat (size (cf_parties C)) - 1) (Z.of_nat (size (s_finished s)))); [lia|reflexivity]. }
        cbn. rewrite Hz. cbn [Nat.eqb].
        split; [|cbn; auto]. split; [exact Hfin|]. cbn. rewrite Hz.
        destruct (Z.leb_spec 2 (Z.of_nat (size (cf_parties C)))); cbn [andb]; [|lia].
        destruct (Z.leb_spec (Z.of_nat (size (cf_parties C)) - 1) (Z.of_nat (size ({[peer]} ∪ s_finished s)))); [reflexivity|lia].
      + split; [|cbn; auto]. split; [exact Hfin|]. cbn. rewrite Hc.
        destruct (Z.leb_spec 2 (Z.of_nat (size (cf_parties C)))); cbn [andb]; [|reflexivity].
        destruct (Z.leb_spec (Z.of_nat (size (cf_parties C)) - 1) (Z.of_nat (size (s_finished s))));
        destruct (Z.leb_spec (Z.of_nat (size (cf_parties C)) - 1) (Z.of_nat (size ({[peer]} ∪ s_finished s)))); auto; lia.
    - split; [|discriminate]. apply Hsame; [discriminate| |];
        unfold step; rewrite Hcr; destruct (s_cur s) as [[[|b rest] key w]|]; try reflexivity;
        apply (update_one_frame b rest key w s).
    - split; [|discriminate]. apply Hsame; [discriminate| |];
        unfold step; rewrite Hcr; destruct (s_cur s) as [[[|b rest] key w]|]; try reflexivity;
        (destruct (batch_done s); [|reflexivity]); destruct key; reflexivity.
    - split; [|discriminate]. apply Hsame; [discriminate| |];
        unfold step; rewrite Hcr; apply (work_frame k res s).
    - split; [|discriminate]. apply Hsame; [discriminate| |];
        unfold step; rewrite Hcr; apply (accept_frame k s).
  Qed.

  Lemma announced_run tr : announced_ok (handled E C tr) (run E C tr).
  Proof.
    induction tr as [|l tr IH] using rev_ind.
    - split; cbn.
      + intros p. split; [intros Hin; set_solver|].
        intros (tr1 & o1 & o2 & tr2 & Heq & _). destruct tr1; discriminate.
      + rewrite size_empty. destruct (Z.leb_spec 2 (Z.of_nat (size (cf_parties C)))); cbn [andb]; [|reflexivity].
        destruct (Z.leb_spec (Z.of_nat (size (cf_parties C)) - 1) (Z.of_nat 0)); [lia|reflexivity].
    - rewrite run_snoc. apply announced_step. exact IH.
  Qed.

  (** ** Crashes *)

  Lemma crash_updateLocal w key s to bc id kb :
    w_routing w = Some (Routing (FId id) to bc) -> cf_parties C !! id = Some kb ->
    s_crash (fst (updateLocal E C w key s)) = s_crash s.
  Proof.
    intros Hr Hk. unfold updateLocal. rewrite Hr, Hk.
    destruct (cf_id2peer C !! id); [|reflexivity].
    destruct (e_dec_bulk E (w_body w)); destruct bc; reflexivity.
  Qed.

  Lemma crash_requestShare ord votes th key t s :
    s_crash (fst (requestShareFromPeer E ord votes th key t s)) = s_crash s.
  Proof.
    unfold requestShareFromPeer. destruct (getMsgHash ord votes th); [|reflexivity].
    destruct (forallb _ _); [|reflexivity]. destruct t; reflexivity.
  Qed.

  Lemma crash_applyShare o1 o2 it w owner to bc key t s kb :
    w_routing w = Some (Routing (FId owner) to bc) -> cf_parties C !! owner = Some kb ->
    s_crash (fst (applyShare E C o1 o2 it w owner bc key t s)) = s_crash s.
  Proof.
    intros Hr Hk. unfold applyShare. destruct (hashCheck C o1 it owner (cf_threshold C)) as [r it1].
    destruct r; try (destruct (TssWrongShareBlame E C owner); reflexivity).
    - erewrite crash_updateLocal by eassumption. reflexivity.
    - rewrite crash_requestShare. reflexivity.
  Qed.

  Lemma authentic_key H w id : authentic E C H w id -> exists kb, cf_parties C !! id = Some kb.
  Proof. intros (_ & _ & kb & Hk & _). eauto. Qed.

  Lemma crash_processVerMsg H o1 o2 peer v t s :
    inv E C H s -> s_crash (fst (processVerMsg E C o1 o2 peer v t s)) = s_crash s.
  Proof.
    intros Hs. unfold processVerMsg. cbn zeta. cbn [it_msg].
    destruct (s_cache s !! v_key v) as [it|] eqn:Hl.
    - destruct (i_cache _ _ _ _ Hs _ _ Hl) as [_ Hw].
      destruct (it_msg it) as [w|] eqn:Hm; cbn [it_msg].
      + destruct (Hw w eq_refl) as (id & (Ha & _ & [(to & bc & Hr) _]) & _). rewrite Hr.
        destruct (authentic_key _ _ _ Ha) as [kb Hk].
        erewrite crash_applyShare by eassumption. reflexivity.
      + rewrite crash_requestShare. reflexivity.
    - cbn [it_msg]. rewrite crash_requestShare. reflexivity.
  Qed.

  Lemma crash_receiver w owner t s :
    s_crash (receiverBroadcastHashToPeers E C w owner t s) = s_crash s /\
    s_cache (receiverBroadcastHashToPeers E C w owner t s) = s_cache s.
  Proof.
    unfold receiverBroadcastHashToPeers. destruct (cf_id2peer C !! owner); [|auto].
    destruct (filter _ _); auto.
  Qed.

  Lemma crash_processTSSMsg H o1 o2 w t fwd s :
    inv E C H s -> s_crash s = false -> s_crash (fst (processTSSMsg E C o1 o2 w t fwd s)) = true ->
    exists to bc, w_routing w = Some (Routing FBare to bc).
  Proof.
    intros Hs Hns. unfold processTSSMsg.
    destruct (w_routing w) as [[[| |owner] to bc]|] eqn:Hr; cbn [fst]; try congruence; [eauto|].
    destruct (cf_parties C !! owner) as [kb|] eqn:Hk; cbn [fst]; [|congruence].
    destruct (verifySignature E C kb (w_body w) (w_sig w)); cbn [fst]; [|congruence].
    destruct bc; [|intros Hx; erewrite crash_updateLocal in Hx by eassumption; congruence].
    cbn zeta. cbn [it_msg].
    set (s1 := if fwd then s else receiverBroadcastHashToPeers E C w owner t s).
    assert (Hs1 : s_crash s1 = s_crash s /\ s_cache s1 = s_cache s).
    { unfold s1. destruct fwd; [auto|apply crash_receiver]. }
    destruct Hs1 as [Hc1 Hc2]. rewrite Hc2.
    assert (Hfin : forall it w' t' o, (exists to' bc' kb', w_routing w' = Some (Routing (FId o) to' bc') /\ cf_parties C !! o = Some kb') ->
       s_crash (fst match w_routing w' with
         | Some (Routing (FId owner') _ bcast') =>
           applyShare E C o1 o2 it w' owner' bcast' (cache_key owner (w_round w)) t'
             (set_cache (<[cache_key owner (w_round w):=it]>) s1)
         | _ => (crash (set_cache (<[cache_key owner (w_round w):=it]>) s1), RRunning)
         end) = s_crash s).
    { intros it w' t' o (to' & bc' & kb' & Hr' & Hk'). rewrite Hr'.
      erewrite crash_applyShare by eassumption. cbn. exact Hc1. }
    destruct (s_cache s !! cache_key owner (w_round w)) as [it|] eqn:Hl.
    - destruct (i_cache _ _ _ _ Hs _ _ Hl) as [_ Hw].
      destruct (it_msg it) as [w'|] eqn:Hm; cbn [it_msg].
      + destruct (Hw w' eq_refl) as (id & (Ha & _ & [(to' & bc' & Hr') _]) & _).
        destruct (authentic_key _ _ _ Ha) as [kb' Hk'].
        intros Hx. rewrite Hm in Hx. rewrite (Hfin _ w' t id) in Hx by eauto. congruence.
      + intros Hx. rewrite (Hfin _ w t owner) in Hx by eauto. congruence.
    - cbn [it_msg]. intros Hx. rewrite (Hfin _ w t owner) in Hx by eauto. congruence.
  Qed.

  Lemma crash_cause tr :
    s_crash (run E C tr) = true ->
    exists p m w, handled E C tr p m /\ carries m w /\ ~ wire_ok E w.
  Proof.
    induction tr as [|l tr IH] using rev_ind; [discriminate|].
    rewrite run_snoc. intros Hx.
    assert (Hlift : (exists p m w, handled E C tr p m /\ carries m w /\ ~ wire_ok E w) ->
       exists p m w, handled E C (tr ++ [l]) p m /\ carries m w /\ ~ wire_ok E w).
    { intros (p & m & w & Hh & Hr). exists p, m, w. split; [apply handled_snoc; exact Hh|exact Hr]. }
    destruct (s_crash (run E C tr)) eqn:Hcr; [auto|].
    pose proof (inv_run E C tr) as Hinv.
    assert (Hdone := proj2 (announced_step tr l (announced_run tr)) Hcr).
    unfold step in *. rewrite Hcr in *.
    destruct l as [o1 o2 peer m| | |k res|k].
    - destruct (s_cur (run E C tr)) eqn:Hcur; [congruence|].
      assert (Hnow : handled E C (tr ++ [LRecv o1 o2 peer m]) peer m).
      { exists tr, o1, o2, []. auto. }
      unfold ProcessOneMessage in Hx.
      destruct m as [t [w|]|t [v|]|[[|]|]|[c|]| |]; cbn [fst] in Hx; try congruence.
      + apply (crash_processTSSMsg (handled E C tr)) in Hx as (to & bc & Hr); [|exact Hinv|exact Hcr].
        exists peer, (MShare t (Some w)), w. split; [exact Hnow|]. split; [left; eauto|].
        intros [Hno _]. exact (Hno _ _ Hr).
      + exfalso. destruct (s_cache (run E C tr) !! v_key v) as [it|].
        * destruct (it_votes it !! peer); cbn [fst] in Hx; [congruence|].
          rewrite (crash_processVerMsg (handled E C tr)) in Hx by exact Hinv. congruence.
        * rewrite (crash_processVerMsg (handled E C tr)) in Hx by exact Hinv. congruence.
      + exfalso. specialize (Hdone o1 o2 peer eq_refl). unfold ProcessOneMessage in Hdone. congruence.
      + destruct (c_msg c) as [w|] eqn:Hc.
        * destruct (bool_decide _); cbn [fst] in Hx; [|congruence].
          apply (crash_processTSSMsg (handled E C tr)) in Hx as (to & bc & Hr);
            [|apply inv_set_requested; exact Hinv|exact Hcr].
          exists peer, (MCtl (Some c)), w. split; [exact Hnow|]. split; [right; eauto|].
          intros [Hno _]. exact (Hno _ _ Hr).
        * destruct (e_peer_ok E peer); cbn [fst] in Hx; [|congruence].
          unfold processRequestMsgFromPeer in Hx.
          destruct (s_stored (run E C tr) !! c_key c); cbn in Hx; congruence.
    - destruct (s_cur (run E C tr)) as [[[|b rest] key w]|] eqn:Hcur; try congruence.
      destruct (i_cur _ _ _ _ Hinv _ _ _ Hcur) as [(id & ((p & m & Hh & Hcar) & _) & _) (l & pre & Hl & Hpre)].
      apply Hlift. exists p, m, w. split; [exact Hh|]. split; [exact Hcar|].
      intros [_ Hall]. specialize (Hall l Hl). rewrite Hpre, Forall_app, Forall_cons in Hall.
      destruct Hall as (_ & (id' & to & bc & Hr) & _).
      unfold update_one in Hx. rewrite Hr in Hx.
      destruct (bool_decide _); cbn [fst] in Hx; [|cbn in Hx; congruence].
      destruct (cf_parties C !! id') as [kb|]; cbn [fst] in Hx; [|cbn in Hx; congruence].
      destruct (GetMsgRound _ _ _ _ _) as [r|]; cbn [fst] in Hx; [|cbn in Hx; congruence].
      destruct (CheckMsgDuplication r id' (run E C tr)); cbn [fst] in Hx; [cbn in Hx; congruence|].
      destruct (existsb _ _); cbn in Hx; congruence.
    - destruct (s_cur (run E C tr)) as [[[|b rest] key w]|] eqn:Hcur; try congruence.
      destruct (batch_done (run E C tr)); [|congruence]. destruct key; cbn in Hx; congruence.
    - destruct (work_frame k res (run E C tr)) as (_ & _ & Hw & _). congruence.
    - destruct (accept_frame k (run E C tr)) as (_ & _ & Hw & _). congruence.
  Qed.

  (** ** Accepted shares *)

  Record acc_ok (s : state) : Prop := AccOk {
    a_batch : forall j, j ∈ s_pending s ++ s_updated s -> j_batch j = s_batch s;
    a_log : forall r id, id ∈ default [] (s_accepted s !! r) <-> exists b, (b, r, id) ∈ s_acclog s;
    a_slot : forall j r id b, j ∈ s_pending s ++ s_updated s -> share_slot E j = Some (r, id) ->
               (b, r, id) ∈ s_acclog s -> b = j_batch j;
    a_once : forall b1 b2 r id, (b1, r, id) ∈ s_acclog s -> (b2, r, id) ∈ s_acclog s -> b1 = b2
  }.

  Lemma acc_ok_same s s' :
    s_pending s' = s_pending s -> s_updated s' = s_updated s -> s_batch s' = s_batch s ->
    s_accepted s' = s_accepted s -> s_acclog s' = s_acclog s -> acc_ok s -> acc_ok s'.
  Proof.
    intros H1 H2 H3 H4 H5 [Ha Hb Hc Hd].
    constructor; rewrite ?H1, ?H2, ?H3, ?H4, ?H5; assumption.
  Qed.

  Lemma orderly_prefix tr l : orderly E C (tr ++ [l]) -> orderly E C tr.
  Proof.
    intros Ho tr1 o1 o2 p m tr2 ->. apply (Ho tr1 o1 o2 p m (tr2 ++ [l])).
    rewrite <- app_assoc. reflexivity.
  Qed.

  Lemma elem_of_delete_list {A} k (l : list A) x : x ∈ delete k l -> x ∈ l.
  Proof.
    revert k. induction l as [|y l IH]; intros [|k] Hx; cbn in Hx; [exact Hx|exact Hx|right; exact Hx|].
    apply elem_of_cons in Hx as [->|Hx]; [left|right; eauto].
  Qed.

  Lemma acc_step tr l :
    orderly E C (tr ++ [l]) -> acc_ok (run E C tr) -> acc_ok (step E C (run E C tr) l).
  Proof.
    intros Ho Ha. set (s := run E C tr) in *. unfold step.
    destruct (s_crash s); [exact Ha|].
    destruct l as [o1 o2 peer m| | |k res|k].
    - destruct (s_cur s); [exact Ha|].
      destruct (Ho tr o1 o2 peer m [] eq_refl) as [Hp Hu]. fold s in Hp, Hu.
      assert (Hf : s_accepted (fst (ProcessOneMessage E C o1 o2 m peer s)) = s_accepted s /\
              s_acclog (fst (ProcessOneMessage E C o1 o2 m peer s)) = s_acclog s /\
              s_pending (fst (ProcessOneMessage E C o1 o2 m peer s)) = s_pending s /\
              s_updated (fst (ProcessOneMessage E C o1 o2 m peer s)) = s_updated s).
      { assert (Hm : m = MDone (Some true) \/ m <> MDone (Some true)).
        { destruct m as [| |[[|]|]| | |]; auto; right; discriminate. }
        destruct Hm as [->|Hm].
        - unfold ProcessOneMessage. destruct (bool_decide _); [auto|]. cbn zeta.
          destruct (Z.eqb _ _); cbn [fst]; [|auto]. destruct (Nat.eqb _ _); auto.
        - destruct (frame_ProcessOneMessage o1 o2 m peer s Hm); auto. }
      destruct Hf as (H1 & H2 & H3 & H4).
      constructor; rewrite ?H1, ?H2, ?H3, ?H4, ?Hp, ?Hu.
      + intros j Hj. inversion Hj.
      + apply (a_log s Ha).
      + intros j r id b Hj. inversion Hj.
      + apply (a_once s Ha).
    - destruct (s_cur s) as [[[|b rest] key w]|]; try exact Ha.
      unfold update_one.
      destruct (bool_decide _); [|eapply acc_ok_same, Ha; reflexivity].
      destruct (b_routing b) as [[[| |id] to bc]|]; try (eapply acc_ok_same, Ha; reflexivity).
      destruct (cf_parties C !! id) as [kb|]; [|eapply acc_ok_same, Ha; reflexivity].
      destruct (GetMsgRound E (b_body b) id bc (b_ident b)) as [r|] eqn:Hg; [|eapply acc_ok_same, Ha; reflexivity].
      destruct (CheckMsgDuplication r id s) eqn:Hd; [eapply acc_ok_same, Ha; reflexivity|].
      destruct (existsb _ _); [eapply acc_ok_same, Ha; reflexivity|].
      cbn [fst]. set (j := Job (b_body b) (b_ident b) id bc (s_batch s) w).
      assert (Hnew : forall x, x ∈ (s_pending s ++ [j]) ++ s_updated s -> x = j \/ x ∈ s_pending s ++ s_updated s).
      { intros x Hx. rewrite !elem_of_app, elem_of_list_singleton in *. tauto. }
      constructor; cbn.
      + intros x [->|Hx]%Hnew; [reflexivity|]. apply (a_batch s Ha), Hx.
      + apply (a_log s Ha).
      + intros x r' id' b' [->|Hx]%Hnew Hslot Hin; [|eapply (a_slot s Ha); eassumption].
        exfalso. unfold share_slot, j in Hslot. cbn in Hslot. rewrite Hg in Hslot.
        injection Hslot as <- <-. unfold CheckMsgDuplication in Hd.
        apply bool_decide_eq_false in Hd. apply Hd, (a_log s Ha). eauto.
      + apply (a_once s Ha).
    - destruct (s_cur s) as [[[|b rest] key w]|]; try exact Ha.
      destruct (batch_done s); [|exact Ha]. destruct key; eapply acc_ok_same, Ha; reflexivity.
    - destruct (work_frame k res s) as (_ & _ & _ & H1 & H2 & H3).
      assert (Hsub : forall x, x ∈ s_pending (work E C k res s) ++ s_updated (work E C k res s) ->
                x ∈ s_pending s ++ s_updated s).
      { intros x Hx. unfold work in Hx. destruct (s_pending s !! k) as [j|] eqn:Hj; [|exact Hx].
        assert (Hdel : x ∈ delete k (s_pending s) -> x ∈ s_pending s) by apply elem_of_delete_list.
        destruct (GetMsgRound _ _ _ _ _).
        2:{ cbn in Hx. rewrite !elem_of_app in *. tauto. }
        destruct res as [cs|].
        - match type of Hx with context [processInvalidMsgBlame E C ?r ?c ?st] =>
            pose proof (frame_processInvalid r c st) as Hf end.
          destruct Hf as (_ & _ & _ & _ & _ & Hf1 & Hf2 & _). rewrite Hf1, Hf2 in Hx.
          cbn in Hx. rewrite !elem_of_app in *. tauto.
        - cbn in Hx. rewrite !elem_of_app, elem_of_list_singleton in *.
          destruct Hx as [Hx|[Hx| ->]]; [tauto|tauto|]. left. eapply elem_of_list_lookup_2. exact Hj. }
      constructor; rewrite ?H1, ?H2, ?H3.
      + intros j Hj. apply (a_batch s Ha), Hsub, Hj.
      + apply (a_log s Ha).
      + intros j r id b Hj. apply (a_slot s Ha), Hsub, Hj.
      + apply (a_once s Ha).
    - unfold accept. destruct (s_updated s !! k) as [j|] eqn:Hj; [|exact Ha].
      assert (Hjin : j ∈ s_pending s ++ s_updated s).
      { apply elem_of_app. right. eapply elem_of_list_lookup_2. exact Hj. }
      assert (Hsub : forall x, x ∈ s_pending s ++ delete k (s_updated s) -> x ∈ s_pending s ++ s_updated s).
      { intros x. rewrite !elem_of_app. intros [Hx|Hx]; [tauto|]. right. eapply elem_of_delete_list, Hx. }
      destruct (GetMsgRound E (j_body j) (j_from j) (j_bcast j) (j_ident j)) as [r|] eqn:Hg.
      2:{ destruct Ha as [H1 H2 H3 H4]. constructor; cbn; [|exact H2| |exact H4].
          - intros x Hx. apply H1, Hsub, Hx.
          - intros x r' id b Hx. apply H3, Hsub, Hx. }
      assert (Hslot : share_slot E j = Some (r, j_from j)) by (unfold share_slot; rewrite Hg; reflexivity).
      assert (Hadd : forall b r' id, (b, r', id) ∈ s_acclog s ++ [(j_batch j, r, j_from j)] <->
                (b, r', id) ∈ s_acclog s \/ (b = j_batch j /\ r' = r /\ id = j_from j)).
      { intros b r' id. rewrite elem_of_app, elem_of_list_singleton. split.
        - intros [Hx|Hx]; [auto|]. injection Hx as -> -> ->. auto.
        - intros [Hx|(-> & -> & ->)]; auto. }
      constructor; cbn.
      + intros x Hx. apply (a_batch s Ha), Hsub, Hx.
      + intros r' id. unfold UpdateAcceptShare. destruct (decide (r' = r)) as [->|Hne].
        * rewrite lookup_insert. cbn. rewrite elem_of_app, elem_of_list_singleton, (a_log s Ha).
          split.
          -- intros [(b & Hb)| ->]; [exists b; apply Hadd; auto|exists (j_batch j); apply Hadd; auto].
          -- intros (b & [Hb|(_ & _ & ->)]%Hadd); eauto.
        * rewrite lookup_insert_ne by congruence. rewrite (a_log s Ha). split.
          -- intros (b & Hb). exists b. apply Hadd. auto.
          -- intros (b & [Hb|(_ & -> & _)]%Hadd); [eauto|congruence].
      + intros x r' id b Hx Hsl [Hin|(-> & -> & ->)]%Hadd.
        * eapply (a_slot s Ha); [apply Hsub, Hx|exact Hsl|exact Hin].
        * rewrite (a_batch s Ha j Hjin), (a_batch s Ha x (Hsub x Hx)). reflexivity.
      + intros b1 b2 r' id [H1|(-> & -> & ->)]%Hadd [H2|(-> & Hr & Hid)]%Hadd.
        * eapply (a_once s Ha); eassumption.
        * subst. eapply (a_slot s Ha); eassumption.
        * symmetry. eapply (a_slot s Ha); eassumption.
        * reflexivity.
  Qed.

  Lemma acc_run tr : orderly E C tr -> acc_ok (run E C tr).
  Proof.
    induction tr as [|l tr IH] using rev_ind; intros Ho.
    - constructor; cbn.
      + intros j Hj. inversion Hj.
      + intros r id. rewrite lookup_empty. cbn. split; [intros Hx; inversion Hx|intros (b & Hx); inversion Hx].
      + intros j r id b Hj. inversion Hj.
      + intros b1 b2 r id Hx. inversion Hx.
    - rewrite run_snoc. apply acc_step; [exact Ho|]. apply IH. eapply orderly_prefix, Ho.
  Qed.
End Frame.

(** ** Party ids are decimal numbers *)
Lemma itoa_fuel_no_dash fuel n acc : "-"%char ∉ acc -> "-"%char ∉ itoa_fuel fuel n acc.
Proof.
  revert n acc. induction fuel as [|fuel IH]; intros n acc Ha; cbn [itoa_fuel]; [exact Ha|].
  assert (Hd : "-"%char ∉ digit (n mod 10)%N :: acc).
  { intros Hin. apply elem_of_cons in Hin as [Heq|Hin]; [|exact (Ha Hin)].
    assert (Hlt : (n mod 10 < 10)%N) by (apply N.mod_lt; discriminate).
    assert (H48 := digit_val (n mod 10) Hlt).
    rewrite <- Heq in H48. change (byte_val "-"%char) with 45%N in H48.
    assert (n mod 10 = 0)%N as Hz by lia. rewrite Hz in Heq. discriminate. }
  destruct (n <? 10)%N; auto.
Qed.
Lemma no_dash_itoa n : no_dash (itoa n).
Proof.
  unfold no_dash, itoa. rewrite to_of_bytes. apply itoa_fuel_no_dash. intros Hin. inversion Hin.
Qed.
