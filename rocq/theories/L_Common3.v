(** Lemmas about confirmations, requests, hash-check blame and progress. *)
From Coq Require Import ZArith Ascii String List Lia.
From stdpp Require Import base list strings gmap.
From Verif Require Import Base L_Base S_Threshold M_Common S_Common L_Common L_Common2.

Section More.
  Variable E : env.
  Variable C : cfg.

  (** ** Confirmations stay *)

  (** Entry [k] keeps [p]'s report, or lost it as the sender's. *)
  Definition keeps (k p h : string) (s' : state) : Prop :=
    exists it', s_cache s' !! k = Some it' /\
      (it_votes it' !! p = Some h \/
       (it_votes it' !! p = None /\
        exists w id, it_msg it' = Some w /\ sent_by w id /\ cf_id2peer C !! id = Some p)).

  Lemma cache_updateLocal w key s : s_cache (fst (updateLocal E C w key s)) = s_cache s.
  Proof.
    unfold updateLocal. destruct (w_routing w) as [[[| |id] to bc]|]; try reflexivity.
    destruct (cf_parties C !! id) as [kb|]; [|reflexivity].
    destruct (cf_id2peer C !! id); [|reflexivity].
    destruct (e_dec_bulk E (w_body w)); destruct bc; reflexivity.
  Qed.
  Lemma cache_requestShare ord votes th key t s :
    s_cache (fst (requestShareFromPeer E ord votes th key t s)) = s_cache s.
  Proof.
    unfold requestShareFromPeer. destruct (getMsgHash ord votes th); [|reflexivity].
    destruct (forallb _ _); [|reflexivity]. destruct t; reflexivity.
  Qed.

  Lemma applyShare_other o1 o2 it w owner bc key t s k :
    k <> key -> s_cache (fst (applyShare E C o1 o2 it w owner bc key t s)) !! k = s_cache s !! k.
  Proof.
    intros Hne. unfold applyShare. destruct (hashCheck C o1 it owner (cf_threshold C)) as [r it1].
    destruct r; try (destruct (TssWrongShareBlame E C owner); cbn; rewrite lookup_insert_ne by congruence; reflexivity).
    - rewrite cache_updateLocal. cbn. rewrite lookup_insert_ne by congruence. reflexivity.
    - rewrite cache_requestShare. cbn. rewrite !lookup_insert_ne by congruence. reflexivity.
  Qed.

  Lemma hashCheck_votes ord it owner th r it1 p h :
    hashCheck C ord it owner th = (r, it1) -> it_votes it !! p = Some h ->
    it_votes it1 !! p = Some h \/ (it_votes it1 !! p = None /\ r = HFromOwner /\ cf_id2peer C !! owner = Some p).
  Proof.
    unfold hashCheck. intros Hh Hp.
    destruct (cf_id2peer C !! owner) as [op|]; [|injection Hh as <- <-; auto].
    destruct (Z.ltb _ _); [injection Hh as <- <-; auto|].
    destruct (it_votes it !! op) eqn:Hop.
    - injection Hh as <- <-. cbn. destruct (decide (p = op)) as [->|Hne].
      + right. rewrite lookup_delete. auto.
      + left. rewrite lookup_delete_ne by congruence. exact Hp.
    - destruct (getMsgHash _ _ _); [|injection Hh as <- <-; auto].
      destruct (String.eqb _ _); injection Hh as <- <-; auto.
  Qed.

  Lemma applyShare_keeps o1 o2 it w owner to bc key t s p h :
    it_votes it !! p = Some h -> it_msg it = Some w ->
    w_routing w = Some (Routing (FId owner) to bc) ->
    keeps key p h (fst (applyShare E C o1 o2 it w owner bc key t s)).
  Proof.
    intros Hp Hm Hr. unfold applyShare.
    destruct (hashCheck C o1 it owner (cf_threshold C)) as [r it1] eqn:Hh.
    pose proof (hashCheck_votes _ _ _ _ _ _ _ _ Hh Hp) as Hv.
    pose proof Hh as Hm1. apply hashCheck_item in Hm1 as (Hm1 & _).
    assert (Hk1 : forall s', s_cache s' !! key = Some it1 -> keeps key p h s').
    { intros s' Hs'. exists it1. split; [exact Hs'|]. destruct Hv as [Hv|(Hn & _ & Hop)]; [auto|].
      right. split; [exact Hn|]. exists w, owner. split; [congruence|]. split; [|exact Hop].
      exists to, bc. exact Hr. }
    destruct r; try (destruct (TssWrongShareBlame E C owner); apply Hk1; cbn; apply lookup_insert).
    - apply Hk1. rewrite cache_updateLocal. cbn. apply lookup_insert.
    - destruct Hv as [Hv|(_ & Hf & _)]; [|discriminate].
      exists (Item None (it_hash it1) (it_votes it1)). rewrite cache_requestShare. cbn.
      rewrite lookup_insert. auto.
  Qed.

  Lemma keeps_same k p h it s' :
    s_cache s' !! k = Some it -> it_votes it !! p = Some h -> keeps k p h s'.
  Proof. intros H1 H2. exists it. auto. Qed.

  Lemma processVerMsg_keeps H o1 o2 peer v t s k it p h :
    inv E C H s -> s_cache s !! k = Some it -> it_votes it !! p = Some h ->
    (v_key v = k -> peer <> p) ->
    keeps k p h (fst (processVerMsg E C o1 o2 peer v t s)).
  Proof.
    intros Hs Hk Hp Hpeer. unfold processVerMsg. cbn zeta. cbn [it_msg it_votes].
    destruct (decide (v_key v = k)) as [Heq|Hne].
    - specialize (Hpeer Heq). rewrite Heq, Hk.
      destruct (i_cache _ _ _ _ Hs _ _ Hk) as [_ Hw].
      destruct (it_msg it) as [w|] eqn:Hm.
      + destruct (Hw w eq_refl) as (id & (_ & _ & [(to & bc & Hr) _]) & _). rewrite Hr.
        eapply applyShare_keeps; [|reflexivity|exact Hr].
        cbn. rewrite lookup_insert_ne by congruence. exact Hp.
      + eapply keeps_same; [rewrite cache_requestShare; cbn; apply lookup_insert|].
        cbn. rewrite lookup_insert_ne by congruence. exact Hp.
    - eapply keeps_same; [|exact Hp].
      destruct (it_msg _) as [w|].
      + destruct (w_routing w) as [[[| |id] to bc]|]; try (cbn; rewrite lookup_insert_ne by congruence; exact Hk).
        rewrite applyShare_other by congruence. cbn. rewrite lookup_insert_ne by congruence. exact Hk.
      + rewrite cache_requestShare. cbn. rewrite lookup_insert_ne by congruence. exact Hk.
  Qed.

  Lemma processTSSMsg_keeps H o1 o2 w t fwd s k it p h :
    inv E C H s -> s_cache s !! k = Some it -> it_votes it !! p = Some h ->
    p <> cf_local C ->
    keeps k p h (fst (processTSSMsg E C o1 o2 w t fwd s)).
  Proof.
    intros Hs Hk Hp Hloc.
    assert (Hself : forall s', s_cache s' = s_cache s -> keeps k p h s').
    { intros s' Hs'. eapply keeps_same; [rewrite Hs'; exact Hk|exact Hp]. }
    unfold processTSSMsg.
    destruct (w_routing w) as [[[| |owner] to bc]|] eqn:Hr; try (apply Hself; reflexivity).
    destruct (cf_parties C !! owner) as [kb|]; [|apply Hself; reflexivity].
    destruct (verifySignature E C kb (w_body w) (w_sig w)); [|apply Hself; reflexivity].
    destruct bc; [|apply Hself, cache_updateLocal].
    cbn zeta. cbn [it_msg it_votes].
    set (s1 := if fwd then s else receiverBroadcastHashToPeers E C w owner t s).
    assert (Hs1 : s_cache s1 = s_cache s).
    { unfold s1. destruct fwd; [auto|apply crash_receiver]. }
    rewrite Hs1. set (key := cache_key owner (w_round w)).
    destruct (decide (key = k)) as [Heq|Hne].
    - rewrite Heq, Hk.
      destruct (i_cache _ _ _ _ Hs _ _ Hk) as [_ Hw].
      destruct (it_msg it) as [w'|] eqn:Hm; cbn [it_msg it_votes].
      + rewrite Hm. destruct (Hw w' eq_refl) as (id & (_ & _ & [(to' & bc' & Hr') _]) & _). rewrite Hr'.
        eapply applyShare_keeps; [|reflexivity|exact Hr'].
        cbn. rewrite lookup_insert_ne by congruence. exact Hp.
      + rewrite Hr. eapply applyShare_keeps; [|reflexivity|exact Hr].
        cbn. rewrite lookup_insert_ne by congruence. exact Hp.
    - eapply keeps_same; [|exact Hp].
      destruct (it_msg _) as [w'|].
      + destruct (w_routing w') as [[[| |id] to' bc']|]; try (cbn; rewrite lookup_insert_ne by congruence; rewrite Hs1; exact Hk).
        rewrite applyShare_other by congruence. cbn. rewrite lookup_insert_ne by congruence. rewrite Hs1. exact Hk.
      + cbn. rewrite lookup_insert_ne by congruence. rewrite Hs1. exact Hk.
  Qed.

  Lemma cache_processInvalid r cs s : s_cache (processInvalidMsgBlame E C r cs s) = s_cache s.
  Proof. unfold processInvalidMsgBlame. destruct (AccPubKeysFromPartyIDs _ _ _); reflexivity. Qed.

  Lemma step_keeps tr l k it p h :
    s_cache (run E C tr) !! k = Some it -> it_votes it !! p = Some h -> p <> cf_local C ->
    keeps k p h (run E C (tr ++ [l])) \/
    (l = LFinish /\ s_cache (run E C (tr ++ [l])) !! k = None).
  Proof.
    intros Hk Hp Hloc. rewrite run_snoc. pose proof (inv_run E C tr) as Hinv.
    set (s := run E C tr) in *.
    assert (Hself : forall s', s_cache s' = s_cache s -> keeps k p h s').
    { intros s' Hs'. eapply keeps_same; [rewrite Hs'; exact Hk|exact Hp]. }
    unfold step. destruct (s_crash s); [left; apply Hself; reflexivity|].
    destruct l as [o1 o2 peer m| | |j res|j].
    - left. destruct (s_cur s); [apply Hself; reflexivity|].
      unfold ProcessOneMessage.
      destruct m as [t [w|]|t [v|]|[[|]|]|[c|]| |]; try (apply Hself; reflexivity).
      + eapply processTSSMsg_keeps; eassumption.
      + destruct (s_cache s !! v_key v) as [it'|] eqn:Hv.
        * destruct (it_votes it' !! peer) eqn:Hpeer; [apply Hself; reflexivity|].
          eapply processVerMsg_keeps; [exact Hinv|exact Hk|exact Hp|].
          intros <- ->. rewrite Hk in Hv. injection Hv as <-. congruence.
        * eapply processVerMsg_keeps; [exact Hinv|exact Hk|exact Hp|]. intros <-. congruence.
      + destruct (bool_decide _); [apply Hself; reflexivity|]. cbn zeta.
        destruct (Z.eqb _ _); cbn [fst]; [|apply Hself; reflexivity].
        destruct (Nat.eqb _ _); apply Hself; reflexivity.
      + destruct (c_msg c) as [w|].
        * destruct (bool_decide _); [|apply Hself; reflexivity].
          eapply processTSSMsg_keeps; [apply inv_set_requested; exact Hinv|exact Hk|exact Hp|exact Hloc].
        * destruct (e_peer_ok E peer); [|apply Hself; reflexivity].
          unfold processRequestMsgFromPeer. destruct (s_stored s !! c_key c); apply Hself; reflexivity.
    - left. destruct (s_cur s) as [[[|b rest] key w]|]; try (apply Hself; reflexivity).
      unfold update_one. destruct (bool_decide _); [|apply Hself; reflexivity].
      destruct (b_routing b) as [[[| |id] to bc]|]; try (apply Hself; reflexivity).
      destruct (cf_parties C !! id) as [kb|]; [|apply Hself; reflexivity].
      destruct (GetMsgRound _ _ _ _ _) as [r|]; [|apply Hself; reflexivity].
      destruct (CheckMsgDuplication r id s); [apply Hself; reflexivity|].
      destruct (existsb _ _); apply Hself; reflexivity.
    - destruct (s_cur s) as [[[|b rest] key w]|]; try (left; apply Hself; reflexivity).
      destruct (batch_done s); [|left; apply Hself; reflexivity].
      destruct key as [k'|]; [|left; apply Hself; reflexivity].
      cbn. destruct (decide (k' = k)) as [->|Hne].
      + right. split; [reflexivity|]. apply lookup_delete.
      + left. eapply keeps_same; [|exact Hp]. cbn. rewrite lookup_delete_ne by congruence. exact Hk.
    - left. apply Hself. unfold work. destruct (s_pending s !! j) as [x|]; [|reflexivity].
      destruct (GetMsgRound _ _ _ _ _); [|reflexivity].
      destruct res; [rewrite cache_processInvalid; reflexivity|reflexivity].
    - left. apply Hself. unfold accept. destruct (s_updated s !! j) as [x|]; [|reflexivity].
      destruct (GetMsgRound _ _ _ _ _); reflexivity.
  Qed.

  (** ** Requests *)

  Definition grows (s s' : state) : Prop :=
    exists outs, s_out s' = s_out s ++ outs /\
      forall h, h ∈ s_requested s' -> h ∈ s_requested s \/ exists o, o ∈ outs /\ request_for h o.

  Lemma grows_same s s' : s_out s' = s_out s -> s_requested s' = s_requested s -> grows s s'.
  Proof. intros H1 H2. exists []. rewrite app_nil_r. split; [exact H1|]. rewrite H2. auto. Qed.
  Lemma grows_trans s1 s2 s3 : grows s1 s2 -> grows s2 s3 -> grows s1 s3.
  Proof.
    intros (o1 & H1 & G1) (o2 & H2 & G2). exists (o1 ++ o2). split.
    - rewrite H2, H1, app_assoc. reflexivity.
    - intros h Hh. destruct (G2 h Hh) as [Hh2|(o & Ho & Hr)].
      + destruct (G1 h Hh2) as [|(o & Ho & Hr)]; [auto|]. right. exists o. split; [|exact Hr].
        apply elem_of_app. auto.
      + right. exists o. split; [|exact Hr]. apply elem_of_app. auto.
  Qed.
  Lemma grows_out f s s' outs :
    f = (fun o => o ++ outs) -> s' = set_out f s -> grows s s'.
  Proof. intros -> ->. exists outs. cbn. auto. Qed.

  Lemma grows_updateLocal w key s : grows s (fst (updateLocal E C w key s)).
  Proof.
    unfold updateLocal. destruct (w_routing w) as [[[| |id] to bc]|]; try (apply grows_same; reflexivity).
    destruct (cf_parties C !! id) as [kb|]; [|apply grows_same; reflexivity].
    destruct (cf_id2peer C !! id); [|apply grows_same; reflexivity].
    destruct (e_dec_bulk E (w_body w)); destruct bc; apply grows_same; reflexivity.
  Qed.

  Lemma grows_requestShare ord votes th key t s :
    share_type t \/ ver_type t -> grows s (fst (requestShareFromPeer E ord votes th key t s)).
  Proof.
    intros Ht. unfold requestShareFromPeer.
    destruct (getMsgHash ord votes th) as [h|]; [|apply grows_same; reflexivity].
    destruct (forallb _ _); [|apply grows_same; reflexivity].
    assert (Hg : forall peers rt, grows s (send (MCtl (Some (Control h key rt None))) peers
                  (set_requested (fun r => {[h]} ∪ r) s))).
    { intros peers rt. exists [Out (MCtl (Some (Control h key rt None))) peers]. cbn. split; [reflexivity|].
      intros x Hx. apply elem_of_union in Hx as [Hx|Hx]; [|auto].
      apply elem_of_singleton in Hx as ->. right. eexists. split; [left|]. exists key, rt. reflexivity. }
    destruct Ht as [[-> | ->]|[-> | ->]]; apply Hg.
  Qed.

  Lemma grows_applyShare o1 o2 it w owner bc key t s :
    share_type t \/ ver_type t -> grows s (fst (applyShare E C o1 o2 it w owner bc key t s)).
  Proof.
    intros Ht. unfold applyShare. destruct (hashCheck C o1 it owner (cf_threshold C)) as [r it1].
    destruct r; try (destruct (TssWrongShareBlame E C owner); apply grows_same; reflexivity).
    - eapply grows_trans; [|apply grows_updateLocal]. apply grows_same; reflexivity.
    - eapply grows_trans; [|apply grows_requestShare, Ht]. apply grows_same; reflexivity.
  Qed.

  Lemma grows_processVerMsg o1 o2 peer v t s :
    ver_type t -> grows s (fst (processVerMsg E C o1 o2 peer v t s)).
  Proof.
    intros Ht. unfold processVerMsg. cbn zeta. cbn [it_msg].
    destruct (it_msg _) as [w|].
    - destruct (w_routing w) as [[[| |id] to bc]|]; try (apply grows_same; reflexivity).
      eapply grows_trans; [|apply grows_applyShare; auto]. apply grows_same; reflexivity.
    - eapply grows_trans; [|apply grows_requestShare; auto]. apply grows_same; reflexivity.
  Qed.

  Lemma grows_processTSSMsg o1 o2 w t fwd s :
    share_type t -> grows s (fst (processTSSMsg E C o1 o2 w t fwd s)).
  Proof.
    intros Ht. unfold processTSSMsg.
    destruct (w_routing w) as [[[| |owner] to bc]|]; try (apply grows_same; reflexivity).
    destruct (cf_parties C !! owner) as [kb|]; [|apply grows_same; reflexivity].
    destruct (verifySignature E C kb (w_body w) (w_sig w)); [|apply grows_same; reflexivity].
    destruct bc; [|apply grows_updateLocal].
    assert (Hr : grows s (if fwd then s else receiverBroadcastHashToPeers E C w owner t s)).
    { destruct fwd; [apply grows_same; reflexivity|]. unfold receiverBroadcastHashToPeers.
      destruct (cf_id2peer C !! owner); [|apply grows_same; reflexivity].
      destruct (filter _ _); [apply grows_same; reflexivity|]. eapply grows_out; reflexivity. }
    cbn zeta. cbn [it_msg]. eapply grows_trans; [exact Hr|].
    destruct (it_msg _) as [w'|]; [|apply grows_same; reflexivity].
    destruct (w_routing w') as [[[| |id] to' bc']|]; try (apply grows_same; reflexivity).
    eapply grows_trans; [|apply grows_applyShare; auto]. apply grows_same; reflexivity.
  Qed.

  Lemma out_processInvalid r cs s :
    s_out (processInvalidMsgBlame E C r cs s) = s_out s /\
    s_requested (processInvalidMsgBlame E C r cs s) = s_requested s.
  Proof. unfold processInvalidMsgBlame. destruct (AccPubKeysFromPartyIDs _ _ _); auto. Qed.

  (** A control message with a share first takes its hash off the list. *)
  Definition taken (h : string) (s : state) : state := set_requested (fun r => r ∖ {[h]}) s.

  Lemma step_grows s l :
    well_typed_label l -> grows s (step E C s l).
  Proof.
    intros Ht. unfold step. destruct (s_crash s); [apply grows_same; reflexivity|].
    destruct l as [o1 o2 peer m| | |j res|j].
    - destruct (s_cur s); [apply grows_same; reflexivity|].
      unfold ProcessOneMessage. cbn in Ht.
      destruct m as [t [w|]|t [v|]|[[|]|]|[c|]| |]; try (apply grows_same; reflexivity).
      + apply grows_processTSSMsg. exact Ht.
      + destruct (s_cache s !! v_key v) as [it'|].
        * destruct (it_votes it' !! peer); [apply grows_same; reflexivity|]. apply grows_processVerMsg. exact Ht.
        * apply grows_processVerMsg. exact Ht.
      + destruct (bool_decide _); [apply grows_same; reflexivity|]. cbn zeta.
        destruct (Z.eqb _ _); cbn [fst]; [|apply grows_same; reflexivity].
        destruct (Nat.eqb _ _); apply grows_same; reflexivity.
      + destruct (c_msg c) as [w|].
        * destruct (bool_decide _); [|apply grows_same; reflexivity].
          eapply grows_trans; [|apply grows_processTSSMsg; exact Ht].
          exists []. rewrite app_nil_r. cbn. split; [reflexivity|]. set_solver.
        * destruct (e_peer_ok E peer); [|apply grows_same; reflexivity].
          unfold processRequestMsgFromPeer. destruct (s_stored s !! c_key c); [|apply grows_same; reflexivity].
          eapply grows_out; reflexivity.
    - destruct (s_cur s) as [[[|b rest] key w]|]; try (apply grows_same; reflexivity).
      unfold update_one. destruct (bool_decide _); [|apply grows_same; reflexivity].
      destruct (b_routing b) as [[[| |id] to bc]|]; try (apply grows_same; reflexivity).
      destruct (cf_parties C !! id) as [kb|]; [|apply grows_same; reflexivity].
      destruct (GetMsgRound _ _ _ _ _) as [r|]; [|apply grows_same; reflexivity].
      destruct (CheckMsgDuplication r id s); [apply grows_same; reflexivity|].
      destruct (existsb _ _); apply grows_same; reflexivity.
    - destruct (s_cur s) as [[[|b rest] key w]|]; try (apply grows_same; reflexivity).
      destruct (batch_done s); [|apply grows_same; reflexivity].
      destruct key as [k'|]; apply grows_same; reflexivity.
    - unfold work. destruct (s_pending s !! j) as [x|]; [|apply grows_same; reflexivity].
      destruct (GetMsgRound _ _ _ _ _); [|apply grows_same; reflexivity].
      destruct res; [|apply grows_same; reflexivity].
      apply grows_same; [etransitivity; [apply out_processInvalid|reflexivity]|
                         etransitivity; [apply out_processInvalid|reflexivity]].
    - unfold accept. destruct (s_updated s !! j) as [x|]; [|apply grows_same; reflexivity].
      destruct (GetMsgRound _ _ _ _ _); apply grows_same; reflexivity.
  Qed.

  Lemma run_grows tr1 tr2 :
    Forall well_typed_label tr2 -> grows (run E C tr1) (run E C (tr1 ++ tr2)).
  Proof.
    induction tr2 as [|l tr2 IH] using rev_ind; intros Ht.
    - rewrite app_nil_r. apply grows_same; reflexivity.
    - apply Forall_app in Ht as [Ht Hl]. apply Forall_cons in Hl as [Hl _].
      rewrite app_assoc, run_snoc. eapply grows_trans; [apply IH, Ht|]. apply step_grows, Hl.
  Qed.

  Lemma control_effect s o1 o2 p c w :
    c_msg c = Some w ->
    step E C s (LRecv o1 o2 p (MCtl (Some c))) <> s ->
    c_hash c ∈ s_requested s /\
    step E C s (LRecv o1 o2 p (MCtl (Some c))) =
      fst (processTSSMsg E C o1 o2 w (c_type c) true (taken (c_hash c) s)).
  Proof.
    intros Hc Hne. unfold step in *. destruct (s_crash s); [congruence|].
    destruct (s_cur s); [congruence|]. unfold ProcessOneMessage in *. rewrite Hc in *.
    destruct (bool_decide_reflect (c_hash c ∈ s_requested s)) as [Hin|]; [|cbn [fst] in Hne; congruence].
    split; [exact Hin|reflexivity].
  Qed.

  (** ** Hash-check blame *)

  Definition suspicious (H : string -> inmsg -> Prop) : Prop :=
    exists k w id (votes : gmap string string),
      authentic E C H w id /\ is_broadcast w /\ names k w id /\
      (forall p h, votes !! p = Some h -> reported E C H p k h) /\
      (cf_id2peer C !! id = None \/
       (exists op h, cf_id2peer C !! id = Some op /\ votes !! op = Some h) \/
       (exists p1 p2 h1 h2, p1 <> p2 /\ votes !! p1 = Some h1 /\ votes !! p2 = Some h2 /\
          h1 <> e_sha E (w_body w) /\ h2 <> e_sha E (w_body w))).

  Lemma others_count h (votes : gmap string string) :
    size votes = votes_for h votes + size (filter (fun x : string * string => x.2 <> h) votes).
  Proof.
    unfold votes_for. induction votes as [|p x votes Hp IH] using map_ind.
    - rewrite !map_filter_empty, !map_size_empty. reflexivity.
    - rewrite map_size_insert_None by exact Hp. rewrite IH.
      destruct (decide (x = h)) as [Heq|Hne].
      + rewrite (map_filter_insert_True _ _ p x) by exact Heq.
        rewrite (map_filter_insert_False (fun y : string * string => y.2 <> h) _ p x) by (cbn; tauto).
        rewrite (delete_notin votes p Hp). rewrite map_size_insert_None; [lia|].
        apply map_filter_lookup_None. auto.
      + rewrite (map_filter_insert_False (fun y : string * string => y.2 = h) _ p x) by exact Hne.
        rewrite (map_filter_insert_True (fun y : string * string => y.2 <> h) _ p x) by exact Hne.
        rewrite (delete_notin votes p Hp). rewrite map_size_insert_None; [lia|].
        apply map_filter_lookup_None. auto.
  Qed.

  Lemma two_members (m : gmap string string) :
    2 <= size m -> exists p1 p2 h1 h2, p1 <> p2 /\ m !! p1 = Some h1 /\ m !! p2 = Some h2.
  Proof.
    intros Hs. destruct (map_to_list m) as [|[p1 h1] [|[p2 h2] l]] eqn:Hl.
    - unfold size, map_size in Hs. rewrite Hl in Hs. cbn in Hs. lia.
    - unfold size, map_size in Hs. rewrite Hl in Hs. cbn in Hs. lia.
    - exists p1, p2, h1, h2. pose proof (NoDup_fst_map_to_list m) as Hn. rewrite Hl in Hn. cbn in Hn.
      apply NoDup_cons in Hn as [Hn _]. split; [|split; apply elem_of_map_to_list; rewrite Hl].
      + intros ->. apply Hn. left.
      + left.
      + right. left.
  Qed.

  Lemma applyShare_blame H o1 o2 it w owner to bc key t s :
    (forall p h, it_votes it !! p = Some h -> reported E C H p key h) ->
    bwire E C H key w owner -> it_hash it = e_sha E (w_body w) ->
    it_votes it <> ∅ ->
    w_routing w = Some (Routing (FId owner) to bc) ->
    s_blame (fst (applyShare E C o1 o2 it w owner bc key t s)) <> s_blame s ->
    suspicious H.
  Proof.
    intros Hv (Ha & Hbc & Hn) Hh Hne Hr Hbl. unfold applyShare in Hbl.
    destruct (hashCheck C o1 it owner (cf_threshold C)) as [r it1] eqn:Hc.
    assert (Hok : r <> HOk /\ r <> HNotEnoughPeer /\ r <> HNotMajority).
    { split_and!; intros ->; apply Hbl.
      - unfold updateLocal. rewrite Hr. destruct (cf_parties C !! owner) as [kb|]; [|reflexivity].
        destruct (cf_id2peer C !! owner); [|reflexivity].
        destruct (e_dec_bulk E (w_body w)); destruct bc; reflexivity.
      - reflexivity.
      - unfold requestShareFromPeer. destruct (getMsgHash _ _ _); [|reflexivity].
        destruct (forallb _ _); [|reflexivity]. destruct t; reflexivity. }
    destruct Hok as (Hok1 & Hok2 & Hok3). clear Hbl.
    exists key, w, owner, (it_votes it). split; [exact Ha|]. split; [exact Hbc|]. split; [exact Hn|].
    split; [exact Hv|].
    unfold hashCheck in Hc. destruct (cf_id2peer C !! owner) as [op|]; [right|left; reflexivity].
    destruct (Z.ltb_spec (Z.of_nat (size (it_votes it))) (cf_threshold C)) as [|Hsz].
    { injection Hc as <- <-. congruence. }
    destruct (it_votes it !! op) as [h|] eqn:Hop; [left; exists op, h; auto|].
    right. unfold getMsgHash in Hc.
    destruct (getHighestFreq o1 (it_votes it)) as [[h f]|] eqn:Hf.
    - destruct (Z.ltb_spec f (cf_threshold C - 1)) as [Hlt|Hge].
      2:{ destruct (String.eqb _ _); injection Hc as <- <-; congruence. }
      apply getHighestFreq_spec in Hf as (-> & Hmax & _).
      specialize (Hmax (it_hash it)). rewrite <- !votes_for_count in Hmax. rewrite <- votes_for_count in Hlt.
      pose proof (others_count (it_hash it) (it_votes it)) as Hcount.
      destruct (two_members (filter (fun x : string * string => x.2 <> it_hash it) (it_votes it)))
        as (p1 & p2 & h1 & h2 & Hp & H1 & H2); [lia|].
      apply map_filter_lookup_Some in H1 as [H1 D1], H2 as [H2 D2]. cbn in D1, D2.
      exists p1, p2, h1, h2. rewrite <- Hh. auto.
    - exfalso. apply getHighestFreq_none in Hf. apply Hne. apply map_size_empty_inv. exact Hf.
  Qed.

  Lemma hash_blame tr o1 o2 p m :
    s_blame (run E C (tr ++ [LRecv o1 o2 p m])) <> s_blame (run E C tr) ->
    suspicious (handled E C (tr ++ [LRecv o1 o2 p m])).
  Proof.
    rewrite run_snoc. pose proof (inv_run E C tr) as Hinv0.
    set (H := handled E C (tr ++ [LRecv o1 o2 p m])).
    assert (Hinv : inv E C H (run E C tr)).
    { eapply inv_mono; [|exact Hinv0]. intros q x. apply handled_snoc. }
    assert (Hnow : s_cur (run E C tr) = None -> s_crash (run E C tr) = false -> H p m).
    { intros H1 H2. exists tr, o1, o2, []. auto. }
    clearbody H. clear Hinv0. set (s := run E C tr) in *. clearbody s.
    unfold step. destruct (s_crash s); [congruence|]. destruct (s_cur s); [congruence|].
    specialize (Hnow eq_refl eq_refl).
    assert (Htss : forall w t fwd s0, inv E C H s0 -> got H w -> s_blame s0 = s_blame s ->
              s_blame (fst (processTSSMsg E C o1 o2 w t fwd s0)) <> s_blame s -> suspicious H).
    { clear. intros w t fwd s0 Hs Hgot Hsame Hb. unfold processTSSMsg in Hb.
      destruct (w_routing w) as [[[| |owner] to bc]|] eqn:Hr; try (cbn in Hb; congruence).
      destruct (cf_parties C !! owner) as [kb|] eqn:Hk; cbn [fst] in Hb; [|congruence].
      destruct (verifySignature E C kb (w_body w) (w_sig w)) eqn:Hsig; cbn [fst] in Hb; [|congruence].
      assert (Hauth : authentic E C H w owner).
      { split; [exact Hgot|]. split; [exists to, bc; exact Hr|]. exists kb. split; [exact Hk|exact Hsig]. }
      destruct bc.
      2:{ exfalso. apply Hb. unfold updateLocal. rewrite Hr, Hk. destruct (cf_id2peer C !! owner); [|exact Hsame].
          destruct (e_dec_bulk E (w_body w)); cbn; exact Hsame. }
      assert (Hbw : bwire E C H (cache_key owner (w_round w)) w owner).
      { split; [exact Hauth|]. split; [exists (FId owner), to; exact Hr|].
        split; [exists to, true; exact Hr|reflexivity]. }
      cbn zeta in Hb. cbn [it_msg it_votes it_hash] in Hb.
      set (s1 := if fwd then s0 else receiverBroadcastHashToPeers E C w owner t s0) in *.
      assert (Hs1 : s_blame s1 = s_blame s /\ s_cache s1 = s_cache s0).
      { unfold s1. destruct fwd; [auto|]. unfold receiverBroadcastHashToPeers.
        destruct (cf_id2peer C !! owner); [|auto]. destruct (filter _ _); auto. }
      destruct Hs1 as [Hbl Hca]. rewrite Hca in Hb.
      set (key := cache_key owner (w_round w)) in *.
      set (it0 := match s_cache s0 !! key with
                  | None => Item (Some w) (e_sha E (w_body w)) ∅
                  | Some it => match it_msg it with
                               | None => Item (Some w) (e_sha E (w_body w)) (it_votes it)
                               | Some _ => it end end) in *.
      assert (H0 : (forall p h, it_votes it0 !! p = Some h -> reported E C H p key h) /\
        exists w' id, it_msg it0 = Some w' /\ bwire E C H key w' id /\ it_hash it0 = e_sha E (w_body w')).
      { unfold it0. destruct (s_cache s0 !! key) as [i|] eqn:Hl.
        - destruct (i_cache _ _ _ _ Hs _ _ Hl) as [Hvi Hwi].
          destruct (it_msg i) as [w'|] eqn:Hmi.
          + split; [exact Hvi|]. destruct (Hwi w' eq_refl) as (id & Hb' & Hh'). exists w', id. auto.
          + split; [exact Hvi|]. exists w, owner. auto.
        - split; [cbn; intros q h Hl'; rewrite lookup_empty in Hl'; discriminate|]. exists w, owner. auto. }
      destruct H0 as [Hv0 (w' & id & Hm & Hb' & Hhash)]. rewrite Hm in Hb.
      pose proof Hb' as (_ & _ & [(to' & bc' & Hr') _]). rewrite Hr' in Hb.
      set (itf := Item (Some w') (it_hash it0) (<[cf_local C := e_sha E (w_body w)]> (it_votes it0))) in *.
      apply (applyShare_blame H o1 o2 itf w' id to' bc' key t (set_cache (<[key := itf]>) s1));
        [|exact Hb'|exact Hhash| |exact Hr'|].
      3:{ intros Heq. apply Hb. etransitivity; [exact Heq|]. exact Hbl. }
      - cbn. intros q h Hl. destruct (decide (q = cf_local C)) as [->|Hne].
        + rewrite lookup_insert in Hl. injection Hl as <-. right. split; [reflexivity|].
          exists w, owner. destruct Hbw as (? & ? & ?). auto.
        + rewrite lookup_insert_ne in Hl by congruence. auto.
      - cbn. apply insert_non_empty. }
    assert (Hver : forall v t, m = MVer t (Some v) ->
              s_blame (fst (processVerMsg E C o1 o2 p v t s)) <> s_blame s -> suspicious H).
    { intros v t -> Hb. unfold processVerMsg in Hb. cbn zeta in Hb. cbn [it_msg it_votes it_hash] in Hb.
      set (it0 := match s_cache s !! v_key v with Some it => it | None => Item None (v_hash v) ∅ end) in *.
      assert (H0 : (forall p h, it_votes it0 !! p = Some h -> reported E C H p (v_key v) h) /\
        (forall w, it_msg it0 = Some w -> exists id, bwire E C H (v_key v) w id /\ it_hash it0 = e_sha E (w_body w))).
      { unfold it0. destruct (s_cache s !! v_key v) as [i|] eqn:Hl; [apply (i_cache _ _ _ _ Hinv _ _ Hl)|].
        split; cbn; [intros q h Hl'; rewrite lookup_empty in Hl'; discriminate|discriminate]. }
      destruct H0 as [Hv0 Hw0].
      destruct (it_msg it0) as [w|] eqn:Hm.
      - destruct (Hw0 w eq_refl) as (id & Hb' & Hhash).
        pose proof Hb' as (_ & _ & [(to' & bc' & Hr') _]). rewrite Hr' in Hb.
        set (itf := Item (Some w) (it_hash it0) (<[p := v_hash v]> (it_votes it0))) in *.
        apply (applyShare_blame H o1 o2 itf w id to' bc' (v_key v) t (set_cache (<[v_key v := itf]>) s));
          [|exact Hb'|exact Hhash| |exact Hr'|exact Hb].
        + cbn. intros q h Hl. destruct (decide (q = p)) as [->|Hne].
          * rewrite lookup_insert in Hl. injection Hl as <-. left. exists t, v. auto.
          * rewrite lookup_insert_ne in Hl by congruence. auto.
        + cbn. apply insert_non_empty.
      - exfalso. apply Hb. unfold requestShareFromPeer. destruct (getMsgHash _ _ _); [|reflexivity].
        destruct (forallb _ _); [|reflexivity]. destruct t; reflexivity. }
    unfold ProcessOneMessage.
    destruct m as [t [w|]|t [v|]|[[|]|]|[c|]| |]; cbn [fst]; try congruence.
    - apply Htss; [exact Hinv| |reflexivity]. exists p, (MShare t (Some w)). split; [exact Hnow|]. left. eauto.
    - destruct (s_cache s !! v_key v) as [it|]; [|apply (Hver v t eq_refl)].
      destruct (it_votes it !! p); [cbn; congruence|apply (Hver v t eq_refl)].
    - destruct (bool_decide _); [cbn; congruence|]. cbn zeta. destruct (Z.eqb _ _); cbn [fst]; [|cbn; congruence].
      destruct (Nat.eqb _ _); cbn; congruence.
    - destruct (c_msg c) as [w|] eqn:Hc.
      + destruct (bool_decide _); [|cbn; congruence].
        apply Htss; [apply inv_set_requested; exact Hinv| |reflexivity].
        exists p, (MCtl (Some c)). split; [exact Hnow|]. right. eauto.
      + destruct (e_peer_ok E p); [|cbn; congruence]. unfold processRequestMsgFromPeer.
        destruct (s_stored s !! c_key c); cbn; congruence.
  Qed.
End More.
