(** Property theorems: join party (C19-C27, C76-C81). *)
From Coq Require Import ZArith NArith Ascii String List Lia.
From stdpp Require Import base list strings gmap.
From Verif Require Import Base L_Base M_Conv M_Join S_Join L_Join L_Join2 L_Join3.

(** ** C20: one group of a leader, its requests one after the other *)
Definition after (g : group) (reqs : list string) : group :=
  fold_left (fun g p => fst (updatePeer p g)) reqs g.

Lemma after_snoc g reqs p : after g (reqs ++ [p]) = fst (updatePeer p (after g reqs)).
Proof. unfold after. rewrite fold_left_app. reflexivity. Qed.

Lemma arrivals_snoc ps reqs p :
  arrivals ps (reqs ++ [p]) =
  (if decide (p ∈ ps /\ p ∉ arrivals ps reqs) then arrivals ps reqs ++ [p] else arrivals ps reqs).
Proof.
  assert (H : forall acc, arrivals_acc ps (reqs ++ [p]) acc =
    if decide (p ∈ ps /\ p ∉ arrivals_acc ps reqs acc) then arrivals_acc ps reqs acc ++ [p] else arrivals_acc ps reqs acc).
  { induction reqs as [|q reqs IH]; intros acc; [reflexivity|]. apply IH. }
  apply H.
Qed.
Lemma arrivals_in ps reqs p : p ∈ arrivals ps reqs -> p ∈ ps.
Proof.
  induction reqs as [|q reqs IH] using rev_ind; [intros H%elem_of_nil; easy|].
  rewrite arrivals_snoc. destruct (decide _) as [[H1 H2]|_]; set_solver.
Qed.
Lemma arrivals_nodup ps reqs : NoDup (arrivals ps reqs).
Proof.
  induction reqs as [|q reqs IH] using rev_ind; [constructor|].
  rewrite arrivals_snoc. destruct (decide _) as [[H1 H2]|_]; [|exact IH].
  apply NoDup_app. split; [exact IH|]. split; [set_solver|apply NoDup_singleton].
Qed.

Definition accepted (t : Z) (ps : gset string) (reqs : list string) : list string :=
  take (Z.to_nat t) (arrivals ps reqs).

Lemma elem_of_others p me peers : p ∈ others me peers <-> p ∈ peers /\ p <> me.
Proof. unfold others. rewrite elem_of_difference, elem_of_list_to_set, elem_of_singleton. reflexivity. Qed.

Lemma accepted_snoc t ps reqs p :
  accepted t ps (reqs ++ [p]) =
  (if decide (p ∈ ps /\ p ∉ arrivals ps reqs /\ length (arrivals ps reqs) < Z.to_nat t)
   then accepted t ps reqs ++ [p] else accepted t ps reqs).
Proof.
  unfold accepted. rewrite arrivals_snoc.
  destruct (decide (p ∈ ps /\ p ∉ arrivals ps reqs)) as [[H1 H2]|H].
  - destruct (decide (length (arrivals ps reqs) < Z.to_nat t)) as [Hl|Hl].
    + rewrite decide_True by auto. rewrite take_app_ge by lia.
      rewrite (take_ge (arrivals ps reqs)) by lia. f_equal.
      destruct (Z.to_nat t - length (arrivals ps reqs)) eqn:E; [lia|]. destruct n; reflexivity.
    + rewrite decide_False by tauto. rewrite take_app_le by lia. reflexivity.
  - rewrite decide_False by tauto. reflexivity.
Qed.

Lemma after_spec peers me leader t reqs :
  leader <> "NONE"%string ->
  let g := after (NewPeerStatus peers me leader t) reqs in
  let ps := others me peers in
  g_leader g = leader /\ g_threshold g = t /\ g_count g = Z.of_nat (length (accepted t ps reqs)) /\
  forall p, g_members g !! p =
    if decide (p ∈ ps) then Some (bool_decide (p ∈ accepted t ps reqs)) else None.
Proof.
  intros Hl. cbv zeta. induction reqs as [|q reqs IH] using rev_ind.
  - unfold accepted, arrivals. cbn [after fold_left arrivals_acc]. rewrite take_nil.
    split; [reflexivity|]. split; [reflexivity|]. split; [reflexivity|]. intros p. rewrite new_members.
    destruct (decide (p ∈ peers /\ p <> me)) as [H|H].
    + rewrite decide_True by (apply elem_of_others; exact H). rewrite bool_decide_eq_false_2; [reflexivity|].
      intros Hn%elem_of_nil. exact Hn.
    + rewrite decide_False; [reflexivity|]. rewrite elem_of_others. exact H.
  - destruct IH as (H1 & H2 & H3 & H4). rewrite after_snoc.
    set (g := after (NewPeerStatus peers me leader t) reqs) in *. set (ps := others me peers) in *.
    rewrite accepted_snoc.
    destruct (updatePeer q g) as [g' r] eqn:E. cbn [fst].
    assert (Hacc : q ∈ accepted t ps reqs -> q ∈ arrivals ps reqs).
    { intros Hin. unfold accepted in Hin. rewrite <- (take_drop (Z.to_nat t)). set_solver. }
    assert (Hlen : length (accepted t ps reqs) = Nat.min (Z.to_nat t) (length (arrivals ps reqs))) by apply take_length.
    assert (Hnacc : q ∉ accepted t ps reqs -> q ∈ arrivals ps reqs -> Z.to_nat t <= length (accepted t ps reqs)).
    { intros Hn Hin. destruct (decide (Z.to_nat t <= length (arrivals ps reqs))) as [Hle|Hle]; [lia|].
      exfalso. apply Hn. unfold accepted. rewrite take_ge by lia. exact Hin. }
    pose proof (H4 q) as Hq.
    destruct (updatePeer_cases _ _ _ _ E) as [(-> & Hr & _ & Hf)|[(_ & Hn & _)|(Hm & _ & Hc & _ & ->)]]; [|congruence|].
    + rewrite decide_False; [auto|]. intros (Hq1 & Hq2 & Hq3). rewrite decide_True in Hq by exact Hq1.
      rewrite bool_decide_eq_false_2 in Hq by auto. destruct (Hf Hq) as [_ Hle]. rewrite H2, H3 in Hle. lia.
    + rewrite H2, H3 in Hc. rewrite Hm in Hq. destruct (decide (q ∈ ps)) as [Hin|Hin]; [|congruence].
      injection Hq as Hq. symmetry in Hq. apply bool_decide_eq_false in Hq.
      assert (Hq2 : q ∉ arrivals ps reqs) by (intros Hi; specialize (Hnacc Hq Hi); lia).
      rewrite decide_True.
      2: { split; [exact Hin|]. split; [exact Hq2|]. lia. }
      cbn. split; [exact H1|]. split; [exact H2|]. split; [rewrite app_length, H3; cbn; lia|].
      intros p. destruct (decide (p = q)) as [->|Hne].
      * rewrite lookup_insert, decide_True by exact Hin. rewrite bool_decide_eq_true_2; [reflexivity|set_solver].
      * rewrite lookup_insert_ne by congruence. rewrite H4. destruct (decide (p ∈ ps)); [|reflexivity].
        f_equal. apply bool_decide_ext. set_solver.
Qed.

(** After any sequence of requests the online peers are the first [t] distinct
    participants that asked, and the counter is their number. *)
Theorem C20_online_are_the_first_to_ask :
  forall peers me leader t reqs ord,
    leader <> "NONE"%string ->
    let g := after (NewPeerStatus peers me leader t) reqs in
    let first := take (Z.to_nat t) (arrivals (others me peers) reqs) in
    getOnline ord g ≡ₚ first /\ g_count g = Z.of_nat (length first) /\ (g_count g <= Z.max 0 t)%Z.
Proof.
  intros peers me leader t reqs ord Hl g first.
  destruct (after_spec peers me leader t reqs Hl) as (H1 & H2 & H3 & H4). fold g in H1, H2, H3, H4.
  split; [|split; [exact H3|]].
  - apply NoDup_Permutation; [apply online_nodup| |].
    + subst first. pose proof (arrivals_nodup (others me peers) reqs) as Hnd.
      rewrite <- (take_drop (Z.to_nat t)) in Hnd. apply NoDup_app in Hnd. tauto.
    + intros p. rewrite elem_of_online, H4. destruct (decide (p ∈ others me peers)) as [Hin|Hin].
      * change first with (accepted t (others me peers) reqs).
        destruct (bool_decide (p ∈ accepted t (others me peers) reqs)) eqn:Eb.
        -- apply bool_decide_eq_true in Eb. tauto.
        -- apply bool_decide_eq_false in Eb. split; [discriminate|tauto].
      * split; [discriminate|]. intros Hf. exfalso. apply Hin. eapply arrivals_in.
        rewrite <- (take_drop (Z.to_nat t)). apply elem_of_app. left. exact Hf.
  - rewrite H3. unfold accepted. rewrite take_length. lia.
Qed.
Print Assumptions C20_online_are_the_first_to_ask.

(** The answer to one more request: an error exactly for a peer that is no (other)
    participant; the party-formed signal exactly for the [t]-th distinct participant. *)
Theorem C20_signal_once :
  forall peers me leader t reqs p,
    leader <> "NONE"%string ->
    let r := snd (updatePeer p (after (NewPeerStatus peers me leader t) reqs)) in
    let seen := arrivals (others me peers) reqs in
    (r = None <-> p ∉ others me peers) /\
    (r = Some true <-> p ∈ others me peers /\ p ∉ seen /\ Z.of_nat (S (length seen)) = t).
Proof.
  intros peers me leader t reqs p Hl.
  destruct (after_spec peers me leader t reqs Hl) as (H1 & H2 & H3 & H4).
  set (g := after (NewPeerStatus peers me leader t) reqs) in *. cbv zeta.
  specialize (H4 p). unfold updatePeer. rewrite H4. set (ps := others me peers) in *.
  assert (Hlen : length (accepted t ps reqs) = Nat.min (Z.to_nat t) (length (arrivals ps reqs))) by apply take_length.
  destruct (decide (p ∈ ps)) as [Hin|Hin]; [|cbn; split; [tauto|split; [discriminate|tauto]]].
  rewrite decide_False by congruence. rewrite H2, H3.
  destruct (Z.leb_spec t (Z.of_nat (length (accepted t ps reqs)))) as [Hle|Hgt].
  - cbn. split; [split; [discriminate|tauto]|]. split; [discriminate|]. intros (_ & _ & He). lia.
  - assert (Heq : accepted t ps reqs = arrivals ps reqs) by (unfold accepted; apply take_ge; lia).
    destruct (bool_decide (p ∈ accepted t ps reqs)) eqn:Eb.
    + apply bool_decide_eq_true in Eb. rewrite Heq in Eb. cbn. split; [split; [discriminate|tauto]|].
      split; [discriminate|tauto].
    + apply bool_decide_eq_false in Eb. rewrite Heq in Eb. cbn. rewrite Heq. split; [split; [discriminate|tauto]|].
      split.
      * intros [= Ht]. apply Z.leb_le in Ht. rewrite Heq in Hgt. repeat split; auto. lia.
      * intros (_ & _ & <-). f_equal. apply Z.leb_le. lia.
Qed.
Print Assumptions C20_signal_once.

Example C20_example :
  let g := NewPeerStatus ["a"; "b"; "c"; "d"] "a" "a" 2 in
  map (fun k => snd (updatePeer (nth k ["x"; "b"; "b"; "d"; "c"] "") (after g (firstn k ["x"; "b"; "b"; "d"; "c"])))) [0; 1; 2; 3; 4]
  = [None; Some false; Some false; Some true; Some false]
  /\ getOnline [] (after g ["x"; "b"; "b"; "d"; "c"]) = ["d"; "b"] /\
  arrivals (others "a" ["a"; "b"; "c"; "d"]) ["x"; "b"; "b"; "d"; "c"] = ["b"; "d"; "c"].
Proof. vm_compute. auto. Qed.

Section join.
  Context (sha : bytes -> string) (peerDecode : string -> option string) (me : string).
  Notation run := (jrun sha peerDecode me).
  Notation called_leader := (called_leader sha peerDecode me).
  Notation called_member := (called_member sha peerDecode me).
  Notation called_leaderless := (called_leaderless sha peerDecode me).
  Notation requested := (requested sha peerDecode me).
  Notation responded := (responded sha peerDecode me).
  Context (me_ok : me <> "NONE"%string).

  (** ** C19 *)
  Theorem C19_online_peers_are_participants_that_asked :
    forall ls j id pids o l,
      (exists t, called_leader ls j id pids t) \/ called_leaderless ls j id pids ->
      returned (run ls) j o -> oc_peers o = Some l ->
      NoDup l /\ me ∈ l /\
      forall p, p ∈ l -> p <> me -> p ∈ pids /\ requested ls j id p.
  Proof.
    intros ls j id pids o l Hcall Hret Hl.
    assert (Hc : exists c, j_calls (run ls) !! j = Some c /\ jc_msg c = id /\
      (jc_role c = RLeader pids \/ jc_role c = RLeaderless pids)).
    { destruct Hcall as [[t Hcall]|Hcall].
      - destruct (leader_call _ _ _ me_ok _ _ _ _ _ Hcall) as (c & g & ? & ? & ? & ? & ?). eauto 6.
      - destruct (leaderless_call _ _ _ me_ok _ _ _ _ Hcall) as (c & g & ? & ? & ? & ?). eauto 6. }
    destruct Hc as (c & Hc & Hm & Hr).
    destruct (returned_ok _ _ _ me_ok _ _ _ _ Hret Hc) as [(g & Hok & Hrec)|(e & -> & _)]; [|discriminate].
    assert (Hs : sound me pids g l).
    { pose proof (ok_stage _ _ _ _ Hok) as Hs. unfold stage_ok in Hs. destruct Hret as (c' & Hc' & Ho).
      rewrite Hc in Hc'. injection Hc' as <-. rewrite Ho in Hs. destruct o as [ps e]. cbn in Hl. subst ps.
      destruct Hr as [Hr|Hr]; rewrite Hr in Hs.
      - destruct Hs as [(_ & [=] & _)|[(_ & _ & l' & [= <-] & Hs & _)|(_ & _ & l' & [= <-] & Hs & _)]]; exact Hs.
      - destruct Hs as (l' & [= <-] & Hs & _). exact Hs. }
    destruct Hs as (H1 & H2 & H3). split; [exact H1|]. split; [exact H2|]. intros p Hp Hne.
    destruct (H3 p Hp) as [->|(Hin & _ & m & Hg & Hreq)]; [congruence|]. split; [exact Hin|].
    exists m. split; [apply Hrec, Hg|]. split; [exact Hreq|]. rewrite <- Hm. apply (ok_in _ _ _ _ Hok _ _ Hg).
  Qed.

  (** The handler of a request from a peer that is no participant ends and leaves all
      groups and calls as they are. *)
  Theorem C19_others_are_ignored :
    forall ls h j p old id pids,
      (exists t, called_leader ls j id pids t) \/ called_leaderless ls j id pids ->
      j_handlers (run ls) !! h = Some (HUpdate j p old) -> p ∉ pids ->
      j_groups (run (ls ++ [LHandle h])) = j_groups (run ls) /\ j_calls (run (ls ++ [LHandle h])) = j_calls (run ls) /\
      j_handlers (run (ls ++ [LHandle h])) !! h = None.
  Proof.
    intros ls h j p old id pids Hcall Hh Hp.
    assert (Hc : exists c g, j_calls (run ls) !! j = Some c /\ j_groups (run ls) !! j = Some g /\
      (jc_role c = RLeader pids \/ jc_role c = RLeaderless pids)).
    { destruct Hcall as [[t Hcall]|Hcall].
      - destruct (leader_call _ _ _ me_ok _ _ _ _ _ Hcall) as (c & g & ? & ? & ? & ? & ?). eauto 8.
      - destruct (leaderless_call _ _ _ me_ok _ _ _ _ Hcall) as (c & g & ? & ? & ? & ?). eauto 8. }
    destruct Hc as (c & g & Hc & Hg & Hr).
    destruct (ji_group _ _ _ (jinv_run sha peerDecode me me_ok ls) _ _ Hg) as (c' & Hc' & Hok).
    rewrite Hc in Hc'. injection Hc' as <-.
    assert (Hm : g_members g !! p = None).
    { pose proof (ok_role _ _ _ _ Hok) as Hro. unfold role_ok in Hro.
      apply eq_None_not_Some. intros Hs. apply Hp.
      destruct Hr as [Hr|Hr]; rewrite Hr in Hro.
      - destruct Hro as (_ & _ & _ & Hro). apply Hro, Hs.
      - destruct Hro as (_ & _ & Hro). apply Hro, Hs. }
    rewrite run_snoc. cbn [jstep]. unfold handle. rewrite Hh, Hg. unfold updatePeer. rewrite Hm. cbn.
    rewrite (insert_id (j_groups (run ls)) j g Hg). repeat split. apply lookup_delete.
  Qed.

  (** ** C21 *)
  Theorem C21_leader_success :
    forall ls j id pids t ps,
      called_leader ls j id pids t -> returned (run ls) j (Outcome ps ENone) -> (0 <= t)%Z ->
      exists l c, ps = Some l /\ j_calls (run ls) !! j = Some c /\
        NoDup l /\ me ∈ l /\ Z.of_nat (length l) = (t + 1)%Z /\
        (forall p, p ∈ l -> p <> me -> p ∈ pids /\ requested ls j id p) /\
        jc_sent c = Some (LeaderMsg id "response" JoinParty_Success l).
  Proof.
    intros ls j id pids t ps Hcall Hret Ht.
    destruct (leader_call _ _ _ me_ok _ _ _ _ _ Hcall) as (c & g0 & Hc & _ & Hm & Hr & Hth).
    destruct (returned_ok _ _ _ me_ok _ _ _ _ Hret Hc) as [(g & Hok & Hrec)|(e & [= ] & Hne)]; [|congruence].
    pose proof (ok_stage _ _ _ _ Hok) as Hs. unfold stage_ok in Hs. pose proof Hret as (c' & Hc' & Ho).
    rewrite Hc in Hc'. injection Hc' as <-. rewrite Ho, Hr in Hs.
    destruct Hs as [([=] & _)|[(_ & _ & l & -> & Hs & Hlen & Hsent)|([=] & _)]].
    exists l, c. destruct (C19_online_peers_are_participants_that_asked ls j id pids _ l (or_introl (ex_intro _ t Hcall)) Hret eq_refl) as (H1 & H2 & H3).
    rewrite Hth in Hlen. rewrite Hm in Hsent. repeat split; auto; apply H3; auto.
  Qed.

  Theorem C21_leader_timeout :
    forall ls j id pids t ps,
      called_leader ls j id pids t -> returned (run ls) j (Outcome ps ETimeout) ->
      exists l c, ps = Some l /\ j_calls (run ls) !! j = Some c /\
        NoDup l /\ me ∈ l /\ (Z.of_nat (length l) < t + 1)%Z /\
        (forall p, p ∈ l -> p <> me -> p ∈ pids /\ requested ls j id p) /\
        jc_sent c = Some (LeaderMsg id "response" JoinParty_Timeout l).
  Proof.
    intros ls j id pids t ps Hcall Hret.
    destruct (leader_call _ _ _ me_ok _ _ _ _ _ Hcall) as (c & g0 & Hc & _ & Hm & Hr & Hth).
    pose proof Hret as (c' & Hc' & Ho). rewrite Hc in Hc'. injection Hc' as <-.
    destruct (returned_ok _ _ _ me_ok _ _ _ _ Hret Hc) as [(g & Hok & Hrec)|(e & He & Hne)].
    - pose proof (ok_stage _ _ _ _ Hok) as Hs. unfold stage_ok in Hs. rewrite Ho, Hr in Hs.
      destruct Hs as [([=] & _)|[([=] & _)|(_ & _ & l & -> & Hs & Hlen & Hsent)]].
      exists l, c. destruct (C19_online_peers_are_participants_that_asked ls j id pids _ l (or_introl (ex_intro _ t Hcall)) Hret eq_refl) as (H1 & H2 & H3).
      rewrite Hth in Hlen. rewrite Hm in Hsent. repeat split; auto; apply H3; auto.
    - exfalso. injection He as -> <-.
      destruct (leader_call _ _ _ me_ok _ _ _ _ _ Hcall) as (c1 & g1 & Hc1 & Hg1 & _).
      destruct (ji_group _ _ _ (jinv_run sha peerDecode me me_ok ls) _ _ Hg1) as (c2 & Hc2 & Hok).
      rewrite Hc in Hc2. injection Hc2 as <-. pose proof (ok_stage _ _ _ _ Hok) as Hs. unfold stage_ok in Hs.
      rewrite Ho, Hr in Hs. destruct Hs as [([=] & _)|[([=] & _)|(_ & _ & l & [=] & _)]].
  Qed.

  Lemma online_exact ls j c g p :
    j_calls (run ls) !! j = Some c -> j_groups (run ls) !! j = Some g -> quiet (run ls) j ->
    (g_leader g = "NONE"%string \/ (g_count g < g_threshold g)%Z) ->
    is_Some (g_members g !! p) -> asked g p -> g_members g !! p = Some true.
  Proof.
    intros Hc Hg Hq Hl Hs (m & Hin & Hr).
    destruct (ji_complete _ _ _ (jinv_run sha peerDecode me me_ok ls) _ _ _ _ Hg Hin Hr Hs) as [H|[[H1 H2]|(h & old & H)]].
    - exact H.
    - destruct Hl; [congruence|lia].
    - destruct (Hq _ _ _ H).
  Qed.

  (** When the leader gives up and no request is still being handled, the list it
      reports has everybody that asked. *)
  Theorem C21_leader_timeout_reports_all :
    forall ls j id pids t ord l,
      called_leader ls j id pids t -> only_call ls j id -> quiet (run ls) j -> "NONE"%string ∉ pids ->
      joining (run ls) j -> returned (run (ls ++ [LFinish j ord])) j (Outcome (Some l) ETimeout) ->
      forall p, p ∈ l <-> p = me \/ (p ∈ pids /\ p <> me /\ requested ls j id p).
  Proof.
    intros ls j id pids t ord l Hcall Honly Hq Hnone Hj Hret p.
    destruct (leader_call _ _ _ me_ok _ _ _ _ _ Hcall) as (c & g & Hc & Hg & Hm & Hr & Hth).
    destruct Hj as (c' & Hc' & Hnd). rewrite Hc in Hc'. injection Hc' as <-.
    destruct (ji_group _ _ _ (jinv_run sha peerDecode me me_ok ls) _ _ Hg) as (c2 & Hc2 & Hok).
    rewrite Hc in Hc2. injection Hc2 as <-.
    pose proof (ok_role _ _ _ _ Hok) as Hro. unfold role_ok in Hro. rewrite Hr in Hro. destruct Hro as (Hl & Ht & _ & Hmem).
    destruct Hret as (c3 & Hc3 & Ho). rewrite run_snoc in Hc3. cbn [jstep] in Hc3. unfold finish in Hc3.
    rewrite Hc, Hg, Hr in Hc3.
    destruct (jc_stage c) eqn:Est; try (rewrite Hc in Hc3; injection Hc3 as <-; congruence).
    unfold finish_leader, done in Hc3.
    case_decide; [cbn in Hc3; rewrite lookup_insert in Hc3; injection Hc3 as <-; discriminate|].
    destruct (Z.ltb_spec (Z.of_nat (length (getOnline ord g ++ [me]))) (jc_threshold c + 1)) as [Hlt|Hge];
      cbn in Hc3; rewrite lookup_insert in Hc3; injection Hc3 as <-; [|discriminate].
    cbn in Ho. injection Ho as <-.
    rewrite elem_of_app, elem_of_online, elem_of_list_singleton. split.
    - intros [Hp|Hp]; [right|left; exact Hp].
      destruct (Hmem p) as [Hm1 _]. destruct Hm1; [eauto|]. split; [assumption|]. split; [assumption|].
      rewrite <- Hm. eapply asked_requested; eauto; [congruence|]. apply (ok_on _ _ _ _ Hok), Hp.
    - intros [Hp|(Hp1 & Hp2 & Hp3)]; [right; exact Hp|left].
      eapply online_exact; eauto.
      + right. destruct (ok_count _ _ _ _ Hok) as [Hc1 _]; [congruence|].
        rewrite app_length, getOnline_perm in Hlt. cbn in Hlt. lia.
      + apply Hmem. auto.
      + eapply requested_matched; eauto. intros ->. contradiction.
  Qed.

  (** ** C24 *)
  Theorem C24_leaderless_outcome :
    forall ls j id pids o,
      called_leaderless ls j id pids -> returned (run ls) j o ->
      exists l, oc_peers o = Some l /\
        (oc_err o = ENone <-> length l = length pids) /\ (oc_err o = ENone \/ oc_err o = ETimeout).
  Proof.
    intros ls j id pids o Hcall Hret.
    destruct (leaderless_call _ _ _ me_ok _ _ _ _ Hcall) as (c & g & Hc & Hg & Hm & Hr).
    destruct (ji_group _ _ _ (jinv_run sha peerDecode me me_ok ls) _ _ Hg) as (c2 & Hc2 & Hok).
    rewrite Hc in Hc2. injection Hc2 as <-. destruct Hret as (c' & Hc' & Ho). rewrite Hc in Hc'. injection Hc' as <-.
    pose proof (ok_stage _ _ _ _ Hok) as Hs. unfold stage_ok in Hs. rewrite Ho, Hr in Hs. destruct o as [ps e].
    destruct Hs as (l & -> & _ & Hs). exists l. cbn. split; [reflexivity|].
    destruct Hs as [[-> H]|[-> H]]; split; auto; split; auto; try discriminate. congruence.
  Qed.

  (** The list has the node and exactly those that asked; no error exactly when all did. *)
  Theorem C24_leaderless_exact :
    forall ls j id pids ord o,
      called_leaderless ls j id pids -> only_call ls j id -> quiet (run ls) j -> "NONE"%string ∉ pids ->
      joining (run ls) j -> returned (run (ls ++ [LFinish j ord])) j o ->
      exists l, oc_peers o = Some l /\ NoDup l /\
        (forall p, p ∈ l <-> p = me \/ (p ∈ pids /\ p <> me /\ requested ls j id p)) /\
        (NoDup pids -> me ∈ pids ->
           (oc_err o = ENone <-> forall p, p ∈ pids -> p <> me -> requested ls j id p)).
  Proof.
    intros ls j id pids ord o Hcall Honly Hq Hnone Hj Hret.
    destruct (leaderless_call _ _ _ me_ok _ _ _ _ Hcall) as (c & g & Hc & Hg & Hm & Hr).
    destruct Hj as (c' & Hc' & Hnd). rewrite Hc in Hc'. injection Hc' as <-.
    destruct (ji_group _ _ _ (jinv_run sha peerDecode me me_ok ls) _ _ Hg) as (c2 & Hc2 & Hok).
    rewrite Hc in Hc2. injection Hc2 as <-.
    pose proof (ok_role _ _ _ _ Hok) as Hro. unfold role_ok in Hro. rewrite Hr in Hro. destruct Hro as (Hl & _ & Hmem).
    destruct Hret as (c3 & Hc3 & Ho). rewrite run_snoc in Hc3. cbn [jstep] in Hc3. unfold finish in Hc3.
    rewrite Hc, Hg, Hr in Hc3.
    destruct (jc_stage c) eqn:Est; try (rewrite Hc in Hc3; injection Hc3 as <-; congruence).
    unfold finish_leaderless, done in Hc3. cbn in Hc3. rewrite lookup_insert in Hc3. injection Hc3 as <-.
    cbn in Ho. injection Ho as <-. cbn [oc_peers oc_err].
    pose proof (online_sound peerDecode me me_ok _ _ pids ord Hok Hmem) as (Hnd' & Hme & _).
    assert (Hin : forall p, p ∈ getOnline ord g ++ [me] <-> p = me \/ (p ∈ pids /\ p <> me /\ requested ls j id p)).
    { intros p. rewrite elem_of_app, elem_of_online, elem_of_list_singleton. split.
      - intros [Hp|Hp]; [right|left; exact Hp].
        destruct (Hmem p) as [Hm1 _]. destruct Hm1; [eauto|]. split; [assumption|]. split; [assumption|].
        rewrite <- Hm. eapply asked_requested; eauto; [congruence|]. apply (ok_on _ _ _ _ Hok), Hp.
      - intros [Hp|(Hp1 & Hp2 & Hp3)]; [right; exact Hp|left].
        eapply online_exact; eauto; [apply Hmem; auto|].
        eapply requested_matched; eauto. intros ->. contradiction. }
    exists (getOnline ord g ++ [me]). split; [reflexivity|]. split; [exact Hnd'|]. split; [exact Hin|].
    intros Hndp Hmep.
    assert (Hsub : getOnline ord g ++ [me] ⊆+ pids).
    { apply NoDup_submseteq; [exact Hnd'|]. intros p Hp%Hin. destruct Hp as [->|(Hp & _)]; auto. }
    destruct (Nat.eqb_spec (length (getOnline ord g ++ [me])) (length pids)) as [He|He].
    - split; [|reflexivity]. intros _ p Hp Hne.
      assert (Hperm : getOnline ord g ++ [me] ≡ₚ pids).
      { apply submseteq_Permutation_length_eq; auto. }
      rewrite <- Hperm in Hp. apply Hin in Hp as [->|(_ & _ & Hp)]; [congruence|exact Hp].
    - split; [discriminate|]. intros Hall. exfalso. apply He. apply Permutation_length, NoDup_Permutation; auto.
      intros p. rewrite Hin. split.
      + intros [->|(Hp & _)]; auto.
      + intros Hp. destruct (decide (p = me)); auto.
  Qed.

  (** ** C22 *)
  Theorem C22_member_follows_its_leader :
    forall ls j id leader peers t o l,
      called_member ls j id leader peers t -> returned (run ls) j o -> oc_peers o = Some l ->
      (exists lm, responded ls j id leader lm /\ mapM peerDecode (lm_peers lm) = Some l) /\
      (oc_err o = ENone -> (t <= Z.of_nat (length l))%Z /\
         exists lm, responded ls j id leader lm /\ lm_type lm = JoinParty_Success).
  Proof.
    intros ls j id leader peers t o l Hcall Hret Hl.
    destruct (member_call _ _ _ me_ok _ _ _ _ _ _ Hcall) as (c & g0 & Hc & _ & Hm & Hr & Hth).
    destruct (returned_ok _ _ _ me_ok _ _ _ _ Hret Hc) as [(g & Hok & Hrec)|(e & -> & _)]; [|discriminate].
    pose proof (ok_role _ _ _ _ Hok) as Hro. unfold role_ok in Hro. rewrite Hr in Hro. destruct Hro as (Hld & _).
    assert (Hsaid : forall lm, said g lm -> responded ls j id leader lm).
    { intros lm [H1 H2]. rewrite Hld in H1. split; [apply Hrec, H1|]. split; [exact H2|].
      destruct (ok_in _ _ _ _ Hok _ _ H1) as [H3 _]. cbn in H3. congruence. }
    pose proof (ok_stage _ _ _ _ Hok) as Hs. unfold stage_ok in Hs. destruct Hret as (c' & Hc' & Ho).
    rewrite Hc in Hc'. injection Hc' as <-. rewrite Ho, Hr in Hs. destruct o as [ps e]. cbn in Hl. subst ps.
    destruct Hs as [(_ & [=])|[(_ & [=])|[(_ & [=])|[(-> & ids & [= <-] & (lm & Hlm & Hp) & Hlt)|(ids & lm & [= <-] & (lm' & Hlm' & Hp) & Hle & Hlm & Hs)]]]].
    - split; [eauto|discriminate].
    - split; [eauto|]. cbn. intros ->. rewrite Hth in Hle. split; [exact Hle|]. exists lm. split; [auto|].
      destruct Hs as [[_ Hs]|[[=] _]]. exact Hs.
  Qed.

  (** ** C26 *)
  (** While a party is being formed only "signature received" is ever written to
      sigChan ("signature generated" is written after the join, tss/keysign.go). *)
  Definition only_received (ls : list jlabel) (j : nat) : Prop :=
    forall x, LSig j x ∈ ls -> x = "signature received"%string.
  (** A call that was told about the signature while it was waiting. *)
  Definition told_of_signature (ls : list jlabel) (j : nat) : Prop :=
    exists ls0 ls1 c x rest, ls = ls0 ++ LTakeSig j :: ls1 /\ j_calls (run ls0) !! j = Some c /\
      jc_stage c = JWait /\ jc_sig c = x :: rest.

  Lemma sig_only ls j c :
    only_received ls j -> j_calls (run ls) !! j = Some c ->
    Forall (fun x => x = "signature received"%string) (jc_sig c) /\
    (jc_notified c = ""%string \/ jc_notified c = "signature received"%string).
  Proof.
    revert c. induction ls as [|l ls IH] using rev_ind; intros c Ho Hc.
    - cbn in Hc. discriminate (eq_trans (eq_sym (lookup_empty (M := gmap nat) (A := jcall) j)) Hc).
    - assert (Ho' : only_received ls j) by (intros x Hx; apply Ho; set_solver).
      rewrite run_snoc in Hc. destruct (j_calls (run ls) !! j) as [c0|] eqn:E0.
      + destruct (IH _ Ho' eq_refl) as [H1 H2].
        destruct (sig_step _ _ _ _ _ _ _ _ E0 Hc) as [[-> ->]|[(x & -> & -> & ->)|(x & -> & _ & H3 & ->)]]; [auto| |].
        * split; [|exact H2]. apply Forall_app. split; [exact H1|]. constructor; [|constructor]. apply Ho. set_solver.
        * rewrite H3 in H1. apply Forall_cons in H1 as [-> H1]. auto.
      + destruct (call_new_sig _ _ _ _ _ _ _ E0 Hc) as [-> ->]. auto.
  Qed.

  Lemma notified_stays ls ls' j c :
    only_received (ls ++ ls') j -> j_calls (run ls) !! j = Some c -> jc_notified c = "signature received"%string ->
    exists c', j_calls (run (ls ++ ls')) !! j = Some c' /\ jc_notified c' = "signature received"%string.
  Proof.
    intros Ho Hc Hn. induction ls' as [|l ls' IH] using rev_ind; [rewrite app_nil_r; eauto|].
    rewrite app_assoc in *.
    assert (Ho' : only_received (ls ++ ls') j) by (intros x Hx; apply Ho; set_solver).
    destruct (IH Ho') as (c1 & Hc1 & Hn1). rewrite run_snoc.
    destruct (call_step sha peerDecode me l _ _ _ Hc1) as (c2 & Hc2 & _). exists c2. split; [exact Hc2|].
    destruct (sig_step _ _ _ _ _ _ _ _ Hc1 Hc2) as [[_ ->]|[(x & _ & _ & ->)|(x & _ & _ & H3 & ->)]]; [exact Hn1..|].
    destruct (sig_only _ _ _ Ho' Hc1) as [H1 _]. rewrite H3 in H1. apply Forall_cons in H1 as [-> _]. reflexivity.
  Qed.

  Lemma notified_after ls j c :
    only_received ls j -> told_of_signature ls j -> j_calls (run ls) !! j = Some c ->
    (forall ps, jc_role c <> RLeaderless ps) -> jc_notified c = "signature received"%string.
  Proof.
    intros Ho (ls0 & ls1 & c0 & x & rest & -> & Hc0 & Hst & Hsig) Hc Hr.
    assert (Ho0 : only_received ls0 j) by (intros y Hy; apply Ho; set_solver).
    destruct (sig_only _ _ _ Ho0 Hc0) as [H1 _]. rewrite Hsig in H1. apply Forall_cons in H1 as [-> _].
    destruct (call_run sha peerDecode me ls0 (LTakeSig j :: ls1) _ _ Hc0) as (c1 & Hc1 & _ & M & _).
    rewrite Hc in Hc1. injection Hc1 as <-.
    assert (H2 : exists c2, j_calls (run (ls0 ++ [LTakeSig j])) !! j = Some c2 /\ jc_notified c2 = "signature received"%string).
    { rewrite run_snoc. cbn [jstep]. unfold on_sig. rewrite Hc0, Hst, Hsig.
      destruct (jc_role c0) eqn:Er; [| |exfalso; exact (Hr _ M)]; cbn; rewrite lookup_insert; eexists; (split; [reflexivity|]); reflexivity. }
    destruct H2 as (c2 & Hc2 & Hn2). rewrite (cons_middle (LTakeSig j)), app_assoc in Ho, Hc.
    destruct (notified_stays _ ls1 _ _ Ho Hc2 Hn2) as (c3 & Hc3 & Hn3).
    rewrite Hc in Hc3. injection Hc3 as <-. exact Hn3.
  Qed.

  Lemma notified_told ls j c :
    j_calls (run ls) !! j = Some c -> jc_notified c <> ""%string -> told_of_signature ls j.
  Proof.
    revert c. induction ls as [|l ls IH] using rev_ind; intros c Hc Hn.
    - cbn in Hc. discriminate (eq_trans (eq_sym (lookup_empty (M := gmap nat) (A := jcall) j)) Hc).
    - rewrite run_snoc in Hc. destruct (j_calls (run ls) !! j) as [c0|] eqn:E0.
      + assert (R : jc_notified c0 <> ""%string -> told_of_signature (ls ++ [l]) j).
        { intros H. destruct (IH _ eq_refl H) as (ls0 & ls1 & c1 & x & rest & -> & H1). exists ls0, (ls1 ++ [l]), c1, x, rest.
          rewrite <- app_assoc. auto. }
        destruct (sig_step _ _ _ _ _ _ _ _ E0 Hc) as [[_ H]|[(x & _ & _ & H)|(x & -> & H2 & H3 & _)]].
        * apply R. congruence. * apply R. congruence.
        * exists ls, [], c0, x, (jc_sig c). auto.
      + destruct (call_new_sig _ _ _ _ _ _ _ E0 Hc) as [_ H]. congruence.
  Qed.

  Theorem C26_leader_reports_signature :
    forall ls j id pids t o,
      called_leader ls j id pids t -> only_received ls j -> returned (run ls) j o ->
      told_of_signature ls j <-> o = Outcome None ESignReceived.
  Proof.
    intros ls j id pids t o Hcall Ho Hret.
    destruct (leader_call _ _ _ me_ok _ _ _ _ _ Hcall) as (c & g & Hc & Hg & Hm & Hr & Hth).
    destruct Hret as (c' & Hc' & Hst). rewrite Hc in Hc'. injection Hc' as <-.
    destruct (ji_group _ _ _ (jinv_run sha peerDecode me me_ok ls) _ _ Hg) as (c2 & Hc2 & Hok).
    rewrite Hc in Hc2. injection Hc2 as <-. pose proof (ok_stage _ _ _ _ Hok) as Hs. unfold stage_ok in Hs.
    rewrite Hst, Hr in Hs. destruct o as [ps e]. split.
    - intros Ht. assert (Hn : jc_notified c = "signature received"%string).
      { eapply notified_after; eauto. intros ps' E. congruence. }
      destruct Hs as [(-> & -> & _)|[(_ & H & _)|(_ & H & _)]]; [reflexivity|contradiction..].
    - intros [= -> ->]. destruct Hs as [(_ & _ & H)|[([=] & _)|([=] & _)]].
      eapply notified_told; [exact Hc|]. rewrite H. discriminate.
  Qed.

  (** ** C27 *)
  (** Any handler of a message for a leader's or a leaderless group ends within two
      steps, whatever was received before. *)
  Theorem C27_handlers_never_block :
    forall ls h x j id pids,
      (exists t, called_leader ls j id pids t) \/ called_leaderless ls j id pids ->
      j_handlers (run ls) !! h = Some x ->
      match x with HUpdate k _ _ | HResp k _ _ | HNotify k | HNewFound k => k = j end ->
      j_handlers (run (ls ++ [LHandle h; LHandle h])) !! h = None.
  Proof.
    intros ls h x j id pids Hcall Hx Hk.
    assert (Hc : exists c, j_calls (run ls) !! j = Some c /\ forall l, jc_role c <> RMember l).
    { destruct Hcall as [[t Hcall]|Hcall].
      - destruct (leader_call _ _ _ me_ok _ _ _ _ _ Hcall) as (c & g & ? & ? & ? & E & ?). exists c. rewrite E. split; [assumption|discriminate].
      - destruct (leaderless_call _ _ _ me_ok _ _ _ _ Hcall) as (c & g & ? & ? & ? & E). exists c. rewrite E. split; [assumption|discriminate]. }
    destruct Hc as (c & Hc & Hr). eapply handlers_end; eauto.
  Qed.
End join.
Print Assumptions C19_online_peers_are_participants_that_asked.
Print Assumptions C19_others_are_ignored.
Print Assumptions C21_leader_success.
Print Assumptions C21_leader_timeout.
Print Assumptions C21_leader_timeout_reports_all.
Print Assumptions C24_leaderless_outcome.
Print Assumptions C24_leaderless_exact.
Print Assumptions C22_member_follows_its_leader.
Print Assumptions C26_leader_reports_signature.
Print Assumptions C27_handlers_never_block.

(** ** Concrete runs that meet the hypotheses *)
(** The digest is the identity, so the first peer in string order is the leader. *)
Notation xrun := (jrun of_bytes Some).
Definition request (id : string) : incoming := InLeader (LeaderMsg id "request" 0 []).
Definition response (id : string) (ty : nat) (ps : list string) : leadermsg := LeaderMsg id "response" ty ps.

(** The leader "a" waits for one of "b", "c". First "z", which is no participant, asks,
    then "c", then "b". *)
Definition leader_ok : list jlabel :=
  [LJoin 0 "id" 7 ["a"; "b"; "c"] 1;
   LMsg 0 "z" (request "id"); LMsg 1 "c" (request "id"); LHandle 0; LMsg 2 "b" (request "id");
   LHandle 1; LHandle 1; LHandle 2; LNotify 0; LFinish 0 []]%string.
Lemma leader_ok_called : called_leader of_bytes Some "a" leader_ok 0 "id" ["a"; "b"; "c"]%string 1.
Proof. exists [], 7%Z, ["a"; "b"; "c"]%string. eexists. repeat split. Qed.
Lemma leader_ok_returned : returned (xrun "a" leader_ok) 0 (Outcome (Some ["c"; "a"]%string) ENone).
Proof.
  exists (JCall "id" (RLeader ["a"; "b"; "c"]%string) 1 [] "" (JDone (Outcome (Some ["c"; "a"]%string) ENone))
    (Some (response "id" 1 ["c"; "a"]%string))). split; [vm_compute; reflexivity|reflexivity].
Qed.
Example C19_example :
  NoDup ["c"; "a"]%string /\ "a"%string ∈ ["c"; "a"]%string /\
  forall p, p ∈ ["c"; "a"]%string -> p <> "a"%string ->
    p ∈ ["a"; "b"; "c"]%string /\ requested of_bytes Some "a" leader_ok 0 "id" p.
Proof.
  eapply (C19_online_peers_are_participants_that_asked of_bytes Some "a"); [discriminate|left; exists 1%Z; exact leader_ok_called|exact leader_ok_returned|reflexivity].
Qed.
Example C19_ignored_example :
  let ls := take 3 leader_ok in
  j_handlers (xrun "a" ls) !! 0 = Some (HUpdate 0 "z" false) /\ j_handlers (xrun "a" (ls ++ [LHandle 0])) !! 0 = None.
Proof. split; vm_compute; reflexivity. Qed.
Example C21_success_example :
  exists l c, Some ["c"; "a"]%string = Some l /\ j_calls (xrun "a" leader_ok) !! 0 = Some c /\
    NoDup l /\ "a"%string ∈ l /\ Z.of_nat (length l) = (1 + 1)%Z /\
    (forall p, p ∈ l -> p <> "a"%string -> p ∈ ["a"; "b"; "c"]%string /\ requested of_bytes Some "a" leader_ok 0 "id" p) /\
    jc_sent c = Some (LeaderMsg "id" "response" JoinParty_Success l).
Proof. apply (C21_leader_success of_bytes Some "a"); [discriminate|exact leader_ok_called|exact leader_ok_returned|lia]. Qed.

(** The leader waits for two peers and only "c" asks. *)
Definition leader_late0 : list jlabel :=
  [LJoin 0 "id" 7 ["a"; "b"; "c"; "d"] 2; LMsg 1 "c" (request "id"); LHandle 1; LTimeout 0]%string.
Lemma leader_late_called : called_leader of_bytes Some "a" leader_late0 0 "id" ["a"; "b"; "c"; "d"]%string 2.
Proof. exists [], 7%Z, ["a"; "b"; "c"; "d"]%string. eexists. repeat split. Qed.
Lemma leader_late_returned : returned (xrun "a" (leader_late0 ++ [LFinish 0 []])) 0 (Outcome (Some ["c"; "a"]%string) ETimeout).
Proof.
  exists (JCall "id" (RLeader ["a"; "b"; "c"; "d"]%string) 2 [] "" (JDone (Outcome (Some ["c"; "a"]%string) ETimeout))
    (Some (response "id" 2 ["c"; "a"]%string))). split; [vm_compute; reflexivity|reflexivity].
Qed.
Example C21_timeout_example :
  only_call leader_late0 0 "id" /\ quiet (xrun "a" leader_late0) 0 /\
  (forall p, p ∈ ["c"; "a"]%string <-> p = "a"%string \/
     (p ∈ ["a"; "b"; "c"; "d"]%string /\ p <> "a"%string /\ requested of_bytes Some "a" leader_late0 0 "id" p)).
Proof.
  assert (Ho : only_call leader_late0 0 "id").
  { intros l Hl. unfold leader_late0 in Hl. repeat (apply elem_of_cons in Hl as [->|Hl]; [exact Logic.I || (intros; reflexivity)|]).
    apply elem_of_nil in Hl. easy. }
  assert (Hq : quiet (xrun "a" leader_late0) 0).
  { intros h p old H. assert (E : j_handlers (xrun "a" leader_late0) = ∅).
    { apply map_size_empty_iff. vm_compute. reflexivity. }
    rewrite E, lookup_empty in H. discriminate. }
  split; [exact Ho|]. split; [exact Hq|].
  eapply (C21_leader_timeout_reports_all of_bytes Some "a"); [discriminate|exact leader_late_called|exact Ho|exact Hq| |
    |exact leader_late_returned].
  - intros H. repeat (apply elem_of_cons in H as [H|H]; [discriminate|]). apply elem_of_nil in H. exact H.
  - exists (JCall "id" (RLeader ["a"; "b"; "c"; "d"]%string) 2 [] "" JWoken None). split; [vm_compute; reflexivity|discriminate].
Qed.

(** "b" runs the leaderless protocol with "a"; "z" is no participant. *)
Definition leaderless_ok0 : list jlabel :=
  [LRetry 0 "id" ["a"; "b"]; LMsg 0 "z" (InOld "id"); LMsg 1 "a" (InOld "id"); LHandle 0; LHandle 1; LHandle 1; LTimeout 0]%string.
Lemma leaderless_ok_called : called_leaderless of_bytes Some "b" leaderless_ok0 0 "id" ["a"; "b"]%string.
Proof. exists [], ["a"; "b"]%string. eexists. repeat split. Qed.
Lemma leaderless_ok_returned : returned (xrun "b" (leaderless_ok0 ++ [LFinish 0 []])) 0 (Outcome (Some ["a"; "b"]%string) ENone).
Proof.
  exists (JCall "id" (RLeaderless ["a"; "b"]%string) 1 [] "" (JDone (Outcome (Some ["a"; "b"]%string) ENone)) None).
  split; [vm_compute; reflexivity|reflexivity].
Qed.
Lemma leaderless_ok_quiet : only_call leaderless_ok0 0 "id" /\ quiet (xrun "b" leaderless_ok0) 0.
Proof.
  split.
  - intros l Hl. unfold leaderless_ok0 in Hl. repeat (apply elem_of_cons in Hl as [->|Hl]; [exact Logic.I || (intros; reflexivity)|]).
    apply elem_of_nil in Hl. easy.
  - intros h p old H. assert (E : j_handlers (xrun "b" leaderless_ok0) = ∅).
    { apply map_size_empty_iff. vm_compute. reflexivity. }
    rewrite E, lookup_empty in H. discriminate.
Qed.
Example C24_example :
  exists l, Some ["a"; "b"]%string = Some l /\ NoDup l /\
    (forall p, p ∈ l <-> p = "b"%string \/
       (p ∈ ["a"; "b"]%string /\ p <> "b"%string /\ requested of_bytes Some "b" leaderless_ok0 0 "id" p)) /\
    (NoDup ["a"; "b"]%string -> "b"%string ∈ ["a"; "b"]%string ->
      (ENone = ENone <-> forall p, p ∈ ["a"; "b"]%string -> p <> "b"%string -> requested of_bytes Some "b" leaderless_ok0 0 "id" p)).
Proof.
  destruct leaderless_ok_quiet as [Ho Hq].
  apply (C24_leaderless_exact of_bytes Some "b" ltac:(discriminate) leaderless_ok0 0 "id" _ [] (Outcome (Some ["a"; "b"]%string) ENone));
    [exact leaderless_ok_called|exact Ho|exact Hq| | |exact leaderless_ok_returned].
  - intros H. repeat (apply elem_of_cons in H as [H|H]; [discriminate|]). apply elem_of_nil in H. exact H.
  - exists (JCall "id" (RLeaderless ["a"; "b"]%string) 1 [] "" JWoken None). split; [vm_compute; reflexivity|discriminate].
Qed.

(** "b" is a member of the party of leader "a". "c" also sends a response. *)
Definition member_ok : list jlabel :=
  [LJoin 0 "id" 7 ["a"; "b"; "c"] 1;
   LMsg 0 "c" (InLeader (response "id" 1 ["c"; "b"])); LMsg 1 "a" (InLeader (response "id" 1 ["a"; "b"]));
   LHandle 0; LHandle 1; LHandle 1; LNotify 0; LFinish 0 []; LFinish 0 []; LFinish 0 []]%string.
Lemma member_ok_called : called_member of_bytes Some "b" member_ok 0 "id" "a" ["a"; "b"; "c"]%string 1.
Proof. exists [], 7%Z. eexists. repeat split; [discriminate|eauto]. Qed.
Lemma member_ok_returned : returned (xrun "b" member_ok) 0 (Outcome (Some ["a"; "b"]%string) ENone).
Proof.
  exists (JCall "id" (RMember "a") 1 [] "" (JDone (Outcome (Some ["a"; "b"]%string) ENone)) None).
  split; [vm_compute; reflexivity|reflexivity].
Qed.
Example C22_example :
  (exists lm, responded of_bytes Some "b" member_ok 0 "id" "a" lm /\ mapM Some (lm_peers lm) = Some ["a"; "b"]%string) /\
  (ENone = ENone -> (1 <= 2)%Z /\
     exists lm, responded of_bytes Some "b" member_ok 0 "id" "a" lm /\ lm_type lm = JoinParty_Success).
Proof.
  apply (C22_member_follows_its_leader of_bytes Some "b" ltac:(discriminate) member_ok 0 "id" "a" _ 1
    (Outcome (Some ["a"; "b"]%string) ENone) _ member_ok_called member_ok_returned eq_refl).
Qed.

(** The leader is told that the signature is there, then its timeout passes. *)
Definition leader_sig : list jlabel :=
  [LJoin 0 "id" 7 ["a"; "b"; "c"] 1; LSig 0 "signature received"; LTakeSig 0; LTimeout 0; LFinish 0 []]%string.
Example C26_example :
  called_leader of_bytes Some "a" leader_sig 0 "id" ["a"; "b"; "c"]%string 1 /\
  only_received leader_sig 0 /\ told_of_signature of_bytes Some "a" leader_sig 0 /\
  returned (xrun "a" leader_sig) 0 (Outcome None ESignReceived).
Proof.
  split; [exists [], 7%Z, ["a"; "b"; "c"]%string; eexists; repeat split|]. split.
  { intros x H. unfold leader_sig in H. repeat (apply elem_of_cons in H as [H|H]; [first [discriminate H|injection H as ->; reflexivity]|]).
    apply elem_of_nil in H. easy. }
  split.
  - eexists [_; _], [_; _], (JCall "id" (RLeader ["a"; "b"; "c"]%string) 1 ["signature received"]%string "" JWait None), _, [].
    split; [reflexivity|]. split; [vm_compute; reflexivity|]. split; reflexivity.
  - exists (JCall "id" (RLeader ["a"; "b"; "c"]%string) 1 [] "signature received" (JDone (Outcome None ESignReceived)) None).
    split; [vm_compute; reflexivity|reflexivity].
Qed.
Example C26_other_example : ~ told_of_signature of_bytes Some "a" leader_ok 0.
Proof.
  intros H.
  apply (C26_leader_reports_signature of_bytes Some "a" ltac:(discriminate) leader_ok 0 "id" ["a"; "b"; "c"]%string 1
    (Outcome (Some ["c"; "a"]%string) ENone)) in H; [discriminate|exact leader_ok_called| |exact leader_ok_returned].
  intros x Hx. unfold leader_ok in Hx. repeat (apply elem_of_cons in Hx as [Hx|Hx]; [discriminate|]).
  apply elem_of_nil in Hx. easy.
Qed.
Example C27_example :
  j_handlers (xrun "a" (take 6 leader_ok)) !! 2 = Some (HUpdate 0 "b" false) /\
  j_handlers (xrun "a" (take 6 leader_ok)) !! 1 = Some (HNotify 0) /\
  j_handlers (xrun "a" (take 6 leader_ok ++ [LHandle 1; LHandle 1])) !! 1 = None.
Proof. repeat split; vm_compute; reflexivity. Qed.
