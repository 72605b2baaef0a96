(** Property theorems: claims about join party that are false of the code
    (C23, C25, C76-C82). *)
From Coq Require Import ZArith NArith Ascii String List Lia.
From stdpp Require Import base list strings gmap.
From Verif Require Import Base L_Base M_Conv M_Join S_Join L_Join L_Join2 L_Join3 L_Join4 P_Join.

Ltac nolabel := let H := fresh in intros H; repeat (apply elem_of_cons in H as [H|H]; [discriminate|]); apply elem_of_nil in H; destruct H.

(** ** C23 *)
(** A member of a party of threshold [t] should return successfully only with a list of
    at least t+1 distinct participants. It takes whatever its leader says: too few
    peers, peers that are no participants, or the same peer many times. *)
Definition member_list (ps : list string) : list jlabel :=
  [LJoin 0 "id" 7 ["a"; "b"; "c"; "d"] 2; LMsg 1 "a" (InLeader (response "id" 1 ps));
   LHandle 1; LHandle 1; LNotify 0; LFinish 0 []; LFinish 0 []; LFinish 0 []]%string.
Lemma member_list_called ps : called_member of_bytes Some "b" (member_list ps) 0 "id" "a" ["a"; "b"; "c"; "d"]%string 2.
Proof. exists [], 7%Z. eexists. repeat split; [discriminate|eauto]. Qed.
Lemma member_list_returned ps : 2 <= length ps -> mapM Some ps = Some ps ->
  returned (xrun "b" (member_list ps)) 0 (Outcome (Some ps) ENone).
Proof.
  intros Hl Hm.
  assert (E : member_list ps = take 6 (member_list ps) ++ [LFinish 0 []; LFinish 0 []]) by reflexivity.
  rewrite E. unfold jrun. rewrite fold_left_app. clear E. set (s := fold_left _ (take 6 _) _).
  assert (Hc : j_calls s !! 0 = Some (JCall "id" (RMember "a") 2 [] "" JChecked None)) by (vm_compute; reflexivity).
  assert (Hg : (fun g => g_resp g) <$> j_groups s !! 0 = Some (Some (response "id" 1 ps))) by (vm_compute; reflexivity).
  apply fmap_Some in Hg as (g & Hg & Hr). symmetry in Hr.
  clearbody s. cbn [fold_left jstep].
  unfold finish at 2. rewrite Hc, Hg. cbn [jc_role]. unfold finish_member. cbn [jc_stage]. rewrite Hr. cbn [response lm_peers].
  unfold getPeerIDs. rewrite Hm. cbn [jc_threshold].
  destruct (Z.ltb_spec (Z.of_nat (length ps)) 2) as [H|_]; [lia|].
  unfold finish. cbn [set_call j_calls j_groups]. rewrite lookup_insert, Hg. cbn [jc_role jc_set_stage].
  unfold finish_member. cbn [jc_stage jc_set_stage]. rewrite Hr. cbn.
  eexists. split; [apply lookup_insert|]. reflexivity.
Qed.
Theorem C23_member_checks_the_list_refuted :
  exists sha peerDecode me,
    me <> "NONE"%string /\
    (* fewer than t+1 peers *)
    (exists ls j id leader peers t l, called_member sha peerDecode me ls j id leader peers t /\
       returned (jrun sha peerDecode me ls) j (Outcome (Some l) ENone) /\ (Z.of_nat (length l) < t + 1)%Z) /\
    (* a list without the node itself, of which no entry is a participant *)
    (exists ls j id leader peers t l, called_member sha peerDecode me ls j id leader peers t /\
       returned (jrun sha peerDecode me ls) j (Outcome (Some l) ENone) /\ me ∉ l /\ forall p, p ∈ l -> p ∉ peers) /\
    (* a list with one peer over and over *)
    (exists ls j id leader peers t l, called_member sha peerDecode me ls j id leader peers t /\
       returned (jrun sha peerDecode me ls) j (Outcome (Some l) ENone) /\ length l = 3 /\ exists p, forall q, q ∈ l -> q = p).
Proof.
  exists of_bytes, Some, "b"%string. split; [discriminate|]. split; [|split].
  - exists (member_list ["a"; "b"]%string), 0, "id"%string, "a"%string, ["a"; "b"; "c"; "d"]%string, 2%Z, ["a"; "b"]%string.
    split; [apply member_list_called|]. split; [apply member_list_returned; [cbn; lia|reflexivity]|]. cbn. lia.
  - exists (member_list ["x"; "y"; "z"]%string), 0, "id"%string, "a"%string, ["a"; "b"; "c"; "d"]%string, 2%Z, ["x"; "y"; "z"]%string.
    split; [apply member_list_called|]. split; [apply member_list_returned; [cbn; lia|reflexivity]|]. split; [nolabel|].
    intros p Hp. repeat (apply elem_of_cons in Hp as [->|Hp]; [nolabel|]). apply elem_of_nil in Hp. easy.
  - exists (member_list ["a"; "a"; "a"]%string), 0, "id"%string, "a"%string, ["a"; "b"; "c"; "d"]%string, 2%Z, ["a"; "a"; "a"]%string.
    split; [apply member_list_called|]. split; [apply member_list_returned; [cbn; lia|reflexivity]|]. split; [reflexivity|].
    exists "a"%string. intros q Hq. repeat (apply elem_of_cons in Hq as [->|Hq]; [reflexivity|]). apply elem_of_nil in Hq. easy.
Qed.
Print Assumptions C23_member_checks_the_list_refuted.

(** ** C25 *)
(** A leaderless call should return as soon as everybody has asked. As long as only
    messages of its own protocol come in, nothing but the timeout ends the waiting. *)
Theorem C25_only_the_timeout_ends_the_wait :
  forall sha peerDecode me ls j id pids,
    me <> "NONE"%string ->
    called_leaderless sha peerDecode me ls j id pids ->
    (forall h p lm, LMsg h p (InLeader lm) ∈ ls -> lm_id lm <> id) -> LTimeout j ∉ ls ->
    joining (jrun sha peerDecode me ls) j.
Proof.
  intros sha peerDecode me ls j id pids me_ok Hcall Hm Ht.
  destruct (leaderless_waits sha peerDecode me me_ok ls j id pids Hcall) as (c & g & Hc & Hg & Hr & [Hw|[H|(g' & p & lm & Hg' & Hin)]]).
  - exists c. split; [exact Hc|congruence].
  - contradiction.
  - exfalso. destruct (leaderless_call _ _ _ me_ok _ _ _ _ Hcall) as (c2 & g2 & Hc2 & Hg2 & Hm2 & _).
    rewrite Hc in Hc2. injection Hc2 as <-. rewrite Hg in Hg'. injection Hg' as <-.
    destruct (ji_group _ _ _ (jinv_run sha peerDecode me me_ok ls) _ _ Hg) as (c3 & Hc3 & Hok). rewrite Hc in Hc3. injection Hc3 as <-.
    destruct (ok_in _ _ _ _ Hok _ _ Hin) as [E _]. cbn in E.
    destruct (seen_in sha peerDecode me me_ok _ _ _ _ _ Hg Hin) as (ls0 & h & ls1 & -> & _).
    apply (Hm h p lm); [set_solver|congruence].
Qed.
Print Assumptions C25_only_the_timeout_ends_the_wait.
(** "a", the only other participant, has asked and its request has been handled. *)
Theorem C25_leaderless_returns_when_complete_refuted :
  exists sha peerDecode me ls j id pids,
    me <> "NONE"%string /\ called_leaderless sha peerDecode me ls j id pids /\
    (forall p, p ∈ pids -> p <> me -> requested sha peerDecode me ls j id p) /\
    j_handlers (jrun sha peerDecode me ls) = ∅ /\
    forall ls', LTimeout j ∉ ls' -> (forall h p lm, LMsg h p (InLeader lm) ∉ ls') ->
      joining (jrun sha peerDecode me (ls ++ ls')) j.
Proof.
  set (ls := [LRetry 0 "id" ["a"; "b"]; LMsg 1 "a" (InOld "id"); LHandle 1; LHandle 1]%string).
  exists of_bytes, Some, "b"%string, ls, 0, "id"%string, ["a"; "b"]%string.
  assert (Hcall : forall ls', called_leaderless of_bytes Some "b" (ls ++ ls') 0 "id" ["a"; "b"]%string).
  { intros ls'. exists [], ["a"; "b"]%string. eexists. repeat split. }
  split; [discriminate|]. split; [rewrite <- (app_nil_r ls); apply Hcall|]. split.
  { intros p Hp Hne. assert (p = "a"%string) as ->.
    { repeat (apply elem_of_cons in Hp as [->|Hp]; [congruence|]). apply elem_of_nil in Hp. easy. }
    exists (InOld "id"). split; [|split; [exact Logic.I|reflexivity]]. exists [LRetry 0 "id" ["a"; "b"]]%string, 1. eexists. split; [reflexivity|].
    split; [|reflexivity]. exists (JCall "id" (RLeaderless ["a"; "b"]%string) 1 [] "" JWait None). split; [vm_compute; reflexivity|discriminate]. }
  split; [apply map_size_empty_iff; vm_compute; reflexivity|].
  intros ls' Ht Hm. eapply C25_only_the_timeout_ends_the_wait; [discriminate|apply Hcall| |].
  - intros h p lm [H|H]%elem_of_app; [revert H; nolabel|destruct (Hm _ _ _ H)].
  - intros [H|H]%elem_of_app; [revert H; nolabel|auto].
Qed.
Print Assumptions C25_leaderless_returns_when_complete_refuted.

(** ** C76 *)
(** A member that is told about the signature should report that. Without a response of
    its leader it reports that the leader is not ready. *)
Theorem C76_member_reports_signature_refuted :
  exists sha peerDecode me ls j id leader peers t,
    me <> "NONE"%string /\ called_member sha peerDecode me ls j id leader peers t /\
    only_received ls j /\ told_of_signature sha peerDecode me ls j /\
    returned (jrun sha peerDecode me ls) j (Outcome None ELeaderNotReady).
Proof.
  set (ls := [LJoin 0 "id" 7 ["a"; "b"; "c"] 1; LSig 0 "signature received"; LTakeSig 0; LFinish 0 []]%string).
  exists of_bytes, Some, "b"%string, ls, 0, "id"%string, "a"%string, ["a"; "b"; "c"]%string, 1%Z. split; [discriminate|]. split.
  { exists [], 7%Z. eexists. repeat split; [discriminate|eauto]. }
  split.
  { intros x H. unfold ls in H. repeat (apply elem_of_cons in H as [H|H]; [first [discriminate H|injection H as ->; reflexivity]|]).
    apply elem_of_nil in H. easy. }
  split.
  - eexists [_; _], [_], (JCall "id" (RMember "a") 1 ["signature received"]%string "" JWait None), _, [].
    split; [reflexivity|]. split; [vm_compute; reflexivity|]. split; reflexivity.
  - exists (JCall "id" (RMember "a") 1 [] "signature received" (JDone (Outcome None ELeaderNotReady)) None).
    split; [vm_compute; reflexivity|reflexivity].
Qed.
Print Assumptions C76_member_reports_signature_refuted.

(** ** C77 *)
(** A leader that is told about the signature should return at once. It goes on waiting:
    with no further message nothing but the timeout ends the call. *)
Theorem C77_leader_stops_on_signature_refuted :
  exists sha peerDecode me ls j id pids t,
    me <> "NONE"%string /\ called_leader sha peerDecode me ls j id pids t /\
    told_of_signature sha peerDecode me ls j /\
    forall ls', LTimeout j ∉ ls' -> (forall h p m, LMsg h p m ∉ ls') -> joining (jrun sha peerDecode me (ls ++ ls')) j.
Proof.
  set (ls := [LJoin 0 "id" 7 ["a"; "b"; "c"] 1; LSig 0 "signature received"; LTakeSig 0]%string).
  exists of_bytes, Some, "a"%string, ls, 0, "id"%string, ["a"; "b"; "c"]%string, 1%Z. split; [discriminate|]. split.
  { exists [], 7%Z, ["a"; "b"; "c"]%string. eexists. repeat split. }
  split.
  { eexists [_; _], [], (JCall "id" (RLeader ["a"; "b"; "c"]%string) 1 ["signature received"]%string "" JWait None), _, [].
    split; [reflexivity|]. split; [vm_compute; reflexivity|]. split; reflexivity. }
  intros ls' Ht Hm.
  assert (E : j_handlers (xrun "a" ls) = ∅) by (apply map_size_empty_iff; vm_compute; reflexivity).
  destruct (idle_silence of_bytes Some "a" ltac:(discriminate) ls ls' 0 ["a"; "b"; "c"]%string
    (NewPeerStatus ["a"; "b"; "c"]%string "a" "a" 1)) as (g & Hi & _); [| |exact Ht|exact Hm|].
  - split; [|split; [reflexivity|split; [reflexivity|]]].
    + exists (JCall "id" (RLeader ["a"; "b"; "c"]%string) 1 [] "signature received" JWait None). split; [vm_compute; reflexivity|]. split; reflexivity.
    + intros h. rewrite E, lookup_empty. discriminate.
  - intros h p old. rewrite E, lookup_empty. discriminate.
  - eapply idle_joining; eauto.
Qed.
Print Assumptions C77_leader_stops_on_signature_refuted.

(** ** C78 *)
(** A handler of an incoming message should always end. A member's channel has room for
    one signal: a leader that sends its response three times leaves a handler (and its
    stream) behind for ever. *)
Theorem C78_member_handlers_end_refuted :
  exists sha peerDecode me ls j id leader peers t h,
    me <> "NONE"%string /\ called_member sha peerDecode me ls j id leader peers t /\
    (exists o, returned (jrun sha peerDecode me ls) j o) /\
    forall ls', is_Some (j_handlers (jrun sha peerDecode me (ls ++ ls')) !! h).
Proof.
  set (r := InLeader (response "id" 1 ["a"; "b"]%string)).
  set (ls := [LJoin 0 "id" 7 ["a"; "b"; "c"] 1; LMsg 1 "a" r; LMsg 2 "a" r; LMsg 3 "a" r; LHandle 1; LHandle 1; LNotify 0;
    LHandle 2; LHandle 2; LHandle 3; LFinish 0 []; LFinish 0 []; LFinish 0 []]%string).
  exists of_bytes, Some, "b"%string, ls, 0, "id"%string, "a"%string, ["a"; "b"; "c"]%string, 1%Z, 3. split; [discriminate|]. split.
  { exists [], 7%Z. eexists. repeat split; [discriminate|eauto]. }
  assert (Hret : returned (xrun "b" ls) 0 (Outcome (Some ["a"; "b"]%string) ENone)).
  { exists (JCall "id" (RMember "a") 1 [] "" (JDone (Outcome (Some ["a"; "b"]%string) ENone)) None).
    split; [vm_compute; reflexivity|reflexivity]. }
  split; [eauto|]. intros ls'. exists (HNotify 0).
  assert (Hg : (fun g => (g_cap g, g_notify g)) <$> j_groups (xrun "b" ls) !! 0 = Some (1, 1)) by (vm_compute; reflexivity).
  apply fmap_Some in Hg as (g & Hg & H). symmetry in H. injection H as H1 H2.
  apply (blocked_forever of_bytes Some "b" ltac:(discriminate) ls ls' 0 3 _ g Hret Hg); [lia|vm_compute; reflexivity].
Qed.
Print Assumptions C78_member_handlers_end_refuted.

(** ** C79 *)
(** A leader should return once enough peers have asked. If the request that completes
    the party came over the old protocol, nothing but the timeout ends the wait. *)
Theorem C79_leader_returns_when_complete_refuted :
  exists sha peerDecode me ls j id pids t,
    me <> "NONE"%string /\ called_leader sha peerDecode me ls j id pids t /\
    (exists p, p ∈ pids /\ p <> me /\ requested sha peerDecode me ls j id p) /\ t = 1%Z /\
    j_handlers (jrun sha peerDecode me ls) = ∅ /\
    forall ls', LTimeout j ∉ ls' -> joining (jrun sha peerDecode me (ls ++ ls')) j.
Proof.
  set (ls := [LJoin 0 "id" 7 ["a"; "b"; "c"] 1; LMsg 1 "b" (InOld "id"); LHandle 1; LHandle 1]%string).
  exists of_bytes, Some, "a"%string, ls, 0, "id"%string, ["a"; "b"; "c"]%string, 1%Z. split; [discriminate|]. split.
  { exists [], 7%Z, ["a"; "b"; "c"]%string. eexists. repeat split. }
  split.
  { exists "b"%string. split; [set_solver|]. split; [discriminate|]. exists (InOld "id"). split; [|split; [exact Logic.I|reflexivity]].
    exists [LJoin 0 "id" 7 ["a"; "b"; "c"] 1]%string, 1. eexists. split; [reflexivity|]. split; [|reflexivity].
    exists (JCall "id" (RLeader ["a"; "b"; "c"]%string) 1 [] "" JWait None). split; [vm_compute; reflexivity|discriminate]. }
  split; [reflexivity|].
  assert (E : j_handlers (xrun "a" ls) = ∅) by (apply map_size_empty_iff; vm_compute; reflexivity).
  split; [exact E|]. intros ls' Ht.
  assert (Hg : (fun g => (g_notify g, g_threshold g, g_count g)) <$> j_groups (xrun "a" ls) !! 0 = Some (0, 1%Z, 1%Z)) by (vm_compute; reflexivity).
  apply fmap_Some in Hg as (g & Hg & H). symmetry in H. injection H as H1 H2 H3.
  destruct (idle_enough of_bytes Some "a" ltac:(discriminate) ls ls' 0 ["a"; "b"; "c"]%string g) as (g' & Hi & _); auto.
  - split; [|split; [exact Hg|split; [exact H1|]]].
    + exists (JCall "id" (RLeader ["a"; "b"; "c"]%string) 1 [] "" JWait None). split; [vm_compute; reflexivity|]. split; reflexivity.
    + intros h. rewrite E, lookup_empty. discriminate.
  - lia.
  - eapply idle_joining; eauto.
Qed.
Print Assumptions C79_leader_returns_when_complete_refuted.

(** ** C80 *)
(** What a member returns should be one response of its leader. The list can be that of
    one response and the verdict that of another: here no response had this list and
    said Success. *)
Theorem C80_one_response_decides_refuted :
  exists sha peerDecode me ls j id leader peers t l,
    me <> "NONE"%string /\ called_member sha peerDecode me ls j id leader peers t /\
    returned (jrun sha peerDecode me ls) j (Outcome (Some l) ENone) /\
    forall h p lm, LMsg h p (InLeader lm) ∈ ls -> ~ (lm_type lm = JoinParty_Success /\ mapM peerDecode (lm_peers lm) = Some l).
Proof.
  set (ls := [LJoin 0 "id" 7 ["a"; "b"; "c"] 1; LMsg 1 "a" (InLeader (response "id" 2 ["a"; "b"]));
    LMsg 2 "a" (InLeader (response "id" 1 ["a"; "c"]));
    LHandle 1; LHandle 1; LNotify 0; LFinish 0 []; LFinish 0 []; LHandle 2; LFinish 0 []]%string).
  exists of_bytes, Some, "b"%string, ls, 0, "id"%string, "a"%string, ["a"; "b"; "c"]%string, 1%Z, ["a"; "b"]%string.
  split; [discriminate|]. split.
  { exists [], 7%Z. eexists. repeat split; [discriminate|eauto]. }
  split.
  { exists (JCall "id" (RMember "a") 1 [] "" (JDone (Outcome (Some ["a"; "b"]%string) ENone)) None).
    split; [vm_compute; reflexivity|reflexivity]. }
  intros h p lm H. unfold ls in H.
  repeat (apply elem_of_cons in H as [H|H]; [first [discriminate H|injection H as -> -> ->; cbn; intros [H1 H2]; discriminate]|]).
  apply elem_of_nil in H. easy.
Qed.
Print Assumptions C80_one_response_decides_refuted.

(** ** C81 *)
(** Two overlapping calls with the same id should both be able to succeed. When the
    first one ends, the second one is cut off: whatever happens afterwards, it never
    succeeds. *)
Theorem C81_overlapping_joins_are_independent_refuted :
  exists sha peerDecode me ls j id pids,
    me <> "NONE"%string /\ called_leaderless sha peerDecode me ls j id pids /\
    joining (jrun sha peerDecode me ls) j /\
    forall ls' o, returned (jrun sha peerDecode me (ls ++ ls')) j o -> oc_err o = ETimeout.
Proof.
  set (ls := [LRetry 0 "id" ["a"; "b"]; LRetry 1 "id" ["a"; "b"]; LTimeout 0; LFinish 0 []]%string).
  exists of_bytes, Some, "b"%string, ls, 1, "id"%string, ["a"; "b"]%string. split; [discriminate|]. split.
  { exists [LRetry 0 "id" ["a"; "b"]]%string, ["a"; "b"]%string. eexists. repeat split. }
  assert (Hc : j_calls (xrun "b" ls) !! 1 = Some (JCall "id" (RLeaderless ["a"; "b"]%string) 1 [] "" JWait None)) by (vm_compute; reflexivity).
  split; [eexists; split; [exact Hc|discriminate]|].
  assert (E : j_handlers (xrun "b" ls) = ∅) by (apply map_size_empty_iff; vm_compute; reflexivity).
  assert (E' : j_index (xrun "b" ls) = ∅) by (apply map_size_empty_iff; vm_compute; reflexivity).
  intros ls' o Hret.
  eapply (forgotten_fails of_bytes Some "b" ltac:(discriminate) ls ls' 1 _ (NewPeerStatus ["a"; "b"]%string "b" "NONE" 1)); [|reflexivity|exact Hc|reflexivity|discriminate| |exact Hret].
  - split; [intros id; rewrite E', lookup_empty; discriminate|]. intros h p old. rewrite E, lookup_empty. discriminate.
  - intros ord. rewrite app_length, getOnline_perm. vm_compute. discriminate.
Qed.
Print Assumptions C81_overlapping_joins_are_independent_refuted.

(** ** C82 *)
(** After a call has returned nothing of it should be left. A leader or member call
    leaves its group in the coordinator's table for ever. *)
Lemma index_stays sha peerDecode me l s id j :
  j_index s !! id = Some j -> (forall j' c ps, j_calls s !! j' = Some c -> jc_msg c = id -> jc_role c <> RLeaderless ps) ->
  (forall j' h' ps t', l <> LJoin j' id h' ps t') -> (forall j' ps, l <> LRetry j' id ps) ->
  j_index (jstep sha peerDecode me l s) !! id = Some j.
Proof.
  intros Hi Hr H1 H2.
  destruct l as [j' i h' ps t|j' i ps|j' y|h' p m|h'|j'|j'|j'|j' ord]; cbn [jstep].
  - assert (i <> id) by (intros ->; eapply H1; reflexivity). destruct (j_calls s !! j') eqn:Ec; [exact Hi|].
    unfold JoinPartyWithLeader, start. destruct (LeaderNode _ _ _ _); [case_decide; destruct (getPeerIDs _ _)|]; cbn; try exact Hi;
      rewrite lookup_insert_ne by congruence; exact Hi.
  - assert (i <> id) by (intros ->; eapply H2; reflexivity). destruct (j_calls s !! j') eqn:Ec; [exact Hi|].
    unfold JoinPartyWithRetry, start. destruct (getPeerIDs _ _); cbn; try exact Hi;
      rewrite lookup_insert_ne by congruence; exact Hi.
  - destruct (j_calls s !! j'); exact Hi.
  - destruct (j_handlers s !! h') eqn:Eh; [exact Hi|]. case_decide; [exact Hi|]. unfold dispatch.
    destruct m as [i|lm]; [|case_decide; [|case_decide; [|exact Hi]]];
      match goal with |- context [match j_index s !! ?i with _ => _ end] =>
        destruct (j_index s !! i) as [k|] eqn:Ei; [|exact Hi]; destruct (j_groups s !! k) eqn:Ek; [|exact Hi] end; exact Hi.
  - unfold handle. destruct (j_handlers s !! h') as [[k p old|k p lm|k|k]|] eqn:Eh; [..|exact Hi];
      (destruct (j_groups s !! k) as [g0|] eqn:Ek; [|exact Hi]).
    + destruct (updatePeer p g0) as [g1 [[|]|]] eqn:Eu; exact Hi.
    + case_decide; exact Hi.
    + destruct (Nat.ltb _ _); exact Hi.
    + destruct (Nat.ltb _ _); exact Hi.
  - unfold on_notify. destruct (j_calls s !! j') as [c1|] eqn:E1; [|exact Hi].
    destruct (j_groups s !! j') as [k|] eqn:Ek; [|exact Hi].
    destruct (jc_stage c1); try exact Hi. destruct (g_notify k) as [|n] eqn:En; [exact Hi|].
    destruct (jc_role c1); [| |destruct (getCoordinationStatus k)]; exact Hi.
  - unfold on_timeout. destruct (j_calls s !! j') as [c1|] eqn:E1; [|exact Hi]. destruct (jc_stage c1); exact Hi.
  - unfold on_sig. destruct (j_calls s !! j') as [c1|] eqn:E1; [|exact Hi].
    destruct (jc_stage c1); try exact Hi. destruct (jc_sig c1) as [|z rest]; [exact Hi|]. destruct (jc_role c1); exact Hi.
  - unfold finish. destruct (j_calls s !! j') as [c1|] eqn:E1; [|exact Hi].
    destruct (j_groups s !! j') as [k|]; [|exact Hi]. destruct (jc_role c1) eqn:Er.
    + destruct (jc_stage c1); try exact Hi. unfold finish_leader, done. case_decide; [|destruct (Z.ltb _ _)]; exact Hi.
    + unfold finish_member, done. destruct (jc_stage c1); try exact Hi.
      * destruct (g_resp k); [case_decide|]; exact Hi.
      * destruct (g_resp k); [|exact Hi]. destruct (getPeerIDs _ _); [destruct (Z.ltb _ _)|]; exact Hi.
      * destruct (g_resp k); [|exact Hi]. destruct (Nat.eqb _ _); exact Hi.
    + destruct (jc_stage c1); try exact Hi. cbn. rewrite lookup_delete_ne; [exact Hi|]. intros E. exact (Hr _ _ _ E1 E Er).
Qed.
Theorem C82_join_is_forgotten_refuted :
  exists sha peerDecode me ls j id pids t,
    me <> "NONE"%string /\ called_leader sha peerDecode me ls j id pids t /\
    (exists o, returned (jrun sha peerDecode me ls) j o) /\
    forall ls', (forall j' h' ps t', LJoin j' id h' ps t' ∉ ls') -> (forall j' ps, LRetry j' id ps ∉ ls') ->
      j_index (jrun sha peerDecode me (ls ++ ls')) !! id = Some j.
Proof.
  exists of_bytes, Some, "a"%string, leader_ok, 0, "id"%string, ["a"; "b"; "c"]%string, 1%Z.
  split; [discriminate|]. split; [exact leader_ok_called|]. split; [eexists; exact leader_ok_returned|].
  intros ls' H1 H2.
  assert (j_index (xrun "a" (leader_ok ++ ls')) !! "id"%string = Some 0 /\
    forall j' c ps, j_calls (xrun "a" (leader_ok ++ ls')) !! j' = Some c -> jc_msg c = "id"%string -> jc_role c <> RLeaderless ps) as [H _]; [|exact H].
  induction ls' as [|l ls' IH] using rev_ind.
  - rewrite app_nil_r. split; [vm_compute; reflexivity|]. intros j' c ps Hc _ Hr.
    destruct leader_ok_returned as (c0 & Hc0 & _).
    destruct (call_from of_bytes Some "a" ltac:(discriminate) leader_ok j' c Hc) as (l & Hl & Hs).
    assert (j' = 0) as ->.
    { unfold leader_ok in Hl. repeat (apply elem_of_cons in Hl as [->|Hl]; [first [destruct Hs; congruence|destruct Hs]|]).
      apply elem_of_nil in Hl. destruct Hl. }
    assert (Hc' : j_calls (xrun "a" leader_ok) !! 0 = Some (JCall "id" (RLeader ["a"; "b"; "c"]%string) 1 [] "" (JDone (Outcome (Some ["c"; "a"]%string) ENone))
      (Some (response "id" 1 ["c"; "a"]%string)))) by (vm_compute; reflexivity).
    rewrite Hc in Hc'. injection Hc' as ->. discriminate Hr.
  - destruct IH as [Hi Hr].
    { intros. intros Hin. eapply H1. apply elem_of_app. left. exact Hin. } { intros. intros Hin. eapply H2. apply elem_of_app. left. exact Hin. }
    assert (N1 : forall j' h' ps t', l <> LJoin j' "id" h' ps t').
    { intros j' h' ps t' ->. apply (H1 j' h' ps t'). set_solver. }
    assert (N2 : forall j' ps, l <> LRetry j' "id" ps).
    { intros j' ps ->. apply (H2 j' ps). set_solver. }
    rewrite app_assoc, run_snoc. split; [apply index_stays; auto|].
    intros j' c ps Hc Hm Hrole. destruct (j_calls (xrun "a" (leader_ok ++ ls')) !! j') as [c0|] eqn:E0.
    + destruct (call_step of_bytes Some "a" l _ _ _ E0) as (c1 & Hc1 & M1 & M2 & _). rewrite Hc in Hc1. injection Hc1 as <-.
      apply (Hr j' c0 ps E0); congruence.
    + pose proof (call_new of_bytes Some "a" l _ _ _ E0 Hc) as Hs. destruct l; cbn in Hs; try (destruct Hs; fail).
      * destruct Hs as [-> Hs]. eapply N1. rewrite <- Hm, <- Hs. reflexivity.
      * destruct Hs as [-> Hs]. eapply N2. rewrite <- Hm, <- Hs. reflexivity.
Qed.
Print Assumptions C82_join_is_forgotten_refuted.

(** ** C125. A leaderless call does remove its group. *)
Theorem C125_leaderless_join_is_forgotten :
  forall sha peerDecode me ls j id pids ord o,
    me <> "NONE"%string -> called_leaderless sha peerDecode me ls j id pids ->
    joining (jrun sha peerDecode me ls) j -> returned (jrun sha peerDecode me (ls ++ [LFinish j ord])) j o ->
    j_index (jrun sha peerDecode me (ls ++ [LFinish j ord])) !! id = None.
Proof.
  intros sha peerDecode me ls j id pids ord o me_ok Hcall (c0 & Hc0 & Hn) (c1 & Hc1 & Ho).
  destruct (leaderless_call _ _ _ me_ok _ _ _ _ Hcall) as (c & g & Hc & Hg & Hm & Hr).
  rewrite Hc in Hc0. injection Hc0 as <-. rewrite run_snoc in *. cbn [jstep] in *. unfold finish in *. rewrite Hc, Hg, Hr in *.
  destruct (jc_stage c) eqn:Est; try (rewrite Hc in Hc1; injection Hc1 as <-; congruence).
  cbn. rewrite Hm. apply lookup_delete.
Qed.
Print Assumptions C125_leaderless_join_is_forgotten.
Example C82_example : j_index (xrun "b" leaderless_ok0) !! "id"%string = Some 0 /\
  j_index (xrun "b" (leaderless_ok0 ++ [LFinish 0 []])) !! "id"%string = None.
Proof.
  split; [vm_compute; reflexivity|].
  eapply (C125_leaderless_join_is_forgotten of_bytes Some "b"); [discriminate|exact leaderless_ok_called| |exact leaderless_ok_returned].
  exists (JCall "id" (RLeaderless ["a"; "b"]%string) 1 [] "" JWoken None). split; [vm_compute; reflexivity|discriminate].
Qed.
