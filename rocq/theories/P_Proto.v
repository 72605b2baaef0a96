(** Properties of the messages exchanged as protocol buffers: C92, C135-C138. *)
From Coq Require Import ZArith NArith Ascii String List Lia.
From stdpp Require Import base list strings gmap.
From Verif Require Import Base L_Base M_Conv M_Notifier S_Notifier L_Notifier L_Notifier2 P_Notifier M_Join S_Join L_Join P_Join
  M_Stream S_Stream L_Stream P_Stream M_Proto S_Proto L_Proto.

(** ** C135: signature notifications survive the wire *)

(** A notification is read as it was written. *)
Theorem C135_notification_round_trip m :
  text (km_id m) -> sized (to_bytes (km_id m)) -> Forall sized (km_sigs m) ->
  exists b, notify_marshal m = Some b /\ notify_unmarshal b = Some m.
Proof. apply notify_roundtrip. Qed.
Print Assumptions C135_notification_round_trip.

(** So is a signature, all five fields of it, if tss-lib made it ... *)
Theorem C135_signature_round_trip s :
  sized_sig s -> made s -> exists b, sig_marshal s = Some b /\ sig_unmarshal b = Some s.
Proof.
  intros Hs Hm. destruct (sig_roundtrip s Hs) as (b & Hb & Hu). exists b. split; [exact Hb|].
  rewrite Hu, empty_is_nil_made by exact Hm. reflexivity.
Qed.
Print Assumptions C135_signature_round_trip.
(** ... and one without a Signature is read as one without, never as another. *)
Theorem C135_missing_signature s :
  sized_sig s -> sg_signature s = None \/ sg_signature s = Some [] ->
  exists b s', sig_marshal s = Some b /\ sig_unmarshal b = Some s' /\ sg_signature s' = None /\
    sg_recovery s' = sg_recovery s /\ sg_R s' = sg_R s /\ sg_S s' = sg_S s /\ sg_M s' = sg_M s.
Proof.
  intros Hs Hm. destruct (sig_roundtrip s Hs) as (b & Hb & Hu). exists b, (empty_is_nil s). repeat split; auto.
  unfold empty_is_nil. cbn. destruct Hm as [-> | ->]; reflexivity.
Qed.
Print Assumptions C135_missing_signature.
(** Different notifications have different texts. *)
Theorem C135_injective m m' b :
  text (km_id m) -> sized (to_bytes (km_id m)) -> Forall sized (km_sigs m) ->
  text (km_id m') -> sized (to_bytes (km_id m')) -> Forall sized (km_sigs m') ->
  notify_marshal m = Some b -> notify_marshal m' = Some b -> m = m'.
Proof.
  intros H1 H2 H3 H1' H2' H3' Hm Hm'. destruct (notify_roundtrip m H1 H2 H3) as (b1 & Hb & Hu).
  destruct (notify_roundtrip m' H1' H2' H3') as (b2 & Hb' & Hu'). congruence.
Qed.
Print Assumptions C135_injective.

Definition a_sig := EcSig (Some ["R"; "S"]%char) ["000"%char] ["R"%char] ["S"%char] ["M"%char].
Example C135_case : made a_sig /\ sized_sig a_sig /\ text "id" /\ sized (to_bytes "id") /\
  sig_marshal a_sig = Some ["010"; "002"; "R"; "S"; "018"; "001"; "000"; "026"; "001"; "R"; """"; "001"; "S"; "*"; "001"; "M"]%char /\
  notify_marshal (KsMsg "id" [["a"]%char] true) = Some ["010"; "002"; "i"; "d"; "018"; "001"; "a"; "024"; "001"]%char.
Proof.
  split; [eexists; split; [reflexivity|discriminate]|]. split; [repeat split|].
  split; [apply text_ok_iff; reflexivity|]. split; [reflexivity|]. split; reflexivity.
Qed.

(** ** C92: what is broadcast is what the others receive *)

Lemma marshal_sigs_ok point verify d : Forall sized_sig d -> Forall made d ->
  exists bs, marshal_sigs (proto_env point verify) d = Some bs /\ Forall sized bs /\
    Forall2 (fun b s => sig_unmarshal b = Some s) bs d.
Proof.
  intros Hs Hm. induction d as [|s d IH]; cbn [marshal_sigs].
  - exists []. auto.
  - apply Forall_cons in Hs as [H1 Hs]. apply Forall_cons in Hm as [H2 Hm].
    destruct (C135_signature_round_trip s H1 H2) as (b & Hb & Hu). destruct (IH Hs Hm) as (bs & E & HF & H2F).
    exists (b :: bs). cbn [ne_marshal_sig proto_env]. rewrite Hb, E. split; [reflexivity|].
    split; [constructor; [exact (sig_marshal_sized _ _ H1 Hb)|exact HF]|constructor; assumption].
Qed.

(** The signatures a signer broadcasts are exactly the ones a call waiting for the same
    id, messages and pool returns on receipt, provided they verify. *)
Theorem C92_broadcast_received point verify self id sigs peers p payload ls c msgs pool :
  let E := proto_env point verify in
  text id -> sized (to_bytes id) -> Forall sized_sig sigs -> Forall made sigs -> sigs <> [] ->
  (p, payload) ∈ BroadcastSignature E self id (Some sigs) peers ->
  started ls c id msgs pool -> waiting (nrun E ls) c -> ns_crashed (nrun E ls) = false ->
  (forall c' msgs' pool', NCall c' id msgs' pool' ∈ ls -> c' = c) ->
  c ∉ (ns_log (nrun E ls)).*1 ->
  valid_for E pool msgs sigs ->
  S_Notifier.returned (nrun E (ls ++ [NNotify payload; NRecv c; NRemove c])) c (WData sigs).
Proof.
  intros E Ht Hs Hss Hm Hne Hin. apply elem_of_list_fmap in Hin. destruct Hin as (q & [= -> ->] & _).
  unfold notification. destruct (marshal_sigs_ok point verify sigs Hss Hm) as (bs & Hb & HF & H2). fold E in Hb. rewrite Hb.
  destruct (notify_roundtrip (KsMsg id bs true) Ht Hs HF) as (b & Hb' & Hu). cbn [ne_marshal proto_env E]. rewrite Hb'.
  intros. eapply C88_valid_notification_delivered; eauto.
  - exists (KsMsg id bs true). auto.
  - intros i s Hi. pose proof (Forall_lookup_1 _ _ _ _ Hm Hi) as (x & -> & _). discriminate.
Qed.
Print Assumptions C92_broadcast_received.

(** ** C90, on the wire: whoever holds the signatures can stop a node that waits for them *)

(** Whatever the curve and whatever was going on before: if a call waits for the
    signatures of its messages and somebody has them, the notification that an honest
    signer would send with one signature more, as bytes, takes the process down. *)
Theorem C90_one_signature_too_many_refuted point verify ls c id msgs pool sigs extra :
  let E := proto_env point verify in
  text id -> sized (to_bytes id) -> Forall sized_sig (sigs ++ [extra]) -> Forall made (sigs ++ [extra]) ->
  started ls c id msgs pool -> waiting (nrun E ls) c -> ns_crashed (nrun E ls) = false ->
  (forall c' msgs' pool', NCall c' id msgs' pool' ∈ ls -> c' = c) ->
  c ∉ (ns_log (nrun E ls)).*1 ->
  valid_for E pool msgs sigs -> length sigs = length msgs ->
  exists b, notification E id (Some (sigs ++ [extra])) = Some b /\
    ns_crashed (nrun E (ls ++ [NNotify (Some b)])) = true.
Proof.
  intros E Ht Hs Hss Hm Hst (n & Hc) Hcr Hu Hlog Hv Hlen.
  destruct (marshal_sigs_ok point verify _ Hss Hm) as (bs & Hb & HF & H2). fold E in Hb.
  destruct (notify_roundtrip (KsMsg id bs true) Ht Hs HF) as (b & Hb' & Hu').
  exists b. split; [unfold notification; rewrite Hb; exact Hb'|].
  assert (Ha : announces E b id (sigs ++ [extra])) by (exists (KsMsg id bs true); auto).
  pose proof (ninv_run E ls) as I.
  destruct (started_unique _ _ _ _ _ _ _ _ Hst (ni_start _ _ _ I _ _ _ Hc)) as (-> & -> & ->).
  assert (Hresp : no_resp n = None).
  { destruct (no_resp n) as [d'|] eqn:Hr; [|reflexivity]. exfalso. apply Hlog.
    apply elem_of_list_fmap. exists (c, d'). split; [reflexivity|]. eapply (ni_resp _ _ _ I); eauto. }
  pose proof (registered E ls c (no_id n) Hu n Hc eq_refl Hresp) as Hreg.
  pose proof (ni_stuck _ _ _ I) as Hstk.
  unfold nrun. rewrite fold_left_app. fold (nrun E ls). cbn [fold_left]. unfold nstep. rewrite Hcr, Hstk. cbn [orb]. unfold do_notify.
  rewrite (announces_decode _ _ _ _ Ha). unfold do_locked. rewrite Hreg, Hc.
  assert (Hp : verify_loop E (no_pool n) (no_messages n) 0 (sigs ++ [extra]) = PsPanic).
  { apply verify_loop_panic. rewrite app_length. cbn [length]. split; [lia|].
    intros k s Hi Hlt. cbn [Nat.add] in Hlt |- *. rewrite lookup_app_l in Hi by lia.
    destruct (Hv k s Hi) as (m & Hm' & Hver). split; [|eauto].
    pose proof (Forall_lookup_1 _ _ _ _ Hm (proj2 (lookup_app_Some _ _ _ _) (or_introl Hi))) as (y & -> & _). discriminate. }
  assert (Hp' : ProcessSignature E n (sigs ++ [extra]) = PsPanic) by (unfold ProcessSignature; destruct sigs; exact Hp).
  rewrite Hp'. reflexivity.
Qed.
Print Assumptions C90_one_signature_too_many_refuted.

Example C90_one_signature_too_many_case :
  let E := proto_env (fun _ => Some (1, 1)%N) (fun _ _ _ _ => true) in let ls := [NCall 1 "id" [["A"%char]] "pool"] in
  Forall sized_sig [a_sig; a_sig] /\ Forall made [a_sig; a_sig] /\ started ls 1 "id" [["A"%char]] "pool" /\
  waiting (nrun E ls) 1 /\ valid_for E "pool" [["A"%char]] [a_sig] /\
  exists b, ns_crashed (nrun E (ls ++ [NNotify (Some b)])) = true.
Proof.
  destruct C135_case as (H1 & H2 & H3 & H4 & _). cbn zeta.
  assert (Hv : valid_for (proto_env (fun _ => Some (1, 1)%N) (fun _ _ _ _ => true)) "pool" [["A"%char]] [a_sig]).
  { intros [|i] s Hi; [|discriminate]. exists ["A"%char]. split; [reflexivity|]. exists (1, 1)%N. split; reflexivity. }
  assert (Hst : started [NCall 1 "id" [["A"%char]] "pool"] 1 "id" [["A"%char]] "pool").
  { exists [], []. split; [reflexivity|]. intros. apply not_elem_of_nil. }
  assert (Hw : waiting (nrun (proto_env (fun _ => Some (1, 1)%N) (fun _ _ _ _ => true)) [NCall 1 "id" [["A"%char]] "pool"]) 1).
  { exists (Notifier "id" [["A"%char]] "pool" None). vm_compute. reflexivity. }
  repeat (split; [first [assumption|repeat constructor; assumption]|]).
  destruct (C90_one_signature_too_many_refuted (fun _ => Some (1, 1)%N) (fun _ _ _ _ => true) [NCall 1 "id" [["A"%char]] "pool"] 1 "id" [["A"%char]] "pool" [a_sig] a_sig)
    as (b & _ & Hb); auto; [repeat constructor; assumption|repeat constructor; assumption| |vm_compute; intros H; inversion H|eauto].
  intros c' msgs' pool' H. apply elem_of_list_singleton in H. congruence.
Qed.

(** A broadcast failure, or a broadcast of no signature at all, has no effect on
    the receivers: they wait on until their own timeout. *)
Theorem C92_failure_not_propagated point verify self id peers p payload sig s :
  let E := proto_env point verify in
  sized (to_bytes id) -> sig = None \/ sig = Some [] ->
  (p, payload) ∈ broadcastCommon E self id sig peers ->
  nstep E s (NNotify payload) = s.
Proof.
  intros E Hs Hsig Hin. apply elem_of_list_fmap in Hin. destruct Hin as (q & [= -> ->] & _).
  apply C47_failed_ignored. intros b id' d Hn (m & Hu & _ & Hok & HF).
  assert (Hid : text id).
  { apply text_ok_iff. destruct (text_ok id) eqn:Et; [reflexivity|].
    destruct Hsig as [-> | ->]; cbn [notification marshal_sigs E proto_env ne_marshal] in Hn; unfold notify_marshal, ks_marshal in Hn; cbn [kw_id km_id] in Hn; rewrite Et in Hn; discriminate. }
  cbn [E proto_env ne_unmarshal] in Hu.
  destruct Hsig as [-> | ->]; cbn [notification marshal_sigs E proto_env ne_marshal] in Hn.
  - destruct (notify_roundtrip (KsMsg id [] false) Hid Hs ltac:(constructor)) as (b' & Hb & Hu'). rewrite Hb in Hn. injection Hn as ->.
    rewrite Hu in Hu'. injection Hu' as ->. discriminate Hok.
  - destruct (notify_roundtrip (KsMsg id [] true) Hid Hs ltac:(constructor)) as (b' & Hb & Hu'). rewrite Hb in Hn. injection Hn as ->.
    rewrite Hu in Hu'. injection Hu' as ->. cbn in HF. inversion HF. reflexivity.
Qed.
Print Assumptions C92_failure_not_propagated.

(** A notification whose status is not Success, whichever it is, has no effect. *)
Theorem C47_other_status_ignored point verify payload w s :
  ks_unmarshal payload = Some w -> kw_status w <> 1%N ->
  nstep (proto_env point verify) s (NNotify (Some payload)) = s.
Proof.
  intros Hu Hst. apply C47_failed_ignored. intros b id d [= <-] (m & Hm & _ & Hok & _).
  cbn [proto_env ne_unmarshal] in Hm. unfold notify_unmarshal in Hm. rewrite Hu in Hm. injection Hm as <-.
  cbn in Hok. apply N.eqb_eq in Hok. destruct (Hst Hok).
Qed.
Print Assumptions C47_other_status_ignored.
Example C47_status_case : ks_unmarshal ["010"; "002"; "i"; "d"; "024"; "007"]%char = Some (KsWire "id" [] 7).
Proof. reflexivity. Qed.

(** A waiting call and the broadcast of a signer *)
Example C92_case :
  let E := proto_env (fun _ => Some (1, 2)%N) (fun _ _ _ _ => true) in
  let ls := [NCall 1 "id" [["m"%char]] "pool"] in
  exists payload, ("b"%string, payload) ∈ BroadcastSignature E "a" "id" (Some [a_sig]) ["a"; "b"]%string /\
  waiting (nrun E ls) 1 /\ valid_for E "pool" [["m"%char]] [a_sig] /\
  S_Notifier.returned (nrun E (ls ++ [NNotify payload; NRecv 1; NRemove 1])) 1 (WData [a_sig]).
Proof.
  intros E ls. eexists. split; [left|].
  assert (Hw : waiting (nrun E ls) 1) by (eexists; reflexivity).
  assert (Hv : valid_for E "pool" [["m"%char]] [a_sig]).
  { intros i s Hi. apply list_lookup_singleton_Some in Hi as [-> <-]. exists ["m"%char]. split; [reflexivity|].
    exists (1, 2)%N. auto. }
  split; [exact Hw|]. split; [exact Hv|].
  destruct C135_case as (H1 & H2 & H3 & H4 & _).
  apply (C92_broadcast_received (fun _ => Some (1, 2)%N) (fun _ _ _ _ => true) "a" "id" [a_sig] ["a"; "b"]%string "b" _ ls 1 [["m"%char]] "pool");
    [exact H3|exact H4|auto|auto|discriminate|left|exists [], []; split; [reflexivity|set_solver]|exact Hw|reflexivity| |cbn; set_solver|exact Hv].
  intros c' msgs' pool' Hin. apply elem_of_list_singleton in Hin. injection Hin as -> _ _. reflexivity.
Qed.

(** ** C136: join-party messages survive the wire *)

(** A leaderless request, written to a stream and read in whatever pieces it arrives,
    is the request of that id. *)
Theorem C136_leaderless_request id b f frags rest :
  text id -> sized (to_bytes id) -> old_payload id = Some b -> (N.of_nat (length b) <= limit)%N ->
  frame b f -> concat frags = f ++ rest ->
  exists left alloc, ReadStreamWithBuffer frags = (Some b, left, alloc) /\ old_incoming b = Some (InOld id).
Proof.
  intros Ht Hs Hb Hl Hf Hc. destruct (old_roundtrip id Ht Hs) as (b' & Hb' & Hu). unfold old_payload in Hb.
  rewrite Hb in Hb'. injection Hb' as <-. destruct (C11_read_back b f frags rest Hl Hf Hc) as [left Hr].
  exists left, (N.of_nat (length b)). split; [exact Hr|]. unfold old_incoming. rewrite Hu. reflexivity.
Qed.
Print Assumptions C136_leaderless_request.
(** A member's request to the leader, and the leader's response. *)
Theorem C136_request_to_leader id b f frags rest :
  text id -> sized (to_bytes id) -> request_payload id = Some b -> (N.of_nat (length b) <= limit)%N ->
  frame b f -> concat frags = f ++ rest ->
  exists left alloc, ReadStreamWithBuffer frags = (Some b, left, alloc) /\
    leader_incoming b = Some (InLeader (LeaderMsg id "request" 0 [])).
Proof.
  intros Ht Hs Hb Hl Hf Hc.
  assert (Hok : leader_ok (LeaderMsg id "request" 0 [])).
  { split; [exact Ht|]. split; [exact Hs|]. split; [apply text_ok_iff; reflexivity|]. split; [reflexivity|].
    split; [reflexivity|constructor]. }
  destruct (leader_roundtrip _ Hok) as (b' & Hb' & _ & Hu). unfold request_payload in Hb. rewrite Hb in Hb'. injection Hb' as <-.
  destruct (C11_read_back b f frags rest Hl Hf Hc) as [left Hr]. exists left, (N.of_nat (length b)). auto.
Qed.
Print Assumptions C136_request_to_leader.
Theorem C136_response m me peers p b f frags rest :
  leader_ok m -> lm_msgtype m = "response"%string -> (p, b) ∈ response_payloads me m peers -> (N.of_nat (length b) <= limit)%N ->
  frame b f -> concat frags = f ++ rest ->
  exists left alloc, ReadStreamWithBuffer frags = (Some b, left, alloc) /\ leader_incoming b = Some (InLeader m).
Proof.
  intros Hok Hmt Hin Hl Hf Hc. destruct (leader_roundtrip _ Hok) as (b' & Hb' & _ & Hu).
  assert (b = b') as ->.
  { unfold response_payloads in Hin. destruct m as [id mt ty ps]. cbn in Hmt. subst mt. cbn [lm_id lm_type lm_peers] in Hin.
    rewrite Hb' in Hin. apply elem_of_list_fmap in Hin as (q & [= _ ->] & _). reflexivity. }
  destruct (C11_read_back b' f frags rest Hl Hf Hc) as [left Hr]. exists left, (N.of_nat (length b')). auto.
Qed.
Print Assumptions C136_response.
(** The response goes once per listing to every listed peer but the leader itself. *)
Theorem C136_response_targets m me peers p :
  leader_ok m -> lm_msgtype m = "response"%string ->
  count_occ string_dec (map fst (response_payloads me m peers)) p = if decide (p = me) then 0 else count_occ string_dec peers p.
Proof.
  intros Hok Hmt. destruct (leader_roundtrip _ Hok) as (b' & Hb' & _). unfold response_payloads.
  destruct m as [id mt ty ps]. cbn in Hmt. subst mt. cbn [lm_id lm_type lm_peers]. rewrite Hb', map_map. cbn. rewrite map_id.
  induction peers as [|q peers IH]; cbn; [case_decide; reflexivity|].
  destruct (String.eqb_spec q me) as [->|Hne]; cbn.
  - rewrite IH. case_decide; [reflexivity|]. destruct (string_dec me p); congruence.
  - destruct (string_dec q p) as [->|]; rewrite IH; [rewrite !decide_False by assumption; reflexivity|reflexivity].
Qed.
Print Assumptions C136_response_targets.

Definition a_response := LeaderMsg "id" "response" JoinParty_Success ["p"; "q"].
Lemma a_response_ok : leader_ok a_response.
Proof.
  split; [apply text_ok_iff; reflexivity|]. split; [reflexivity|]. split; [apply text_ok_iff; reflexivity|]. split; [reflexivity|].
  split; [reflexivity|]. repeat apply Forall_cons_2; try apply Forall_nil_2; (split; [apply text_ok_iff; reflexivity|reflexivity]).
Qed.
Example C136_case : leader_ok a_response /\
  response_payloads "p" a_response ["p"; "q"] =
    [("q"%string, to_bytes ("" ++ String "010" (String "002" "id") ++ String "018" (String "008" "response")
       ++ String "024" (String "001" "") ++ String """" (String "001" "p") ++ String """" (String "001" "q"))%string)].
Proof. split; [exact a_response_ok|]. reflexivity. Qed.

(** ** C137: what the decoders accept *)

(** A node cannot send an id that is not text, and never acts on one. *)
Theorem C137_only_text_is_sent m : notify_marshal m = None <-> ~ text (km_id m).
Proof.
  unfold notify_marshal, ks_marshal. cbn [kw_id]. rewrite <- text_ok_iff.
  destruct (text_ok (km_id m)); split; congruence.
Qed.
Print Assumptions C137_only_text_is_sent.
(** Nor can it ask to join a party with such an id, or answer with such a peer. *)
Theorem C137_only_text_joins id me m peers :
  (old_payload id = None <-> ~ text id) /\ (request_payload id = None <-> ~ text id) /\
  ((exists p, p ∈ peers /\ p <> me) ->
   (response_payloads me m peers = [] <-> ~ (text (lm_id m) /\ Forall text (lm_peers m)))).
Proof.
  assert (R : text_ok "request" = true /\ text_ok "response" = true) by (split; reflexivity). destruct R as [R1 R2].
  split; [|split].
  - unfold old_payload, old_marshal. rewrite <- text_ok_iff. destruct (text_ok id); split; congruence.
  - unfold request_payload, lm_marshal. cbn [lm_id lm_msgtype lm_peers forallb]. rewrite <- text_ok_iff, R1.
    destruct (text_ok id); cbn [andb]; split; congruence.
  - intros (p & Hp & Hne). unfold response_payloads, lm_marshal. cbn [lm_id lm_msgtype lm_type lm_peers].
    rewrite <- text_ok_iff, R2.
    assert (E : forallb text_ok (lm_peers m) = true <-> Forall text (lm_peers m)).
    { rewrite forallb_forall, List.Forall_forall. split; intros H x Hx; specialize (H x Hx); apply text_ok_iff; exact H. }
    rewrite <- E.
    assert (Hpos : forall b : bytes, map (fun q => (q, b)) (List.filter (fun q => negb (String.eqb q me)) peers) <> []).
    { intros b X. assert (Hin : p ∈ List.filter (fun q => negb (String.eqb q me)) peers).
      { apply elem_of_list_In, filter_In. split; [apply elem_of_list_In, Hp|]. destruct (String.eqb_spec p me); [contradiction|reflexivity]. }
      destruct (List.filter _ _); [inversion Hin|discriminate X]. }
    destruct (text_ok (lm_id m)), (forallb text_ok (lm_peers m)); cbn [andb]; split; intros H; try reflexivity;
      try (intros [? ?]; discriminate); [destruct (Hpos _ H)|destruct H; auto].
Qed.
Print Assumptions C137_only_text_joins.
Theorem C137_only_text_is_read payload :
  (forall m, notify_unmarshal payload = Some m -> text (km_id m)) /\
  (forall id, old_incoming payload = Some (InOld id) -> text id) /\
  (forall m, leader_incoming payload = Some (InLeader m) -> text (lm_id m) /\ text (lm_msgtype m) /\ Forall text (lm_peers m)).
Proof.
  split; [|split].
  - unfold notify_unmarshal, ks_unmarshal. intros m H. destruct (proto_fields payload) as [l|]; [|discriminate].
    destruct (fold_left ks_put l _) as [m'|] eqn:E; [|discriminate]. injection H as <-. cbn.
    eapply ks_fold_text; [|exact E]. apply text_empty.
  - unfold old_incoming, old_unmarshal. intros id H. destruct (proto_fields payload) as [l|]; [|discriminate].
    destruct (fold_left old_put l _) as [m'|] eqn:E; [|discriminate]. injection H as <-.
    eapply old_fold_text; [|exact E]. apply text_empty.
  - unfold leader_incoming, lm_unmarshal. intros m H. destruct (old_unmarshal payload); [|discriminate].
    destruct (proto_fields payload) as [l|]; [|discriminate].
    destruct (fold_left lm_put l _) as [m'|] eqn:E; [|discriminate]. injection H as <-.
    eapply lm_fold_text; [|exact E]. repeat split; cbn; auto using text_empty.
Qed.
Print Assumptions C137_only_text_is_read.
(** Fields that a later version adds to a message, of any kind, change nothing. *)
Theorem C137_new_fields_are_ignored payload extra l :
  proto_fields extra = Some l -> Forall (fun f => (4 < fst f)%N) l ->
  (forall m, notify_unmarshal payload = Some m -> notify_unmarshal (payload ++ extra) = Some m) /\
  (forall i, old_incoming payload = Some i -> old_incoming (payload ++ extra) = Some i) /\
  (forall i, leader_incoming payload = Some i -> leader_incoming (payload ++ extra) = Some i).
Proof.
  intros Hx Hl.
  assert (Hks : forall m, fold_left ks_put l (Some m) = Some m).
  { intros m. clear -Hl. induction Hl as [|[num v] l Hn Hl IH]; [reflexivity|]. cbn [fold_left]. cbn in Hn.
    assert (E : ks_put (Some m) (num, v) = Some m) by (destruct num as [|[[p|p|]|[p|p|]|]], v; cbn; try reflexivity; lia).
    rewrite E. apply IH. }
  assert (Hold : forall m, fold_left old_put l (Some m) = Some m).
  { intros m. clear -Hl. induction Hl as [|[num v] l Hn Hl IH]; [reflexivity|]. cbn [fold_left]. cbn in Hn.
    assert (E : old_put (Some m) (num, v) = Some m) by (destruct num as [|[[p|p|]|[p|p|]|]], v; cbn; try reflexivity; lia).
    rewrite E. apply IH. }
  assert (Hlm : forall m, fold_left lm_put l (Some m) = Some m).
  { intros m. clear -Hl. induction Hl as [|[num v] l Hn Hl IH]; [reflexivity|]. cbn [fold_left]. cbn in Hn.
    assert (E : lm_put (Some m) (num, v) = Some m) by (destruct num as [|[[p|p|]|[p|[p|p|]|]|]], v; cbn; try reflexivity; lia).
    rewrite E. apply IH. }
  assert (Hou : forall x, old_unmarshal payload = Some x -> old_unmarshal (payload ++ extra) = Some x).
  { unfold old_unmarshal. intros x H. destruct (proto_fields payload) as [l0|] eqn:E; [|discriminate].
    rewrite (proto_fields_app _ _ _ _ E Hx), fold_left_app, H. apply Hold. }
  split; [|split].
  - unfold notify_unmarshal, ks_unmarshal. intros m H. destruct (proto_fields payload) as [l0|] eqn:E; [|discriminate].
    rewrite (proto_fields_app _ _ _ _ E Hx), fold_left_app.
    destruct (fold_left ks_put l0 _) as [m'|]; [|discriminate]. rewrite Hks. exact H.
  - unfold old_incoming. intros i H. destruct (old_unmarshal payload) as [x|] eqn:E; [|discriminate].
    rewrite (Hou _ eq_refl). exact H.
  - unfold leader_incoming. intros i H. destruct (old_unmarshal payload) as [x|] eqn:E; [|discriminate].
    rewrite (Hou _ eq_refl). unfold lm_unmarshal in *. destruct (proto_fields payload) as [l0|] eqn:E0; [|discriminate].
    rewrite (proto_fields_app _ _ _ _ E0 Hx), fold_left_app.
    destruct (fold_left lm_put l0 _) as [m'|]; [|discriminate]. rewrite Hlm. exact H.
Qed.
Print Assumptions C137_new_fields_are_ignored.

(** Bytes that are no text, such as an overlong or a lone surrogate, are refused, and a
    field with a number of 5 and a fixed64 with a number of 6 are skipped. *)
Example C137_case :
  text (of_bytes (map ascii_of_N [0xC3; 0xA9; 0xE2; 0x82; 0xAC; 0xF0; 0x9F; 0x98; 0x80]%N)) /\
  ~ text (of_bytes (map ascii_of_N [0xC0; 0x80]%N)) /\ ~ text (of_bytes (map ascii_of_N [0xED; 0xA0; 0x80]%N)) /\
  exists l, proto_fields (map ascii_of_N [42; 1; 7; 49; 1; 2; 3; 4; 5; 6; 7; 8]%N) = Some l /\ Forall (fun f => (4 < fst f)%N) l /\ length l = 2.
Proof.
  split; [apply text_ok_iff; reflexivity|]. split; [rewrite <- text_ok_iff; discriminate|].
  split; [rewrite <- text_ok_iff; discriminate|]. eexists. split; [reflexivity|]. split; [repeat constructor|reflexivity].
Qed.

(** ** C138: the leader and the members agree on the party *)

Section agree.
  Context (sha : bytes -> string) (peerDecode : string -> option string) (leader me : string).
  Context (leader_name : leader <> "NONE"%string) (me_name : me <> "NONE"%string).
  Notation lead ls := (jrun sha peerDecode leader ls).
  Notation run ls := (jrun sha peerDecode me ls).

  (** [lm] came out of a stream into which the leader, in call [jL], put its response
      for this node. *)
  Definition off_the_wire (lsL : list jlabel) (jL : nat) (pids : list string) (lm : leadermsg) : Prop :=
    exists c m b f frags rest payload left alloc,
      j_calls (lead lsL) !! jL = Some c /\ jc_sent c = Some m /\ (me, b) ∈ response_payloads leader m pids /\
      (N.of_nat (length b) <= limit)%N /\ frame b f /\ concat frags = f ++ rest /\
      ReadStreamWithBuffer frags = (Some payload, left, alloc) /\ leader_incoming payload = Some (InLeader lm).

  Lemma off_the_wire_eq lsL jL pids lm c m : off_the_wire lsL jL pids lm ->
    j_calls (lead lsL) !! jL = Some c -> jc_sent c = Some m -> S_Proto.leader_ok m -> lm_msgtype m = "response"%string -> lm = m.
  Proof.
    intros (c' & m' & b & f & frags & rest & payload & left & alloc & Hc' & Hm' & Hin & Hl & Hf & Hcc & Hr & Hi) Hc Hm Hok Hmt.
    rewrite Hc in Hc'. injection Hc' as <-. rewrite Hm in Hm'. injection Hm' as <-.
    destruct (C136_response m leader pids me b f frags rest Hok Hmt Hin Hl Hf Hcc) as (left' & alloc' & Hr' & Hi').
    rewrite Hr in Hr'. injection Hr' as -> _ _. rewrite Hi in Hi'. injection Hi' as ->. reflexivity.
  Qed.
  Lemma mapM_id l : Forall (fun p => peerDecode p = Some p) l -> mapM peerDecode l = Some l.
  Proof. induction 1 as [|p l Hp Hl IH]; [reflexivity|]. cbn. rewrite Hp. cbn. cbn in IH. rewrite IH. reflexivity. Qed.

  (** If the leader returned a party (or gave up) and a member returned a party for the
      same id, they are the same, and the member succeeds only if the leader did. *)
  Theorem C138_party_agreement :
    forall lsL jL id pids tL ps e lsM j peers t o l,
      called_leader sha peerDecode leader lsL jL id pids tL -> (0 <= tL)%Z ->
      S_Join.returned (lead lsL) jL (Outcome (Some ps) e) -> e = ENone \/ e = ETimeout ->
      Forall (fun p => peerDecode p = Some p /\ text p /\ sized (to_bytes p)) ps -> text id -> sized (to_bytes id) ->
      called_member sha peerDecode me lsM j id leader peers t ->
      S_Join.returned (run lsM) j o -> oc_peers o = Some l ->
      (forall lm, responded sha peerDecode me lsM j id leader lm -> off_the_wire lsL jL pids lm) ->
      l = ps /\ (oc_err o = ENone -> e = ENone).
  Proof.
    intros lsL jL id pids tL ps e lsM j peers t o l Hcall HtL Hret He Hps Hid Hids Hmem Hro Hl Hwire.
    assert (Hs : exists c ty, j_calls (lead lsL) !! jL = Some c /\ jc_sent c = Some (LeaderMsg id "response" ty ps) /\
      (ty < 3) /\ (ty = JoinParty_Success -> e = ENone)).
    { destruct He as [-> | ->].
      - destruct (C21_leader_success sha peerDecode leader leader_name _ _ _ _ _ _ Hcall Hret HtL) as (l1 & c & [= <-] & Hc & _ & _ & _ & _ & Hsent).
        exists c, JoinParty_Success. split; [exact Hc|]. split; [exact Hsent|]. split; [unfold JoinParty_Success; lia|reflexivity].
      - destruct (C21_leader_timeout sha peerDecode leader leader_name _ _ _ _ _ _ Hcall Hret) as (l1 & c & [= <-] & Hc & _ & _ & _ & _ & Hsent).
        exists c, JoinParty_Timeout. split; [exact Hc|]. split; [exact Hsent|]. split; [unfold JoinParty_Timeout; lia|discriminate]. }
    destruct Hs as (c & ty & Hc & Hsent & Hty & Hse).
    assert (Hok : S_Proto.leader_ok (LeaderMsg id "response" ty ps)).
    { split; [exact Hid|]. split; [exact Hids|]. split; [apply text_ok_iff; reflexivity|]. split; [reflexivity|].
      split; [cbn; destruct ty as [|[|[|]]]; [reflexivity..|lia]|]. eapply Forall_impl; [exact Hps|]. intros p (_ & H). exact H. }
    assert (Heq : forall lm, responded sha peerDecode me lsM j id leader lm -> lm = LeaderMsg id "response" ty ps).
    { intros lm Hr. eapply off_the_wire_eq; eauto. }
    destruct (C22_member_follows_its_leader sha peerDecode me me_name _ _ _ _ _ _ _ _ Hmem Hro Hl) as ((lm & Hr & Hd) & Hsuc).
    rewrite (Heq _ Hr) in Hd. cbn in Hd. rewrite mapM_id in Hd.
    - injection Hd as ->. split; [reflexivity|]. intros Hn. destruct (Hsuc Hn) as (_ & lm' & Hr' & Ht'). rewrite (Heq _ Hr') in Ht'. auto.
    - eapply Forall_impl; [exact Hps|]. intros p (H & _). exact H.
  Qed.

  (** The call of a member is waiting, and has heard nothing yet. *)
  Definition idle_member (s : jstate) (j : nat) (id : string) (t : Z) : Prop :=
    exists c g, j_calls s !! j = Some c /\ j_groups s !! j = Some g /\ j_index s !! id = Some j /\
      jc_role c = RMember leader /\ jc_threshold c = t /\ jc_stage c = JWait /\ jc_notified c <> "signature received"%string /\
      g_leader g = leader /\ g_notify g = 0 /\ g_cap g = 1.

  (** A call starts like that ... *)
  Lemma member_starts_idle ls j id ht peers t :
    j_calls (run ls) !! j = None -> M_Conv.LeaderNode sha id ht peers = Some leader -> leader <> me -> peerDecode leader = Some leader ->
    idle_member (run (ls ++ [LJoin j id ht peers t])) j id t.
  Proof.
    intros Hn Hle Hne Hd. rewrite run_snoc. cbn [jstep]. rewrite Hn. unfold JoinPartyWithLeader. rewrite Hle.
    rewrite decide_False by congruence. unfold start, getPeerIDs.
    rewrite (mapM_id [leader]) by (constructor; [exact Hd|constructor]).
    eexists _, _. cbn [j_calls j_groups j_index]. repeat (split; [rewrite lookup_insert; reflexivity|]).
    repeat (split; [reflexivity|]). split; [discriminate|]. repeat split.
  Qed.

  (** ... and then, when the leader succeeds and its response arrives, the member
      returns the very party of the leader. *)
  Theorem C138_party_formed :
    forall lsL jL id pids tL ps lsM j t h f frags rest b,
      called_leader sha peerDecode leader lsL jL id pids tL -> (0 <= tL)%Z -> (t <= tL + 1)%Z ->
      S_Join.returned (lead lsL) jL (Outcome (Some ps) ENone) ->
      Forall (fun p => peerDecode p = Some p /\ text p /\ sized (to_bytes p)) ps -> text id -> sized (to_bytes id) ->
      idle_member (run lsM) j id t -> j_handlers (run lsM) !! h = None -> leader <> me ->
      (me, b) ∈ response_payloads leader (LeaderMsg id "response" JoinParty_Success ps) pids ->
      (N.of_nat (length b) <= limit)%N -> frame b f -> concat frags = f ++ rest ->
      exists payload left alloc lm,
        ReadStreamWithBuffer frags = (Some payload, left, alloc) /\ leader_incoming payload = Some (InLeader lm) /\
        S_Join.returned (run (lsM ++ [LMsg h leader (InLeader lm); LHandle h; LHandle h; LNotify j; LFinish j []; LFinish j []; LFinish j []])) j
          (Outcome (Some ps) ENone).
  Proof.
    intros lsL jL id pids tL ps lsM j t h f frags rest b Hcall HtL Ht Hret Hps Hid Hids Hidle Hh Hne Hin Hlim Hf Hcc.
    destruct (C21_leader_success sha peerDecode leader leader_name _ _ _ _ _ _ Hcall Hret HtL) as (l1 & c0 & [= <-] & Hc0 & _ & _ & Hlen & _ & _).
    assert (Hok : S_Proto.leader_ok (LeaderMsg id "response" JoinParty_Success ps)).
    { split; [exact Hid|]. split; [exact Hids|]. split; [apply text_ok_iff; reflexivity|]. split; [reflexivity|].
      split; [reflexivity|]. eapply Forall_impl; [exact Hps|]. intros p (_ & H). exact H. }
    destruct (C136_response _ leader pids me b f frags rest Hok eq_refl Hin Hlim Hf Hcc) as (left & alloc & Hr & Hi).
    exists b, left, alloc, (LeaderMsg id "response" JoinParty_Success ps). split; [exact Hr|]. split; [exact Hi|].
    unfold jrun. rewrite fold_left_app. fold (run lsM).
    destruct Hidle as (c & g & Hc & Hg & Hx & Hrole & Hth & Hst & Hnot & Hgl & Hgn & Hgc).
    destruct (run lsM) as [gs ix cs hs]. cbn [j_calls j_groups j_index j_handlers] in *.
    set (m := LeaderMsg id "response" JoinParty_Success ps) in *.
    set (g1 := g_set_in (g_in g ++ [(leader, InLeader m)]) g).
    set (g2 := g_set_resp (Some m) g1). set (g3 := g_set_notify 1 g2). set (g4 := g_set_notify 0 g3).
    cbn [fold_left].
    assert (S1 : jstep sha peerDecode me (LMsg h leader (InLeader m)) (JState gs ix cs hs) =
      JState (<[j := g1]> gs) ix cs (<[h := HResp j leader m]> hs)).
    { cbn [jstep j_handlers]. rewrite Hh. rewrite decide_False by (intros [?|?]; congruence). unfold dispatch.
      rewrite decide_False by discriminate. rewrite decide_True by reflexivity. cbn [lm_id m j_index j_groups]. rewrite Hx, Hg. reflexivity. }
    rewrite S1. clear S1.
    assert (S2 : jstep sha peerDecode me (LHandle h) (JState (<[j := g1]> gs) ix cs (<[h := HResp j leader m]> hs)) =
      JState (<[j := g2]> gs) ix cs (<[h := HNotify j]> hs)).
    { cbn [jstep]. unfold handle. cbn [j_handlers j_groups]. rewrite lookup_insert. rewrite lookup_insert.
      rewrite decide_True by (cbn; congruence). unfold set_handler, set_group. cbn [j_groups j_index j_calls j_handlers].
      rewrite (insert_insert gs), (insert_insert hs). reflexivity. }
    rewrite S2. clear S2.
    assert (S3 : jstep sha peerDecode me (LHandle h) (JState (<[j := g2]> gs) ix cs (<[h := HNotify j]> hs)) =
      JState (<[j := g3]> gs) ix cs hs).
    { cbn [jstep]. unfold handle. cbn [j_handlers j_groups]. rewrite lookup_insert. rewrite lookup_insert.
      replace (Nat.ltb (g_notify g2) (g_cap g2)) with true by (cbn; rewrite Hgn, Hgc; reflexivity).
      unfold end_handler, set_group. cbn [j_groups j_index j_calls j_handlers].
      rewrite (insert_insert gs), (delete_insert hs) by exact Hh. unfold g3. cbn. rewrite Hgn. reflexivity. }
    rewrite S3. clear S3.
    assert (S4 : jstep sha peerDecode me (LNotify j) (JState (<[j := g3]> gs) ix cs hs) =
      JState (<[j := g4]> gs) ix (<[j := jc_set_stage JWoken c]> cs) hs).
    { cbn [jstep]. unfold on_notify. cbn [j_calls j_groups]. rewrite Hc. rewrite lookup_insert. rewrite Hst, Hrole. cbn [g3 g_set_notify g_notify].
      unfold set_call, set_group. cbn [j_groups j_index j_calls j_handlers]. rewrite (insert_insert gs). reflexivity. }
    rewrite S4. clear S4.
    assert (S5 : jstep sha peerDecode me (LFinish j []) (JState (<[j := g4]> gs) ix (<[j := jc_set_stage JWoken c]> cs) hs) =
      JState (<[j := g4]> gs) ix (<[j := jc_set_stage JChecked c]> cs) hs).
    { cbn [jstep]. unfold finish. cbn [j_calls j_groups]. rewrite !lookup_insert. cbn [jc_set_stage jc_role]. rewrite Hrole.
      unfold finish_member. cbn [jc_set_stage jc_stage g_resp g4 g3 g2 g_set_notify g_set_resp jc_notified]. rewrite decide_False by exact Hnot.
      unfold set_call. cbn [j_groups j_index j_calls j_handlers]. rewrite (insert_insert cs). reflexivity. }
    rewrite S5. clear S5.
    assert (S6 : jstep sha peerDecode me (LFinish j []) (JState (<[j := g4]> gs) ix (<[j := jc_set_stage JChecked c]> cs) hs) =
      JState (<[j := g4]> gs) ix (<[j := jc_set_stage (JIds ps) c]> cs) hs).
    { cbn [jstep]. unfold finish. cbn [j_calls j_groups]. rewrite !lookup_insert. cbn [jc_set_stage jc_role]. rewrite Hrole.
      unfold finish_member. cbn [jc_set_stage jc_stage g_resp g4 g3 g2 g_set_notify g_set_resp lm_peers m jc_threshold]. unfold getPeerIDs.
      rewrite mapM_id by (eapply Forall_impl; [exact Hps|]; intros p (H & _); exact H).
      replace (Z.ltb (Z.of_nat (length ps)) (jc_threshold c)) with false by (symmetry; apply Z.ltb_ge; lia).
      unfold set_call. cbn [j_groups j_index j_calls j_handlers]. rewrite (insert_insert cs). reflexivity. }
    rewrite S6. clear S6.
    eexists. cbn [jstep]. unfold finish. cbn [j_calls j_groups]. rewrite !lookup_insert. cbn [jc_set_stage jc_role]. rewrite Hrole.
    unfold finish_member. cbn [jc_set_stage jc_stage g_resp g4 g3 g2 g_set_notify g_set_resp lm_type m JoinParty_Success Nat.eqb].
    unfold done, set_call. cbn [j_calls]. rewrite lookup_insert. split; reflexivity.
  Qed.
End agree.
Print Assumptions C138_party_agreement.
Print Assumptions C138_party_formed.

(** The leader "a" forms a party with "c" (P_Join), and "c" gets its response. *)
Example C138_case :
  let b := default [] (lm_marshal (LeaderMsg "id" "response" JoinParty_Success ["c"; "a"])) in
  let fr := put_uint32 (N.of_nat (length b)) ++ b in
  let lsM := [LJoin 5 "id" 7 ["a"; "b"; "c"] 1]%string in
  exists payload left alloc lm,
    ReadStreamWithBuffer [fr] = (Some payload, left, alloc) /\ leader_incoming payload = Some (InLeader lm) /\
    S_Join.returned (jrun of_bytes Some "c" (lsM ++ [LMsg 0 "a" (InLeader lm); LHandle 0; LHandle 0; LNotify 5; LFinish 5 []; LFinish 5 []; LFinish 5 []])) 5
      (Outcome (Some ["c"; "a"]%string) ENone).
Proof.
  intros b fr lsM.
  apply (C138_party_formed of_bytes Some "a" "c" ltac:(discriminate) P_Join.leader_ok 0 "id" ["a"; "b"; "c"]%string 1 ["c"; "a"]%string lsM 5 1 0 fr [fr] [] b).
  - exact leader_ok_called.
  - lia.
  - lia.
  - exact leader_ok_returned.
  - repeat apply Forall_cons_2; try apply Forall_nil_2; (split; [reflexivity|]; split; [apply text_ok_iff; reflexivity|reflexivity]).
  - apply text_ok_iff. reflexivity.
  - reflexivity.
  - apply (member_starts_idle of_bytes Some "a" "c" [] 5 "id" 7 ["a"; "b"; "c"]%string 1); reflexivity || discriminate.
  - reflexivity.
  - discriminate.
  - apply elem_of_list_In. vm_compute. auto.
  - vm_compute. discriminate.
  - eexists. split; [apply put_header; vm_compute; reflexivity|reflexivity].
  - cbn [concat]. reflexivity.
Qed.
(** The same run meets what the agreement theorem asks for: the one response "c" heard
    of came out of the stream of "a". *)
Example C138_agreement_case :
  let m := LeaderMsg "id" "response" JoinParty_Success ["c"; "a"]%string in
  let lsM := [LJoin 5 "id" 7 ["a"; "b"; "c"] 1; LMsg 0 "a" (InLeader m); LHandle 0; LHandle 0; LNotify 5; LFinish 5 []; LFinish 5 []; LFinish 5 []]%string in
  called_member of_bytes Some "c" lsM 5 "id" "a" ["a"; "b"; "c"]%string 1 /\
  (forall lm, responded of_bytes Some "c" lsM 5 "id" "a" lm -> off_the_wire of_bytes Some "a" "c" P_Join.leader_ok 0 ["a"; "b"; "c"]%string lm) /\
  (forall o l, S_Join.returned (jrun of_bytes Some "c" lsM) 5 o -> oc_peers o = Some l -> l = ["c"; "a"]%string).
Proof.
  intros m lsM.
  assert (Hm : called_member of_bytes Some "c" lsM 5 "id" "a" ["a"; "b"; "c"]%string 1).
  { exists [], 7%Z. eexists. split; [reflexivity|]. split; [reflexivity|]. split; [reflexivity|]. split; [discriminate|]. eexists. reflexivity. }
  assert (Hw : forall lm, responded of_bytes Some "c" lsM 5 "id" "a" lm -> off_the_wire of_bytes Some "a" "c" P_Join.leader_ok 0 ["a"; "b"; "c"]%string lm).
  { intros lm ((ls0 & h & ls1 & Heq & _) & _).
    assert (Hin : LMsg h "a" (InLeader lm) ∈ lsM) by (rewrite Heq; set_solver).
    assert (lm = m) as ->.
    { repeat (apply elem_of_cons in Hin as [Hin|Hin]; [first [discriminate Hin | injection Hin as _ ->; reflexivity]|]).
      apply elem_of_nil in Hin. destruct Hin. }
    pose (b := default [] (lm_marshal m)). pose (fr := put_uint32 (N.of_nat (length b)) ++ b).
    eexists _, m, b, fr, [fr], [], b, _, _. split; [vm_compute; reflexivity|]. split; [reflexivity|].
    split; [apply elem_of_list_In; vm_compute; auto|]. split; [vm_compute; discriminate|].
    split; [eexists; split; [apply put_header; vm_compute; reflexivity|reflexivity]|]. split; [reflexivity|].
    split; vm_compute; reflexivity. }
  split; [exact Hm|]. split; [exact Hw|]. intros o l Hr Hl.
  eapply (C138_party_agreement of_bytes Some "a" "c" ltac:(discriminate) ltac:(discriminate) P_Join.leader_ok 0 "id" ["a"; "b"; "c"]%string 1 ["c"; "a"]%string ENone lsM 5 ["a"; "b"; "c"]%string 1 o l);
    [exact leader_ok_called|lia|exact leader_ok_returned|auto| |apply text_ok_iff; reflexivity|reflexivity|exact Hm|exact Hr|exact Hl|exact Hw].
  repeat apply Forall_cons_2; try apply Forall_nil_2; (split; [reflexivity|]; split; [apply text_ok_iff; reflexivity|reflexivity]).
Qed.
