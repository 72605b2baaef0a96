(** Property theorems: shares from local party to local party (C173, C174). *)
From Coq Require Import ZArith NArith Ascii String List Lia.
From stdpp Require Import base list strings gmap.
From Verif Require Import Base S_Utf8 L_Utf8 L_Base M_Common S_Common M_OutCh S_OutCh L_OutCh P_OutCh
  L_JsonSpec M_Wire S_Wire L_Wire2 M_Honest S_Honest L_Honest L_Honest4 P_Honest M_Ceremony S_Ceremony L_Ceremony.

(** ** C173 *)

(** When the local parties of all sessions of a member have emitted their message of a round
    for a destination, and nothing is under way any more, the share of each session was
    handed to the local party of every member it is meant for, unchanged and exactly once. *)
Theorem C173_shares_reach_the_local_parties :
  forall E N full ty sign name s id p em body r q,
    setting E N ty sign name -> freachable E N full ty sign name s -> quiet (wire_env E) N (f_net s) ->
    ce_peers N !! id = Some p ->
    emitted_by s p em body r -> round_emitted N s p em r -> meant_for N p q r ->
    let log := s_log (at_node (wire_env E) N (f_net s) q) in
    exists i j, log !! i = Some j /\ handed_over id em body r j /\
      forall i' j', log !! i' = Some j' -> handed_over id em body r j' -> i' = i.
Proof.
  intros E N full ty sign name s id p em body r q Hset Hs Hquiet Hid Hem Hall Hto log.
  pose proof (finv_reach E N full ty sign name Hset s Hs) as Hi.
  pose proof (fi_valid _ _ _ _ _ _ _ Hi id p Hid) as Hv.
  destruct (round_sent E N full ty sign name Hset id p s em body r Hid Hi Hem Hall) as (t & Ht & He).
  destruct (sent_dec _ _ _ _ _ _ Hset _ _ Hid _ _ Hv Ht) as (bl & Hd & Hbl).
  apply elem_of_list_lookup in He as [k Hk]. destruct (Forall2_lookup_l _ _ _ _ _ Hbl Hk) as (b & Hb & Hrec).
  apply elem_of_list_lookup_2 in Hb. apply elem_of_list_lookup_2 in Hk.
  destruct (sent_entry _ _ _ _ _ _ Hset _ _ Hid _ _ _ Hv Ht Hk) as (em' & before & _ & Hem' & _ & _ & Hpl). cbn [en_body en_routing en_ident] in *.
  destruct (sent_routing _ _ _ _ _ _ Hset _ _ Hid _ _ Hv Ht) as (_ & Hpn & Hbc & Huc).
  assert (Hq : q ∈ t_peers t).
  { destruct (place_broadcast _ _ _ _ _ _ _ _ _ _ Hem') as [Hpb Hpu]. rewrite Hpl in Hpb, Hpu. unfold meant_for in Hto.
    destruct (or_bcast r) eqn:Hbr.
    - rewrite Hbc; [exact Hto|]. apply Hpn, Hpb. reflexivity.
    - destruct (or_bcast (t_routing t)) eqn:Hbt; [pose proof (proj1 Hpb (proj1 Hpn eq_refl)); discriminate|].
      destruct (Huc eq_refl) as (d & q' & Htd & Hn & Hq' & _ & Hpeers). apply Hpeers.
      destruct (Hpu (d_str d)) as (x & q1 & Hx & Hxn & Hq1 & _).
      { unfold place. rewrite Hbt, Htd. reflexivity. }
      destruct Hto as (d' & Hd' & Hq2). rewrite Hx in Hd'. apply elem_of_list_singleton in Hd' as ->.
      assert (d_id x = d_id d) as Heq.
      { apply (st_name _ _ _ _ _ Hset); [rewrite Hq2; eauto|rewrite Hq'; eauto|congruence]. }
      rewrite Heq in Hq2. congruence. }
  destruct Hrec as (Hr1 & Hr2 & Hr3). cbn [en_body en_routing en_ident] in *. rewrite (e_from _ _ _ _ _ _ _ _ _ _ Hem') in Hr3.
  destruct (C167_every_share_arrives_once (wire_env E) N (f_net s) (st_wf _ _ _ _ _ Hset) (fi_reach _ _ _ _ _ _ _ Hi) Hquiet
    (sending_of full ty id t) bl q b) as (i & j & Hj & (Hj1 & Hj2 & to & Hj3) & _ & Huniq).
  { apply (fi_sent _ _ _ _ _ _ _ Hi). exists id, p, t. auto. }
  { exact Hq. }
  { exact Hd. }
  { exact Hb. }
  exists i, j. split; [exact Hj|]. split.
  { rewrite Hr3 in Hj3. injection Hj3 as H1 _ H2. unfold handed_over. repeat split; congruence. }
  intros i' j' Hj' (H1 & H2 & H3 & H4). apply (Huniq i' j' Hj'). split; [congruence|]. split; [congruence|].
  rewrite Hr3. eexists. rewrite H3, H4. reflexivity.
Qed.
Print Assumptions C173_shares_reach_the_local_parties.

(** And such a moment comes: from any state, once the local parties pause, deliveries and
    the work of the nodes end in a state where nothing is under way. *)
Theorem C173_nothing_stays_under_way :
  forall E N full ty sign name s,
    setting E N ty sign name -> freachable E N full ty sign name s ->
    Acc (fun n2 n1 => handles (wire_env E) N n1 n2) (f_net s) /\
    exists n, rtc (handles (wire_env E) N) (f_net s) n /\ quiet (wire_env E) N n /\
      freachable E N full ty sign name (FState (f_out s) n).
Proof.
  intros E N full ty sign name s Hset Hs. pose proof (finv_reach E N full ty sign name Hset s Hs) as Hi.
  destruct (C170_traffic_ends (wire_env E) N (f_net s) (st_wf _ _ _ _ _ Hset) (fi_reach _ _ _ _ _ _ _ Hi)) as (H1 & _ & n & H2 & H3 & _).
  split; [exact H1|]. exists n. split; [exact H2|]. split; [exact H3|].
  assert (Hg : forall n1 n2, rtc (handles (wire_env E) N) n1 n2 ->
    freachable E N full ty sign name (FState (f_out s) n1) -> freachable E N full ty sign name (FState (f_out s) n2)).
  { clear. induction 1 as [|n1 n2 n3 Hh _ IH]; [auto|]. intros Hf. apply IH. eapply rtc_r; [exact Hf|].
    destruct Hh as [Hh|[Hh _]]; apply (f_other E N full ty sign name (FState (f_out s) n1) _ n2 Hh); inversion Hh; subst; reflexivity. }
  apply (Hg _ _ H2). destruct s as [o n0]. exact Hs.
Qed.
Print Assumptions C173_nothing_stays_under_way.

(** ** C174 *)

(** At any moment: no node has crashed and nobody is blamed, and every share handed to a
    local party was emitted, for this member, by the local party of the member it names as
    its sender, in the session it names. *)
Theorem C174_only_what_was_emitted :
  forall E N full ty sign name s q,
    setting E N ty sign name -> freachable E N full ty sign name s -> member N q ->
    let st := at_node (wire_env E) N (f_net s) q in
    s_crash st = false /\ bl_reason (s_blame st) = "" /\ bl_nodes (s_blame st) = [] /\
    forall j, j ∈ s_log st -> exists p em body r,
      ce_peers N !! j_from j = Some p /\ emitted_by s p em body r /\ meant_for N p q r /\
      handed_over (j_from j) em body r j.
Proof.
  intros E N full ty sign name s q Hset Hs Hq st. pose proof (finv_reach E N full ty sign name Hset s Hs) as Hi.
  destruct (C168_nobody_blamed (wire_env E) N (f_net s) q (st_wf _ _ _ _ _ Hset) (fi_reach _ _ _ _ _ _ _ Hi) Hq)
    as (H1 & _ & H2 & H3 & H4).
  split; [exact H1|]. split; [exact H2|]. split; [exact H3|]. intros j Hj.
  destruct (H4 j Hj) as (x & l & b & Hx & Hfrom & Hto & Hd & Hb & (Hj1 & Hj2 & to & Hj3)).
  apply (fi_sent _ _ _ _ _ _ _ Hi) in Hx as (id & p & t & Hid & Ht & ->). cbn in Hfrom, Hto. subst id.
  pose proof (fi_valid _ _ _ _ _ _ _ Hi _ p Hid) as Hv.
  destruct (sent_dec _ _ _ _ _ _ Hset _ _ Hid _ _ Hv Ht) as (bl & Hd2 & Hbl).
  change (w_body (sn_wire (sending_of full ty (j_from j) t))) with (t_body t) in Hd. rewrite Hd2 in Hd. injection Hd as <-.
  apply elem_of_list_lookup in Hb as [k Hk]. destruct (Forall2_lookup_r _ _ _ _ _ Hbl Hk) as (e & He & (Hr1 & Hr2 & Hr3)).
  apply elem_of_list_lookup_2 in He.
  destruct (sent_entry _ _ _ _ _ _ Hset _ _ Hid _ _ _ Hv Ht He) as (em & before & Hin & Hem & _ & Hident & Hpl).
  apply elem_of_list_fmap in Hin as ([[em0 o1] o2] & Hem0 & Hin). cbn in Hem0. subst em0.
  exists p, em, (en_body e), (en_routing e). split; [exact Hid|]. split.
  { split; [eauto|apply (e_wire _ _ _ _ _ _ _ _ _ _ Hem)]. }
  rewrite (e_from _ _ _ _ _ _ _ _ _ _ Hem), Hj3 in Hr3. injection Hr3 as Hto' Hbc'.
  split; [|repeat split; congruence].
  destruct (sent_routing _ _ _ _ _ _ Hset _ _ Hid _ _ Hv Ht) as (_ & Hpn & Hbc & Huc).
  destruct (place_broadcast _ _ _ _ _ _ _ _ _ _ Hem) as [Hpb Hpu]. rewrite Hpl in Hpb, Hpu. unfold meant_for.
  destruct (or_bcast (en_routing e)) eqn:Hb1.
  - rewrite <- Hbc; [exact Hto|]. apply Hpn, Hpb. reflexivity.
  - destruct (or_bcast (t_routing t)) eqn:Hbt; [pose proof (proj1 Hpb (proj1 Hpn eq_refl)); discriminate|].
    destruct (Huc eq_refl) as (d & q' & Htd & Hn & Hq' & _ & Hpeers). apply Hpeers in Hto as ->.
    destruct (Hpu (d_str d)) as (y & q1 & Hy & Hyn & Hq1 & _).
    { unfold place. rewrite Hbt, Htd. reflexivity. }
    exists y. rewrite Hy. split; [left|].
    assert (d_id y = d_id d) as ->; [|exact Hq'].
    apply (st_name _ _ _ _ _ Hset); [rewrite Hq1; eauto|rewrite Hq'; eauto|congruence].
Qed.
Print Assumptions C174_only_what_was_emitted.

(** ** A ceremony of three with two sessions *)

(** Party 1 broadcasts a share of the first round in both sessions, party 2 sends one of the
    second round to party 3 in both. *)
Definition duo : ceremony := Ceremony "req" {["s"; "t"]} (ce_parties trio) (ce_peers trio).
Definition duo_sign (p : string) (data : bytes) : option bytes := Some (drop 1 (to_bytes p) ++ data)%list.
Definition duo_name (id : string) : string := id.
Definition duo_full (e : entry) : mrouting :=
  let party := fun id => Some (Party (Some (PParty id "" [])) 0) in
  MRouting (party (or_from (en_routing e))) (map (fun d => party (d_id d)) (or_to (en_routing e)))
    (or_bcast (en_routing e)) false false.
Definition duo_bc (session : string) : emission :=
  Emission "KGRound1Message" session (Some (to_bytes "r1", ORouting "1" [] true)).
Definition duo_uc (session : string) : emission :=
  Emission "KGRound2Message1" session (Some (to_bytes "r2", ORouting "2" [Dest "3" "3"] false)).

Lemma duo_peers id p : ce_peers duo !! id = Some p ->
  (id = "1" /\ p = "p1") \/ (id = "2" /\ p = "p2") \/ (id = "3" /\ p = "p3").
Proof. apply trio_peers. Qed.
Lemma duo_setting : setting trio_env duo TSSKeyGenMsg duo_sign duo_name.
Proof.
  constructor.
  - destruct trio_well_formed as [H1 H2 H3 H4]. constructor; [exact H1|exact H2|exact H3|reflexivity].
  - auto.
  - intros id p key data Hp Hk. eexists. split; [reflexivity|]. cbn. apply bool_decide_eq_true. f_equal.
    apply (trio_cases to_bytes) in Hk. apply duo_peers in Hp.
    destruct Hp as [[-> ->]|[[-> ->]|[-> ->]]], Hk as [[Hk ->]|[[Hk ->]|[Hk ->]]]; try discriminate; reflexivity.
  - intros Hx. assert ("s" ∈ (∅ : gset string)) as He; [|apply not_elem_of_empty in He; contradiction].
    rewrite <- Hx. cbn. apply elem_of_union. left. apply elem_of_singleton. reflexivity.
  - intros a b _ _ Hab. exact Hab.
Qed.

Lemma named_id id : id <> "" -> text id -> named id (Some (Party (Some (PParty id "" [])) 0)).
Proof.
  intros Hne Ht. eexists _, _. split; [reflexivity|]. split; [reflexivity|]. split; [exact Hne|]. split; [unfold go_int; lia|].
  split; [exact Ht|apply ascii_string; reflexivity].
Qed.
Lemma duo_session x : x = "s" \/ x = "t" -> x ∈ ce_sessions duo.
Proof. intros [-> | ->]; cbn; apply elem_of_union; [left|right]; apply elem_of_singleton; reflexivity. Qed.
Lemma no_colon s : forallb (fun c => negb (Ascii.eqb c ":")) (to_bytes s) = true -> ":"%char ∉ to_bytes s.
Proof.
  intros Hf Hin. rewrite forallb_forall in Hf. apply elem_of_list_In in Hin. specialize (Hf _ Hin). discriminate.
Qed.

Lemma duo_bc_emits before session : session = "s" \/ session = "t" ->
  (forall em, em ∈ before -> exists x, em = duo_bc x /\ x <> session) ->
  emits trio_env duo duo_full duo_name "1" "p1" before (duo_bc session) (to_bytes "r1") (ORouting "1" [] true).
Proof.
  intros Hs Hb. constructor; cbn [duo_bc em_wire em_type em_ident or_from or_to or_bcast].
  - reflexivity.
  - reflexivity.
  - apply duo_session, Hs.
  - apply no_colon. reflexivity.
  - exists 0. reflexivity.
  - split; [apply named_id; [discriminate|apply ascii_string; reflexivity]|]. split; [constructor|]. split; [reflexivity|].
    cbn [en_ident]. destruct Hs as [-> | ->]; apply ascii_string; reflexivity.
  - reflexivity.
  - discriminate.
  - intros em body r Hin Hw _. destruct (Hb em Hin) as (x & -> & _). cbn in Hw. injection Hw as <- <-. reflexivity.
  - intros em body r Hin Hw _ Hid. destruct (Hb em Hin) as (x & -> & Hne). cbn in Hid. congruence.
Qed.
Lemma duo_uc_emits before session : session = "s" \/ session = "t" ->
  (forall em, em ∈ before -> exists x, em = duo_uc x /\ x <> session) ->
  emits trio_env duo duo_full duo_name "2" "p2" before (duo_uc session) (to_bytes "r2") (ORouting "2" [Dest "3" "3"] false).
Proof.
  intros Hs Hb. constructor; cbn [duo_uc em_wire em_type em_ident or_from or_to or_bcast].
  - reflexivity.
  - reflexivity.
  - apply duo_session, Hs.
  - apply no_colon. reflexivity.
  - exists 1. reflexivity.
  - split; [apply named_id; [discriminate|apply ascii_string; reflexivity]|].
    split; [constructor; [apply named_id; [discriminate|apply ascii_string; reflexivity]|constructor]|]. split; [reflexivity|].
    cbn [en_ident]. destruct Hs as [-> | ->]; apply ascii_string; reflexivity.
  - discriminate.
  - intros _. exists (Dest "3" "3"), "p3". repeat split. discriminate.
  - intros em body r Hin Hw _. destruct (Hb em Hin) as (x & -> & _). cbn in Hw. injection Hw as <- <-. reflexivity.
  - intros em body r Hin Hw _ Hid. destruct (Hb em Hin) as (x & -> & Hne). cbn in Hid. congruence.
Qed.

Lemma duo_emit s id p em body r :
  ce_peers duo !! id = Some p ->
  emits trio_env duo duo_full duo_name id p (map (fun x => fst (fst x)) (f_out s p)) em body r ->
  freachable trio_env duo duo_full TSSKeyGenMsg duo_sign duo_name s ->
  exists s', freachable trio_env duo duo_full TSSKeyGenMsg duo_sign duo_name s' /\
    f_out s' p = (f_out s p ++ [(em, [], [])])%list /\ forall q, q <> p -> f_out s' q = f_out s q.
Proof.
  intros Hid He Hs. eexists. split; [eapply rtc_r; [exact Hs|]; eapply (f_emit _ _ _ _ _ _ s id p em body r [] []); eauto|].
  cbn [f_out]. split; [rewrite decide_True by reflexivity; reflexivity|]. intros q Hq. rewrite decide_False by exact Hq. reflexivity.
Qed.

(** There is a reachable state with nothing under way in which both rounds are complete. *)
Example C173_C174_case :
  setting trio_env duo TSSKeyGenMsg duo_sign duo_name /\
  exists s, freachable trio_env duo duo_full TSSKeyGenMsg duo_sign duo_name s /\
    quiet (wire_env trio_env) duo (f_net s) /\
    emitted_by s "p1" (duo_bc "s") (to_bytes "r1") (ORouting "1" [] true) /\
    round_emitted duo s "p1" (duo_bc "s") (ORouting "1" [] true) /\
    meant_for duo "p1" "p2" (ORouting "1" [] true) /\
    emitted_by s "p2" (duo_uc "t") (to_bytes "r2") (ORouting "2" [Dest "3" "3"] false) /\
    round_emitted duo s "p2" (duo_uc "t") (ORouting "2" [Dest "3" "3"] false) /\
    meant_for duo "p2" "p3" (ORouting "2" [Dest "3" "3"] false).
Proof.
  split; [exact duo_setting|].
  destruct (duo_emit f_init "1" "p1" (duo_bc "s") (to_bytes "r1") (ORouting "1" [] true)) as (s1 & R1 & O1 & P1).
  { reflexivity. }
  { apply duo_bc_emits; [auto|]. intros em Hin. apply elem_of_nil in Hin. contradiction. }
  { apply rtc_refl. }
  destruct (duo_emit s1 "1" "p1" (duo_bc "t") (to_bytes "r1") (ORouting "1" [] true)) as (s2 & R2 & O2 & P2).
  { reflexivity. }
  { rewrite O1. apply duo_bc_emits; [auto|]. intros em Hin. apply elem_of_list_singleton in Hin as ->. exists "s". split; [reflexivity|discriminate]. }
  { exact R1. }
  destruct (duo_emit s2 "2" "p2" (duo_uc "s") (to_bytes "r2") (ORouting "2" [Dest "3" "3"] false)) as (s3 & R3 & O3 & P3).
  { reflexivity. }
  { rewrite P2, P1 by discriminate. apply duo_uc_emits; [auto|]. intros em Hin. apply elem_of_nil in Hin. contradiction. }
  { exact R2. }
  destruct (duo_emit s3 "2" "p2" (duo_uc "t") (to_bytes "r2") (ORouting "2" [Dest "3" "3"] false)) as (s4 & R4 & O4 & P4).
  { reflexivity. }
  { rewrite O3, P2, P1 by discriminate. apply duo_uc_emits; [auto|]. intros em Hin. apply elem_of_list_singleton in Hin as ->. exists "s". split; [reflexivity|discriminate]. }
  { exact R3. }
  destruct (C173_nothing_stays_under_way _ _ _ _ _ _ s4 duo_setting R4) as (_ & n & _ & Hq & Hn).
  assert (H1 : f_out s4 "p1" = [(duo_bc "s", [], []); (duo_bc "t", [], [])]).
  { rewrite P4, P3, O2, O1 by discriminate. reflexivity. }
  assert (H2 : f_out s4 "p2" = [(duo_uc "s", [], []); (duo_uc "t", [], [])]).
  { rewrite O4, O3, P2, P1 by discriminate. reflexivity. }
  exists (FState (f_out s4) n). split; [exact Hn|]. split; [exact Hq|].
  assert (Hb : forall x, x = "s" \/ x = "t" -> emitted_by (FState (f_out s4) n) "p1" (duo_bc x) (to_bytes "r1") (ORouting "1" [] true)).
  { intros x Hx. split; [|reflexivity]. exists [], []. cbn [f_out]. rewrite H1. destruct Hx as [-> | ->]; [left|right; left]. }
  assert (Hu : forall x, x = "s" \/ x = "t" -> emitted_by (FState (f_out s4) n) "p2" (duo_uc x) (to_bytes "r2") (ORouting "2" [Dest "3" "3"] false)).
  { intros x Hx. split; [|reflexivity]. exists [], []. cbn [f_out]. rewrite H2. destruct Hx as [-> | ->]; [left|right; left]. }
  assert (Hss : forall x, x ∈ ce_sessions duo -> x = "s" \/ x = "t").
  { intros x Hx. cbn in Hx. apply elem_of_union in Hx as [Hx|Hx]; apply elem_of_singleton in Hx; auto. }
  split; [apply Hb; auto|]. split.
  { intros x Hx. exists (duo_bc x), (to_bytes "r1"), (ORouting "1" [] true). split; [apply Hb, Hss, Hx|]. auto. }
  split.
  { cbn. apply elem_of_others. split; [exists "2"; reflexivity|discriminate]. }
  split; [apply Hu; auto|]. split.
  { intros x Hx. exists (duo_uc x), (to_bytes "r2"), (ORouting "2" [Dest "3" "3"] false). split; [apply Hu, Hss, Hx|]. auto. }
  exists (Dest "3" "3"). split; [left|reflexivity].
Qed.
