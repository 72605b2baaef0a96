(** Property theorems: message handling of a ceremony (C28-C36, C42-C44, C66, C67, C69-C71). *)
From Coq Require Import ZArith Ascii String List Lia.
From stdpp Require Import base list strings gmap.
From Verif Require Import Base L_Base S_Threshold M_Common S_Common M_Network
  L_Common L_Common2 L_Common3 L_Common4 M_Conv S_Conv L_Conv.

(** ** A toy environment for the examples and counterexamples *)

(** Keys are the party ids, the hash keeps the text, a signature is the key
    followed by the data. *)
Definition toy_bulk (b : bytes) : option (list bulk) :=
  let e body id bc := Bulk (to_bytes body) "s" (Some (Routing (FId id) [] bc)) in
  let t := of_bytes b in
  if String.eqb t "good1" then Some [e "r1" "1" true]
  else if String.eqb t "other1" then Some [e "r1x" "1" true]
  else if String.eqb t "forge" then Some [e "r1" "3" true]
  else if String.eqb t "dup" then Some [e "r1" "1" true; e "r1x" "1" true]
  else if String.eqb t "leak" then Some [e "r1" "1" true; Bulk (to_bytes "r1") "?" (Some (Routing (FId "1") [] true))]
  else if String.eqb t "norouting" then Some [Bulk (to_bytes "r1") "s" None]
  else None.
Definition toy_env : env := Env of_bytes
  (fun key data sig => bool_decide (sig = key ++ data)) toy_bulk
  (fun b _ _ => let t := of_bytes b in
     if String.eqb t "r1" || String.eqb t "r1x" then Some KGRound1Message else None)
  (fun k => Some (of_bytes k)) (fun _ => true).
(** [n] parties "1".."n" on peers "p1".."pn"; the node is peer [me]. *)
Definition toy_ids (n : nat) : list string := map (fun i => itoa (N.of_nat i)) (seq 1 n).
Definition toy_cfg (n : nat) (me : string) : cfg :=
  let ids := toy_ids n in
  Cfg "req" me (filter (fun p => p <> me) (map (String.append "p") ids)) {["s"]}
    (list_to_map (map (fun i => (i, to_bytes i)) ids))
    (list_to_map (map (fun i => (i, String.append "p" i)) ids)).
Definition toy_wire (id : string) (bc : bool) (round body : string) : wire :=
  Wire (Some (Routing (FId id) [] bc)) round (to_bytes body)
       (to_bytes id ++ to_bytes body ++ to_bytes "req").
Definition recv (p : string) (m : inmsg) : label := LRecv [] [] p m.
Definition ver (key hash : string) : inmsg := MVer TSSKeyGenVerMsg (Some (Confirm "" key hash)).
Definition share (w : wire) : inmsg := MShare TSSKeyGenMsg (Some w).

(** Share "good1" of party 1, a confirmation of peer 3, then the worker. *)
Definition toy_history : list label :=
  [recv "p1" (share (toy_wire "1" true "KGRound1Message" "good1"));
   recv "p3" (ver "1-KGRound1Message" "good1"); LLoop; LWork 0 None; LAccept 0; LFinish].

(** ** C28 *)
Theorem C28_only_authentic_shares :
  forall E C tr j,
    j ∈ s_log (run E C tr) ->
    exists id, authentic E C (handled E C tr) (j_wire j) id /\ listed E j /\
      is_Some (cf_parties C !! j_from j) /\ j_ident j ∈ cf_sessions C.
Proof.
  intros E C tr j Hj. destruct (i_log _ _ _ _ (inv_run E C tr) j Hj) as ((id & Ha & _) & Hl & (k & Hk) & Hs).
  exists id. split; [exact Ha|]. split; [exact Hl|]. split; [eauto|exact Hs].
Qed.
Print Assumptions C28_only_authentic_shares.

Example C28_example :
  map j_from (s_log (run toy_env (toy_cfg 4 "p2") toy_history)) = ["1"] /\
  map fst (map_to_list (s_accepted (run toy_env (toy_cfg 4 "p2") toy_history))) = [(0, "KGRound1Message", "s")] /\
  map_to_list (s_cache (run toy_env (toy_cfg 4 "p2") toy_history)) = [].
Proof. vm_compute. auto. Qed.

(** ** C29 *)
(** A share attributed to party 3 is applied though nothing in the history is
    signed by party 3. *)
Theorem C29_attribution_refuted :
  exists E C tr j,
    j ∈ s_log (run E C tr) /\ j_from j = "3" /\
    forall p m w, handled E C tr p m -> carries m w -> ~ signed_by E C w "3".
Proof.
  exists toy_env, (toy_cfg 4 "p2"),
    [recv "p1" (share (toy_wire "1" false "KGRound1Message" "forge")); LLoop; LWork 0 None].
  eexists. split; [|split].
  - vm_compute. left.
  - reflexivity.
  - intros p m w (tr1 & o1 & o2 & tr2 & Heq & _) Hc (key & Hk & Hv).
    assert (Hin : LRecv o1 o2 p m ∈ [recv "p1" (share (toy_wire "1" false "KGRound1Message" "forge")); LLoop; LWork 0 None]).
    { rewrite Heq. apply elem_of_app. right. left. }
    apply elem_of_cons in Hin as [Hin|Hin].
    + injection Hin as -> -> -> ->. destruct Hc as [(t & Hc)|(c & Hc & _)]; [|discriminate].
      injection Hc as <- <-. vm_compute in Hk. injection Hk as <-. vm_compute in Hv. discriminate.
    + apply elem_of_cons in Hin as [Hin|Hin]; [discriminate|].
      apply elem_of_cons in Hin as [Hin|Hin]; [discriminate|]. inversion Hin.
Qed.
Print Assumptions C29_attribution_refuted.

(** ** C30 *)
Theorem C30_broadcast_quorum :
  forall E C tr j,
    j ∈ s_log (run E C tr) -> is_broadcast (j_wire j) ->
    exists id, authentic E C (handled E C tr) (j_wire j) id /\
               has_quorum E C (handled E C tr) (j_wire j) id.
Proof.
  intros E C tr j Hj Hb. destruct (i_log _ _ _ _ (inv_run E C tr) j Hj) as ((id & Ha & Hq) & _).
  exists id. auto.
Qed.
Print Assumptions C30_broadcast_quorum.
(** A party of four needs two reports; one is not enough, and a report of the
    sender does not help. *)
Example C30_example :
  (exists j, j ∈ s_log (run toy_env (toy_cfg 4 "p2") toy_history) /\ is_broadcast (j_wire j)) /\
  s_log (run toy_env (toy_cfg 4 "p2")
     [recv "p1" (share (toy_wire "1" true "KGRound1Message" "good1")); LLoop; LWork 0 None]) = [] /\
  s_log (run toy_env (toy_cfg 4 "p2")
     [recv "p1" (share (toy_wire "1" true "KGRound1Message" "good1"));
      recv "p1" (ver "1-KGRound1Message" "good1"); LLoop; LWork 0 None]) = [].
Proof.
  split; [|vm_compute; auto]. eexists. split; [vm_compute; left|]. eexists _, _. reflexivity.
Qed.

(** ** C31 *)
(** Peers 2 and 3 are honest and only confirm what they received; the sender 1
    gives them different messages of the same round. Both apply what they got. *)
Theorem C31_agreement_refuted :
  exists E cfgs gs C2 C3 j2 j3 k,
    cfgs !! "p2" = Some C2 /\ cfgs !! "p3" = Some C3 /\
    s_log <$> grun E cfgs gs !! "p2" = Some [j2] /\
    s_log <$> grun E cfgs gs !! "p3" = Some [j3] /\
    names k (j_wire j2) "1" /\ names k (j_wire j3) "1" /\
    is_broadcast (j_wire j2) /\ is_broadcast (j_wire j3) /\
    w_body (j_wire j2) <> w_body (j_wire j3) /\ j_body j2 <> j_body j3.
Proof.
  set (cfgs := {["p2" := toy_cfg 4 "p2"; "p3" := toy_cfg 4 "p3"]} : gmap string cfg).
  exists toy_env, cfgs,
    [GForge "p2" "p1" [] [] (share (toy_wire "1" true "KGRound1Message" "good1"));
     GForge "p3" "p1" [] [] (share (toy_wire "1" true "KGRound1Message" "other1"));
     GDeliver "p2" "p3" 0 [] []; GDeliver "p3" "p2" 0 [1] [1];
     GInternal "p2" LLoop; GInternal "p2" (LWork 0 None);
     GInternal "p3" LLoop; GInternal "p3" (LWork 0 None)],
    (toy_cfg 4 "p2"), (toy_cfg 4 "p3").
  exists (Job (to_bytes "r1") "s" "1" true 1 (toy_wire "1" true "KGRound1Message" "good1")),
    (Job (to_bytes "r1x") "s" "1" true 1 (toy_wire "1" true "KGRound1Message" "other1")),
    "1-KGRound1Message".
  split; [reflexivity|]. split; [reflexivity|].
  split; [vm_compute; reflexivity|]. split; [vm_compute; reflexivity|].
  split; [split; [eexists _, _; reflexivity|reflexivity]|].
  split; [split; [eexists _, _; reflexivity|reflexivity]|].
  split; [eexists _, _; reflexivity|]. split; [eexists _, _; reflexivity|].
  split; vm_compute; discriminate.
Qed.
Print Assumptions C31_agreement_refuted.

(** ** C69 *)
(** What holds: when two nodes of the same ceremony apply different broadcasts of
    one sender and round, and only members report hashes, at least
    2 (t - 1) - (n - 1) members told the two nodes different hashes. *)
Definition members_only (C : cfg) (H : string -> inmsg -> Prop) (M : gset string) : Prop :=
  cf_local C ∈ M /\ forall p t v, H p (MVer t (Some v)) -> p ∈ M.

Lemma names_inj k k' w id id' : names k w id -> names k' w id' -> id = id' /\ k = k'.
Proof.
  intros [(t & b & H1) H2] [(t' & b' & H1') H2']. rewrite H1 in H1'. injection H1' as <- _ _.
  split; congruence.
Qed.
Lemma reported_member E C H M p k h : members_only C H M -> reported E C H p k h -> p ∈ M.
Proof. intros [Hl Hm] [(t & v & Hh & _)|[-> _]]; eauto. Qed.

Theorem C69_disagreement_exposed :
  forall E CA CB trA trB jA jB k id (M : gset string),
    cf_parties CA = cf_parties CB -> cf_id2peer CA = cf_id2peer CB ->
    members_only CA (handled E CA trA) M -> members_only CB (handled E CB trB) M ->
    (forall op, cf_id2peer CA !! id = Some op -> op ∈ M) ->
    size M = size (cf_parties CA) ->
    jA ∈ s_log (run E CA trA) -> jB ∈ s_log (run E CB trB) ->
    is_broadcast (j_wire jA) -> is_broadcast (j_wire jB) ->
    names k (j_wire jA) id -> names k (j_wire jB) id ->
    e_sha E (w_body (j_wire jA)) <> e_sha E (w_body (j_wire jB)) ->
    let n := Z.of_nat (size (cf_parties CA)) in
    exists X : gset string,
      (2 * (threshold_of n - 1) - (n - 1) <= Z.of_nat (size X))%Z /\
      forall p, p ∈ X ->
        reported E CA (handled E CA trA) p k (e_sha E (w_body (j_wire jA))) /\
        reported E CB (handled E CB trB) p k (e_sha E (w_body (j_wire jB))).
Proof.
  intros E CA CB trA trB jA jB k id M Hpar Hid HmA HmB Hown Hsz HjA HjB HbA HbB HnA HnB Hne n.
  destruct (C30_broadcast_quorum _ _ _ _ HjA HbA) as (idA & AuA & (kA & opA & VA & NA & OA & RA & WA & _ & QA & _)).
  destruct (C30_broadcast_quorum _ _ _ _ HjB HbB) as (idB & AuB & (kB & opB & VB & NB & OB & RB & WB & _ & QB & _)).
  destruct (names_inj _ _ _ _ _ HnA NA) as [<- <-], (names_inj _ _ _ _ _ HnB NB) as [<- <-].
  rewrite <- Hid in OB. rewrite OA in OB. injection OB as <-.
  rewrite <- Hpar in QB. fold n in QA, QB.
  set (hA := e_sha E (w_body (j_wire jA))) in *. set (hB := e_sha E (w_body (j_wire jB))) in *.
  set (SA := dom (filter (fun x : string * string => x.2 = hA) VA) : gset string).
  set (SB := dom (filter (fun x : string * string => x.2 = hB) VB) : gset string).
  assert (HSA : forall p, p ∈ SA -> VA !! p = Some hA).
  { intros p Hp. apply elem_of_dom in Hp as [x Hx]. apply map_filter_lookup_Some in Hx as [Hx Heq].
    cbn in Heq. congruence. }
  assert (HSB : forall p, p ∈ SB -> VB !! p = Some hB).
  { intros p Hp. apply elem_of_dom in Hp as [x Hx]. apply map_filter_lookup_Some in Hx as [Hx Heq].
    cbn in Heq. congruence. }
  assert (HcA : size SA = votes_for hA VA) by (unfold SA; rewrite size_dom; reflexivity).
  assert (HcB : size SB = votes_for hB VB) by (unfold SB; rewrite size_dom; reflexivity).
  exists (SA ∩ SB). split.
  - assert (Hsub : SA ∪ SB ⊆ M ∖ {[opA]}).
    { intros p Hp. apply elem_of_difference. rewrite elem_of_singleton.
      apply elem_of_union in Hp as [Hp|Hp].
      - apply HSA in Hp. split; [eapply reported_member; [exact HmA|apply RA, Hp]|]. intros ->. congruence.
      - apply HSB in Hp. split; [eapply reported_member; [exact HmB|apply RB, Hp]|]. intros ->. congruence. }
    apply subseteq_size in Hsub. 
    pose proof (size_difference M ({[opA]} : gset string)) as Hdo.
    rewrite Hdo in Hsub by (specialize (Hown opA OA); set_solver).
    rewrite size_singleton, Hsz in Hsub.
    assert (Hpos : 1 <= size (cf_parties CA)).
    { rewrite <- Hsz. assert (Hin : ({[opA]} : gset string) ⊆ M) by (specialize (Hown opA OA); set_solver).
      apply subseteq_size in Hin. rewrite size_singleton in Hin. exact Hin. }
    pose proof (size_union_alt SA SB) as Hu.
    assert (Hd : size (SB ∖ SA) = size SB - size (SA ∩ SB)).
    { assert (Hx : SB ∖ SA = SB ∖ (SA ∩ SB)) by set_solver. rewrite Hx. apply (size_difference SB (SA ∩ SB)). set_solver. }
    assert (Hle : size (SA ∩ SB) <= size SB) by (apply subseteq_size; set_solver).
    unfold n in *. lia.
  - intros p Hp. apply elem_of_intersection in Hp as [Hp1 Hp2].
    split; [apply RA, HSA, Hp1|apply RB, HSB, Hp2].
Qed.
Print Assumptions C69_disagreement_exposed.
(** With 10 parties the bound is 1, with 100 it is 31: below that many
    double-reporting members two nodes cannot disagree. *)
Example C69_bounds :
  (2 * (threshold_of 10 - 1) - 9 = 1)%Z /\ (2 * (threshold_of 100 - 1) - 99 = 31)%Z.
Proof. split; reflexivity. Qed.
(** A case with ten parties: members 3, 4 and 5 tell nodes 2 and 8 different
    hashes, and both apply what they received. *)
Definition split_history (me body : string) (voters : list string) : list label :=
  recv "p1" (share (toy_wire "1" true "KGRound1Message" body)) ::
  map (fun p => recv p (ver "1-KGRound1Message" body)) voters ++ [LLoop; LWork 0 None].
Definition split_A := split_history "p2" "good1" ["p3"; "p4"; "p5"; "p6"; "p7"].
Definition split_B := split_history "p8" "other1" ["p3"; "p4"; "p5"; "p9"; "p10"].
Definition split_M : gset string := list_to_set (map (String.append "p") (toy_ids 10)).
Lemma handled_elem E C tr p m : handled E C tr p m -> exists o1 o2, LRecv o1 o2 p m ∈ tr.
Proof. intros (tr1 & o1 & o2 & tr2 & -> & _). exists o1, o2. apply elem_of_app. right. left. Qed.
Lemma members_check E C tr M :
  bool_decide (cf_local C ∈ M) &&
  forallb (fun l => match l with LRecv _ _ p _ => bool_decide (p ∈ M) | _ => true end) tr = true ->
  members_only C (handled E C tr) M.
Proof.
  intros [Hl Hb]%andb_prop. split; [apply bool_decide_eq_true in Hl; exact Hl|].
  intros p t v (o1 & o2 & Hin)%handled_elem. rewrite forallb_forall in Hb.
  apply elem_of_list_In, Hb in Hin. apply bool_decide_eq_true in Hin. exact Hin.
Qed.
Example C69_example :
  let CA := toy_cfg 10 "p2" in let CB := toy_cfg 10 "p8" in
  cf_parties CA = cf_parties CB /\ cf_id2peer CA = cf_id2peer CB /\
  members_only CA (handled toy_env CA split_A) split_M /\
  members_only CB (handled toy_env CB split_B) split_M /\
  size split_M = size (cf_parties CA) /\
  cf_id2peer CA !! "1" = Some "p1" /\ "p1" ∈ split_M /\
  exists jA jB, jA ∈ s_log (run toy_env CA split_A) /\ jB ∈ s_log (run toy_env CB split_B) /\
    is_broadcast (j_wire jA) /\ is_broadcast (j_wire jB) /\
    names "1-KGRound1Message" (j_wire jA) "1" /\ names "1-KGRound1Message" (j_wire jB) "1" /\
    e_sha toy_env (w_body (j_wire jA)) <> e_sha toy_env (w_body (j_wire jB)).
Proof.
  cbn zeta. split; [reflexivity|]. split; [reflexivity|].
  split; [apply members_check; vm_compute; reflexivity|].
  split; [apply members_check; vm_compute; reflexivity|].
  split; [vm_compute; reflexivity|]. split; [reflexivity|].
  split; [apply (bool_decide_eq_true _); vm_compute; reflexivity|].
  exists (Job (to_bytes "r1") "s" "1" true 1 (toy_wire "1" true "KGRound1Message" "good1")),
    (Job (to_bytes "r1x") "s" "1" true 1 (toy_wire "1" true "KGRound1Message" "other1")).
  split; [vm_compute; left|]. split; [vm_compute; left|].
  split; [eexists _, _; reflexivity|]. split; [eexists _, _; reflexivity|].
  split; [split; [eexists _, _; reflexivity|reflexivity]|].
  split; [split; [eexists _, _; reflexivity|reflexivity]|]. vm_compute. discriminate.
Qed.

(** ** C32 *)
(** While a broadcast is pending, a further report of a peer changes nothing. *)
Theorem C32_later_report_ignored :
  forall E C tr o1 o2 p t v it h,
    s_cache (run E C tr) !! v_key v = Some it -> it_votes it !! p = Some h ->
    run E C (tr ++ [LRecv o1 o2 p (MVer t (Some v))]) = run E C tr.
Proof.
  intros E C tr o1 o2 p t v it h Hk Hp. rewrite run_snoc. unfold step.
  destruct (s_crash (run E C tr)); [reflexivity|]. destruct (s_cur (run E C tr)); [reflexivity|].
  unfold ProcessOneMessage. rewrite Hk, Hp. reflexivity.
Qed.
Print Assumptions C32_later_report_ignored.

(** No action changes the report of another peer that is on record, except that
    the sender's own is discarded, and that the entry goes when it is decided. *)
Theorem C32_first_report_stays :
  forall E C tr l k it p h,
    s_cache (run E C tr) !! k = Some it -> it_votes it !! p = Some h -> p <> cf_local C ->
    (exists it', s_cache (run E C (tr ++ [l])) !! k = Some it' /\
      (it_votes it' !! p = Some h \/
       (it_votes it' !! p = None /\
        exists w id, it_msg it' = Some w /\ sent_by w id /\ cf_id2peer C !! id = Some p))) \/
    (l = LFinish /\ s_cache (run E C (tr ++ [l])) !! k = None).
Proof. exact step_keeps. Qed.
Print Assumptions C32_first_report_stays.

(** The identity written in the confirmation is irrelevant. *)
Theorem C32_transport_identity :
  forall E C tr o1 o2 p t key hash id1 id2,
    run E C (tr ++ [LRecv o1 o2 p (MVer t (Some (Confirm id1 key hash)))]) =
    run E C (tr ++ [LRecv o1 o2 p (MVer t (Some (Confirm id2 key hash)))]).
Proof. intros. rewrite !run_snoc. reflexivity. Qed.
Print Assumptions C32_transport_identity.
Example C32_example :
  (map_to_list ∘ it_votes <$> s_cache (run toy_env (toy_cfg 5 "p2")
     [recv "p3" (ver "1-KGRound1Message" "x"); recv "p3" (ver "1-KGRound1Message" "y");
      recv "p4" (MVer TSSKeyGenVerMsg (Some (Confirm "p3" "1-KGRound1Message" "y")))])
    !! "1-KGRound1Message") = Some [("p4", "y"); ("p3", "x")].
Proof. vm_compute. reflexivity. Qed.

(** ** C33 *)
(** A peer that belongs to no party completes a quorum of confirmations; another
    completes the count of finished peers. *)
Theorem C33_outsiders_refuted :
  exists E C px,
    (forall id p, cf_id2peer C !! id = Some p -> p <> px) /\ px ∉ cf_peers C /\ px <> cf_local C /\
    (exists tr1 tr2 m, s_log (run E C (tr1 ++ LRecv [] [] px m :: tr2)) <> [] /\
                       s_log (run E C (tr1 ++ tr2)) = []) /\
    (exists tr1 tr2 m, s_closed (run E C (tr1 ++ LRecv [] [] px m :: tr2)) = 1 /\
                       s_closed (run E C (tr1 ++ tr2)) = 0).
Proof.
  exists toy_env, (toy_cfg 4 "p2"), "evil".
  split.
  { intros id p Hp ->. apply elem_of_list_to_map_2 in Hp. vm_compute in Hp.
    repeat (apply elem_of_cons in Hp as [Hp|Hp]; [discriminate|]). inversion Hp. }
  split; [vm_compute; intros Hin; repeat (apply elem_of_cons in Hin as [Hin|Hin]; [discriminate|]); inversion Hin|].
  split; [discriminate|]. split.
  - exists [recv "p1" (share (toy_wire "1" true "KGRound1Message" "good1"))], [LLoop; LWork 0 None],
      (ver "1-KGRound1Message" "good1").
    split; [vm_compute; discriminate|vm_compute; reflexivity].
  - exists [recv "p1" (MDone (Some true)); recv "p3" (MDone (Some true))], [], (MDone (Some true)).
    split; vm_compute; reflexivity.
Qed.
Print Assumptions C33_outsiders_refuted.

(** ** C34 *)
Theorem C34_accepted_once :
  forall E C tr b1 b2 r id,
    orderly E C tr ->
    (b1, r, id) ∈ s_acclog (run E C tr) -> (b2, r, id) ∈ s_acclog (run E C tr) -> b1 = b2.
Proof. intros E C tr b1 b2 r id Ho. apply (a_once _ _ (acc_run E C tr Ho)). Qed.
Print Assumptions C34_accepted_once.
(** The same share in a second message is skipped; within one message it is
    accepted twice; and when a message is abandoned with an error, its first share
    and the one of the next message are both accepted. *)
Definition dup_history : list label :=
  let m b := recv "p1" (share (toy_wire "1" false "KGRound1Message" b)) in
  [m "good1"; LLoop; LWork 0 None; LAccept 0; LFinish; m "other1"; LLoop; LWork 0 None; LAccept 0; LFinish].
Definition idle (s : state) : bool :=
  match s_pending s, s_updated s with [], [] => true | _, _ => false end.
Lemma orderly_check E C tr :
  forallb (fun i => idle (run E C (take i tr)) || match tr !! i with Some (LRecv _ _ _ _) => false | _ => true end)
    (seq 0 (length tr)) = true -> orderly E C tr.
Proof.
  intros Hb tr1 o1 o2 p m tr2 Heq. rewrite forallb_forall in Hb.
  specialize (Hb (length tr1)). rewrite Heq in Hb at 2 3.
  rewrite take_app, list_lookup_middle, orb_false_r in Hb by reflexivity.
  rewrite Heq in Hb. rewrite app_length in Hb. cbn [length] in Hb.
  assert (Hi : idle (run E C tr1) = true).
  { apply Hb. apply in_seq. lia. }
  unfold idle in Hi. destruct (s_pending (run E C tr1)); [|discriminate].
  destruct (s_updated (run E C tr1)); [auto|discriminate].
Qed.
Example C34_example :
  s_acclog (run toy_env (toy_cfg 4 "p2") dup_history) = [(1, (0, "KGRound1Message", "s"), "1")] /\
  orderly toy_env (toy_cfg 4 "p2") dup_history.
Proof.
  split; [vm_compute; reflexivity|]. apply orderly_check. vm_compute. reflexivity.
Qed.
Example C34_within_bulk_not_covered :
  s_acclog (run toy_env (toy_cfg 4 "p2")
    [recv "p1" (share (toy_wire "1" false "KGRound1Message" "dup")); LLoop; LLoop;
     LWork 0 None; LWork 0 None; LAccept 0; LAccept 0; LFinish]) =
  [(1, (0, "KGRound1Message", "s"), "1"); (1, (0, "KGRound1Message", "s"), "1")].
Proof. vm_compute. reflexivity. Qed.
Example C34_after_error_not_covered :
  s_acclog (run toy_env (toy_cfg 4 "p2")
    [recv "p1" (share (toy_wire "1" false "KGRound1Message" "leak")); LLoop; LLoop;
     recv "p1" (share (toy_wire "1" false "KGRound1Message" "other1")); LLoop;
     LWork 0 None; LWork 0 None; LAccept 0; LAccept 0]) =
  [(1, (0, "KGRound1Message", "s"), "1"); (2, (0, "KGRound1Message", "s"), "1")].
Proof. vm_compute. reflexivity. Qed.

(** ** C35 *)
(** The completion channel has been closed once if there are at least two parties
    and n-1 distinct peers announced completion, and not at all otherwise. *)
Theorem C35_completion_signal :
  forall E C tr,
    let n := Z.of_nat (size (cf_parties C)) in
    exists F : gset string,
      (forall p, p ∈ F <-> handled E C tr p (MDone (Some true))) /\
      s_closed (run E C tr) = (if decide (2 <= n /\ n - 1 <= Z.of_nat (size F))%Z then 1 else 0).
Proof.
  intros E C tr n. destruct (announced_run E C tr) as [Hf Hc].
  exists (s_finished (run E C tr)). split; [exact Hf|]. rewrite Hc. fold n.
  destruct (decide _) as [[H1 H2]|Hno].
  - destruct (Z.leb_spec 2 n); [|lia]. cbn [andb].
    destruct (Z.leb_spec (n - 1) (Z.of_nat (size (s_finished (run E C tr))))); [reflexivity|lia].
  - destruct (Z.leb_spec 2 n); cbn [andb]; [|reflexivity].
    destruct (Z.leb_spec (n - 1) (Z.of_nat (size (s_finished (run E C tr))))); [lia|reflexivity].
Qed.
Print Assumptions C35_completion_signal.

(** A duplicate announcement is reported and has no effect. *)
Theorem C35_duplicate_reported :
  forall E C tr o1 o2 p,
    handled E C tr p (MDone (Some true)) ->
    ProcessOneMessage E C o1 o2 (MDone (Some true)) p (run E C tr) =
      (run E C tr, RErr "duplicated notification").
Proof.
  intros E C tr o1 o2 p Hp. destruct (announced_run E C tr) as [Hf _]. apply Hf in Hp.
  unfold ProcessOneMessage. rewrite bool_decide_eq_true_2 by exact Hp. reflexivity.
Qed.
Print Assumptions C35_duplicate_reported.
(** No announcement panics. *)
Theorem C35_never_closed_twice :
  forall E C tr o1 o2 p,
    s_crash (run E C tr) = false ->
    s_crash (run E C (tr ++ [LRecv o1 o2 p (MDone (Some true))])) = false.
Proof.
  intros E C tr o1 o2 p Hc. rewrite run_snoc.
  eapply (proj2 (announced_step E C tr _ (announced_run E C tr)) Hc). reflexivity.
Qed.
Print Assumptions C35_never_closed_twice.
Example C35_example :
  let d p := recv p (MDone (Some true)) in
  map (fun tr => s_closed (run toy_env (toy_cfg 4 "p2") tr))
    [[d "p1"; d "p3"; d "p3"; d "p1"]; [d "p1"; d "p3"; d "p3"; d "p4"];
     [d "p1"; d "p3"; d "p4"; d "p4"; d "p5"; d "p6"]] = [0; 1; 1].
Proof. vm_compute. reflexivity. Qed.

(** ** C36 *)
(** Party ids without a dash: GetParties numbers the parties. *)
Theorem C36_blame_evidence :
  forall E C tr n,
    (forall id, id ∈ dom (cf_parties C) -> no_dash id) ->
    n ∈ bl_nodes (s_blame (run E C tr)) ->
    (n_data n = [] /\ n_sig n = []) \/
    exists id key w,
      cf_parties C !! id = Some key /\ e_pub E key = Some (n_pub n) /\
      authentic E C (handled E C tr) w id /\ n_data n = w_body w /\ n_sig n = w_sig w.
Proof. intros E C tr n Hwf Hn. exact (i_blame _ _ _ _ (inv_run E C tr) Hwf n Hn). Qed.
Print Assumptions C36_blame_evidence.

(** The party tables of the ceremonies satisfy the hypothesis. *)
Theorem C36_party_ids_have_no_dash :
  forall kb keys loc ps lp p,
    party_table_ok kb keys loc ps lp -> p ∈ ps -> no_dash (p_id p).
Proof.
  intros kb keys loc ps lp p Hok Hp. destruct (pt_keys _ _ _ _ _ Hok p Hp) as (i & k & b & -> & _).
  apply no_dash_itoa.
Qed.
Print Assumptions C36_party_ids_have_no_dash.

Example C36_example :
  bl_nodes (s_blame (run toy_env (toy_cfg 4 "p2")
    [recv "p1" (share (toy_wire "1" true "KGRound1Message" "good1"));
     recv "p3" (ver "1-KGRound1Message" "good1"); LLoop; LWork 0 (Some [Culprit "1" true])])) =
  [Node "1" (to_bytes "good1") (to_bytes "1good1req")].
Proof. vm_compute. reflexivity. Qed.

(** ** C42 *)
(** Any peer crashes the node with a message whose sender is an empty object, and
    a member crashes it with a bulk entry that has no routing. *)
Theorem C42_never_crashes_refuted :
  exists E C,
    (forall p, s_crash (run E C
       [LRecv [] [] p (MShare TSSKeyGenMsg (Some (Wire (Some (Routing FBare [] true)) "" [] [])))]) = true) /\
    (exists p w, (exists id, sent_by w id /\ signed_by E C w id) /\
       s_crash (run E C [LRecv [] [] p (MShare TSSKeyGenMsg (Some w)); LLoop]) = true).
Proof.
  exists toy_env, (toy_cfg 4 "p2"). split; [intros p; reflexivity|].
  exists "p1", (toy_wire "1" false "KGRound1Message" "norouting"). split; [|vm_compute; reflexivity].
  exists "1". split; [eexists _, _; reflexivity|]. exists (to_bytes "1"). split; reflexivity.
Qed.
Print Assumptions C42_never_crashes_refuted.

(** ** C70 *)
(** These are the only ways: if every message names its senders, inside and
    outside, no history crashes the node. *)
Theorem C70_named_senders_no_crash :
  forall E C tr,
    (forall p m w, handled E C tr p m -> carries m w -> wire_ok E w) ->
    s_crash (run E C tr) = false.
Proof.
  intros E C tr Hok. destruct (s_crash (run E C tr)) eqn:Hc; [|reflexivity].
  apply crash_cause in Hc as (p & m & w & Hh & Hcar & Hno). exfalso. eauto.
Qed.
Print Assumptions C70_named_senders_no_crash.
Example C70_example :
  wire_ok toy_env (toy_wire "1" true "KGRound1Message" "good1") /\
  wire_ok toy_env (toy_wire "1" true "KGRound1Message" "garbage").
Proof.
  split; (split; [intros to bc; discriminate|intros l Hl]).
  - change (Some [Bulk (to_bytes "r1") "s" (Some (Routing (FId "1") [] true))] = Some l) in Hl.
    injection Hl as <-. repeat constructor. eexists _, _, _. reflexivity.
  - change (None = Some l) in Hl. discriminate.
Qed.

(** ** C43 *)
(** A control message with a share that has any effect answers a request that was
    sent, and a second one with the same hash needs a further request. *)
Theorem C43_unsolicited_ignored :
  forall E C tr o1 o2 p c w,
    Forall well_typed_label tr ->
    c_msg c = Some w ->
    run E C (tr ++ [LRecv o1 o2 p (MCtl (Some c))]) <> run E C tr ->
    exists o, o ∈ s_out (run E C tr) /\ request_for (c_hash c) o.
Proof.
  intros E C tr o1 o2 p c w Ht Hc Hne. rewrite run_snoc in Hne.
  apply control_effect with (w := w) in Hne as [Hin _]; [|exact Hc].
  destruct (run_grows E C [] tr Ht) as (outs & Ho & Hreq). cbn [app] in *.
  destruct (Hreq _ Hin) as [Hx|(o & Hoin & Hr)].
  - exfalso. cbn in Hx. set_solver.
  - exists o. split; [|exact Hr]. rewrite Ho. apply elem_of_app. right. exact Hoin.
Qed.
Print Assumptions C43_unsolicited_ignored.

Theorem C43_answered_once :
  forall E C tr1 tr2 o1 o2 p c w o1' o2' p' c' w',
    Forall well_typed_label tr1 -> Forall well_typed_label tr2 ->
    share_type (c_type c) ->
    c_msg c = Some w -> c_msg c' = Some w' -> c_hash c' = c_hash c ->
    run E C (tr1 ++ [LRecv o1 o2 p (MCtl (Some c))]) <> run E C tr1 ->
    let tr := tr1 ++ [LRecv o1 o2 p (MCtl (Some c))] ++ tr2 in
    run E C (tr ++ [LRecv o1' o2' p' (MCtl (Some c'))]) <> run E C tr ->
    exists outs o, s_out (run E C tr) = s_out (run E C tr1) ++ outs /\
      o ∈ outs /\ request_for (c_hash c) o.
Proof.
  intros E C tr1 tr2 o1 o2 p c w o1' o2' p' c' w' Ht1 Ht2 Hct Hc Hc' Hh Hne tr Hne'.
  rewrite run_snoc in Hne, Hne'.
  apply control_effect with (w := w') in Hne' as [Hin _]; [|exact Hc'].
  pose proof Hne as Heff. apply control_effect with (w := w) in Heff as [_ Heq]; [|exact Hc].
  assert (H1 : grows (taken (c_hash c) (run E C tr1)) (run E C (tr1 ++ [LRecv o1 o2 p (MCtl (Some c))]))).
  { rewrite run_snoc, Heq. apply grows_processTSSMsg. exact Hct. }
  assert (H2 : grows (taken (c_hash c) (run E C tr1)) (run E C tr)).
  { eapply grows_trans; [exact H1|]. unfold tr. rewrite app_assoc. apply run_grows. exact Ht2. }
  destruct H2 as (outs & Ho & Hreq). rewrite Hh in Hin.
  destruct (Hreq _ Hin) as [Hx|(o & Hoin & Hr)].
  - exfalso. cbn in Hx. set_solver.
  - exists outs, o. auto.
Qed.
Print Assumptions C43_answered_once.
(** Two confirmations of a broadcast not received make the node of a party of
    five ask for it; the answer is taken once. *)
Definition ctl (h k : string) (w : option wire) : inmsg := MCtl (Some (Control h k TSSKeyGenMsg w)).
Example C43_example :
  let C := toy_cfg 5 "p2" in
  let k := "1-KGRound1Message" in
  let w := toy_wire "1" true "KGRound1Message" "good1" in
  let tr := [recv "p3" (ver k "good1"); recv "p4" (ver k "good1")] in
  s_out (run toy_env C tr) = [Out (ctl "good1" k None) ["p4"; "p3"]] /\
  s_cur (run toy_env C (tr ++ [recv "p5" (ctl "good1" k (Some w))])) <> None /\
  s_cur (run toy_env C [recv "p3" (ver k "good1"); recv "p5" (ctl "good1" k (Some w))]) = None.
Proof. vm_compute. split; [reflexivity|]. split; [discriminate|reflexivity]. Qed.

(** ** C44 *)
(** A share of the broadcast round KGRound1 is applied without a single
    confirmation, because the unsigned flag of the outer routing says unicast. *)
Theorem C44_hash_check_bypass_refuted :
  exists E C tr j r,
    j ∈ s_log (run E C tr) /\ j_bcast j = true /\
    GetMsgRound E (j_body j) (j_from j) (j_bcast j) (j_ident j) = Some r /\ snd (fst r) = "KGRound1Message" /\
    forall id, ~ has_quorum E C (handled E C tr) (j_wire j) id.
Proof.
  set (tr := [recv "p1" (share (toy_wire "1" false "KGRound1Message" "good1")); LLoop; LWork 0 None]).
  exists toy_env, (toy_cfg 4 "p2"), tr,
    (Job (to_bytes "r1") "s" "1" true 1 (toy_wire "1" false "KGRound1Message" "good1")),
    (0, "KGRound1Message", "s").
  split; [vm_compute; left|]. split; [reflexivity|]. split; [reflexivity|]. split; [reflexivity|].
  intros id (k & op & votes & _ & _ & Hrep & _ & Hsz & _).
  assert (Hh : forall p m, handled toy_env (toy_cfg 4 "p2") tr p m ->
            m = share (toy_wire "1" false "KGRound1Message" "good1")).
  { intros p m (tr1 & o1 & o2 & tr2 & Heq & _).
    assert (Hin : LRecv o1 o2 p m ∈ tr) by (rewrite Heq; apply elem_of_app; right; left).
    apply elem_of_cons in Hin as [Hin|Hin]; [injection Hin; congruence|].
    apply elem_of_cons in Hin as [Hin|Hin]; [discriminate|].
    apply elem_of_cons in Hin as [Hin|Hin]; [discriminate|]. inversion Hin. }
  assert (Hnone : votes = ∅).
  { apply map_eq. intros p. rewrite lookup_empty. destruct (votes !! p) as [h|] eqn:Hp; [|reflexivity].
    exfalso. destruct (Hrep p h Hp) as [(t & v & Hm & _)|(_ & w & id' & ((q & m & Hm & Hc) & _) & (f & to & Hb) & _)].
    - apply Hh in Hm. discriminate.
    - apply Hh in Hm. subst m. destruct Hc as [(t & Hc)|(c & Hc & _)]; [|discriminate].
      injection Hc as _ <-. vm_compute in Hb. discriminate. }
  rewrite Hnone, map_size_empty in Hsz. vm_compute in Hsz. congruence.
Qed.
Print Assumptions C44_hash_check_bypass_refuted.

(** ** C66 *)
(** In a party of five, sender 1 sends one message and confirms nothing; two
    reports of unrelated hashes get it blamed. *)
Theorem C66_honest_sender_blamed_refuted :
  exists E C tr w,
    (forall p m w', handled E C tr p m -> carries m w' -> w' = w) /\
    sent_by w "1" /\ signed_by E C w "1" /\ is_broadcast w /\
    (forall t v, ~ handled E C tr "p1" (MVer t (Some v))) /\ cf_id2peer C !! "1" = Some "p1" /\
    bl_reason (s_blame (run E C tr)) = "hash check failed" /\
    map n_pub (bl_nodes (s_blame (run E C tr))) = ["1"].
Proof.
  set (w := toy_wire "1" true "KGRound1Message" "good1").
  set (tr := [recv "p1" (share w); recv "p3" (ver "1-KGRound1Message" "x"); recv "p4" (ver "1-KGRound1Message" "y")]).
  exists toy_env, (toy_cfg 5 "p2"), tr, w.
  assert (Hh : forall p m, handled toy_env (toy_cfg 5 "p2") tr p m ->
            (p = "p1" /\ m = share w) \/ (p = "p3" /\ m = ver "1-KGRound1Message" "x") \/
            (p = "p4" /\ m = ver "1-KGRound1Message" "y")).
  { intros p m (tr1 & o1 & o2 & tr2 & Heq & _).
    assert (Hin : LRecv o1 o2 p m ∈ tr) by (rewrite Heq; apply elem_of_app; right; left).
    apply elem_of_cons in Hin as [Hin|Hin]; [injection Hin; auto|].
    apply elem_of_cons in Hin as [Hin|Hin]; [injection Hin; auto|].
    apply elem_of_cons in Hin as [Hin|Hin]; [injection Hin; auto|]. inversion Hin. }
  split.
  { intros p m w' Hm Hc. apply Hh in Hm as [[_ ->]|[[_ ->]|[_ ->]]];
      destruct Hc as [(t & Hc)|(c & Hc & _)]; try discriminate. injection Hc. congruence. }
  split; [eexists _, _; reflexivity|]. split; [exists (to_bytes "1"); split; reflexivity|].
  split; [eexists _, _; reflexivity|]. split.
  { intros t v Hm. apply Hh in Hm as [[_ Hx]|[[Hx _]|[Hx _]]]; discriminate. }
  split; [reflexivity|]. split; vm_compute; reflexivity.
Qed.
Print Assumptions C66_honest_sender_blamed_refuted.

(** ** C71 *)
(** What holds (the run of C66 is a case): handling a message changes the blame only if the sender's own
    peer reported a hash for the sender's message (or the sender has no peer), or
    two different peers reported hashes that differ from the message's. *)
Theorem C71_hash_check_grounds :
  forall E C tr o1 o2 p m,
    let H := handled E C (tr ++ [LRecv o1 o2 p m]) in
    s_blame (run E C (tr ++ [LRecv o1 o2 p m])) <> s_blame (run E C tr) ->
    exists k w id (votes : gmap string string),
      authentic E C H w id /\ is_broadcast w /\ names k w id /\
      (forall q h, votes !! q = Some h -> reported E C H q k h) /\
      (cf_id2peer C !! id = None \/
       (exists op h, cf_id2peer C !! id = Some op /\ votes !! op = Some h) \/
       (exists p1 p2 h1 h2, p1 <> p2 /\ votes !! p1 = Some h1 /\ votes !! p2 = Some h2 /\
          h1 <> e_sha E (w_body w) /\ h2 <> e_sha E (w_body w))).
Proof. intros E C tr o1 o2 p m H. exact (hash_blame E C tr o1 o2 p m). Qed.
Print Assumptions C71_hash_check_grounds.

(** ** C67 *)
(** A broadcast of a member and the confirmations of threshold-1 other peers,
    none of them the sender, may arrive in any order: when the last one is in, the
    shares of the message are being handed to the local parties. *)
Theorem C67_agreed_broadcast_applied :
  forall E C tr w owner to kb op l P es lbs,
    let k := String.append owner (String.append "-" (w_round w)) in
    w_routing w = Some (Routing (FId owner) to true) ->
    cf_parties C !! owner = Some kb ->
    e_verify E kb (w_body w ++ to_bytes (cf_msgid C)) (w_sig w) = true ->
    cf_id2peer C !! owner = Some op ->
    e_dec_bulk E (w_body w) = Some l ->
    s_crash (run E C tr) = false -> s_cur (run E C tr) = None -> s_cache (run E C tr) !! k = None ->
    NoDup P -> op ∉ P -> cf_local C ∉ P -> op <> cf_local C ->
    Z.of_nat (length P) = (threshold_of (Z.of_nat (size (cf_parties C))) - 1)%Z ->
    es ≡ₚ None :: map Some P ->
    Forall2 (receipt w k (e_sha E (w_body w))) es lbs ->
    s_cur (run E C (tr ++ lbs)) = Some (Cur l (Some k) w) /\ s_crash (run E C (tr ++ lbs)) = false.
Proof.
  intros E C tr w owner to kb op l P es lbs k Hr Hk Hsig Hop Hl Hcr Hcu Hfresh HP Hno Hloc Hol Hlen Hperm Hf.
  unfold run. rewrite foldl_app. fold (run E C tr).
  assert (Hperm' : rev es ++ [] ≡ₚ None :: map Some P).
  { rewrite app_nil_r, <- Permutation_rev. exact Hperm. }
  eapply (progress E C w owner to kb op l Hr Hk Hsig Hop Hl es []).
  - constructor; [exact Hcr|exact Hcu|exact Hfresh].
  - exact Hf.
  - rewrite Hperm'. cbn. apply NoDup_cons. split.
    + intros Hin. apply elem_of_list_fmap in Hin as (e & Hx & He).
      apply elem_of_list_fmap in He as (p & -> & Hp). cbn in Hx. apply Hloc. rewrite Hx. exact Hp.
    + rewrite <- list_fmap_compose. assert (Hid : (peer_of C ∘ Some) <$> P = P) by apply list_fmap_id.
      rewrite Hid. exact HP.
  - rewrite Hperm'. apply NoDup_cons. split.
    + intros Hin. apply elem_of_list_fmap in Hin as (p & Hx & _). discriminate.
    + apply NoDup_fmap_2; [intros ? ? Heq; injection Heq; auto|exact HP].
  - rewrite Hperm'. cbn. intros Hin. apply elem_of_cons in Hin as [Hin|Hin]; [congruence|].
    apply elem_of_list_fmap in Hin as (e & Hx & He).
    apply elem_of_list_fmap in He as (p & -> & Hp). cbn in Hx. apply Hno. rewrite Hx. exact Hp.
  - unfold cf_threshold. lia.
  - intros ->. apply Permutation_nil in Hperm. discriminate.
  - rewrite Hperm'. left.
  - rewrite Hperm'. cbn [length]. rewrite map_length. unfold cf_threshold. lia.
Qed.
Print Assumptions C67_agreed_broadcast_applied.
Example C67_example :
  let C := toy_cfg 5 "p2" in
  let k := "1-KGRound1Message" in
  let w := toy_wire "1" true "KGRound1Message" "good1" in
  map (fun tr => s_cur (run toy_env C tr))
    [[recv "p3" (ver k "good1"); recv "p1" (share w); recv "p4" (ver k "good1")];
     [recv "p3" (ver k "good1"); recv "p4" (ver k "good1"); recv "p1" (share w)];
     [recv "p3" (ver k "good1"); recv "p1" (share w)]] =
  [Some (Cur [Bulk (to_bytes "r1") "s" (Some (Routing (FId "1") [] true))] (Some k) w);
   Some (Cur [Bulk (to_bytes "r1") "s" (Some (Routing (FId "1") [] true))] (Some k) w); None].
Proof. vm_compute. reflexivity. Qed.
