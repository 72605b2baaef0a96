(** Property theorems: the ceremony messages on the wire (C42, C139-C141). *)
From Coq Require Import ZArith NArith Ascii String List Lia.
From stdpp Require Import base list strings gmap.
From Verif Require L_Stream.
From Verif Require Import Base L_Base S_Utf8 L_Utf8 M_Json L_Json S_Json L_JsonSpec M_Base64 M_Stream S_Stream S_Threshold M_Comm S_Comm L_Comm P_Comm
  M_Common S_Common L_Common P_Common M_OutCh S_OutCh M_Wire S_Wire L_Wire L_Wire2.

(** ** C139 *)
(** The bytes a node sends for a message are taken by the receiver to be that message,
    of that type and for that request. *)
Theorem C139_share_received :
  forall t msgID w, share_type t -> text msgID -> wmsg_ok w ->
    topic_of (share_data t msgID w) = Some (N.to_nat (number_of t), msgID) /\
    inbound (share_data t msgID w) = Some (MShare t (Some (wire_of w))).
Proof.
  intros t msgID w Ht Hx Hw. unfold share_data. split; [apply topic_wrap; [apply number_lt|exact Hx]|].
  rewrite inbound_wrap by (apply number_lt || exact Hx). unfold inmsg_of. cbn [wr_type wr_payload]. rewrite type_number.
  assert (Hd : wmsg_dec (json_enc (wmsg_json w)) = Some w).
  { unfold wmsg_dec. rewrite unmarshal_enc by (apply wmsg_texts, Hw || deep wmsg_nesting). apply put_wmsg_json, Hw. }
  destruct Ht as [-> | ->]; rewrite Hd; reflexivity.
Qed.
Print Assumptions C139_share_received.

Theorem C139_confirmation_received :
  forall t msgID c, ver_type t -> text msgID -> confirm_ok c ->
    topic_of (confirm_data t msgID c) = Some (N.to_nat (number_of t), msgID) /\
    inbound (confirm_data t msgID c) = Some (MVer t (Some c)).
Proof.
  intros t msgID c Ht Hx Hc. unfold confirm_data. split; [apply topic_wrap; [apply number_lt|exact Hx]|].
  rewrite inbound_wrap by (apply number_lt || exact Hx). unfold inmsg_of. cbn [wr_type wr_payload]. rewrite type_number.
  assert (Hd : confirm_dec (json_enc (confirm_json c)) = Some c).
  { unfold confirm_dec. rewrite unmarshal_enc by (apply confirm_texts, Hc || deep confirm_nesting). apply put_confirm_json. }
  destruct Ht as [-> | ->]; rewrite Hd; reflexivity.
Qed.
Print Assumptions C139_confirmation_received.

Theorem C139_task_done_received :
  forall msgID, text msgID -> topic_of (done_data msgID) = Some (5, msgID) /\ inbound (done_data msgID) = Some (MDone (Some true)).
Proof.
  intros msgID Hx. unfold done_data. split; [apply topic_wrap; [apply number_lt|exact Hx]|].
  rewrite inbound_wrap by (apply number_lt || exact Hx). unfold inmsg_of. cbn [wr_type wr_payload]. rewrite type_number.
  unfold done_dec. rewrite unmarshal_enc by (apply done_texts || deep done_nesting). rewrite put_done_json. reflexivity.
Qed.
Print Assumptions C139_task_done_received.

(** Requests for a share and the answers to them. *)
Theorem C139_control_received :
  forall msgID c, text msgID -> tcontrol_ok c ->
    topic_of (control_data msgID c) = Some (4, msgID) /\
    inbound (control_data msgID c) = Some (MCtl (Some (control_of c))).
Proof.
  intros msgID c Hx Hc. unfold control_data. split; [apply topic_wrap; [apply number_lt|exact Hx]|].
  rewrite inbound_wrap by (apply number_lt || exact Hx). unfold inmsg_of. cbn [wr_type wr_payload]. rewrite type_number.
  assert (Hd : control_dec (json_enc (control_json c)) = Some c).
  { unfold control_dec. rewrite unmarshal_enc by (apply control_texts, Hc || deep control_nesting). apply put_control_json, Hc. }
  rewrite Hd. reflexivity.
Qed.
Print Assumptions C139_control_received.

(** The shares in a bulk message are read back, each with its session and routing. *)
Theorem C139_bulk_read_back :
  forall E l, Forall bmsg_ok l -> e_dec_bulk (wire_env E) (bulk_enc l) = Some (map bulk_of l).
Proof. intros E l Hl. cbn [e_dec_bulk wire_env]. rewrite bulk_enc_dec by exact Hl. reflexivity. Qed.
Print Assumptions C139_bulk_read_back.

Definition ex_party (id : string) (i : Z) : option party := Some (Party (Some (PParty id "" (to_bytes id))) i).
Definition ex_wmsg : wmsg :=
  WMsg (Some (MRouting (ex_party "1" 0) [ex_party "2" 1] false false false)) "KGRound2Message1" (to_bytes "[]") (to_bytes "s").
Example C139_example :
  wmsg_ok ex_wmsg /\ tcontrol_ok (TControl "h" "1-KGRound1Message" 0 (Some ex_wmsg)) /\
  of_bytes (json_enc (wmsg_json ex_wmsg)) =
    "{""routing"":{""From"":{""id"":""1"",""key"":""MQ=="",""index"":0},""To"":[{""id"":""2"",""key"":""Mg=="",""index"":1}],""IsBroadcast"":false,""IsToOldCommittee"":false,""IsToOldAndNewCommittees"":false},""round_info"":""KGRound2Message1"",""message"":""W10="",""signature"":""cw==""}".
Proof.
  assert (H : wmsg_ok ex_wmsg).
  { assert (Hp : forall id i, id <> ""%string -> go_int i -> text id -> party_ok (ex_party id i)).
    { intros id i Hid Hi Ht q j [= <- <-]. split; [exact Hi|]. split; [intros [= Hx]; congruence|].
      intros pp [= <-]. split; [exact Ht|]. apply ascii_string. reflexivity. }
    split; [|apply ascii_string; reflexivity]. intros r [= <-].
    split; [apply Hp; [discriminate|split; [discriminate|reflexivity]|apply ascii_string; reflexivity]|].
    constructor; [apply Hp; [discriminate|split; [discriminate|reflexivity]|apply ascii_string; reflexivity]|constructor]. }
  split; [exact H|]. split; [|vm_compute; reflexivity]. split; [reflexivity|]. split; [intros w [= <-]; exact H|].
  split; apply ascii_string; reflexivity.
Qed.

(** ** C140 *)
(** The bytes signed for a bulk message fix the shares and the request: no other split
    into a readable body and a request id gives the same bytes. *)
Theorem C140_signed_bytes :
  forall E l id body id' bl,
    Forall bmsg_ok l -> no_blank id ->
    body ++ to_bytes id' = bulk_enc l ++ to_bytes id ->
    e_dec_bulk (wire_env E) body = Some bl ->
    body = bulk_enc l /\ id' = id /\ bl = map bulk_of l.
Proof.
  intros E l id body id' bl Hl Hb He Hd.
  assert (Hx : exists v, json_dec body = Some v).
  { cbn [e_dec_bulk wire_env] in Hd. unfold bulk_dec, unmarshal in Hd. destruct (json_dec body) as [v|]; [eauto|discriminate]. }
  destruct Hx as [v Hv]. destruct (signed_bytes _ _ _ _ _ Hb He Hv) as [-> ->].
  split; [reflexivity|]. split; [reflexivity|].
  change (json_enc (JArr (map bmsg_json l))) with (bulk_enc l) in Hd.
  rewrite C139_bulk_read_back in Hd by exact Hl. congruence.
Qed.
Print Assumptions C140_signed_bytes.

(** If a member's signature is only ever on bulk messages its own node sent, then every
    share handed over under that signature was sent by this node, in a request with the
    same id: shares of one request cannot be replayed in another. *)
Theorem C140_no_replay :
  forall E C tr j full (Runs : oenv -> list (emission * order * order) -> Prop) kb id,
    (forall OE otr, Runs OE otr -> honest_run full OE otr /\ no_blank (oe_msgid OE)) ->
    (forall data sig, e_verify E kb data sig = true ->
       exists OE otr t, Runs OE otr /\ t ∈ os_sent (orun OE otr) /\ data = t_body t ++ to_bytes (oe_msgid OE)) ->
    j ∈ s_log (run (wire_env E) C tr) ->
    sent_by (j_wire j) id -> cf_parties C !! id = Some kb ->
    exists OE otr t e n, Runs OE otr /\ oe_msgid OE = cf_msgid C /\ t ∈ os_sent (orun OE otr) /\
      w_body (j_wire j) = t_body t /\ e ∈ t_list t /\ j = job_of n (j_wire j) e.
Proof.
  intros E C tr j full Runs kb id HR Hforge Hj Hby Hkb.
  destruct (C28_only_authentic_shares _ _ _ _ Hj) as (id' & (_ & Hby' & key & Hkey & Hsig) & Hl & _).
  assert (Hid : id' = id).
  { destruct Hby as (to & bc & H1), Hby' as (to' & bc' & H2). congruence. }
  subst id'. rewrite Hkb in Hkey. injection Hkey as <-. cbn [e_verify wire_env] in Hsig.
  destruct (Hforge _ _ Hsig) as (OE & otr & t & Hrun & Ht & He).
  destruct (HR _ _ Hrun) as ((Henc & Hem) & Hnb).
  destruct (orun_fine OE (renders full) otr Hem) as (_ & _ & Hfine). rewrite Forall_forall in Hfine.
  destruct (Hfine t Ht) as (Hq & Hbody & _).
  destruct Hl as (bl & b & to & Hdec & Hb & Hb1 & Hb2 & Hb3).
  rewrite Hbody, Henc in He.
  assert (Hok : Forall bmsg_ok (map (bmsg_of full) (t_list t))).
  { apply Forall_forall. intros x Hx. apply elem_of_list_fmap in Hx as (e & -> & Hx). rewrite Forall_forall in Hq. specialize (Hq e Hx).
    split; [intros r [= <-]; apply renders_ok, Hq|apply Hq]. }
  destruct (C140_signed_bytes E _ _ _ _ _ Hok Hnb He Hdec) as (Hw & Hm & ->).
  apply elem_of_list_fmap in Hb as (x & -> & Hx). apply elem_of_list_fmap in Hx as (e & -> & Hx).
  assert (Hre : renders full e) by (rewrite Forall_forall in Hq; auto).
  cbn [bulk_of bmsg_of b_body b_ident b_routing bm_body bm_ident bm_routing] in Hb1, Hb2, Hb3.
  cbn in Hb3. rewrite (renders_of _ _ Hre) in Hb3. injection Hb3 as Hf Hto Hbc.
  exists OE, otr, t, e, (j_batch j). split; [exact Hrun|]. split; [auto|]. split; [exact Ht|].
  split; [rewrite Hw, Hbody, Henc; reflexivity|]. split; [exact Hx|].
  destruct j as [jb ji jf jc jn jw]. unfold job_of. cbn in *. congruence.
Qed.
Print Assumptions C140_no_replay.

(** ** C141 *)
(** What an honest node sends reaches the request with the same id at the receiver as
    the same wire message, with the same shares. *)
Theorem C141_delivered :
  forall E full OE otr t ty h frags f rest c,
    honest_run full OE otr -> text (oe_msgid OE) -> t ∈ os_sent (orun OE otr) -> text (t_round t) -> share_type ty ->
    let data := share_data ty (oe_msgid OE) (wmsg_sent full t) in
    (N.of_nat (length data) <= limit)%N -> frame data f -> concat frags = f ++ rest ->
    subscribed (N.to_nat (number_of ty)) (oe_msgid OE) h c ->
    readFromStream topic_of frags (run_subs h) = Received (oe_msgid OE) (Some (c, data)) /\
    exists w bl, inbound data = Some (MShare ty (Some w)) /\
      w_routing w = Some (Routing (FId (or_from (t_routing t))) (map d_id (or_to (t_routing t))) (or_bcast (t_routing t))) /\
      w_round w = t_round t /\ w_body w = t_body t /\ w_sig w = t_sig t /\
      e_dec_bulk (wire_env E) (w_body w) = Some bl /\ Forall2 received_entry (t_list t) bl.
Proof.
  intros E full OE otr t ty h frags f rest c (Henc & Hem) Hx Ht Hrt Hty data Hlim Hf Hc Hs.
  destruct (orun_fine OE (renders full) otr Hem) as (_ & _ & Hfine). rewrite Forall_forall in Hfine.
  destruct (Hfine t Ht) as (Hq & Hbody & _ & e & r & Hlist & Hr).
  assert (He : renders full e) by (rewrite Hlist in Hq; inversion Hq; assumption).
  assert (Hok : wmsg_ok (wmsg_sent full t)).
  { split; [|exact Hrt]. intros x Hy. unfold wmsg_sent in Hy. rewrite Hlist in Hy. injection Hy as <-. apply renders_ok, He. }
  destruct (C139_share_received ty (oe_msgid OE) _ Hty Hx Hok) as [Htop Hin]. fold data in Htop, Hin.
  split; [apply (proj1 (C15_delivery topic_of h frags data f rest _ _ Hlim Hf Hc Htop)), Hs|].
  destruct (entries_dec E full (t_list t) Hq) as (bl & Hbl & Hall).
  exists (wire_of (wmsg_sent full t)), bl. split; [exact Hin|]. unfold wmsg_sent. rewrite Hlist.
  cbn [head wire_of wm_routing wm_round wm_body wm_sig w_routing w_round w_body w_sig]. cbn.
  rewrite (renders_of _ _ He), Hr. repeat split; try reflexivity; [|rewrite <- Hlist; exact Hall].
  rewrite Hbody, Henc. exact Hbl.
Qed.
Print Assumptions C141_delivered.

(** A unicast of an honest member, taken by an idle receiver, is handed to its local
    parties share by share. *)
Theorem C141_unicast_applied :
  forall E C tr full OE otr t ty kb o1 o2 p op m,
    honest_run full OE otr -> text (oe_msgid OE) -> t ∈ os_sent (orun OE otr) -> text (t_round t) -> share_type ty ->
    inbound (share_data ty (oe_msgid OE) (wmsg_sent full t)) = Some m ->
    cf_msgid C = oe_msgid OE -> or_bcast (t_routing t) = false ->
    cf_parties C !! or_from (t_routing t) = Some kb -> cf_id2peer C !! or_from (t_routing t) = Some op ->
    (forall data sig, oe_sign OE data = Some sig -> e_verify E kb data sig = true) ->
    let s := run (wire_env E) C tr in
    s_crash s = false -> s_cur s = None -> s_culprits s = [] -> s_pending s = [] ->
    Forall (takable (wire_env E) C s) (t_list t) ->
    exists w n, m = MShare ty (Some w) /\
      s_log (run (wire_env E) C (tr ++ [LRecv o1 o2 p m] ++ repeat LLoop (length (t_list t)) ++
                                  repeat (LWork 0 None) (length (t_list t)))) =
        s_log s ++ map (job_of n w) (t_list t).
Proof.
  intros E C tr full OE otr t ty kb o1 o2 p op m (Henc & Hem) Hx Ht Hrt Hty Hm Hid Hbc Hkb Hop Hsign s Hcr Hcu Hcl Hpe Htk.
  destruct (orun_fine OE (renders full) otr Hem) as (_ & _ & Hfine). rewrite Forall_forall in Hfine.
  destruct (Hfine t Ht) as (Hq & Hbody & Hsig & e & r & Hlist & Hr).
  assert (He : renders full e) by (rewrite Hlist in Hq; inversion Hq; assumption).
  assert (Hok : wmsg_ok (wmsg_sent full t)).
  { split; [|exact Hrt]. intros x Hy. unfold wmsg_sent in Hy. rewrite Hlist in Hy. injection Hy as <-. apply renders_ok, He. }
  destruct (C139_share_received ty (oe_msgid OE) _ Hty Hx Hok) as [_ Hin]. rewrite Hin in Hm. injection Hm as <-.
  destruct (entries_dec E full (t_list t) Hq) as (bl & Hbl & Hall).
  set (w := wire_of (wmsg_sent full t)).
  assert (Hw : w_routing w = Some (Routing (FId (or_from (t_routing t))) (map d_id (or_to (t_routing t))) false)).
  { unfold w, wmsg_sent. rewrite Hlist. cbn. rewrite (renders_of _ _ He), <- Hr, Hbc. reflexivity. }
  assert (Hwb : w_body w = entries_enc full (t_list t)) by (unfold w; cbn; rewrite Hbody, Henc; reflexivity).
  exists w, (S (s_batch s)). split; [reflexivity|].
  unfold run. rewrite !foldl_app. fold (run (wire_env E) C tr). fold s. cbn [foldl].
  set (s1 := set_cur (Some (Cur bl None w)) (set_batch S (SetLastUnicastPeer op (w_round w) s))).
  assert (Hstep : step (wire_env E) C s (LRecv o1 o2 p (MShare ty (Some w))) = s1).
  { unfold step. rewrite Hcr, Hcu. cbn [ProcessOneMessage]. unfold processTSSMsg. rewrite Hw, Hkb.
    assert (Hv : verifySignature (wire_env E) C kb (w_body w) (w_sig w) = true).
    { unfold verifySignature. cbn [e_verify wire_env]. rewrite Hid. apply Hsign. unfold w. cbn. exact Hsig. }
    rewrite Hv. unfold updateLocal. rewrite Hw, Hkb, Hop, Hwb, Hbl. reflexivity. }
  rewrite Hstep. rewrite <- foldl_app.
  rewrite (apply_all (wire_env E) C (t_list t) bl None w s1 Hall); try assumption; reflexivity.
Qed.
Print Assumptions C141_unicast_applied.

(** A broadcast of an honest member and the confirmations of threshold-1 other peers,
    received in any order, are handed to the local parties share by share. *)
Theorem C141_broadcast_applied :
  forall E C tr full OE otr t kb op P es lbs,
    honest_run full OE otr -> text (oe_msgid OE) -> t ∈ os_sent (orun OE otr) -> text (t_round t) ->
    text (e_sha E (t_body t)) ->
    cf_msgid C = oe_msgid OE -> or_bcast (t_routing t) = true ->
    cf_parties C !! or_from (t_routing t) = Some kb -> cf_id2peer C !! or_from (t_routing t) = Some op ->
    (forall data sig, oe_sign OE data = Some sig -> e_verify E kb data sig = true) ->
    let s := run (wire_env E) C tr in
    let k := String.append (or_from (t_routing t)) (String.append "-" (t_round t)) in
    s_crash s = false -> s_cur s = None -> s_cache s !! k = None ->
    NoDup P -> op ∉ P -> cf_local C ∉ P -> op <> cf_local C ->
    Z.of_nat (length P) = (threshold_of (Z.of_nat (size (cf_parties C))) - 1)%Z ->
    es ≡ₚ None :: map Some P ->
    Forall2 (arrival full (oe_msgid OE) t k (e_sha E (t_body t))) es lbs ->
    let s' := run (wire_env E) C (tr ++ lbs) in
    s_culprits s' = [] -> s_pending s' = [] -> Forall (takable (wire_env E) C s') (t_list t) ->
    exists w n,
      s_log (run (wire_env E) C ((tr ++ lbs) ++ repeat LLoop (length (t_list t)) ++
                                  repeat (LWork 0 None) (length (t_list t)))) =
        s_log s' ++ map (job_of n w) (t_list t).
Proof.
  intros E C tr full OE otr t kb op P es lbs (Henc & Hem) Hmt Ht Hrt Hsha Hid Hbc Hkb Hop Hsign s k Hcr Hcu Hfr HP Hno Hloc Hol Hlen Hperm Hf s' Hcl Hpe Htk.
  destruct (orun_fine OE (renders full) otr Hem) as (_ & _ & Hfine). rewrite Forall_forall in Hfine.
  destruct (Hfine t Ht) as (Hq & Hbody & Hsig & e & r & Hlist & Hr).
  assert (He : renders full e) by (rewrite Hlist in Hq; inversion Hq; assumption).
  assert (Hok : wmsg_ok (wmsg_sent full t)).
  { split; [|exact Hrt]. intros x Hy. unfold wmsg_sent in Hy. rewrite Hlist in Hy. injection Hy as <-. apply renders_ok, He. }
  destruct (entries_dec E full (t_list t) Hq) as (bl & Hbl & Hall).
  set (w := wire_of (wmsg_sent full t)).
  assert (Hw : w_routing w = Some (Routing (FId (or_from (t_routing t))) (map d_id (or_to (t_routing t))) true)).
  { unfold w, wmsg_sent. rewrite Hlist. cbn. rewrite (renders_of _ _ He), <- Hr, Hbc. reflexivity. }
  assert (Hwb : w_body w = entries_enc full (t_list t)) by (unfold w; cbn; rewrite Hbody, Henc; reflexivity).
  assert (Hkt : text k).
  { destruct He as ((q & i & _ & _ & _ & _ & Hft & _) & _). unfold k. rewrite Hr.
    apply text_app; [exact Hft|]. apply text_app; [apply ascii_string; reflexivity|exact Hrt]. }
  assert (Hrec : Forall2 (receipt w k (e_sha (wire_env E) (w_body w))) es lbs).
  { eapply Forall2_impl; [exact Hf|]. intros [q|] l; cbn [arrival receipt].
    - intros (o1 & o2 & ty & x & m & Hty & Hxt & Hin & ->).
      destruct (C139_confirmation_received ty (oe_msgid OE) (Confirm x k (e_sha E (t_body t))) Hty Hmt (conj Hxt (conj Hkt Hsha))) as [_ Hin'].
      rewrite Hin' in Hin. injection Hin as <-. eexists o1, o2, ty, _. split; [exact Hty|]. repeat split.
    - intros (o1 & o2 & p & ty & m & Hty & Hin & ->).
      destruct (C139_share_received ty (oe_msgid OE) _ Hty Hmt Hok) as [_ Hin']. rewrite Hin' in Hin. injection Hin as <-.
      exists o1, o2, p, ty. split; [exact Hty|reflexivity]. }
  assert (Hv : e_verify (wire_env E) kb (w_body w ++ to_bytes (cf_msgid C)) (w_sig w) = true).
  { cbn [e_verify wire_env]. rewrite Hid. apply Hsign. exact Hsig. }
  assert (Hdec : e_dec_bulk (wire_env E) (w_body w) = Some bl) by (rewrite Hwb; exact Hbl).
  destruct (C67_agreed_broadcast_applied (wire_env E) C tr w (or_from (t_routing t)) _ kb op bl P es lbs
    Hw Hkb Hv Hop Hdec Hcr Hcu Hfr HP Hno Hloc Hol Hlen Hperm Hrec) as [Hcur Hcrash].
  exists w, (s_batch s'). unfold run. rewrite foldl_app. fold (run (wire_env E) C (tr ++ lbs)). fold s'.
  eapply apply_all; eassumption.
Qed.
Print Assumptions C141_broadcast_applied.

(** A sender "1" of a request "req" with one session: a share for party "2", and one for
    everybody. *)
Lemma req_text : text "req".
Proof. apply ascii_string. reflexivity. Qed.
Definition ex_full (e : entry) : mrouting :=
  MRouting (ex_party (or_from (en_routing e)) 0) (map (fun d => ex_party (d_id d) 0) (or_to (en_routing e)))
    (or_bcast (en_routing e)) false false.
Definition ex_oenv : oenv :=
  OEnv (entries_enc ex_full) (fun d => Some (to_bytes "1" ++ d)) "req" 1 ["p2"; "p3"; "p4"]
    (list_to_map [("2", "p2"); ("3", "p3"); ("4", "p4")]).
Definition ex_emissions : list (emission * order * order) :=
  [(Emission "KGRound2Message1" "s" (Some (to_bytes "r1", ORouting "1" [Dest "2" "{1,}"] false)), [], []);
   (Emission "KGRound1Message" "s" (Some (to_bytes "r1", ORouting "1" [] true)), [], [])].
Definition ex_uni : entry := Entry (to_bytes "r1") "s" (ORouting "1" [Dest "2" "{1,}"] false).
Definition ex_bc : entry := Entry (to_bytes "r1") "s" (ORouting "1" [] true).
Definition ex_sent (round : string) (e : entry) (peers : list string) : sent :=
  Sent round (en_routing e) (entries_enc ex_full [e]) (to_bytes "1" ++ entries_enc ex_full [e] ++ to_bytes "req") peers [e].
Lemma ex_os_sent : os_sent (orun ex_oenv ex_emissions) =
  [ex_sent "KGRound2Message1" ex_uni ["p2"]; ex_sent "KGRound1Message" ex_bc ["p2"; "p3"; "p4"]].
Proof. vm_compute. reflexivity. Qed.
Lemma ex_honest : honest_run ex_full ex_oenv ex_emissions.
Proof.
  assert (Hn : forall id, id <> ""%string -> text id -> named id (ex_party id 0)).
  { intros id Hid Ht. eexists _, 0%Z. split; [reflexivity|]. split; [reflexivity|]. split; [exact Hid|]. split; [split; [discriminate|reflexivity]|].
    split; [exact Ht|apply ascii_string; reflexivity]. }
  split; [reflexivity|].
  constructor; [|constructor; [|constructor]]; intros body r [= <- <-];
    (split; [apply Hn; [discriminate|apply ascii_string; reflexivity]|]; split; [|split; [reflexivity|apply ascii_string; reflexivity]]);
    cbn [en_routing or_to mr_to ex_full map]; repeat (constructor; [apply Hn; [discriminate|apply ascii_string; reflexivity]|]); constructor.
Qed.
Lemma ex_takable e : e = ex_uni \/ e = ex_bc -> forall s, s_accepted s = ∅ -> takable (wire_env toy_env) (toy_cfg 4 "p2") s e.
Proof.
  intros He s Hs. split; [destruct He as [-> | ->]; vm_compute; reflexivity|].
  split; [exists (to_bytes "1"); destruct He as [-> | ->]; reflexivity|].
  exists (0, "KGRound1Message", "s"). split; [destruct He as [-> | ->]; reflexivity|]. rewrite Hs, lookup_empty. cbn. inversion 1.
Qed.
Lemma ex_verify data sig : oe_sign ex_oenv data = Some sig -> e_verify toy_env (to_bytes "1") data sig = true.
Proof. intros [= <-]. apply bool_decide_eq_true_2. reflexivity. Qed.
Example C141_example :
  let m := MShare TSSKeyGenMsg (Some (wire_of (wmsg_sent ex_full (ex_sent "KGRound2Message1" ex_uni ["p2"])))) in
  exists w n, s_log (run (wire_env toy_env) (toy_cfg 4 "p2") [LRecv [] [] "p1" m; LLoop; LWork 0 None]) = [job_of n w ex_uni].
Proof.
  intros m.
  assert (Ht : ex_sent "KGRound2Message1" ex_uni ["p2"] ∈ os_sent (orun ex_oenv ex_emissions)) by (rewrite ex_os_sent; left).
  assert (Hok : wmsg_ok (wmsg_sent ex_full (ex_sent "KGRound2Message1" ex_uni ["p2"]))).
  { split; [|apply ascii_string; reflexivity]. intros r [= <-]. apply renders_ok. destruct ex_honest as [_ H]. inversion H as [|? ? H1 _]; subst. apply H1. reflexivity. }
  destruct (C141_unicast_applied toy_env (toy_cfg 4 "p2") [] ex_full ex_oenv ex_emissions _ TSSKeyGenMsg (to_bytes "1") [] [] "p1" "p1" m
    ex_honest req_text Ht ltac:(apply ascii_string; reflexivity) (or_introl eq_refl) (proj2 (C139_share_received TSSKeyGenMsg "req" _ (or_introl eq_refl) req_text Hok)))
    as (w & n & _ & H); try reflexivity.
  - exact ex_verify.
  - constructor; [|constructor]. apply ex_takable; [left; reflexivity|reflexivity].
  - exists w, n. exact H.
Qed.
(** The broadcast, with the confirmations of two peers before and after it. *)
Example C141_broadcast_example :
  let t := ex_sent "KGRound1Message" ex_bc ["p2"; "p3"; "p4"] in
  let h := e_sha toy_env (t_body t) in
  let c p := LRecv [] [] p (MVer TSSKeyGenVerMsg (Some (Confirm "" "1-KGRound1Message" h))) in
  exists w n, s_log (run (wire_env toy_env) (toy_cfg 4 "p2")
    [c "p3"; LRecv [] [] "p1" (MShare TSSKeyGenMsg (Some (wire_of (wmsg_sent ex_full t)))); LLoop; LWork 0 None]) = [job_of n w ex_bc].
Proof.
  intros t h c.
  assert (Ht : t ∈ os_sent (orun ex_oenv ex_emissions)) by (rewrite ex_os_sent; right; left).
  assert (Hok : wmsg_ok (wmsg_sent ex_full t)).
  { split; [|apply ascii_string; reflexivity]. intros r [= <-]. apply renders_ok. destruct ex_honest as [_ H]. inversion H as [|? ? _ H1]; subst. inversion H1 as [|? ? H2 _]; subst. apply H2. reflexivity. }
  set (lbs := [c "p3"; LRecv [] [] "p1" (MShare TSSKeyGenMsg (Some (wire_of (wmsg_sent ex_full t))))]).
  assert (Hs : s_culprits (run (wire_env toy_env) (toy_cfg 4 "p2") lbs) = [] /\ s_pending (run (wire_env toy_env) (toy_cfg 4 "p2") lbs) = [] /\
    s_accepted (run (wire_env toy_env) (toy_cfg 4 "p2") lbs) = ∅ /\ s_log (run (wire_env toy_env) (toy_cfg 4 "p2") lbs) = []).
  { vm_compute. auto. }
  destruct Hs as (Hs1 & Hs2 & Hs3 & Hs4).
  destruct (C141_broadcast_applied toy_env (toy_cfg 4 "p2") [] ex_full ex_oenv ex_emissions t (to_bytes "1") "p1" ["p3"]
    [Some "p3"; None] lbs ex_honest req_text Ht ltac:(apply ascii_string; reflexivity) ltac:(apply ascii_string; vm_compute; reflexivity)) as (w & n & H); try reflexivity.
  - exact ex_verify.
  - apply NoDup_singleton.
  - intros Hx. apply elem_of_list_singleton in Hx. discriminate.
  - intros Hx. apply elem_of_list_singleton in Hx. discriminate.
  - discriminate.
  - apply Permutation_swap.
  - constructor; [|constructor; [|constructor]].
    + exists [], [], TSSKeyGenVerMsg, ""%string. eexists. split; [left; reflexivity|].
      split; [apply ascii_string; reflexivity|]. split; [|reflexivity].
      refine (proj2 (C139_confirmation_received TSSKeyGenVerMsg "req" _ (or_introl eq_refl) req_text _)).
      split; [|split]; apply ascii_string; vm_compute; reflexivity.
    + exists [], [], "p1"%string, TSSKeyGenMsg. eexists. split; [left; reflexivity|]. split; [|reflexivity].
      exact (proj2 (C139_share_received TSSKeyGenMsg "req" _ (or_introl eq_refl) req_text Hok)).
  - constructor; [|constructor]. apply ex_takable; [right; reflexivity|exact Hs3].
  - exists w, n. change ([] ++ lbs) with lbs in H. rewrite Hs4 in H. exact H.
Qed.
(** With a verification that accepts what this sender signed and nothing else, the share
    handed over is its share. *)
Definition ex_env : env :=
  Env (e_sha toy_env) (fun key data sig => bool_decide (key = to_bytes "1" /\ data = entries_enc ex_full [ex_uni] ++ to_bytes "req"))
    (e_dec_bulk toy_env) (e_parse toy_env) (e_pub toy_env) (e_peer_ok toy_env).
Example C140_example :
  (forall data sig, e_verify ex_env (to_bytes "1") data sig = true ->
     exists OE otr t, (OE = ex_oenv /\ otr = ex_emissions) /\ t ∈ os_sent (orun OE otr) /\ data = t_body t ++ to_bytes (oe_msgid OE)) /\
  no_blank "req" /\
  (let m := MShare TSSKeyGenMsg (Some (wire_of (wmsg_sent ex_full (ex_sent "KGRound2Message1" ex_uni ["p2"])))) in
   exists j, j ∈ s_log (run (wire_env ex_env) (toy_cfg 4 "p2") [LRecv [] [] "p1" m; LLoop; LWork 0 None]) /\ sent_by (j_wire j) "1").
Proof.
  split; [|split].
  - intros data sig H. apply bool_decide_eq_true in H as [_ ->].
    exists ex_oenv, ex_emissions, (ex_sent "KGRound2Message1" ex_uni ["p2"]). split; [auto|]. split; [rewrite ex_os_sent; left|reflexivity].
  - repeat constructor; discriminate.
  - eexists. split; [vm_compute; left|]. eexists _, _. reflexivity.
Qed.

(** ** C42 *)
(** On the wire: for every idle node that takes part in a request whose id is at most
    1000 bytes long and is text there is one frame that crashes it, whoever sends it. *)
Theorem C42_one_frame_refuted :
  forall E C tr msgID ty o1 o2 p,
    share_type ty -> text msgID -> String.length msgID <= 1000 ->
    s_crash (run E C tr) = false -> s_cur (run E C tr) = None ->
    exists data f m, frame data f /\
      (forall h c frags rest, concat frags = f ++ rest -> subscribed (N.to_nat (number_of ty)) msgID h c ->
         readFromStream topic_of frags (run_subs h) = Received msgID (Some (c, data))) /\
      inbound data = Some m /\ s_crash (run E C (tr ++ [LRecv o1 o2 p m])) = true.
Proof.
  intros E C tr msgID ty o1 o2 p Hty Hx Hlen Hcr Hcu.
  set (w := WMsg (Some (MRouting (Some (Party None 0)) [] false false false)) "" [] []).
  assert (Hok : wmsg_ok w).
  { split; [|apply ascii_string; reflexivity]. intros r [= <-]. split; [|constructor]. intros q i [= <- <-].
    split; [split; [discriminate|reflexivity]|]. split; discriminate. }
  set (data := share_data ty msgID w). destruct (C139_share_received ty msgID w Hty Hx Hok) as [Htop Hin]. fold data in Htop, Hin.
  assert (Hlim : (N.of_nat (length data) <= limit)%N).
  { assert (Hl : length data <= length (json_string msgID) + 500).
    { unfold data, share_data, wrap. rewrite wrapped_length. cbn [wr_type wr_id wr_payload].
      assert (Hp : length (json_enc (bytes_json (json_enc (wmsg_json w)))) <= 400) by (apply Nat.leb_le; vm_compute; reflexivity).
      assert (Hn : length (json_num (Z.of_N (number_of ty))) = 1) by (destruct Hty as [-> | ->]; reflexivity).
      lia. }
    pose proof (json_string_length msgID). unfold limit. lia. }
  exists data, (put_uint32 (N.of_nat (length data)) ++ data). eexists.
  assert (Hf : frame data (put_uint32 (N.of_nat (length data)) ++ data)).
  { eexists. split; [|reflexivity]. apply L_Stream.put_header. unfold limit in Hlim. lia. }
  split; [exact Hf|]. split; [|split; [exact Hin|]].
  - intros h c frags rest Hc Hs. exact (proj1 (C15_delivery topic_of h frags data _ rest _ _ Hlim Hf Hc Htop) c Hs).
  - rewrite run_snoc. unfold step. rewrite Hcr, Hcu. reflexivity.
Qed.
Print Assumptions C42_one_frame_refuted.
