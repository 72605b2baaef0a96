(** C167-C170: a ceremony of honest nodes, as a whole. *)
From Coq Require Import ZArith NArith Ascii String List Lia.
From stdpp Require Import base list strings gmap.
From Verif Require Import Base L_Base S_Threshold M_Common S_Common L_Common L_Common2 M_Honest S_Honest
  L_Honest L_Honest2 L_Honest3 L_Honest4.
Local Open Scope string_scope.

(** Any number of honest members, any messages of their local parties, any order of delivery,
    with repetitions: when nothing is under way any more, each share a local party sent to a
    member was handed to that member's local party, exactly once. *)
Theorem C167_every_share_arrives_once :
  forall E N s, well_formed E N -> reachable E N s -> quiet E N s ->
    forall x l q b, x ∈ ns_sent s -> q ∈ sn_to x ->
      e_dec_bulk E (w_body (sn_wire x)) = Some l -> b ∈ l ->
      exists i j, s_log (at_node E N s q) !! i = Some j /\ is_entry b j /\ j_wire j = sn_wire x /\
        forall i' j', s_log (at_node E N s q) !! i' = Some j' -> is_entry b j' -> i' = i.
Proof.
  intros E N s Hwf Hr [Hair Hidle] x l q b Hx Hto Hd Hb.
  pose proof (netinv_reach E N Hwf s Hr) as Hi.
  assert (Hf : for_me E q (ns_sent s) x l) by (split; [exact Hx|]; split; assumption).
  assert (Hq : member N q).
  { destruct (fair_in E N _ x (ni_fair _ _ _ Hi) Hx) as (p & l' & Hh).
    pose proof (h_to _ _ _ _ _ _ Hh q Hto) as Ho. apply elem_of_others in Ho. apply Ho. }
  apply (idle_has_all E N (ns_sent s) q (ni_fair _ _ _ Hi) x l (at_node E N s q) Hf); auto.
  - apply ni_good; assumption.
  - apply all_taken_up; assumption.
Qed.
Print Assumptions C167_every_share_arrives_once.

(** At any moment: no node has crashed, nobody is blamed, and every share handed to a local
    party is an entry of a message its sender's local party sent to this member. *)
Theorem C168_nobody_blamed :
  forall E N s q, well_formed E N -> reachable E N s -> member N q ->
    s_crash (at_node E N s q) = false /\
    s_culprits (at_node E N s q) = [] /\
    bl_reason (s_blame (at_node E N s q)) = "" /\ bl_nodes (s_blame (at_node E N s q)) = [] /\
    forall j, j ∈ s_log (at_node E N s q) -> exists x l b,
      x ∈ ns_sent s /\ sn_id x = j_from j /\ q ∈ sn_to x /\
      e_dec_bulk E (w_body (sn_wire x)) = Some l /\ b ∈ l /\ is_entry b j.
Proof.
  intros E N s q Hwf Hr Hq. pose proof (netinv_reach E N Hwf s Hr) as Hi.
  pose proof (ni_good E N Hwf s q Hi Hq) as Hg.
  split; [apply (g_crash _ _ _ _ _ Hg)|]. split; [apply (g_culprits _ _ _ _ _ Hg)|].
  rewrite (g_blame _ _ _ _ _ Hg). split; [reflexivity|]. split; [reflexivity|].
  intros j Hj. destruct (wk_jobs _ _ _ _ (g_work _ _ _ _ _ Hg) j) as (x & l & b & (Hx & Hto & Hd) & Hb & He & _).
  { apply elem_of_app. auto. }
  exists x, l, b. split; [exact Hx|]. split; [|auto].
  destruct (fair_in E N _ x (ni_fair _ _ _ Hi) Hx) as (p & l' & Hh).
  rewrite (h_dec _ _ _ _ _ _ Hh) in Hd. injection Hd as <-.
  destruct (h_entries _ _ _ _ _ _ Hh b Hb) as (_ & to & bc & Hr1 & _).
  destruct He as (_ & _ & to' & Hr2). congruence.
Qed.
Print Assumptions C168_nobody_blamed.

(** A node regards the ceremony as complete only after the local parties of all other members
    are done; and when all are done and nothing is in the air, it does, once. *)
Theorem C169_complete_when_all_are_done :
  forall E N s q, well_formed E N -> reachable E N s -> member N q -> 2 <= size (ce_peers N) ->
    (s_closed (at_node E N s q) <> 0 -> forall p, p ∈ others N q -> p ∈ ns_done s) /\
    (ns_air s = [] -> (forall p, p ∈ others N q -> p ∈ ns_done s) -> s_closed (at_node E N s q) = 1).
Proof.
  intros E N s q Hwf Hr Hq Hn. pose proof (netinv_reach E N Hwf s Hr) as Hi.
  destruct (announced_run E (cfg_of N q) (ns_trace s q)) as [Hf Hc].
  change (run E (cfg_of N q) (ns_trace s q)) with (at_node E N s q) in *.
  change (cf_parties (cfg_of N q)) with (ce_parties N) in Hc. rewrite (parties_size E N Hwf) in Hc.
  pose proof (others_length E N Hwf q Hq) as Hlen.
  assert (Hset : size (list_to_set (C := gset string) (others N q)) = length (others N q)).
  { apply size_list_to_set. eapply others_NoDup. exact Hwf. }
  assert (Hleg : forall p, p ∈ s_finished (at_node E N s q) -> p ∈ others N q /\ p ∈ ns_done s).
  { intros p Hp. apply Hf in Hp. split.
    - destruct Hp as (t1 & o1 & o2 & t2 & Htr & _). pose proof (ni_labels _ _ _ Hi q) as Hl.
      rewrite Htr in Hl. apply Forall_app in Hl as [_ Hl]. apply Forall_cons_1 in Hl as [(Hm & _ & Hpq & _) _].
      apply elem_of_others. auto.
    - apply (done_reach E N Hwf s Hr p q). right. exact Hp. }
  assert (Hsub : s_finished (at_node E N s q) ⊆ list_to_set (others N q)).
  { intros p Hp. apply elem_of_list_to_set, Hleg, Hp. }
  split.
  - intros Hne p Hp. rewrite Hc in Hne.
    destruct (Z.leb_spec 2 (Z.of_nat (size (ce_peers N)))); [|cbn in Hne; congruence].
    destruct (Z.leb_spec (Z.of_nat (size (ce_peers N)) - 1) (Z.of_nat (size (s_finished (at_node E N s q))))) as [Hle|]; [|cbn in Hne; congruence].
    assert (Heq : s_finished (at_node E N s q) ≡ list_to_set (others N q)).
    { pose proof (size_union_alt (s_finished (at_node E N s q)) (list_to_set (others N q))) as Hu.
      rewrite (subseteq_union_1_L _ _ Hsub) in Hu.
      assert (Hz : size (list_to_set (others N q) ∖ s_finished (at_node E N s q)) = 0) by lia.
      apply size_empty_inv in Hz. intros y. split; [apply Hsub|]. intros Hy.
      destruct (decide (y ∈ s_finished (at_node E N s q))) as [|Hno]; [assumption|].
      exfalso. apply (not_elem_of_empty (C := gset string) y), (Hz y). apply elem_of_difference. split; assumption. }
    apply Hleg. rewrite Heq. apply elem_of_list_to_set, Hp.
  - intros Hair Hall. rewrite Hc.
    assert (Hge : list_to_set (others N q) ⊆ s_finished (at_node E N s q)).
    { intros p Hp. apply elem_of_list_to_set in Hp. apply Hf.
      destruct (ni_done _ _ _ Hi p (Hall p Hp)) as [_ Hd]. apply elem_of_others in Hp as [Hpm Hpq].
      destruct (Hd q) as [Ha|Ha]; [apply elem_of_others; auto|rewrite Hair in Ha; inversion Ha|exact Ha]. }
    apply subseteq_size in Hge. rewrite Hset in Hge.
    destruct (Z.leb_spec 2 (Z.of_nat (size (ce_peers N)))); [|lia].
    destruct (Z.leb_spec (Z.of_nat (size (ce_peers N)) - 1) (Z.of_nat (size (s_finished (at_node E N s q))))); [reflexivity|lia].
Qed.
Print Assumptions C169_complete_when_all_are_done.

(** The traffic ends: from any reachable state, deliveries and the work of the nodes cannot go
    on for ever, whatever their order, and where they stop nothing is under way. *)
Theorem C170_traffic_ends :
  forall E N s, well_formed E N -> reachable E N s ->
    Acc (fun s2 s1 => handles E N s1 s2) s /\
    ((forall s', ~ handles E N s s') -> quiet E N s) /\
    exists s', rtc (handles E N) s s' /\ quiet E N s' /\ ns_sent s' = ns_sent s /\ ns_done s' = ns_done s.
Proof.
  intros E N s Hwf Hr. pose proof (netinv_reach E N Hwf s Hr) as Hi.
  split; [apply (handles_ends E N Hwf s Hi)|]. split.
  - intros Hno. destruct (quiet_or_handles E N Hwf s Hi) as [Hq|[s' Hs']]; [exact Hq|]. destruct (Hno s' Hs').
  - apply comes_to_rest; assumption.
Qed.
Print Assumptions C170_traffic_ends.

(** ** A ceremony of three *)

(** Keys are the party ids, the hash keeps the text, a signature is the key followed by the
    data. Party 1 broadcasts a share of the first round, party 2 sends one of the second
    to party 3, and all are done. *)
Definition trio_env : env := Env of_bytes
  (fun key data sig => bool_decide (sig = (key ++ data)%list))
  (fun b => let t := of_bytes b in
     if String.eqb t "b1" then Some [Bulk (to_bytes "r1") "s" (Some (Routing (FId "1") [] true))]
     else if String.eqb t "u2" then Some [Bulk (to_bytes "r2") "s" (Some (Routing (FId "2") ["3"] false))]
     else None)
  (fun b _ _ => let t := of_bytes b in
     if String.eqb t "r1" then Some KGRound1Message
     else if String.eqb t "r2" then Some KGRound2Message1 else None)
  (fun k => Some (of_bytes k)) (fun _ => true).
Definition trio : ceremony := Ceremony "req" {["s"]}
  (list_to_map [("1", to_bytes "1"); ("2", to_bytes "2"); ("3", to_bytes "3")])
  (list_to_map [("1", "p1"); ("2", "p2"); ("3", "p3")]).
Definition trio_x1 := Sending "1" TSSKeyGenMsg
  (Wire (Some (Routing (FId "1") [] true)) "KGRound1Message" (to_bytes "b1") (to_bytes "1b1req")) ["p2"; "p3"].
Definition trio_x2 := Sending "2" TSSKeyGenMsg
  (Wire (Some (Routing (FId "2") ["3"] false)) "KGRound2Message1" (to_bytes "u2") (to_bytes "2u2req")) ["p3"].

Lemma trio_cases {A} (f : string -> A) id (x : A) :
  (list_to_map [("1", f "1"); ("2", f "2"); ("3", f "3")] : gmap string A) !! id = Some x ->
  (id = "1" /\ x = f "1") \/ (id = "2" /\ x = f "2") \/ (id = "3" /\ x = f "3").
Proof.
  intros Hl. apply elem_of_list_to_map_2 in Hl.
  repeat (apply elem_of_cons in Hl as [Hl|Hl]; [injection Hl as -> ->; auto|]). inversion Hl.
Qed.
Definition peer_of (id : string) : string := String.append "p" id.
Lemma trio_peers id p : ce_peers trio !! id = Some p ->
  (id = "1" /\ p = "p1") \/ (id = "2" /\ p = "p2") \/ (id = "3" /\ p = "p3").
Proof. apply (trio_cases peer_of). Qed.
Lemma trio_parties id k : ce_parties trio !! id = Some k -> id = "1" \/ id = "2" \/ id = "3".
Proof. intros Hl. apply (trio_cases to_bytes) in Hl. tauto. Qed.

Lemma trio_well_formed : well_formed trio_env trio.
Proof.
  constructor.
  - intros id. split; intros [x Hx].
    + apply trio_parties in Hx as [-> |[-> | ->]]; vm_compute; eauto.
    + apply trio_peers in Hx as [[-> _]|[[-> _]|[-> _]]]; vm_compute; eauto.
  - intros a b p Ha Hb. apply trio_peers in Ha, Hb.
    destruct Ha as [[-> ->]|[[-> ->]|[-> ->]]], Hb as [[-> Hb]|[[-> Hb]|[-> Hb]]]; congruence.
  - intros id [x Hx]. assert (Hd : forall c : ascii, c <> "-"%char -> "-"%char ∉ [c]).
    { intros c Hc Hin. apply elem_of_list_singleton in Hin. congruence. }
    apply trio_parties in Hx as [-> |[-> | ->]]; apply Hd; discriminate.
  - reflexivity.
Qed.

(** A scheduler: [inl k] delivers the k-th message in the air, [inr (q, l)] lets node [q] work. *)
Definition play (s : nstate) (c : nat + string * label) : nstate :=
  match c with
  | inl k =>
      match ns_air s !! k with
      | Some (p, q, m) =>
          match s_cur (at_node trio_env trio s q) with
          | None =>
              let tr := does s q (LRecv [] [] p m) in
              NState tr (take k (ns_air s) ++ drop (S k) (ns_air s) ++
                frames_of q (drop (length (s_out (at_node trio_env trio s q))) (s_out (run trio_env (cfg_of trio q) (tr q)))))
                (ns_sent s) (ns_done s)
          | Some _ => s
          end
      | None => s
      end
  | inr (q, l) =>
      match l with
      | LRecv _ _ _ _ | LWork _ (Some _) => s
      | _ => NState (does s q l) (ns_air s) (ns_sent s) (ns_done s)
      end
  end.
Lemma play_steps s c : rtc (nany trio_env trio) s (play s c).
Proof.
  destruct c as [k|[q l]]; cbn [play].
  - destruct (ns_air s !! k) as [[[p q] m]|] eqn:Hk; [|constructor].
    destruct (s_cur (at_node trio_env trio s q)) eqn:Hc; [constructor|].
    apply rtc_once. exists Deliver. apply (n_recv trio_env trio s (take k (ns_air s)) (drop (S k) (ns_air s)) p q m [] []).
    + symmetry. apply take_drop_middle. exact Hk.
    + exact Hc.
  - destruct l as [| | |k [cs|]|k]; try constructor; apply rtc_once; exists Work; apply n_local; exact I || reflexivity.
Qed.
Lemma plays_steps cs : forall s, rtc (nany trio_env trio) s (foldl play s cs).
Proof.
  induction cs as [|c cs IH]; intros s; cbn; [constructor|]. etransitivity; [apply play_steps|apply IH].
Qed.

Definition put (p : string) (x : sending) (s : nstate) : nstate :=
  NState (ns_trace s) (ns_air s ++ frames p (MShare (sn_type x) (Some (sn_wire x))) (sn_to x)) (ns_sent s ++ [x]) (ns_done s).
Definition announce (p : string) (s : nstate) : nstate :=
  NState (ns_trace s) (ns_air s ++ frames p (MDone (Some true)) (others trio p)) (ns_sent s) (ns_done s ++ [p]).
Definition trio_start : nstate :=
  announce "p3" (announce "p2" (announce "p1" (put "p2" trio_x2 (put "p1" trio_x1 n_init)))).

Lemma trio_start_reachable : reachable trio_env trio trio_start.
Proof.
  assert (Hann : forall id p s, ce_peers trio !! id = Some p -> rtc (nany trio_env trio) s (announce p s)).
  { intros id p s Hid. apply rtc_once. exists Produce. eapply n_done. exact Hid. }
  assert (Hoth : forall p q, q ∈ others trio p <-> member trio q /\ q <> p) by (intros; apply elem_of_others).
  unfold reachable, trio_start.
  etransitivity; [|apply (Hann "3"); reflexivity].
  etransitivity; [|apply (Hann "2"); reflexivity].
  etransitivity; [|apply (Hann "1"); reflexivity].
  assert (Hm : forall q, member trio q -> q = "p1" \/ q = "p2" \/ q = "p3").
  { intros q [id Hid]. apply trio_peers in Hid. tauto. }
  eapply rtc_l; [exists Produce; apply (n_send trio_env trio n_init trio_x1 "p1" [Bulk (to_bytes "r1") "s" (Some (Routing (FId "1") [] true))])|
  apply rtc_once; exists Produce; apply (n_send trio_env trio (put "p1" trio_x1 n_init) trio_x2 "p2" [Bulk (to_bytes "r2") "s" (Some (Routing (FId "2") ["3"] false))])].
  - constructor.
    + reflexivity.
    + left. reflexivity.
    + eexists _, _. reflexivity.
    + exists (to_bytes "1"). split; vm_compute; reflexivity.
    + intros _ q Hq. apply Hoth in Hq as [Hq1 Hq2]. destruct (Hm q Hq1) as [-> |[-> | ->]]; [congruence| |]; cbn; set_solver.
    + intros q Hq. apply Hoth. cbn in Hq. apply elem_of_cons in Hq as [-> |Hq].
      { split; [exists "2"; reflexivity|discriminate]. }
      apply elem_of_list_singleton in Hq as ->. split; [exists "3"; reflexivity|discriminate].
    + reflexivity.
    + intros b Hb. apply elem_of_list_singleton in Hb as ->. split; [cbn; set_solver|].
      eexists _, _. split; [reflexivity|]. vm_compute. discriminate.
    + apply NoDup_singleton.
    + intros _ y Hy. inversion Hy.
    + intros y l' q b b' Hy. inversion Hy.
  - constructor.
    + reflexivity.
    + left. reflexivity.
    + eexists _, _. reflexivity.
    + exists (to_bytes "2"). split; vm_compute; reflexivity.
    + intros (f & to & Hb). discriminate.
    + intros q Hq. apply Hoth. cbn in Hq. apply elem_of_list_singleton in Hq as ->. split; [exists "3"; reflexivity|discriminate].
    + reflexivity.
    + intros b Hb. apply elem_of_list_singleton in Hb as ->. split; [cbn; set_solver|].
      eexists _, _. split; [reflexivity|]. vm_compute. discriminate.
    + apply NoDup_singleton.
    + intros (f & to & Hb). discriminate.
    + intros y l' q b b' Hy _ _ Hd Hb Hb'. cbn in Hy. apply elem_of_list_singleton in Hy as ->.
      vm_compute in Hd. injection Hd as <-.
      apply elem_of_list_singleton in Hb as ->. apply elem_of_list_singleton in Hb' as ->.
      vm_compute. discriminate.
Qed.

Definition busy (q : string) : list (nat + string * label) :=
  [inr (q, LLoop); inr (q, LWork 0 None); inr (q, LAccept 0); inr (q, LFinish)].
Definition trio_end : nstate :=
  foldl play trio_start
    ([inl 0] ++ busy "p2" ++ [inl 0] ++ busy "p3" ++ [inl 0] ++ busy "p3" ++ repeat (inl 0) 12 ++ busy "p2" ++ busy "p3")%list.

(** It is reachable and quiet, two messages were sent, all parties are done, party 2 was
    handed one share and party 3 two, and all three nodes regard the ceremony as complete. *)
Example C167_C170_case :
  well_formed trio_env trio /\ reachable trio_env trio trio_end /\ quiet trio_env trio trio_end /\
  ns_sent trio_end = [trio_x1; trio_x2] /\ ns_done trio_end = ["p1"; "p2"; "p3"] /\
  map (fun q => (length (s_log (at_node trio_env trio trio_end q)), s_closed (at_node trio_env trio trio_end q)))
    ["p1"; "p2"; "p3"] = [(0, 1); (1, 1); (2, 1)].
Proof.
  split; [exact trio_well_formed|]. split.
  { unfold reachable. etransitivity; [exact trio_start_reachable|apply plays_steps]. }
  split.
  { split; [vm_compute; reflexivity|]. intros q [id Hid].
    apply trio_peers in Hid as [[_ ->]|[[_ ->]|[_ ->]]]; vm_compute; reflexivity. }
  split; [vm_compute; reflexivity|]. split; vm_compute; reflexivity.
Qed.

(** The start of it is not quiet: nine messages are in the air. *)
Example C170_case_start : reachable trio_env trio trio_start /\ length (ns_air trio_start) = 9.
Proof. split; [exact trio_start_reachable|vm_compute; reflexivity]. Qed.
