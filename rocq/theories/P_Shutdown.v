(** C190 to C194: how the program ends. *)
From Coq Require Import ZArith NArith Ascii String List Lia.
From stdpp Require Import base list strings gmap.
From Verif Require Import Base M_Comm M_Broadcast S_Broadcast L_Broadcast P_Broadcast M_Shutdown S_Shutdown.
Local Open Scope string_scope.

Lemma p_run_snoc self ls l : p_run self (ls ++ [l])%list = p_step self l (p_run self ls).
Proof. unfold p_run, p_run_from. rewrite fold_left_app. reflexivity. Qed.
Lemma p_run_app self ls ls' : p_run self (ls ++ ls')%list = p_run_from self (p_run self ls) ls'.
Proof. unfold p_run, p_run_from. apply fold_left_app. Qed.

Lemma all_done_spec m : all_done m = true <-> forall k, m !! k <> Some Serving.
Proof.
  unfold all_done. rewrite forallb_forall. split.
  - intros H k Hk. apply elem_of_map_to_list, elem_of_list_In in Hk. specialize (H _ Hk). discriminate.
  - intros H [k r] Hk. apply elem_of_list_In, elem_of_map_to_list in Hk. destruct r; try reflexivity. exfalso. exact (H k Hk).
Qed.

(** ** What holds in every state *)
Definition quiet (m : mstat) : bool :=
  match m with AwaitSignal | Signalled | Draining _ | Drained _ _ | Closing _ _ => true | _ => false end.
Definition told (m : mstat) : bool :=
  match m with AwaitSignal | Signalled | Draining _ | Drained _ _ => false | _ => true end.
(** Why Shutdown returned, for every step after it. *)
Definition reason (ls : list plabel) (s : prog) : Prop :=
  match pg_main s with
  | AwaitSignal | Signalled | Draining _ => True
  | Drained t e | Closing t e | Leaving t e | Left t e | Exited t e =>
      ((forall k r, pg_reqs s !! k = Some r -> r = Answered) /\ SDrained e ∈ ls) \/
      (e = Some deadline_exceeded /\ t + drain_time <= pg_now s)
  end.
Record pinv (self : string) (ls : list plabel) (s : prog) : Prop := PInv {
  pi_net : exists tr, pg_net s = brun self tr;
  pi_crash : bs_crash (pg_net s) = false;
  pi_quiet : quiet (pg_main s) = true <-> bs_stop (pg_net s) = NoStop;
  pi_left : match pg_main s with Left _ _ | Exited _ _ => bs_stop (pg_net s) = Stopped | _ => True end;
  pi_stop : pg_stop s = told (pg_main s);
  pi_given : pg_stop s = false -> forall k, pg_reqs s !! k <> Some GivenUp;
  pi_http : shut (pg_main s) = true -> pg_http s <> Listening;
  pi_reason : reason ls s;
  pi_signal : match pg_main s with AwaitSignal => True | _ => SSignal ∈ ls end;
}.

Lemma bstep_keeps self l n : l <> BStop -> bs_crash n = false ->
  bs_crash (bstep self l n) = false /\ (bs_stop (bstep self l n) = NoStop <-> bs_stop n = NoStop) /\
  (bs_stop n = Stopped -> bs_stop (bstep self l n) = Stopped).
Proof.
  destruct n as [acc q lp ts wg stp cr op os m rs]. cbn [bs_crash]. intros Hl ->. unfold bstep.
  destruct l as [p| | |k i r|k i cap|k| | |id]; try congruence.
  - destruct (Nat.ltb _ _); cbn; tauto.
  - destruct lp, q as [|p q]; try (cbn; tauto). destruct (po_peers p); cbn; tauto.
  - destruct lp, stp; cbn; intuition congruence.
  - destruct (get_send k i ts) as [[t [p [|st|]]]|]; try (cbn; tauto). destruct (String.eqb p self); [cbn; tauto|]. destruct r; cbn; tauto.
  - destruct (get_send k i ts) as [[t [p [|st|]]]|]; cbn; tauto.
  - destruct (ts !! k) as [[p l [|]]|]; try (cbn; tauto). destruct (forallb is_end l); cbn; tauto.
  - destruct stp; try (cbn; intuition congruence). destruct (Z.eqb wg 0); cbn; intuition congruence.
  - destruct (ReleaseStream id m); cbn; tauto.
Qed.
Lemma bstep_stop self n : bs_crash n = false -> bs_stop n = NoStop ->
  bs_crash (bstep self BStop n) = false /\ bs_stop (bstep self BStop n) = Waiting.
Proof. destruct n as [acc q lp ts wg stp cr op os m rs]. cbn [bs_crash bs_stop]. intros -> ->. cbn. auto. Qed.

Lemma pinv_init self : pinv self [] p_init.
Proof. split; try (cbn; intuition congruence); [exists []; reflexivity|intros _ k; cbn; rewrite lookup_empty; discriminate]. Qed.

Lemma reason_more ls l s : reason ls s -> reason (ls ++ [l])%list s.
Proof. unfold reason. destruct (pg_main s); try tauto; (intros [[H1 H2]|H]; [left; split; [exact H1|apply elem_of_app; auto]|right; exact H]). Qed.
Lemma signal_more ls l m : match m with AwaitSignal => True | _ => SSignal ∈ ls end ->
  match m with AwaitSignal => True | _ => SSignal ∈ (ls ++ [l])%list end.
Proof. destruct m; try tauto; intros H; apply elem_of_app; auto. Qed.

Lemma pinv_step self ls l s : pinv self ls s -> pinv self (ls ++ [l])%list (p_step self l s).
Proof.
  intros Hi.
  assert (Hsame : pinv self (ls ++ [l])%list s).
  { destruct Hi. split; try assumption; [apply reason_more; assumption|apply signal_more; assumption]. }
  pose proof Hsame as [(tr & Hn) Hc Hq Hl Hs Hg Hh Hr Hsg]. destruct Hi as [_ _ _ _ _ _ _ Hr0 _].
  destruct s as [now h rs m st n]. cbn [pg_now pg_http pg_reqs pg_main pg_stop pg_net] in *.
  unfold p_step. destruct (exited m) eqn:Ex; [exact Hsame|].
  destruct l as [d|e|k|k|k| | |e| | | | | |l].
  - split; cbn [pg_now pg_http pg_reqs pg_main pg_stop pg_net]; eauto.
    revert Hr. unfold reason. cbn [pg_main pg_reqs pg_now]. destruct m; try tauto; (intros [H|[H1 H2]]; [left; exact H|right; split; [exact H1|lia]]).
  - destruct h; try exact Hsame. destruct (shut m) eqn:E.
    + split; cbn [pg_now pg_http pg_reqs pg_main pg_stop pg_net]; eauto; discriminate.
    + destruct e; (split; cbn [pg_now pg_http pg_reqs pg_main pg_stop pg_net]; eauto; rewrite E; discriminate).
  - destruct h; try exact Hsame. destruct (rs !! k) eqn:E; [exact Hsame|].
    assert (Hm : shut m = false) by (destruct (shut m); [exfalso; exact (Hh eq_refl eq_refl)|reflexivity]).
    split; cbn [pg_now pg_http pg_reqs pg_main pg_stop pg_net]; eauto.
    + intros Hf k'. rewrite lookup_insert_Some. intros [[_ ?]|[_ H]]; [discriminate|exact (Hg Hf k' H)].
    + unfold reason. cbn [pg_main]. destruct m; try discriminate Hm; exact I.
  - destruct (rs !! k) as [[| |]|] eqn:E; try exact Hsame. split; cbn [pg_now pg_http pg_reqs pg_main pg_stop pg_net]; eauto.
    + intros Hf k'. rewrite lookup_insert_Some. intros [[_ ?]|[_ H]]; [discriminate|exact (Hg Hf k' H)].
    + revert Hr. unfold reason. cbn [pg_main pg_reqs pg_now].
      assert (Hk : forall X, ((forall k r, rs !! k = Some r -> r = Answered) /\ X) -> (forall k' r, <[k:=Answered]> rs !! k' = Some r -> r = Answered) /\ X).
      { intros X [H HX]. split; [|exact HX]. intros k' r. rewrite lookup_insert_Some. intros [[_ <-]|[_ H']]; eauto. }
      destruct m; try tauto; (intros [H|H]; [left; apply Hk; exact H|right; exact H]).
  - destruct (rs !! k) as [[| |]|] eqn:E; try exact Hsame. destruct st; [|exact Hsame]. split; cbn [pg_now pg_http pg_reqs pg_main pg_stop pg_net]; eauto; try discriminate.
    revert Hr. unfold reason. cbn [pg_main pg_reqs pg_now].
    destruct m; try tauto; (intros [[H _]|H]; [specialize (H _ _ E); discriminate|right; exact H]).
  - destruct m; try exact Hsame. split; cbn [pg_now pg_http pg_reqs pg_main pg_stop pg_net shut quiet told] in *; eauto. apply elem_of_app. right. left.
  - destruct m; try exact Hsame. split; cbn [pg_now pg_http pg_reqs pg_main pg_stop pg_net shut quiet told] in *; eauto. destruct h; discriminate.
  - destruct m; try exact Hsame. destruct (all_done rs) eqn:Ed; [|exact Hsame].
    split; cbn [pg_now pg_http pg_reqs pg_main pg_stop pg_net shut quiet told] in *; eauto.
    left. split; [|apply elem_of_app; right; left]. intros k r Hk. destruct r; [|reflexivity|exfalso; exact (Hg Hs k Hk)].
    exfalso. exact (proj1 (all_done_spec rs) Ed k Hk).
  - destruct m as [| |t0| | | | |]; try exact Hsame. destruct (Nat.leb_spec (t0 + drain_time) now) as [Hle|_]; [|exact Hsame].
    split; cbn [pg_now pg_http pg_reqs pg_main pg_stop pg_net shut quiet told] in *; eauto. right. split; [reflexivity|exact Hle].
  - destruct m; try exact Hsame. split; cbn [pg_now pg_http pg_reqs pg_main pg_stop pg_net shut quiet told] in *; eauto; discriminate.
  - destruct m; try exact Hsame. cbn [quiet] in Hq. pose proof (proj1 Hq eq_refl) as Hn0.
    destruct (bstep_stop self n Hc Hn0) as [Hc' Hw].
    split; cbn [pg_now pg_http pg_reqs pg_main pg_stop pg_net shut quiet told] in *; eauto.
    + exists (tr ++ [BStop])%list. rewrite brun_snoc, Hn. reflexivity.
    + rewrite Hw. split; discriminate.
  - destruct m; try exact Hsame. destruct (bs_stop n) eqn:En; try exact Hsame.
    split; cbn [pg_now pg_http pg_reqs pg_main pg_stop pg_net shut quiet told] in *; eauto. rewrite En. split; discriminate.
  - destruct m; try exact Hsame. split; cbn [pg_now pg_http pg_reqs pg_main pg_stop pg_net shut quiet told] in *; eauto.
  - assert (Hd : l = BStop \/ l <> BStop) by (destruct l; auto; right; discriminate). destruct Hd as [->|Hne]; [exact Hsame|].
    replace (match l with BStop => _ | _ => _ end) with (Prog now h rs m st (bstep self l n)) by (destruct l; congruence).
    destruct (bstep_keeps self l n Hne Hc) as (K1 & K2 & K3).
    split; cbn [pg_now pg_http pg_reqs pg_main pg_stop pg_net] in *; eauto.
    + exists (tr ++ [l])%list. rewrite brun_snoc, Hn. reflexivity.
    + rewrite Hq. symmetry. exact K2.
    + destruct m; auto.
Qed.
Lemma pinv_run self ls : pinv self ls (p_run self ls).
Proof. induction ls as [|l ls IH] using rev_ind; [apply pinv_init|]. rewrite p_run_snoc. apply pinv_step, IH. Qed.

(** ** C190. A request that the program has begun to serve is left alone until it is
    answered, or until ten seconds have passed since the program began to stop; from then
    on no further requests are taken. Nothing stops without a signal. *)
Theorem C190_ten_seconds self ls k r : let s := p_run self ls in
  pg_reqs s !! k = Some r -> r <> Answered -> tearing_down s ->
  exists t, stop_time s = Some t /\ t + 10 * 1000 <= pg_now s.
Proof.
  intros s Hk Hr Ht. pose proof (pinv_run self ls) as [_ _ Hq _ Hs _ _ Hre _]. fold s in Hq, Hs, Hre.
  assert (Hm : told (pg_main s) = true).
  { destruct Ht as [H|[H|(e & t & H)]]; [congruence| |rewrite H; reflexivity].
    destruct (quiet (pg_main s)) eqn:E; [exfalso; apply H, Hq; reflexivity|]. destruct (pg_main s); try discriminate E; reflexivity. }
  unfold reason in Hre. unfold stop_time. destruct (pg_main s); try discriminate Hm;
    (destruct Hre as [[H _]|[_ H]]; [exfalso; exact (Hr (H _ _ Hk))|eauto]).
Qed.
Print Assumptions C190_ten_seconds.
Theorem C190_no_more_requests self ls ls' t : stop_time (p_run self ls) = Some t ->
  pg_http (p_run self ls) <> Listening /\ dom (pg_reqs (p_run self (ls ++ ls'))) =@{gset nat} dom (pg_reqs (p_run self ls)) /\
  stop_time (p_run self (ls ++ ls')) = Some t /\ SSignal ∈ ls.
Proof.
  intros Ht. pose proof (pinv_run self ls) as Hi.
  assert (Hsh : forall s t, stop_time s = Some t -> shut (pg_main s) = true) by (intros [now h rs m st n] t'; cbn; destruct m; try discriminate; reflexivity).
  split; [exact (pi_http _ _ _ Hi (Hsh _ _ Ht))|].
  cut (dom (pg_reqs (p_run self (ls ++ ls'))) =@{gset nat} dom (pg_reqs (p_run self ls)) /\ stop_time (p_run self (ls ++ ls')) = Some t).
  { intros [H1 H2]. split; [exact H1|]. split; [exact H2|]. pose proof (pi_signal _ _ _ Hi) as Hg. unfold stop_time in Ht. destruct (pg_main (p_run self ls)); try discriminate Ht; exact Hg. }
  induction ls' as [|l ls' IH] using rev_ind; [rewrite app_nil_r; auto|]. destruct IH as [IH1 IH2].
  rewrite app_assoc, p_run_snoc. pose proof (pi_http _ _ _ (pinv_run self (ls ++ ls')) (Hsh _ _ IH2)) as Hh.
  rewrite <- IH1. clear IH1. revert IH2 Hh. destruct (p_run self (ls ++ ls')) as [now h rs m st n]. unfold stop_time. cbn [pg_main pg_http]. intros IH2 Hh.
  unfold p_step. destruct (exited m); [split; [reflexivity|exact IH2]|].
  assert (Hsame : forall s', pg_reqs s' = rs -> pg_main s' = m -> dom (pg_reqs s') =@{gset nat} dom rs /\ stop_time s' = Some t).
  { intros s' -> E. split; [reflexivity|]. unfold stop_time. rewrite E. exact IH2. }
  assert (Hput : forall k r0 r1, rs !! k = Some r0 -> dom (<[k := r1]> rs) =@{gset nat} dom rs).
  { intros k r0 r1 Hk. apply dom_insert_lookup_L. eauto. }
  destruct l as [d|e|k|k|k| | |e| | | | | |l]; try (destruct m; try discriminate IH2; injection IH2 as <-; split; reflexivity).
  - destruct h; try (apply Hsame; reflexivity). destruct (shut m); [apply Hsame; reflexivity|]. destruct e; apply Hsame; reflexivity.
  - destruct h; [apply Hsame; reflexivity|exfalso; apply Hh; reflexivity|apply Hsame; reflexivity].
  - destruct (rs !! k) as [[| |]|] eqn:E; try (apply Hsame; reflexivity). split; [exact (Hput _ _ _ E)|exact IH2].
  - destruct (rs !! k) as [[| |]|] eqn:E; try (apply Hsame; reflexivity). destruct st; [|apply Hsame; reflexivity]. split; [exact (Hput _ _ _ E)|exact IH2].
  - destruct m; try discriminate IH2; injection IH2 as <-; try (split; reflexivity). destruct (all_done rs); split; reflexivity.
  - destruct m as [| |t0| | | | |]; try discriminate IH2; injection IH2 as <-; try (split; reflexivity). destruct (Nat.leb _ _); split; reflexivity.
  - destruct m; try discriminate IH2; injection IH2 as <-; try (split; reflexivity). destruct (bs_stop n); split; reflexivity.
  - destruct l; apply Hsame; reflexivity.
Qed.
Print Assumptions C190_no_more_requests.

(** ** C191. When the program reports that it stopped without an error, every request it
    had taken was answered. It reports an error only when a listener could not be closed
    (and then all were answered), or after ten seconds. *)
Theorem C191_report self ls e : let s := p_run self ls in
  ended_with s e ->
  ((forall k r, pg_reqs s !! k = Some r -> r = Answered) /\ SDrained e ∈ ls) \/
  (e = Some "context deadline exceeded" /\ exists t, stop_time s = Some t /\ t + 10 * 1000 <= pg_now s).
Proof.
  intros s (t & Hm). pose proof (pi_reason _ _ _ (pinv_run self ls)) as Hr. fold s in Hr. unfold reason in Hr. rewrite Hm in Hr.
  destruct Hr as [H|[H1 H2]]; [left; exact H|right]. split; [exact H1|]. exists t. unfold stop_time. rewrite Hm. split; [reflexivity|exact H2].
Qed.
Print Assumptions C191_report.

(** ** C192. After the signal the program ends, whatever the requests and the other nodes
    do: there is a way to its end in which no request finishes and that takes at most ten
    seconds besides the closing of the network. *)
Lemma net_run self ls n t e now h rs st : pg_main (Prog now h rs (Leaving t e) st n) = Leaving t e -> Forall own_step ls ->
  p_run_from self (Prog now h rs (Leaving t e) st n) (map SNet ls) = Prog now h rs (Leaving t e) st (brun_from self n ls).
Proof.
  intros _. revert n. induction ls as [|l ls IH]; intros n Hf; [reflexivity|]. apply Forall_cons_1 in Hf as [Hl Hf].
  cbn [map]. unfold p_run_from, brun_from in *. cbn [fold_left]. rewrite <- (IH _ Hf). f_equal. destruct l; cbn in Hl; try tauto; reflexivity.
Qed.
Lemma passing_app l l' : passing (l ++ l')%list = passing l + passing l'.
Proof. induction l as [|x l IH]; [reflexivity|]. cbn. destruct x; rewrite IH; lia. Qed.
Theorem C192_program_ends self ls : pg_main (p_run self ls) <> AwaitSignal ->
  exists ls', Forall by_itself ls' /\ passing ls' <= 10 * 1000 /\ exists e, ended_with (p_run self (ls ++ ls')) e.
Proof.
  assert (Hgo : forall ls ls1, Forall by_itself ls1 ->
    (exists ls', Forall by_itself ls' /\ passing ls' + passing ls1 <= 10 * 1000 /\ exists e, ended_with (p_run self ((ls ++ ls1) ++ ls')) e) ->
    exists ls', Forall by_itself ls' /\ passing ls' <= 10 * 1000 /\ exists e, ended_with (p_run self (ls ++ ls')) e).
  { intros l l1 Hf (l' & Hf' & Hp & He). exists (l1 ++ l')%list. split; [apply Forall_app_2; assumption|]. split; [rewrite passing_app; lia|]. rewrite app_assoc. exact He. }
  (* from Leaving on *)
  assert (H3 : forall ls t e, pg_main (p_run self ls) = Leaving t e -> exists ls', Forall by_itself ls' /\ passing ls' = 0 /\ exists e, ended_with (p_run self (ls ++ ls')) e).
  { clear ls. intros ls t e Hm. pose proof (pinv_run self ls) as Hi. destruct (pi_net _ _ _ Hi) as [tr Hn].
    pose proof (pi_crash _ _ _ Hi) as Hc. pose proof (pi_quiet _ _ _ Hi) as Hq.
    assert (Hw : exists tr', Forall own_step tr' /\ bs_stop (brun_from self (pg_net (p_run self ls)) tr') = Stopped).
    { destruct (bs_stop (pg_net (p_run self ls))) eqn:Es.
      - rewrite Hm in Hq. cbn in Hq. destruct Hq as [_ Hq]. discriminate (Hq eq_refl).
      - rewrite Hn in *. destruct (C144_stop_returns self tr Es Hc) as (tr' & Hf & H). exists tr'. rewrite <- brun_app. auto.
      - exists []. split; [constructor|exact Es]. }
    destruct Hw as (tr' & Hf & Hst). exists (map SNet tr' ++ [SP2pDone; SExit])%list. split; [|split].
    - apply Forall_app_2; [apply Forall_map; exact Hf|repeat constructor].
    - rewrite passing_app. cbn. clear. induction tr'; [reflexivity|exact IHtr'].
    - exists e, t. rewrite p_run_app. revert Hm Hst. destruct (p_run self ls) as [now h rs m st n]. cbn [pg_main pg_net]. intros -> Hst.
      unfold p_run_from. rewrite fold_left_app. change (fold_left _ (map SNet tr') _) with (p_run_from self (Prog now h rs (Leaving t e) st n) (map SNet tr')).
      rewrite net_run by (auto; reflexivity). cbn [fold_left]. unfold p_step at 2. cbn [exited]. rewrite Hst. reflexivity. }
  assert (H2 : forall ls t e, pg_main (p_run self ls) = Drained t e -> exists ls', Forall by_itself ls' /\ passing ls' = 0 /\ exists e, ended_with (p_run self (ls ++ ls')) e).
  { clear ls. intros ls t e Hm. destruct (H3 (ls ++ [SCloseStop; SP2pStop])%list t e) as (l' & Hf & Hp & He).
    - rewrite p_run_app. revert Hm. destruct (p_run self ls) as [now h rs m st n]. cbn [pg_main]. intros ->. reflexivity.
    - exists ([SCloseStop; SP2pStop] ++ l')%list. rewrite app_assoc. split; [apply Forall_app_2; [repeat constructor|exact Hf]|]. split; [exact Hp|exact He]. }
  assert (H1 : forall ls t, pg_main (p_run self ls) = Draining t -> exists ls', Forall by_itself ls' /\ passing ls' <= 10 * 1000 /\ exists e, ended_with (p_run self (ls ++ ls')) e).
  { clear ls. intros ls t Hm. set (d := t + drain_time - pg_now (p_run self ls)).
    destruct (Nat.le_gt_cases t (pg_now (p_run self ls))) as [Hle|Hgt].
    2:{ (* time does not run backwards *)
      exfalso. clear -Hm Hgt. assert (G : forall ls t, stop_time (p_run self ls) = Some t -> t <= pg_now (p_run self ls)); [|assert (X := G ls t); unfold stop_time in X; rewrite Hm in X; specialize (X eq_refl); lia].
      clear. intros ls. induction ls as [|l ls IH] using rev_ind; [discriminate|]. rewrite p_run_snoc. revert IH. unfold stop_time. destruct (p_run self ls) as [now h rs m st n]. cbn [pg_main pg_now]. intros IH t.
      unfold p_step. destruct (exited m); [apply IH|].
      destruct l as [d|e|k|k|k| | |e| | | | | |l]; try (destruct m; cbn [pg_main pg_now] in *; intros H; injection H as <- || discriminate H; (lia || (apply IH; reflexivity))).
      - cbn [pg_main pg_now]. intros H. apply IH in H. lia.
      - destruct h; [destruct (shut m); [|destruct e]| |]; apply IH.
      - destruct h; [| |]; try apply IH. destruct (rs !! k); apply IH.
      - destruct (rs !! k) as [[| |]|]; apply IH.
      - destruct (rs !! k) as [[| |]|]; try apply IH. destruct st; apply IH.
      - destruct m; try apply IH. destruct (all_done rs); apply IH.
      - destruct m; try apply IH. destruct (Nat.leb _ _); apply IH.
      - destruct m; try apply IH. destruct (bs_stop n); apply IH.
      - destruct l; apply IH. }
    apply (Hgo ls [STick d; SExpired]); [repeat constructor|].
    destruct (H2 (ls ++ [STick d; SExpired])%list t (Some deadline_exceeded)) as (l' & Hf & Hp & He).
    - rewrite p_run_app. unfold d. clear -Hm. revert Hm. destruct (p_run self ls) as [now h rs m st n]. cbn [pg_main pg_now]. intros ->.
      unfold p_run_from. cbn [fold_left]. unfold p_step. cbn [exited]. destruct (Nat.leb_spec (t + drain_time) (now + (t + drain_time - now))) as [_|H]; [reflexivity|lia].
    - exists l'. split; [exact Hf|]. split; [|exact He]. rewrite Hp. cbn [passing]. unfold d. change drain_time with (10 * 1000). lia. }
  intros Hm. destruct (pg_main (p_run self ls)) as [| |t|t e|t e|t e|t e|t e] eqn:E; [congruence| | | | | | |].
  - destruct (H1 (ls ++ [SStop])%list (pg_now (p_run self ls))) as (l' & Hf & Hp & He).
    + rewrite p_run_snoc. revert E. destruct (p_run self ls) as [now h rs m st n]. cbn [pg_main pg_now]. intros ->. reflexivity.
    + apply (Hgo ls [SStop]); [repeat constructor|]. exists l'. split; [exact Hf|]. split; [cbn [passing]; lia|exact He].
  - exact (H1 _ _ E).
  - destruct (H2 _ _ _ E) as (l' & Hf & Hp & He). exists l'. split; [exact Hf|]. split; [lia|exact He].
  - destruct (H3 (ls ++ [SP2pStop])%list t e) as (l' & Hf & Hp & He).
    + rewrite p_run_snoc. revert E. destruct (p_run self ls) as [now h rs m st n]. cbn [pg_main]. intros ->. reflexivity.
    + apply (Hgo ls [SP2pStop]); [repeat constructor|]. exists l'. split; [exact Hf|]. split; [cbn [passing]; lia|exact He].
  - destruct (H3 _ _ _ E) as (l' & Hf & Hp & He). exists l'. split; [exact Hf|]. split; [lia|exact He].
  - exists [SExit]. split; [repeat constructor|]. split; [cbn; lia|]. exists e, t. rewrite p_run_snoc. revert E. destruct (p_run self ls) as [now h rs m st n]. cbn [pg_main]. intros ->. reflexivity.
  - exists []. split; [constructor|]. split; [cbn; lia|]. rewrite app_nil_r. exists e, t. exact E.
Qed.
Print Assumptions C192_program_ends.

(** ** C193. Refuted: "when the program cannot serve its API, it ends". It prints why,
    answers nothing, and waits for a signal. *)
Theorem C193_cannot_listen_refuted self w ls : SSignal ∉ ls ->
  let s := p_run self (SListen (Some w) :: ls) in
  pg_main s = AwaitSignal /\ pg_reqs s = ∅ /\ pg_http s = Returned (Some ("fail to start http server: " ++ w)).
Proof.
  intros Hs. cbn zeta. change (SListen (Some w) :: ls) with ([SListen (Some w)] ++ ls)%list. induction ls as [|l ls IH] using rev_ind; [auto|].
  rewrite app_assoc, p_run_snoc. destruct IH as (I1 & I2 & I3); [intros H; apply Hs, elem_of_app; auto|].
  revert I1 I2 I3. destruct (p_run self ([SListen (Some w)] ++ ls)) as [now h rs m st n]. cbn [pg_main pg_reqs pg_http]. intros -> -> ->.
  destruct l as [d|e|k|k|k| | |e| | | | | |l]; cbn [p_step exited]; auto.
  - exfalso. apply Hs, elem_of_app. right. left.
  - destruct l; auto.
Qed.
Print Assumptions C193_cannot_listen_refuted.

(** ** C194. Refuted: "a request the program has begun to serve is answered". One that
    takes ten seconds longer than the signal is cut off, though a key generation is
    allowed thirty (main.go:98). *)
Theorem C194_cut_off_refuted self k : exists ls, let s := p_run self ls in
  ended_with s (Some "context deadline exceeded") /\ pg_reqs s !! k = Some Serving /\ passing ls = 10 * 1000.
Proof.
  exists [SListen None; SAccept k; SSignal; SStop; STick drain_time; SExpired; SCloseStop; SP2pStop; SNet BExit; SNet BStopped; SP2pDone; SExit].
  split; [|split]; [|  |reflexivity].
  - exists 0. unfold p_run, p_run_from. cbn [fold_left]. unfold p_init, b_init. cbn [p_step exited shut]. rewrite lookup_empty. cbn [p_step exited].
    destruct (Nat.leb_spec (0 + drain_time) (0 + drain_time)) as [_|H]; [reflexivity|lia].
  - unfold p_run, p_run_from. cbn [fold_left]. unfold p_init, b_init. cbn [p_step exited shut]. rewrite lookup_empty. cbn [p_step exited].
    destruct (Nat.leb_spec (0 + drain_time) (0 + drain_time)) as [_|H]; [|lia]. cbn. apply lookup_insert.
Qed.
Print Assumptions C194_cut_off_refuted.

(** A request that takes nine seconds after the signal is answered, and the program
    reports that it stopped without an error. *)
Example C191_example self : exists ls, let s := p_run self ls in
  ended_with s None /\ pg_reqs s !! 7 = Some Answered /\ passing ls = 9 * 1000.
Proof.
  exists [SListen None; SAccept 7; SSignal; SStop; STick (9 * 1000); SExpired; SAnswer 7; SDrained None; SCloseStop; SP2pStop; SNet BExit; SNet BStopped; SP2pDone; SExit].
  unfold p_run, p_run_from. cbn [fold_left]. unfold p_init, b_init. cbn [p_step exited shut]. rewrite lookup_empty. cbn [p_step exited].
  destruct (Nat.leb_spec (0 + drain_time) (0 + 9 * 1000)) as [H|_]; [change drain_time with (10 * 1000) in H; lia|].
  cbn [p_step exited]. rewrite lookup_insert. cbn [p_step exited].
  assert (Hd : all_done (<[7 := Answered]> (<[7 := Serving]> ∅)) = true).
  { apply all_done_spec. intros k. rewrite insert_insert, lookup_insert_Some. intros [[_ ?]|[_ H]]; [discriminate|]. rewrite lookup_empty in H. discriminate. }
  rewrite Hd. split; [exists 0; reflexivity|]. split; [apply lookup_insert|reflexivity].
Qed.
(** The hypotheses of C190 and C192 are met, at the end of that longer request. *)
Example C190_example self : exists ls, let s := p_run self ls in
  pg_reqs s !! 7 = Some Serving /\ tearing_down s /\ pg_main s <> AwaitSignal /\ exists t, stop_time s = Some t.
Proof.
  destruct (C194_cut_off_refuted self 7) as (ls & (t & He) & Hk & _). exists ls. cbn zeta.
  split; [exact Hk|]. split; [right; right; eexists; exists t; exact He|]. unfold stop_time. rewrite He. split; [discriminate|eauto].
Qed.
