(** Property theorems: batching of outgoing shares (C41). *)
From Coq Require Import ZArith Ascii String List Lia.
From stdpp Require Import base list strings gmap.
From Verif Require Import Base L_Base M_OutCh S_OutCh L_OutCh.

(** For every group, what was sent is what was emitted, in order, up to fewer than
    [oe_num E] shares that are waiting; every bulk message is complete and goes
    where its shares go. As the statement holds for every prefix of the run, a bulk
    message leaves with its last share. *)
Theorem C41_batching :
  forall E tr,
    1 <= oe_num E -> (forall b, is_Some (oe_sign E b)) ->
    Forall (fun x => proper (fst (fst x))) tr ->
    let ems := map (fun x => fst (fst x)) tr in
    let s := orun E tr in
    os_crash s = false /\
    Forall (sent_ok E) (os_sent s) /\
    (forall g, ":"%char ∉ to_bytes (fst g) ->
       exists waiting, delivered g (os_sent s) ++ waiting = emitted g ems /\ length waiting < oe_num E).
Proof.
  intros E tr Hn Hs Hp ems s. destruct (oinv_run E Hn Hs tr Hp) as [Hc Hg Hu Hb Hok].
  split; [exact Hc|]. split; [exact Hok|]. intros g Hgt. exists (default [] (cached s g)).
  split; [apply Hg, Hgt|]. destruct g as [t [d|]]; cbn [cached].
  - destruct (os_uni s !! uni_key t d) as [l|] eqn:Hk; cbn; [|lia].
    apply Hu in Hk as (? & ? & _ & _ & Hl & _). exact Hl.
  - destruct (os_bc s !! t) as [l|] eqn:Hk; cbn; [|lia]. apply Hb in Hk as (_ & Hl & _). exact Hl.
Qed.
Print Assumptions C41_batching.

(** Nothing is sent that belongs to no emitted group: with the theorem, each sent
    share is one of the emitted ones. *)
Theorem C41_nothing_invented :
  forall E tr t,
    1 <= oe_num E -> (forall b, is_Some (oe_sign E b)) ->
    Forall (fun x => proper (fst (fst x))) tr ->
    t ∈ os_sent (orun E tr) -> ":"%char ∉ to_bytes (t_round t) ->
    forall e, e ∈ t_list t -> e ∈ emitted (group_sent t) (map (fun x => fst (fst x)) tr).
Proof.
  intros E tr t Hn Hs Hp Ht Hcol e He.
  destruct (C41_batching E tr Hn Hs Hp) as (_ & _ & Hg).
  destruct (Hg (group_sent t) Hcol) as (w & Heq & _). rewrite <- Heq. apply elem_of_app. left.
  unfold delivered. rewrite <- flat_map_concat_map. apply elem_of_list_In, in_flat_map. exists t.
  split; apply elem_of_list_In; [|exact He]. apply elem_of_list_filter. auto.
Qed.
Print Assumptions C41_nothing_invented.

(** Two sessions, each emitting a broadcast and two unicasts. *)
Definition out_env : oenv :=
  OEnv (fun l => concat (map en_body l)) (fun b => Some b) "req" 2 ["p2"; "p3"]
    (list_to_map [("2", "p2"); ("3", "p3")]).
Definition bc (s t b : string) : emission * order * order :=
  (Emission t s (Some (to_bytes b, ORouting "1" [] true)), [], []).
Definition uc (s t b d : string) : emission * order * order :=
  (Emission t s (Some (to_bytes b, ORouting "1" [Dest d (String.append "{" (String.append d ",}"))] false)), [], []).
Example C41_example :
  map (fun t => (t_round t, map (fun e => of_bytes (en_body e)) (t_list t), t_peers t))
    (os_sent (orun out_env
      [bc "s0" "R1" "a"; uc "s0" "R2" "b2" "2"; uc "s1" "R2" "c3" "3"; uc "s1" "R2" "c2" "2";
       bc "s1" "R1" "d"; uc "s0" "R2" "b3" "3"; bc "s0" "R3" "e"])) =
  [("R2", ["b2"; "c2"], ["p2"]); ("R1", ["a"; "d"], ["p2"; "p3"]); ("R2", ["c3"; "b3"], ["p3"])] /\
  Forall (fun x => proper (fst (fst x))) [bc "s0" "R1" "a"; uc "s0" "R2" "b2" "2"].
Proof.
  split; [vm_compute; reflexivity|].
  repeat constructor; cbn; try (intros b r Hw; injection Hw as <- <-; discriminate);
    intros Hin; repeat (apply elem_of_cons in Hin as [Hin|Hin]; [discriminate|]); inversion Hin.
Qed.

(** ** C164 *)
(** The loop that sends out shares panics exactly when the library hands it a share that is
    neither for everybody nor for anybody. *)
Theorem C164_sending_panics_exactly :
  forall E tr,
    os_crash (orun E tr) = true <->
    exists em o1 o2 body r, (em, o1, o2) ∈ tr /\ em_wire em = Some (body, r) /\ or_bcast r = false /\ or_to r = [].
Proof.
  intros E tr. induction tr as [|[[em o1] o2] tr IH] using rev_ind.
  - split; [discriminate|]. intros (? & ? & ? & ? & ? & X & _). apply elem_of_nil in X. contradiction.
  - unfold orun in *. rewrite foldl_app. cbn [foldl ostep].
    destruct (os_crash (foldl (ostep E) oinit tr)) eqn:Hc.
    { rewrite Hc. split; [intros _|reflexivity].
      destruct (proj1 IH eq_refl) as (em' & a & b & body & r & X & Y). exists em', a, b, body, r.
      split; [apply elem_of_app; auto|exact Y]. }
    assert (Hnot : os_crash (ProcessOutCh E em o1 o2 (foldl (ostep E) oinit tr)) = true <->
              exists body r, em_wire em = Some (body, r) /\ or_bcast r = false /\ or_to r = []).
    { unfold ProcessOutCh. destruct (em_wire em) as [[body r]|]; [|rewrite Hc; split; [discriminate|intros (? & ? & X & _); discriminate]].
      destruct (or_bcast r) eqn:Hb.
      - repeat match goal with |- context [let '(_, _) := ?x in _] => destruct x end. cbn. rewrite Hc.
        split; [discriminate|]. intros (? & ? & X & Y & _). injection X as <- <-. congruence.
      - destruct (or_to r) as [|d ds] eqn:Ht.
        + cbn. split; [|reflexivity]. intros _. exists body, r. auto.
        + repeat match goal with |- context [let '(_, _) := ?x in _] => destruct x end. cbn. rewrite Hc.
          split; [discriminate|]. intros (? & ? & X & _ & Y). injection X as <- <-. congruence. }
    rewrite Hnot. split.
    + intros (body & r & X). exists em, o1, o2, body, r. split; [apply elem_of_app; right; left|exact X].
    + intros (em' & a & b & body & r & X & Y). apply elem_of_app in X as [X|X].
      * assert (F : false = true) by (apply IH; eauto 10). discriminate F.
      * apply elem_of_list_singleton in X. injection X as -> -> ->. eauto.
Qed.
Print Assumptions C164_sending_panics_exactly.
Example C164_example :
  os_crash (orun out_env [bc "s0" "R1" "a"; uc "s0" "R2" "b2" "2"]) = false /\
  os_crash (orun out_env [bc "s0" "R1" "a"; (Emission "R2" "s0" (Some ([], ORouting "1" [] false)), [], [])]) = true.
Proof. vm_compute. auto. Qed.
