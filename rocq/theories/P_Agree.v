(** C162: an agreed broadcast is applied whatever else is going on. *)
From Coq Require Import ZArith Ascii String List Lia.
From stdpp Require Import base list strings gmap.
From Verif Require Import Base L_Base S_Threshold M_Common S_Common L_Common L_Agree P_Common.
Local Open Scope string_scope.

(** Take any history of a ceremony without a crash, with any other traffic and any moments of
    the workers in between. If a broadcast of a member was received, threshold-1 other peers
    confirmed its hash, and nobody contradicted it - every confirmation under its key gives
    its hash and is not from its sender, and no other authentic broadcast has that key - then at
    some moment the node began to hand the shares of the message to its local parties. *)
Theorem C162_agreed_broadcast_applied_in_any_traffic :
  forall E C tr w owner to kb op l P,
    let k := String.append owner (String.append "-" (w_round w)) in
    let h := e_sha E (w_body w) in
    w_routing w = Some (Routing (FId owner) to true) ->
    cf_parties C !! owner = Some kb ->
    e_verify E kb (w_body w ++ to_bytes (cf_msgid C))%list (w_sig w) = true ->
    cf_id2peer C !! owner = Some op -> op <> cf_local C ->
    e_dec_bulk E (w_body w) = Some l ->
    s_crash (run E C tr) = false ->
    (exists p t, handled E C tr p (MShare t (Some w))) ->
    (forall p, p ∈ P -> exists t v, handled E C tr p (MVer t (Some v)) /\ v_key v = k) ->
    NoDup P -> cf_local C ∉ P ->
    (threshold_of (Z.of_nat (size (cf_parties C))) - 1 <= Z.of_nat (length P))%Z ->
    (forall p t v, handled E C tr p (MVer t (Some v)) -> v_key v = k -> v_hash v = h /\ p <> op) ->
    (forall w' id, authentic E C (handled E C tr) w' id -> is_broadcast w' -> names k w' id -> w' = w) ->
    exists tr1 tr2, tr = (tr1 ++ tr2)%list /\ s_cur (run E C tr1) = Some (Cur l (Some k) w).
Proof.
  intros E C tr w owner to kb op l P k h Hr Hk Hs Hop Hol Hl Hc Hw Hp D1 D2 Hth N1 N2.
  apply (agreed_is_applied E C w owner to kb op l Hr Hk Hs Hop Hl Hol tr P Hc); try assumption.
  - split; assumption.
  - unfold cf_threshold. lia.
Qed.
Print Assumptions C162_agreed_broadcast_applied_in_any_traffic.

(** Five members: other peers' confirmations of other broadcasts, junk, and the work on an
    earlier message in between. *)
Definition agree_w := toy_wire "1" true "KGRound1Message" "good1".
Definition agree_k := "1-KGRound1Message".
Definition agree_history : list label :=
  [recv "p3" (ver agree_k "good1"); recv "p5" (ver "3-KGRound1Message" "good3"); recv "evil" (ver "x" "y");
   recv "p1" (share agree_w); LLoop; recv "p4" MNil; recv "p4" (ver "3-KGRound1Message" "good3");
   recv "p4" (ver agree_k "good1"); LLoop; LWork 0 None; LAccept 0; LFinish].
Example C162_example :
  let C := toy_cfg 5 "p2" in
  s_crash (run toy_env C agree_history) = false /\
  (exists p t, handled toy_env C agree_history p (MShare t (Some agree_w))) /\
  (forall p, p ∈ ["p3"; "p4"] -> exists t v, handled toy_env C agree_history p (MVer t (Some v)) /\ v_key v = agree_k) /\
  (threshold_of (Z.of_nat (size (cf_parties C))) - 1 <= 2)%Z /\
  (forall p t v, handled toy_env C agree_history p (MVer t (Some v)) -> v_key v = agree_k -> v_hash v = "good1" /\ p <> "p1") /\
  (forall w' id, authentic toy_env C (handled toy_env C agree_history) w' id -> is_broadcast w' -> names agree_k w' id -> w' = agree_w) /\
  map j_from (s_log (run toy_env C agree_history)) = ["1"].
Proof.
  cbv zeta. split; [vm_compute; reflexivity|]. split.
  { exists "p1", TSSKeyGenMsg. exists (take 3 agree_history), [], [], (drop 4 agree_history). vm_compute. auto. }
  split.
  { intros p X. repeat (apply elem_of_cons in X as [->|X]); [| |apply elem_of_nil in X; contradiction].
    - eexists _, _. split; [exists [], [], [], (drop 1 agree_history); split; [reflexivity|vm_compute; auto]|reflexivity].
    - eexists _, _. split; [exists (take 7 agree_history), [], [], (drop 8 agree_history); split; [reflexivity|vm_compute; auto]|reflexivity]. }
  assert (In : forall p m, handled toy_env (toy_cfg 5 "p2") agree_history p m ->
            (p, m) ∈ omap (fun x => match x with LRecv _ _ p m => Some (p, m) | _ => None end) agree_history).
  { intros p m (a & o1 & o2 & b & X & _). rewrite X. apply elem_of_list_omap.
    exists (LRecv o1 o2 p m). split; [|reflexivity]. apply elem_of_app. right. left. }
  split; [vm_compute; discriminate|]. split.
  { intros p t v X Y. apply In in X. cbn in X.
    repeat (apply elem_of_cons in X as [X|X];
      [unfold ver, share in X; inversion X; subst;
       first [split; [reflexivity|discriminate]|exfalso; vm_compute in Y; discriminate Y]|]).
    apply elem_of_nil in X. contradiction. }
  split.
  { intros w' id ((p & m & X & [[t ->]|(c & -> & Z)]) & _) _ _; apply In in X; cbn in X;
      repeat (apply elem_of_cons in X as [X|X]; [unfold ver, share in X; inversion X; subst; reflexivity|]);
      apply elem_of_nil in X; contradiction. }
  vm_compute. reflexivity.
Qed.
