(** Properties of waiting for signatures made by others: C45-C47, C88-C92. *)
From Coq Require Import ZArith NArith Ascii String List Lia.
From stdpp Require Import base list strings gmap countable tactics.
From Verif Require Import Base M_Notifier S_Notifier L_Notifier L_Notifier2.

(** ** C45: a waited-for signature is valid *)

(** Whatever peers send, what a call returns is not empty, every signature in it
    verifies under the pool key of the call for the message of the call at the
    same position, and it is exactly what one peer announced for the id. *)
Theorem C45_waited_signature_valid E ls c id msgs pool d :
  started ls c id msgs pool -> returned (nrun E ls) c (WData d) ->
  d <> [] /\ valid_for E pool msgs d /\
  exists b, NNotify (Some b) ∈ ls /\ announces E b id d.
Proof.
  intros Hst (n & Hc). pose proof (ninv_run E ls) as I.
  assert (Hl : (c, d) ∈ ns_log (nrun E ls)) by (eapply (ni_ph _ _ _ I); eauto).
  destruct (ni_log _ _ _ I _ _ Hl) as (n' & ph & Hc' & Hne & Hv & Hb).
  rewrite Hc in Hc'. injection Hc' as <- <-.
  pose proof (ni_start _ _ _ I _ _ _ Hc) as Hst'.
  destruct (started_unique _ _ _ _ _ _ _ _ Hst Hst') as (-> & -> & ->). auto.
Qed.
Print Assumptions C45_waited_signature_valid.

(** In particular it is never longer than the list of messages. *)
Theorem C45_waited_signature_length E ls c id msgs pool d :
  started ls c id msgs pool -> returned (nrun E ls) c (WData d) ->
  0 < length d <= length msgs.
Proof.
  intros Hst Hr. destruct (C45_waited_signature_valid _ _ _ _ _ _ _ Hst Hr) as (Hne & Hv & _).
  split; [destruct d; [congruence | simpl; lia]|].
  destruct (decide (length d <= length msgs)) as [|Hgt]; [assumption|].
  destruct (lookup_lt_is_Some_2 d (length msgs)) as [s Hs]; [lia|].
  destruct (Hv _ _ Hs) as (msg & Hm & _). apply lookup_lt_Some in Hm. lia.
Qed.
Print Assumptions C45_waited_signature_length.

(** A toy world: one pool key; a signature verifies for a message when R is the
    message's value; a notification for id "id" is a list of one-byte R values. *)
Definition toy_sig (b : bytes) : ecsig := EcSig (Some []) [] b [] [].
Definition toy : nenv := {|
  ne_point := fun p => if String.eqb p "pool" then Some (1%N, 1%N) else None;
  ne_verify := fun _ msg r _ => N.eqb (be_val msg) r;
  ne_marshal_sig := fun s => Some (sg_R s);
  ne_unmarshal_sig := fun b => Some (toy_sig b);
  ne_marshal := fun m => Some (concat (km_sigs m));
  ne_unmarshal := fun b => Some (KsMsg "id" (map (fun a => [a]) b) true) |}.
Definition mA : bytes := ["A"%char].
Definition mB : bytes := ["B"%char].

Definition good_run : list nlabel :=
  [NCall 1 "id" [mA; mB] "pool"; NNotify (Some ["B"%char; "A"%char]);
   NNotify (Some ["A"%char; "B"%char]); NRecv 1; NRemove 1].

Example C45_case :
  started good_run 1 "id" [mA; mB] "pool" /\
  returned (nrun toy good_run) 1 (WData [toy_sig mA; toy_sig mB]).
Proof.
  split.
  - exists [], (tail good_run). split; [reflexivity|]. intros. apply not_elem_of_nil.
  - exists (Notifier "id" [mA; mB] "pool" None). vm_compute. reflexivity.
Qed.

(** ** C46: a waited-for signature set is complete *)

(** For every world: any proper prefix of a valid list is returned as it is, as
    soon as some peer announces it. *)
Theorem C46_prefix_returned E c id msgs pool b d n :
  NewNotifier id msgs pool = Some n ->
  announces E b id d -> d <> [] -> (forall i s, d !! i = Some s -> sg_signature s <> None) ->
  valid_for E pool msgs d -> length d < length msgs ->
  returned (nrun E [NCall c id msgs pool; NNotify (Some b); NRecv c; NRemove c]) c (WData d) /\
  length d <> length msgs.
Proof.
  intros Hn Hann Hne Hsig Hv Hlen. split; [|lia].
  assert (Hrun : nrun E [NCall c id msgs pool] =
    NState {[id := c]} {[c := (Notifier id msgs pool None, WWaiting)]} false false []).
  { change (nrun E [NCall c id msgs pool]) with (do_call c id msgs pool nstate0).
    unfold do_call. rewrite Hn. apply NewNotifier_Some in Hn. subst n. reflexivity. }
  apply (delivered E [NCall c id msgs pool] c id msgs pool b d); auto; rewrite ?Hrun; simpl; auto.
  - exists [], []. split; [reflexivity|]. intros. apply not_elem_of_nil.
  - exists (Notifier id msgs pool None). simpl. apply lookup_singleton.
  - intros c' msgs' pool' H. apply elem_of_list_singleton in H. congruence.
  - apply not_elem_of_nil.
Qed.
Print Assumptions C46_prefix_returned.

Example C46_case :
  NewNotifier "id" [mA; mB] "pool" = Some (Notifier "id" [mA; mB] "pool" None) /\
  announces toy ["A"%char] "id" [toy_sig mA] /\
  (forall i s, [toy_sig mA] !! i = Some s -> sg_signature s <> None) /\
  valid_for toy "pool" [mA; mB] [toy_sig mA] /\ length [toy_sig mA] < length [mA; mB].
Proof.
  split; [reflexivity|]. split.
  - exists (KsMsg "id" [mA] true). repeat split. repeat constructor.
  - split.
    + intros [|[|i]] s H; simpl in H; try discriminate. injection H as <-. discriminate.
    + split; [|simpl; lia].
      intros [|[|i]] s H; simpl in H; try discriminate. injection H as <-.
      exists mA. split; [reflexivity|]. exists (1%N, 1%N). split; reflexivity.
Qed.

(** Refuted: a call for two messages returns one signature. *)
Theorem C46_waited_set_complete_refuted :
  exists E ls c id msgs pool d,
    started ls c id msgs pool /\ returned (nrun E ls) c (WData d) /\ length d <> length msgs.
Proof.
  exists toy, [NCall 1 "id" [mA; mB] "pool"; NNotify (Some ["A"%char]); NRecv 1; NRemove 1],
    1, "id", [mA; mB], "pool", [toy_sig mA].
  split; [eexists [], _; split; [reflexivity|]; intros; apply not_elem_of_nil|].
  destruct C46_case as (Hn & Ha & Hs & Hv & Hl).
  apply (C46_prefix_returned toy 1 "id" [mA; mB] "pool" ["A"%char] [toy_sig mA] _ Hn Ha); auto.
Qed.
Print Assumptions C46_waited_set_complete_refuted.

(** ** C47: at most one delivery, no blocking, no interference *)

Theorem C47_at_most_one_delivery E ls :
  NoDup (ns_log (nrun E ls)).*1 /\ ns_stuck (nrun E ls) = false.
Proof.
  pose proof (ninv_run E ls) as I. split; [apply (ni_nodup _ _ _ I) | apply (ni_stuck _ _ _ I)].
Qed.
Print Assumptions C47_at_most_one_delivery.

(** A payload that cannot be read, does not decode, reports a failure or carries
    no signature changes nothing at all. *)
Theorem C47_failed_ignored E s payload :
  (forall b id d, payload = Some b -> announces E b id d -> d = []) ->
  nstep E s (NNotify payload) = s.
Proof.
  intros H. unfold nstep. destruct (ns_crashed s || ns_stuck s)%bool; [reflexivity|].
  unfold do_notify. destruct (decode_notification E payload) as [[id d]|] eqn:Hd; [|reflexivity].
  assert (d = []) as ->.
  { destruct d as [|x d]; [reflexivity|].
    destruct (decode_nonempty _ _ _ _ Hd) as (b & -> & Ha); [discriminate|].
    exact (H b id _ eq_refl Ha). }
  unfold do_locked. destruct (ns_notifiers s !! id); [|reflexivity].
  destruct (ns_calls s !! n) as [[n' ph]|]; reflexivity.
Qed.
Print Assumptions C47_failed_ignored.

(** A notification in which some signature does not verify for its message, and
    that is not longer than the messages, changes nothing for the calls waiting
    for its id, nor for any other. *)
Theorem C47_invalid_ignored E ls b id d :
  announces E b id d ->
  (forall c msgs pool, started ls c id msgs pool ->
     length d <= length msgs /\ ~ valid_for E pool msgs d) ->
  nstep E (nrun E ls) (NNotify (Some b)) = nrun E ls.
Proof.
  intros Ha Hno. unfold nstep. destruct (ns_crashed (nrun E ls) || ns_stuck (nrun E ls))%bool;
    [reflexivity|].
  unfold do_notify. rewrite (announces_decode _ _ _ _ Ha). unfold do_locked.
  destruct (ns_notifiers (nrun E ls) !! id) as [c|] eqn:Hreg; [|reflexivity].
  pose proof (ninv_run E ls) as I.
  destruct (ni_reg _ _ _ I _ _ Hreg) as (n & ph & Hc & <- & _). rewrite Hc.
  destruct (Hno _ _ _ (ni_start _ _ _ I _ _ _ Hc)) as [Hlen Hnv].
  destruct (ProcessSignature E n d) eqn:Hp; try reflexivity.
  - destruct (deliver_valid _ _ _ Hp) as [_ Hv]. contradiction.
  - destruct (process_panic _ _ _ Hp) as [Hl _]. lia.
Qed.
Print Assumptions C47_invalid_ignored.

(** A notification never changes a call made for another id. *)
Theorem C47_other_ids_untouched E ls b id d c id' msgs pool :
  announces E b id d -> started ls c id' msgs pool -> id <> id' ->
  ns_calls (nstep E (nrun E ls) (NNotify (Some b))) !! c = ns_calls (nrun E ls) !! c /\
  ns_notifiers (nstep E (nrun E ls) (NNotify (Some b))) !! id' = ns_notifiers (nrun E ls) !! id'.
Proof.
  intros Ha Hst Hne. unfold nstep.
  destruct (ns_crashed (nrun E ls) || ns_stuck (nrun E ls))%bool; [auto|].
  unfold do_notify. rewrite (announces_decode _ _ _ _ Ha). unfold do_locked.
  destruct (ns_notifiers (nrun E ls) !! id) as [c'|] eqn:Hreg; [|auto].
  pose proof (ninv_run E ls) as I.
  destruct (ni_reg _ _ _ I _ _ Hreg) as (n & ph & Hc & Hid & _). rewrite Hc.
  destruct (ProcessSignature E n d) eqn:Hp; auto.
  destruct (no_resp n); simpl; auto. split.
  - rewrite lookup_insert_ne; [reflexivity|]. intros ->.
    pose proof (ni_start _ _ _ I _ _ _ Hc) as Hst'.
    destruct (started_unique _ _ _ _ _ _ _ _ Hst Hst') as (Heq & _). congruence.
  - apply lookup_delete_ne. congruence.
Qed.
Print Assumptions C47_other_ids_untouched.

Example C47_case :
  announces toy ["B"%char; "A"%char] "id" [toy_sig mB; toy_sig mA] /\
  (forall c msgs pool, started [NCall 1 "id" [mA; mB] "pool"] c "id" msgs pool ->
     length [toy_sig mB; toy_sig mA] <= length msgs /\
     ~ valid_for toy "pool" msgs [toy_sig mB; toy_sig mA]) /\
  ns_log (nrun toy good_run) = [(1, [toy_sig mA; toy_sig mB])].
Proof.
  split; [|split].
  - exists (KsMsg "id" [mB; mA] true). repeat split. repeat constructor.
  - intros c msgs pool (l1 & l2 & Heq & _).
    destruct l1 as [|x l1]; [|destruct l1; discriminate].
    injection Heq as <- <- <- <-. split; [simpl; lia|].
    intros Hv. destruct (Hv 0 (toy_sig mB) eq_refl) as (m & Hm & p & Hp & Hver).
    simpl in Hm. injection Hm as <-. simpl in Hver. discriminate Hver.
  - vm_compute. reflexivity.
Qed.

(** ** C88: a valid notification reaches the waiting call *)

Theorem C88_valid_notification_delivered E ls c id msgs pool b d :
  started ls c id msgs pool -> waiting (nrun E ls) c ->
  ns_crashed (nrun E ls) = false ->
  (* no other call was made with the id *)
  (forall c' msgs' pool', NCall c' id msgs' pool' ∈ ls -> c' = c) ->
  (* nothing was delivered to it before *)
  c ∉ (ns_log (nrun E ls)).*1 ->
  announces E b id d -> d <> [] -> (forall i s, d !! i = Some s -> sg_signature s <> None) ->
  valid_for E pool msgs d ->
  returned (nrun E (ls ++ [NNotify (Some b); NRecv c; NRemove c])) c (WData d).
Proof. apply delivered. Qed.
Print Assumptions C88_valid_notification_delivered.

Example C88_case :
  let ls := [NCall 1 "id" [mA; mB] "pool"; NNotify (Some ["B"%char; "A"%char]);
             NCall 2 "other" [mA] "pool"; NTimeout 2; NRemove 2] in
  started ls 1 "id" [mA; mB] "pool" /\ waiting (nrun toy ls) 1 /\
  ns_crashed (nrun toy ls) = false /\
  (forall c' msgs' pool', NCall c' "id" msgs' pool' ∈ ls -> c' = 1) /\
  1 ∉ (ns_log (nrun toy ls)).*1 /\
  announces toy ["A"%char; "B"%char] "id" [toy_sig mA; toy_sig mB] /\
  valid_for toy "pool" [mA; mB] [toy_sig mA; toy_sig mB].
Proof.
  split; [|split; [|split; [|split; [|split; [|split]]]]].
  - eexists [], _. split; [reflexivity|]. intros. apply not_elem_of_nil.
  - exists (Notifier "id" [mA; mB] "pool" None). vm_compute. reflexivity.
  - vm_compute. reflexivity.
  - intros c' msgs' pool' H. repeat (apply elem_of_cons in H; destruct H as [H|H]; [congruence|]).
    inversion H.
  - vm_compute. intros H. inversion H.
  - exists (KsMsg "id" [mA; mB] true). repeat split. repeat constructor.
  - intros [|[|[|i]]] s H; simpl in H; try discriminate; injection H as <-.
    + exists mA. split; [reflexivity|]. exists (1%N, 1%N). split; reflexivity.
    + exists mB. split; [reflexivity|]. exists (1%N, 1%N). split; reflexivity.
Qed.

(** ** C89: concurrent waits for the same id are independent *)

(** Refuted: when one of two calls for the same id ends, the other one is
    forgotten: it waits on, and a valid notification no longer reaches it. *)
Theorem C89_same_id_independent_refuted :
  exists E ls c id msgs pool b d,
    started ls c id msgs pool /\ waiting (nrun E ls) c /\ ns_crashed (nrun E ls) = false /\
    c ∉ (ns_log (nrun E ls)).*1 /\
    announces E b id d /\ d <> [] /\ (forall i s, d !! i = Some s -> sg_signature s <> None) /\
    valid_for E pool msgs d /\ length d = length msgs /\
    nrun E (ls ++ [NNotify (Some b); NRecv c; NRemove c]) = nrun E ls.
Proof.
  exists toy, [NCall 1 "id" [mA] "pool"; NCall 2 "id" [mA] "pool"; NTimeout 1; NRemove 1],
    2, "id", [mA], "pool", ["A"%char], [toy_sig mA].
  split; [|split; [|split; [|split; [|split; [|split; [|split; [|split; [|split]]]]]]]].
  - eexists [NCall 1 "id" [mA] "pool"], _. split; [reflexivity|].
    intros ? ? ? H. apply elem_of_list_singleton in H. discriminate.
  - exists (Notifier "id" [mA] "pool" None). vm_compute. reflexivity.
  - vm_compute. reflexivity.
  - vm_compute. intros H. inversion H.
  - exists (KsMsg "id" [mA] true). repeat split. repeat constructor.
  - discriminate.
  - intros [|[|i]] s H; simpl in H; try discriminate. injection H as <-. discriminate.
  - intros [|[|i]] s H; simpl in H; try discriminate. injection H as <-.
    exists mA. split; [reflexivity|]. exists (1%N, 1%N). split; reflexivity.
  - reflexivity.
  - reflexivity.
Qed.
Print Assumptions C89_same_id_independent_refuted.

(** ** C90: a notification never crashes the node *)

(** Refuted: a list of signatures longer than the list of messages, valid as far
    as there are messages, makes the handler index out of range. *)
Theorem C90_notification_no_crash_refuted :
  exists E ls c id msgs pool, started ls c id msgs pool /\ ns_crashed (nrun E ls) = true.
Proof.
  exists toy, [NCall 1 "id" [mA] "pool"; NNotify (Some ["A"%char; "A"%char])], 1, "id", [mA], "pool".
  split; [|vm_compute; reflexivity].
  eexists [], _. split; [reflexivity|]. intros. apply not_elem_of_nil.
Qed.
Print Assumptions C90_notification_no_crash_refuted.

(** ** C91: only a holder of valid signatures for all messages can crash it *)

Theorem C91_crash_needs_valid_signatures E ls :
  ns_crashed (nrun E ls) = true ->
  exists c id msgs pool b d, started ls c id msgs pool /\ NNotify (Some b) ∈ ls /\
    announces E b id d /\ length msgs < length d /\
    (* every message of the call has a valid signature in it *)
    forall i msg, msgs !! i = Some msg -> exists s, d !! i = Some s /\ verifies E pool msg s.
Proof.
  intros H. destruct (crashed_cause _ _ H) as (c & id & msgs & pool & b & d & ? & ? & ? & Hl & Hv).
  exists c, id, msgs, pool, b, d. repeat (split; [assumption|]).
  intros i msg Hm. pose proof (lookup_lt_Some _ _ _ Hm).
  destruct (lookup_lt_is_Some_2 d i) as [s Hs]; [lia|]. exists s. split; [exact Hs|].
  eapply Hv; eauto.
Qed.
Print Assumptions C91_crash_needs_valid_signatures.

Example C91_case :
  ns_crashed (nrun toy [NCall 1 "id" [mA] "pool"; NNotify (Some ["A"%char; "A"%char])]) = true.
Proof. vm_compute. reflexivity. Qed.

(** ** C92: what is broadcast is what the others receive *)

(** Every listed peer other than the node itself is sent the notification, once
    per listing, and nobody else. *)
Theorem C92_broadcast_targets E self id sig peers p :
  count_occ string_dec (map fst (broadcastCommon E self id sig peers)) p =
  if decide (p = self) then 0 else count_occ string_dec peers p.
Proof.
  unfold broadcastCommon. rewrite map_map. simpl. rewrite map_id.
  induction peers as [|q peers IH]; simpl.
  - case_decide; reflexivity.
  - destruct (String.eqb_spec q self) as [->|Hne]; simpl.
    + rewrite IH. case_decide; [reflexivity|].
      destruct (string_dec self p); congruence.
    + destruct (string_dec q p) as [->|]; rewrite IH.
      * rewrite !decide_False by assumption. reflexivity.
      * reflexivity.
Qed.
Print Assumptions C92_broadcast_targets.
