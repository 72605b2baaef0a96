(** Property theorems: subscriptions and stream bookkeeping (C15-C18, C72-C75). *)
From Coq Require Import ZArith NArith Ascii String List Lia.
From stdpp Require Import base list strings gmap.
From Verif Require Import Base L_Base M_Stream S_Stream L_Stream P_Stream M_Comm S_Comm L_Comm L_Comm2.

(** ** C15 *)
Theorem C15_subscriptions_are_a_map :
  forall h t m c, getSubscriber t m (run_subs h) = Some c <-> subscribed t m h c.
Proof. exact subscribed_iff. Qed.
Print Assumptions C15_subscriptions_are_a_map.

(** A frame that arrives, in whatever pieces, goes to the subscriber of its type and
    id, and nowhere if there is none. *)
Theorem C15_delivery :
  forall decode h frags msg f rest t m,
    (N.of_nat (length msg) <= limit)%N -> frame msg f -> concat frags = f ++ rest ->
    decode msg = Some (t, m) ->
    (forall c, subscribed t m h c ->
       readFromStream decode frags (run_subs h) = Received m (Some (c, msg))) /\
    ((forall c, ~ subscribed t m h c) ->
       readFromStream decode frags (run_subs h) = Received m None).
Proof.
  intros decode h frags msg f rest t m Hl Hf Hc Hd.
  destruct (C11_read_back msg f frags rest Hl Hf Hc) as [left Hr].
  unfold readFromStream. rewrite Hr. cbn [fst]. rewrite Hd. split.
  - intros c Hs. apply subscribed_iff in Hs. rewrite Hs. reflexivity.
  - intros Hn. destruct (getSubscriber t m (run_subs h)) as [c|] eqn:E; [|reflexivity].
    apply subscribed_iff in E. destruct (Hn _ E).
Qed.
Print Assumptions C15_delivery.

(** Nothing else is delivered: what is delivered is the payload of a frame that was
    received, its subscriber is the one for its type and id. *)
Theorem C15_nothing_else_delivered :
  forall decode h frags key c data,
    readFromStream decode frags (run_subs h) = Received key (Some (c, data)) ->
    exists t f rest, frame data f /\ concat frags = f ++ rest /\
      decode data = Some (t, key) /\ subscribed t key h c.
Proof.
  intros decode h frags key c data H. unfold readFromStream in H.
  destruct (ReadStreamWithBuffer frags) as [[[b|] left] alloc] eqn:Hr; cbn [fst] in H; [|discriminate].
  destruct (decode b) as [[t m]|] eqn:Hd; [|discriminate].
  destruct (getSubscriber t m (run_subs h)) as [c'|] eqn:E; [|discriminate].
  injection H as -> -> ->. destruct (C13_read_is_a_frame _ _ _ _ Hr) as (f & rest & Hf & Hc).
  exists t, f, rest. repeat split; auto. apply subscribed_iff. exact E.
Qed.
Print Assumptions C15_nothing_else_delivered.

(** In every run of requests and stream handlers, a request only ever gets messages
    that carry its id and one of the four types of its kind. *)
Theorem C15_request_gets_only_its_messages :
  forall decode ls r q p d,
    cm_reqs (cm_run decode ls) !! r = Some q -> (p, d) ∈ rq_got q ->
    exists t, decode d = Some (t, rq_id q) /\
      ((rq_kind q = KGen /\ t ∈ [0; 2; 4; 5]) \/ (rq_kind q = KSign /\ t ∈ [1; 3; 4; 5])).
Proof.
  intros decode ls r q p d Hr Hin.
  destruct (ci_q _ _ (cinv_run decode ls) r q p d Hr) as (t & Hd & Ht); [set_solver|].
  exists t. split; [exact Hd|]. destruct (rq_kind q); [left|right]; auto.
Qed.
Print Assumptions C15_request_gets_only_its_messages.

(** Example: a decoder for payloads of the form type, id. *)
Definition ex_decode (b : bytes) : option (nat * string) :=
  match b with [] => None | c :: b' => Some (N.to_nat (byte_val c), of_bytes b') end.
Definition ex_msg (t : nat) (m : string) : bytes := ascii_of_N (N.of_nat t) :: to_bytes m.
Definition ex_frame (t : nat) (m : string) : bytes :=
  put_uint32 (N.of_nat (length (ex_msg t m))) ++ ex_msg t m.
Example C15_example :
  subscribed 4 "a" [Sub 4 "b" 2; Sub 4 "a" 1; Sub 4 "a" 3; Cancel 4 "b"] 3 /\
  readFromStream ex_decode [ex_frame 4 "a"] (run_subs [Sub 4 "b" 2; Sub 4 "a" 1; Sub 4 "a" 3; Cancel 4 "b"])
    = Received "a" (Some (3, ex_msg 4 "a")) /\
  (forall c, ~ subscribed 4 "b" [Sub 4 "b" 2; Sub 4 "a" 1; Sub 4 "a" 3; Cancel 4 "b"] c).
Proof.
  split; [|split; [vm_compute; reflexivity|]].
  - apply subscribed_iff. vm_compute. reflexivity.
  - intros c H. apply subscribed_iff in H. revert H. vm_compute. discriminate.
Qed.

(** ** C16 *)
Theorem C16_finished_leave_nothing :
  forall decode ls m t,
    (forall r q, cm_reqs (cm_run decode ls) !! r = Some q -> rq_id q = m -> rq_stage q = Done) ->
    getSubscriber t m (cm_subs (cm_run decode ls)) = None.
Proof.
  intros decode ls m t Hd. destruct (getSubscriber t m (cm_subs (cm_run decode ls))) as [c|] eqn:E; [|reflexivity].
  destruct (ci_sub _ _ (cinv_run decode ls) _ _ _ E) as (q & Hq & Hi & _ & Ho).
  rewrite (Hd _ _ Hq Hi) in Ho. destruct Ho.
Qed.
Print Assumptions C16_finished_leave_nothing.

Theorem C16_all_finished_table_empty :
  forall decode ls,
    (forall r q, cm_reqs (cm_run decode ls) !! r = Some q -> rq_stage q = Done) ->
    cm_subs (cm_run decode ls) = ∅.
Proof.
  intros decode ls Hd. apply tidy_empty; [apply (ci_tidy _ _ (cinv_run decode ls))|].
  intros t m. apply C16_finished_leave_nothing. eauto.
Qed.
Print Assumptions C16_all_finished_table_empty.

(** Whatever other requests start, run and finish, a request at work is subscribed for
    the four types of its kind, provided no two requests with its id are ever active
    together. *)
Theorem C16_others_do_not_interfere :
  forall decode ls r q,
    cm_reqs (cm_run decode ls) !! r = Some q -> rq_stage q = Working ->
    (forall ls1 ls2 r1 r2 q1 q2, ls = ls1 ++ ls2 ->
       cm_reqs (cm_run decode ls1) !! r1 = Some q1 -> cm_reqs (cm_run decode ls1) !! r2 = Some q2 ->
       rq_id q1 = rq_id q -> rq_id q2 = rq_id q -> rq_stage q1 <> Done -> rq_stage q2 <> Done -> r1 = r2) ->
    forall t, (rq_kind q = KGen /\ t ∈ [0; 2; 4; 5]) \/ (rq_kind q = KSign /\ t ∈ [1; 3; 4; 5]) ->
      getSubscriber t (rq_id q) (cm_subs (cm_run decode ls)) = Some r.
Proof.
  intros decode ls r q Hr Hw Hs t Ht.
  apply (connected_run decode (rq_id q) ls) with q.
  - intros ls1 ls2 He r1 r2 q1 q2. eauto.
  - exact Hr.
  - reflexivity.
  - destruct Ht as [[-> Ht]|[-> Ht]]; exact Ht.
  - rewrite Hw. exact I.
Qed.
Print Assumptions C16_others_do_not_interfere.

(** A boolean form of the hypothesis, for the example. *)
Definition no_overlap_at (m : string) (s : comm) : bool :=
  let act := List.filter (fun x => String.eqb (rq_id (snd x)) m && negb (is_done (rq_stage (snd x)))) (map_to_list (cm_reqs s)) in
  forallb (fun x => forallb (fun y => Nat.eqb (fst x) (fst y)) act) act.
Lemma no_overlap_at_sound m s r1 r2 q1 q2 :
  no_overlap_at m s = true -> cm_reqs s !! r1 = Some q1 -> cm_reqs s !! r2 = Some q2 ->
  rq_id q1 = m -> rq_id q2 = m -> rq_stage q1 <> Done -> rq_stage q2 <> Done -> r1 = r2.
Proof.
  unfold no_overlap_at. intros H H1 H2 Hi1 Hi2 Hs1 Hs2.
  assert (E : forall r q, cm_reqs s !! r = Some q -> rq_id q = m -> rq_stage q <> Done ->
    In (r, q) (List.filter (fun x => String.eqb (rq_id (snd x)) m && negb (is_done (rq_stage (snd x)))) (map_to_list (cm_reqs s)))).
  { intros r q Hq Hi Hst. apply filter_In. split.
    - apply elem_of_list_In, elem_of_map_to_list, Hq.
    - cbn. rewrite Hi, String.eqb_refl. destruct (rq_stage q); [reflexivity..|congruence]. }
  rewrite forallb_forall in H. specialize (H _ (E _ _ H1 Hi1 Hs1)).
  rewrite forallb_forall in H. specialize (H _ (E _ _ H2 Hi2 Hs2)). apply Nat.eqb_eq in H. exact H.
Qed.
Lemma no_overlap_prefixes decode m ls :
  forallb (fun k => no_overlap_at m (cm_run decode (take k ls))) (seq 0 (S (length ls))) = true ->
  forall ls1 ls2, ls = ls1 ++ ls2 -> no_overlap_at m (cm_run decode ls1) = true.
Proof.
  intros H ls1 ls2 ->. rewrite forallb_forall in H. specialize (H (length ls1)).
  rewrite take_app in H. apply H. apply in_seq. rewrite app_length. lia.
Qed.

Definition ex_busy : list clabel :=
  [CStart 0 KGen "a" 1; CNext 0; CNext 0; CStart 1 KSign "b" 1; CNext 1; CNext 0; CNext 1; CNext 0; CNext 1; CNext 1;
   CStream 0 "p" [ex_frame 4 "a"]; CSend 0; CTake 0 0;
   CEnd 1; CNext 1; CNext 1; CNext 1; CNext 1].
Example C16_example :
  (rq_stage <$> cm_reqs (cm_run ex_decode ex_busy) !! 0) = Some Working /\
  (rq_got <$> cm_reqs (cm_run ex_decode ex_busy) !! 0) = Some [("p"%string, ex_msg 4 "a")] /\
  (rq_stage <$> cm_reqs (cm_run ex_decode ex_busy) !! 1) = Some Done /\
  getSubscriber 4 "a" (cm_subs (cm_run ex_decode ex_busy)) = Some 0 /\
  getSubscriber 4 "b" (cm_subs (cm_run ex_decode ex_busy)) = None /\
  (forall ls1 ls2 r1 r2 q1 q2, ex_busy = ls1 ++ ls2 ->
     cm_reqs (cm_run ex_decode ls1) !! r1 = Some q1 -> cm_reqs (cm_run ex_decode ls1) !! r2 = Some q2 ->
     rq_id q1 = "a"%string -> rq_id q2 = "a"%string -> rq_stage q1 <> Done -> rq_stage q2 <> Done -> r1 = r2).
Proof.
  split; [vm_compute; reflexivity|]. split; [vm_compute; reflexivity|]. split; [vm_compute; reflexivity|].
  split; [vm_compute; reflexivity|]. split; [vm_compute; reflexivity|].
  intros ls1 ls2 r1 r2 q1 q2 He. apply no_overlap_at_sound.
  eapply no_overlap_prefixes; [|exact He]. vm_compute. reflexivity.
Qed.

(** ** C74: two keysign requests with the same id *)
Theorem C74_same_id_disturbs_refuted :
  exists decode ls r q,
    cm_reqs (cm_run decode ls) !! r = Some q /\ rq_stage q = Working /\
    forall t, getSubscriber t (rq_id q) (cm_subs (cm_run decode ls)) = None.
Proof.
  exists ex_decode,
    ([CStart 0 KSign "a" 1] ++ repeat (CNext 0) 4 ++ [CStart 1 KSign "a" 1] ++ repeat (CNext 1) 4 ++
     [CEnd 0] ++ repeat (CNext 0) 4), 1.
  exists (Request KSign "a" 1 Working [] []).
  split; [vm_compute; reflexivity|]. split; [reflexivity|]. intros t. cbn [rq_id].
  match goal with |- getSubscriber t _ ?s = None => assert (E : s = ∅) by (apply map_size_empty_iff; vm_compute; reflexivity) end.
  rewrite E. reflexivity.
Qed.
Print Assumptions C74_same_id_disturbs_refuted.

(** ** C75: a handler that waits for ever *)
Theorem C75_handler_never_ends_refuted :
  exists decode ls h x, cm_handlers (cm_run decode ls) !! h = Some x /\
    forall ls', cm_handlers (cm_run decode (ls ++ ls')) !! h = Some x.
Proof.
  set (ls := [CStart 0 KGen "a" 1] ++ repeat (CNext 0) 4 ++
     [CStream 0 "p" [ex_frame 4 "a"]; CStream 1 "p" [ex_frame 4 "a"]; CSend 0; CEnd 0] ++ repeat (CNext 0) 4).
  exists ex_decode, ls, 1, (Handler "p" 0 (ex_msg 4 "a")).
  assert (H : stuck 1 (Handler "p" 0 (ex_msg 4 "a")) (Request KGen "a" 1 Done [("p"%string, ex_msg 4 "a")] []) (cm_run ex_decode ls)).
  { split; [vm_compute; reflexivity|]. split; [vm_compute; reflexivity|]. split; [reflexivity|]. cbn. lia. }
  split; [apply H|]. intros ls'. apply (stuck_run ex_decode _ _ _ ls ls') in H. apply H.
Qed.
Print Assumptions C75_handler_never_ends_refuted.

(** ** C17 *)
(** After any history, releasing [m] resets exactly the streams recorded under [m]
    since its last release, then those under UNKNOWN. *)
Theorem C17_release :
  forall h m, fst (ReleaseStream m (run_streams h)) = recorded m h ++ recorded "UNKNOWN" h.
Proof. intros h m. rewrite released, !recorded_spec. reflexivity. Qed.
Print Assumptions C17_release.

(** Those of [m] are forgotten: a second release does not reset them again. *)
Theorem C17_forgotten :
  forall h m, m <> "UNKNOWN"%string ->
    fst (ReleaseStream m (run_streams (h ++ [Release m]))) = recorded "UNKNOWN" h.
Proof.
  intros h m Hm. rewrite released. unfold run_streams. rewrite fold_left_app. cbn [fold_left apply_stream].
  rewrite !held_release, decide_True, decide_False by auto. cbn [app].
  change (fold_left apply_stream h ∅) with (run_streams h). apply recorded_spec.
Qed.
Print Assumptions C17_forgotten.

(** Those of another id are not touched. *)
Theorem C17_others_kept :
  forall h m m', m <> m' ->
    fst (ReleaseStream m' (run_streams (h ++ [Release m]))) =
      recorded m' h ++ (if decide (m = "UNKNOWN"%string) then [] else recorded "UNKNOWN" h).
Proof.
  intros h m m' Hm. rewrite released. unfold run_streams. rewrite fold_left_app. cbn [fold_left apply_stream].
  rewrite !held_release. rewrite (decide_False (P := m = m')) by exact Hm.
  change (fold_left apply_stream h ∅) with (run_streams h). rewrite !recorded_spec. reflexivity.
Qed.
Print Assumptions C17_others_kept.

Example C17_example :
  fst (ReleaseStream "a" (run_streams [Add "a" (Some 1); Add "b" (Some 2); Add "UNKNOWN" (Some 3); Add "a" None; Add "a" (Some 4)]))
    = [1; 4; 3].
Proof. vm_compute. reflexivity. Qed.

(** ** C73: a stream recorded under UNKNOWN is reset again by every release *)
Theorem C73_reset_once_refuted :
  exists h m1 m2 st, m1 <> m2 /\ h = [Add "UNKNOWN" (Some st)] /\
    st ∈ fst (ReleaseStream m1 (run_streams h)) /\
    st ∈ fst (ReleaseStream m2 (run_streams (h ++ [Release m1]))).
Proof.
  exists [Add "UNKNOWN" (Some 7)], "a"%string, "b"%string, 7.
  split; [discriminate|]. split; [reflexivity|]. rewrite !released. vm_compute. split; left.
Qed.
Print Assumptions C73_reset_once_refuted.

(** ** C18 *)
(** AddStream between the two critical sections of ReleaseStream: no call is in
    progress any more, the stream is recorded nowhere and was not reset. *)
Theorem C18_stream_lost_refuted :
  exists ls m st, In (SAdd m (Some st)) ls /\
    sm_calls (sm_run ls) = ∅ /\ sm_map (sm_run ls) = ∅ /\ st ∉ sm_reset (sm_run ls).
Proof.
  exists [SAdd "a" (Some 1); SRead 0 "a"; SReset 0; SAdd "a" (Some 2); SDelete 0], "a"%string, 2.
  split; [cbn; tauto|]. split; [apply map_size_empty_iff; vm_compute; reflexivity|].
  split; [apply map_size_empty_iff; vm_compute; reflexivity|].
  vm_compute. intros H. repeat (apply elem_of_cons in H as [H|H]; [discriminate|]). apply elem_of_nil in H. exact H.
Qed.
Print Assumptions C18_stream_lost_refuted.

(** ** C72: without such an AddStream no stream is lost, in every interleaving *)
Theorem C72_no_stream_lost :
  forall ls,
    (forall ls1 m st ls2 k c, ls = ls1 ++ SAdd m (Some st) :: ls2 ->
       sm_calls (sm_run ls1) !! k = Some c -> ca_id c <> m) ->
    forall m st, In (SAdd m (Some st)) ls ->
      (exists m' l, sm_map (sm_run ls) !! m' = Some l /\ st ∈ l) \/
      st ∈ sm_reset (sm_run ls) \/
      (exists k c, sm_calls (sm_run ls) !! k = Some c /\ st ∈ ca_todo c).
Proof.
  intros ls Hg. assert (G : sminv (sm_run ls) /\ forall m st, In (SAdd m (Some st)) ls -> accounted (sm_run ls) st).
  { induction ls as [|l ls IH] using rev_ind.
    - split; [|intros m st []]. split. intros k c l st H.
      pose proof (lookup_empty (M := gmap nat) (A := call) k) as He. cbn in H. congruence.
    - destruct IH as [Hi Ha].
      { intros ls1 m st ls2 k c ->. intros Hk. apply (Hg ls1 m st (ls2 ++ [l]) k c); [rewrite <- app_assoc; reflexivity|exact Hk]. }
      rewrite sm_run_snoc. split.
      + apply sminv_step; [|exact Hi]. destruct l as [m [st|]| | |]; cbn; auto.
        intros k c Hk. apply (Hg ls m st [] k c eq_refl Hk).
      + intros m st Hin. apply sm_step_accounted; [exact Hi|].
        apply in_app_or in Hin as [Hin|[->|[]]]; [left; eauto|right; eauto]. }
  intros m st Hin. exact (proj2 G m st Hin).
Qed.
Print Assumptions C72_no_stream_lost.
Example C72_example :
  let ls := [SAdd "a" (Some 1); SAdd "b" (Some 2); SRead 0 "a"; SRead 1 "b"; SReset 1; SAdd "c" (Some 3); SReset 0; SDelete 1; SDelete 0] in
  sm_reset (sm_run ls) = [2; 1] /\ map_to_list (sm_map (sm_run ls)) = [("c"%string, [3])] /\
  (forall ls1 m st ls2 k c, ls = ls1 ++ SAdd m (Some st) :: ls2 ->
       sm_calls (sm_run ls1) !! k = Some c -> ca_id c <> m).
Proof.
  intros ls. split; [vm_compute; reflexivity|]. split; [vm_compute; reflexivity|].
  intros ls1 m st ls2 k c He. subst ls.
  repeat (destruct ls1 as [|? ls1]; [first [discriminate He|injection He as <- <- _]|injection He as <- He]).
  3: { intros Hk. apply elem_of_map_to_list in Hk.
       match type of Hk with ?x ∈ ?l => let l' := eval vm_compute in l in change (x ∈ l') in Hk end.
       repeat (apply elem_of_cons in Hk as [Hk|Hk]; [injection Hk as _ ->; discriminate|]).
       apply elem_of_nil in Hk. easy. }
  1, 2: intros Hk; apply elem_of_map_to_list in Hk; apply elem_of_nil in Hk; easy.
  all: destruct ls1; discriminate He.
Qed.
