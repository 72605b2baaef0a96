(** Lemmas: subscriptions, stream bookkeeping, requests. *)
From Coq Require Import ZArith NArith Ascii String List Lia.
From stdpp Require Import base list strings gmap.
From Verif Require Import Base L_Base M_Stream M_Comm S_Comm.

(** ** Subscriptions *)
Definition apply_sub (s : subs) (o : sub_op) : subs :=
  match o with Sub t m c => SetSubscribe t m c s | Cancel t m => CancelSubscribe t m s end.
Definition run_subs (h : list sub_op) : subs := fold_left apply_sub h ∅.

Lemma get_set t m c t' m' s :
  getSubscriber t' m' (SetSubscribe t m c s) =
  if decide ((t', m') = (t, m)) then Some c else getSubscriber t' m' s.
Proof.
  unfold getSubscriber, SetSubscribe, Subscribe, GetSubscriber.
  destruct (decide (t' = t)) as [->|Ht].
  - destruct (s !! t) as [ms|] eqn:E; rewrite lookup_insert;
      (destruct (decide (m' = m)) as [->|Hm];
       [rewrite lookup_insert, decide_True by reflexivity; reflexivity|
        rewrite lookup_insert_ne by congruence; rewrite decide_False by congruence; try reflexivity]).
  - rewrite (decide_False (P := (t', m') = (t, m))) by congruence.
    destruct (s !! t); rewrite lookup_insert_ne by congruence; reflexivity.
Qed.

Lemma isempty_true ms : IsEmpty ms = true <-> ms = ∅.
Proof. unfold IsEmpty. rewrite Nat.eqb_eq. apply map_size_empty_iff. Qed.

Lemma get_cancel t m t' m' s :
  getSubscriber t' m' (CancelSubscribe t m s) =
  if decide ((t', m') = (t, m)) then None else getSubscriber t' m' s.
Proof.
  unfold getSubscriber, CancelSubscribe, UnSubscribe, GetSubscriber.
  destruct (s !! t) as [ms|] eqn:E.
  - destruct (IsEmpty (delete m ms)) eqn:Em.
    + apply isempty_true in Em. destruct (decide (t' = t)) as [->|Ht].
      * rewrite lookup_delete, E. case_decide as Hd; [reflexivity|].
        assert (Hm : m' <> m) by congruence.
        rewrite <- (lookup_delete_ne ms m m') by congruence. rewrite Em. reflexivity.
      * rewrite lookup_delete_ne by congruence. rewrite decide_False by congruence. reflexivity.
    + destruct (decide (t' = t)) as [->|Ht].
      * rewrite lookup_insert, E. case_decide as Hd.
        { injection Hd as ->. apply lookup_delete. }
        apply lookup_delete_ne. congruence.
      * rewrite lookup_insert_ne by congruence. rewrite decide_False by congruence. reflexivity.
  - case_decide as Hd; [|reflexivity]. injection Hd as -> ->. rewrite E. reflexivity.
Qed.

(** No empty second-level table is kept. *)
Definition tidy (s : subs) : Prop := forall t ms, s !! t = Some ms -> ms <> ∅.
Lemma tidy_set t m c s : tidy s -> tidy (SetSubscribe t m c s).
Proof.
  intros H t' ms. unfold SetSubscribe, Subscribe.
  destruct (s !! t) eqn:E; destruct (decide (t = t')) as [->|Ht].
  1, 3: rewrite lookup_insert; intros [= <-]; apply insert_non_empty.
  all: rewrite lookup_insert_ne by congruence; apply H.
Qed.
Lemma tidy_cancel t m s : tidy s -> tidy (CancelSubscribe t m s).
Proof.
  intros H t' ms. unfold CancelSubscribe, UnSubscribe.
  destruct (s !! t) as [ms0|] eqn:E; [|apply H].
  destruct (IsEmpty (delete m ms0)) eqn:Em; destruct (decide (t = t')) as [->|Ht].
  - rewrite lookup_delete. discriminate.
  - rewrite lookup_delete_ne by congruence. apply H.
  - rewrite lookup_insert. intros [= <-] He. apply isempty_true in He. congruence.
  - rewrite lookup_insert_ne by congruence. apply H.
Qed.
Lemma tidy_empty s : tidy s -> (forall t m, getSubscriber t m s = None) -> s = ∅.
Proof.
  intros Ht Hn. apply map_empty. intros t. destruct (s !! t) as [ms|] eqn:E; [|reflexivity].
  exfalso. apply (Ht _ _ E), map_empty. intros m. specialize (Hn t m).
  unfold getSubscriber in Hn. rewrite E in Hn. exact Hn.
Qed.

Lemma subscribed_iff h t m c : getSubscriber t m (run_subs h) = Some c <-> subscribed t m h c.
Proof.
  revert c. induction h as [|o h IH] using rev_ind; intros c.
  - split.
    + unfold run_subs, getSubscriber. cbn. intros Hk.
      pose proof (lookup_empty (M := gmap nat) (A := gmap string chan) t) as He. rewrite He in Hk. discriminate.
    + inversion 1 as [h c' Hh|h t' m' c' c'' Hne Hs Hh|h t' m' c'' Hne Hs Hh]; destruct h; discriminate.
  - unfold run_subs. rewrite fold_left_app. cbn [fold_left]. fold (run_subs h).
    destruct o as [t' m' c'|t' m']; cbn [apply_sub].
    + rewrite get_set. case_decide as Hd.
      * injection Hd as -> ->. split; [intros [= ->]; constructor|].
        inversion 1 as [h0 c0 Hh|h0 t0 m0 c0 c1 Hne Hs Hh|h0 t0 m0 c1 Hne Hs Hh];
          apply app_inj_tail in Hh as [_ Hh]; congruence.
      * rewrite IH. split; [intros H; apply sub_other; congruence|].
        inversion 1 as [h0 c0 Hh|h0 t0 m0 c0 c1 Hne Hs Hh|h0 t0 m0 c1 Hne Hs Hh];
          apply app_inj_tail in Hh as [Hh1 Hh]; congruence.
    + rewrite get_cancel. case_decide as Hd.
      * injection Hd as -> ->. split; [discriminate|].
        inversion 1 as [h0 c0 Hh|h0 t0 m0 c0 c1 Hne Hs Hh|h0 t0 m0 c1 Hne Hs Hh];
          apply app_inj_tail in Hh as [_ Hh]; congruence.
      * rewrite IH. split; [intros H; apply sub_kept; congruence|].
        inversion 1 as [h0 c0 Hh|h0 t0 m0 c0 c1 Hne Hs Hh|h0 t0 m0 c1 Hne Hs Hh];
          apply app_inj_tail in Hh as [Hh1 Hh]; congruence.
Qed.

(** ** Stream manager, one call after the other *)
Definition apply_stream (s : smgr) (o : stream_op) : smgr :=
  match o with Add m st => AddStream m st s | Release m => snd (ReleaseStream m s) end.
Definition run_streams (h : list stream_op) : smgr := fold_left apply_stream h ∅.

Definition held (m : string) (s : smgr) : list stream := default [] (s !! m).

Lemma held_add m m' st s :
  held m (AddStream m' (Some st) s) = if decide (m' = m) then held m s ++ [st] else held m s.
Proof.
  unfold held, AddStream. destruct (decide (m' = m)) as [->|Hm].
  - destruct (s !! m); rewrite lookup_insert; reflexivity.
  - destruct (s !! m'); rewrite lookup_insert_ne by congruence; reflexivity.
Qed.
Lemma held_release m m' s :
  held m (snd (ReleaseStream m' s)) = if decide (m' = m) then [] else held m s.
Proof.
  unfold held, ReleaseStream, release_read.
  destruct (decide (m' = m)) as [->|Hm].
  - destruct (s !! m) eqn:E; destruct (s !! UNKNOWN) eqn:E2; cbn [snd]; rewrite ?lookup_delete, ?E; reflexivity.
  - destruct (s !! m') eqn:E; destruct (s !! UNKNOWN) eqn:E2; cbn [snd]; rewrite ?lookup_delete_ne by congruence; reflexivity.
Qed.
Lemma released m s : fst (ReleaseStream m s) = held m s ++ held UNKNOWN s.
Proof.
  unfold held, ReleaseStream, release_read.
  destruct (s !! m) eqn:E; destruct (s !! UNKNOWN) eqn:E2; reflexivity.
Qed.

Lemma recorded_spec_acc m h s :
  held m (fold_left apply_stream h s) = recorded_acc m h (held m s).
Proof.
  revert s. induction h as [|[m' [st|]|m'] h IH]; intros s; [reflexivity| | |]; cbn [fold_left recorded_acc].
  - rewrite IH. cbn [apply_stream]. rewrite held_add. reflexivity.
  - rewrite IH. reflexivity.
  - rewrite IH. cbn [apply_stream]. rewrite held_release. reflexivity.
Qed.
Lemma recorded_spec m h : held m (run_streams h) = recorded m h.
Proof. unfold run_streams. rewrite recorded_spec_acc. reflexivity. Qed.

(** ** Stream manager, calls interleaved *)
Lemma sm_run_snoc ls l : sm_run (ls ++ [l]) = sm_step l (sm_run ls).
Proof. unfold sm_run. rewrite fold_left_app. reflexivity. Qed.

(** A stream that was added is recorded, reset, or in the list of a call. *)
Definition accounted (s : smstate) (st : stream) : Prop :=
  (exists m l, sm_map s !! m = Some l /\ st ∈ l) \/ st ∈ sm_reset s \/
  (exists k c, sm_calls s !! k = Some c /\ st ∈ ca_todo c).

Record sminv (s : smstate) : Prop := {
  (* what is recorded under the id of a call is in its list or reset *)
  sv_call : forall k c l st, sm_calls s !! k = Some c -> sm_map s !! ca_id c = Some l -> st ∈ l ->
    st ∈ ca_todo c \/ st ∈ sm_reset s;
}.

Lemma sm_step_accounted l s st :
  sminv s -> (accounted s st \/ exists m, l = SAdd m (Some st)) -> accounted (sm_step l s) st.
Proof.
  intros [Hc] Hst. destruct l as [m o|k m|k|k]; cbn [sm_step].
  - destruct o as [st'|]; cbn [AddStream].
    2: { destruct Hst as [H|[m' [=]]]. destruct s; exact H. }
    destruct Hst as [[(m'&l&Hm&Hl)|[H|H]]|[m' [= -> ->]]].
    + left. cbn [sm_map]. destruct (decide (m = m')) as [->|Hne].
      * rewrite Hm. exists m', (l ++ [st']). rewrite lookup_insert. set_solver.
      * exists m', l. destruct (sm_map s !! m); rewrite lookup_insert_ne by congruence; auto.
    + right; left. exact H.
    + right; right. exact H.
    + left. cbn [sm_map]. destruct (sm_map s !! m') as [l|]; eexists m', _; rewrite lookup_insert;
        (split; [reflexivity|]); set_solver.
  - destruct Hst as [Hst|[m' [=]]]. destruct (sm_calls s !! k) eqn:Ek; [exact Hst|].
    destruct (release_read m (sm_map s)) as [streams [|]]; [|exact Hst].
    destruct Hst as [H|[H|(k'&c&Hk&Hin)]]; [left; exact H|right; left; exact H|].
    right; right. exists k', c. split; [|exact Hin]. cbn [sm_calls]. rewrite lookup_insert_ne by congruence. exact Hk.
  - destruct Hst as [Hst|[m' [=]]]. destruct (sm_calls s !! k) as [[i [|st' todo]]|] eqn:Ek; [exact Hst| |exact Hst].
    destruct Hst as [H|[H|(k'&c&Hk&Hin)]]; [left; exact H|right; left; cbn; set_solver|].
    destruct (decide (k' = k)) as [->|Hne].
    + rewrite Ek in Hk. injection Hk as <-. cbn [ca_todo] in Hin. apply elem_of_cons in Hin as [->|Hin].
      * right; left. cbn. set_solver.
      * right; right. exists k, (Call i todo). cbn [sm_calls]. rewrite lookup_insert. auto.
    + right; right. exists k', c. cbn [sm_calls]. rewrite lookup_insert_ne by congruence. auto.
  - destruct Hst as [Hst|[m' [=]]]. destruct (sm_calls s !! k) as [[i [|st' todo]]|] eqn:Ek; [|exact Hst|exact Hst].
    destruct Hst as [(m'&l&Hm&Hl)|[H|(k'&c&Hk&Hin)]].
    + destruct (decide (m' = i)) as [->|Hne].
      * destruct (Hc k _ l st Ek Hm Hl) as [Hin|Hin]; [cbn in Hin; apply elem_of_nil in Hin; easy|].
        right; left. exact Hin.
      * left. exists m', l. cbn [sm_map]. rewrite lookup_delete_ne by congruence. auto.
    + right; left. exact H.
    + destruct (decide (k' = k)) as [->|Hne].
      * rewrite Ek in Hk. injection Hk as <-. cbn in Hin. apply elem_of_nil in Hin. easy.
      * right; right. exists k', c. cbn [sm_calls]. rewrite lookup_delete_ne by congruence. auto.
Qed.

(** [l] does not add a stream under the id of a call in progress. *)
Definition gentle (s : smstate) (l : smlabel) : Prop :=
  match l with SAdd m (Some _) => forall k c, sm_calls s !! k = Some c -> ca_id c <> m | _ => True end.

Lemma sminv_step l s : gentle s l -> sminv s -> sminv (sm_step l s).
Proof.
  intros Hg [Hc]. split. destruct l as [m o|k m|k|k]; cbn [sm_step].
  - destruct o as [st'|]; cbn [AddStream sm_calls sm_map sm_reset]; [|exact Hc].
    intros k c l st Hk Hm Hin. cbn [gentle] in Hg.
    apply (Hc k c l st Hk); [|exact Hin]. specialize (Hg _ _ Hk).
    destruct (sm_map s !! m); rewrite lookup_insert_ne in Hm by congruence; exact Hm.
  - destruct (sm_calls s !! k) eqn:Ek; [exact Hc|].
    unfold release_read.
    destruct (match sm_map s !! m with Some _ => true | None => match sm_map s !! UNKNOWN with Some _ => true | None => false end end) eqn:Hb.
    2: { intros k' c l st. exact (Hc k' c l st). }
    cbn [sm_calls sm_map sm_reset]. intros k' c l st Hk Hm Hin. destruct (decide (k' = k)) as [->|Hne].
    + rewrite lookup_insert in Hk. injection Hk as <-. left. cbn [ca_id ca_todo] in *. rewrite Hm. cbn. set_solver.
    + rewrite lookup_insert_ne in Hk by congruence. eauto.
  - destruct (sm_calls s !! k) as [[i [|st' todo]]|] eqn:Ek; [exact Hc| |exact Hc].
    cbn [sm_calls sm_map sm_reset]. intros k' c l st Hk Hm Hin. destruct (decide (k' = k)) as [->|Hne].
    + rewrite lookup_insert in Hk. injection Hk as <-. cbn [ca_id ca_todo] in *.
      destruct (Hc k _ l st Ek Hm Hin) as [H|H]; [|set_solver]. cbn in H. set_solver.
    + rewrite lookup_insert_ne in Hk by congruence. destruct (Hc _ _ _ _ Hk Hm Hin); set_solver.
  - destruct (sm_calls s !! k) as [[i [|st' todo]]|] eqn:Ek; [|exact Hc|exact Hc].
    cbn [sm_calls sm_map sm_reset]. intros k' c l st Hk Hm Hin.
    apply lookup_delete_Some in Hk as [_ Hk]. apply lookup_delete_Some in Hm as [_ Hm]. eauto.
Qed.
