(** C73: what can be said instead: a stream that is recorded once, under an id, is reset
    at most once as long as two releases of that id do not overlap. *)
From Coq Require Import ZArith NArith Ascii String List Lia.
From stdpp Require Import base list strings gmap.
From Verif Require Import Base L_Base M_Comm S_Comm L_Comm P_Comm.

Section Once.
  Variable st : nat.
  Variable m : string.
  Notation cnt := (fun l : list nat => count_occ Nat.eq_dec l st).
  Record once (added : Prop) (s : smstate) : Prop := {
    o_other : forall m', m' <> m -> cnt (held m' (sm_map s)) = 0;
    o_held : cnt (held m (sm_map s)) <= 1;
    o_calls : forall k c, sm_calls s !! k = Some c -> ca_id c <> m -> cnt (ca_todo c) = 0;
    o_one : forall k c k' c', sm_calls s !! k = Some c -> sm_calls s !! k' = Some c' ->
              ca_id c = m -> ca_id c' = m -> k = k';
    o_none : (forall k c, sm_calls s !! k = Some c -> ca_id c <> m) -> cnt (held m (sm_map s)) + cnt (sm_reset s) <= 1;
    o_some : forall k c, sm_calls s !! k = Some c -> ca_id c = m -> cnt (ca_todo c) + cnt (sm_reset s) <= 1;
    o_total : cnt (sm_reset s) <= 1;
    o_fresh : ~ added -> cnt (held m (sm_map s)) = 0 /\ cnt (sm_reset s) = 0 /\
              forall k c, sm_calls s !! k = Some c -> cnt (ca_todo c) = 0
  }.
  Hypothesis Hm : m <> "UNKNOWN"%string.

  Lemma once_init : once False sm_init.
  Proof.
    split; cbn; unfold held; try (intros; rewrite ?lookup_empty; cbn; auto; fail).
    all: intros; repeat match goal with H : ∅ !! _ = Some _ |- _ => rewrite lookup_empty in H; discriminate H end.
    all: rewrite ?lookup_empty; cbn; auto.
    split; [reflexivity|]. split; [reflexivity|]. intros k c X. rewrite lookup_empty in X. discriminate X.
  Qed.

  Lemma held_add' m1 m2 x s : held m1 (AddStream m2 x s) = if decide (m2 = m1) then held m1 s ++ option_list x else held m1 s.
  Proof. destruct x as [y|]; cbn [option_list]; [apply held_add|cbn; destruct (decide _); rewrite ?app_nil_r; reflexivity]. Qed.

  Lemma once_other_add added s m' x :
    x <> Some st -> once added s -> once added (sm_step (SAdd m' x) s).
  Proof.
    intros Hx I. assert (Z : forall l, cnt (l ++ option_list x) = cnt l).
    { intros l. rewrite count_occ_app. destruct x as [y|]; cbn; [|lia]. destruct (Nat.eq_dec y st) as [->|]; [congruence|lia]. }
    assert (Z' : forall m1, cnt (held m1 (AddStream m' x (sm_map s))) = cnt (held m1 (sm_map s))).
    { intros m1. rewrite held_add'. destruct (decide (m' = m1)); [apply Z|reflexivity]. }
    destruct I. split; cbn [sm_step sm_map sm_calls sm_reset]; rewrite ?Z'; auto.
    intros m1 N. rewrite Z'. auto.
  Qed.
  Lemma once_add s : once False s -> once True (sm_step (SAdd m (Some st)) s).
  Proof.
    intros I. destruct (o_fresh _ _ I (fun x => x)) as (F1 & F2 & F3).
    assert (Z : cnt (held m (AddStream m (Some st) (sm_map s))) = 1).
    { rewrite held_add. rewrite decide_True by reflexivity. rewrite count_occ_app. cbn.
      destruct (Nat.eq_dec st st); [|congruence]. cbn in F1. lia. }
    destruct I. split; cbn [sm_step sm_map sm_calls sm_reset].
    - intros m1 N. rewrite held_add, decide_False by congruence. auto.
    - lia.
    - auto.
    - auto.
    - lia.
    - auto.
    - auto.
    - tauto.
  Qed.
  Lemma once_read added s k m' :
    (m' = m -> forall k' c, sm_calls s !! k' = Some c -> ca_id c <> m) ->
    once added s -> once added (sm_step (SRead k m') s).
  Proof.
    intros Hn I. cbn [sm_step]. destruct (sm_calls s !! k) as [c0|] eqn:K; [exact I|].
    unfold release_read. destruct (match sm_map s !! m' with Some _ => _ | None => _ end); [|exact I].
    assert (U : cnt (held UNKNOWN (sm_map s)) = 0) by (apply (o_other _ _ I); unfold UNKNOWN; congruence).
    assert (T : cnt (held m' (sm_map s) ++ held UNKNOWN (sm_map s)) = cnt (held m' (sm_map s))).
    { rewrite count_occ_app. lia. }
    fold (held m' (sm_map s)). fold (held UNKNOWN (sm_map s)).
    destruct I. split; cbn [sm_map sm_calls sm_reset]; auto.
    - intros k1 c X N. apply lookup_insert_Some in X as [[<- <-]|[_ X]]; [|eauto]. cbn in N |- *. rewrite T. auto.
    - intros k1 c k2 c' X Y A B. apply lookup_insert_Some in X as [[<- <-]|[N1 X]]; apply lookup_insert_Some in Y as [[<- <-]|[N2 Y]]; auto.
      + cbn in A. destruct (Hn A _ _ Y B).
      + cbn in B. destruct (Hn B _ _ X A).
      + eauto.
    - intros Z. apply o_none0. intros k1 c X. apply (Z k1). rewrite lookup_insert_ne; [exact X|]. intros ->. congruence.
    - intros k1 c X A. apply lookup_insert_Some in X as [[<- <-]|[_ X]]; [|eauto]. cbn in A |- *. rewrite T. rewrite A.
      apply o_none0. apply Hn, A.
    - intros F. destruct (o_fresh0 F) as (F1 & F2 & F3). split; [exact F1|]. split; [exact F2|].
      intros k1 c X. apply lookup_insert_Some in X as [[<- <-]|[_ X]]; [|eauto]. cbn. rewrite T.
      destruct (decide (m' = m)) as [->|N]; auto.
  Qed.
  Lemma once_reset added s k : once added s -> once added (sm_step (SReset k) s).
  Proof.
    intros I. cbn [sm_step]. destruct (sm_calls s !! k) as [[i [|x todo]]|] eqn:K; try exact I.
    assert (Z : i <> m -> cnt (sm_reset s ++ [x]) = cnt (sm_reset s) /\ cnt todo = 0).
    { intros N. pose proof (o_calls _ _ I _ _ K N) as X. cbn in X. rewrite count_occ_app. cbn.
      destruct (Nat.eq_dec x st); [discriminate X|]. lia. }
    assert (Z' : i = m -> cnt todo + cnt (sm_reset s ++ [x]) <= 1).
    { intros N. pose proof (o_some _ _ I _ _ K N) as X. cbn in X. rewrite count_occ_app. cbn.
      destruct (Nat.eq_dec x st); lia. }
    destruct I. split; cbn [sm_map sm_calls sm_reset]; auto.
    - intros k1 c X N. apply lookup_insert_Some in X as [[<- <-]|[_ X]]; [|eauto]. cbn in N |- *. apply Z, N.
    - intros k1 c k2 c' X Y A B. apply lookup_insert_Some in X as [[<- <-]|[N1 X]]; apply lookup_insert_Some in Y as [[<- <-]|[N2 Y]]; eauto.
    - intros X. assert (N : i <> m) by (apply (X k (Call i todo)), lookup_insert). rewrite (proj1 (Z N)).
      apply o_none0. intros k1 c Y. destruct (decide (k1 = k)) as [->|Ne].
      + rewrite K in Y. injection Y as <-. exact N.
      + apply (X k1). rewrite lookup_insert_ne by congruence. exact Y.
    - intros k1 c X A. apply lookup_insert_Some in X as [[<- <-]|[Ne X]]; [cbn in A |- *; apply Z', A|].
      assert (N : i <> m) by (intros Y; apply Ne; exact (o_one0 _ _ _ _ K X Y A)). rewrite (proj1 (Z N)). eauto.
    - destruct (decide (i = m)) as [N|N]; [specialize (Z' N); exact (Nat.le_trans _ _ _ (Nat.le_add_l _ _) Z')|]. rewrite (proj1 (Z N)). exact o_total0.
    - intros F. destruct (o_fresh0 F) as (F1 & F2 & F3). pose proof (F3 _ _ K) as X. cbn in X.
      destruct (Nat.eq_dec x st) as [|N]; [discriminate X|].
      split; [exact F1|]. split; [rewrite count_occ_app; cbn; destruct (Nat.eq_dec x st); [congruence|]; cbn in F2; lia|].
      intros k1 c Y. apply lookup_insert_Some in Y as [[<- <-]|[_ Y]]; [exact X|eauto].
  Qed.
  Lemma once_delete added s k : once added s -> once added (sm_step (SDelete k) s).
  Proof.
    intros I. cbn [sm_step]. destruct (sm_calls s !! k) as [[i [|x todo]]|] eqn:K; try exact I.
    assert (D : forall m1, cnt (held m1 (delete i (sm_map s))) <= cnt (held m1 (sm_map s))).
    { intros m1. unfold held. destruct (decide (i = m1)) as [->|N]; [rewrite lookup_delete; cbn; lia|].
      rewrite lookup_delete_ne by exact N. lia. }
    destruct I. split; cbn [sm_map sm_calls sm_reset].
    - intros m1 N. specialize (D m1). specialize (o_other0 m1 N). cbn in *. lia.
    - specialize (D m). cbn in *. lia.
    - intros k1 c X. apply lookup_delete_Some in X as [_ X]. eauto.
    - intros k1 c k2 c' X Y. apply lookup_delete_Some in X as [_ X]. apply lookup_delete_Some in Y as [_ Y]. eauto.
    - intros X. destruct (decide (i = m)) as [->|N].
      + unfold held. rewrite lookup_delete. cbn. exact o_total0.
      + specialize (D m). enough (cnt (held m (sm_map s)) + cnt (sm_reset s) <= 1) by (cbn in *; lia).
        apply o_none0. intros k1 c Y. destruct (decide (k1 = k)) as [->|Ne].
        * rewrite K in Y. injection Y as <-. exact N.
        * apply (X k1). rewrite lookup_delete_ne by congruence. exact Y.
    - intros k1 c X. apply lookup_delete_Some in X as [_ X]. eauto.
    - exact o_total0.
    - intros F. destruct (o_fresh0 F) as (F1 & F2 & F3). split; [specialize (D m); cbn in *; lia|]. split; [exact F2|].
      intros k1 c X. apply lookup_delete_Some in X as [_ X]. eauto.
  Qed.
  Lemma once_iff a b s : (a <-> b) -> once a s -> once b s.
  Proof. intros X I. destruct I. split; auto. intros N. apply o_fresh0. tauto. Qed.
End Once.

Theorem C73_reset_once :
  forall ls m st,
    m <> "UNKNOWN"%string ->
    (* recorded once, and under m *)
    (forall ls1 m' ls2, ls = ls1 ++ SAdd m' (Some st) :: ls2 ->
       m' = m /\ forall m'', ~ In (SAdd m'' (Some st)) ls1) ->
    (* no release of m begins while another one is going on *)
    (forall ls1 k ls2 k' c, ls = ls1 ++ SRead k m :: ls2 ->
       sm_calls (sm_run ls1) !! k' = Some c -> ca_id c <> m) ->
    count_occ Nat.eq_dec (sm_reset (sm_run ls)) st <= 1.
Proof.
  intros ls m st Hm Ha Hr.
  enough (I : once st m (exists m', In (SAdd m' (Some st)) ls) (sm_run ls)) by apply (o_total _ _ _ _ I).
  induction ls as [|l ls IH] using rev_ind.
  - eapply once_iff; [|apply once_init]. split; [easy|intros [? []]].
  - assert (I : once st m (exists m', In (SAdd m' (Some st)) ls) (sm_run ls)).
    { apply IH.
      - intros ls1 m' ls2 ->. apply (Ha ls1 m' (ls2 ++ [l])). rewrite <- app_assoc. reflexivity.
      - intros ls1 k ls2 k' c ->. apply (Hr ls1 k (ls2 ++ [l])). rewrite <- app_assoc. reflexivity. }
    rewrite sm_run_snoc.
    assert (O : (forall m', l <> SAdd m' (Some st)) ->
                (exists m', In (SAdd m' (Some st)) ls) <-> (exists m', In (SAdd m' (Some st)) (ls ++ [l]))).
    { intros N. split; intros [m' X]; exists m'; [apply in_or_app; auto|].
      apply in_app_or in X as [X|[X|[]]]; [exact X|destruct (N _ X)]. }
    destruct l as [m' x|k m'|k|k].
    + destruct (decide (x = Some st)) as [->|N].
      * destruct (Ha ls m' [] eq_refl) as [-> F]. eapply once_iff; [|apply once_add; eapply once_iff; [|exact I]].
        -- split; [intros _; exists m; apply in_or_app; right; left; reflexivity|auto].
        -- split; [intros [m1 X]; exact (F m1 X)|easy].
      * eapply once_iff; [apply O; congruence|]. apply once_other_add; assumption.
    + eapply once_iff; [apply O; discriminate|]. apply once_read; [exact Hm| |exact I].
      intros -> k' c X. exact (Hr ls k [] k' c eq_refl X).
    + eapply once_iff; [apply O; discriminate|]. apply once_reset, I.
    + eapply once_iff; [apply O; discriminate|]. apply once_delete, I.
Qed.
Print Assumptions C73_reset_once.

(** Two releases of "a", one after the other, with a release of "b" in between: stream 1
    is reset once. *)
Example C73_example :
  let ls := [SAdd "a" (Some 1); SAdd "b" (Some 2); SRead 0 "a"; SRead 1 "b"; SReset 0; SReset 1; SDelete 0;
             SAdd "a" (Some 3); SRead 2 "a"; SReset 2; SDelete 2; SDelete 1] in
  sm_reset (sm_run ls) = [1; 2; 3] /\
  (forall ls1 m' ls2, ls = ls1 ++ SAdd m' (Some 1) :: ls2 -> m' = "a"%string /\ forall m'', ~ In (SAdd m'' (Some 1)) ls1) /\
  (forall ls1 k ls2 k' c, ls = ls1 ++ SRead k "a" :: ls2 -> sm_calls (sm_run ls1) !! k' = Some c -> ca_id c <> "a"%string).
Proof.
  intros ls. split; [vm_compute; reflexivity|]. split.
  - intros ls1 m' ls2 He. subst ls. destruct ls1 as [|? ls1].
    + injection He as <- _. split; [reflexivity|]. intros ? [].
    + exfalso. injection He as _ He.
      repeat (destruct ls1 as [|? ls1]; [discriminate He|injection He as _ He]). destruct ls1; discriminate He.
  - intros ls1 k ls2 k' c He. subst ls.
    repeat (destruct ls1 as [|? ls1]; [first [discriminate He|injection He as <- _]|injection He as <- He]).
    1, 2: intros Hk; apply elem_of_map_to_list in Hk;
       match type of Hk with ?x ∈ ?l => let l' := eval vm_compute in l in change (x ∈ l') in Hk end;
       repeat (apply elem_of_cons in Hk as [Hk|Hk]; [injection Hk as _ ->; discriminate|]);
       apply elem_of_nil in Hk; easy.
    destruct ls1; discriminate He.
Qed.
