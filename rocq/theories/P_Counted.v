(** C188: the shares that are counted. *)
From Coq Require Import ZArith Ascii String List Lia.
From stdpp Require Import base list strings gmap.
From Verif Require Import Base L_Base S_Threshold M_Common S_Common L_Common L_Common2 S_Culprit P_Common.

Definition place (E : env) (j : job) : option roundinfo := GetMsgRound E (j_body j) (j_from j) (j_bcast j) (j_ident j).
Lemma place_iff E j i nm m : place E j = Some (i, nm, m) <->
  exists c, e_parse E (j_body j) (j_from j) (j_bcast j) = Some c /\ c <> OtherContent /\ of_round i c /\ kind_name c nm /\ j_ident j = m.
Proof.
  unfold place, GetMsgRound. split.
  - destruct (e_parse _ _ _ _) as [c|]; [|discriminate]. destruct (content_round c) as [[i' n']|] eqn:Hc; [|discriminate].
    intros [= -> -> <-]. exists c. split; [reflexivity|].
    destruct c; cbn in Hc; try discriminate; injection Hc as <- <-; (split; [discriminate|]);
      (split; [first [left; reflexivity|right; reflexivity]|]); (split; [cbn; tauto|reflexivity]).
  - intros (c & -> & Ho & Hi & Hn & <-).
    assert (Hc : content_round c = Some (i, nm)); [|rewrite Hc; reflexivity].
    destruct Hi as [Hi|Hi]; unfold keygen_kinds, keysign_kinds in Hi;
      repeat (destruct i as [|i]; [cbn in Hi; injection Hi as <-; cbn in Hn |- *; intuition congruence|cbn in Hi]); discriminate.
Qed.

Section T.
  Context (E : env) (C : cfg).
  Definition taken (tr : list label) (j : job) : Prop :=
    exists tr1 k tr2 c, tr = tr1 ++ LWork k None :: tr2 /\ share_waits E C tr1 k j c.
  Lemma taken_snoc tr l j : taken (tr ++ [l]) j <-> taken tr j \/ exists k c, l = LWork k None /\ share_waits E C tr k j c.
  Proof.
    split.
    - intros (tr1 & k & tr2 & c & He & Hw). destruct tr2 as [|x tr2 _] using rev_ind.
      + apply app_inj_tail in He as [-> ->]. right. eauto.
      + left. rewrite app_comm_cons, app_assoc in He. apply app_inj_tail in He as [-> _]. exists tr1, k, tr2, c. auto.
    - intros [(tr1 & k & tr2 & c & -> & Hw)|(k & c & -> & Hw)].
      + exists tr1, k, (tr2 ++ [l]), c. split; [rewrite <- app_assoc; reflexivity|exact Hw].
      + exists tr, k, [], c. auto.
  Qed.
  Definition at_place (s : state) (j : job) : Prop :=
    exists r l, place E j = Some r /\ s_accepted s !! r = Some l /\ j_from j ∈ l.
  Record cinv (tr : list label) (s : state) : Prop := CInv {
    ci_updated : forall j, j ∈ s_updated s -> taken tr j;
    ci_sound : forall r l id, s_accepted s !! r = Some l -> id ∈ l -> exists j, taken tr j /\ place E j = Some r /\ j_from j = id;
    ci_all : forall j, taken tr j -> j ∈ s_updated s \/ at_place s j }.
  Lemma cinv_same tr l s s' : cinv tr s -> s_updated s' = s_updated s -> s_accepted s' = s_accepted s ->
    (forall j, taken (tr ++ [l]) j <-> taken tr j) -> cinv (tr ++ [l]) s'.
  Proof.
    intros [H1 H2 H3] Hu Ha Ht. split; unfold at_place; rewrite ?Hu, ?Ha.
    - intros j Hj. apply Ht, H1, Hj.
    - intros r q id Hr Hid. destruct (H2 r q id Hr Hid) as (j & Hj & Hp). exists j. split; [apply Ht, Hj|exact Hp].
    - intros j Hj. apply H3, Ht, Hj.
  Qed.
  Lemma waits_place tr k j c : share_waits E C tr k j c -> exists r, place E j = Some r.
  Proof.
    intros (_ & _ & Hp & Ho). unfold place, GetMsgRound. rewrite Hp. destruct c; try contradiction; eexists; reflexivity.
  Qed.
  Lemma cinv_run tr : cinv tr (run E C tr).
  Proof.
    induction tr as [|l tr IH] using rev_ind.
    { split.
      - intros j Hj. inversion Hj.
      - intros r l id Hr. discriminate (eq_trans (eq_sym (lookup_empty (M := gmap roundinfo) (A := list string) r)) Hr).
      - intros j (tr1 & k & tr2 & c & He & _). destruct tr1; discriminate. }
    rewrite run_snoc. set (s := run E C tr) in *.
    assert (Hno : (forall k, l <> LWork k None) -> forall j, taken (tr ++ [l]) j <-> taken tr j).
    { intros H j. rewrite taken_snoc. split; [|auto]. intros [Hj|(k & c & He & _)]; [exact Hj|]. exfalso. exact (H k He). }
    unfold step. destruct (s_crash s) eqn:Hcr.
    { apply (cinv_same tr l s s IH eq_refl eq_refl). intros j. rewrite taken_snoc. split; [|auto].
      intros [Hj|(k & c & _ & (Hc & _))]; [exact Hj|]. fold s in Hc. congruence. }
    destruct l as [o1 o2 peer m| | |k res|k].
    - assert (Ht := Hno ltac:(discriminate)). destruct (s_cur s); [apply (cinv_same _ _ s s IH); auto|].
      assert (Hf : s_updated (fst (ProcessOneMessage E C o1 o2 m peer s)) = s_updated s /\
                   s_accepted (fst (ProcessOneMessage E C o1 o2 m peer s)) = s_accepted s).
      { assert (Hm : m = MDone (Some true) \/ m <> MDone (Some true)).
        { destruct m as [| |[[|]|]| | |]; auto; right; discriminate. }
        destruct Hm as [->|Hm].
        - cbn. destruct (bool_decide _); [auto|]. destruct (Z.eqb _ _); [|auto]. destruct (Nat.eqb _ _); auto.
        - pose proof (frame_ProcessOneMessage E C o1 o2 m peer s Hm) as F. split; apply F. }
      apply (cinv_same _ _ s _ IH); [apply Hf..|exact Ht].
    - assert (Ht := Hno ltac:(discriminate)). destruct (s_cur s) as [[[|b rest] key w]|]; try (apply (cinv_same _ _ s s IH); auto; fail).
      apply (cinv_same _ _ s _ IH); [apply update_one_frame..|exact Ht].
    - assert (Ht := Hno ltac:(discriminate)). destruct (s_cur s) as [[[|b rest] key w]|]; try (apply (cinv_same _ _ s s IH); auto; fail).
      destruct (batch_done s); [|apply (cinv_same _ _ s s IH); auto]. apply (cinv_same _ _ s _ IH); [destruct key; reflexivity..|exact Ht].
    - unfold work. destruct (s_pending s !! k) as [j|] eqn:Hj.
      2:{ apply (cinv_same _ _ s s IH); auto. intros j. rewrite taken_snoc. split; [|auto].
          intros [Hx|(k' & c & He & (_ & Hp & _))]; [exact Hx|]. injection He as <- _. fold s in Hp. congruence. }
      fold (place E j). destruct (place E j) as [r|] eqn:Hr.
      2:{ apply (cinv_same _ _ s _ IH); auto. intros x. rewrite taken_snoc. split; [|auto].
          intros [Hx|(k' & c & He & Hw)]; [exact Hx|]. injection He as <- _. destruct (waits_place _ _ _ _ Hw) as [r Hr'].
          destruct Hw as (_ & Hp & _). fold s in Hp. congruence. }
      destruct res as [cs|].
      + match goal with |- context [processInvalidMsgBlame E C ?r ?c ?s] => pose proof (frame_processInvalid E C r c s) as Hf end.
        destruct Hf as (_ & _ & _ & Ha & _ & _ & Hu & _). apply (cinv_same _ _ s _ IH); [exact Hu|exact Ha|]. apply Hno. discriminate.
      + assert (Hnew : taken (tr ++ [LWork k None]) j).
        { apply taken_snoc. right. destruct r as [[i nm] m]. apply place_iff in Hr as (c & Hp & Ho & _). exists k, c.
          split; [reflexivity|]. split; [exact Hcr|]. split; [exact Hj|]. auto. }
        destruct IH as [H1 H2 H3]. split; cbn [s_updated s_accepted set_updated set_log set_pending].
        * intros x. rewrite elem_of_app, elem_of_list_singleton. intros [Hx| ->]; [|exact Hnew]. apply taken_snoc. left. apply H1, Hx.
        * intros r' q id Hq Hid. destruct (H2 r' q id Hq Hid) as (x & Hx & Hp). exists x. split; [apply taken_snoc; left; exact Hx|exact Hp].
        * intros x. rewrite taken_snoc. intros [Hx|(k' & c & He & (_ & Hp & _))].
          { destruct (H3 x Hx) as [Hu|Hu]; [left; apply elem_of_app; left; exact Hu|right; exact Hu]. }
          left. injection He as <-. fold s in Hp. apply elem_of_app. right. apply elem_of_list_singleton. congruence.
    - assert (Ht := Hno ltac:(discriminate)). unfold accept. destruct (s_updated s !! k) as [j|] eqn:Hj; [|apply (cinv_same _ _ s s IH); auto].
      assert (Hjt : taken tr j) by (apply (ci_updated _ _ IH), elem_of_list_lookup; eauto).
      assert (Hdel : forall x, x ∈ s_updated s -> x = j \/ x ∈ delete k (s_updated s)).
      { intros x Hx. rewrite <- (take_drop_middle _ _ _ Hj) in Hx. rewrite delete_take_drop.
        apply elem_of_app in Hx as [Hx|Hx]; [right; apply elem_of_app; auto|]. apply elem_of_cons in Hx as [->|Hx]; [auto|]. right. apply elem_of_app. auto. }
      assert (Hsub : forall x, x ∈ delete k (s_updated s) -> x ∈ s_updated s).
      { intros x Hx. rewrite delete_take_drop in Hx. apply elem_of_app in Hx as [Hx|Hx].
        - apply elem_of_take in Hx as (n & Hn & _). apply elem_of_list_lookup. eauto.
        - apply elem_of_list_lookup in Hx as [n Hn]. rewrite lookup_drop in Hn. apply elem_of_list_lookup. eauto. }
      fold (place E j). destruct (place E j) as [r|] eqn:Hr.
      2:{ destruct Hjt as (tr1 & k' & tr2 & c & _ & Hw). destruct (waits_place _ _ _ _ Hw) as [r Hr']. congruence. }
      destruct IH as [H1 H2 H3]. split; cbn [s_updated s_accepted set_updated set_acclog UpdateAcceptShare set_accepted].
      + intros x Hx. apply Ht, H1, Hsub, Hx.
      + intros r' q id. destruct (decide (r' = r)) as [->|Hne].
        * rewrite lookup_insert. intros [= <-]. rewrite elem_of_app, elem_of_list_singleton. intros [Hid| ->].
          { destruct (s_accepted s !! r) as [q|] eqn:Hq; [|inversion Hid]. cbn in Hid.
            destruct (H2 r q id Hq Hid) as (x & Hx & Hp). exists x. split; [apply Ht, Hx|exact Hp]. }
          exists j. split; [apply Ht, Hjt|auto].
        * rewrite lookup_insert_ne by congruence. intros Hq Hid. destruct (H2 r' q id Hq Hid) as (x & Hx & Hp). exists x. split; [apply Ht, Hx|exact Hp].
      + assert (Hp : forall x, at_place s x -> exists r' q, place E x = Some r' /\ <[r:=default [] (s_accepted s !! r) ++ [j_from j]]> (s_accepted s) !! r' = Some q /\ j_from x ∈ q).
        { intros x (r' & q & Hx & Hq & Hin). destruct (decide (r' = r)) as [->|Hne].
          - exists r. eexists. split; [exact Hx|]. split; [apply lookup_insert|]. rewrite Hq. cbn. apply elem_of_app. auto.
          - exists r', q. split; [exact Hx|]. split; [|exact Hin]. rewrite lookup_insert_ne by congruence. exact Hq. }
        intros x Hx. apply Ht in Hx. destruct (H3 x Hx) as [Hu|Hu]; [|right; apply Hp, Hu].
        destruct (Hdel x Hu) as [->|Hd]; [|left; exact Hd]. right. exists r. eexists. split; [exact Hr|]. split; [apply lookup_insert|].
        apply elem_of_app. right. apply elem_of_list_singleton. reflexivity.
  Qed.
End T.

(** ** C188. A share is counted only for the round of its kind, its session and its party,
    and only when the library took it; when no worker is about to count one, every share
    that the library took is counted. *)
Theorem C188_counted_shares E C tr i nm m id :
  (counted (run E C tr) i nm m id -> took E C tr i nm m id) /\
  (s_updated (run E C tr) = [] -> took E C tr i nm m id -> counted (run E C tr) i nm m id).
Proof.
  destruct (cinv_run E C tr) as [H1 H2 H3]. split.
  - intros (l & Hl & Hid). destruct (H2 _ _ _ Hl Hid) as (j & (tr1 & k & tr2 & c & He & Hw) & Hp & Hj).
    apply place_iff in Hp as (c' & Hc & _ & Hi & Hn & Hm). destruct (Hw) as (_ & _ & Hc' & _). rewrite Hc in Hc'. injection Hc' as Hcc. subst c'.
    exists tr1, k, tr2, j, c. split_and!; assumption.
  - intros Hu (tr1 & k & tr2 & j & c & He & Hw & Hi & Hn & Hm & Hj).
    assert (Ht : taken E C tr j) by (exists tr1, k, tr2, c; auto).
    destruct (H3 j Ht) as [Hx|(r & l & Hp & Hl & Hin)]; [rewrite Hu in Hx; inversion Hx|].
    assert (Hr : place E j = Some (i, nm, m)).
    { apply place_iff. exists c. destruct Hw as (_ & _ & Hc & Ho). auto. }
    rewrite Hr in Hp. injection Hp as <-. exists l. rewrite Hj in Hin. auto.
Qed.
Print Assumptions C188_counted_shares.
(** The share of party 1 is counted, for the first round. *)
Example C188_example :
  s_updated (run toy_env (toy_cfg 4 "p2") toy_history) = [] /\
  counted (run toy_env (toy_cfg 4 "p2") toy_history) 0 "KGRound1Message" "s" "1" /\
  took toy_env (toy_cfg 4 "p2") toy_history 0 "KGRound1Message" "s" "1".
Proof.
  assert (H : counted (run toy_env (toy_cfg 4 "p2") toy_history) 0 "KGRound1Message" "s" "1")
    by (exists ["1"%string]; split; [vm_compute; reflexivity|left]).
  split; [reflexivity|]. split; [exact H|]. exact (proj1 (C188_counted_shares _ _ _ _ _ _ _) H).
Qed.
