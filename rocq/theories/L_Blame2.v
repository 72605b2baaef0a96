(** Lemmas for the missing-share blame. *)
From Coq Require Import ZArith NArith Ascii String List Lia.
From stdpp Require Import base list strings gmap sorting.
From Verif Require Import Base L_Base S_Threshold M_Common S_Common L_Common M_Blame S_Blame L_Blame.

Section Group.
  Context (rounds : nat) (name : nat -> string).

  Lemma group_spec l : forall acc,
    (forall i nm m v, ((i, nm, m), v) ∈ l -> i < rounds /\ nm = name i) ->
    NoDup (map fst l) ->
    (forall m c, acc !! m = Some c -> length c = rounds) ->
    exists M, group_shares rounds l acc = Some M /\ forall m,
      (is_Some (M !! m) <-> is_Some (acc !! m) \/ exists i v, ((i, name i, m), v) ∈ l) /\
      (forall c, M !! m = Some c ->
         length c = rounds /\
         (forall i v, ((i, name i, m), v) ∈ l -> c !! i = Some v) /\
         (forall i, (forall v, ((i, name i, m), v) ∉ l) ->
            c !! i = (default (replicate rounds []) (acc !! m)) !! i)).
  Proof.
    induction l as [|[[[i0 nm0] m0] v0] l IH]; intros acc Hk Hnd Hlen.
    - exists acc. split; [reflexivity|]. intros m. split.
      + split; [auto|]. intros [H'|(i & v & Hin)]; [exact H'|inversion Hin].
      + intros c Hc. split; [eapply Hlen; exact Hc|]. split; [intros i v Hin; inversion Hin|].
        intros i _. rewrite Hc. reflexivity.
    - destruct (Hk i0 nm0 m0 v0 ltac:(left)) as [Hi0 ->]. cbn [group_shares].
      rewrite (proj2 (Nat.ltb_lt _ _) Hi0). cbn [map fst] in Hnd. apply NoDup_cons in Hnd as [Hnotin Hnd].
      set (c0 := default (replicate rounds []) (acc !! m0)).
      assert (Hc0 : length c0 = rounds).
      { unfold c0. destruct (acc !! m0) as [c|] eqn:Hc; [eapply Hlen; exact Hc|apply replicate_length]. }
      destruct (IH (<[m0 := <[i0 := v0]> c0]> acc)) as (M & HM & Hspec).
      { intros i nm m v Hin. apply (Hk i nm m v). right. exact Hin. }
      { exact Hnd. }
      { intros m c Hm. destruct (decide (m = m0)) as [-> | Hne].
        - rewrite lookup_insert in Hm. injection Hm as <-. rewrite insert_length. exact Hc0.
        - rewrite lookup_insert_ne in Hm by congruence. eapply Hlen. exact Hm. }
      assert (Hfresh : forall v, ((i0, name i0, m0), v) ∉ l).
      { intros v Hin. apply Hnotin. apply elem_of_list_fmap. exists ((i0, name i0, m0), v). auto. }
      exists M. split; [exact HM|]. intros m. destruct (Hspec m) as [Hd Hc]. split.
      + rewrite Hd. destruct (decide (m = m0)) as [-> | Hne].
        * rewrite lookup_insert. split; [|eauto]. intros _. right. exists i0, v0. left.
        * rewrite lookup_insert_ne by congruence. split; (intros [H'|(i & v & Hin)]; [left; exact H'|right; exists i, v]).
          -- right. exact Hin.
          -- apply elem_of_cons in Hin as [Heq|Hin]; [congruence|exact Hin].
      + intros c Hcm. destruct (Hc c Hcm) as (Hl & Hv & Hn). split; [exact Hl|].
        destruct (decide (m = m0)) as [-> | Hne].
        * rewrite lookup_insert in Hn. cbn [default] in Hn. split.
          -- intros i v Hin. apply elem_of_cons in Hin as [Heq|Hin]; [|apply Hv; exact Hin].
             assert (i = i0 /\ v = v0) as [-> ->] by (split; congruence). rewrite (Hn i0 Hfresh). apply list_lookup_insert. lia.
          -- intros i Hno. rewrite (Hn i).
             2:{ intros v Hin. apply (Hno v). right. exact Hin. }
             apply list_lookup_insert_ne. intros <-. apply (Hno v0). left.
        * rewrite lookup_insert_ne in Hn by congruence. split.
          -- intros i v Hin. apply elem_of_cons in Hin as [Heq|Hin]; [congruence|apply Hv; exact Hin].
          -- intros i Hno. apply Hn. intros v Hin. apply (Hno v). right. exact Hin.
  Qed.
End Group.

Lemma first_missing_spec n l : forall k,
  match first_missing n k l with
  | None => forall el, el ∈ l -> S (length el) = n
  | Some (idx, el) => exists j, idx = k + j /\ l !! j = Some el /\ S (length el) <> n /\
      forall j' el', j' < j -> l !! j' = Some el' -> S (length el') = n
  end.
Proof.
  induction l as [|el l IH]; intros k; cbn [first_missing].
  - intros el Hin. inversion Hin.
  - destruct (Nat.eqb_spec (S (length el)) n) as [Heq|Hne].
    + specialize (IH (S k)). destruct (first_missing n (S k) l) as [[idx el1]|].
      * destruct IH as (j & -> & Hj & Hn & Hall). exists (S j). split; [lia|]. split; [exact Hj|].
        split; [exact Hn|]. intros [|j'] el' Hlt Hl; [injection Hl as <-; exact Heq|].
        apply (Hall j'); [lia|exact Hl].
      * intros el' Hin. apply elem_of_cons in Hin as [-> | Hin]; [exact Heq|auto].
    + exists 0. split; [lia|]. split; [reflexivity|]. split; [exact Hne|]. intros j' el' Hlt. lia.
Qed.

Section M.
  Context (E : env) (C : cfg) (local : string) (s : state) (name : nat -> string) (rounds : nat).
  Context (HG : good_tables E C) (Hloc : is_Some (cf_parties C !! local)).
  Context (HO : orderly_shares C local s name rounds).

  Lemma size_tables : size (cf_id2peer C) = size (dom (cf_parties C)).
  Proof. rewrite <- (proj1 (proj2 HG)). symmetry. apply size_dom. Qed.

  Lemma count_all l :
    NoDup l -> (forall id, id ∈ l -> other C local id) ->
    S (length l) = size (cf_id2peer C) <-> (forall id, other C local id -> id ∈ l).
  Proof.
    intros Hnd Hl. rewrite size_tables.
    assert (Hs : size (dom (cf_parties C)) = S (size (dom (cf_parties C) ∖ {[local]}))).
    { rewrite size_difference by (apply singleton_subseteq_l, elem_of_dom; exact Hloc).
      rewrite size_singleton. assert (size (dom (cf_parties C)) <> 0); [|lia].
      apply size_non_empty_iff. assert (local ∈ dom (cf_parties C)) by (apply elem_of_dom; exact Hloc). set_solver. }
    assert (Hsub : (list_to_set l : gset string) ⊆ dom (cf_parties C) ∖ {[local]}).
    { intros id Hid. apply elem_of_list_to_set in Hid. destruct (Hl id Hid) as [His Hne].
      apply elem_of_difference. split; [apply elem_of_dom; exact His|]. apply not_elem_of_singleton. exact Hne. }
    assert (Hsz : size (list_to_set l : gset string) = length l) by (apply size_list_to_set; exact Hnd).
    rewrite Hs. split.
    - intros Heq id [His Hne]. injection Heq as Heq.
      assert (Hid : id ∈ (dom (cf_parties C) ∖ {[local]} : gset string)).
      { apply elem_of_difference. split; [apply elem_of_dom; exact His|]. apply not_elem_of_singleton. exact Hne. }
      apply (elem_of_list_to_set (C := gset string)).
      destruct (decide (id ∈ (list_to_set l : gset string))) as [Hin|Hno]; [exact Hin|exfalso].
      assert (Hss : (list_to_set l : gset string) ⊂ dom (cf_parties C) ∖ {[local]}) by (split; set_solver).
      apply subset_size in Hss. lia.
    - intros Hall. f_equal. rewrite <- Hsz. f_equal. apply set_eq. intros id. split; [intros Hin; apply Hsub; exact Hin|].
      intros Hid. apply elem_of_difference in Hid as [His Hne]. apply elem_of_list_to_set. apply Hall. split.
      + apply elem_of_dom. exact His.
      + intros ->. apply Hne, elem_of_singleton. reflexivity.
  Qed.

  (** The table built for one message. *)
  Definition table_of (m : string) (c : list (list string)) : Prop :=
    length c = rounds /\ forall i, i < rounds -> c !! i = Some (default [] (s_accepted s !! (i, name i, m))).

  Lemma group_all ord :
    exists M, group_shares rounds (permute ord (map_to_list (s_accepted s))) ∅ = Some M /\
      (forall m, is_Some (M !! m) <-> has_shares s name m) /\
      (forall m c, M !! m = Some c -> table_of m c).
  Proof.
    assert (Hin : forall k v, (k, v) ∈ permute ord (map_to_list (s_accepted s)) <-> s_accepted s !! k = Some v).
    { intros k v. rewrite permute_perm. apply elem_of_map_to_list. }
    destruct (group_spec rounds name (permute ord (map_to_list (s_accepted s))) ∅) as (M & HM & Hspec).
    { intros i nm m v H'. apply Hin in H'. destruct (HO _ _ _ _ H') as (? & ? & _). auto. }
    { assert (Hp : map fst (permute ord (map_to_list (s_accepted s))) ≡ₚ map fst (map_to_list (s_accepted s)))
        by (apply Permutation_map, permute_perm). rewrite Hp. apply NoDup_fst_map_to_list. }
    { intros m c Hc. discriminate (eq_trans (eq_sym (lookup_empty (M := gmap string) (A := list (list string)) m)) Hc). }
    exists M. split; [exact HM|]. split.
    - intros m. rewrite (proj1 (Hspec m)). split.
      + intros [[x Hx]|(i & v & Hv)].
        * discriminate (eq_trans (eq_sym (lookup_empty (M := gmap string) (A := list (list string)) m)) Hx).
        * exists i, v. apply Hin. exact Hv.
      + intros (i & l & Hl). right. exists i, l. apply Hin. exact Hl.
    - intros m c Hc. destruct (proj2 (Hspec m) c Hc) as (Hlen & Hv & Hn). split; [exact Hlen|].
      intros i Hi. destruct (s_accepted s !! (i, name i, m)) as [l|] eqn:Hl.
      + cbn. apply Hv. apply Hin. exact Hl.
      + cbn. rewrite (Hn i).
        * rewrite lookup_empty. apply lookup_replicate. auto.
        * intros v H'. apply Hin in H'. discriminate (eq_trans (eq_sym Hl) H').
  Qed.

  (** What the first-missing search finds. *)
  Lemma el_ok m i : i < rounds -> let el := default [] (s_accepted s !! (i, name i, m)) in
    NoDup el /\ (forall id, id ∈ el -> other C local id) /\ (forall id, id ∈ el <-> share_in s name m i id).
  Proof.
    intros Hi. cbn. destruct (s_accepted s !! (i, name i, m)) as [l|] eqn:Hl; cbn.
    - destruct (HO _ _ _ _ Hl) as (_ & _ & Hnd & Hoth). split; [exact Hnd|]. split; [exact Hoth|].
      intros id. split; [intros Hid; exists l; auto|]. intros (l' & Hl' & Hid). rewrite Hl in Hl'. injection Hl' as <-. exact Hid.
    - split; [constructor|]. split; [intros id Hid; inversion Hid|].
      intros id. split; [intros Hid; inversion Hid|]. intros (l' & Hl' & _). rewrite Hl in Hl'. discriminate.
  Qed.
  Lemma complete_iff m i : i < rounds ->
    S (length (default [] (s_accepted s !! (i, name i, m)))) = size (cf_id2peer C) <-> round_complete C local s name m i.
  Proof.
    intros Hi. destruct (el_ok m i Hi) as (Hnd & Hoth & Hin). rewrite (count_all _ Hnd Hoth). unfold round_complete.
    split; intros Hall id Hid; apply Hin, Hall, Hid.
  Qed.

  Lemma search m c : table_of m c ->
    match first_missing (size (cf_id2peer C)) 0 c with
    | None => forall i, i < rounds -> round_complete C local s name m i
    | Some (i, el) => i < rounds /\ first_incomplete C local s name m i /\ el = default [] (s_accepted s !! (i, name i, m))
    end.
  Proof.
    intros [Hlen Hc]. assert (Hf := first_missing_spec (size (cf_id2peer C)) c 0).
    destruct (first_missing _ 0 c) as [[i el]|].
    - destruct Hf as (j & -> & Hj & Hn & Hall). cbn [plus] in *.
      assert (Hjr : j < rounds) by (rewrite <- Hlen; eapply lookup_lt_Some; exact Hj).
      assert (Hel : el = default [] (s_accepted s !! (j, name j, m))) by (rewrite (Hc j Hjr) in Hj; congruence).
      split; [exact Hjr|]. split; [|exact Hel]. split.
      + intros j' Hj'. apply complete_iff; [lia|]. apply (Hall j'); [exact Hj'|]. apply Hc. lia.
      + rewrite Hel in Hn. rewrite (complete_iff m j Hjr) in Hn.
        (* find a member that is missing *)
        destruct (decide (Exists (fun id => id <> local /\ id ∉ el) (elements (dom (cf_parties C))))) as [Hex|Hno].
        * apply Exists_exists in Hex as (id & Hid & Hne & Hnin). apply elem_of_elements, elem_of_dom in Hid.
          exists id. split; [split; assumption|]. intros Hsh. apply Hnin. rewrite Hel. apply el_ok; assumption.
        * exfalso. apply Hn. intros id [His Hne]. apply el_ok; [exact Hjr|]. rewrite <- Hel.
          destruct (decide (id ∈ el)) as [Hin|Hnin]; [exact Hin|]. exfalso. apply Hno. apply Exists_exists.
          exists id. split; [apply elem_of_elements, elem_of_dom; exact His|auto].
    - intros i Hi. apply complete_iff; [exact Hi|]. apply Hf. eapply elem_of_list_lookup_2. apply Hc. exact Hi.
  Qed.

  Lemma first_incomplete_unique m i j :
    first_incomplete C local s name m i -> first_incomplete C local s name m j -> i = j.
  Proof.
    intros [Hi (a & Ha & Hai)] [Hj (b & Hb & Hbj)].
    destruct (Nat.lt_trichotomy i j) as [Hlt|[Heq|Hgt]]; [exfalso|exact Heq|exfalso].
    - apply Hai. apply (Hj i Hlt). exact Ha.
    - apply Hbj. apply (Hi j Hgt). exact Hb.
  Qed.

  (** Peers of the members of [el] and of the node itself. *)
  Lemma peers_of el id p :
    other C local id -> (forall x, x ∈ el -> other C local x) -> cf_id2peer C !! id = Some p ->
    p ∈ map (fun pid => default "" (cf_id2peer C !! pid)) (el ++ [local]) <-> id ∈ el.
  Proof.
    intros Hid Hel Hp. destruct HG as (_ & Hdom & Hinj).
    assert (Hpeer : forall x, x ∈ el ++ [local] -> exists q, cf_id2peer C !! x = Some q).
    { intros x Hx. assert (Hd : x ∈ dom (cf_id2peer C)).
      { rewrite Hdom. apply elem_of_dom. apply elem_of_app in Hx as [Hx|Hx]; [apply Hel; exact Hx|].
        apply elem_of_list_singleton in Hx as ->. exact Hloc. }
      apply elem_of_dom in Hd. exact Hd. }
    rewrite elem_of_list_fmap. split.
    - intros (x & Heq & Hx). destruct (Hpeer x Hx) as [q Hq]. rewrite Hq in Heq. cbn in Heq. subst q.
      assert (x = id) by (eapply Hinj; eassumption). subst x.
      apply elem_of_app in Hx as [Hx|Hx]; [exact Hx|]. apply elem_of_list_singleton in Hx. destruct Hid. contradiction.
    - intros Hin. exists id. split; [rewrite Hp; reflexivity|]. apply elem_of_app. auto.
  Qed.

  Lemma missing_unicast_spec i : missing_unicast rounds i = true <-> unicast_round rounds i.
  Proof.
    unfold missing_unicast, unicast_round, TSSKEYGENROUNDS, TSSKEYSIGNROUNDS.
    rewrite orb_true_iff, !andb_true_iff, !Nat.eqb_eq, Nat.ltb_lt. tauto.
  Qed.

  Lemma missing_single ord ord2 ords m :
    has_shares s name m -> (forall m', has_shares s name m' -> m' = m) ->
    exists nodes u, TssMissingShareBlame E C local ord ord2 ords rounds s = BOk (nodes, u) /\
      (forall i, i < rounds -> first_incomplete C local s name m i ->
         blames_exactly E C (fun id => id <> local /\ ~ share_in s name m i id) nodes /\
         (u = true <-> unicast_round rounds i)) /\
      ((forall i, i < rounds -> round_complete C local s name m i) ->
         blames_exactly E C (fun id => id <> local) nodes /\ u = false).
  Proof.
    intros Hm Honly. unfold TssMissingShareBlame. destruct (group_all ord) as (M & HM & Hdom & Htab). rewrite HM.
    destruct (proj2 (Hdom m) Hm) as [c Hc].
    assert (HMs : M = {[m := c]}).
    { apply map_eq. intros k. destruct (decide (k = m)) as [-> | Hne]; [rewrite lookup_singleton; exact Hc|].
      rewrite lookup_singleton_ne by congruence. destruct (M !! k) as [x|] eqn:Hk; [|reflexivity].
      exfalso. apply Hne, Honly, Hdom. eauto. }
    assert (Hperm : permute ord2 (map_to_list M) = [(m, c)]).
    { apply Permutation_singleton_r. rewrite permute_perm, HMs, map_to_list_singleton. reflexivity. }
    rewrite Hperm. cbn [missing_loop]. assert (Hs := search m c (Htab m c Hc)).
    destruct (first_missing (size (cf_id2peer C)) 0 c) as [[i el]|].
    - destruct Hs as (Hi & Hfi & ->). destruct (el_ok m i Hi) as (_ & Hoth & Hin).
      set (el := default [] (s_accepted s !! (i, name i, m))) in *. cbn [app].
      set (peers := map _ (el ++ [local])).
      destruct (not_in_list_total E C local (hd [] ords) peers HG) as [pks Hpks]. rewrite Hpks.
      exists (map plain pks), (false || missing_unicast rounds i). split; [reflexivity|]. split.
      + intros i' Hi' Hfi'. assert (i' = i) by (eapply first_incomplete_unique; eassumption). subst i'.
        split; [|apply missing_unicast_spec].
        destruct (not_in_list_ok _ _ _ _ _ _ Hpks (proj1 (proj2 HG))) as (ids & Hnd & Hspec & Hf).
        exists ids. split; [exact Hnd|]. split; [|exact Hf]. intros id. rewrite Hspec.
        split; intros (His & Hne & Hp); (split; [exact His|]); (split; [exact Hne|]).
        * intros Hsh. assert (Hd : id ∈ dom (cf_id2peer C)) by (rewrite (proj1 (proj2 HG)); apply elem_of_dom; exact His).
          apply elem_of_dom in Hd as [p Hd]. apply (Hp p Hd). apply (peers_of el id p); [split; assumption|exact Hoth|exact Hd|].
          apply Hin. exact Hsh.
        * intros p Hd Hinp. apply Hp. apply Hin. apply (peers_of el id p); [split; assumption|exact Hoth|exact Hd|exact Hinp].
      + intros Hall. exfalso. destruct Hfi as [_ (id & Hid & Hns)]. apply Hns. apply (Hall i Hi). exact Hid.
    - destruct (not_in_list_total E C local (hd [] ords) [] HG) as [pks Hpks]. rewrite Hpks.
      exists (map plain pks), false. split; [reflexivity|]. split.
      + intros i Hi [_ (id & Hid & Hns)]. exfalso. apply Hns. apply (Hs i Hi). exact Hid.
      + intros _. split; [|reflexivity].
        destruct (not_in_list_ok _ _ _ _ _ _ Hpks (proj1 (proj2 HG))) as (ids & Hnd & Hspec & Hf).
        exists ids. split; [exact Hnd|]. split; [|exact Hf]. intros id. rewrite Hspec.
        split; [tauto|]. intros (His & Hne). split; [exact His|]. split; [exact Hne|]. intros p _ Hin. inversion Hin.
  Qed.

  (** With several messages. *)
  Lemma missing_loop_batch l : forall ords peers u acc,
    (forall m c, (m, c) ∈ l -> table_of m c) ->
    (forall m c, (m, c) ∈ l -> exists i, i < rounds /\ first_incomplete C local s name m i) ->
    exists nodes u', missing_loop E C local rounds ords l peers u acc = BOk (acc ++ nodes, u') /\
      (forall n, n ∈ nodes -> exists id m c i, (m, c) ∈ l /\ other C local id /\ blames E C id n /\
         first_incomplete C local s name m i /\ ~ share_in s name m i id) /\
      (forall id p, other C local id -> cf_id2peer C !! id = Some p -> p ∉ peers -> l <> [] ->
         (forall m c i, (m, c) ∈ l -> first_incomplete C local s name m i -> ~ share_in s name m i id) ->
         exists n, n ∈ nodes /\ blames E C id n) /\
      (u' = true <-> u = true \/ exists m c i, (m, c) ∈ l /\ i < rounds /\ first_incomplete C local s name m i /\ unicast_round rounds i).
  Proof.
    induction l as [|[m c] l IH]; intros ords peers u acc Htab Hinc.
    - exists [], u. cbn. rewrite app_nil_r. split; [reflexivity|]. split; [intros n Hn; inversion Hn|].
      split; [intros id p _ _ _ Hne; contradiction|]. split; [auto|]. intros [H'|(m & c & i & Hin & _)]; [exact H'|inversion Hin].
    - cbn [missing_loop]. assert (Hs := search m c (Htab m c ltac:(left))).
      destruct (Hinc m c ltac:(left)) as (i0 & Hi0 & Hfi0).
      destruct (first_missing (size (cf_id2peer C)) 0 c) as [[i el]|].
      2: { exfalso. destruct Hfi0 as [_ (id & Hid & Hns)]. apply Hns, (Hs i0 Hi0), Hid. }
      destruct Hs as (Hi & Hfi & ->). destruct (el_ok m i Hi) as (_ & Hoth & Hin).
      set (el := default [] (s_accepted s !! (i, name i, m))) in *.
      set (peers1 := peers ++ map _ (el ++ [local])).
      destruct (not_in_list_total E C local (hd [] ords) peers1 HG) as [pks Hpks]. rewrite Hpks.
      destruct (IH (tl ords) peers1 (u || missing_unicast rounds i) (acc ++ map plain pks)) as (nodes & u' & Hl & Hsound & Hcomp & Hu).
      { intros m' c' Hin'. apply Htab. right. exact Hin'. }
      { intros m' c' Hin'. apply (Hinc m' c'). right. exact Hin'. }
      exists (map plain pks ++ nodes), u'. rewrite Hl. split; [rewrite app_assoc; reflexivity|].
      destruct (not_in_list_ok _ _ _ _ _ _ Hpks (proj1 (proj2 HG))) as (ids & Hnd & Hspec & Hf).
      split; [|split].
      + intros n Hn. apply elem_of_app in Hn as [Hn|Hn].
        2: { destruct (Hsound n Hn) as (id & m' & c' & i' & Hm' & Hrest). exists id, m', c', i'. split; [right; exact Hm'|exact Hrest]. }
        apply elem_of_list_lookup in Hn as [k Hk]. destruct (Forall2_lookup_r _ _ _ _ _ Hf Hk) as (id & Hid & Hb).
        apply elem_of_list_lookup_2 in Hid. apply Hspec in Hid as (His & Hne & Hp).
        exists id, m, c, i. split; [left|]. split; [split; assumption|]. split; [exact Hb|]. split; [exact Hfi|].
        intros Hsh. assert (Hd : id ∈ dom (cf_id2peer C)) by (rewrite (proj1 (proj2 HG)); apply elem_of_dom; exact His).
        apply elem_of_dom in Hd as [p Hd]. apply (Hp p Hd). apply elem_of_app. right.
        apply (peers_of el id p); [split; assumption|exact Hoth|exact Hd|]. apply Hin. exact Hsh.
      + intros id p Hid Hpeer Hnin _ Hmiss.
        assert (Hidin : id ∈ ids).
        { apply Hspec. split; [apply Hid|]. split; [apply Hid|]. intros p' Hp' Hin'. assert (p' = p) by congruence. subst p'.
          apply elem_of_app in Hin' as [Hin'|Hin']; [contradiction|].
          apply (Hmiss m c i ltac:(left) Hfi). apply Hin. eapply peers_of; eauto. }
        apply elem_of_list_lookup in Hidin as [k Hk]. destruct (Forall2_lookup_l _ _ _ _ _ Hf Hk) as (n & Hn & Hb).
        exists n. split; [|exact Hb]. apply elem_of_app. left. eapply elem_of_list_lookup_2. exact Hn.
      + rewrite Hu, orb_true_iff, missing_unicast_spec. split.
        * intros [[H'|H']|(m' & c' & i' & Hin' & Hr)]; [auto| |].
          -- right. exists m, c, i. split; [left|auto].
          -- right. exists m', c', i'. split; [right; exact Hin'|exact Hr].
        * intros [H'|(m' & c' & i' & Hin' & Hi' & Hf' & Hun)]; [auto|]. apply elem_of_cons in Hin' as [Heq|Hin'].
          -- injection Heq as -> ->. assert (i' = i) by (eapply first_incomplete_unique; eassumption). subst. auto.
          -- right. exists m', c', i'. auto.
  Qed.

  Lemma missing_batch ord ord2 ords :
    (forall m, has_shares s name m -> exists i, i < rounds /\ first_incomplete C local s name m i) ->
    exists nodes u, TssMissingShareBlame E C local ord ord2 ords rounds s = BOk (nodes, u) /\
      (forall n, n ∈ nodes -> exists id m i, has_shares s name m /\ other C local id /\ blames E C id n /\
         first_incomplete C local s name m i /\ ~ share_in s name m i id) /\
      (forall id, other C local id -> (exists m, has_shares s name m) ->
         (forall m i, has_shares s name m -> first_incomplete C local s name m i -> ~ share_in s name m i id) ->
         exists n, n ∈ nodes /\ blames E C id n) /\
      (u = true <-> exists m i, has_shares s name m /\ i < rounds /\ first_incomplete C local s name m i /\ unicast_round rounds i).
  Proof.
    intros Hinc. unfold TssMissingShareBlame. destruct (group_all ord) as (M & HM & Hdom & Htab). rewrite HM.
    assert (Hel : forall m c, (m, c) ∈ permute ord2 (map_to_list M) <-> M !! m = Some c).
    { intros m c. rewrite permute_perm. apply elem_of_map_to_list. }
    assert (Hsh : forall m, has_shares s name m <-> exists c, (m, c) ∈ permute ord2 (map_to_list M)).
    { intros m. rewrite <- Hdom. split; intros [c Hc]; exists c; [apply Hel; exact Hc|apply Hel in Hc; exact Hc]. }
    destruct (missing_loop_batch (permute ord2 (map_to_list M)) ords [] false []) as (nodes & u & Hl & Hsound & Hcomp & Hu).
    { intros m c Hin. apply Htab, Hel, Hin. }
    { intros m c Hin. apply Hinc, Hsh. eauto. }
    exists nodes, u. split; [exact Hl|]. split; [|split].
    - intros n Hn. destruct (Hsound n Hn) as (id & m & c & i & Hin & Hr). exists id, m, i. split; [apply Hsh; eauto|exact Hr].
    - intros id Hid [m Hm] Hmiss. assert (Hd : id ∈ dom (cf_id2peer C)) by (rewrite (proj1 (proj2 HG)); apply elem_of_dom, Hid).
      apply elem_of_dom in Hd as [p Hd]. apply (Hcomp id p Hid Hd); [intros Hin; inversion Hin| |].
      + apply Hsh in Hm as [c Hc]. intros Hnil. rewrite Hnil in Hc. inversion Hc.
      + intros m' c' i' Hin'. apply Hmiss. apply Hsh. eauto.
    - rewrite Hu. split.
      + intros [Hf|(m & c & i & Hin & Hr)]; [discriminate|]. exists m, i. split; [apply Hsh; eauto|exact Hr].
      + intros (m & i & Hm & Hr). right. apply Hsh in Hm as [c Hc]. exists m, c, i. auto.
  Qed.
End M.
