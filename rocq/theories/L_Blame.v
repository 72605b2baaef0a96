(** Lemmas for the timeout blame. *)
From Coq Require Import ZArith NArith Ascii String List Lia.
From stdpp Require Import base list strings gmap sorting.
From Verif Require Import Base L_Base S_Threshold M_Common S_Common L_Common M_Blame S_Blame.

Section L.
  Context (E : env) (C : cfg) (local : string).

  Lemma acc_plain ids pks :
    AccPubKeysFromPartyIDs E C ids = Some pks -> Forall2 (blames E C) ids (map plain pks).
  Proof.
    intros Ha. apply AccPubKeys_spec in Ha. induction Ha as [|id pk ids pks (k & Hk & Hp) _ IH]; constructor; [|exact IH].
    exists k. auto.
  Qed.
  Lemma acc_total ids :
    (forall id, id ∈ ids -> exists k, cf_parties C !! id = Some k /\ is_Some (e_pub E k)) ->
    is_Some (AccPubKeysFromPartyIDs E C ids).
  Proof.
    induction ids as [|id ids IH]; intros Hall; [cbn; eauto|].
    destruct (Hall id ltac:(left)) as (k & Hk & pk & Hpk).
    destruct IH as [l Hl]; [intros x Hx; apply Hall; right; exact Hx|].
    cbn. rewrite Hk, Hpk, Hl. eauto.
  Qed.

  (** ** Broadcasts *)
  Lemma by_round_some round l :
    (forall w, w ∈ l -> exists id, sent_by w id) ->
    exists ids, by_round round l = Some ids /\
      forall id, id ∈ ids <-> exists w, w ∈ l /\ w_round w = round /\ sent_by w id.
  Proof.
    induction l as [|w l IH]; intros Hall.
    - exists []. split; [reflexivity|]. intros id. split; [intros Hin; inversion Hin|].
      intros (w & Hw & _). inversion Hw.
    - destruct IH as (ids & Hids & Hspec); [intros w' Hw'; apply Hall; right; exact Hw'|].
      destruct (Hall w ltac:(left)) as (id0 & to & bc & Hw). cbn [by_round].
      destruct (String.eqb_spec (w_round w) round) as [Heq|Hne].
      + rewrite Hw, Hids. exists (id0 :: ids). split; [reflexivity|]. intros id. rewrite elem_of_cons, Hspec. split.
        * intros [-> | (w' & Hin & Hr & Hs)].
          -- exists w. split; [left|]. split; [exact Heq|]. exists to, bc. exact Hw.
          -- exists w'. split; [right; exact Hin|auto].
        * intros (w' & Hin & Hr & Hs). apply elem_of_cons in Hin as [-> | Hin]; [|right; eauto].
          left. destruct Hs as (to' & bc' & Hs). congruence.
      + rewrite Hids. exists ids. split; [reflexivity|]. intros id. rewrite Hspec. split.
        * intros (w' & Hin & Hr). exists w'. split; [right; exact Hin|exact Hr].
        * intros (w' & Hin & Hr & Hs). apply elem_of_cons in Hin as [-> | Hin]; [contradiction|eauto].
  Qed.

  Lemma elem_stored s ord (w : wire) :
    w ∈ permute ord (map snd (map_to_list (s_stored s))) <-> exists k, s_stored s !! k = Some w.
  Proof.
    rewrite permute_perm, elem_of_list_fmap. split.
    - intros ([k w'] & -> & Hin). apply elem_of_map_to_list in Hin. eauto.
    - intros [k Hk]. exists (k, w). split; [reflexivity|]. apply elem_of_map_to_list. exact Hk.
  Qed.

  Lemma broadcast_blame s ord ord2 round :
    (forall id k, cf_parties C !! id = Some k -> is_Some (e_pub E k)) ->
    (forall k w, s_stored s !! k = Some w -> exists id, sent_by w id) ->
    exists nodes, GetBroadcastBlame E C local ord ord2 round s = BOk nodes /\
      ((forall id, ~ confirmed s round id) -> nodes = []) /\
      ((exists id, confirmed s round id) ->
         blames_exactly E C (fun id => id <> local /\ ~ confirmed s round id) nodes).
  Proof.
    intros Hpub Hst. unfold GetBroadcastBlame, tssTimeoutBlame, GetByRound.
    destruct (by_round_some round (permute ord (map snd (map_to_list (s_stored s))))) as (ids & Hids & Hspec).
    { intros w Hw. apply elem_stored in Hw as [k Hk]. eauto. }
    rewrite Hids.
    assert (Hconf : forall id, id ∈ ids <-> confirmed s round id).
    { intros id. rewrite Hspec. split.
      - intros (w & Hw & Hr & Hs). apply elem_stored in Hw as [k Hk]. exists k, w. auto.
      - intros (k & w & Hk & Hr & Hs). exists w. split; [apply elem_stored; eauto|auto]. }
    destruct ids as [|i0 ids].
    { exists []. split; [reflexivity|]. split; [reflexivity|]. intros [id Hid]. apply Hconf in Hid. inversion Hid. }
    set (standby := i0 :: ids) in *.
    set (diff := permute ord2 (elements (dom (cf_parties C) ∖ {[local]} ∖ list_to_set standby : gset string))).
    assert (Hdiff : forall id, id ∈ diff <-> is_Some (cf_parties C !! id) /\ id <> local /\ ~ confirmed s round id).
    { intros id. unfold diff. rewrite permute_perm, elem_of_elements, !elem_of_difference, elem_of_dom,
        elem_of_singleton, elem_of_list_to_set, Hconf. tauto. }
    destruct (acc_total diff) as [l Hl].
    { intros id Hid. apply Hdiff in Hid as ([k Hk] & _). exists k. split; [exact Hk|]. eauto. }
    rewrite Hl. exists (map plain l). split; [reflexivity|]. split.
    - intros Hno. exfalso. apply (Hno i0). apply Hconf. left.
    - intros _. exists diff. split.
      { unfold diff. rewrite permute_perm. apply NoDup_elements. }
      split; [exact Hdiff|]. apply acc_plain. exact Hl.
  Qed.

  (** ** Lists by peer *)
  Lemma not_in_list_ok ord peers pks :
    getBlamePubKeysNotInList E C local ord peers = Some pks ->
    dom (cf_id2peer C) = dom (cf_parties C) ->
    blames_exactly E C (fun id => id <> local /\ forall p, cf_id2peer C !! id = Some p -> p ∉ peers) (map plain pks).
  Proof.
    unfold getBlamePubKeysNotInList. intros Ha Hdom. eexists. split; [|split; [|apply acc_plain; exact Ha]].
    - assert (Hperm : map fst (filter (fun x : string * string => ~ (local = fst x) /\ snd x ∉ peers)
                       (permute ord (map_to_list (cf_id2peer C))))
                 ≡ₚ map fst (filter (fun x : string * string => ~ (local = fst x) /\ snd x ∉ peers)
                       (map_to_list (cf_id2peer C)))).
      { apply Permutation_map, filter_Permutation, permute_perm. }
      rewrite Hperm. clear Hperm Ha.
      assert (Hnd : NoDup (map_to_list (cf_id2peer C)).*1) by apply NoDup_fst_map_to_list.
      revert Hnd. induction (map_to_list (cf_id2peer C)) as [|x l IH]; intros Hnd; [constructor|].
      cbn [fmap list_fmap] in Hnd. apply NoDup_cons in Hnd as [Hx Hnd]. rewrite filter_cons.
      case_decide; [|apply IH; exact Hnd]. cbn [map]. constructor; [|apply IH; exact Hnd].
      intros Hin. apply Hx. apply elem_of_list_fmap in Hin as (y & -> & Hy).
      apply elem_of_list_filter in Hy as [_ Hy]. apply elem_of_list_fmap. exists y. auto.
    - intros id. rewrite elem_of_list_fmap. split.
      + intros ([id' p] & -> & Hin). apply elem_of_list_filter in Hin as [[Hl Hp] Hin].
        rewrite permute_perm in Hin. apply elem_of_map_to_list in Hin. cbn in *. split.
        { apply elem_of_dom. rewrite <- Hdom. apply elem_of_dom. eauto. }
        split; [congruence|]. intros p' Hp'. assert (p' = p) by congruence. subst. exact Hp.
      + intros (His & Hl & Hp). apply elem_of_dom in His. rewrite <- Hdom in His. apply elem_of_dom in His as [p His].
        exists (id, p). split; [reflexivity|]. apply elem_of_list_filter. cbn. split; [split; [congruence|auto]|].
        rewrite permute_perm. apply elem_of_map_to_list. exact His.
  Qed.
  Lemma not_in_list_total ord peers :
    good_tables E C -> is_Some (getBlamePubKeysNotInList E C local ord peers).
  Proof.
    intros (Hpub & Hdom & _). apply acc_total. intros id Hid. apply elem_of_list_fmap in Hid as ([id' p] & -> & Hin).
    apply elem_of_list_filter in Hin as [_ Hin]. rewrite permute_perm in Hin. apply elem_of_map_to_list in Hin.
    assert (Hd : id' ∈ dom (cf_id2peer C)) by (apply elem_of_dom; eauto). rewrite Hdom in Hd.
    apply elem_of_dom in Hd as [k Hk]. exists k. split; [exact Hk|eauto].
  Qed.
  Lemma in_list_total ord peers :
    good_tables E C -> is_Some (getBlamePubKeysInList E C ord peers).
  Proof.
    intros (Hpub & Hdom & _). apply acc_total. intros id Hid.
    apply elem_of_list_In, in_flat_map in Hid as ([id' p] & Hin & Hid). apply elem_of_list_In in Hin, Hid.
    apply elem_of_list_fmap in Hid as (? & -> & _). rewrite permute_perm in Hin. apply elem_of_map_to_list in Hin.
    assert (Hd : id' ∈ dom (cf_id2peer C)) by (apply elem_of_dom; eauto). rewrite Hdom in Hd.
    apply elem_of_dom in Hd as [k Hk]. exists k. split; [exact Hk|eauto].
  Qed.

  (** ** Unicasts *)
  Lemma unicast_blame s o1 o2 o3 round l :
    good_tables E C ->
    s_unicast s !! round = Some l ->
    exists nodes, GetUnicastBlame E C local o1 o2 o3 round s = BOk nodes /\
      blames_exactly E C (fun id => id <> local /\ ~ unicast_seen C s round id) nodes.
  Proof.
    intros HG Hl. unfold GetUnicastBlame. rewrite decide_False; [|intros He; rewrite He, lookup_empty in Hl; discriminate].
    rewrite Hl. unfold GetBlamePubKeysLists.
    set (online := permute o1 (elements (list_to_set l : gset string))).
    destruct (in_list_total o2 online HG) as [a Ha]. destruct (not_in_list_total o3 online HG) as [b Hb].
    rewrite Ha, Hb. exists (map plain b). split; [reflexivity|].
    destruct (not_in_list_ok _ _ _ Hb (proj1 (proj2 HG))) as (ids & Hnd & Hspec & Hf).
    exists ids. split; [exact Hnd|]. split; [|exact Hf]. intros id. rewrite Hspec.
    assert (Hon : forall p, p ∈ online <-> p ∈ l).
    { intros p. unfold online. rewrite permute_perm, elem_of_elements, elem_of_list_to_set. reflexivity. }
    split; intros (His & Hne & Hp); (split; [exact His|]); (split; [exact Hne|]).
    - intros (l' & p & Hl' & Hpe & Hin). assert (l' = l) by congruence. subst. apply (Hp p Hpe). apply Hon. exact Hin.
    - intros p Hpe Hin. apply Hp. exists l, p. rewrite <- Hon. auto.
  Qed.

  (** ** No self-blame *)
  Definition not_self (n : node) : Prop := exists id, id <> local /\ blames E C id n.

  Lemma exact_not_self P nodes :
    blames_exactly E C (fun id => id <> local /\ P id) nodes -> Forall not_self nodes.
  Proof.
    intros (ids & _ & Hspec & Hf).
    assert (Hall : Forall (fun id => id <> local) ids).
    { apply Forall_forall. intros id Hid. apply Hspec in Hid. tauto. }
    clear Hspec. induction Hf as [|id n ids nodes Hb Hf IH]; [constructor|]. inversion Hall; subst.
    constructor; [|auto]. exists id. auto.
  Qed.
  Lemma acc_not_self ids pks :
    (forall id, id ∈ ids -> id <> local) -> AccPubKeysFromPartyIDs E C ids = Some pks -> Forall not_self (map plain pks).
  Proof.
    intros Hall Ha. apply acc_plain in Ha. induction Ha as [|id n ids nodes Hb Hf IH]; [constructor|].
    constructor; [|apply IH; intros x Hx; apply Hall; right; exact Hx]. exists id. split; [apply Hall; left|exact Hb].
  Qed.
  Lemma broadcast_not_self o1 o2 round s nodes :
    GetBroadcastBlame E C local o1 o2 round s = BOk nodes -> Forall not_self nodes.
  Proof.
    unfold GetBroadcastBlame, tssTimeoutBlame. destruct (GetByRound _ _ _) as [[|i ids]|]; try discriminate.
    { intros Heq. injection Heq as <-. constructor. }
    destruct (AccPubKeysFromPartyIDs _ _ _) as [l|] eqn:Ha; [|discriminate]. intros Heq. injection Heq as <-.
    eapply acc_not_self; [|exact Ha]. intros id. rewrite permute_perm, elem_of_elements. set_solver.
  Qed.
  Lemma not_in_list_not_self o peers pks :
    getBlamePubKeysNotInList E C local o peers = Some pks -> Forall not_self (map plain pks).
  Proof.
    intros Ha. eapply acc_not_self; [|exact Ha]. intros id Hid. apply elem_of_list_fmap in Hid as (x & -> & Hx).
    apply elem_of_list_filter in Hx as [[Hne _] _]. congruence.
  Qed.
  Lemma unicast_not_self o1 o2 o3 round s nodes :
    GetUnicastBlame E C local o1 o2 o3 round s = BOk nodes -> Forall not_self nodes.
  Proof.
    unfold GetUnicastBlame. case_decide; [intros Heq; injection Heq as <-; constructor|].
    destruct (s_unicast s !! round) as [l|]; [|discriminate]. unfold GetBlamePubKeysLists.
    destruct (getBlamePubKeysInList _ _ _ _); [|discriminate].
    destruct (getBlamePubKeysNotInList _ _ _ _ _) as [b|] eqn:Hb; [|discriminate].
    intros Heq. injection Heq as <-. eapply not_in_list_not_self. exact Hb.
  Qed.
  Lemma missing_loop_not_self rounds l : forall ords peers u acc nodes u',
    Forall not_self acc -> missing_loop E C local rounds ords l peers u acc = BOk (nodes, u') -> Forall not_self nodes.
  Proof.
    induction l as [|[m cached] l IH]; intros ords peers u acc nodes u' Hacc; cbn [missing_loop].
    - intros Heq. injection Heq as <- _. exact Hacc.
    - destruct (match first_missing _ _ _ with None => _ | Some _ => _ end) as [peers' un'].
      destruct (getBlamePubKeysNotInList _ _ _ _ _) as [pks|] eqn:Hb; [|discriminate].
      apply IH. apply Forall_app. split; [exact Hacc|]. eapply not_in_list_not_self. exact Hb.
  Qed.
  Lemma missing_not_self o1 o2 os rounds s nodes u :
    TssMissingShareBlame E C local o1 o2 os rounds s = BOk (nodes, u) -> Forall not_self nodes.
  Proof.
    unfold TssMissingShareBlame. destruct (group_shares _ _ _); [|discriminate].
    apply missing_loop_not_self. constructor.
  Qed.

  (** ** AddBlameNodes *)
  Lemma node_equal_true a b : node_equal a b = true <-> same_node a b.
  Proof.
    unfold node_equal, same_node. rewrite andb_true_iff, String.eqb_eq, bool_decide_eq_true. reflexivity.
  Qed.
  Lemma add_node_in l n x : x ∈ add_node l n -> x ∈ l \/ x = n.
  Proof.
    unfold add_node. destruct (existsb _ _); [auto|]. intros Hin. apply elem_of_app in Hin as [Hin|Hin]; [auto|].
    right. apply elem_of_list_singleton in Hin. exact Hin.
  Qed.
  Lemma existsb_false n l : existsb (node_equal n) l = false -> forall x, x ∈ l -> ~ same_node n x.
  Proof.
    induction l as [|y l IH]; intros He x Hx; [inversion Hx|]. cbn in He. apply orb_false_iff in He as [He1 He2].
    apply elem_of_cons in Hx as [-> | Hx]; [|auto]. rewrite <- node_equal_true. congruence.
  Qed.
  Lemma existsb_true n l : existsb (node_equal n) l = true -> exists x, x ∈ l /\ same_node n x.
  Proof.
    induction l as [|y l IH]; intros He; [discriminate|]. cbn in He. apply orb_true_iff in He as [He|He].
    - exists y. split; [left|]. apply node_equal_true. exact He.
    - destruct (IH He) as (x & Hx & Hs). exists x. split; [right; exact Hx|exact Hs].
  Qed.
  Definition distinct_nodes (l : list node) : Prop :=
    forall i j a b, l !! i = Some a -> l !! j = Some b -> same_node a b -> i = j.

  Lemma add_nodes_spec ns : forall l,
    exists added, fold_left add_node ns l = l ++ added /\
      (forall n, n ∈ added -> n ∈ ns) /\
      (forall n, n ∈ ns -> exists n', n' ∈ l ++ added /\ same_node n n') /\
      (distinct_nodes l -> distinct_nodes (l ++ added)) /\
      (forall n, n ∈ added -> forall x, x ∈ l -> ~ same_node n x).
  Proof.
    induction ns as [|n ns IH]; intros l.
    - exists []. cbn. rewrite app_nil_r. split; [reflexivity|]. split; [auto|].
      split; [intros n Hn; inversion Hn|]. split; [auto|]. intros n Hn. inversion Hn.
    - cbn [fold_left]. unfold add_node at 2. destruct (existsb (node_equal n) l) eqn:He.
      + destruct (IH l) as (added & Hf & Hin & Hall & Hd & Hnew). exists added. split; [exact Hf|].
        split; [intros x Hx; right; auto|]. split; [|auto].
        intros x Hx. apply elem_of_cons in Hx as [-> | Hx]; [|auto].
        destruct (existsb_true _ _ He) as (y & Hy & Hs). exists y. split; [apply elem_of_app; auto|exact Hs].
      + destruct (IH (l ++ [n])) as (added & Hf & Hin & Hall & Hd & Hnew).
        assert (Hfresh := existsb_false _ _ He).
        exists (n :: added). rewrite Hf, <- app_assoc. cbn [app]. split; [reflexivity|].
        rewrite <- app_assoc in Hall, Hd. cbn [app] in Hall, Hd.
        split; [intros x Hx; apply elem_of_cons in Hx as [-> | Hx]; [left|right; auto]|]. split; [|split].
        * intros x Hx. apply elem_of_cons in Hx as [-> | Hx]; [|auto].
          exists n. split; [apply elem_of_app; right; left|]. split; reflexivity.
        * intros Hdl. apply Hd. intros i j a b Hi Hj Hs.
          assert (Hlast : forall i a, (l ++ [n]) !! i = Some a -> (l !! i = Some a) \/ (i = length l /\ a = n)).
          { intros i' a' Hi'. apply lookup_app_Some in Hi' as [Hi'|[Hlen Hi']]; [auto|].
            apply list_lookup_singleton_Some in Hi' as [Hz ->]. right. split; [lia|reflexivity]. }
          destruct (Hlast _ _ Hi) as [Hi'|[-> ->]]; destruct (Hlast _ _ Hj) as [Hj'|[-> ->]].
          -- eapply Hdl; eauto.
          -- exfalso. apply (Hfresh a); [eapply elem_of_list_lookup_2; exact Hi'|]. destruct Hs. split; congruence.
          -- exfalso. apply (Hfresh b); [eapply elem_of_list_lookup_2; exact Hj'|exact Hs].
          -- reflexivity.
        * intros x Hx y Hy. apply elem_of_cons in Hx as [-> | Hx]; [apply Hfresh; exact Hy|].
          apply (Hnew x Hx). apply elem_of_app. auto.
  Qed.

  (** ** The drivers' timeouts *)
  Definition old_or_other (s : state) (n : node) : Prop := n ∈ bl_nodes (s_blame s) \/ not_self n.
  Lemma add_forall (P : node -> Prop) b ns :
    Forall P (bl_nodes b) -> Forall P ns -> Forall P (bl_nodes (AddBlameNodes ns b)).
  Proof.
    intros Hb Hns. cbn [AddBlameNodes bl_nodes]. destruct (add_nodes_spec ns (bl_nodes b)) as (added & Hf & Hin & _).
    rewrite Hf. apply Forall_app. split; [exact Hb|]. apply Forall_forall. intros n Hn.
    rewrite Forall_forall in Hns. auto.
  Qed.

  Lemma timeout_not_self ar br rounds o s s' :
    timeout_blame E C local ar br rounds o s = Some s' ->
    Forall (old_or_other s) (bl_nodes (s_blame s')).
  Proof.
    assert (Hmono : forall ns, Forall not_self ns -> Forall (old_or_other s) ns).
    { intros ns Hns. eapply Forall_impl; [exact Hns|]. intros n Hn. right. exact Hn. }
    assert (Hold : Forall (old_or_other s) (bl_nodes (s_blame s))).
    { apply Forall_forall. intros n Hn. left. exact Hn. }
    unfold timeout_blame. intros Ht.
    destruct (nodes_of id (GetUnicastBlame _ _ _ _ _ _ _ _)) as [u|] eqn:Hu; [|discriminate].
    assert (Hus : Forall (old_or_other s) u).
    { destruct (GetUnicastBlame _ _ _ _ _ _ _ _) as [l|e|] eqn:Hg; cbn in Hu; try discriminate; injection Hu as <-.
      - apply Hmono. eapply unicast_not_self. exact Hg.
      - constructor. }
    set (s1 := if _ : bool then _ else _) in Ht.
    assert (Hs1 : Forall (old_or_other s) (bl_nodes (s_blame s1))).
    { unfold s1. destruct (Nat.ltb _ _ && Nat.leb _ _); [|exact Hold]. cbn. apply Forall_app. auto. }
    destruct (nodes_of id (GetBroadcastBlame _ _ _ _ _ _ _)) as [b|] eqn:Hb; [|discriminate].
    assert (Hbs : Forall (old_or_other s) b).
    { destruct (GetBroadcastBlame _ _ _ _ _ _ _) as [l|e|] eqn:Hg; cbn in Hb; try discriminate; injection Hb as <-.
      - apply Hmono. eapply broadcast_not_self. exact Hg.
      - constructor. }
    set (s2 := set_blame (AddBlameNodes b) s1) in Ht.
    assert (Hs2 : Forall (old_or_other s) (bl_nodes (s_blame s2))).
    { apply (add_forall _ (s_blame s1)); assumption. }
    destruct (bl_nodes (s_blame s2)) as [|n0 l0] eqn:Hn2.
    2: { injection Ht as <-. rewrite Hn2. exact Hs2. }
    destruct (TssMissingShareBlame _ _ _ _ _ _ _ _) as [[m un]|e|] eqn:Hm; try discriminate.
    2: { injection Ht as <-. rewrite Hn2. constructor. }
    destruct (Nat.ltb 0 (length m) && Nat.leb (length m) (peers_threshold C)) eqn:Hc; injection Ht as <-.
    2: { rewrite Hn2. constructor. }
    apply (add_forall _ (s_blame s2)); [rewrite Hn2; constructor|]. apply Hmono. eapply missing_not_self. exact Hm.
  Qed.

  (** Where a timeout can crash. *)
  Lemma group_crash rounds l : forall acc,
    group_shares rounds l acc = None -> exists i nm m v, ((i, nm, m), v) ∈ l /\ rounds <= i.
  Proof.
    induction l as [|[[[i nm] m] v] l IH]; intros acc Hg; [discriminate|]. cbn [group_shares] in Hg.
    destruct (Nat.ltb_spec i rounds) as [Hlt|Hge].
    - destruct (IH _ Hg) as (i' & nm' & m' & v' & Hin & Hr). exists i', nm', m', v'. split; [right; exact Hin|exact Hr].
    - exists i, nm, m, v. split; [left|exact Hge].
  Qed.
  Lemma missing_loop_no_crash rounds l : forall ords peers u acc, missing_loop E C local rounds ords l peers u acc <> BPanic.
  Proof.
    induction l as [|[m c] l IH]; intros ords peers u acc; cbn [missing_loop]; [discriminate|].
    destruct (match first_missing _ _ _ with None => _ | Some _ => _ end) as [peers' un'].
    destruct (getBlamePubKeysNotInList _ _ _ _ _); [apply IH|discriminate].
  Qed.
  Lemma timeout_crash ar br rounds o s :
    (forall k w, s_stored s !! k = Some w -> exists id, sent_by w id) ->
    timeout_blame E C local ar br rounds o s = None ->
    exists i nm m l, s_accepted s !! (i, nm, m) = Some l /\ rounds <= i.
  Proof.
    intros Hst. unfold timeout_blame.
    destruct (GetUnicastBlame _ _ _ _ _ _ _ _) as [u|e|] eqn:Hu; cbn [nodes_of].
    3: { exfalso. unfold GetUnicastBlame in Hu. revert Hu. case_decide; [discriminate|].
         destruct (s_unicast s !! ar); [|discriminate]. destruct (GetBlamePubKeysLists _ _ _ _ _ _) as [[]|]; discriminate. }
    all: set (s1 := if _ : bool then _ else _).
    all: assert (Hs1 : s_stored s1 = s_stored s /\ s_accepted s1 = s_accepted s) by (unfold s1; destruct (Nat.ltb _ _ && Nat.leb _ _); auto).
    all: destruct Hs1 as [Hs1 Hs1'].
    all: assert (Hb : GetBroadcastBlame E C local (to_b o) (to_b2 o) br s1 <> BPanic).
    1, 3: unfold GetBroadcastBlame, tssTimeoutBlame, GetByRound.
    1, 2: destruct (by_round_some br (permute (to_b o) (map snd (map_to_list (s_stored s1))))) as (ids & Hids & _);
      [intros w Hw; apply elem_stored in Hw as [k Hk]; rewrite Hs1 in Hk; eauto|];
      rewrite Hids; destruct ids; [discriminate|]; destruct (AccPubKeysFromPartyIDs _ _ _); discriminate.
    all: destruct (GetBroadcastBlame E C local (to_b o) (to_b2 o) br s1) as [b|e'|]; cbn [nodes_of]; [| |contradiction].
    all: match goal with |- context [bl_nodes (s_blame ?x)] => set (s2 := x) end.
    all: destruct (bl_nodes (s_blame s2)); [|discriminate].
    all: unfold TssMissingShareBlame; change (s_accepted s2) with (s_accepted s1); rewrite Hs1'.
    all: destruct (group_shares rounds _ ∅) as [M|] eqn:Hg.
    1, 3, 5, 7: match goal with |- context [missing_loop E C local ?a ?b ?c ?d ?e ?f] =>
        pose proof (missing_loop_no_crash a c b d e f); destruct (missing_loop E C local a b c d e f) as [[mm un]|?|];
        [match goal with |- (if ?b then _ else _) = _ -> _ => destruct b end; intros Hx; discriminate Hx|intros Hx; discriminate Hx|contradiction] end.
    all: intros _; apply group_crash in Hg as (i & nm & m & v & Hin & Hr); exists i, nm, m, v; (split; [|exact Hr]);
      rewrite permute_perm in Hin; apply elem_of_map_to_list in Hin; exact Hin.
  Qed.

  (** Where an added node can occur again. *)
  Lemma add_nodes_fresh ns : forall l,
    exists added, fold_left add_node ns l = l ++ added /\
      (forall n, n ∈ added -> n ∈ ns) /\
      (forall n, n ∈ ns -> exists n', n' ∈ l ++ added /\ same_node n n') /\
      (forall i j x y, added !! i = Some x -> (l ++ added) !! j = Some y -> same_node x y -> j = length l + i).
  Proof.
    induction ns as [|n ns IH]; intros l.
    - exists []. cbn. rewrite app_nil_r. split; [reflexivity|]. split; [auto|]. split; [intros n Hn; inversion Hn|].
      intros i j x y Hi. discriminate.
    - cbn [fold_left]. unfold add_node at 2. destruct (existsb (node_equal n) l) eqn:He.
      + destruct (IH l) as (added & Hf & Hin & Hall & Hd). exists added. split; [exact Hf|].
        split; [intros x Hx; right; auto|]. split; [|exact Hd].
        intros x Hx. apply elem_of_cons in Hx as [-> | Hx]; [|auto].
        destruct (existsb_true _ _ He) as (y & Hy & Hs). exists y. split; [apply elem_of_app; auto|exact Hs].
      + destruct (IH (l ++ [n])) as (added & Hf & Hin & Hall & Hd). assert (Hfresh := existsb_false _ _ He).
        exists (n :: added). rewrite Hf, <- app_assoc. cbn [app]. split; [reflexivity|].
        rewrite <- app_assoc in Hall, Hd. cbn [app] in Hall, Hd.
        split; [intros x Hx; apply elem_of_cons in Hx as [-> | Hx]; [left|right; auto]|]. split.
        * intros x Hx. apply elem_of_cons in Hx as [-> | Hx]; [|auto].
          exists n. split; [apply elem_of_app; right; left|]. split; reflexivity.
        * intros [|i] j x y Hi Hj Hs.
          -- injection Hi as <-. apply lookup_app_Some in Hj as [Hj|[Hlen Hj]].
             { exfalso. apply (Hfresh y); [eapply elem_of_list_lookup_2; exact Hj|exact Hs]. }
             destruct (j - length l) as [|k] eqn:Hk; [lia|]. cbn in Hj.
             (* a later added node equal to [n] *)
             exfalso. assert (Hsym : same_node y n) by (destruct Hs; split; congruence).
             assert (Hn : (l ++ n :: added) !! length l = Some n) by (rewrite lookup_app_r by lia; rewrite Nat.sub_diag; reflexivity).
             specialize (Hd k (length l) y n Hj Hn Hsym). rewrite app_length in Hd. cbn in Hd. lia.
          -- cbn in Hi. specialize (Hd i j x y Hi Hj Hs). rewrite app_length in Hd. cbn in Hd. lia.
  Qed.
End L.

(** ** NodeSyncBlame *)
Lemma existsb_in p online : existsb (String.eqb p) online = true <-> p ∈ online.
Proof.
  rewrite existsb_exists. split.
  - intros (x & Hx & Heq). apply String.eqb_eq in Heq as ->. apply elem_of_list_In. exact Hx.
  - intros Hp. exists p. split; [apply elem_of_list_In; exact Hp|apply String.eqb_refl].
Qed.
Global Instance absent_dec (peer_of : string -> option string) (online : list string) (k : string) :
  Decision (forall p, peer_of k = Some p -> p ∉ online).
Proof.
  destruct (peer_of k) as [p|].
  - destruct (decide (p ∈ online)) as [Hin|Hno].
    + right. intros Hall. exact (Hall p eq_refl Hin).
    + left. intros p' Heq. injection Heq as <-. exact Hno.
  - left. discriminate.
Defined.
Lemma sync_loop_ok peer_of keys online : forall acc,
  (forall k, k ∈ keys -> is_Some (peer_of k)) ->
  sync_loop peer_of keys online acc =
    BOk (acc ++ map (fun k => Node k [] []) (filter (fun k => forall p, peer_of k = Some p -> p ∉ online) keys)).
Proof.
  induction keys as [|k keys IH]; intros acc Hall; [cbn; rewrite app_nil_r; reflexivity|].
  destruct (Hall k ltac:(left)) as [p Hp]. cbn [sync_loop]. rewrite Hp.
  rewrite IH by (intros x Hx; apply Hall; right; exact Hx). rewrite filter_cons.
  destruct (existsb (String.eqb p) online) eqn:He.
  - rewrite decide_False; [reflexivity|]. intros Hno. apply (Hno p Hp). apply existsb_in. exact He.
  - rewrite decide_True; [cbn [map]; rewrite <- app_assoc; reflexivity|].
    intros p' Hp' Hin. assert (p' = p) by congruence. subst. apply existsb_in in Hin. congruence.
Qed.
Lemma sync_ok peer_of keys online :
  (forall k, k ∈ keys -> is_Some (peer_of k)) ->
  NodeSyncBlame peer_of keys online =
    BOk (Blame "signers fail to sync before keygen/keysign" false
      (map (fun k => Node k [] []) (filter (fun k => forall p, peer_of k = Some p -> p ∉ online) keys))).
Proof. intros Hall. unfold NodeSyncBlame. rewrite sync_loop_ok by exact Hall. reflexivity. Qed.
Lemma sync_err peer_of keys online :
  (exists k, k ∈ keys /\ peer_of k = None) -> exists e, NodeSyncBlame peer_of keys online = BErr e.
Proof.
  intros (k & Hk & Hp). unfold NodeSyncBlame.
  assert (He : forall acc, exists e, sync_loop peer_of keys online acc = BErr e).
  { induction keys as [|x keys IH]; intros acc; [inversion Hk|]. cbn [sync_loop].
    destruct (peer_of x) eqn:Hx; [|eauto]. apply elem_of_cons in Hk as [-> | Hk]; [congruence|]. apply IH. exact Hk. }
  destruct (He []) as [e ->]. eauto.
Qed.
