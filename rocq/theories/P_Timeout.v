(** Property theorems: who is blamed when a ceremony times out (C175, C176). *)
From Coq Require Import ZArith NArith Ascii String List Lia.
From stdpp Require Import base list strings gmap.
From Verif Require Import Base L_Base S_Threshold M_Common S_Common L_Common L_Common2
  M_Blame S_Blame L_Blame L_Blame2 L_Blame3 P_Blame P_Accept S_Timeout.

Lemma has_suffix_spec suf b : has_suffix suf b = true <-> exists pre, b = (pre ++ suf)%list.
Proof.
  induction b as [|c b IH]; cbn [has_suffix].
  - rewrite orb_false_r, bool_decide_eq_true. split; [intros ->; exists []; reflexivity|].
    intros [pre Hp]. symmetry in Hp. apply app_eq_nil in Hp as [_ ->]. reflexivity.
  - rewrite orb_true_iff, bool_decide_eq_true, IH. split.
    + intros [H|[pre ->]]; [exists []; exact H|]. exists (c :: pre). reflexivity.
    + intros [[|d pre] Hp]; [left; exact Hp|]. injection Hp as <- ->. right. eauto.
Qed.
Lemma previous_spec ty :
  ((exists prefix, ty = String.append prefix "SignRound1Message2") -> GetPreviousKeySignUicast ty = "SignRound1Message1") /\
  (~ (exists prefix, ty = String.append prefix "SignRound1Message2") -> GetPreviousKeySignUicast ty = "SignRound2Message").
Proof.
  unfold GetPreviousKeySignUicast.
  assert (Hs : has_suffix (to_bytes "SignRound1Message2") (to_bytes ty) = true <-> exists prefix, ty = String.append prefix "SignRound1Message2").
  { rewrite has_suffix_spec. split.
    - intros [pre Hp]. exists (of_bytes pre). apply to_bytes_inj. rewrite to_bytes_app, to_of_bytes. exact Hp.
    - intros [pre ->]. exists (to_bytes pre). apply to_bytes_app. }
  destruct (has_suffix _ _); split; intros H; try reflexivity; exfalso.
  - apply H, Hs. reflexivity.
  - apply Hs in H. discriminate.
Qed.
Lemma times_out_is E C local o rounds ty round s s' :
  times_out E C local o rounds ty round s s' -> timeout_blame E C local round ty rounds o s = Some s'.
Proof.
  intros [(Ht & -> & ->)|(bc & Ht & -> & Hp)]; [exact Ht|]. cbn [keysignTimeout] in Ht.
  destruct Hp as [[-> ->]|[(-> & Hp & ->)|(-> & Hp & ->)]]; [exact Ht| |].
  - rewrite (proj1 (previous_spec ty) Hp) in Ht. exact Ht.
  - rewrite (proj2 (previous_spec ty) Hp) in Ht. exact Ht.
Qed.

(** ** Lists that blame *)
Section Lists.
  Context (E : env) (C : cfg).

  Lemma exact_weaken P Q nodes : (forall id, is_Some (cf_parties C !! id) -> P id <-> Q id) ->
    blames_exactly E C P nodes -> blames_exactly E C Q nodes.
  Proof.
    intros HPQ (ids & Hnd & Hs & Hf). exists ids. split; [exact Hnd|]. split; [|exact Hf].
    intros id. rewrite Hs. split; intros [H1 H2]; (split; [exact H1|]); apply (HPQ id H1), H2.
  Qed.
  Lemma exact_nil P : (forall id, is_Some (cf_parties C !! id) -> ~ P id) -> blames_exactly E C P [].
  Proof.
    intros HP. exists []. split; [constructor|]. split; [|constructor]. intros id. split; [intros X; apply elem_of_nil in X; contradiction|].
    intros [H1 H2]. destruct (HP id H1 H2).
  Qed.
  Lemma exact_size P nodes (U : gset string) : (forall id, id ∈ U <-> is_Some (cf_parties C !! id) /\ P id) ->
    blames_exactly E C P nodes -> length nodes = size U.
  Proof.
    intros HU (ids & Hnd & Hs & Hf). rewrite <- (Forall2_length _ _ _ Hf).
    rewrite <- (size_list_to_set (C := gset string) _ Hnd). f_equal. apply set_eq. intros id.
    rewrite elem_of_list_to_set, Hs, HU. reflexivity.
  Qed.

  (** Node [n] equals the entry of [id] exactly if it is [id]'s. *)
  Lemma blames_same a b n m : distinct_keys E C -> blames E C a n -> blames E C b m ->
    (node_equal n m = true <-> a = b) /\ (a = b -> n = m).
  Proof.
    intros Hd (ka & Ha & Hpa & Hda & Hsa) (kb & Hb & Hpb & Hdb & Hsb). unfold node_equal.
    rewrite andb_true_iff, String.eqb_eq, bool_decide_eq_true. split; [split|].
    - intros [Hp _]. eapply (Hd a b); eauto. rewrite Hp. exact Hpb.
    - intros ->. rewrite Ha in Hb. injection Hb as <-. split; congruence.
    - intros ->. destruct n, m; cbn in *. rewrite Ha in Hb. injection Hb as <-. congruence.
  Qed.
  Lemma add_exact ids nodes : distinct_keys E C -> Forall2 (blames E C) ids nodes ->
    forall ids' nodes', NoDup ids -> NoDup ids' -> Forall2 (blames E C) ids' nodes' ->
    exists ids2, NoDup ids2 /\ Forall2 (blames E C) ids2 (fold_left add_node nodes nodes') /\
      forall id, id ∈ ids2 <-> id ∈ ids \/ id ∈ ids'.
  Proof.
    intros Hd. induction 1 as [|id n ids nodes Hn Hf IH]; intros ids' nodes' Hnd Hnd' Hf'; cbn [fold_left].
    { exists ids'. split; [exact Hnd'|]. split; [exact Hf'|]. intros id. rewrite elem_of_nil. tauto. }
    apply NoDup_cons in Hnd as [Hni Hnd].
    assert (Hex : existsb (node_equal n) nodes' = true <-> id ∈ ids').
    { rewrite existsb_exists. split.
      - intros (m & Hm & Heq). apply elem_of_list_In, elem_of_list_lookup in Hm as [k Hk].
        destruct (Forall2_lookup_r _ _ _ _ _ Hf' Hk) as (id' & Hid' & Hb). apply elem_of_list_lookup_2 in Hid'.
        apply (blames_same id id' n m Hd Hn Hb) in Heq as ->. exact Hid'.
      - intros Hin. apply elem_of_list_lookup in Hin as [k Hk]. destruct (Forall2_lookup_l _ _ _ _ _ Hf' Hk) as (m & Hm & Hb).
        exists m. split; [apply elem_of_list_In; eapply elem_of_list_lookup_2; exact Hm|].
        apply (blames_same id id n m Hd Hn Hb). reflexivity. }
    unfold add_node at 2. destruct (existsb (node_equal n) nodes').
    - destruct (IH ids' nodes' Hnd Hnd' Hf') as (ids2 & H1 & H2 & H3). exists ids2. split; [exact H1|]. split; [exact H2|].
      intros x. rewrite H3, elem_of_cons. assert (id ∈ ids') by (apply Hex; reflexivity). intuition congruence.
    - destruct (IH (ids' ++ [id])%list (nodes' ++ [n])%list Hnd) as (ids2 & H1 & H2 & H3).
      { apply NoDup_app. split; [exact Hnd'|]. split; [|repeat constructor; apply not_elem_of_nil].
        intros x Hx Hx'. apply elem_of_list_singleton in Hx' as ->. apply Hex in Hx. discriminate. }
      { apply Forall2_app; [exact Hf'|]. repeat constructor. exact Hn. }
      exists ids2. split; [exact H1|]. split; [exact H2|]. intros x.
      rewrite H3, elem_of_cons, elem_of_app, elem_of_list_singleton. tauto.
  Qed.
  Lemma add_union P Q nodes nodes' : distinct_keys E C -> blames_exactly E C P nodes -> blames_exactly E C Q nodes' ->
    blames_exactly E C (fun id => Q id \/ P id) (fold_left add_node nodes nodes').
  Proof.
    intros Hd (ids & H1 & H2 & H3) (ids' & H1' & H2' & H3').
    destruct (add_exact ids nodes Hd H3 ids' nodes' H1 H1' H3') as (ids2 & H4 & H5 & H6).
    exists ids2. split; [exact H4|]. split; [|exact H5]. intros id. rewrite H6, H2, H2'. tauto.
  Qed.
  Lemma add_elems nodes : distinct_keys E C -> (forall n, n ∈ nodes -> exists id, blames E C id n) ->
    forall nodes', (forall n, n ∈ nodes' -> exists id, blames E C id n) ->
    forall n, n ∈ fold_left add_node nodes nodes' <-> n ∈ nodes \/ n ∈ nodes'.
  Proof.
    intros Hd. induction nodes as [|x nodes IH]; intros Hn nodes' Hn' n; cbn [fold_left].
    { rewrite elem_of_nil. tauto. }
    destruct (Hn x ltac:(left)) as [idx Hx].
    assert (Hadd : forall m, m ∈ add_node nodes' x <-> m = x \/ m ∈ nodes').
    { intros m. unfold add_node. destruct (existsb (node_equal x) nodes') eqn:He.
      - apply existsb_exists in He as (y & Hy & Heq). apply elem_of_list_In in Hy. destruct (Hn' y Hy) as [idy Hby].
        destruct (blames_same idx idy x y Hd Hx Hby) as [H1 H2]. rewrite (H2 (proj1 H1 Heq)). split; [auto|]. intros [-> |]; auto.
      - rewrite elem_of_app, elem_of_list_singleton. tauto. }
    rewrite IH.
    - rewrite Hadd, elem_of_cons. tauto.
    - intros m Hm. apply Hn. right. exact Hm.
    - intros m Hm. apply Hadd in Hm as [-> |Hm]; eauto.
  Qed.
End Lists.

Lemma threshold_peers C k : k <= peers_threshold C <-> 3 * k < 2 * (length (cf_peers C) + 1).
Proof.
  unfold peers_threshold. rewrite <- (threshold_two_thirds (length (cf_peers C) + 1) k).
  assert (Hnn : (0 <= threshold_of (Z.of_nat (length (cf_peers C) + 1)))%Z).
  { change 0%Z with (Z.of_nat 0). apply threshold_two_thirds. lia. }
  lia.
Qed.

(** The first two sources of a timeout blame. *)
Section Found.
  Context (E : env) (C : cfg) (local : string) (s : state) (round ty : string) (o : torders).
  Context (HG : good_tables E C) (Hd : distinct_keys E C).
  Context (Hst : forall k w, s_stored s !! k = Some w -> exists id, sent_by w id).
  Context (Hempty : bl_nodes (s_blame s) = []).
  Context (U B : gset string) (HU : no_share C local s round U) (HB : no_broadcast C local s ty B).

  Lemma confirmed_dec : broadcasts_count s ty \/ ~ broadcasts_count s ty.
  Proof.
    destruct (by_round_some ty (permute [] (map snd (map_to_list (s_stored s))))) as (ids & _ & Hspec).
    { intros w Hw. apply elem_stored in Hw as [k Hk]. eauto. }
    assert (Hconf : forall id, id ∈ ids <-> confirmed s ty id).
    { intros id. rewrite Hspec. split.
      - intros (w & Hw & Hr & Hs). apply elem_stored in Hw as [k Hk]. exists k, w. auto.
      - intros (k & w & Hk & Hr & Hs). exists w. split; [apply elem_stored; eauto|auto]. }
    destruct ids as [|id ids].
    - right. intros [id Hid]. apply Hconf in Hid. apply elem_of_nil in Hid. exact Hid.
    - left. exists id. apply Hconf. left.
  Qed.

  (** The state after both. *)
  Definition reason_now : string := if String.eqb (bl_reason (s_blame s)) "" then TssTimeout else bl_reason (s_blame s).
  Lemma found rounds : exists s2,
    s_accepted s2 = s_accepted s /\
    blames_exactly E C (fun id => (shares_count C s round U /\ id ∈ U) \/ (broadcasts_count s ty /\ id ∈ B)) (bl_nodes (s_blame s2)) /\
    (shares_count C s round U -> bl_unicast (s_blame s2) = true /\ bl_reason (s_blame s2) = reason_now) /\
    (~ shares_count C s round U -> bl_unicast (s_blame s2) = bl_unicast (s_blame s) /\ bl_reason (s_blame s2) = bl_reason (s_blame s)) /\
    timeout_blame E C local round ty rounds o s =
      match bl_nodes (s_blame s2) with
      | [] => match TssMissingShareBlame E C local (to_m o) (to_m2 o) (to_ms o) rounds s2 with
              | BPanic => None
              | BErr _ => Some s2
              | BOk (m, unicast) =>
                  if Nat.ltb 0 (length m) && Nat.leb (length m) (peers_threshold C) then
                    Some (set_blame (fun b => let b' := AddBlameNodes m b in Blame (bl_reason b') unicast (bl_nodes b')) s2)
                  else Some s2
              end
      | _ => Some s2
      end.
  Proof.
    assert (Hu : exists u, nodes_of id (GetUnicastBlame E C local (to_u o) (to_u2 o) (to_u3 o) round s) = Some u /\
      ((Nat.ltb 0 (length u) && Nat.leb (length u) (peers_threshold C))%bool = true <-> shares_count C s round U) /\
      (shares_count C s round U -> blames_exactly E C (fun id => id ∈ U) u)).
    { destruct (C39_unicast_blame_exact E C local s (to_u o) (to_u2 o) (to_u3 o) round HG) as (H1 & H2 & H3).
      destruct (s_unicast s !! round) as [l|] eqn:Hl.
      - destruct (H3 ltac:(eauto)) as (nodes & -> & Hx). exists nodes. split; [reflexivity|].
        assert (Hx' : blames_exactly E C (fun id => id ∈ U) nodes).
        { eapply exact_weaken; [|exact Hx]. intros id Hid. rewrite (HU id). unfold other. tauto. }
        rewrite (exact_size E C (fun id => id ∈ U) nodes U) by (exact Hx' || (intros id; rewrite (HU id); unfold other; tauto)).
        split; [|intros _; exact Hx']. rewrite andb_true_iff, Nat.ltb_lt, Nat.leb_le, threshold_peers.
        unfold shares_count. rewrite Hl. split; [intros [? ?]; split; [eauto|lia]|intros (_ & ? & ?); split; lia].
      - exists []. split.
        { destruct (decide (s_unicast s = ∅)) as [He|He]; [rewrite (H1 He); reflexivity|].
          destruct (H2 He eq_refl) as [e ->]. reflexivity. }
        cbn. split; [|intros ([l Hx] & _); congruence]. split; [discriminate|]. intros ([l Hx] & _). congruence. }
    destruct Hu as (u & Hu & Hcond & Hexact).
    unfold timeout_blame. rewrite Hu. fold reason_now.
    set (s1 := if (_ && _)%bool then _ else s).
    assert (H1 : s_accepted s1 = s_accepted s /\ s_stored s1 = s_stored s /\
      blames_exactly E C (fun id => shares_count C s round U /\ id ∈ U) (bl_nodes (s_blame s1)) /\
      (shares_count C s round U -> bl_unicast (s_blame s1) = true /\ bl_reason (s_blame s1) = reason_now) /\
      (~ shares_count C s round U -> bl_unicast (s_blame s1) = bl_unicast (s_blame s) /\ bl_reason (s_blame s1) = bl_reason (s_blame s))).
    { unfold s1. destruct (Nat.ltb _ _ && Nat.leb _ _)%bool.
      - assert (Hc : shares_count C s round U) by (apply Hcond; reflexivity).
        split; [reflexivity|]. split; [reflexivity|]. cbn [set_blame s_blame SetBlame bl_nodes bl_unicast bl_reason].
        split; [|split; [auto|contradiction]]. change (s_blame (set_blame (SetBlame reason_now u true) s)) with (SetBlame reason_now u true (s_blame s)).
        cbn [SetBlame bl_nodes]. rewrite Hempty. cbn [app]. eapply exact_weaken; [|apply Hexact, Hc]. tauto.
      - assert (Hc : ~ shares_count C s round U) by (intros Hx; apply Hcond in Hx; discriminate).
        split; [reflexivity|]. split; [reflexivity|]. rewrite Hempty. split; [apply exact_nil; tauto|]. split; [contradiction|auto]. }
    destruct H1 as (Ha & Hs & Hn & Hf1 & Hf2).
    assert (Hb : exists b, nodes_of id (GetBroadcastBlame E C local (to_b o) (to_b2 o) ty s1) = Some b /\
      blames_exactly E C (fun id => broadcasts_count s ty /\ id ∈ B) b).
    { assert (Hcs : forall id, confirmed s1 ty id <-> confirmed s ty id) by (intros id; unfold confirmed; rewrite Hs; reflexivity).
      destruct (broadcast_blame E C local s1 (to_b o) (to_b2 o) ty (proj1 HG)) as (b & -> & Hb1 & Hb2); [rewrite Hs; exact Hst|].
      exists b. split; [reflexivity|]. destruct confirmed_dec as [Hc|Hc].
      - eapply exact_weaken; [|apply Hb2; destruct Hc as [x Hx]; exists x; apply Hcs, Hx].
        intros id Hid. rewrite (HB id), Hcs. unfold other. tauto.
      - rewrite Hb1; [apply exact_nil; tauto|]. intros id Hx. apply Hc. exists id. apply Hcs, Hx. }
    destruct Hb as (b & Hb & Hbe). rewrite Hb.
    exists (set_blame (AddBlameNodes b) s1). split; [exact Ha|].
    change (s_blame (set_blame (AddBlameNodes b) s1)) with (AddBlameNodes b (s_blame s1)). cbn [AddBlameNodes bl_nodes bl_unicast bl_reason].
    split; [apply add_union; assumption|]. split; [exact Hf1|]. split; [exact Hf2|]. reflexivity.
  Qed.
End Found.

(** ** C175 *)
(** A ceremony times out at a node that blamed nobody so far. When somebody is found to be
    late, exactly these are blamed, each once: the members that owe a private share of the
    round, if some came and fewer than two thirds of the nodes owe one; and the members whose
    broadcast of the local party's last round is missing, if some came. Private shares that
    count set the flag for private shares, and the reason unless there is one. *)
Theorem C175_the_late_are_blamed :
  forall E C tr local o rounds ty round s' U B,
    let s := run E C tr in
    good_tables E C -> distinct_keys E C -> bl_nodes (s_blame s) = [] ->
    times_out E C local o rounds ty round s s' ->
    no_share C local s round U -> no_broadcast C local s ty B ->
    shares_count C s round U \/ (broadcasts_count s ty /\ B <> ∅) ->
    blames_exactly E C (fun id => (shares_count C s round U /\ id ∈ U) \/ (broadcasts_count s ty /\ id ∈ B))
      (bl_nodes (s_blame s')) /\
    (shares_count C s round U ->
       bl_unicast (s_blame s') = true /\
       (bl_reason (s_blame s) = "" -> bl_reason (s_blame s') = "Tss timeout") /\
       (bl_reason (s_blame s) <> "" -> bl_reason (s_blame s') = bl_reason (s_blame s))) /\
    (~ shares_count C s round U ->
       bl_unicast (s_blame s') = bl_unicast (s_blame s) /\ bl_reason (s_blame s') = bl_reason (s_blame s)).
Proof.
  intros E C tr local o rounds ty round s' U B s HG Hd Hempty Ht HU HB Hsome. apply times_out_is in Ht.
  destruct (found E C local s round ty o HG Hd) with (U := U) (B := B) (rounds := rounds) as (s2 & _ & Hex & Hf1 & Hf2 & Heq); auto.
  { intros k w Hk. destruct (i_stored _ _ _ _ (inv_run E C tr) k w Hk) as (id & ((_ & Hs & _) & _) & _). eauto. }
  assert (Hs2 : s' = s2).
  { rewrite Ht in Heq. destruct (bl_nodes (s_blame s2)) eqn:Hn; [|congruence]. exfalso.
    destruct Hex as (ids & _ & Hids & Hf). apply Forall2_nil_inv_r in Hf as ->.
    assert (Hall : forall id, is_Some (cf_parties C !! id) -> ~ ((shares_count C s round U /\ id ∈ U) \/ (broadcasts_count s ty /\ id ∈ B))).
    { intros id Hid Hx. apply (not_elem_of_nil id), Hids. auto. }
    destruct Hsome as [Hc|[Hc Hne]].
    - assert (U <> ∅) as Hne by (destruct Hc as (_ & H1 & _); intros ->; rewrite size_empty in H1; lia).
      apply set_choose_L in Hne as [id Hid]. apply (Hall id); [apply HU in Hid as [[? _] _]; assumption|auto].
    - apply set_choose_L in Hne as [id Hid]. apply (Hall id); [apply HB in Hid as [[? _] _]; assumption|auto]. }
  subst s'. split; [exact Hex|]. split; [|exact Hf2]. intros Hc. destruct (Hf1 Hc) as [H1 H2]. split; [exact H1|].
  rewrite H2. unfold reason_now. destruct (String.eqb_spec (bl_reason (s_blame s)) "") as [He|He]; split; intros; try contradiction; reflexivity.
Qed.
Print Assumptions C175_the_late_are_blamed.

(** ** C176 *)
(** When nobody is found to be late in this way, the accepted shares decide (C40, C84): those
    whose shares are missing are blamed if they are fewer than two thirds of the nodes, and
    otherwise nobody. *)
Theorem C176_else_missing_shares_decide :
  forall E C tr local o rounds ty round s' U B,
    let s := run E C tr in
    good_tables E C -> distinct_keys E C -> bl_nodes (s_blame s) = [] ->
    times_out E C local o rounds ty round s s' ->
    no_share C local s round U -> no_broadcast C local s ty B ->
    ~ shares_count C s round U -> (broadcasts_count s ty -> B = ∅) ->
    bl_reason (s_blame s') = bl_reason (s_blame s) /\
    ((exists m unicast, TssMissingShareBlame E C local (to_m o) (to_m2 o) (to_ms o) rounds s = BOk (m, unicast) /\
        1 <= length m /\ 3 * length m < 2 * (length (cf_peers C) + 1) /\
        (forall n, n ∈ bl_nodes (s_blame s') <-> n ∈ m) /\ bl_unicast (s_blame s') = unicast) \/
     ((forall m unicast, TssMissingShareBlame E C local (to_m o) (to_m2 o) (to_ms o) rounds s = BOk (m, unicast) ->
         m = [] \/ 2 * (length (cf_peers C) + 1) <= 3 * length m) /\
        bl_nodes (s_blame s') = [] /\ bl_unicast (s_blame s') = bl_unicast (s_blame s))).
Proof.
  intros E C tr local o rounds ty round s' U B s HG Hd Hempty Ht HU HB Hno Hnob. apply times_out_is in Ht.
  destruct (found E C local s round ty o HG Hd) with (U := U) (B := B) (rounds := rounds) as (s2 & Ha & Hex & _ & Hf2 & Heq); auto.
  { intros k w Hk. destruct (i_stored _ _ _ _ (inv_run E C tr) k w Hk) as (id & ((_ & Hs & _) & _) & _). eauto. }
  destruct (Hf2 Hno) as [Hun Hre].
  assert (Hnil : bl_nodes (s_blame s2) = []).
  { destruct Hex as (ids & _ & Hids & Hf). assert (ids = []) as ->; [|apply Forall2_nil_inv_l in Hf; exact Hf].
    destruct ids as [|id ids]; [reflexivity|]. exfalso. destruct (proj1 (Hids id) ltac:(left)) as [_ [[Hc _]|[Hc Hin]]]; [contradiction|].
    rewrite (Hnob Hc) in Hin. apply not_elem_of_empty in Hin. exact Hin. }
  assert (Hmiss : TssMissingShareBlame E C local (to_m o) (to_m2 o) (to_ms o) rounds s2 =
    TssMissingShareBlame E C local (to_m o) (to_m2 o) (to_ms o) rounds s) by (unfold TssMissingShareBlame; rewrite Ha; reflexivity).
  rewrite Hnil, Hmiss in Heq. rewrite Ht in Heq.
  destruct (TssMissingShareBlame E C local (to_m o) (to_m2 o) (to_ms o) rounds s) as [[m un]|e|] eqn:Hm; [| |discriminate].
  2:{ injection Heq as ->. split; [exact Hre|]. right. split; [discriminate|]. auto. }
  destruct (Nat.ltb 0 (length m) && Nat.leb (length m) (peers_threshold C))%bool eqn:Hc; injection Heq as ->.
  - apply andb_true_iff in Hc as [Hc1 Hc2]. apply Nat.ltb_lt in Hc1. apply Nat.leb_le, threshold_peers in Hc2.
    set (s3 := set_blame _ s2).
    assert (Hs3 : s_blame s3 = Blame (bl_reason (s_blame s2)) un (fold_left add_node m (bl_nodes (s_blame s2)))) by reflexivity.
    rewrite Hs3, Hnil. cbn [bl_reason bl_unicast bl_nodes]. split; [exact Hre|]. left. exists m, un. split; [reflexivity|]. split; [lia|]. split; [exact Hc2|].
    split; [|reflexivity]. intros n. rewrite (add_elems E C m Hd).
    + rewrite elem_of_nil. tauto.
    + intros x Hx. pose proof (missing_not_self E C local _ _ _ _ _ _ _ Hm) as Hall. rewrite Forall_forall in Hall.
      destruct (Hall x Hx) as (id & _ & Hb). eauto.
    + intros x Hx. apply elem_of_nil in Hx. contradiction.
  - split; [exact Hre|]. right. split; [|auto]. intros m' un' Heq. injection Heq as <- <-.
    apply andb_false_iff in Hc as [Hc|Hc]; [apply Nat.ltb_ge in Hc; left; destruct m; [reflexivity|cbn in Hc; lia]|right].
    apply Nat.leb_gt in Hc. pose proof (threshold_peers C (length m)). lia.
Qed.
Print Assumptions C176_else_missing_shares_decide.

(** ** A party of three; node "2" has a private share of "1" only *)
Lemma three_keys me : distinct_keys b_env (b_cfg 3 me).
Proof.
  intros a b ka kb pk Ha Hb Hpa Hpb. cbn in Hpa, Hpb. injection Hpa as Hpa. injection Hpb as Hpb.
  assert (Hk : forall i k, cf_parties (b_cfg 3 me) !! i = Some k -> k = to_bytes i).
  { intros i k Hi. change (cf_parties (b_cfg 3 me)) with (list_to_map (map (fun i => (i, to_bytes i)) (b_ids 3)) : gmap string bytes) in Hi.
    apply elem_of_list_to_map_2, elem_of_list_fmap in Hi as (x & Heq & _). congruence. }
  apply Hk in Ha, Hb. subst. rewrite <- (of_to_bytes a), <- (of_to_bytes b), Hpb. reflexivity.
Qed.
Lemma three_other id : other (b_cfg 3 "2") "2" id <-> id = "1" \/ id = "3".
Proof.
  unfold other. split.
  - intros [[k Hk] Hne].
    change (cf_parties (b_cfg 3 "2")) with (list_to_map (map (fun i => (i, to_bytes i)) (b_ids 3)) : gmap string bytes) in Hk.
    apply elem_of_list_to_map_2 in Hk. cbn in Hk.
    repeat (apply elem_of_cons in Hk as [Hk|Hk]; [injection Hk as Hk _; vm_compute in Hk; auto; congruence|]). inversion Hk.
  - intros [-> | ->]; (split; [eexists; vm_compute; reflexivity|discriminate]).
Qed.
Definition three_state : state := run b_env (b_cfg 3 "2") b_unicasts.
Lemma three_seen round id : unicast_seen (b_cfg 3 "2") three_state round id <-> round = "KGRound2Message1" /\ id = "1".
Proof.
  assert (Hu : s_unicast three_state = {["KGRound2Message1" := ["p1"]]}) by (vm_compute; reflexivity).
  unfold unicast_seen. rewrite Hu. split.
  - intros (l & p & Hl & Hp & Hin). apply lookup_singleton_Some in Hl as [<- <-]. split; [reflexivity|].
    apply elem_of_list_singleton in Hin as ->.
    apply (proj2 (proj2 (b_good3 "2")) _ _ _ Hp). vm_compute. reflexivity.
  - intros [-> ->]. exists ["p1"], "p1". split; [apply lookup_singleton|]. split; [vm_compute; reflexivity|left].
Qed.
Lemma three_no_broadcast ty id : ~ confirmed three_state ty id.
Proof.
  intros (k & w & Hk & _). assert (Hs : s_stored three_state = ∅) by (vm_compute; reflexivity).
  rewrite Hs, lookup_empty in Hk. discriminate.
Qed.
Lemma three_late ty : no_broadcast (b_cfg 3 "2") "2" three_state ty {["1"; "3"]}.
Proof.
  intros id. rewrite elem_of_union, !elem_of_singleton, three_other. split; [|tauto].
  intros Hid. split; [exact Hid|apply three_no_broadcast].
Qed.

(** A key generation times out: "3" owes a share. *)
Example C175_case : exists s',
  good_tables b_env (b_cfg 3 "2") /\ distinct_keys b_env (b_cfg 3 "2") /\ bl_nodes (s_blame three_state) = [] /\
  times_out b_env (b_cfg 3 "2") "2" b_orders 4 "KGRound2Message1" "KGRound2Message1" three_state s' /\
  no_share (b_cfg 3 "2") "2" three_state "KGRound2Message1" {["3"]} /\
  no_broadcast (b_cfg 3 "2") "2" three_state "KGRound2Message1" {["1"; "3"]} /\
  shares_count (b_cfg 3 "2") three_state "KGRound2Message1" {["3"]} /\
  s_blame s' = Blame "Tss timeout" true [plain "3"].
Proof.
  destruct (keygenTimeout b_env (b_cfg 3 "2") "2" (Some "KGRound2Message1") b_orders three_state) as [s'|] eqn:Hs; [|vm_compute in Hs; discriminate].
  exists s'. split; [apply b_good3|]. split; [apply three_keys|]. split; [vm_compute; reflexivity|]. split.
  { left. split; [exact Hs|]. auto. }
  split.
  { intros id. rewrite elem_of_singleton, three_other, three_seen. split.
    - intros ->. split; [auto|]. intros [_ Hx]. discriminate.
    - intros [[-> | ->] Hx]; [|reflexivity]. exfalso. apply Hx. auto. }
  split; [apply three_late|]. split.
  { split; [exists ["p1"]; vm_compute; reflexivity|]. rewrite size_singleton.
    assert (Hl : length (cf_peers (b_cfg 3 "2")) = 2) by (vm_compute; reflexivity). rewrite Hl. lia. }
  vm_compute in Hs. injection Hs as <-. vm_compute. reflexivity.
Qed.

(** A signing times out after a private message of the second round: nothing of that round
    came from anybody, but the share of "3" of an earlier round is missing. *)
Example C176_case : exists s',
  times_out b_env (b_cfg 3 "2") "2" b_orders 8 "SignRound2Message" "SignRound2Message" three_state s' /\
  no_share (b_cfg 3 "2") "2" three_state "SignRound2Message" {["1"; "3"]} /\
  no_broadcast (b_cfg 3 "2") "2" three_state "SignRound2Message" {["1"; "3"]} /\
  ~ shares_count (b_cfg 3 "2") three_state "SignRound2Message" {["1"; "3"]} /\
  ~ broadcasts_count three_state "SignRound2Message" /\
  s_blame s' = Blame "" true [plain "3"].
Proof.
  destruct (keysignTimeout b_env (b_cfg 3 "2") "2" (Some ("SignRound2Message", false)) b_orders three_state) as [s'|] eqn:Hs; [|vm_compute in Hs; discriminate].
  exists s'. split.
  { right. exists false. split; [exact Hs|]. split; [reflexivity|]. left. auto. }
  split.
  { intros id. rewrite elem_of_union, !elem_of_singleton, three_other, three_seen. split; [|tauto].
    intros Hid. split; [exact Hid|]. intros [Hx _]. discriminate. }
  split; [apply three_late|]. split.
  { intros ([l Hl] & _). vm_compute in Hl. discriminate. }
  split; [intros [id Hid]; apply three_no_broadcast in Hid; exact Hid|].
  vm_compute in Hs. injection Hs as <-. vm_compute. reflexivity.
Qed.
