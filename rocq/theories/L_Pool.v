(** Lemmas about the pool. *)
From Coq Require Import ZArith NArith Ascii String List Lia.
From stdpp Require Import base list strings sorting.
From Verif Require Import Base L_Base S_Threshold M_Conv S_Conv L_Conv M_Semver M_Server M_Base64 M_Batch S_Batch L_Batch M_Sort L_Sort
  M_Notifier S_Notifier L_Notifier M_Join M_Common M_Blame M_KeySign S_KeySign L_KeySign M_Pool S_Pool.

Lemma mine_snoc p tr x : mine p (tr ++ [x]) = mine p tr ++ (if String.eqb (fst x) p then [snd x] else []).
Proof. unfold mine. rewrite omap_app. simpl. destruct (String.eqb (fst x) p); reflexivity. Qed.
Lemma mine_in p l tr : l ∈ mine p tr <-> (p, l) ∈ tr.
Proof.
  unfold mine. rewrite elem_of_list_omap. split.
  - intros ([q l'] & Hin & Hx). simpl in Hx. destruct (String.eqb q p) eqn:He; [|discriminate].
    apply String.eqb_eq in He. injection Hx as <-. subst. exact Hin.
  - intros Hin. exists (p, l). split; [exact Hin|]. simpl. rewrite String.eqb_refl. reflexivity.
Qed.

Section Nodes.
  Context (E : string -> senv) (J : string -> sjob).

  Lemma at_node_same tr p l : at_node E J (tr ++ [(p, l)]) p = kstep (E p) (J p) (at_node E J tr p) l.
  Proof. unfold at_node, krun. rewrite mine_snoc. simpl. rewrite String.eqb_refl, fold_left_app. reflexivity. Qed.
  Lemma at_node_other tr p q l : p <> q -> at_node E J (tr ++ [(p, l)]) q = at_node E J tr q.
  Proof.
    intros Hne. unfold at_node, krun. rewrite mine_snoc. simpl.
    destruct (String.eqb p q) eqn:He; [apply String.eqb_eq in He; contradiction|]. rewrite app_nil_r. reflexivity.
  Qed.

  (** Broadcasts are not taken back. *)
  Lemma kstep_bcasts e j s l : exists b, k_bcasts (kstep e j s l) = k_bcasts s ++ b.
  Proof.
    assert (H0 : forall s', k_bcasts s' = k_bcasts s -> exists b, k_bcasts s' = k_bcasts s ++ b).
    { intros s' H. exists []. rewrite app_nil_r. exact H. }
    assert (Hf : forall a ld o, exists b, k_bcasts (join_failed e j a ld o s) = k_bcasts s ++ b).
    { intros a ld o. unfold join_failed. destruct (oc_err o); try (apply H0; reflexivity); eexists; reflexivity. }
    unfold kstep. destruct (k_crash s); [apply H0; reflexivity|]. destruct l as [|d| | | | | |o|c| |]; simpl.
    - apply H0. unfold w_start. destruct (k_w s); try reflexivity. destruct (NewNotifier _ _ _); reflexivity.
    - apply H0. unfold w_data. destruct (k_w s); try reflexivity. destruct (ProcessSignature _ _ _); try reflexivity.
      destruct (Nat.eqb _ _); [reflexivity|]. destruct (batch j d); reflexivity.
    - apply H0. unfold w_timeout. destruct (k_w s); reflexivity.
    - apply H0. unfold w_take. destruct (k_w s); try reflexivity. destruct (k_chan s); reflexivity.
    - apply H0. unfold w_send. destruct (k_w s); try reflexivity. unfold send.
      destruct (k_closed s); [reflexivity|]. destruct (Nat.ltb _ _); reflexivity.
    - unfold g_start. destruct (k_g s); try (apply H0; reflexivity).
      destruct (GetPeerIDsFromPubKeys _ _); [|apply H0; reflexivity].
      destruct (oldJoinParty _) as [[]|]; [| |apply H0; reflexivity].
      + destruct (se_pub e (se_self e)); [|apply H0; reflexivity]. destruct (existsb _ _); [|apply H0; reflexivity].
        destruct (joinParty _ _ _); [apply Hf|apply H0; reflexivity|].
        destruct (join_role _ _ _) as [? [?|]]; [apply H0; reflexivity|apply Hf].
      + destruct (joinParty _ _ _); [apply Hf|apply H0; reflexivity|].
        destruct (join_role _ _ _) as [? [?|]]; [apply H0; reflexivity|apply Hf].
    - apply H0. unfold g_take. destruct (k_g s) as [|r ld t| | |]; try reflexivity.
      destruct r, (k_chan s); try reflexivity; destruct t; reflexivity.
    - unfold g_joined. destruct (k_g s); try (apply H0; reflexivity). destruct (join_possible _ _ _); [|apply H0; reflexivity].
      destruct (oc_err o); try apply Hf. destruct (existsb _ _); [|apply H0; reflexivity].
      destruct (GetPeerIDsFromPubKeys _ _); apply H0; reflexivity.
    - apply H0. unfold g_signed. destruct (k_g s); try reflexivity.
      destruct (SignMessage _ _ _ _) as [[]|]; try reflexivity. destruct (batch j l); reflexivity.
    - unfold g_send. destruct (k_g s); try (apply H0; reflexivity). unfold send.
      destruct (k_closed s); [apply H0; reflexivity|]. destruct (Nat.ltb _ _); [|apply H0; reflexivity].
      eexists; reflexivity.
    - apply H0. unfold k_close. destruct (k_closed s); [reflexivity|]. destruct (k_w s); try reflexivity.
      destruct (k_g s); try reflexivity. unfold finish_keysign.
      destruct (match r with Some received => _ | None => _ end). reflexivity.
  Qed.
  Lemma at_node_bcasts tr x p b : b ∈ k_bcasts (at_node E J tr p) -> b ∈ k_bcasts (at_node E J (tr ++ [x]) p).
  Proof.
    intros Hin. destruct x as [q l]. destruct (String.eqb q p) eqn:He.
    - apply String.eqb_eq in He. subst. rewrite at_node_same.
      destruct (kstep_bcasts (E p) (J p) (at_node E J tr p) l) as [b' ->]. apply elem_of_app. left. exact Hin.
    - rewrite at_node_other; [exact Hin|]. intros ->. rewrite String.eqb_refl in He. discriminate.
  Qed.

  (** What a node waited for came in a notification. *)
  Lemma waited_for e j ls r : k_w (krun e j ls) = WSend r \/ k_w (krun e j ls) = WEnd (Some r) ->
    exists d, KWData d ∈ ls /\ received e j d /\ carries (sj_msgs j) d r.
  Proof.
    induction ls as [|lab ls IH] using rev_ind; [intros [H|H]; discriminate|].
    pose proof (krun_inv e j (ls ++ [lab])) as Hinv. pose proof (ki_w _ _ _ Hinv) as Hw. revert Hw. unfold w_inv.
    unfold krun in *. rewrite fold_left_app. cbn [fold_left]. set (s := fold_left (kstep e j) ls k_init) in *.
    assert (Hk : k_w s = WSend r \/ k_w s = WEnd (Some r) ->
      exists d, KWData d ∈ ls ++ [lab] /\ received e j d /\ carries (sj_msgs j) d r).
    { intros H. destruct (IH H) as (d & Hin & H'). exists d. split; [apply elem_of_app; left; exact Hin|exact H']. }
    clear IH Hinv. unfold kstep. destruct (k_crash s); [auto|].
    assert (Hf : forall a ld o, k_w (join_failed e j a ld o s) = k_w s) by (intros; apply join_failed_g).
    destruct lab as [|d| | | | | |o|c| |]; simpl.
    - unfold w_start. destruct (k_w s) eqn:Es; rewrite ?Es; auto. destruct (NewNotifier _ _ _); intros _ [H|H]; discriminate.
    - unfold w_data. destruct (k_w s) eqn:Es; rewrite ?Es; auto.
      pose proof (deliver_received e j d) as Hd.
      destruct (ProcessSignature _ _ d) eqn:Ep; rewrite ?Es; auto.
      destruct (Nat.eqb (length d) 0) eqn:El; [intros _ [H|H]; discriminate|].
      destruct (batch j d) as [r'|] eqn:Eb; [|simpl; rewrite Es; intros _ [H|H]; discriminate].
      simpl. intros _ [[= ->]|H]; [|discriminate]. exists d. split; [apply elem_of_app; right; left|].
      split; [apply Hd; reflexivity|]. apply (batch_carries j d r Eb).
    - unfold w_timeout. destruct (k_w s) eqn:Es; rewrite ?Es; auto. intros _ [H|H]; discriminate.
    - unfold w_take. destruct (k_w s) eqn:Es; rewrite ?Es; auto. destruct (k_chan s); rewrite ?Es; [auto|intros _ [H|H]; discriminate].
    - unfold w_send. destruct (k_w s) eqn:Es; rewrite ?Es; auto. unfold send.
      destruct (k_closed s); [simpl; rewrite Es; auto|]. destruct (Nat.ltb _ _); [|rewrite Es; auto].
      simpl. intros _ [H|[= ->]]; [discriminate|]. apply Hk. left. reflexivity.
    - intros _. replace (k_w (g_start e j s)) with (k_w s); [exact Hk|]. symmetry.
      unfold g_start. destruct (k_g s); try reflexivity.
      destruct (GetPeerIDsFromPubKeys _ _); [|reflexivity].
      destruct (oldJoinParty _) as [[]|]; [| |reflexivity].
      + destruct (se_pub e (se_self e)); [|reflexivity]. destruct (existsb _ _); [|reflexivity].
        destruct (joinParty _ _ _); [apply Hf|reflexivity|].
        destruct (join_role _ _ _) as [? [?|]]; [reflexivity|apply Hf].
      + destruct (joinParty _ _ _); [apply Hf|reflexivity|].
        destruct (join_role _ _ _) as [? [?|]]; [reflexivity|apply Hf].
    - intros _. replace (k_w (g_take s)) with (k_w s); [exact Hk|]. symmetry.
      unfold g_take. destruct (k_g s) as [|r0 ld t| | |]; try reflexivity.
      destruct r0, (k_chan s); try reflexivity; destruct t; reflexivity.
    - intros _. replace (k_w (g_joined e j o s)) with (k_w s); [exact Hk|]. symmetry.
      unfold g_joined. destruct (k_g s); try reflexivity. destruct (join_possible _ _ _); [|reflexivity].
      destruct (oc_err o); try apply Hf. destruct (existsb _ _); [|reflexivity].
      destruct (GetPeerIDsFromPubKeys _ _); reflexivity.
    - intros _. replace (k_w (g_signed e j c s)) with (k_w s); [exact Hk|]. symmetry.
      unfold g_signed. destruct (k_g s); try reflexivity.
      destruct (SignMessage _ _ _ _) as [[]|]; try reflexivity. destruct (batch j l); reflexivity.
    - intros _. replace (k_w (g_send s)) with (k_w s); [exact Hk|]. symmetry.
      unfold g_send. destruct (k_g s); try reflexivity. unfold send.
      destruct (k_closed s); [reflexivity|]. destruct (Nat.ltb _ _); reflexivity.
    - intros _. replace (k_w (k_close s)) with (k_w s); [exact Hk|]. symmetry.
      unfold k_close. destruct (k_closed s); [reflexivity|]. destruct (k_w s) eqn:Es; try (rewrite Es; reflexivity); try reflexivity.
      destruct (k_g s); try (rewrite Es; reflexivity). unfold finish_keysign.
      destruct (match r0 with Some received => _ | None => _ end). simpl. rewrite Es. reflexivity.
  Qed.

  (** ** Where notifications come from *)

  Lemma mails_in p bs q payload : (q, payload) ∈ mails E J p bs ->
    exists sig ps, (sig, ps) ∈ bs /\ q ∈ ps /\ q <> se_self (E p) /\ payload = notification (se_n (E p)) (sj_id (J p)) sig.
  Proof.
    intros Hin. apply elem_of_list_In in Hin. unfold mails in Hin. apply in_flat_map in Hin as ([sig ps] & Hb & Hin).
    apply elem_of_list_In in Hb, Hin. simpl in Hin. unfold broadcastCommon in Hin.
    apply elem_of_list_fmap in Hin as (q' & [= -> ->] & Hq).
    apply elem_of_list_In, filter_In in Hq as [Hq Hn]. apply elem_of_list_In in Hq.
    exists sig, ps. split; [exact Hb|]. split; [exact Hq|]. split; [|reflexivity].
    intros ->. rewrite String.eqb_refl in Hn. discriminate.
  Qed.
  Lemma in_mails p bs q sig ps : (sig, ps) ∈ bs -> q ∈ ps -> q <> se_self (E p) ->
    (q, notification (se_n (E p)) (sj_id (J p)) sig) ∈ mails E J p bs.
  Proof.
    intros Hb Hq Hne. apply elem_of_list_In, in_flat_map. exists (sig, ps). split; [apply elem_of_list_In, Hb|].
    apply elem_of_list_In. simpl. unfold broadcastCommon. apply elem_of_list_fmap. exists q. split; [reflexivity|].
    apply elem_of_list_In, filter_In. split; [apply elem_of_list_In, Hq|].
    destruct (String.eqb q (se_self (E p))) eqn:He; [apply String.eqb_eq in He; contradiction|reflexivity].
  Qed.

  Section Run.
    Context (ok : list (string * klabel) -> string -> klabel -> Prop) (lossy : Prop).

    Definition from_bcast (tr : list (string * klabel)) (q : string) (payload : option bytes) : Prop :=
      exists p sig ps, (sig, ps) ∈ k_bcasts (at_node E J tr p) /\ q ∈ ps /\ q <> se_self (E p) /\
        payload = notification (se_n (E p)) (sj_id (J p)) sig.
    Lemma from_bcast_snoc tr x q payload : from_bcast tr q payload -> from_bcast (tr ++ [x]) q payload.
    Proof. intros (p & sig & ps & Hb & H). exists p, sig, ps. split; [apply at_node_bcasts, Hb|exact H]. Qed.

    Lemma air_origin tr air : pool_run E J ok lossy tr air -> forall q payload, (q, payload) ∈ air -> from_bcast tr q payload.
    Proof.
      induction 1 as [|tr air p l Hr IH Hl Hok|tr a1 q' pl a2 d Hr IH Ha Hok|tr a1 q' pl a2 Hr IH Ha|tr a1 x a2 Hr IH Hlo]; intros q payload Hin.
      - inversion Hin.
      - apply elem_of_app in Hin as [Hin|Hin]; [apply from_bcast_snoc, IH, Hin|].
        apply mails_in in Hin as (sig & ps & Hb & H). exists p, sig, ps. split; [|exact H].
        rewrite at_node_same in Hb |- *. destruct (kstep_bcasts (E p) (J p) (at_node E J tr p) l) as [b Hb'].
        rewrite Hb' in Hb |- *. rewrite drop_app in Hb. apply elem_of_app. right. exact Hb.
      - apply from_bcast_snoc, IH. apply elem_of_app in Hin. apply elem_of_app. rewrite elem_of_cons. tauto.
      - apply IH. apply elem_of_app in Hin. apply elem_of_app. rewrite elem_of_cons. tauto.
      - apply IH. apply elem_of_app in Hin. apply elem_of_app. rewrite elem_of_cons. tauto.
    Qed.

    (** Signatures that arrive were broadcast by some node for the same request. *)
    Lemma data_origin tr air : pool_run E J ok lossy tr air -> intact E J tr -> forall q d, (q, KWData d) ∈ tr -> d <> [] ->
      exists p ps, (Some d, ps) ∈ k_bcasts (at_node E J tr p) /\ q ∈ ps /\ q <> se_self (E p) /\ sj_id (J p) = sj_id (J q).
    Proof.
      assert (Hm : forall tr x q d, intact E J (tr ++ [x]) ->
        (intact E J tr -> (q, KWData d) ∈ tr -> d <> [] -> exists p ps, (Some d, ps) ∈ k_bcasts (at_node E J tr p) /\ q ∈ ps /\ q <> se_self (E p) /\ sj_id (J p) = sj_id (J q)) ->
        (q, KWData d) ∈ tr -> d <> [] -> exists p ps, (Some d, ps) ∈ k_bcasts (at_node E J (tr ++ [x]) p) /\ q ∈ ps /\ q <> se_self (E p) /\ sj_id (J p) = sj_id (J q)).
      { intros tr' x q d Hi IH Hin Hne. destruct IH as (p & ps & Hb & H); [|exact Hin|exact Hne|].
        - intros p q' sig ps b Hb. apply (Hi p q' sig ps b). apply at_node_bcasts, Hb.
        - exists p, ps. split; [apply at_node_bcasts, Hb|exact H]. }
      induction 1 as [|tr air p l Hr IH Hl Hok|tr a1 q' pl a2 d' Hr IH Ha Hok|tr a1 q' pl a2 Hr IH Ha|tr a1 x a2 Hr IH Hlo]; intros Hi q d Hin Hne.
      - inversion Hin.
      - apply elem_of_app in Hin as [Hin|Hin]; [apply Hm; auto|].
        apply elem_of_list_singleton in Hin. injection Hin as -> <-. destruct (Hl d eq_refl).
      - apply elem_of_app in Hin as [Hin|Hin]; [apply Hm; auto|].
        apply elem_of_list_singleton in Hin. injection Hin as -> ->.
        destruct (air_origin _ _ Hr q' pl) as (p & sig & ps & Hb & Hq & Hs & ->); [apply elem_of_app; right; left|].
        apply (at_node_bcasts tr (q', KWData d')) in Hb.
        unfold arrives in Ha. destruct (notification _ _ sig) as [b|] eqn:Hn; [|discriminate].
        rewrite (Hi p q' sig ps b Hb Hq Hn) in Ha.
        destruct (String.eqb _ _) eqn:He; [|discriminate]. apply String.eqb_eq in He. injection Ha as Ha.
        destruct sig as [l|]; [|simpl in Ha; congruence]. simpl in Ha. subst l.
        exists p, ps. auto.
      - auto.
      - auto.
    Qed.
  End Run.
End Nodes.
