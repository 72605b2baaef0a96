(** Lemmas for Keygen. *)
From Coq Require Import ZArith NArith Ascii String List Lia.
From stdpp Require Import base list strings gmap.
From Verif Require Import Base L_Base M_Conv S_Conv L_Conv M_Semver M_Server M_Join M_Common M_Blame M_KeySign S_KeySign L_KeySign
  M_Storage S_Storage L_Storage M_Loop P_Loop M_Keygen S_Keygen.

Section K.
  Context {M : Type} (E : kgenv) (I : kgin M).
  Notation peer := (peer_of (kg_s E)).

  Lemma ascending_sort keys : ascending keys (sort_strings keys).
  Proof. split; [apply sort_strings_perm|apply sort_strings_sorted]. Qed.
  Lemma ascending_eq keys keys' : ascending keys keys' -> keys' = sort_strings keys.
  Proof. intros [Hp Hs]. rewrite <- (sort_strings_sorted_id keys' Hs). apply sort_strings_eq, Hp. Qed.
  Lemma key_peers_all keys ps : key_peers E keys ps <-> GetPeerIDsFromPubKeys peer (sort_strings keys) = Some ps.
  Proof.
    pose proof (peers_spec peer (sort_strings keys)) as H.
    assert (Hfun : forall l ps ps', Forall2 (fun k p => peer k = Some p) l ps -> Forall2 (fun k p => peer k = Some p) l ps' -> ps = ps').
    { induction l as [|k l IH]; intros x y Hx Hy; inversion Hx; inversion Hy; subst; [reflexivity|]. f_equal; [congruence|eauto]. }
    split.
    - intros (k' & Ha & Hf). apply ascending_eq in Ha as ->. destruct (GetPeerIDsFromPubKeys _ _) as [ps'|].
      + f_equal. eauto.
      + apply Exists_exists in H as (k & Hk & Hn). apply elem_of_list_lookup in Hk as [i Hi].
        destruct (Forall2_lookup_l _ _ _ _ _ Hf Hi) as (p & _ & Hp). congruence.
    - intros Hg. rewrite Hg in H. exists (sort_strings keys). split; [apply ascending_sort|exact H].
  Qed.
  Lemma keygen_id_eq keys id : keygen_id E keys id <->
    MsgToHashString (se_sha (kg_s E)) (to_bytes (concat_strings (sort_strings keys))) = Some id.
  Proof.
    split.
    - intros (k' & Ha & Hne & ->). apply ascending_eq in Ha as ->. destruct (concat_strings _); [contradiction|reflexivity].
    - intros H. exists (sort_strings keys). split; [apply ascending_sort|].
      destruct (concat_strings (sort_strings keys)); [discriminate|]. injection H as <-. split; [discriminate|reflexivity].
  Qed.

  (** How a join party that did not form was tried: the leader string and the outcome. *)
  Inductive try (keys : list string) (h : Z) (v : string) : string -> outcome -> Prop :=
    | try_version : oldJoinParty v = None -> try keys h v "" (Outcome None EInvalid)
    | try_no_peers : oldJoinParty v = Some true -> (forall ps, ~ key_peers E keys ps) -> try keys h v "NONE" (Outcome None EInvalid)
    | try_leaderless : starts_join E keys h v None -> oc_err (ki_join I) <> ENone -> try keys h v "NONE" (ki_join I)
    | try_no_peers_l : oldJoinParty v = Some false -> (forall ps, ~ key_peers E keys ps) -> try keys h v "" (Outcome None EInvalid)
    | try_no_leader ps id : oldJoinParty v = Some false -> key_peers E keys ps -> keygen_id E keys id ->
        LeaderNode (se_sha (kg_s E)) id h ps = None -> try keys h v "" (Outcome None EInvalid)
    | try_leader leader : starts_join E keys h v (Some leader) -> oc_err (ki_join I) <> ENone -> try keys h v leader (ki_join I).

  Lemma try_not_formed keys h v l o : try keys h v l o -> ~ formed E I keys h v.
  Proof.
    intros Ht [[l' Hs] He]. destruct Ht as [Hv|Hv Hn|_ Hne|Hv Hn|ps id Hv Hp Hi Hl|leader _ Hne]; try congruence;
      inversion Hs as [ps' Hv' Hp'|ps' id' ld Hv' Hp' Hi' Hl']; subst; try congruence; try (eapply Hn; eassumption).
    apply key_peers_all in Hp, Hp'. apply keygen_id_eq in Hi, Hi'. congruence.
  Qed.

  Lemma keygen_cases keys h v r : Keygen E I keys h v = Some r ->
    ((forall id, ~ keygen_id E keys id) /\ r = KgOut empty_kresp true []) \/
    (exists id, keygen_id E keys id) /\
    ((formed E I keys h v /\ keygen_formed E I (sort_strings keys) = Some r) \/
     (exists leader o, try keys h v leader o /\ r = keygen_join_failed E (sort_strings keys) leader o)).
  Proof.
    unfold Keygen. cbn [requestToMsgId].
    destruct (MsgToHashString (se_sha (kg_s E)) _) as [id|] eqn:Hid.
    2: { intros [= <-]. left. split; [|reflexivity]. intros id Hi. apply keygen_id_eq in Hi. congruence. }
    apply keygen_id_eq in Hid. intros H. right. split; [eauto|]. revert H.
    assert (Hpeers : match GetPeerIDsFromPubKeys peer (sort_strings keys) with
      | Some ps => key_peers E keys ps | None => forall ps, ~ key_peers E keys ps end).
    { destruct (GetPeerIDsFromPubKeys _ _) as [ps|] eqn:Hg; [apply key_peers_all, Hg|].
      intros ps Hp. apply key_peers_all in Hp. congruence. }
    unfold joinParty. destruct (oldJoinParty v) as [[|]|] eqn:Hv.
    - destruct (GetPeerIDsFromPubKeys _ _) as [ps|].
      + assert (Hs : starts_join E keys h v None) by (eapply sj_leaderless; eassumption).
        destruct (oc_err (ki_join I)) eqn:He.
        1: { intros H. left. split; [|exact H]. split; [eauto|exact He]. }
        all: intros [= <-]; right; exists "NONE"%string, (ki_join I); split; [apply try_leaderless; congruence|reflexivity].
      + intros [= <-]. right. do 2 eexists. split; [apply try_no_peers; eassumption|reflexivity].
    - destruct (Nat.eqb_spec (length (sort_strings keys)) 0) as [H0|_].
      { exfalso. destruct Hid as (k' & Ha & Hne & _). apply ascending_eq in Ha as ->.
        destruct (sort_strings keys); [apply Hne; reflexivity|discriminate]. }
      destruct (GetPeerIDsFromPubKeys _ _) as [ps|].
      + destruct (LeaderNode (se_sha (kg_s E)) id h ps) as [leader|] eqn:Hl.
        * assert (Hs : starts_join E keys h v (Some leader)) by (eapply sj_with; eassumption).
          destruct (oc_err (ki_join I)) eqn:He.
          1: { intros H. left. split; [|exact H]. split; [eauto|exact He]. }
          all: intros [= <-]; right; exists leader, (ki_join I); split; [apply try_leader; congruence|reflexivity].
        * intros [= <-]. right. do 2 eexists. split; [eapply try_no_leader; eassumption|reflexivity].
      + intros [= <-]. right. do 2 eexists. split; [apply try_no_peers_l; eassumption|reflexivity].
    - intros [= <-]. right. do 2 eexists. split; [apply try_version; eassumption|reflexivity].
  Qed.

  Lemma formed_peers keys h v : formed E I keys h v -> forall k, k ∈ keys -> exists p, peer k = Some p.
  Proof.
    intros [[l Hs] _] k Hk.
    assert (exists ps, key_peers E keys ps) as (ps & k' & [Hp _] & Hf) by (inversion Hs; eauto).
    rewrite <- Hp in Hk. apply elem_of_list_lookup in Hk as [i Hi].
    destruct (Forall2_lookup_l _ _ _ _ _ Hf Hi) as (p & _ & Hp'). eauto.
  Qed.

  (** After the party formed: success with these effects, or an error. *)
  Lemma formed_cases keys h v r : formed E I keys h v -> keygen_formed E I (sort_strings keys) = Some r ->
    let s := lrun (kg_T E) 1 (ki_loop I) in
    (exists d pk addr, generated E I keys d pk addr /\
      r = KgOut (KResp pk addr Success (ki_blame I)) false
        (FxJoin true :: map FxOut (l_sent s) ++
         [FxNotify; FxSave (Stored pk d (Some (sort_strings keys)) (kg_local E)) WDone; FxBook (ki_book I) (ki_wb I); FxKeygen true])) \/
    ((forall d pk addr, ~ generated E I keys d pk addr) /\
     exists b out, r = KgOut (KResp "" "" Fail b) true (FxJoin true :: map FxOut out ++
       match l_res s, kg_params E, bool_decide (kg_local E ∈ keys) with
       | Some (LDone [d]), true, true =>
           FxNotify :: match kg_pub E (sd_pub d) with
             | Some (pk, _) => [FxSave (Stored pk d (Some (sort_strings keys)) (kg_local E)) (ki_w I)] | None => [] end
       | _, _, _ => [] end ++ [FxKeygen false])).
  Proof.
    intros Hf. cbv zeta. pose proof (formed_peers _ _ _ Hf) as Hpeers.
    assert (Hall : forallb (fun k => match peer k with Some _ => true | None => false end) (sort_strings keys) = true).
    { apply forallb_forall. intros k Hk. apply elem_of_list_In in Hk. rewrite sort_strings_perm in Hk.
      destruct (Hpeers k Hk) as [p ->]. reflexivity. }
    unfold keygen_formed, GenerateNewKey. rewrite Hall.
    destruct (GetParties (se_key (kg_s E)) (sort_strings keys) (kg_local E)) as [pp|] eqn:Hgp.
    2: { assert (Hl : kg_local E ∉ keys).
      { apply GetParties_none in Hgp as [(k & Hk & Hn)|Hn].
        - rewrite sort_strings_perm in Hk. destruct (Hpeers k Hk) as [p Hp]. unfold peer_of in Hp. rewrite Hn in Hp. discriminate.
        - intros H. apply Hn. rewrite sort_strings_perm. exact H. }
      intros [= <-]. right. split; [intros d pk addr (H & _); contradiction|].
      exists no_blame, []. rewrite bool_decide_false by exact Hl.
      destruct (l_res _) as [[[|? []]| | | |]|], (kg_params E); reflexivity. }
    assert (Hl : kg_local E ∈ keys).
    { destruct (decide (kg_local E ∈ keys)) as [H|H]; [exact H|]. exfalso.
      assert (GetParties (se_key (kg_s E)) (sort_strings keys) (kg_local E) = None); [|congruence].
      apply GetParties_none. right. rewrite sort_strings_perm. exact H. }
    rewrite bool_decide_true by exact Hl.
    destruct (kg_params E) eqn:Hpar.
    2: { intros [= <-]. right. split; [intros d pk addr (_ & H & _); congruence|]. exists no_blame, [].
      destruct (l_res _) as [[[|? []]| | | |]|]; reflexivity. }
    pose proof (loop_inv (kg_T E) 1 (ki_loop I)) as Hinv. cbv zeta in Hinv. destruct Hinv as (_ & _ & Hinv).
    destruct (l_res (lrun (kg_T E) 1 (ki_loop I))) as [[l| | | |]|] eqn:Hres.
    2-5: intros [= <-]; right; split; [intros d pk addr (_ & _ & H & _); congruence|];
      exists (ki_blame I), (l_sent (lrun (kg_T E) 1 (ki_loop I))); reflexivity.
    2: discriminate.
    destruct Hinv as [_ Hlen]. destruct l as [|d [|]]; try discriminate.
    unfold finish_keygen. destruct (kg_pub E (sd_pub d)) as [[pk addr]|] eqn:Hpub.
    2: { intros [= <-]. right. split.
      - intros d' pk addr (_ & _ & H & H' & _). congruence.
      - exists (ki_blame I), (l_sent (lrun (kg_T E) 1 (ki_loop I))). rewrite <- app_assoc. reflexivity. }
    set (st := Stored _ _ _ _). pose proof (save_cases (kg_fs E) st (ki_w I) ∅) as Hsave.
    destruct (snd (SaveLocalState (kg_fs E) st (ki_w I) ∅)) eqn:Hsnd.
    - rewrite Hpub. intros [= <-]. left. exists d, pk, addr. 
      destruct Hsave as [[_ Hs]|(p & b & Ha & Hp & Hb & Hs)]; rewrite Hs in Hsnd; [discriminate|].
      destruct (ki_w I) eqn:Hw; try discriminate. split.
      + unfold accepted in Ha. cbn [st_pub st_data st] in Ha.
        destruct (fe_curve (kg_fs E) pk) as [[]|] eqn:Hc; try discriminate.
        destruct (fe_data (kg_fs E) d) eqn:Hd; [|discriminate]. repeat split; auto; congruence.
      + rewrite <- app_assoc. reflexivity.
    - intros [= <-]. right. split.
      + intros d' pk' addr' (_ & _ & H1 & H2 & H3 & H4 & H5). assert (d' = d) by congruence. subst d'.
        assert (pk' = pk) by congruence. subst pk'.
        destruct Hsave as [[Ha _]|(p & b & _ & _ & _ & Hs)].
        * unfold accepted in Ha. cbn [st_pub st_data st] in Ha. rewrite H3 in Ha. destruct (fe_data _ d); congruence.
        * rewrite Hs, H5 in Hsnd. discriminate.
      + exists (ki_blame I), (l_sent (lrun (kg_T E) 1 (ki_loop I))). rewrite <- app_assoc. reflexivity.
  Qed.

  Lemma kjoins_app {N} (a b : list (kgfx N)) : kjoins (a ++ b) = kjoins a ++ kjoins b.
  Proof. apply flat_map_app. Qed.
  Lemma keygens_app {N} (a b : list (kgfx N)) : keygens (a ++ b) = keygens a ++ keygens b.
  Proof. apply flat_map_app. Qed.
  Lemma outs_none (out : list M) : kjoins (map FxOut out) = [] /\ keygens (map FxOut out) = [].
  Proof. induction out as [|m l [H1 H2]]; auto. Qed.
  Lemma disk_app F fs (a b : list (kgfx M)) : disk F fs (a ++ b) = disk F (disk F fs a) b.
  Proof. unfold disk. apply fold_left_app. Qed.
  Lemma disk_outs F fs (out : list M) : disk F fs (map FxOut out) = fs.
  Proof. induction out as [|m l IH]; auto. Qed.

  Lemma sync_elem keys online n : (forall k, k ∈ keys -> exists p, peer k = Some p) ->
    n ∈ sync_nodes (kg_s E) keys online <-> exists k, n = plain k /\ absent E keys online k.
  Proof.
    induction keys as [|k keys IH]; intros Hp.
    - cbn. split; [intros H; inversion H|]. intros (k & _ & H & _). inversion H.
    - cbn [sync_nodes]. destruct (Hp k (elem_of_list_here _ _)) as [p Hk]. rewrite Hk.
      assert (Hp' : forall x, x ∈ keys -> exists q, peer x = Some q) by (intros x Hx; apply Hp; right; exact Hx).
      specialize (IH Hp'). unfold absent in *. destruct (existsb (String.eqb p) online) eqn:He.
      + apply existsb_eqb in He. rewrite IH. split.
        * intros (x & -> & Hx & q & Hq). exists x. split; [reflexivity|]. split; [right; exact Hx|eauto].
        * intros (x & -> & Hx & q & Hq & Hn). exists x. split; [reflexivity|].
          apply elem_of_cons in Hx as [-> |Hx]; [congruence|eauto].
      + assert (Hn : p ∉ online) by (intros H; apply existsb_eqb in H; congruence).
        rewrite elem_of_cons, IH. split.
        * intros [-> |(x & -> & Hx & q & Hq)]; [exists k; split; [reflexivity|]; split; [left|eauto]|].
          exists x. split; [reflexivity|]. split; [right; exact Hx|eauto].
        * intros (x & -> & Hx & q & Hq & Hnq). apply elem_of_cons in Hx as [-> |Hx]; [left; reflexivity|].
          right. exists x. eauto 6.
  Qed.
End K.
