(** Property theorems: the text of the group's key, and who the peers of a ceremony are
    (C150, C151). *)
From Coq Require Import ZArith Znumtheory NArith Ascii String List Lia.
From stdpp Require Import base list strings gmap.
From Verif Require Import Base S_Utf8 L_Base M_Conv S_Conv L_Conv P_Conv M_Recovery M_Keys S_Keys L_KeyFile L_Base58 L_Curve L_Keys P_Keys.
From Verif Require Import M_Json S_Json M_Storage S_Storage P_Storage M_Common M_Blame M_Join M_Loop M_KeySign M_Keygen S_Keygen P_Keygen M_Ids.

(** ** C150 *)
(** The text of a point of the curve: it is accepted wherever keys are, and leads back to
    the point. *)
Theorem C150_pool_key_names_the_point address other_amino x y :
  curve_point x y ->
  exists k key, GetTssPubKey address (Some (x, y)) = Some (k, address key) /\
    encodes key x y /\ GetPubKeyFromBech32 other_amino k = Some key /\ ParsePubKey key = Some (x, y) /\
    CheckKeyOnCurve other_amino k = Some true.
Proof.
  intros Hc. apply curve_point_iff in Hc. pose proof Hc as (_ & _ & He).
  destruct (bech32ify_text other_amino (SerializeCompressed (x, y)) (serialize_length _)) as (k & Hk & Hb & _).
  exists k, (SerializeCompressed (x, y)). unfold GetTssPubKey, CheckKeyOnCurve, isOnCurve. rewrite He, Z.eqb_refl, Hk, Hb, parse_serialize by exact Hc.
  rewrite He, Z.eqb_refl. split; [reflexivity|]. split; [apply encodes_iff; [exact Hc|reflexivity]|auto].
Qed.
Print Assumptions C150_pool_key_names_the_point.
(** A nil point and a point that is not on the curve are refused. *)
Theorem C150_only_the_curve address p r :
  GetTssPubKey address p = Some r -> exists x y, p = Some (x, y) /\ (field_prime | y * y - (x * x * x + 7))%Z.
Proof.
  unfold GetTssPubKey. destruct p as [[x y]|]; [|discriminate]. destruct (isOnCurve x y) eqn:E; [|discriminate]. intros _.
  exists x, y. split; [reflexivity|]. unfold isOnCurve in E. apply Z.eqb_eq in E. unfold curve_rhs in E.
  rewrite field_prime_p. apply (mod_eq secp_p secp_p_prime secp_p_mod4). exact E.
Qed.
Print Assumptions C150_only_the_curve.
(** Two keys have the same text only when they are the same point. *)
Theorem C150_different_keys_different_texts address x y x' y' k a a' :
  curve_point x y -> curve_point x' y' ->
  GetTssPubKey address (Some (x, y)) = Some (k, a) -> GetTssPubKey address (Some (x', y')) = Some (k, a') ->
  x = x' /\ y = y' /\ a = a'.
Proof.
  intros H1 H2 G1 G2.
  destruct (C150_pool_key_names_the_point address (fun _ => None) x y H1) as (k1 & key1 & A1 & _ & B1 & C1 & _).
  destruct (C150_pool_key_names_the_point address (fun _ => None) x' y' H2) as (k2 & key2 & A2 & _ & B2 & C2 & _).
  rewrite G1 in A1. rewrite G2 in A2. injection A1 as <- ->. injection A2 as <- ->.
  assert (key1 = key2) by congruence. subst key2. rewrite C1 in C2. injection C2 as -> ->. auto.
Qed.
Print Assumptions C150_different_keys_different_texts.
Example C150_example : curve_point test_x test_y /\ curve_point other_x other_y /\
  GetTssPubKey (fun _ => []) (Some (test_x, test_y)) = Some (test_key, []) /\ GetTssPubKey (fun _ => []) (Some (test_x, 1%Z)) = None.
Proof. split; [exact test_point|]. split; [exact other_point|]. split; vm_compute; reflexivity. Qed.

(** The key that Keygen answers is the key of the share it saved, and the share is found
    under it. [d]: the data of the share, whose point has coordinates below the prime. *)
Theorem C150_answer_is_the_saved_key {M} E (I : kgin M) keys h v r address show other_amino :
  (forall p, kg_pub E p = match GetTssPubKey address (match p with Some (x, y) => Some (Z.of_N x, Z.of_N y) | None => None end) with
     | Some (k, a) => Some (k, show a) | None => None end) ->
  fe_curve (kg_fs E) = CheckKeyOnCurve other_amino -> (forall d b, fe_data (kg_fs E) d = Some b -> json_texts b /\ nested 100 b /\ fe_undata (kg_fs E) b = Some d) ->
  Forall text keys ->
  Keygen E I keys h v = Some r -> kr_status (ko_resp r) = Success ->
  exists d st x y, GetLocalState (kg_fs E) (kr_pub (ko_resp r)) (disk (kg_fs E) ∅ (ko_fx r)) = Some st /\ st_data st = d /\
    sd_pub d = Some (x, y) /\
    ((Z.of_N x < field_prime)%Z -> (Z.of_N y < field_prime)%Z -> exists key,
       GetPubKeyFromBech32 other_amino (kr_pub (ko_resp r)) = Some key /\ ParsePubKey key = Some (Z.of_N x, Z.of_N y) /\
       kr_addr (ko_resp r) = show (address key)).
Proof.
  intros Hpub Hcv Hd HT HK HS. pose proof (C132_state_laws (kg_fs E) other_amino Hcv Hd) as HL.
  destruct (C50_success_is_durable E I keys h v r HL HT HK HS) as (_ & pre & post & d & keys' & H). cbn zeta in H.
  destruct H as (Hfx & _ & _ & Hp & _ & Hread). pose proof (Hread ∅ post [] ltac:(rewrite app_nil_r; reflexivity)) as Hst. rewrite <- Hfx in Hst.
  rewrite Hpub in Hp. destruct (GetTssPubKey address _) as [[k a]|] eqn:Et; [|discriminate]. injection Hp as Hp1 Hp2.
  pose proof Et as Et'. apply C150_only_the_curve in Et as (x' & y' & Exy & Hdiv).
  destruct (sd_pub d) as [[x y]|] eqn:Ed; [|discriminate]. injection Exy as <- <-.
  eexists d, _, x, y. split; [exact Hst|]. split; [reflexivity|]. split; [exact Ed|]. intros Hx Hy.
  destruct (C150_pool_key_names_the_point address other_amino (Z.of_N x) (Z.of_N y)) as (k0 & key & A1 & _ & A3 & A4 & _).
  { split; [lia|]. split; [lia|exact Hdiv]. }
  rewrite Et' in A1. injection A1 as -> ->. exists key. rewrite <- Hp1, <- Hp2. auto.
Qed.
Print Assumptions C150_answer_is_the_saved_key.

(** The keygen of [P_Keygen] with the real functions and a point of the curve *)
Definition kg_of f g : kgenv := KgEnv kg_toy_s "a" true g (FsEnv (fe_folder toy_fs) f (fe_data toy_fs) (fe_undata toy_fs)) 30.
Definition kg_of_in (p : N * N) : kgin nat := KgIn _ all_in [LFinish (SaveData (Some p) []); LTakeEnd] no_blame WDone [] WDone.
Lemma kg_of_succeeds f g p k a : f k = Some true -> g (Some p) = Some (k, a) ->
  exists r, Keygen (kg_of f g) (kg_of_in p) kg_keys 10 "0.14.0" = Some r /\ kr_status (ko_resp r) = Success /\ kr_pub (ko_resp r) = k.
Proof.
  intros Hf Hg.
  assert (Hfin : exists fx, finish_keygen (kg_of f g) (kg_of_in p) (sort_strings kg_keys) (SaveData (Some p) []) = (fx, GPoint (Some p))).
  { unfold finish_keygen, SaveLocalState, marshal_state, getFilePathName. cbn [kg_pub kg_of sd_pub st_pub kg_fs fe_data fe_curve toy_fs st_data]. rewrite Hg.
    cbn [fst snd st_pub]. rewrite Hf. eexists. reflexivity. }
  destruct Hfin as [fx Hfin].
  assert (Hgen : exists out, GenerateNewKey (kg_of f g) (kg_of_in p) (sort_strings kg_keys) = Some (out, GPoint (Some p), no_blame)).
  { unfold GenerateNewKey. replace (GetParties (se_key (kg_s (kg_of f g))) (sort_strings kg_keys) (kg_local (kg_of f g))) with (GetParties (se_key kg_toy_s) (sort_strings kg_keys) "a") by reflexivity.
    destruct (GetParties (se_key kg_toy_s) (sort_strings kg_keys) "a") as [x|] eqn:E; [|vm_compute in E; discriminate].
    change (kg_params (kg_of f g)) with true. cbv iota.
    destruct (forallb _ (sort_strings kg_keys)) eqn:E2; [|vm_compute in E2; discriminate].
    change (l_res (lrun (kg_T (kg_of f g)) 1 (ki_loop (kg_of_in p)))) with (Some (@LDone savedata [SaveData (Some p) []])). cbv iota beta.
    rewrite Hfin. eauto. }
  destruct Hgen as [out Hgen].
  assert (Hk : exists o, keygen_formed (kg_of f g) (kg_of_in p) (sort_strings kg_keys) = Some (KgOut (KResp k a Success no_blame) false o)).
  { unfold keygen_formed. rewrite Hgen. change (kg_pub (kg_of f g) (Some p)) with (g (Some p)). rewrite Hg. eauto. }
  destruct Hk as [o Hk].
  exists (KgOut (KResp k a Success no_blame) false o). split; [|auto]. unfold Keygen. change (kg_s (kg_of f g)) with kg_toy_s.
  destruct (requestToMsgId (se_sha kg_toy_s) (KeygenReq kg_keys 10 "0.14.0")) as [[id|] q] eqn:E1; [|vm_compute in E1; discriminate].
  assert (q = KeygenReq (sort_strings kg_keys) 10 "0.14.0") as -> by (vm_compute in E1; injection E1 as _ <-; vm_compute; reflexivity).
  destruct (M_Server.joinParty (peer_of kg_toy_s) "0.14.0" (sort_strings kg_keys)) as [l|l|ps] eqn:E2; [vm_compute in E2; discriminate|exact Hk|].
  destruct (LeaderNode (se_sha kg_toy_s) id 10 ps) as [leader|] eqn:E3; [exact Hk|].
  exfalso. vm_compute in E1. injection E1 as <-. vm_compute in E2. injection E2 as <-. vm_compute in E3. discriminate.
Qed.
Example C150_answer_example :
  let real p := match GetTssPubKey (fun _ => []) (match p with Some (x, y) => Some (Z.of_N x, Z.of_N y) | None => None end) with
    | Some (k, a) => Some (k, of_bytes a) | None => None end in
  let E := kg_of (CheckKeyOnCurve no_amino) real in
  fe_curve (kg_fs E) = CheckKeyOnCurve no_amino /\ (forall d b, fe_data (kg_fs E) d = Some b -> json_texts b /\ nested 100 b /\ fe_undata (kg_fs E) b = Some d) /\ Forall text kg_keys /\
  exists r, Keygen E (kg_of_in (Z.to_N test_x, Z.to_N test_y)) kg_keys 10 "0.14.0" = Some r /\
    kr_status (ko_resp r) = Success /\ kr_pub (ko_resp r) = test_key.
Proof.
  cbn zeta. split; [reflexivity|]. split; [apply (fl_data toy_fs toy_laws)|]. split; [apply C50_success_is_durable_ex|]. apply (kg_of_succeeds _ _ _ _ ""%string).
  - exact (on_curve_of_id _ _ test_id).
  - vm_compute. reflexivity.
Qed.

(** ** C151 *)
Lemma id_string_inj x y x' y' :
  id_string (IDFromPublicKey (x, y)) = id_string (IDFromPublicKey (x', y')) -> IDFromPublicKey (x, y) = IDFromPublicKey (x', y').
Proof.
  intros H. pose proof (id_decode (fun _ => None) x y) as H1. rewrite H, (id_decode (fun _ => None)) in H1. congruence.
Qed.
Lemma setup_loop_spec : forall l m,
  Forall (fun e => exists id, GetPeerIDFromPartyID (p_key (snd e)) = Some id) l ->
  NoDup (map fst l) ->
  snd (SetupIDMaps l m) = true /\
  (forall id p, (id, p) ∈ l -> fst (SetupIDMaps l m) !! id = GetPeerIDFromPartyID (p_key p)) /\
  (forall id, id ∉ map fst l -> fst (SetupIDMaps l m) !! id = m !! id).
Proof.
  unfold SetupIDMaps. induction l as [|[id p] l IH]; intros m Hf Hn.
  - split; [reflexivity|]. split; [intros ? ? H; inversion H|reflexivity].
  - apply Forall_cons in Hf as [[peer Hp] Hf]. cbn [map fst] in Hn. apply NoDup_cons in Hn as [Hn1 Hn2].
    cbn [setup_loop fst]. cbn [snd] in Hp. rewrite Hp. destruct (IH (<[id := peer]> m) Hf Hn2) as (H1 & H2 & H3).
    split; [exact H1|]. split.
    + intros id' p' Hin. apply elem_of_cons in Hin as [[= -> ->]|Hin]; [|auto].
      rewrite H3 by exact Hn1. rewrite lookup_insert. congruence.
    + intros id' Hin. apply not_elem_of_cons in Hin as [Hne Hin]. rewrite H3 by exact Hin. cbn [fst] in Hne. apply lookup_insert_ne. congruence.
Qed.
Lemma party_map_list : forall ps, NoDup (map p_id ps) ->
  map_to_list (SetupPartyIDMap ps) ≡ₚ map (fun p => (p_id p, p)) ps.
Proof.
  unfold SetupPartyIDMap. intros ps. induction ps as [|p ps IH] using rev_ind; intros Hn.
  - cbn. rewrite map_to_list_empty. reflexivity.
  - rewrite map_app in Hn. apply NoDup_app in Hn as (Hn1 & Hn2 & _). rewrite foldl_app, map_app. cbn [foldl map].
    rewrite map_to_list_insert.
    + rewrite IH by exact Hn1. apply Permutation_cons_append.
    + destruct (_ !! p_id p) as [q|] eqn:E; [|reflexivity]. exfalso. apply elem_of_map_to_list in E. rewrite IH in E by exact Hn1.
      change (map ?f ?l) with (f <$> l) in E. apply elem_of_list_fmap in E as (q' & [= E1 E2] & E3).
      apply (Hn2 (p_id p)); [|left]. change (map p_id ps) with (p_id <$> ps). apply elem_of_list_fmap. eauto.
Qed.
Lemma GetPeerIDs_Forall2 oa keys ids : GetPeerIDs oa keys = Some ids <-> Forall2 (fun k id => GetPeerIDFromPubKey oa k = Some id) keys ids.
Proof.
  revert ids. induction keys as [|k keys IH]; intros ids; cbn [GetPeerIDs].
  - split; [intros [= <-]; constructor|intros H; inversion H; reflexivity].
  - destruct (GetPeerIDFromPubKey oa k) as [id|] eqn:E.
    + destruct (GetPeerIDs oa keys) as [l|].
      * split; [intros [= <-]; constructor; [exact E|apply IH; reflexivity]|].
        intros H. inversion H as [|? id' ? l' H1 H2]; subst. apply IH in H2. congruence.
      * split; [discriminate|]. intros H. inversion H as [|? id' ? l' H1 H2]; subst. apply IH in H2. congruence.
    + split; [discriminate|]. intros H. inversion H; congruence.
Qed.
Lemma filter_perm {A} (f : A -> bool) (a b : list A) : a ≡ₚ b -> List.filter f a ≡ₚ List.filter f b.
Proof.
  induction 1 as [|x a b H IH|x y a|a b c H1 IH1 H2 IH2]; cbn [List.filter].
  - reflexivity.
  - destruct (f x); [constructor|]; exact IH.
  - destruct (f x), (f y); try reflexivity. apply Permutation_swap.
  - etransitivity; eassumption.
Qed.

(** In every order of the maps: each party is given the peer id of its participant's key,
    and the peers the ceremony talks to are those of all the participants except the node
    itself. [ids]: the peer ids of the participants' keys. *)
Theorem C151_peers_of_a_ceremony other_amino keys local ps me ids self entries :
  only_this_form other_amino ->
  GetParties (GetPubKeyFromBech32 other_amino) keys local = Some (ps, me) ->
  GetPeerIDs other_amino keys = Some ids -> GetPeerIDFromPubKey other_amino local = Some self ->
  entries ≡ₚ map_to_list (SetupPartyIDMap ps) ->
  let r := SetupIDMaps entries ∅ in
  snd r = true /\
  (forall p, p ∈ ps -> exists i k id, p_id p = itoa (N.of_nat i) /\ ranked keys i k /\
     GetPeerIDFromPubKey other_amino k = Some id /\ fst r !! p_id p = Some id) /\
  (forall order, order ≡ₚ map_to_list (fst r) ->
     exists others, GetPeersID (Some order) (id_string self) = Some others /\
       others ≡ₚ List.filter (fun id => negb (bool_decide (id = self))) ids).
Proof.
  intros Ho Hg Hids Hself He r. pose proof (C06_party_table _ _ _ _ _ Hg) as Ht.
  pose proof Hids as Hall. apply GetPeerIDs_Forall2 in Hall.
  assert (Hkeys : forall k, k ∈ keys -> exists id, id ∈ ids /\ GetPeerIDFromPubKey other_amino k = Some id).
  { intros k Hk. apply elem_of_list_lookup_1 in Hk as [i Hi]. destruct (Forall2_lookup_l _ _ _ _ _ Hall Hi) as (id & H1 & H2). exists id. split; [eapply elem_of_list_lookup_2; eauto|exact H2]. }
  assert (In_ranked : forall i k, ranked keys i k -> k ∈ keys).
  { intros i k (sk & Hp & _ & Hi). rewrite <- Hp. eapply elem_of_list_lookup_2, Hi. }
  assert (Hpeer : forall k b id, GetPubKeyFromBech32 other_amino k = Some b -> GetPeerIDFromPubKey other_amino k = Some id ->
    GetPeerIDFromPartyID (be_val b) = Some id).
  { intros k b id Hb Hid. apply id_point in Hid as (b' & x & y & Hb' & Hp & Hpt & ->). assert (b' = b) by congruence. subst b'.
    destruct (standard_text _ _ _ _ _ Ho Hb Hp) as [-> _]. apply (party_bytes x y Hpt). }
  assert (Hps : forall p, p ∈ ps -> exists i k id, p_id p = itoa (N.of_nat i) /\ ranked keys i k /\ GetPeerIDFromPubKey other_amino k = Some id /\ GetPeerIDFromPartyID (p_key p) = Some id).
  { intros p Hp. destruct (pt_keys _ _ _ _ _ Ht p Hp) as (i & k & b & H1 & H2 & H3 & H4).
    destruct (Hkeys k (In_ranked _ _ H2)) as (id & _ & Hid). exists i, k, id. rewrite H4. split; [exact H1|]. split; [exact H2|]. split; [exact Hid|eauto]. }
  assert (Hnd : NoDup (map p_id ps)).
  { rewrite (pt_ids _ _ _ _ _ Ht). change (map ?f ?l) with (f <$> l). apply (NoDup_fmap_2_strong _ _); [|apply NoDup_seq].
    intros a b _ _ H. apply itoa_inj in H. lia. }
  rewrite (party_map_list _ Hnd) in He.
  assert (Hent : forall id p, (id, p) ∈ entries -> id = p_id p /\ p ∈ ps).
  { intros id p Hin. rewrite He in Hin. change (map ?f ?l) with (f <$> l) in Hin. apply elem_of_list_fmap in Hin as (q & [= -> ->] & Hq). auto. }
  destruct (setup_loop_spec entries ∅) as (R1 & R2 & R3).
  { apply Forall_forall. intros [id p] Hin. apply Hent in Hin as [_ Hin]. destruct (Hps p Hin) as (i & k & id' & _ & _ & _ & H). eauto. }
  { assert (E : map fst entries ≡ₚ map p_id ps) by (rewrite He, map_map; reflexivity). rewrite E. exact Hnd. }
  fold r in R1, R2, R3.
  assert (Hlook : forall p, p ∈ ps -> fst r !! p_id p = GetPeerIDFromPartyID (p_key p)).
  { intros p Hp. apply R2. rewrite He. change (map ?f ?l) with (f <$> l). apply elem_of_list_fmap. eauto. }
  split; [exact R1|]. split.
  { intros p Hp. destruct (Hps p Hp) as (i & k & id & H1 & H2 & H3 & H4). exists i, k, id. rewrite Hlook by exact Hp. auto. }
  intros order Hord.
  (* the values of the map are the peers of the participants *)
  set (peer p := default [] (GetPeerIDFromPartyID (p_key p))).
  assert (Hmap : map_to_list (fst r) ≡ₚ map (fun p => (p_id p, peer p)) ps).
  { apply NoDup_Permutation.
    - apply NoDup_map_to_list.
    - assert (Hn' : NoDup (map fst (map (fun p => (p_id p, peer p)) ps))) by (rewrite map_map; exact Hnd).
      apply (NoDup_fmap_1 fst). exact Hn'.
    - intros [id v]. rewrite elem_of_map_to_list. change (map ?f ?l) with (f <$> l). rewrite elem_of_list_fmap. split.
      + intros Hl. destruct (decide (id ∈ map fst entries)) as [Hin|Hin].
        * change (map fst entries) with (fst <$> entries) in Hin. apply elem_of_list_fmap in Hin as ([id' p] & -> & Hin).
          cbn [fst] in *. pose proof (R2 _ _ Hin) as Hl'. apply Hent in Hin as [-> Hin]. exists p. split; [|exact Hin].
          unfold peer. rewrite <- Hl', Hl. reflexivity.
        * rewrite R3 in Hl by exact Hin. rewrite lookup_empty in Hl. discriminate.
      + intros (p & [= -> ->] & Hp). rewrite Hlook by exact Hp. destruct (Hps p Hp) as (i & k & id & _ & _ & _ & H). unfold peer. rewrite H. reflexivity. }
  assert (Hvals : map peer ps ≡ₚ ids).
  { destruct (Permutation_map_inv _ _ (Permutation_sym (pt_ids _ _ _ _ _ Ht))) as (ps' & Hs & Hp).
    rewrite Hp.
    set (sk := sort_strings keys).
    assert (Hlen : length ps' = length keys) by (apply (f_equal length) in Hs; rewrite !map_length, seq_length in Hs; lia).
    assert (Hsk : sk ≡ₚ keys) by apply sort_strings_perm.
    assert (Hids' : exists ids', ids' ≡ₚ ids /\ Forall2 (fun k id => GetPeerIDFromPubKey other_amino k = Some id) sk ids').
    { destruct (Permutation_Forall2 (Permutation_sym Hsk) Hall) as (ids0 & H1 & H2). exists ids0. split; [symmetry; exact H1|exact H2]. }
    destruct Hids' as (ids' & Hperm & Hf2). rewrite <- Hperm.
    assert (Heq : map peer ps' = ids'); [|rewrite Heq; reflexivity].
    apply list_eq. intros i. change (map peer ps') with (peer <$> ps'). rewrite list_lookup_fmap.
    destruct (ps' !! i) as [p|] eqn:Ei.
    - assert (Hp' : p ∈ ps) by (rewrite Hp; eapply elem_of_list_lookup_2; eauto).
      destruct (Hps p Hp') as (j & k & id & H1 & (sk' & S1 & S2 & S3) & H3 & H4).
      assert (Eid : p_id p = itoa (N.of_nat i)).
      { assert (E : (p_id <$> ps') !! i = Some (p_id p)) by (rewrite list_lookup_fmap, Ei; reflexivity).
        change (p_id <$> ps') with (map p_id ps') in E. rewrite <- Hs in E. change (map ?f ?l) with (f <$> l) in E.
        rewrite list_lookup_fmap in E. destruct (seq 0 (length keys) !! i) as [z|] eqn:Ez; [|discriminate].
        apply lookup_seq in Ez as [Ez _]. cbn in E. injection E as E. rewrite <- E, Ez. reflexivity. }
      rewrite Eid in H1. apply itoa_inj in H1. assert (j = i) by lia. subst j.
      assert (sk' = sk) by (apply sorted_unique; [exact S2|apply sort_strings_sorted|rewrite S1, Hsk; reflexivity]). subst sk'.
      destruct (Forall2_lookup_l _ _ _ _ _ Hf2 S3) as (id' & I1 & I2). cbn. rewrite I1. unfold peer. rewrite H4. cbn. congruence.
    - cbn. symmetry. apply lookup_ge_None. apply lookup_ge_None in Ei. apply Forall2_length in Hf2. rewrite <- Hf2.
      rewrite (Permutation_length Hsk). lia. }
  assert (Hne : order <> []).
  { intros ->. pose proof (pt_local_in _ _ _ _ _ Ht) as Hin. apply Permutation_nil in Hord. rewrite Hord in Hmap.
    apply Permutation_nil in Hmap. destruct ps; [inversion Hin|discriminate]. }
  assert (Hstr : forall id, id ∈ ids -> negb (String.eqb (id_string id) (id_string self)) = negb (bool_decide (id = self))).
  { intros id Hin. apply elem_of_list_lookup_1 in Hin as [i Hi]. destruct (Forall2_lookup_r _ _ _ _ _ Hall Hi) as (k & _ & Hk).
    apply id_point in Hk as (_ & x & y & _ & _ & _ & ->). apply id_point in Hself as (_ & x' & y' & _ & _ & _ & ->). f_equal.
    destruct (String.eqb_spec (id_string (IDFromPublicKey (x, y))) (id_string (IDFromPublicKey (x', y')))) as [E|E].
    - apply id_string_inj in E. rewrite E. symmetry. apply bool_decide_eq_true_2. reflexivity.
    - symmetry. apply bool_decide_eq_false_2. intros E'. apply E. f_equal. exact E'. }
  assert (Hsnd : map snd order ≡ₚ ids).
  { rewrite Hord, Hmap, map_map. cbn [snd]. exact Hvals. }
  unfold GetPeersID. destruct order as [|e order]; [congruence|]. eexists. split; [reflexivity|].
  etransitivity; [apply filter_perm, Hsnd|].
  assert (Hfe : forall l, (forall id, id ∈ l -> id ∈ ids) ->
    List.filter (fun peer0 => negb (String.eqb (id_string peer0) (id_string self))) l = List.filter (fun id => negb (bool_decide (id = self))) l).
  { induction l as [|id l IH]; intros Hl; [reflexivity|]. cbn [List.filter]. rewrite Hstr by (apply Hl; left).
    rewrite IH; [reflexivity|]. intros id' Hin. apply Hl. right. exact Hin. }
  rewrite Hfe by auto. reflexivity.
Qed.
Print Assumptions C151_peers_of_a_ceremony.
(** Two participants; the node talks to the other one. *)
Example C151_example :
  only_this_form no_amino /\
  (exists ps me, GetParties (GetPubKeyFromBech32 no_amino) [test_key; other_key] other_key = Some (ps, me)) /\
  (exists ids, GetPeerIDs no_amino [test_key; other_key] = Some ids) /\
  (exists self, GetPeerIDFromPubKey no_amino other_key = Some self).
Proof.
  destruct C133_ex as (H1 & (ps & me & H2 & _) & H3). split; [exact H1|]. split; [exists ps, me; exact H2|].
  apply Forall_cons in H3 as [[i1 E1] H3]. apply Forall_cons in H3 as [[i2 E2] _]. split; [|exists i2; exact E2].
  exists [i1; i2]. apply GetPeerIDs_Forall2. constructor; [exact E1|]. constructor; [exact E2|constructor].
Qed.
(** The tables are complete or an error is reported: no party is left out silently. *)
Theorem C151_complete_or_error entries m :
  (snd (SetupIDMaps entries m) = true <-> Forall (fun e => GetPeerIDFromPartyID (p_key (snd e)) <> None) entries) /\
  (snd (SetupIDMaps entries m) = true -> forall id, id ∈ map fst entries -> fst (SetupIDMaps entries m) !! id <> None).
Proof.
  unfold SetupIDMaps. revert m. induction entries as [|[id p] r IH]; intros m; cbn [setup_loop map fst snd].
  - split; [split; [constructor|reflexivity]|]. intros _ id H. inversion H.
  - rewrite Forall_cons. cbn [snd]. destruct (GetPeerIDFromPartyID (p_key p)) as [peer|]; [|split; [cbn; split; [discriminate|intros [H _]; congruence]|discriminate]].
    destruct (IH (<[id:=peer]> m)) as [I1 I2]. split; [rewrite I1; split; [intros H; split; [discriminate|exact H]|tauto]|].
    intros Hs j Hj. apply elem_of_cons in Hj as [->|Hj]; [|exact (I2 Hs j Hj)].
    assert (K : forall l m', m' !! id <> None -> fst (setup_loop l m') !! id <> None).
    { induction l as [|[i' p'] l IHl]; intros m' Hm; cbn [setup_loop]; [exact Hm|]. destruct (GetPeerIDFromPartyID (p_key p')); [|exact Hm].
      apply IHl. destruct (decide (i' = id)) as [->|Hne]; [rewrite lookup_insert; discriminate|rewrite lookup_insert_ne by exact Hne; exact Hm]. }
    apply K. rewrite lookup_insert. discriminate.
Qed.
Print Assumptions C151_complete_or_error.
Example C151_error_example : snd (SetupIDMaps [("1"%string, Party "1" 7 0)] ∅) = false.
Proof. vm_compute. reflexivity. Qed.
(** An empty map makes the code panic; the maps of a ceremony are never empty. *)
Theorem C151_empty_map_panics local : GetPeersID (Some []) local = None /\ GetPeersID None local = Some [].
Proof. auto. Qed.
Print Assumptions C151_empty_map_panics.
