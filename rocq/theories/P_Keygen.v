(** C50, C51, C58 (keygen), C109-C112: a whole Keygen call. *)
From Coq Require Import ZArith NArith Ascii String List Lia.
From stdpp Require Import base list strings gmap.
From Verif Require Import Base L_Base M_Conv S_Conv L_Conv M_Semver M_Server M_Batch M_Notifier M_Join M_Common M_Blame M_KeySign S_KeySign L_KeySign
  S_Utf8 L_Utf8 M_Json M_Storage S_Json L_JsonSpec S_Storage L_Storage P_Storage M_Loop M_Keygen S_Keygen L_Keygen.

(** ** Witnesses *)

Definition kg_toy_s : senv := {|
  se_sha := fun b => String.append "h" (of_bytes b);
  se_key := fun k => if bool_decide (k ∈ ["a"; "b"; "c"]%string) then Some (to_bytes k) else None;
  se_peer := fun b => Some (String.append "p" (of_bytes b));
  se_pub := fun p => if bool_decide (p ∈ ["pa"; "pb"; "pc"]%string) then Some (of_bytes (tail (to_bytes p))) else None;
  se_self := "pa";
  se_state := fun _ => None;
  se_n := NEnv (fun _ => None) (fun _ _ _ _ => true) (fun _ => None) (fun _ => None) (fun _ => None) (fun _ => None) |}.
Definition kg_toy : kgenv := KgEnv kg_toy_s "a" true
  (fun p => match p with Some _ => Some ("k1"%string, "addr"%string) | None => None end) toy_fs 30.
Definition kg_in (o : outcome) (w : wout) : kgin nat := KgIn _ o
  [LTick 4; LEmit 7; LTakeOut true; LTick 3; LFinish (toy_data "aa"); LTakeEnd] no_blame w [("pb", ["/ip4/1.2.3.4"])]%string WDone.
Definition all_in : outcome := Outcome (Some ["pa"; "pb"; "pc"]%string) ENone.
Definition kg_keys : list string := ["c"; "a"; "b"]%string.
Definition run_toy o w h v := Keygen kg_toy (kg_in o w) kg_keys h v.

(** ** C50 *)

(** When Keygen answers Success, the share of the key it answers with, of exactly the
    keys of the request and this node, was written completely before the call counted
    the keygen and returned; from then on, whatever the disk held before and wherever
    the process stops, it is read back as it was saved. *)
Theorem C50_success_is_durable {M} E (I : kgin M) keys h v r :
  fs_laws (kg_fs E) -> Forall text keys -> Keygen E I keys h v = Some r -> kr_status (ko_resp r) = Success ->
  ko_err r = false /\
  exists pre post d keys',
    let st := Stored (kr_pub (ko_resp r)) d (Some keys') (kg_local E) in
    ko_fx r = pre ++ FxSave st WDone :: post /\ ascending keys keys' /\ kg_local E ∈ keys /\
    kg_pub E (sd_pub d) = Some (kr_pub (ko_resp r), kr_addr (ko_resp r)) /\
    FxKeygen true ∉ pre /\
    (forall fs part rest, post = part ++ rest ->
       GetLocalState (kg_fs E) (kr_pub (ko_resp r)) (disk (kg_fs E) fs (pre ++ FxSave st WDone :: part)) = Some st).
Proof.
  intros HL HT HK HS. destruct (keygen_cases E I keys h v r HK) as [[_ ->]|[_ [[Hf Hk]|(l & o & _ & ->)]]]; [discriminate| |discriminate].
  destruct (formed_cases E I keys h v r Hf Hk) as [(d & pk & addr & Hg & ->)|(_ & b & out & ->)]; [|discriminate].
  cbn [ko_resp ko_err ko_fx kr_pub kr_addr]. split; [reflexivity|].
  set (s := lrun _ _ _). exists (FxJoin true :: map FxOut (l_sent s) ++ [FxNotify]), [FxBook (ki_book I) (ki_wb I); FxKeygen true], d, (sort_strings keys).
  cbv zeta. destruct Hg as (Hl & _ & _ & Hpub & Hc & Hd & _).
  split; [cbn [app]; rewrite <- app_assoc; reflexivity|]. split; [apply ascending_sort|]. split; [exact Hl|]. split; [exact Hpub|].
  split.
  { rewrite elem_of_cons, elem_of_app, elem_of_list_fmap, elem_of_list_singleton. intros [|[(? & ? & _)|]]; discriminate. }
  intros fs part rest Hp. set (st := Stored _ _ _ _). rewrite disk_app. set (fs0 := disk _ fs _). cbn [disk fold_left disk1].
  set (fs1 := fst (SaveLocalState (kg_fs E) st WDone fs0)).
  assert (H1 : GetLocalState (kg_fs E) pk fs1 = Some st).
  { destruct (fl_key _ HL pk Hc) as [Hne _]. destruct (save_cases (kg_fs E) st WDone fs0) as [[Ha _]|(p & b & _ & Hpath & Hb & Hs)].
    - unfold accepted in Ha. cbn [st_pub st_data st] in Ha. rewrite Hc in Ha. destruct (fe_data _ d); [discriminate|contradiction].
    - unfold fs1. rewrite Hs. cbn [WriteFile fst]. unfold GetLocalState. cbn [st_pub st] in Hpath.
      destruct (Nat.eqb_spec (String.length pk) 0) as [H0|_]; [destruct pk; [contradiction|discriminate]|].
      rewrite Hpath. unfold files in *. rewrite lookup_insert. apply round_trip; [assumption..| |assumption].
      rewrite Forall_forall in HT. split; [|exact (HT _ Hl)]. apply Forall_forall. intros x Hx. apply HT.
      rewrite <- (proj1 (ascending_sort keys)). exact Hx. }
  assert (H2 : forall part rest', [FxBook (ki_book I) (ki_wb I); @FxKeygen M true] = part ++ rest' ->
    GetLocalState (kg_fs E) pk (fold_left (disk1 (kg_fs E)) part fs1) = Some st).
  { intros [|x [|y [|]]] rest' He; [exact H1| | |discriminate]; injection He; intros; subst; cbn [fold_left disk1];
      rewrite (proj1 (proj2 (C52_isolation (kg_fs E) fs1 pk HL))); exact H1. }
  exact (H2 part rest Hp).
Qed.
Print Assumptions C50_success_is_durable.

Example C50_success_is_durable_ex : fs_laws (kg_fs kg_toy) /\ Forall text kg_keys /\
  run_toy all_in WDone 10 "0.14.0" = Some (KgOut (KResp "k1" "addr" Success no_blame) false
    [FxJoin true; FxOut 7; FxNotify; FxSave (Stored "k1" (toy_data "aa") (Some ["a"; "b"; "c"]%string) "a") WDone;
     FxBook [("pb", ["/ip4/1.2.3.4"])]%string WDone; FxKeygen true]).
Proof.
  split; [apply toy_laws|]. split; [repeat constructor; apply ascii_string; reflexivity|]. vm_compute. reflexivity.
Qed.

(** ** C51 *)

(** A node tells the others that its keygen is done before its share is on the disk: a
    call that would answer Success, stopped between the two, has announced completion
    and has no share for the key. *)
Theorem C51_announced_after_saved_refuted :
  exists (E : kgenv) (I : kgin nat) keys h v r part rest,
    fs_laws (kg_fs E) /\ Keygen E I keys h v = Some r /\ kr_status (ko_resp r) = Success /\
    ko_fx r = part ++ rest /\ FxNotify ∈ part /\
    GetLocalState (kg_fs E) (kr_pub (ko_resp r)) (disk (kg_fs E) ∅ part) = None.
Proof.
  exists kg_toy, (kg_in all_in WDone), kg_keys, 10%Z, "0.14.0"%string.
  eexists _, [FxJoin true; FxOut 7; FxNotify], _. split; [apply toy_laws|].
  split; [vm_compute; reflexivity|]. split; [reflexivity|]. split; [reflexivity|]. split; [|vm_compute; reflexivity].
  do 2 right. left.
Qed.
Print Assumptions C51_announced_after_saved_refuted.

(** It also announces completion when the share cannot be saved and it answers Fail. *)
Theorem C51_announced_only_if_saved_refuted :
  exists (E : kgenv) (I : kgin nat) keys h v r,
    fs_laws (kg_fs E) /\ Keygen E I keys h v = Some r /\ kr_status (ko_resp r) = Fail /\ ko_err r = true /\
    FxNotify ∈ ko_fx r /\ forall k, GetLocalState (kg_fs E) k (disk (kg_fs E) ∅ (ko_fx r)) = None.
Proof.
  exists kg_toy, (kg_in all_in WOpenFail), kg_keys, 10%Z, "0.14.0"%string. eexists. split; [apply toy_laws|].
  split; [vm_compute; reflexivity|]. split; [reflexivity|]. split; [reflexivity|]. split; [do 2 right; left|].
  intros k. unfold GetLocalState. destruct (Nat.eqb _ _); [reflexivity|]. destruct (getFilePathName _ k); reflexivity.
Qed.
Print Assumptions C51_announced_only_if_saved_refuted.

(** ** C58 *)

(** A request without an id counts nothing; any other counts one join party, successful
    when the party formed, and one keygen, successful exactly when the answer is
    Success. *)
Theorem C58_keygen_counted_once {M} E (I : kgin M) keys h v r :
  Keygen E I keys h v = Some r ->
  ((forall id, ~ keygen_id E keys id) -> kjoins (ko_fx r) = [] /\ keygens (ko_fx r) = []) /\
  ((exists id, keygen_id E keys id) ->
     exists j k, kjoins (ko_fx r) = [j] /\ keygens (ko_fx r) = [k] /\
       (j = true <-> formed E I keys h v) /\ (k = true <-> kr_status (ko_resp r) = Success)).
Proof.
  intros HK. destruct (keygen_cases E I keys h v r HK) as [[Hn ->]|[[id Hid] [[Hf Hk]|(l & o & Ht & ->)]]].
  - split; [auto|]. intros [id Hid]. destruct (Hn id Hid).
  - split; [intros Hn; destruct (Hn id Hid)|]. intros _.
    destruct (formed_cases E I keys h v r Hf Hk) as [(d & pk & addr & Hg & ->)|(_ & b & out & ->)]; cbn [ko_fx ko_resp kr_status].
    + exists true, true. cbn [kjoins keygens flat_map app]. fold (kjoins (M:=M)). fold (keygens (M:=M)).
      destruct (outs_none (l_sent (lrun (kg_T E) 1 (ki_loop I)))) as [H1 H2].
      change (flat_map _ ?l) with (kjoins l) at 1. rewrite kjoins_app, H1.
      change (flat_map _ ?l) with (keygens l). rewrite keygens_app, H2. cbn. tauto.
    + exists true, false. cbn [kjoins keygens flat_map app]. destruct (outs_none out) as [H1 H2].
      match goal with |- context [map FxOut out ++ ?x ++ [FxKeygen false]] => set (X := x) end.
      assert (H3 : kjoins X = [] /\ keygens X = []).
      { subst X. destruct (l_res _) as [[[|d []]| | | |]|], (kg_params E), (bool_decide (kg_local E ∈ keys)); auto.
        destruct (kg_pub E (sd_pub d)) as [[]|]; auto. }
      destruct H3 as [H3 H4]. change (flat_map _ ?l) with (kjoins l) at 1. rewrite !kjoins_app, H1, H3.
      change (flat_map _ ?l) with (keygens l). rewrite !keygens_app, H2, H4. cbn.
      split; [reflexivity|]. split; [reflexivity|]. split; [tauto|]. split; discriminate.
  - split; [intros Hn; destruct (Hn id Hid)|]. intros _. exists false, false. cbn.
    split; [reflexivity|]. split; [reflexivity|]. split; [|split; discriminate].
    split; [discriminate|]. intros H. destruct (try_not_formed _ _ _ _ _ _ _ Ht H).
Qed.
Print Assumptions C58_keygen_counted_once.

Example C58_keygen_counted_once_ex :
  option_map (fun r => (kjoins (ko_fx r), keygens (ko_fx r))) (run_toy all_in WDone 10 "0.13.0") = Some ([true], [true]) /\
  option_map (fun r => (kjoins (ko_fx r), keygens (ko_fx r))) (run_toy all_in (WPartial 3) 10 "0.13.0") = Some ([true], [false]) /\
  option_map (fun r => (kjoins (ko_fx r), keygens (ko_fx r))) (run_toy (Outcome (Some ["pa"%string]) ETimeout) WDone 10 "0.13.0") = Some ([false], [false]).
Proof. vm_compute. auto. Qed.

(** ** C109 *)

(** Keygen answers Success exactly when the request has an id, the party formed, this
    node is one of the keys and has its pre-parameters, its local party ended with a
    share, that share's public key is on the curve, and the share was written; the
    answer then is that key and its address, and no error. *)
Theorem C109_when_keygen_succeeds {M} E (I : kgin M) keys h v r :
  Keygen E I keys h v = Some r ->
  (kr_status (ko_resp r) = Success <->
   (exists id, keygen_id E keys id) /\ formed E I keys h v /\ exists d pk addr, generated E I keys d pk addr) /\
  (kr_status (ko_resp r) = Success -> forall d pk addr, generated E I keys d pk addr ->
     kr_pub (ko_resp r) = pk /\ kr_addr (ko_resp r) = addr /\ ko_err r = false).
Proof.
  intros HK. destruct (keygen_cases E I keys h v r HK) as [[Hn ->]|[Hid [[Hf Hk]|(l & o & Ht & ->)]]].
  - split; [|discriminate]. split; [discriminate|]. intros ([id Hid] & _). destruct (Hn id Hid).
  - destruct (formed_cases E I keys h v r Hf Hk) as [(d & pk & addr & Hg & ->)|(Hn & b & out & ->)]; cbn [ko_resp kr_status kr_pub kr_addr ko_err].
    + split; [split; [eauto 10|reflexivity]|]. intros _ d' pk' addr' Hg'.
      destruct Hg as (_ & _ & H1 & H2 & _), Hg' as (_ & _ & H1' & H2' & _). assert (d' = d) by congruence. subst d'.
      rewrite H2 in H2'. injection H2' as <- <-. auto.
    + split; [|discriminate]. split; [discriminate|]. intros (_ & _ & d & pk & addr & Hg). destruct (Hn _ _ _ Hg).
  - split; [|discriminate]. split; [discriminate|]. intros (_ & H & _). destruct (try_not_formed _ _ _ _ _ _ _ Ht H).
Qed.
Print Assumptions C109_when_keygen_succeeds.

Example C109_when_keygen_succeeds_ex : generated kg_toy (kg_in all_in WDone) kg_keys (toy_data "aa") "k1" "addr".
Proof.
  repeat split; try (vm_compute; reflexivity); [|vm_compute; discriminate]. apply (bool_decide_unpack _). vm_compute. exact I.
Qed.

(** ** C110 *)

(** Keygen returns an error exactly when the request has no id, or the party formed and
    no key came out of it. A party that does not form is no error: the answer is Fail,
    nothing was sent, saved or announced. Without Success there is no key and no
    address in the answer. *)
Theorem C110_keygen_errors {M} E (I : kgin M) keys h v r :
  Keygen E I keys h v = Some r ->
  (ko_err r = true <-> (forall id, ~ keygen_id E keys id) \/ (formed E I keys h v /\ kr_status (ko_resp r) <> Success)) /\
  ((exists id, keygen_id E keys id) -> ~ formed E I keys h v ->
     kr_status (ko_resp r) = Fail /\ ko_err r = false /\ ko_fx r = [FxJoin false; FxKeygen false]) /\
  ((forall id, ~ keygen_id E keys id) -> r = KgOut (KResp "" "" NA (Blame "" false [])) true []) /\
  (kr_status (ko_resp r) <> Success -> kr_pub (ko_resp r) = ""%string /\ kr_addr (ko_resp r) = ""%string).
Proof.
  intros HK. destruct (keygen_cases E I keys h v r HK) as [[Hn ->]|[[id Hid] [[Hf Hk]|(l & o & Ht & ->)]]].
  - split; [split; [auto|reflexivity]|]. split; [intros [id Hid]; destruct (Hn id Hid)|]. split; [reflexivity|]. auto.
  - destruct (formed_cases E I keys h v r Hf Hk) as [(d & pk & addr & Hg & ->)|(Hn & b & out & ->)]; cbn [ko_resp kr_status kr_pub kr_addr ko_err ko_fx].
    + split; [split; [discriminate|intros [Hn|[_ Hn]]; [destruct (Hn id Hid)|congruence]]|].
      split; [contradiction|]. split; [intros Hn; destruct (Hn id Hid)|congruence].
    + split; [split; [|reflexivity]; intros _; right; split; [exact Hf|discriminate]|].
      split; [contradiction|]. split; [intros Hn'; destruct (Hn' id Hid)|auto].
  - assert (Hnf := try_not_formed _ _ _ _ _ _ _ Ht). unfold keygen_join_failed. cbn [ko_resp kr_status kr_pub kr_addr ko_err ko_fx].
    split; [split; [discriminate|intros [Hn|[Hf _]]; [destruct (Hn id Hid)|contradiction]]|].
    split; [auto|]. split; [intros Hn'; destruct (Hn' id Hid)|auto].
Qed.
Print Assumptions C110_keygen_errors.

Example C110_keygen_errors_ex :
  Keygen kg_toy (kg_in all_in WDone) [""; ""]%string 10 "0.14.0" = Some (KgOut empty_kresp true []) /\
  option_map (fun r => (kr_status (ko_resp r), ko_err r)) (run_toy all_in (WPartial 3) 10 "0.14.0") = Some (Fail, true) /\
  option_map (fun r => (kr_status (ko_resp r), ko_err r)) (run_toy all_in WDone 10 "0.1x") = Some (Fail, false).
Proof. vm_compute. auto. Qed.

(** ** C111 *)

Definition plain_of (l : list node) (P : string -> Prop) : Prop := forall n, n ∈ l <-> exists k, n = plain k /\ P k.

(** When the party does not form, who is blamed: without a leader, the keys whose peer
    is not in the list of the peers online, and nobody when there is no such list; with
    a leader, those and the leader, or the leader alone when the list is empty; nobody
    when no join party was started. *)
Theorem C111_blame_when_no_party {M} E (I : kgin M) keys h v r :
  none_is_no_peer (kg_s E) -> se_pub (kg_s E) "" = None ->
  Keygen E I keys h v = Some r -> (exists id, keygen_id E keys id) -> ~ formed E I keys h v ->
  let b := kr_blame (ko_resp r) in
  bl_unicast b = false /\
  (oldJoinParty v = Some true ->
     ((forall ps, ~ key_peers E keys ps) \/ oc_peers (ki_join I) = None -> b = Blame "fail to start the join party " false []) /\
     (forall ps online, key_peers E keys ps -> oc_peers (ki_join I) = Some online ->
        bl_reason b = "signers fail to sync before keygen/keysign"%string /\ plain_of (bl_nodes b) (absent E keys online))) /\
  (oldJoinParty v <> Some true ->
     bl_reason b = "signers fail to sync before keygen/keysign"%string /\
     ((forall l, ~ starts_join E keys h v l) -> bl_nodes b = []) /\
     (forall leader online, starts_join E keys h v (Some leader) -> default [] (oc_peers (ki_join I)) = online ->
        plain_of (bl_nodes b) (fun k => (online <> [] /\ absent E keys online k) \/ se_pub (kg_s E) leader = Some k))).
Proof.
  intros Hnone Hpub HK Hid Hnf.
  destruct (keygen_cases E I keys h v r HK) as [[Hn _]|[_ [[Hf _]|(l & o & Ht & ->)]]]; [destruct Hid as [id Hid]; destruct (Hn id Hid)|contradiction|].
  assert (Habs : forall online ps n, key_peers E keys ps ->
    n ∈ sync_nodes (kg_s E) (sort_strings keys) online <-> exists k, n = plain k /\ absent E keys online k).
  { intros online ps n (k' & Ha & Hp). apply ascending_eq in Ha as ->. rewrite sync_elem.
    - split; intros (k & -> & Hk & Hq); exists k; (split; [reflexivity|]); split; auto; revert Hk; rewrite sort_strings_perm; auto.
    - intros k Hk. apply elem_of_list_lookup in Hk as [i Hi]. destruct (Forall2_lookup_l _ _ _ _ _ Hp Hi) as (p & _ & H). eauto. }
  assert (Hld : forall leader, starts_join E keys h v (Some leader) -> leader <> "NONE"%string).
  { intros leader Hs ->. inversion Hs as [|ps id ld Hv Hp Hi Hl]; subst. apply LeaderNode_smallest in Hl as [Hin _].
    destruct Hp as (k' & _ & Hp). apply elem_of_list_lookup in Hin as [i Hi']. destruct (Forall2_lookup_r _ _ _ _ _ Hp Hi') as (k & _ & Hk).
    unfold peer_of in Hk. destruct (se_key (kg_s E) k); [|discriminate]. exact (Hnone _ Hk). }
  assert (Hone : forall leader leader', starts_join E keys h v (Some leader) -> starts_join E keys h v (Some leader') -> leader = leader').
  { intros a b Ha Hb. inversion Ha as [|ps id ld Hv Hp Hi Hl]; inversion Hb as [|ps' id' ld' Hv' Hp' Hi' Hl']; subst.
    apply key_peers_all in Hp, Hp'. apply keygen_id_eq in Hi, Hi'. congruence. }
  cbv zeta. unfold keygen_join_failed. cbn [ko_resp kr_blame].
  destruct Ht as [Hv|Hv Hn|Hs Hne|Hv Hn|ps id Hv Hp Hi Hl|leader Hs Hne].
  - cbn. rewrite Hpub. split; [reflexivity|]. rewrite Hv. split; [discriminate|]. intros _. split; [reflexivity|]. split; [reflexivity|].
    intros leader online Hs. inversion Hs. congruence.
  - cbn. split; [reflexivity|]. rewrite Hv. split; [|congruence]. intros _. split; [reflexivity|]. intros ps online Hp. destruct (Hn ps Hp).
  - inversion Hs as [ps Hv Hp|]. subst. rewrite Hv. cbn [String.eqb Ascii.eqb Bool.eqb]. split; [destruct (oc_peers _); reflexivity|].
    split; [|congruence]. intros _. split.
    + intros [Hn|Hn]; [destruct (Hn _ Hp)|]. rewrite Hn. reflexivity.
    + intros ps' online _ Ho. rewrite Ho. split; [reflexivity|]. intros n. exact (Habs online ps n Hp).
  - cbn. rewrite Hpub. split; [reflexivity|]. rewrite Hv. split; [discriminate|]. intros _. split; [reflexivity|]. split; [reflexivity|].
    intros leader online Hs. inversion Hs as [|ps id ld Hv' Hp' Hi' Hl']; subst. destruct (Hn _ Hp').
  - cbn. rewrite Hpub. split; [reflexivity|]. rewrite Hv. split; [discriminate|]. intros _. split; [reflexivity|]. split; [reflexivity|].
    intros leader online Hs. inversion Hs as [|ps' id' ld Hv' Hp' Hi' Hl']; subst.
    apply key_peers_all in Hp, Hp'. apply keygen_id_eq in Hi, Hi'. congruence.
  - assert (Hv : oldJoinParty v = Some false) by (inversion Hs; assumption).
    assert (exists ps, key_peers E keys ps) as [ps Hp] by (inversion Hs; eauto).
    destruct (String.eqb_spec leader "NONE") as [He|_]; [destruct (Hld leader Hs He)|].
    split; [destruct (Nat.eqb _ _); reflexivity|]. rewrite Hv. split; [discriminate|]. intros _.
    split; [destruct (Nat.eqb _ _); reflexivity|]. split; [intros Hno; destruct (Hno _ Hs)|].
    intros leader' online Hs' Ho n. rewrite (Hone _ _ Hs' Hs), Ho.
    destruct (Nat.eqb_spec (length online) 0) as [H0|H0].
    + destruct online; [|discriminate]. cbn [bl_nodes]. destruct (se_pub (kg_s E) leader) as [kl|].
      * rewrite elem_of_list_singleton. split; [intros ->; exists kl; auto|]. intros (k & -> & [[H _]|H]); congruence.
      * split; [intros H; inversion H|]. intros (k & _ & [[H _]|H]); congruence.
    + assert (Hon : online <> []) by (intros ->; apply H0; reflexivity).
      unfold AddBlameNodes. cbn [bl_nodes]. destruct (se_pub (kg_s E) leader) as [kl|]; cbn [fold_left].
      * unfold add_node. destruct (existsb _ _) eqn:Hex.
        -- apply existsb_exists in Hex as (x & Hx & Heq). apply elem_of_list_In in Hx.
           rewrite (Habs online ps n Hp). split.
           ++ intros (k & -> & Hk). exists k. split; [reflexivity|]. left. split; assumption.
           ++ intros (k & -> & [[_ Hk]|Hk]); [eauto|]. injection Hk as ->.
              apply (Habs online ps x Hp) in Hx as (k' & -> & Hk'). unfold node_equal in Heq. apply andb_true_iff in Heq as [Heq _].
              apply String.eqb_eq in Heq. cbn in Heq. subst k'. eauto.
        -- rewrite elem_of_app, (Habs online ps n Hp), elem_of_list_singleton. split.
           ++ intros [(k & -> & Hk)| ->]; [exists k; auto|exists kl; auto].
           ++ intros (k & -> & [[_ Hk]|Hk]); [eauto|right; congruence].
      * rewrite (Habs online ps n Hp). split.
        -- intros (k & -> & Hk). exists k. auto.
        -- intros (k & -> & [[_ Hk]|Hk]); [eauto|discriminate].
Qed.
Print Assumptions C111_blame_when_no_party.

Example C111_blame_when_no_party_ex :
  none_is_no_peer kg_toy_s /\ se_pub kg_toy_s "" = None /\
  option_map (fun r => kr_blame (ko_resp r)) (run_toy (Outcome (Some ["pa"; "pc"]%string) ETimeout) WDone 10 "0.13.0")
    = Some (Blame TssSyncFail false [plain "b"]) /\
  option_map (fun r => kr_blame (ko_resp r)) (run_toy (Outcome (Some ["pa"; "pc"]%string) ETimeout) WDone 10 "0.14.0")
    = Some (Blame TssSyncFail false [plain "b"; plain "a"]).
Proof. split; [intros b; discriminate|]. vm_compute. auto. Qed.

(** ** C112 *)

(** The blame of a join party that failed is not confined to nodes that were absent: a
    leader that is in the list of the peers online is blamed. *)
Theorem C112_only_absent_blamed_refuted :
  exists (E : kgenv) (I : kgin nat) keys h v r online k p,
    Keygen E I keys h v = Some r /\ oc_peers (ki_join I) = Some online /\
    plain k ∈ bl_nodes (kr_blame (ko_resp r)) /\ peer_of (kg_s E) k = Some p /\ p ∈ online.
Proof.
  exists kg_toy, (kg_in (Outcome (Some ["pa"; "pc"]%string) ETimeout) WDone), kg_keys, 10%Z, "0.14.0"%string.
  eexists _, _, "a"%string, "pa"%string. split; [vm_compute; reflexivity|]. split; [reflexivity|].
  split; [right; left|]. split; [vm_compute; reflexivity|left].
Qed.
Print Assumptions C112_only_absent_blamed_refuted.
