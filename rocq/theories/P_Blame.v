(** Property theorems: timeout blame (C37-C40, C64, C65, C83-C86). *)
From Coq Require Import ZArith NArith Ascii String List Lia.
From stdpp Require Import base list strings gmap.
From Verif Require Import Base L_Base S_Threshold M_Common S_Common L_Common L_Common2
  M_Blame S_Blame L_Blame L_Blame2 L_Blame3.

(** ** Tables for the examples: parties "1".."n" on peers "p1".."pn" *)
Definition b_ids (n : nat) : list string := map (fun i => itoa (N.of_nat i)) (seq 1 n).
Definition b_cfg (n : nat) (me : string) : cfg :=
  Cfg "req" (String.append "p" me) (map (String.append "p") (filter (fun i => i <> me) (b_ids n))) {["s"; "t"]}
    (list_to_map (map (fun i => (i, to_bytes i)) (b_ids n)))
    (list_to_map (map (fun i => (i, String.append "p" i)) (b_ids n))).
(** Bodies are taken as they are; the body "8" is a share of the last signing round. *)
Definition b_env : env := Env of_bytes (fun _ _ _ => true)
  (fun b => Some [Bulk b "s" (Some (Routing (FId "1") [] true))])
  (fun b _ _ => if String.eqb (of_bytes b) "8" then Some SignRound7Message else Some KGRound1Message)
  (fun k => Some (of_bytes k)) (fun _ => true).
Definition b_wire (id : string) (bc : bool) (round body : string) : wire :=
  Wire (Some (Routing (FId id) [] bc)) round (to_bytes body) [].
Definition b_stored (l : list (string * string)) : gmap string wire :=
  list_to_map (map (fun x => (String.append (fst x) (String.append "-" (snd x)), b_wire (fst x) true (snd x) "x")) l).
Definition b_accepted (l : list (roundinfo * list string)) : gmap roundinfo (list string) := list_to_map l.
Definition kg_name (i : nat) : string :=
  match i with 0 => "KGRound1Message" | 1 => "KGRound2Message1" | 2 => "KGRound2Message2" | _ => "KGRound3Message" end.
Definition ks_name (i : nat) : string :=
  match i with 0 => "SignRound1Message1" | 1 => "SignRound1Message2" | 2 => "SignRound2Message" | 3 => "SignRound3Message"
  | 4 => "SignRound4Message" | 5 => "SignRound5Message" | 6 => "SignRound6Message" | _ => "SignRound7Message" end.

(** Checking [good_tables] on a concrete configuration. *)
Lemma good_tables_check E C :
  map_Forall (fun _ k => is_Some (e_pub E k)) (cf_parties C) ->
  dom (cf_id2peer C) = dom (cf_parties C) ->
  NoDup (map snd (map_to_list (cf_id2peer C))) -> good_tables E C.
Proof.
  intros H1 H2 H3. split; [exact H1|]. split; [exact H2|]. intros a b p Ha Hb.
  apply elem_of_map_to_list in Ha, Hb. revert Ha Hb H3.
  induction (map_to_list (cf_id2peer C)) as [|[x y] l IH]; intros Ha Hb Hnd; [inversion Ha|].
  cbn [map snd] in Hnd. apply NoDup_cons in Hnd as [Hy Hnd].
  apply elem_of_cons in Ha as [Ha|Ha]; apply elem_of_cons in Hb as [Hb|Hb]; [congruence| | |auto].
  - exfalso. apply Hy. apply elem_of_list_fmap. exists (b, p). split; [cbn; congruence|exact Hb].
  - exfalso. apply Hy. apply elem_of_list_fmap. exists (a, p). split; [cbn; congruence|exact Ha].
Qed.
Lemma b_good (n : nat) me :
  NoDup (map snd (map_to_list (cf_id2peer (b_cfg n me)))) -> good_tables b_env (b_cfg n me).
Proof.
  intros H2. apply good_tables_check; [| |exact H2].
  - intros k x Hx. cbn. eauto.
  - cbn. rewrite !dom_list_to_map_L. f_equal. rewrite <- !list_fmap_compose. reflexivity.
Qed.
Lemma b_good3 me : good_tables b_env (b_cfg 3 me).
Proof.
  apply b_good.
  apply (bool_decide_unpack (NoDup (map snd (map_to_list (cf_id2peer (b_cfg 3 me)))))). vm_compute. exact I.
Qed.

(** ** C37 *)
(** Nobody named is the node itself: every blamed key is the key of another member. *)
Theorem C37_no_self_blame :
  forall E C local s o1 o2 o3 os round rounds nodes n,
    (GetBroadcastBlame E C local o1 o2 round s = BOk nodes \/
     GetUnicastBlame E C local o1 o2 o3 round s = BOk nodes \/
     exists u, TssMissingShareBlame E C local o1 o2 os rounds s = BOk (nodes, u)) ->
    n ∈ nodes -> exists id, id <> local /\ blames E C id n.
Proof.
  intros E C local s o1 o2 o3 os round rounds nodes n Hf Hn.
  assert (Hall : Forall (not_self E C local) nodes).
  { destruct Hf as [Hf|[Hf|[u Hf]]];
      [eapply broadcast_not_self|eapply unicast_not_self|eapply missing_not_self]; exact Hf. }
  rewrite Forall_forall in Hall. exact (Hall n Hn).
Qed.
Print Assumptions C37_no_self_blame.
(** So, when different members have different keys, its own key is not named. *)
Theorem C37_own_key_not_named :
  forall E C local s o1 o2 o3 os round rounds nodes n,
    (forall a b ka kb pk, cf_parties C !! a = Some ka -> cf_parties C !! b = Some kb ->
       e_pub E ka = Some pk -> e_pub E kb = Some pk -> a = b) ->
    (GetBroadcastBlame E C local o1 o2 round s = BOk nodes \/
     GetUnicastBlame E C local o1 o2 o3 round s = BOk nodes \/
     exists u, TssMissingShareBlame E C local o1 o2 os rounds s = BOk (nodes, u)) ->
    n ∈ nodes ->
    forall k, cf_parties C !! local = Some k -> e_pub E k <> Some (n_pub n).
Proof.
  intros E C local s o1 o2 o3 os round rounds nodes n Hinj Hf Hn k Hk Hpk.
  destruct (C37_no_self_blame _ _ _ _ _ _ _ _ _ _ _ _ Hf Hn) as (id & Hne & k' & Hk' & Hp & _).
  apply Hne. eapply Hinj; eassumption.
Qed.
Print Assumptions C37_own_key_not_named.
(** The same of what the drivers do on a timeout: whoever they add is another member. *)
Theorem C37_timeout_no_self_blame :
  forall E C local s s' o,
    ((exists last, keygenTimeout E C local last o s = Some s') \/
     (exists last, keysignTimeout E C local last o s = Some s')) ->
    forall n, n ∈ bl_nodes (s_blame s') ->
      n ∈ bl_nodes (s_blame s) \/ exists id, id <> local /\ blames E C id n.
Proof.
  intros E C local s s' o Hd n Hn.
  assert (Hall : Forall (old_or_other E C local s) (bl_nodes (s_blame s'))).
  { destruct Hd as [[[ty|] Hd]|[[[ty bc]|] Hd]]; cbn in Hd; try discriminate.
    - eapply timeout_not_self. exact Hd.
    - injection Hd as <-. apply Forall_forall. intros x Hx. left. exact Hx.
    - eapply timeout_not_self. exact Hd. }
  rewrite Forall_forall in Hall. exact (Hall n Hn).
Qed.
Print Assumptions C37_timeout_no_self_blame.

(** A node, "1", with the broadcasts of "2" but not of "3"; a keygen timeout then
    blames "3" only. *)
Definition b_orders : torders := TOrders [] [] [] [] [] [] [] [].
Definition b_state1 : state := set_stored (fun _ => b_stored [("2", "KGRound1Message")]) init_state.
Example C37_example :
  GetBroadcastBlame b_env (b_cfg 3 "1") "1" [] [] "KGRound1Message" b_state1 = BOk [plain "3"] /\
  (bl_nodes ∘ s_blame <$> keygenTimeout b_env (b_cfg 3 "1") "1" (Some "KGRound1Message") b_orders b_state1) = Some [plain "3"] /\
  (bl_nodes ∘ s_blame <$> keysignTimeout b_env (b_cfg 3 "1") "1" (Some ("KGRound1Message", true)) b_orders b_state1) = Some [plain "3"].
Proof. split_and!; vm_compute; reflexivity. Qed.

(** ** C38 *)
(** In every state reached by handling messages: no crash; nobody blamed if no
    broadcast of the round was confirmed; otherwise exactly the other members whose
    broadcast was not. *)
Theorem C38_broadcast_blame_exact :
  forall E C tr local o1 o2 round,
    (forall id k, cf_parties C !! id = Some k -> is_Some (e_pub E k)) ->
    let s := run E C tr in
    exists nodes, GetBroadcastBlame E C local o1 o2 round s = BOk nodes /\
      ((forall id, ~ confirmed s round id) -> nodes = []) /\
      ((exists id, confirmed s round id) ->
         blames_exactly E C (fun id => id <> local /\ ~ confirmed s round id) nodes).
Proof.
  intros E C tr local o1 o2 round Hpub s. apply broadcast_blame; [exact Hpub|].
  intros k w Hk. destruct (i_stored _ _ _ _ (inv_run E C tr) k w Hk) as (id & ((_ & Hs & _) & _) & _). eauto.
Qed.
Print Assumptions C38_broadcast_blame_exact.
(** Whoever counts as confirmed did send a signed broadcast of the round and it got
    its quorum of confirmations. *)
Theorem C38_confirmed_was_sent :
  forall E C tr round id,
    confirmed (run E C tr) round id ->
    exists w, w_round w = round /\ authentic E C (handled E C tr) w id /\ is_broadcast w /\
      has_quorum E C (handled E C tr) w id.
Proof.
  intros E C tr round id (k & w & Hk & Hr & Hs). exists w. split; [exact Hr|].
  destruct (i_stored _ _ _ _ (inv_run E C tr) k w Hk) as (id' & (Ha & Hb & _) & Hq).
  destruct Ha as (Hg & (to & bc & Hs') & Hsg). destruct Hs as (to' & bc' & Hs). rewrite Hs' in Hs.
  injection Hs as <- _ _. split; [|auto]. split; [exact Hg|]. split; [|exact Hsg]. exists to, bc. exact Hs'.
Qed.
Print Assumptions C38_confirmed_was_sent.
(** And a member whose broadcast of the round was handed to tss-lib is not blamed.
    (Party ids are decimal numbers, see C36.) *)
Theorem C38_applied_not_blamed :
  forall E C tr j id,
    (forall x, x ∈ dom (cf_parties C) -> no_dash x) ->
    j ∈ s_log (run E C tr) -> is_broadcast (j_wire j) -> sent_by (j_wire j) id ->
    confirmed (run E C tr) (w_round (j_wire j)) id.
Proof.
  intros E C tr j id Hnd Hj Hb Hs.
  destruct (k_jobs _ _ _ _ (kinv_run E C tr) j ltac:(rewrite !elem_of_app; auto) Hb id Hs) as [w Hw].
  exists (cache_key id (w_round (j_wire j))), w. split; [exact Hw|].
  destruct (i_stored _ _ _ _ (inv_run E C tr) _ w Hw) as (id' & ((_ & _ & (kb & Hkb & _)) & _ & (Hs' & Hname)) & _).
  destruct (i_log _ _ _ _ (inv_run E C tr) j Hj) as ((id2 & (_ & Hs2 & (kb2 & Hkb2 & _)) & _) & _).
  assert (id2 = id) by (destruct Hs as (? & ? & Hs), Hs2 as (? & ? & Hs2); congruence). subst id2.
  apply cache_key_inj in Hname as [<- <-]; [auto|apply Hnd, elem_of_dom; eauto|apply Hnd, elem_of_dom; eauto].
Qed.
Print Assumptions C38_applied_not_blamed.

(** Four nodes; "2" is the node; the broadcast of "1" is confirmed by "3" and applied:
    "3" and "4" are blamed. *)
Definition b_history : list label :=
  [LRecv [] [] "p1" (MShare TSSKeyGenMsg (Some (b_wire "1" true "KGRound1Message" "a")));
   LRecv [] [] "p3" (MVer TSSKeyGenVerMsg (Some (Confirm "" "1-KGRound1Message" "a"))); LLoop; LWork 0 None; LAccept 0; LFinish].
Example C38_example :
  let s := run b_env (b_cfg 4 "2") b_history in
  confirmed s "KGRound1Message" "1" /\ map (fun j => (j_from j, w_round (j_wire j))) (s_log s) = [("1", "KGRound1Message")] /\
  GetBroadcastBlame b_env (b_cfg 4 "2") "2" [] [] "KGRound1Message" s = BOk [plain "4"; plain "3"] /\
  GetBroadcastBlame b_env (b_cfg 4 "2") "2" [] [] "KGRound3Message" s = BOk [].
Proof.
  cbn zeta. split_and!; try (vm_compute; reflexivity).
  exists "1-KGRound1Message", (b_wire "1" true "KGRound1Message" "a").
  split; [vm_compute; reflexivity|]. split; [reflexivity|]. exists [], true. reflexivity.
Qed.

(** ** C39 *)
Theorem C39_unicast_blame_exact :
  forall E C local s o1 o2 o3 round,
    good_tables E C ->
    (s_unicast s = ∅ -> GetUnicastBlame E C local o1 o2 o3 round s = BOk []) /\
    (s_unicast s <> ∅ -> s_unicast s !! round = None -> exists e, GetUnicastBlame E C local o1 o2 o3 round s = BErr e) /\
    (is_Some (s_unicast s !! round) ->
       exists nodes, GetUnicastBlame E C local o1 o2 o3 round s = BOk nodes /\
         blames_exactly E C (fun id => id <> local /\ ~ unicast_seen C s round id) nodes).
Proof.
  intros E C local s o1 o2 o3 round HG. split_and!.
  - intros He. unfold GetUnicastBlame. rewrite decide_True by exact He. reflexivity.
  - intros Hne Hno. unfold GetUnicastBlame. rewrite decide_False by exact Hne. rewrite Hno. eauto.
  - intros [l Hl]. eapply unicast_blame; eassumption.
Qed.
Print Assumptions C39_unicast_blame_exact.
(** What was recorded, in terms of the messages handled: a member counts as seen only
    if a unicast of that round with its signature was received, and whoever sent one
    directly is seen. *)
Theorem C39_seen_was_sent :
  forall E C tr round id,
    good_tables E C -> unicast_seen C (run E C tr) round id ->
    exists w to, got (handled E C tr) w /\ w_round w = round /\
      w_routing w = Some (Routing (FId id) to false) /\ signed_by E C w id.
Proof.
  intros E C tr round id (_ & _ & Hinj) (l & p & Hl & Hp & Hin).
  destruct (k_uni _ _ _ _ (kinv_run E C tr) round l p Hl Hin) as (q & m & w & id' & Hh & Hc & (Hr & to & Hw) & Hsg & Hp').
  assert (id' = id) by (eapply Hinj; eassumption). subst id'. exists w, to. split; [exists q, m; auto|auto].
Qed.
Print Assumptions C39_seen_was_sent.
Theorem C39_sent_is_seen :
  forall E C tr q t w id to,
    good_tables E C -> handled E C tr q (MShare t (Some w)) ->
    w_routing w = Some (Routing (FId id) to false) -> signed_by E C w id ->
    unicast_seen C (run E C tr) (w_round w) id.
Proof.
  intros E C tr q t w id to (_ & Hdom & _) Hh Hw Hsg.
  assert (Hd : id ∈ dom (cf_id2peer C)) by (rewrite Hdom; apply elem_of_dom; destruct Hsg as (k & Hk & _); eauto).
  apply elem_of_dom in Hd as [p Hp].
  destruct (unicast_recorded E C tr q t w id p (w_round w) Hh) as (l & Hl & Hin); [split; eauto|exact Hsg|exact Hp|].
  exists l, p. auto.
Qed.
Print Assumptions C39_sent_is_seen.
Definition b_unicasts : list label :=
  [LRecv [] [] "p1" (MShare TSSKeyGenMsg (Some (b_wire "1" false "KGRound2Message1" "a"))); LLoop; LWork 0 None; LAccept 0; LFinish].
Example C39_example :
  let s := run b_env (b_cfg 3 "2") b_unicasts in
  good_tables b_env (b_cfg 3 "2") /\ is_Some (s_unicast s !! "KGRound2Message1") /\
  unicast_seen (b_cfg 3 "2") s "KGRound2Message1" "1" /\
  GetUnicastBlame b_env (b_cfg 3 "2") "2" [] [] [] "KGRound2Message1" s = BOk [plain "3"] /\
  GetUnicastBlame b_env (b_cfg 3 "2") "2" [] [] [] "KGRound2Message2" s = BErr "fail to find peers of the given msg type".
Proof.
  cbn zeta. split; [apply b_good3|]. split_and!; try (vm_compute; reflexivity).
  - exists ["p1"]. vm_compute. reflexivity.
  - exists ["p1"], "p1". split; [vm_compute; reflexivity|]. split; [vm_compute; reflexivity|]. left.
Qed.

(** ** C40 *)
Theorem C40_missing_share_blame_exact :
  forall E C local s name rounds o1 o2 os m,
    good_tables E C -> is_Some (cf_parties C !! local) ->
    orderly_shares C local s name rounds ->
    has_shares s name m -> (forall m', has_shares s name m' -> m' = m) ->
    forall i, i < rounds -> first_incomplete C local s name m i ->
    exists nodes u, TssMissingShareBlame E C local o1 o2 os rounds s = BOk (nodes, u) /\
      blames_exactly E C (fun id => id <> local /\ ~ share_in s name m i id) nodes /\
      (u = true <-> unicast_round rounds i).
Proof.
  intros E C local s name rounds o1 o2 os m HG Hloc HO Hm Honly i Hi Hfi.
  destruct (missing_single E C local s name rounds HG Hloc HO o1 o2 os m Hm Honly) as (nodes & u & Heq & Hinc & _).
  exists nodes, u. split; [exact Heq|]. apply (Hinc i Hi Hfi).
Qed.
Print Assumptions C40_missing_share_blame_exact.
(** Without any accepted share nobody is blamed. *)
Theorem C40_no_shares_no_blame :
  forall E C local s rounds o1 o2 os,
    s_accepted s = ∅ -> TssMissingShareBlame E C local o1 o2 os rounds s = BOk ([], false).
Proof.
  intros E C local s rounds o1 o2 os He. unfold TssMissingShareBlame. rewrite He, map_to_list_empty.
  assert (Hn : forall A o, permute o (@nil A) = []) by (intros A [|? ?]; reflexivity).
  rewrite Hn. cbn [group_shares]. rewrite map_to_list_empty, Hn. reflexivity.
Qed.
Print Assumptions C40_no_shares_no_blame.

(** Deciding the premises on a concrete list of accepted shares. *)
Lemma b_acc_elem l i nm m v : b_accepted l !! (i, nm, m) = Some v -> ((i, nm, m), v) ∈ l.
Proof. unfold b_accepted. intros Hl. apply elem_of_list_to_map_2 in Hl. exact Hl. Qed.

(** A keygen of three; node "1"; everybody's first share, the second one of "2" only. *)
Definition b_shares : list (roundinfo * list string) :=
  [((0, "KGRound1Message", "s"), ["2"; "3"]); ((1, "KGRound2Message1", "s"), ["2"])].
Definition b_state2 : state := set_accepted (fun _ => b_accepted b_shares) init_state.
Lemma b_other3 (id : string) : other (b_cfg 3 "1") "1" id <-> id = "2" \/ id = "3".
Proof.
  split.
  - intros [[k Hk] Hne].
    change (cf_parties (b_cfg 3 "1")) with (list_to_map (map (fun i => (i, to_bytes i)) (b_ids 3)) : gmap string bytes) in Hk.
    apply elem_of_list_to_map_2 in Hk.
    cbn in Hk. repeat (apply elem_of_cons in Hk as [Hk|Hk]; [injection Hk as Hk _; vm_compute in Hk; auto; congruence|]).
    inversion Hk.
  - intros [-> | ->]; (split; [eexists; vm_compute; reflexivity|discriminate]).
Qed.
Example C40_example :
  good_tables b_env (b_cfg 3 "1") /\ orderly_shares (b_cfg 3 "1") "1" b_state2 kg_name 4 /\
  has_shares b_state2 kg_name "s" /\ (forall m', has_shares b_state2 kg_name m' -> m' = "s") /\
  first_incomplete (b_cfg 3 "1") "1" b_state2 kg_name "s" 1 /\
  TssMissingShareBlame b_env (b_cfg 3 "1") "1" [] [] [] 4 b_state2 = BOk ([plain "3"], true).
Proof.
  assert (Hin : forall i nm m v, s_accepted b_state2 !! (i, nm, m) = Some v -> ((i, nm, m), v) ∈ b_shares)
    by (intros i nm m v Hv; apply b_acc_elem; exact Hv).
  split; [apply b_good3|]. split_and!.
  - intros i nm m l Hl. apply Hin in Hl. apply elem_of_cons in Hl as [Hl|Hl]; [|apply elem_of_list_singleton in Hl];
      injection Hl as -> -> -> ->; (split; [lia|]); (split; [reflexivity|]).
    + split; [apply (bool_decide_unpack (NoDup ["2"; "3"])); vm_compute; exact I|].
      intros id Hid. apply b_other3. apply elem_of_cons in Hid as [-> | Hid]; [auto|]. apply elem_of_list_singleton in Hid. auto.
    + split; [apply NoDup_singleton|]. intros id Hid. apply b_other3. apply elem_of_list_singleton in Hid. auto.
  - exists 0, ["2"; "3"]. vm_compute. reflexivity.
  - intros m' (i & l & Hl). apply Hin in Hl. apply elem_of_cons in Hl as [Hl|Hl]; [congruence|].
    apply elem_of_list_singleton in Hl. congruence.
  - split.
    + intros j Hj id Hid. assert (j = 0) by lia. subst j. exists ["2"; "3"]. split; [vm_compute; reflexivity|].
      apply b_other3 in Hid as [-> | ->]; [left|right; left].
    + exists "3". split; [apply b_other3; auto|]. intros (l & Hl & Hid). apply Hin in Hl.
      apply elem_of_cons in Hl as [Hl|Hl]; [discriminate|]. apply elem_of_list_singleton in Hl.
      injection Hl as ->. apply elem_of_list_singleton in Hid. discriminate.
  - vm_compute. reflexivity.
Qed.

(** ** C83 *)
(** In a batch a party whose share of one message is missing escapes if its share of
    another message came: the peers exonerated by one message stay exonerated. Node
    "1"; message "s" lacks the share of "3", message "t" the one of "2"; whichever
    message is looked at first, one of the two is not blamed, and the order of the map
    iteration decides which. *)
Definition b_batch : list (roundinfo * list string) :=
  [((0, "SignRound1Message1", "s"), ["2"]); ((0, "SignRound1Message1", "t"), ["3"])].
Definition b_state3 : state := set_accepted (fun _ => b_accepted b_batch) init_state.
Definition blames_all_missing : Prop :=
  forall E C local s name rounds o1 o2 os nodes u,
    good_tables E C -> is_Some (cf_parties C !! local) -> orderly_shares C local s name rounds ->
    TssMissingShareBlame E C local o1 o2 os rounds s = BOk (nodes, u) ->
    forall m i id, has_shares s name m -> i < rounds -> first_incomplete C local s name m i ->
      other C local id -> ~ share_in s name m i id -> exists n, n ∈ nodes /\ blames E C id n.
Lemma b_batch_orderly : orderly_shares (b_cfg 3 "1") "1" b_state3 ks_name 8.
Proof.
  intros i nm m l Hl. apply b_acc_elem in Hl. apply elem_of_cons in Hl as [Hl|Hl]; [|apply elem_of_list_singleton in Hl];
    injection Hl as -> -> -> ->; (split; [lia|]); (split; [reflexivity|]); (split; [apply NoDup_singleton|]);
    intros id Hid; apply elem_of_list_singleton in Hid as ->; apply b_other3; auto.
Qed.
Lemma b_batch_share i m id : share_in b_state3 ks_name m i id -> (m = "s" /\ id = "2") \/ (m = "t" /\ id = "3").
Proof.
  intros (l & Hl & Hid). apply b_acc_elem in Hl. apply elem_of_cons in Hl as [Hl|Hl]; [|apply elem_of_list_singleton in Hl];
    injection Hl as _ _ -> ->; apply elem_of_list_singleton in Hid as ->; auto.
Qed.
Lemma b_batch_first m id : (m = "s" /\ id = "3") \/ (m = "t" /\ id = "2") ->
  has_shares b_state3 ks_name m /\ first_incomplete (b_cfg 3 "1") "1" b_state3 ks_name m 0 /\
  other (b_cfg 3 "1") "1" id /\ ~ share_in b_state3 ks_name m 0 id.
Proof.
  intros Hm. assert (Hno : ~ share_in b_state3 ks_name m 0 id).
  { intros Hs. apply b_batch_share in Hs. destruct Hm as [[-> ->]|[-> ->]]; destruct Hs as [[? ?]|[? ?]]; discriminate. }
  assert (Hoth : other (b_cfg 3 "1") "1" id) by (apply b_other3; destruct Hm as [[_ ->]|[_ ->]]; auto).
  split_and!; [| |exact Hoth|exact Hno].
  - destruct Hm as [[-> _]|[-> _]]; [exists 0, ["2"]|exists 0, ["3"]]; vm_compute; reflexivity.
  - split; [intros j Hj; lia|]. exists id. auto.
Qed.
Theorem C83_batch_blames_all_missing_refuted : ~ blames_all_missing.
Proof.
  intros Hall.
  assert (Hl1 : is_Some (cf_parties (b_cfg 3 "1") !! "1")) by (exists (to_bytes "1"); vm_compute; reflexivity).
  destruct (b_batch_first "t" "2" ltac:(auto)) as (Hh & Hf & Ho & Hn).
  assert (Hrun : TssMissingShareBlame b_env (b_cfg 3 "1") "1" [] [] [] 8 b_state3 = BOk ([plain "3"], true) \/
                 TssMissingShareBlame b_env (b_cfg 3 "1") "1" [] [1] [] 8 b_state3 = BOk ([plain "3"], true))
    by (vm_compute; auto).
  assert (Hex : exists n, n ∈ [plain "3"] /\ blames b_env (b_cfg 3 "1") "2" n).
  { destruct Hrun as [Hrun|Hrun];
      (eapply (Hall _ _ _ _ _ _ _ _ _ _ _ (b_good3 "1") Hl1 b_batch_orderly Hrun "t" 0);
       [exact Hh|lia|exact Hf|exact Ho|exact Hn]). }
  destruct Hex as (n & Hin & k & Hk & Hp & _). apply elem_of_list_singleton in Hin as ->.
  assert (Hk2 : cf_parties (b_cfg 3 "1") !! "2" = Some (to_bytes "2")) by (vm_compute; reflexivity).
  rewrite Hk2 in Hk. injection Hk as <-. vm_compute in Hp. discriminate.
Qed.
Print Assumptions C83_batch_blames_all_missing_refuted.
(** The same state, two iteration orders, two different culprits. *)
Theorem C83_blame_depends_on_iteration_order_refuted :
  ~ (forall E C local s rounds o1 o2 os o1' o2' os',
       TssMissingShareBlame E C local o1 o2 os rounds s = TssMissingShareBlame E C local o1' o2' os' rounds s).
Proof.
  intros Hall. specialize (Hall b_env (b_cfg 3 "1") "1" b_state3 8 [] [] [] [] [1] []). vm_compute in Hall. discriminate.
Qed.
Print Assumptions C83_blame_depends_on_iteration_order_refuted.

(** ** C84 *)
(** What does hold for batches in which every message lacks some share: whoever is
    blamed did miss a share of the first incomplete round of some message; whoever
    missed it in every message is blamed; the unicast flag is set exactly if some
    message stopped in a unicast round. *)
Theorem C84_batch_blame_sound :
  forall E C local s name rounds o1 o2 os,
    good_tables E C -> is_Some (cf_parties C !! local) -> orderly_shares C local s name rounds ->
    (forall m, has_shares s name m -> exists i, i < rounds /\ first_incomplete C local s name m i) ->
    exists nodes u, TssMissingShareBlame E C local o1 o2 os rounds s = BOk (nodes, u) /\
      (forall n, n ∈ nodes -> exists id m i, has_shares s name m /\ other C local id /\ blames E C id n /\
         first_incomplete C local s name m i /\ ~ share_in s name m i id) /\
      (forall id, other C local id -> (exists m, has_shares s name m) ->
         (forall m i, has_shares s name m -> first_incomplete C local s name m i -> ~ share_in s name m i id) ->
         exists n, n ∈ nodes /\ blames E C id n) /\
      (u = true <-> exists m i, has_shares s name m /\ i < rounds /\ first_incomplete C local s name m i /\ unicast_round rounds i).
Proof. intros. apply missing_batch; assumption. Qed.
Print Assumptions C84_batch_blame_sound.
Example C84_example :
  orderly_shares (b_cfg 3 "1") "1" b_state3 ks_name 8 /\
  (forall m, has_shares b_state3 ks_name m -> exists i, i < 8 /\ first_incomplete (b_cfg 3 "1") "1" b_state3 ks_name m i).
Proof.
  split; [exact b_batch_orderly|]. intros m (i & l & Hl). exists 0. split; [lia|]. apply b_acc_elem in Hl.
  apply elem_of_cons in Hl as [Hl|Hl]; [|apply elem_of_list_singleton in Hl]; injection Hl as _ _ -> _;
    [apply (b_batch_first "s" "3"); auto|apply (b_batch_first "t" "2"); auto].
Qed.

(** ** C85 *)
(** When all shares of all rounds came, everybody else is blamed. *)
Theorem C85_complete_ceremony_blames_everybody :
  forall E C local s name rounds o1 o2 os m,
    good_tables E C -> is_Some (cf_parties C !! local) -> orderly_shares C local s name rounds ->
    has_shares s name m -> (forall m', has_shares s name m' -> m' = m) ->
    (forall i, i < rounds -> round_complete C local s name m i) ->
    exists nodes, TssMissingShareBlame E C local o1 o2 os rounds s = BOk (nodes, false) /\
      blames_exactly E C (fun id => id <> local) nodes.
Proof.
  intros E C local s name rounds o1 o2 os m HG Hloc HO Hm Honly Hall.
  destruct (missing_single E C local s name rounds HG Hloc HO o1 o2 os m Hm Honly) as (nodes & u & Heq & _ & Hc).
  destruct (Hc Hall) as [Hb ->]. exists nodes. auto.
Qed.
Print Assumptions C85_complete_ceremony_blames_everybody.
(** So the claim that nobody is blamed unless a share is missing is false; in a party
    of two the driver does report it. *)
Definition b_full : list (roundinfo * list string) :=
  map (fun i => ((i, kg_name i, "s"), ["2"])) (seq 0 4).
Definition b_state4 : state := set_accepted (fun _ => b_accepted b_full) init_state.
Theorem C85_nobody_blamed_if_nothing_missing_refuted :
  ~ (forall E C local s s' name last o,
       good_tables E C -> orderly_shares C local s name 4 -> bl_nodes (s_blame s) = [] ->
       (forall i m, i < 4 -> has_shares s name m -> round_complete C local s name m i) ->
       keygenTimeout E C local last o s = Some s' -> bl_nodes (s_blame s') = []).
Proof.
  intros Hall.
  assert (Hoth : forall id, other (b_cfg 2 "1") "1" id <-> id = "2").
  { intros id. split.
    - intros [[k Hk] Hne].
      change (cf_parties (b_cfg 2 "1")) with (list_to_map (map (fun i => (i, to_bytes i)) (b_ids 2)) : gmap string bytes) in Hk.
      apply elem_of_list_to_map_2 in Hk. cbn in Hk.
      repeat (apply elem_of_cons in Hk as [Hk|Hk]; [injection Hk as Hk _; vm_compute in Hk; auto; congruence|]).
      inversion Hk.
    - intros ->. split; [eexists; vm_compute; reflexivity|discriminate]. }
  assert (Hin : forall i nm m v, s_accepted b_state4 !! (i, nm, m) = Some v -> i < 4 /\ nm = kg_name i /\ m = "s" /\ v = ["2"]).
  { intros i nm m v Hv. apply b_acc_elem in Hv. apply elem_of_list_fmap in Hv as (i' & Heq & Hi').
    injection Heq as -> -> -> ->. apply elem_of_seq in Hi'. split; [lia|auto]. }
  assert (Hr : exists s', keygenTimeout b_env (b_cfg 2 "1") "1" (Some "KGRound3Message") b_orders b_state4 = Some s' /\
                 bl_nodes (s_blame s') = [plain "2"]).
  { eexists. split; vm_compute; reflexivity. }
  destruct Hr as (s' & Hr & Hb). rewrite (Hall b_env (b_cfg 2 "1") "1" b_state4 s' kg_name (Some "KGRound3Message") b_orders) in Hb; [discriminate| | |reflexivity| |exact Hr].
  - apply b_good. apply (bool_decide_unpack (NoDup (map snd (map_to_list (cf_id2peer (b_cfg 2 "1")))))). vm_compute. exact I.
  - intros i nm m l Hl. destruct (Hin _ _ _ _ Hl) as (Hi & -> & -> & ->). split; [exact Hi|]. split; [reflexivity|].
    split; [apply NoDup_singleton|]. intros id Hid. apply elem_of_list_singleton in Hid. apply Hoth. exact Hid.
  - intros i m Hi (i' & l & Hl) id Hid. apply Hoth in Hid as ->. destruct (Hin _ _ _ _ Hl) as (_ & _ & -> & _).
    exists ["2"]. split; [|left]. destruct i as [|[|[|[|i]]]]; try lia; vm_compute; reflexivity.
Qed.
Print Assumptions C85_nobody_blamed_if_nothing_missing_refuted.

(** ** C86 *)
(** A keygen timeout never crashes: false. A member sends a signed share of the last
    signing round; tss-lib ignores the message without an error and the share counts as
    accepted in round 8 of 4. *)
Definition b_attack : list label :=
  [LRecv [] [] "p1" (MShare TSSKeyGenMsg (Some (b_wire "1" false "KGRound1Message" "8"))); LLoop; LWork 0 None; LAccept 0; LFinish].
Theorem C86_keygen_timeout_never_crashes_refuted :
  ~ (forall E C tr local last o, good_tables E C ->
       s_crash (run E C tr) = false -> keygenTimeout E C local last o (run E C tr) <> None).
Proof.
  intros Hall. apply (Hall b_env (b_cfg 3 "2") b_attack "2" (Some "KGRound1Message") b_orders (b_good3 "2"));
    vm_compute; reflexivity.
Qed.
Print Assumptions C86_keygen_timeout_never_crashes_refuted.
(** ** C126. The only way a keygen timeout can crash after any history of messages. *)
Theorem C126_keygen_timeout_crash_cause :
  forall E C tr local last o,
    keygenTimeout E C local last o (run E C tr) = None ->
    exists i nm m l, s_accepted (run E C tr) !! (i, nm, m) = Some l /\ 4 <= i.
Proof.
  intros E C tr local last o Hk. destruct last as [ty|]; [|discriminate]. cbn [keygenTimeout] in Hk.
  eapply timeout_crash; [|exact Hk].
  intros k w Hw. destruct (i_stored _ _ _ _ (inv_run E C tr) k w Hw) as (id & ((_ & Hs & _) & _) & _). eauto.
Qed.
Print Assumptions C126_keygen_timeout_crash_cause.

(** ** C56 *)
(** A keysign timeout never crashes: false when no message was produced yet. *)
Theorem C56_keysign_timeout_never_crashes_refuted :
  ~ (forall E C tr local last o, good_tables E C -> keysignTimeout E C local last o (run E C tr) <> None).
Proof. intros Hall. apply (Hall b_env (b_cfg 3 "2") [] "2" None b_orders (b_good3 "2")). reflexivity. Qed.
Print Assumptions C56_keysign_timeout_never_crashes_refuted.

(** ** C87 *)
(** That is the only way: once the local party produced a message, a keysign timeout
    ends with a report after every history of messages, malicious ones included. *)
Theorem C87_keysign_timeout_no_crash_after_first_message :
  forall E C tr local ty bcast o,
    exists s', keysignTimeout E C local (Some (ty, bcast)) o (run E C tr) = Some s'.
Proof.
  intros E C tr local ty bcast o.
  destruct (keysignTimeout E C local (Some (ty, bcast)) o (run E C tr)) as [s'|] eqn:Hk; [eauto|exfalso].
  cbn [keysignTimeout] in Hk. apply timeout_crash in Hk.
  - destruct Hk as (i & nm & m & l & Hl & Hi). destruct (accepted_index E C tr i nm m l Hl) as [c Hc].
    unfold TSSKEYSIGNROUNDS in Hi. destruct c; try discriminate Hc; injection Hc as <- _; lia.
  - intros k w Hw. destruct (i_stored _ _ _ _ (inv_run E C tr) k w Hw) as (id & ((_ & Hs & _) & _) & _). eauto.
Qed.
Print Assumptions C87_keysign_timeout_no_crash_after_first_message.
Example C87_example :
  (bl_nodes ∘ s_blame <$> keysignTimeout b_env (b_cfg 3 "2") "2" (Some ("SignRound1Message1", false)) b_orders (run b_env (b_cfg 3 "2") b_attack))
  = Some [].
Proof. vm_compute. reflexivity. Qed.

(** ** C64 *)
Theorem C64_add_blame_nodes :
  forall ns b,
    bl_reason (AddBlameNodes ns b) = bl_reason b /\ bl_unicast (AddBlameNodes ns b) = bl_unicast b /\
    exists added, bl_nodes (AddBlameNodes ns b) = bl_nodes b ++ added /\
      (forall n, n ∈ added -> n ∈ ns) /\
      (forall n, n ∈ ns -> exists n', n' ∈ bl_nodes (AddBlameNodes ns b) /\ same_node n n') /\
      (forall i j x y, added !! i = Some x -> (bl_nodes b ++ added) !! j = Some y -> same_node x y -> j = length (bl_nodes b) + i).
Proof.
  intros ns b. split; [reflexivity|]. split; [reflexivity|]. cbn [AddBlameNodes bl_nodes].
  destruct (add_nodes_fresh ns (bl_nodes b)) as (added & Hf & Hin & Hall & Hd). exists added. rewrite Hf. auto.
Qed.
Print Assumptions C64_add_blame_nodes.
Theorem C64_no_duplicates_created :
  forall ns b,
    (forall i j x y, bl_nodes b !! i = Some x -> bl_nodes b !! j = Some y -> same_node x y -> i = j) ->
    forall i j x y, bl_nodes (AddBlameNodes ns b) !! i = Some x -> bl_nodes (AddBlameNodes ns b) !! j = Some y ->
      same_node x y -> i = j.
Proof.
  intros ns b Hd. cbn [AddBlameNodes bl_nodes]. destruct (add_nodes_spec ns (bl_nodes b)) as (added & Hf & _ & _ & Hdd & _).
  rewrite Hf. apply Hdd. exact Hd.
Qed.
Print Assumptions C64_no_duplicates_created.
Theorem C64_set_blame_keeps :
  forall r ns u b, bl_nodes (SetBlame r ns u b) = bl_nodes b ++ ns /\ bl_reason (SetBlame r ns u b) = r /\ bl_unicast (SetBlame r ns u b) = u.
Proof. intros. auto. Qed.
Print Assumptions C64_set_blame_keeps.
Example C64_example :
  bl_nodes (AddBlameNodes [Node "b" (to_bytes "y") []; plain "c"; Node "a" [] (to_bytes "s"); plain "c"] (Blame "" false [plain "a"; plain "b"]))
  = [plain "a"; plain "b"; plain "c"; Node "a" [] (to_bytes "s")].
Proof. vm_compute. reflexivity. Qed.

(** ** C65 *)
Theorem C65_node_sync_blame_exact :
  forall peer_of keys online,
    ((forall k, k ∈ keys -> is_Some (peer_of k)) ->
       NodeSyncBlame peer_of keys online =
         BOk (Blame "signers fail to sync before keygen/keysign" false
                (map (fun k => Node k [] []) (filter (fun k => forall p, peer_of k = Some p -> p ∉ online) keys)))) /\
    ((exists k, k ∈ keys /\ peer_of k = None) -> exists e, NodeSyncBlame peer_of keys online = BErr e).
Proof. intros peer_of keys online. split; [apply sync_ok|apply sync_err]. Qed.
Print Assumptions C65_node_sync_blame_exact.
Example C65_example :
  NodeSyncBlame (fun k => Some (String.append "p" k)) ["a"; "b"; "c"; "b"] ["pc"; "pa"] =
    BOk (Blame "signers fail to sync before keygen/keysign" false [plain "b"; plain "b"]).
Proof. vm_compute. reflexivity. Qed.

(** ** C93 *)
(** When no broadcast of the round was confirmed, so that unicasts and missing shares
    decide, a timeout reports fewer than two thirds of the party. *)
Theorem C93_timeout_blames_a_minority :
  forall E C tr local o s',
    (forall id k, cf_parties C !! id = Some k -> is_Some (e_pub E k)) ->
    bl_nodes (s_blame (run E C tr)) = [] ->
    (exists ty, (forall id, ~ confirmed (run E C tr) ty id) /\
       (keygenTimeout E C local (Some ty) o (run E C tr) = Some s' \/
        exists bc, keysignTimeout E C local (Some (ty, bc)) o (run E C tr) = Some s')) ->
    3 * length (bl_nodes (s_blame s')) < 2 * (length (cf_peers C) + 1).
Proof.
  intros E C tr local o s' Hpub H0 (ty & Hno & Ht).
  assert (Hb : forall o1 o2, GetBroadcastBlame E C local o1 o2 ty (run E C tr) = BOk []).
  { intros o1 o2. destruct (C38_broadcast_blame_exact E C tr local o1 o2 ty Hpub) as (nodes & -> & Hn & _).
    rewrite (Hn Hno). reflexivity. }
  assert (Hle : length (bl_nodes (s_blame s')) <= peers_threshold C).
  { destruct Ht as [Ht|[bc Ht]]; eapply timeout_bounded; eauto. }
  unfold peers_threshold, threshold_of in Hle.
  pose proof (Z.mul_div_le (2 * Z.of_nat (length (cf_peers C) + 1) + 2) 3 ltac:(lia)). lia.
Qed.
Print Assumptions C93_timeout_blames_a_minority.

(** Six nodes; "2" got a unicast of "1" only (one of six: too many would be blamed), or
    of "1", "3" and "4". *)
Definition b_uni (from : string) : list label :=
  [LRecv [] [] (String.append "p" from) (MShare TSSKeyGenMsg (Some (b_wire from false "KGRound2Message1" "a"))); LLoop; LWork 0 None; LAccept 0; LFinish].
Example C93_example :
  let run1 := run b_env (b_cfg 6 "2") (b_uni "1") in
  let run3 := run b_env (b_cfg 6 "2") (b_uni "1" ++ b_uni "3" ++ b_uni "4") in
  bl_nodes (s_blame run1) = [] /\ s_stored run1 = ∅ /\
  (bl_nodes ∘ s_blame <$> keygenTimeout b_env (b_cfg 6 "2") "2" (Some "KGRound3Message") b_orders run1) = Some [] /\
  (bl_nodes ∘ s_blame <$> keygenTimeout b_env (b_cfg 6 "2") "2" (Some "KGRound3Message") b_orders run3) = Some [plain "6"; plain "5"].
Proof.
  cbn zeta. split; [vm_compute; reflexivity|]. split; [apply map_size_empty_iff; vm_compute; reflexivity|].
  split; vm_compute; reflexivity.
Qed.

(** ** C94 *)
(** A report that blames somebody after a timeout should carry a reason. When the
    blame comes from the broadcasts, or from the missing shares, it does not. *)
Theorem C94_timeout_report_has_reason_refuted :
  exists E C local ty o s s', good_tables E C /\ s_blame s = Blame "" false [] /\
    keygenTimeout E C local (Some ty) o s = Some s' /\
    bl_nodes (s_blame s') <> [] /\ bl_reason (s_blame s') = "".
Proof.
  exists b_env, (b_cfg 3 "1"), "1", "KGRound1Message", b_orders, b_state1.
  assert (H : (fun s => (bl_nodes (s_blame s), bl_reason (s_blame s))) <$>
    keygenTimeout b_env (b_cfg 3 "1") "1" (Some "KGRound1Message") b_orders b_state1 = Some ([plain "3"], "")) by (vm_compute; reflexivity).
  apply fmap_Some in H as (s' & Hs' & H). injection H as H1 H2. exists s'.
  split; [apply b_good3|]. split; [reflexivity|]. split; [exact Hs'|]. split; [rewrite <- H1; discriminate|auto].
Qed.
Print Assumptions C94_timeout_report_has_reason_refuted.
