(** Lemmas: the join-party machine and its invariant. *)
From Coq Require Import ZArith NArith Ascii String List Lia.
From stdpp Require Import base list strings gmap.
From Verif Require Import Base L_Base M_Conv M_Join S_Join.

(** ** Groups *)
Lemma dat_loop_lookup me ps d p :
  dat_loop ps me d !! p =
  if decide (p ∈ ps /\ p <> me) then Some false else d !! p.
Proof.
  revert d. induction ps as [|el ps IH]; intros d; cbn [dat_loop].
  - rewrite decide_False; [reflexivity|]. intros [H%elem_of_nil _]. exact H.
  - rewrite IH. destruct (decide (p ∈ ps /\ p <> me)) as [Hp|Hp].
    + rewrite decide_True; [reflexivity|]. set_solver.
    + destruct (decide (el = me)) as [->|Hel].
      * destruct (decide (p ∈ me :: ps /\ p <> me)) as [Hq|Hq]; [|reflexivity]. exfalso. set_solver.
      * destruct (decide (el = p)) as [->|Hne].
        -- rewrite lookup_insert, decide_True; [reflexivity|]. set_solver.
        -- rewrite lookup_insert_ne by congruence.
           destruct (decide (p ∈ el :: ps /\ p <> me)) as [Hq|Hq]; [|reflexivity]. exfalso. set_solver.
Qed.
Lemma new_members ps me l t p :
  g_members (NewPeerStatus ps me l t) !! p = if decide (p ∈ ps /\ p <> me) then Some false else None.
Proof. cbn. rewrite dat_loop_lookup, lookup_empty. reflexivity. Qed.

Notation online := (getOnline []).
Lemma permute_nil {A} (l : list A) : permute [] l = l.
Proof. destruct l; reflexivity. Qed.
Lemma getOnline_perm ord g : getOnline ord g ≡ₚ online g.
Proof. unfold getOnline. rewrite permute_nil. apply permute_perm. Qed.
Lemma elem_of_online ord g p : p ∈ getOnline ord g <-> g_members g !! p = Some true.
Proof.
  rewrite getOnline_perm. unfold getOnline. rewrite permute_nil. rewrite elem_of_list_In, in_map_iff. split.
  - intros ([q b] & Hq & Hin). apply filter_In in Hin as [Hin Hb]. cbn in *. subst q b.
    apply elem_of_list_In, elem_of_map_to_list in Hin. exact Hin.
  - intros H. exists (p, true). split; [reflexivity|]. apply filter_In. split; [|reflexivity].
    apply elem_of_list_In, elem_of_map_to_list, H.
Qed.
Lemma online_nodup ord g : NoDup (getOnline ord g).
Proof.
  rewrite getOnline_perm. unfold getOnline. rewrite permute_nil.
  pose proof (NoDup_fst_map_to_list (g_members g)) as Hnd.
  induction (map_to_list (g_members g)) as [|[p b] l IH]; [constructor|]. cbn in Hnd.
  apply NoDup_cons in Hnd as [Hni Hnd]. cbn. destruct b; [|auto]. cbn. apply NoDup_cons. split; [|auto].
  intros Hin. apply Hni. rewrite elem_of_list_In, in_map_iff in Hin. destruct Hin as (x & Hx & Hin).
  apply filter_In in Hin as [Hin _]. apply elem_of_list_fmap. exists x.
  split; [auto|]. apply elem_of_list_In, Hin.
Qed.
Lemma online_insert g p :
  g_members g !! p = Some false ->
  online (g_set_members (<[p := true]> (g_members g)) g) ≡ₚ p :: online g.
Proof.
  intros Hp. apply NoDup_Permutation.
  - apply online_nodup.
  - apply NoDup_cons. split; [|apply online_nodup]. rewrite elem_of_online. congruence.
  - intros x. rewrite elem_of_cons, !elem_of_online. cbn [g_set_members g_members].
    destruct (decide (x = p)) as [->|Hne].
    + rewrite lookup_insert. tauto.
    + rewrite lookup_insert_ne by congruence. split; [tauto|]. intros [->|H]; [congruence|exact H].
Qed.
Lemma online_ext g g' : g_members g = g_members g' -> online g = online g'.
Proof. unfold getOnline. intros ->. reflexivity. Qed.

Lemma coordination g : getCoordinationStatus g = true <-> forall p b, g_members g !! p = Some b -> b = true.
Proof.
  unfold getCoordinationStatus. rewrite forallb_forall. split.
  - intros H p b Hp. apply (H (p, b)). apply elem_of_list_In, elem_of_map_to_list, Hp.
  - intros H [p b] Hin. apply elem_of_list_In, elem_of_map_to_list in Hin. apply (H p b Hin).
Qed.

(** What updatePeer does. *)
Lemma updatePeer_cases p g g' r :
  updatePeer p g = (g', r) ->
  (g' = g /\ (r = None -> g_members g !! p = None) /\ r <> Some true /\
     (g_members g !! p = Some false -> g_leader g <> "NONE"%string /\ (g_threshold g <= g_count g)%Z)) \/
  (g_members g !! p = Some false /\ g_leader g = "NONE"%string /\ r = Some true /\
     g' = g_set_members (<[p := true]> (g_members g)) g) \/
  (g_members g !! p = Some false /\ g_leader g <> "NONE"%string /\ (g_count g < g_threshold g)%Z /\
     r = Some (Z.leb (g_threshold g) (g_count g + 1)) /\
     g' = g_set_count (g_count g + 1) (g_set_members (<[p := true]> (g_members g)) g)).
Proof.
  unfold updatePeer. destruct (g_members g !! p) as [[|]|] eqn:E.
  - destruct (decide (g_leader g = "NONE"%string)) as [Hl|Hl].
    + intros [= <- <-]. left. repeat split; congruence.
    + destruct (Z.leb_spec (g_threshold g) (g_count g)); intros [= <- <-]; left; repeat split; congruence.
  - destruct (decide (g_leader g = "NONE"%string)) as [Hl|Hl].
    + intros [= <- <-]. right; left. auto.
    + destruct (Z.leb_spec (g_threshold g) (g_count g)); intros [= <- <-].
      * left. repeat split; try congruence; try assumption.
      * right; right. repeat split; auto.
  - intros [= <- <-]. left. repeat split; congruence.
Qed.

(** ** Counting the handlers about to send to the channels of a group *)
Definition targets (j : nat) (x : jhandler) : bool :=
  match x with HNotify g | HNewFound g => Nat.eqb g j | _ => false end.
Definition b2n (b : bool) : nat := if b then 1 else 0.
Definition pend (j : nat) (hs : gmap nat jhandler) : nat :=
  length (List.filter (fun x => targets j (snd x)) (map_to_list hs)).

Lemma pend_perm j (l l' : list (nat * jhandler)) :
  l ≡ₚ l' -> length (List.filter (fun x => targets j (snd x)) l) = length (List.filter (fun x => targets j (snd x)) l').
Proof.
  induction 1 as [| [k x] l l' _ IH | [k x] [k' x'] l | l1 l2 l3 _ IH1 _ IH2]; cbn; try lia.
  - destruct (targets j x); cbn; lia.
  - destruct (targets j x), (targets j x'); cbn; lia.
Qed.
Lemma pend_insert j hs h x : hs !! h = None -> pend j (<[h := x]> hs) = b2n (targets j x) + pend j hs.
Proof.
  intros H. unfold pend. rewrite (pend_perm j _ _ (map_to_list_insert hs h x H)). cbn [List.filter snd].
  destruct (targets j x); reflexivity.
Qed.
Lemma pend_delete j hs h x : hs !! h = Some x -> pend j hs = b2n (targets j x) + pend j (delete h hs).
Proof.
  intros H. rewrite <- (pend_insert j (delete h hs) h x) by apply lookup_delete.
  rewrite insert_delete by exact H. reflexivity.
Qed.
Lemma pend_replace j hs h x y : hs !! h = Some x ->
  b2n (targets j x) + pend j (<[h := y]> hs) = b2n (targets j y) + pend j hs.
Proof.
  intros H. rewrite (pend_delete j hs h x H). rewrite (pend_delete j (<[h := y]> hs) h y) by apply lookup_insert.
  rewrite delete_insert_delete. lia.
Qed.

(** ** The invariant *)
Section inv.
  Context (sha : bytes -> string) (peerDecode : string -> option string) (me : string).
  Hypothesis me_ok : me <> "NONE"%string.
  Notation run := (jrun sha peerDecode me).
  Notation step := (jstep sha peerDecode me).

  Definition asked (g : group) (p : string) : Prop := exists m, (p, m) ∈ g_in g /\ is_request m.
  Definition said (g : group) (lm : leadermsg) : Prop :=
    (g_leader g, InLeader lm) ∈ g_in g /\ lm_msgtype lm = "response"%string.

  Definition role_ok (c : jcall) (g : group) : Prop :=
    match jc_role c with
    | RLeader pids => g_leader g = me /\ g_threshold g = jc_threshold c /\ g_cap g = length pids /\
        forall p, is_Some (g_members g !! p) <-> p ∈ pids /\ p <> me
    | RMember l => g_leader g = l /\ g_cap g = 1
    | RLeaderless pids => g_leader g = "NONE"%string /\ g_cap g = length pids /\
        forall p, is_Some (g_members g !! p) <-> p ∈ pids /\ p <> me
    end.

  (** The list of a leader or of a leaderless call. *)
  Definition sound (pids : list string) (g : group) (l : list string) : Prop :=
    NoDup l /\ me ∈ l /\ forall p, p ∈ l -> p = me \/ (p ∈ pids /\ p <> me /\ asked g p).
  (** The list of a member. *)
  Definition told (c : jcall) (g : group) (ids : list string) : Prop :=
    exists lm, said g lm /\ getPeerIDs peerDecode (lm_peers lm) = Some ids.

  Definition stage_ok (c : jcall) (g : group) : Prop :=
    match jc_role c with
    | RLeader pids =>
        match jc_stage c with
        | JWait | JWoken => True
        | JChecked | JIds _ => False
        | JDone (Outcome ps e) =>
            (e = ESignReceived /\ ps = None /\ jc_notified c = "signature received"%string) \/
            (e = ENone /\ jc_notified c <> "signature received"%string /\ exists l, ps = Some l /\ sound pids g l /\
               ((0 <= jc_threshold c)%Z -> Z.of_nat (length l) = (jc_threshold c + 1)%Z) /\
               jc_sent c = Some (LeaderMsg (jc_msg c) "response" 1 l)) \/
            (e = ETimeout /\ jc_notified c <> "signature received"%string /\ exists l, ps = Some l /\ sound pids g l /\
               (Z.of_nat (length l) < jc_threshold c + 1)%Z /\
               jc_sent c = Some (LeaderMsg (jc_msg c) "response" 2 l))
        end
    | RMember _ =>
        match jc_stage c with
        | JWait | JWoken => True
        | JChecked => g_resp g <> None
        | JIds ids => g_resp g <> None /\ told c g ids /\ (jc_threshold c <= Z.of_nat (length ids))%Z
        | JDone (Outcome ps e) =>
            (e = ELeaderNotReady /\ ps = None) \/ (e = ESignReceived /\ ps = None) \/ (e = EDecode /\ ps = None) \/
            (e = ENotEnough /\ exists ids, ps = Some ids /\ told c g ids /\ (Z.of_nat (length ids) < jc_threshold c)%Z) \/
            (exists ids lm, ps = Some ids /\ told c g ids /\ (jc_threshold c <= Z.of_nat (length ids))%Z /\
               said g lm /\ (e = ENone /\ lm_type lm = 1 \/ e = ETimeout /\ lm_type lm <> 1))
        end
    | RLeaderless pids =>
        match jc_stage c with
        | JWait | JWoken => True
        | JChecked | JIds _ => False
        | JDone (Outcome ps e) => exists l, ps = Some l /\ sound pids g l /\
            (e = ENone /\ length l = length pids \/ e = ETimeout /\ length l <> length pids)
        end
    end.

  Record ok (c : jcall) (g : group) : Prop := {
    ok_role : role_ok c g;
    ok_in : forall p m, (p, m) ∈ g_in g -> id_of m = jc_msg c /\ p <> me /\ p <> "NONE"%string;
    ok_on : forall p, g_members g !! p = Some true -> asked g p;
    ok_resp : forall lm, g_resp g = Some lm -> said g lm;
    ok_count : g_leader g <> "NONE"%string ->
      g_count g = Z.of_nat (length (online g)) /\ (g_count g = 0 \/ g_count g <= g_threshold g)%Z;
    ok_stage : stage_ok c g;
  }.

  Definition quota (c : jcall) (g : group) : option nat :=
    match jc_role c with
    | RLeader _ => Some (if (Z.ltb 0 (g_threshold g) && Z.leb (g_threshold g) (g_count g))%bool then 1 else 0)
    | RMember _ => None
    | RLeaderless _ => Some (length (online g))
    end.

  Definition hok (s : jstate) (x : jhandler) : Prop :=
    match x with
    | HUpdate j p _ => exists g m, j_groups s !! j = Some g /\ (p, m) ∈ g_in g /\ is_request m
    | HResp j p lm => exists g, j_groups s !! j = Some g /\ (p, InLeader lm) ∈ g_in g /\ lm_msgtype lm = "response"%string
    | HNotify j | HNewFound j => exists g, j_groups s !! j = Some g
    end.

  Record jinv (s : jstate) : Prop := {
    ji_group : forall j g, j_groups s !! j = Some g -> exists c, j_calls s !! j = Some c /\ ok c g;
    ji_index : forall id j, j_index s !! id = Some j ->
      exists c, j_calls s !! j = Some c /\ is_Some (j_groups s !! j) /\ jc_msg c = id;
    ji_handler : forall h x, j_handlers s !! h = Some x -> hok s x;
    ji_slots : forall j g c n, j_groups s !! j = Some g -> j_calls s !! j = Some c -> quota c g = Some n ->
      g_notify g + g_newfound g + pend j (j_handlers s) <= n;
    ji_fresh : forall j, j_groups s !! j = None -> pend j (j_handlers s) = 0;
    ji_complete : forall j g p m, j_groups s !! j = Some g -> (p, m) ∈ g_in g -> is_request m ->
      is_Some (g_members g !! p) ->
      g_members g !! p = Some true \/ (g_leader g <> "NONE"%string /\ (g_threshold g <= g_count g)%Z) \/
      exists h old, j_handlers s !! h = Some (HUpdate j p old);
    ji_nogroup : forall j c, j_calls s !! j = Some c -> j_groups s !! j = None ->
      exists e, jc_stage c = JDone (Outcome None e) /\ e <> ENone;
  }.

  Lemma jinv_init : jinv j_init.
  Proof.
    split; cbn.
    - intros j g H. discriminate (eq_trans (eq_sym (lookup_empty (M := gmap nat) j)) H).
    - intros j g H. discriminate (eq_trans (eq_sym (lookup_empty (M := gmap string) j)) H).
    - intros j g H. discriminate (eq_trans (eq_sym (lookup_empty (M := gmap nat) j)) H).
    - intros j g c n H. discriminate (eq_trans (eq_sym (lookup_empty (M := gmap nat) j)) H).
    - reflexivity.
    - intros j g p m H. discriminate (eq_trans (eq_sym (lookup_empty (M := gmap nat) j)) H).
    - intros j c H. discriminate (eq_trans (eq_sym (lookup_empty (M := gmap nat) j)) H).
  Qed.

  (** ** Updates of a call alone *)
  Lemma jinv_call s j c c' :
    jinv s -> j_calls s !! j = Some c ->
    jc_msg c' = jc_msg c -> jc_role c' = jc_role c ->
    (forall g, j_groups s !! j = Some g -> ok c g -> ok c' g) ->
    (j_groups s !! j = None -> jc_stage c' = jc_stage c) ->
    jinv (set_call j c' s).
  Proof.
    intros I Hj Hm Hr Hok Hst. destruct I. split; cbn [set_call j_groups j_calls j_index j_handlers].
    - intros j' g Hg. destruct (decide (j' = j)) as [->|Hne].
      + rewrite lookup_insert. exists c'. split; [reflexivity|]. apply Hok; [exact Hg|].
        destruct (ji_group0 _ _ Hg) as (c0 & Hc0 & H0). rewrite Hj in Hc0. injection Hc0 as <-. exact H0.
      + rewrite lookup_insert_ne by congruence. eauto.
    - intros id j' Hi. destruct (ji_index0 _ _ Hi) as (c0 & Hc0 & Hg & Hid).
      destruct (decide (j' = j)) as [->|Hne].
      + rewrite lookup_insert. rewrite Hj in Hc0. injection Hc0 as <-. exists c'. rewrite Hm. auto.
      + rewrite lookup_insert_ne by congruence. eauto.
    - exact ji_handler0.
    - intros j' g c0 n Hg. destruct (decide (j' = j)) as [->|Hne].
      + rewrite lookup_insert. intros [= <-] Hq. eapply ji_slots0; [exact Hg|exact Hj|].
        unfold quota in *. rewrite Hr in Hq. exact Hq.
      + rewrite lookup_insert_ne by congruence. eauto.
    - exact ji_fresh0.
    - exact ji_complete0.
    - intros j' c0. destruct (decide (j' = j)) as [->|Hne].
      + rewrite lookup_insert. intros [= <-] Hg. rewrite (Hst Hg). eauto.
      + rewrite lookup_insert_ne by congruence. eauto.
  Qed.

  Lemma ok_call_mono c c' g :
    jc_msg c' = jc_msg c -> jc_role c' = jc_role c -> jc_threshold c' = jc_threshold c -> stage_ok c' g -> ok c g -> ok c' g.
  Proof.
    intros Hm Hr Ht Hs []. split; auto.
    - unfold role_ok in *. rewrite Hr, Ht. exact ok_role0.
    - rewrite Hm. exact ok_in0.
  Qed.

  (** ** Starting a call *)
  Lemma role_ok_new c pids l t :
    (jc_role c = RLeader pids /\ l = me /\ t = jc_threshold c) \/ (jc_role c = RLeaderless pids /\ l = "NONE"%string) \/
    (jc_role c = RMember l /\ length pids = 1) ->
    role_ok c (NewPeerStatus pids me l t).
  Proof.
    intros H. unfold role_ok. destruct H as [(-> & -> & ->)|[(-> & ->)|(-> & H)]].
    - repeat split; try reflexivity; intros; rewrite new_members in *;
        destruct (decide (p ∈ pids /\ p <> me)); try tauto; try (eauto; fail); destruct H; congruence.
    - repeat split; try reflexivity; intros; rewrite new_members in *;
        destruct (decide (p ∈ pids /\ p <> me)); try tauto; try (eauto; fail); destruct H; congruence.
    - split; [reflexivity|exact H].
  Qed.

  Lemma online_new pids l t : online (NewPeerStatus pids me l t) = [].
  Proof.
    apply elem_of_nil_inv. intros x Hx%elem_of_online. rewrite new_members in Hx.
    destruct (decide (x ∈ pids /\ x <> me)); congruence.
  Qed.

  Lemma jinv_start s j msgID leader peers t r :
    jinv s -> j_calls s !! j = None ->
    (forall pids, getPeerIDs peerDecode peers = Some pids ->
       (r pids = RLeader pids /\ leader = me) \/ (r pids = RLeaderless pids /\ leader = "NONE"%string) \/
       (r pids = RMember leader /\ length pids = 1)) ->
    jinv (start peerDecode me j msgID leader peers t r s).
  Proof.
    intros I Hj Hr. pose proof I as [].
    assert (Hgn : j_groups s !! j = None).
    { destruct (j_groups s !! j) eqn:E; [|reflexivity]. destruct (ji_group0 _ _ E) as (c & Hc & _). congruence. }
    unfold start. destruct (getPeerIDs peerDecode peers) as [pids|] eqn:Ep.
    - specialize (Hr pids eq_refl).
      set (g0 := NewPeerStatus pids me leader t). set (c0 := JCall msgID (r pids) t [] "" JWait None).
      assert (Hok : ok c0 g0).
      { split.
        - apply role_ok_new. cbn. destruct Hr as [[-> ->]|[[-> ->]|[-> ?]]]; auto.
        - cbn. intros p m H%elem_of_nil. easy.
        - intros p. subst g0. rewrite new_members. destruct (decide (p ∈ pids /\ p <> me)); discriminate.
        - cbn. discriminate.
        - intros _. subst g0. rewrite online_new. cbn. split; [reflexivity|left; reflexivity].
        - unfold stage_ok. cbn. destruct (r pids); exact Logic.I. }
      split; cbn [j_groups j_calls j_index j_handlers].
      + intros j' g. destruct (decide (j' = j)) as [->|Hne].
        * rewrite !lookup_insert. intros [= <-]. eauto.
        * rewrite !lookup_insert_ne by congruence. eauto.
      + intros id j'. destruct (decide (id = msgID)) as [->|Hid].
        * rewrite lookup_insert. intros [= <-]. rewrite !lookup_insert. exists c0. eauto.
        * rewrite lookup_insert_ne by congruence. intros Hi.
          destruct (ji_index0 _ _ Hi) as (c & Hc & Hg & Hm). assert (j' <> j) by congruence.
          rewrite !lookup_insert_ne by congruence. eauto.
      + intros h x Hx. specialize (ji_handler0 _ _ Hx).
        assert (L : forall j' g, j_groups s !! j' = Some g -> <[j := g0]> (j_groups s) !! j' = Some g).
        { intros j' g Hg. rewrite lookup_insert_ne by congruence. exact Hg. }
        destruct x; cbn in *.
        * destruct ji_handler0 as (g' & m & Hg & H). eauto 6.
        * destruct ji_handler0 as (g' & Hg & H). eauto 6.
        * destruct ji_handler0 as (g' & Hg). eauto 6.
        * destruct ji_handler0 as (g' & Hg). eauto 6.
      + intros j' g c n. destruct (decide (j' = j)) as [->|Hne].
        * rewrite !lookup_insert. intros [= <-] [= <-] _. cbn. rewrite (ji_fresh0 _ Hgn). lia.
        * rewrite !lookup_insert_ne by congruence. eauto.
      + intros j'. destruct (decide (j' = j)) as [->|Hne].
        * rewrite lookup_insert. discriminate.
        * rewrite lookup_insert_ne by congruence. auto.
      + intros j' g p m. destruct (decide (j' = j)) as [->|Hne].
        * rewrite lookup_insert. intros [= <-]. cbn. intros H%elem_of_nil. easy.
        * rewrite lookup_insert_ne by congruence. eauto.
      + intros j' c. destruct (decide (j' = j)) as [->|Hne].
        * rewrite !lookup_insert. discriminate.
        * rewrite !lookup_insert_ne by congruence. eauto.
    - split; cbn [set_call j_groups j_calls j_index j_handlers]; auto.
      + intros j' g Hg. rewrite lookup_insert_ne by congruence. eauto.
      + intros id j' Hi. destruct (ji_index0 _ _ Hi) as (c & Hc & H).
        rewrite lookup_insert_ne by congruence. eauto.
      + intros j' g c n Hg. rewrite lookup_insert_ne by congruence. eauto.
      + intros j' c. destruct (decide (j' = j)) as [->|Hne].
        * rewrite lookup_insert. intros [= <-] _. cbn. exists EDecode. split; [reflexivity|discriminate].
        * rewrite lookup_insert_ne by congruence. eauto.
  Qed.

  (** ** Growth of a group *)
  (** [g'] has seen more messages than [g]; everything else that the invariant says
      about outcomes only grows. *)
  Definition grows (g g' : group) : Prop :=
    (forall x, x ∈ g_in g -> x ∈ g_in g') /\ g_leader g' = g_leader g.
  Lemma asked_grows g g' p : grows g g' -> asked g p -> asked g' p.
  Proof. intros [H _] (m & Hm & Hr). exists m. auto. Qed.
  Lemma said_grows g g' lm : grows g g' -> said g lm -> said g' lm.
  Proof. intros [H Hl] [H1 H2]. unfold said. rewrite Hl. auto. Qed.
  Lemma sound_grows pids g g' l : grows g g' -> sound pids g l -> sound pids g' l.
  Proof.
    intros Hg (H1 & H2 & H3). split; [exact H1|]. split; [exact H2|]. intros p Hp.
    destruct (H3 p Hp) as [?|(?&?&?)]; [auto|right]. eauto using asked_grows.
  Qed.
  Lemma told_grows c g g' ids : grows g g' -> told c g ids -> told c g' ids.
  Proof. intros Hg (lm & H & H'). exists lm. eauto using said_grows. Qed.
  Lemma stage_ok_grows c g g' :
    grows g g' -> (g_resp g <> None -> g_resp g' <> None) -> stage_ok c g -> stage_ok c g'.
  Proof.
    intros Hg Hr. unfold stage_ok. destruct (jc_role c) as [pids|l|pids].
    - destruct (jc_stage c) as [| | |ids|[ps e]]; auto.
      intros [H|[(H & Hno & l & H1 & H2 & H3)|(H & Hno & l & H1 & H2 & H3)]]; [auto|right; left|right; right];
        (split; [exact H|]); (split; [exact Hno|]); exists l; eauto using sound_grows.
    - destruct (jc_stage c) as [| | |ids|[ps e]]; auto.
      + intros (H1 & H2 & H3). eauto using told_grows.
      + intros [H|[H|[H|[(H & ids & H1 & H2 & H3)|(ids & lm & H1 & H2 & H3 & H4 & H5)]]]]; [tauto..| |].
        * do 3 right. left. split; [exact H|]. exists ids. eauto using told_grows.
        * do 4 right. exists ids, lm. eauto 8 using told_grows, said_grows.
    - destruct (jc_stage c) as [| | |ids|[ps e]]; auto.
      intros (l & H1 & H2 & H3). exists l. eauto using sound_grows.
  Qed.

  Lemma hok_grows s s' x :
    (forall j g, j_groups s !! j = Some g -> exists g', j_groups s' !! j = Some g' /\ grows g g') ->
    hok s x -> hok s' x.
  Proof.
    intros H. destruct x; cbn.
    - intros (g0 & m & Hg & Hin & Hr). destruct (H _ _ Hg) as (g' & Hg' & Hs & _). eauto 6.
    - intros (g0 & Hg & Hin & Hr). destruct (H _ _ Hg) as (g' & Hg' & Hs & _). eauto 6.
    - intros (g0 & Hg). destruct (H _ _ Hg) as (g' & Hg' & _). eauto.
    - intros (g0 & Hg). destruct (H _ _ Hg) as (g' & Hg' & _). eauto.
  Qed.

  (** A change of group [j] and of handler [h]. *)
  Lemma jinv_group s j c g g' hs :
    jinv s -> j_calls s !! j = Some c -> j_groups s !! j = Some g ->
    grows g g' -> ok c g' ->
    (forall h x, hs !! h = Some x -> hok (set_group j g' s) x) ->
    (forall n, quota c g' = Some n -> g_notify g' + g_newfound g' + pend j hs <= n) ->
    (forall j', j' <> j -> pend j' hs = pend j' (j_handlers s)) ->
    (forall p m, (p, m) ∈ g_in g' -> is_request m -> is_Some (g_members g' !! p) ->
       g_members g' !! p = Some true \/ (g_leader g' <> "NONE"%string /\ (g_threshold g' <= g_count g')%Z) \/
       exists h old, hs !! h = Some (HUpdate j p old)) ->
    (forall j' p h old, j' <> j -> j_handlers s !! h = Some (HUpdate j' p old) -> hs !! h = Some (HUpdate j' p old)) ->
    jinv (JState (<[j := g']> (j_groups s)) (j_index s) (j_calls s) hs).
  Proof.
    intros I Hc Hg Hgr Hok Hh Hq Hp Hcm Hkeep. destruct I. split; cbn [j_groups j_calls j_index j_handlers].
    - intros j' g0. destruct (decide (j' = j)) as [->|Hne].
      + rewrite lookup_insert. intros [= <-]. eauto.
      + rewrite lookup_insert_ne by congruence. eauto.
    - intros id j' Hi. destruct (ji_index0 _ _ Hi) as (c0 & Hc0 & Hg0 & Hm). exists c0.
      split; [exact Hc0|]. split; [|exact Hm]. destruct (decide (j' = j)) as [->|Hne].
      + rewrite lookup_insert. eauto. + rewrite lookup_insert_ne by congruence. exact Hg0.
    - exact Hh.
    - intros j' g0 c0 n. destruct (decide (j' = j)) as [->|Hne].
      + rewrite lookup_insert. intros [= <-] Hc0. rewrite Hc in Hc0. injection Hc0 as <-. apply Hq.
      + rewrite lookup_insert_ne by congruence. rewrite Hp by exact Hne. eauto.
    - intros j'. destruct (decide (j' = j)) as [->|Hne].
      + rewrite lookup_insert. discriminate.
      + rewrite lookup_insert_ne by congruence. rewrite Hp by exact Hne. auto.
    - intros j' g0 p m. destruct (decide (j' = j)) as [->|Hne].
      + rewrite lookup_insert. intros [= <-]. apply Hcm.
      + rewrite lookup_insert_ne by congruence. intros H1 H2 H3 H4.
        destruct (ji_complete0 _ _ _ _ H1 H2 H3 H4) as [?|[?|(h & old & Hx)]]; [tauto..|].
        do 2 right. exists h, old. eauto.
    - intros j' c0 Hc0. destruct (decide (j' = j)) as [->|Hne].
      + rewrite lookup_insert. discriminate.
      + rewrite lookup_insert_ne by congruence. eauto.
  Qed.

  Lemma grows_group s j g g' :
    j_groups s !! j = Some g -> grows g g' ->
    forall j' g0, j_groups s !! j' = Some g0 -> exists g1, <[j := g']> (j_groups s) !! j' = Some g1 /\ grows g0 g1.
  Proof.
    intros Hj Hgr j' g0 Hg0. destruct (decide (j' = j)) as [->|Hne].
    - rewrite lookup_insert. rewrite Hj in Hg0. injection Hg0 as <-. eauto.
    - rewrite lookup_insert_ne by congruence. exists g0. split; [exact Hg0|]. split; auto.
  Qed.

  (** ** A message arrives *)
  Lemma jinv_dispatch s h p m :
    jinv s -> j_handlers s !! h = None -> ~ (p = me \/ p = "NONE"%string) -> jinv (dispatch h p m s).
  Proof.
    intros I Hh Hp.
    assert (G : forall id k, id = id_of m ->
      (forall j g, j_groups s !! j = Some g -> hok (set_group j (g_set_in (g_in g ++ [(p, m)]) g) s) (k j)) ->
      (forall j j', targets j' (k j) = false) ->
      (is_request m -> forall j, exists old, k j = HUpdate j p old) ->
      jinv (match j_index s !! id with
            | None => s
            | Some g => match j_groups s !! g with
                        | None => s
                        | Some gr => set_handler h (k g) (set_group g (g_set_in (g_in gr ++ [(p, m)]) gr) s)
                        end
            end)).
    { intros id k -> Hk Ht Hu. destruct (j_index s !! id_of m) as [j|] eqn:Ei; [|exact I].
      destruct (j_groups s !! j) as [g|] eqn:Eg; [|exact I].
      destruct (ji_index _ I _ _ Ei) as (c & Hc & _ & Hid).
      destruct (ji_group _ I _ _ Eg) as (c' & Hc' & Hok). rewrite Hc in Hc'. injection Hc' as <-.
      assert (Hgr : grows g (g_set_in (g_in g ++ [(p, m)]) g)) by (split; [cbn; set_solver|reflexivity]).
      unfold set_handler, set_group. cbn [j_groups j_index j_calls j_handlers].
      eapply jinv_group; try eassumption.
      - destruct Hok as [Hr Hi Ho Hre Hco Hst]. split.
        + exact Hr.
        + cbn. intros p' m'. rewrite elem_of_app, elem_of_list_singleton. intros [H|[= -> ->]]; [auto|split; [auto|tauto]].
        + intros p' Hp'. eapply asked_grows; [exact Hgr|]. apply Ho, Hp'.
        + intros lm Hlm. eapply said_grows; [exact Hgr|]. apply Hre, Hlm.
        + exact Hco.
        + eapply stage_ok_grows; [exact Hgr|cbn; auto|exact Hst].
      - intros h' x. destruct (decide (h' = h)) as [->|Hne].
        + rewrite lookup_insert. intros [= <-]. apply Hk, Eg.
        + rewrite lookup_insert_ne by congruence. intros Hx. apply (ji_handler _ I) in Hx.
          eapply hok_grows; [|exact Hx]. cbn. eapply grows_group; eauto.
      - intros n Hq. rewrite pend_insert by exact Hh. rewrite Ht. cbn.
        eapply (ji_slots _ I); eauto.
      - intros j' Hne. rewrite pend_insert by exact Hh. rewrite Ht. reflexivity.
      - cbn. intros p' m' Hin Hr Hs. apply elem_of_app in Hin as [Hin|Hin].
        + destruct (ji_complete _ I _ _ _ _ Eg Hin Hr Hs) as [?|[?|(h' & old & Hx)]]; [tauto..|].
          do 2 right. exists h', old. rewrite lookup_insert_ne by congruence. exact Hx.
        + apply elem_of_list_singleton in Hin. injection Hin as -> ->.
          do 2 right. destruct (Hu Hr j) as [old Hold]. exists h, old. rewrite lookup_insert, Hold. reflexivity.
      - intros j' p' h' old Hne Hx. rewrite lookup_insert_ne by congruence. exact Hx. }
    assert (L : forall j g, (set_group j g s).(j_groups) !! j = Some g) by (intros; cbn; apply lookup_insert).
    unfold dispatch. destruct m as [id|lm]; [apply (G id (fun g => HUpdate g p true)); try reflexivity|].
    - intros j g Hg. exists (g_set_in (g_in g ++ [(p, InOld id)]) g), (InOld id).
      split; [apply L|]. split; [cbn; set_solver|exact Logic.I].
    - eauto.
    - case_decide as H1; [apply (G (lm_id lm) (fun g => HUpdate g p false)); try reflexivity|].
      + intros j g Hg. exists (g_set_in (g_in g ++ [(p, InLeader lm)]) g), (InLeader lm).
        split; [apply L|]. split; [cbn; set_solver|exact H1].
      + eauto.
      + case_decide as H2; [apply (G (lm_id lm) (fun g => HResp g p lm)); try reflexivity|exact I].
        * intros j g Hg. exists (g_set_in (g_in g ++ [(p, InLeader lm)]) g).
          split; [apply L|]. split; [cbn; set_solver|exact H2].
        * intros H3. cbn in H3. congruence.
  Qed.

  (** ** A handler runs *)
  Lemma quota_le_cap c g n : ok c g -> quota c g = Some n -> n <= g_cap g.
  Proof.
    intros [Hr _ _ _ Hco _] Hq. unfold quota in Hq. unfold role_ok in Hr.
    assert (B : forall pids, (forall p, is_Some (g_members g !! p) <-> p ∈ pids /\ p <> me) -> length (online g) <= length pids).
    { intros pids Hm. apply submseteq_length, NoDup_submseteq; [apply online_nodup|].
      intros x Hx%elem_of_online. apply Hm. eauto. }
    destruct (jc_role c) as [pids|l|pids]; [| discriminate |].
    - destruct Hr as (Hl & Ht & Hcap & Hm). injection Hq as <-. rewrite Hcap.
      destruct (Z.ltb_spec 0 (g_threshold g)); [|cbn; lia].
      destruct (Z.leb_spec (g_threshold g) (g_count g)); cbn; [|lia].
      destruct Hco as [Hco _]; [congruence|]. specialize (B _ Hm). lia.
    - destruct Hr as (Hl & Hcap & Hm). injection Hq as <-. rewrite Hcap. auto.
  Qed.

  (** A handler sends to one of the channels of group [j]. *)
  Lemma jinv_send s h j x g g' :
    jinv s -> j_handlers s !! h = Some x -> targets j x = true -> (forall j', j' <> j -> targets j' x = false) ->
    j_groups s !! j = Some g ->
    g_in g' = g_in g -> g_leader g' = g_leader g -> g_members g' = g_members g -> g_resp g' = g_resp g ->
    g_threshold g' = g_threshold g -> g_count g' = g_count g -> g_cap g' = g_cap g ->
    g_notify g' + g_newfound g' = S (g_notify g + g_newfound g) ->
    jinv (end_handler h (set_group j g' s)).
  Proof.
    intros I Eh Ht Hf Hg F1 F2 F3 F4 F5 F6 F7 F8. destruct (ji_group _ I _ _ Hg) as (c & Hc & Hok).
    assert (Hgr : grows g g') by (split; [rewrite F1|]; auto).
    unfold end_handler, set_group. cbn [j_groups j_index j_calls j_handlers].
    assert (Hq : quota c g' = quota c g).
    { unfold quota. rewrite F5, F6, (online_ext g' g F3). reflexivity. }
    eapply jinv_group; try eassumption.
    - destruct Hok as [Hr Hi Ho Hre Hco Hst]. split.
      + unfold role_ok in *. rewrite F2, F3, F5, F7. exact Hr.
      + rewrite F1. exact Hi.
      + rewrite F3. intros p Hp. eapply asked_grows; [exact Hgr|auto].
      + rewrite F4. intros lm Hlm. eapply said_grows; [exact Hgr|auto].
      + rewrite F2, F5, F6, (online_ext g' g F3). exact Hco.
      + eapply stage_ok_grows; [exact Hgr|rewrite F4; auto|exact Hst].
    - intros h' z Hz. apply lookup_delete_Some in Hz as [_ Hz]. apply (ji_handler _ I) in Hz.
      eapply hok_grows; [|exact Hz]. cbn. eapply grows_group; eauto.
    - rewrite Hq. intros n Hn. pose proof (ji_slots _ I _ _ _ _ Hg Hc Hn) as Hs.
      rewrite (pend_delete j _ _ _ Eh), Ht in Hs. cbn in Hs. lia.
    - intros j' Hne. rewrite (pend_delete j' (j_handlers s) _ _ Eh), (Hf _ Hne). reflexivity.
    - rewrite F1, F2, F3, F5, F6. intros p' m' Hin' Hr' Hs'.
      destruct (ji_complete _ I _ _ _ _ Hg Hin' Hr' Hs') as [?|[?|(h' & old & Hx)]]; [tauto..|].
      do 2 right. exists h', old. rewrite lookup_delete_ne; [exact Hx|].
      intros ->. rewrite Eh in Hx. injection Hx as ->. discriminate.
    - intros j' p' h' old Hne Hx. rewrite lookup_delete_ne; [exact Hx|].
      intros ->. rewrite Eh in Hx. injection Hx as ->. discriminate.
  Qed.

  Lemma jinv_handle s h : jinv s -> jinv (handle h s).
  Proof.
    intros I. unfold handle. destruct (j_handlers s !! h) as [x|] eqn:Eh; [|exact I].
    pose proof (ji_handler _ I _ _ Eh) as Hx. destruct x as [j p old|j p lm|j|j]; cbn in Hx.
    - destruct Hx as (g & m & Hg & Hin & Hreq). rewrite Hg.
      destruct (ji_group _ I _ _ Hg) as (c & Hc & Hok).
      destruct (updatePeer p g) as [g' r] eqn:Eu.
      pose proof (updatePeer_cases _ _ _ _ Eu) as Hcases.
      assert (Hcp : forall j', pend j' (j_handlers s) = pend j' (delete h (j_handlers s))).
      { intros j'. rewrite (pend_delete j' _ _ _ Eh). reflexivity. }
      assert (Hcr : forall j' y, pend j' (<[h := y]> (j_handlers s)) = b2n (targets j' y) + pend j' (j_handlers s)).
      { intros j' y. pose proof (pend_replace j' _ _ _ y Eh) as E. cbn in E. exact E. }
      assert (Hgr : grows g g').
      { destruct Hcases as [(-> & _)|[(_ & _ & _ & ->)|(_ & _ & _ & _ & ->)]]; split; auto. }
      assert (Hgin : g_in g' = g_in g).
      { destruct Hcases as [(-> & _)|[(_ & _ & _ & ->)|(_ & _ & _ & _ & ->)]]; reflexivity. }
      assert (Hmono : forall q, g_members g !! q = Some true -> g_members g' !! q = Some true).
      { intros q Hq. destruct Hcases as [(-> & _)|[(H1 & _ & _ & ->)|(H1 & _ & _ & _ & ->)]]; [exact Hq|cbn..];
          (rewrite lookup_insert_ne; [exact Hq|congruence]). }
      assert (Hdom : forall q, is_Some (g_members g' !! q) <-> is_Some (g_members g !! q)).
      { intros q. destruct Hcases as [(-> & _)|[(H1 & _ & _ & ->)|(H1 & _ & _ & _ & ->)]]; [tauto|cbn..];
          (destruct (decide (q = p)) as [->|Hne];
           [rewrite lookup_insert, H1; split; eauto|rewrite lookup_insert_ne by congruence; tauto]). }
      assert (Hfields : g_threshold g' = g_threshold g /\ g_leader g' = g_leader g /\ g_cap g' = g_cap g /\
                        g_resp g' = g_resp g /\ g_notify g' = g_notify g /\ g_newfound g' = g_newfound g).
      { destruct Hcases as [(-> & _)|[(_ & _ & _ & ->)|(_ & _ & _ & _ & ->)]]; repeat split. }
      destruct Hfields as (Ft & Fl & Fc & Fr & Fn & Ff).
      assert (Hok' : ok c g').
      { destruct Hok as [Hr Hi Ho Hre Hco Hst]. split.
        - unfold role_ok in *. rewrite Fl, Ft, Fc. destruct (jc_role c); [|exact Hr|].
          + destruct Hr as (? & ? & ? & Hm). split; [assumption|]. split; [assumption|]. split; [assumption|].
            intros q. rewrite Hdom. apply Hm.
          + destruct Hr as (? & ? & Hm). split; [assumption|]. split; [assumption|].
            intros q. rewrite Hdom. apply Hm.
        - rewrite Hgin. exact Hi.
        - intros q Hq. eapply asked_grows; [exact Hgr|].
          destruct Hcases as [(-> & _)|[(H1 & _ & _ & ->)|(H1 & _ & _ & _ & ->)]]; [auto|cbn in Hq..];
            (destruct (decide (q = p)) as [->|Hne];
             [exists m; auto|rewrite lookup_insert_ne in Hq by congruence; auto]).
        - rewrite Fr. intros lm Hlm. eapply said_grows; [exact Hgr|]. auto.
        - rewrite Fl. intros Hl. destruct (Hco Hl) as [Hc1 Hc2].
          destruct Hcases as [(-> & _)|[(H1 & H2 & _ & ->)|(H1 & H2 & H3 & _ & ->)]]; [auto|congruence|].
          rewrite (online_ext _ (g_set_members (<[p:=true]> (g_members g)) g)) by reflexivity.
          rewrite (online_insert g p H1). cbn. split; lia.
        - eapply stage_ok_grows; [exact Hgr|rewrite Fr; auto|exact Hst]. }
      (* the quota grows by one when a signal is raised *)
      assert (Hqu : forall n', quota c g' = Some n' -> exists n, quota c g = Some n /\
                      n + b2n (match r with Some true => true | _ => false end) <= n').
      { intros n' Hq'. unfold quota in *. pose proof (ok_role _ _ Hok) as Hr. unfold role_ok in Hr.
        destruct (jc_role c) as [pids|l|pids]; [| discriminate |].
        - eexists. split; [reflexivity|]. injection Hq' as <-. rewrite Ft.
          destruct Hcases as [(-> & _ & Hrt & _)|[(H1 & H2 & _ & ->)|(H1 & H2 & H3 & -> & ->)]].
          + destruct r as [[|]|]; [congruence|cbn; lia..].
          + exfalso. destruct Hr as (Hl & _). congruence.
          + cbn. destruct (Z.ltb_spec 0 (g_threshold g)); cbn;
              destruct (Z.leb_spec (g_threshold g) (g_count g)); cbn;
              destruct (Z.leb_spec (g_threshold g) (g_count g + 1)); cbn; try lia.
            exfalso. destruct (ok_count _ _ Hok H2). lia.
        - eexists. split; [reflexivity|]. injection Hq' as <-.
          destruct Hcases as [(-> & _ & Hrt & _)|[(H1 & H2 & -> & ->)|(H1 & H2 & H3 & _ & _)]].
          + destruct r as [[|]|]; [congruence|cbn; lia..].
          + rewrite (online_insert g p H1). cbn. lia.
          + destruct Hr as (Hl & _). congruence. }
      assert (Hcmpl : forall (hs : gmap nat jhandler),
        (forall h' y, h' <> h -> j_handlers s !! h' = Some y -> hs !! h' = Some y) ->
        forall p0 m0, (p0, m0) ∈ g_in g' -> is_request m0 -> is_Some (g_members g' !! p0) ->
          g_members g' !! p0 = Some true \/ (g_leader g' <> "NONE"%string /\ (g_threshold g' <= g_count g')%Z) \/
          exists h0 old0, hs !! h0 = Some (HUpdate j p0 old0)).
      { intros hs Hhs p0 m0 Hin0 Hr0 Hs0. rewrite Hgin in Hin0. rewrite Hdom in Hs0.
        destruct (ji_complete _ I _ _ _ _ Hg Hin0 Hr0 Hs0) as [H|[[H1 H2]|(h0 & old0 & H)]].
        - left. auto.
        - right; left. rewrite Fl, Ft. split; [exact H1|].
          destruct Hcases as [(-> & _)|[(_ & _ & _ & ->)|(_ & _ & _ & _ & ->)]]; cbn; lia.
        - destruct (decide (h0 = h)) as [->|Hne]; [|do 2 right; eauto].
          rewrite Eh in H. injection H as -> ->.
          destruct Hcases as [(-> & _ & _ & H4)|[(_ & _ & _ & ->)|(_ & _ & _ & _ & ->)]].
          + destruct Hs0 as [[|] Hs0]; [auto|]. right; left. auto.
          + left. cbn. apply lookup_insert.
          + left. cbn. apply lookup_insert. }
      assert (Hhs : forall y, hok (set_group j g' s) y -> forall h' z, <[h := y]> (j_handlers s) !! h' = Some z -> hok (set_group j g' s) z).
      { intros y Hy h' z. destruct (decide (h' = h)) as [->|Hne].
        - rewrite lookup_insert. intros [= <-]. exact Hy.
        - rewrite lookup_insert_ne by congruence. intros Hz. apply (ji_handler _ I) in Hz.
          eapply hok_grows; [|exact Hz]. cbn. eapply grows_group; eauto. }
      assert (Fend : r <> Some true -> jinv (end_handler h (set_group j g' s))).
      { intros Hrt. unfold end_handler, set_group. cbn [j_groups j_index j_calls j_handlers].
        eapply jinv_group; try eassumption.
        - intros h' z Hz. apply lookup_delete_Some in Hz as [_ Hz]. apply (ji_handler _ I) in Hz.
          eapply hok_grows; [|exact Hz]. cbn. eapply grows_group; eauto.
        - intros n' Hq'. destruct (Hqu _ Hq') as (n & Hq & Hle). rewrite Fn, Ff, <- Hcp.
          pose proof (ji_slots _ I _ _ _ _ Hg Hc Hq). lia.
        - intros j' _. symmetry. apply Hcp.
        - apply Hcmpl. intros h' y Hne Hy. rewrite lookup_delete_ne by congruence. exact Hy.
        - intros j' p' h' old' Hne Hy. rewrite lookup_delete_ne; [exact Hy|]. intros ->. congruence. }
      destruct r as [[|]|]; [|apply Fend; discriminate|apply Fend; discriminate].
      unfold set_handler, set_group. cbn [j_groups j_index j_calls j_handlers].
      eapply jinv_group; try eassumption.
      + apply Hhs. destruct old; cbn; rewrite lookup_insert; eauto.
      + intros n' Hq'. destruct (Hqu _ Hq') as (n & Hq & Hle). rewrite Fn, Ff, Hcr.
        pose proof (ji_slots _ I _ _ _ _ Hg Hc Hq). cbn in Hle.
        destruct old; cbn; rewrite Nat.eqb_refl; cbn; lia.
      + intros j' Hne. rewrite Hcr. destruct old; cbn; (destruct (Nat.eqb_spec j j'); [congruence|reflexivity]).
      + apply Hcmpl. intros h' y Hne Hy. rewrite lookup_insert_ne by congruence. exact Hy.
      + intros j' p' h' old' Hne Hy. rewrite lookup_insert_ne; [exact Hy|]. intros ->. congruence.
    - destruct Hx as (g & Hg & Hin & Hty). rewrite Hg.
      destruct (ji_group _ I _ _ Hg) as (c & Hc & Hok).
      assert (Hcp : forall j', pend j' (j_handlers s) = pend j' (delete h (j_handlers s))).
      { intros j'. rewrite (pend_delete j' _ _ _ Eh). reflexivity. }
      case_decide as Hl.
      + (* only a member has a leader that can be a remote peer *)
        assert (Hmem : exists l, jc_role c = RMember l).
        { pose proof (ok_role _ _ Hok) as Hr. unfold role_ok in Hr.
          destruct (ok_in _ _ Hok _ _ Hin) as (_ & Hpme & Hnone).
          destruct (jc_role c) as [pids|l|pids]; [|eauto|].
          - destruct Hr as (Hr & _). congruence.
          - destruct Hr as (Hr & _). congruence. }
        destruct Hmem as [l Hrole].
        unfold set_handler, set_group. cbn [j_groups j_index j_calls j_handlers].
        assert (Hgr : grows g (g_set_resp (Some lm) g)) by (split; auto).
        eapply jinv_group; try eassumption.
        * destruct Hok as [Hr Hi Ho Hre Hco Hst]. split; try assumption.
          -- cbn. intros lm' [= <-]. unfold said. cbn. rewrite <- Hl. auto.
          -- eapply stage_ok_grows; [exact Hgr| |exact Hst]. cbn. discriminate.
        * intros h' z. destruct (decide (h' = h)) as [->|Hne].
          -- rewrite lookup_insert. intros [= <-]. cbn. rewrite lookup_insert. eauto.
          -- rewrite lookup_insert_ne by congruence. intros Hz. apply (ji_handler _ I) in Hz.
             eapply hok_grows; [|exact Hz]. cbn. eapply grows_group; eauto.
        * unfold quota. rewrite Hrole. discriminate.
        * intros j' Hne. pose proof (pend_replace j' _ _ _ (HNotify j) Eh) as E. cbn in E. rewrite E.
          destruct (Nat.eqb_spec j j'); [congruence|reflexivity].
        * cbn. intros p' m' Hin' Hr' Hs'.
          destruct (ji_complete _ I _ _ _ _ Hg Hin' Hr' Hs') as [?|[?|(h' & old & Hx)]]; [tauto..|].
          do 2 right. exists h', old. rewrite lookup_insert_ne; [exact Hx|congruence].
        * intros j' p' h' old Hne Hx. rewrite lookup_insert_ne; [exact Hx|congruence].
      + assert (Hgr : grows g g) by (split; auto).
        unfold end_handler. rewrite <- (insert_id (j_groups s) j g Hg).
        eapply jinv_group; try eassumption.
        * intros h' z Hz. apply lookup_delete_Some in Hz as [_ Hz]. apply (ji_handler _ I) in Hz.
          eapply hok_grows; [|exact Hz]. cbn. eapply grows_group; eauto.
        * intros n Hq. rewrite <- Hcp. eapply (ji_slots _ I); eauto.
        * intros j' _. symmetry. apply Hcp.
        * intros p' m' Hin' Hr' Hs'.
          destruct (ji_complete _ I _ _ _ _ Hg Hin' Hr' Hs') as [?|[?|(h' & old & Hx)]]; [tauto..|].
          do 2 right. exists h', old. rewrite lookup_delete_ne; [exact Hx|congruence].
        * intros j' p' h' old Hne Hx. rewrite lookup_delete_ne; [exact Hx|congruence].
    - destruct Hx as (g & Hg). rewrite Hg.
      destruct (Nat.ltb_spec (g_notify g) (g_cap g)); [|exact I].
      apply jinv_send with (g := g) (j := j) (x := HNotify j) (g' := g_set_notify (S (g_notify g)) g);
        auto; cbn; try apply Nat.eqb_refl; try lia; intros j' Hne; destruct (Nat.eqb_spec j j'); [congruence|reflexivity].
    - destruct Hx as (g & Hg). rewrite Hg.
      destruct (Nat.ltb_spec (g_newfound g) (g_cap g)); [|exact I].
      apply jinv_send with (g := g) (j := j) (x := HNewFound j) (g' := g_set_newfound (S (g_newfound g)) g);
        auto; cbn; try apply Nat.eqb_refl; try lia; intros j' Hne; destruct (Nat.eqb_spec j j'); [congruence|reflexivity].
  Qed.

  (** ** The waiting calls *)
  Lemma jinv_take s j c g n :
    jinv s -> j_calls s !! j = Some c -> j_groups s !! j = Some g -> g_notify g = S n ->
    jinv (set_group j (g_set_notify n g) s).
  Proof.
    intros I Hc Hg Hn. destruct (ji_group _ I _ _ Hg) as (c' & Hc' & Hok). rewrite Hc in Hc'. injection Hc' as <-.
    assert (Hgr : grows g (g_set_notify n g)) by (split; auto).
    unfold set_group. eapply jinv_group; try eassumption.
    - destruct Hok as [Hr Hi Ho Hre Hco Hst]. split; try assumption.
    - intros h' z Hz. apply (ji_handler _ I) in Hz.
      eapply hok_grows; [|exact Hz]. cbn. eapply grows_group; eauto.
    - intros m Hq. cbn. pose proof (ji_slots _ I _ _ _ _ Hg Hc Hq). lia.
    - reflexivity.
    - intros p' m' Hin' Hr' Hs'. exact (ji_complete _ I _ _ _ _ Hg Hin' Hr' Hs').
    - auto.
  Qed.

  Lemma ok_woken c g : (jc_stage c = JWait) -> ok c g -> ok (jc_set_stage JWoken c) g.
  Proof.
    intros Hst. apply ok_call_mono; try reflexivity. unfold stage_ok. cbn. destruct (jc_role c); exact Logic.I.
  Qed.

  Lemma nogroup_stage s j c : jinv s -> j_calls s !! j = Some c -> j_groups s !! j = None -> exists o, jc_stage c = JDone o.
  Proof. intros I Hc Hg. destruct (ji_nogroup _ I _ _ Hc Hg) as (e & He & _). eauto. Qed.

  Lemma jinv_notify s j : jinv s -> jinv (on_notify j s).
  Proof.
    intros I. unfold on_notify. destruct (j_calls s !! j) as [c|] eqn:Ec; [|exact I].
    destruct (j_groups s !! j) as [g|] eqn:Eg; [|exact I].
    destruct (jc_stage c) eqn:Est; try exact I. destruct (g_notify g) as [|n] eqn:En; [exact I|].
    pose proof (jinv_take _ _ _ _ _ I Ec Eg En) as I'.
    assert (W : jinv (set_call j (jc_set_stage JWoken c) (set_group j (g_set_notify n g) s))).
    { eapply jinv_call; [exact I'|exact Ec|reflexivity|reflexivity| |].
      - intros g0 _. apply ok_woken, Est.
      - cbn. rewrite lookup_insert. discriminate. }
    destruct (jc_role c); [exact W|exact W|]. destruct (getCoordinationStatus g); assumption.
  Qed.

  Lemma jinv_timeout s j : jinv s -> jinv (on_timeout j s).
  Proof.
    intros I. unfold on_timeout. destruct (j_calls s !! j) as [c|] eqn:Ec; [|exact I].
    destruct (jc_stage c) eqn:Est; try exact I.
    eapply jinv_call; [exact I|exact Ec|reflexivity|reflexivity| |].
    - intros g0 _. apply ok_woken, Est.
    - intros Hg. destruct (nogroup_stage _ _ _ I Ec Hg). congruence.
  Qed.

  Lemma jinv_sig s j : jinv s -> jinv (on_sig j s).
  Proof.
    intros I. unfold on_sig. destruct (j_calls s !! j) as [c|] eqn:Ec; [|exact I].
    destruct (jc_stage c) eqn:Est; try exact I. destruct (jc_sig c) as [|x rest] eqn:Es; [exact I|].
    destruct (jc_role c) eqn:Er; [| |exact I].
    - eapply jinv_call; [exact I|exact Ec|reflexivity|reflexivity| |].
      + intros g0 _. apply ok_call_mono; try reflexivity. unfold stage_ok. cbn. rewrite Er, Est. exact Logic.I.
      + reflexivity.
    - eapply jinv_call; [exact I|exact Ec|reflexivity|reflexivity| |].
      + intros g0 _. apply ok_call_mono; try reflexivity. unfold stage_ok. cbn. rewrite Er. exact Logic.I.
      + intros Hg. destruct (nogroup_stage _ _ _ I Ec Hg). congruence.
  Qed.

  Lemma jinv_lsig s j x c : jinv s -> j_calls s !! j = Some c -> jinv (set_call j (jc_set_sig (jc_sig c ++ [x]) c) s).
  Proof.
    intros I Ec. eapply jinv_call; [exact I|exact Ec|reflexivity|reflexivity| |reflexivity].
    intros g _ Hok. pose proof (ok_stage _ _ Hok). eapply ok_call_mono; [..|exact Hok]; try reflexivity. exact H.
  Qed.

  (** ** The last steps of a call *)
  Lemma online_sound c g pids ord :
    ok c g -> (forall p, is_Some (g_members g !! p) <-> p ∈ pids /\ p <> me) -> sound pids g (getOnline ord g ++ [me]).
  Proof.
    intros Hok Hm. split; [|split].
    - rewrite Permutation_app_comm. cbn. apply NoDup_cons. split; [|apply online_nodup].
      rewrite elem_of_online. intros H. destruct (Hm me) as [H1 _]. destruct H1; [eauto|congruence].
    - set_solver.
    - intros p. rewrite elem_of_app, elem_of_online, elem_of_list_singleton. intros [H|H]; [right|auto].
      destruct (Hm p) as [H1 _]. destruct H1; [eauto|]. split; [assumption|]. split; [assumption|].
      apply (ok_on _ _ Hok), H.
  Qed.

  Lemma jinv_done s j c c' g o :
    jinv s -> j_calls s !! j = Some c -> j_groups s !! j = Some g -> 
    jc_msg c' = jc_msg c -> jc_role c' = jc_role c -> jc_threshold c' = jc_threshold c ->
    (ok c g -> stage_ok (jc_set_stage (JDone o) c') g) -> jinv (done j o c' s).
  Proof.
    intros I Hc Hg H1 H2 H3 Hs. unfold done. eapply jinv_call; [exact I|exact Hc|exact H1|exact H2| |].
    - intros g0 Hg0 Hok. rewrite Hg in Hg0. injection Hg0 as <-. eapply ok_call_mono; [..|exact Hok]; auto.
    - congruence.
  Qed.

  Lemma jinv_finish_leader s j ord c g pids :
    jinv s -> j_calls s !! j = Some c -> j_groups s !! j = Some g -> jc_role c = RLeader pids ->
    jinv (finish_leader me j ord c g s).
  Proof.
    intros I Hc Hg Hr. unfold finish_leader. case_decide as Hn.
    - eapply jinv_done; try eassumption; try reflexivity. intros _. unfold stage_ok. cbn. rewrite Hr. left. auto.
    - destruct (Z.ltb_spec (Z.of_nat (length (getOnline ord g ++ [me]))) (jc_threshold c + 1)).
      + eapply jinv_done; try eassumption; try reflexivity. intros Hok. unfold stage_ok. cbn. rewrite Hr. right; right.
        pose proof (ok_role _ _ Hok) as Hro. unfold role_ok in Hro. rewrite Hr in Hro. destruct Hro as (_ & _ & _ & Hm).
        split; [reflexivity|]. split; [exact Hn|]. eexists. split; [reflexivity|]. split; [eapply online_sound; eauto|]. auto.
      + eapply jinv_done; try eassumption; try reflexivity. intros Hok. unfold stage_ok. cbn. rewrite Hr. right; left.
        pose proof (ok_role _ _ Hok) as Hro. unfold role_ok in Hro. rewrite Hr in Hro.
        destruct Hro as (Hl & Ht & _ & Hm).
        split; [reflexivity|]. split; [exact Hn|]. eexists. split; [reflexivity|]. split; [eapply online_sound; eauto|]. split; [|reflexivity].
        intros Hpos. destruct (ok_count _ _ Hok) as [Hc1 Hc2]; [congruence|].
        rewrite app_length in *. cbn in *. rewrite getOnline_perm in *. lia.
  Qed.

  Lemma jinv_finish_member s j c g l :
    jinv s -> j_calls s !! j = Some c -> j_groups s !! j = Some g -> jc_role c = RMember l ->
    jinv (finish_member peerDecode j c g s).
  Proof.
    intros I Hc Hg Hr. destruct (ji_group _ I _ _ Hg) as (c' & Hc' & Hok). rewrite Hc in Hc'. injection Hc' as <-.
    pose proof (ok_stage _ _ Hok) as Hst. unfold stage_ok in Hst. rewrite Hr in Hst.
    assert (C : forall st, stage_ok (jc_set_stage st c) g -> jinv (set_call j (jc_set_stage st c) s)).
    { intros st Hs. eapply jinv_call; [exact I|exact Hc|reflexivity|reflexivity| |congruence].
      intros g0 Hg0 _. rewrite Hg in Hg0. injection Hg0 as <-. eapply ok_call_mono; [..|exact Hok]; auto. }
    unfold finish_member, done. destruct (jc_stage c) as [| | |ids|] eqn:Est; try exact I.
    - destruct (g_resp g) as [lm|] eqn:Ere.
      + case_decide; apply C; unfold stage_ok; cbn; rewrite Hr; [auto 6|congruence].
      + apply C; unfold stage_ok; cbn; rewrite Hr; auto.
    - destruct (g_resp g) as [lm|] eqn:Ere; [|exact I].
      destruct (getPeerIDs peerDecode (lm_peers lm)) as [pids|] eqn:Eg.
      + pose proof (ok_resp _ _ Hok _ Ere) as Hsaid.
        assert (told c g pids) by (exists lm; auto).
        destruct (Z.ltb_spec (Z.of_nat (length pids)) (jc_threshold c)); apply C; unfold stage_ok; cbn; rewrite Hr.
        * do 3 right. left. split; [reflexivity|]. exists pids. auto.
        * split; [congruence|]. auto.
      + apply C; unfold stage_ok; cbn; rewrite Hr; auto 6.
    - destruct (g_resp g) as [lm|] eqn:Ere; [|exact I]. pose proof (ok_resp _ _ Hok _ Ere) as Hsaid.
      destruct Hst as (_ & Ht & Hle).
      destruct (Nat.eqb_spec (lm_type lm) JoinParty_Success); apply C; unfold stage_ok; cbn; rewrite Hr;
        do 4 right; exists ids, lm; auto 8.
  Qed.

  Lemma jinv_unindex s id : jinv s -> jinv (JState (j_groups s) (delete id (j_index s)) (j_calls s) (j_handlers s)).
  Proof.
    intros []. split; cbn; auto. intros id' j H. apply lookup_delete_Some in H as [_ H]. eauto.
  Qed.

  Lemma jinv_finish_leaderless s j ord c g pids :
    jinv s -> j_calls s !! j = Some c -> j_groups s !! j = Some g -> jc_role c = RLeaderless pids ->
    jinv (finish_leaderless me j ord (length pids) c g s).
  Proof.
    intros I Hc Hg Hr. unfold finish_leaderless. apply jinv_unindex.
    eapply jinv_done; try eassumption; try reflexivity. intros Hok. unfold stage_ok. cbn. rewrite Hr.
    pose proof (ok_role _ _ Hok) as Hro. unfold role_ok in Hro. rewrite Hr in Hro. destruct Hro as (_ & _ & Hm).
    eexists. split; [reflexivity|]. split; [eapply online_sound; eauto|].
    destruct (Nat.eqb_spec (length (getOnline ord g ++ [me])) (length pids)); auto.
  Qed.

  Lemma jinv_finish s j ord : jinv s -> jinv (finish peerDecode me j ord s).
  Proof.
    intros I. unfold finish. destruct (j_calls s !! j) as [c|] eqn:Ec; [|exact I].
    destruct (j_groups s !! j) as [g|] eqn:Eg; [|exact I]. destruct (jc_role c) eqn:Er.
    - destruct (jc_stage c); try exact I. eapply jinv_finish_leader; eauto.
    - eapply jinv_finish_member; eauto.
    - destruct (jc_stage c); try exact I. eapply jinv_finish_leaderless; eauto.
  Qed.

  Lemma mapM_length {A B} (f : A -> option B) l k : mapM f l = Some k -> length k = length l.
  Proof. intros H. apply mapM_Some in H. symmetry. eapply Forall2_length, H. Qed.

  Lemma jinv_step l s : jinv s -> jinv (step l s).
  Proof.
    intros I. destruct l as [j id h ps t|j id ps|j x|h p m|h|j|j|j|j ord]; cbn [jstep].
    - destruct (j_calls s !! j) eqn:Ec; [exact I|]. unfold JoinPartyWithLeader.
      destruct (LeaderNode sha id h ps) as [leader|] eqn:El.
      + case_decide as Hl.
        * apply jinv_start; auto.
        * apply jinv_start; auto. intros pids Hp. apply mapM_length in Hp. auto.
      + assert (Hgn : j_groups s !! j = None).
        { destruct (j_groups s !! j) eqn:E; [|reflexivity]. destruct (ji_group _ I _ _ E) as (c & Hc & _). congruence. }
        destruct I. split; cbn [set_call j_groups j_calls j_index j_handlers]; auto.
        * intros j' g Hg. rewrite lookup_insert_ne by congruence. eauto.
        * intros id' j' Hi. destruct (ji_index0 _ _ Hi) as (c & Hc & H).
          rewrite lookup_insert_ne by congruence. eauto.
        * intros j' g c n Hg. rewrite lookup_insert_ne by congruence. eauto.
        * intros j' c. destruct (decide (j' = j)) as [->|Hne].
          -- rewrite lookup_insert. intros [= <-] _. cbn. exists EInvalid. split; [reflexivity|discriminate].
          -- rewrite lookup_insert_ne by congruence. eauto.
    - destruct (j_calls s !! j) eqn:Ec; [exact I|]. apply jinv_start; auto.
    - destruct (j_calls s !! j) eqn:Ec; [|exact I]. apply jinv_lsig; auto.
    - destruct (j_handlers s !! h) eqn:Eh; [exact I|]. case_decide as Hp; [exact I|].
      apply jinv_dispatch; auto.
    - apply jinv_handle, I.
    - apply jinv_notify, I.
    - apply jinv_timeout, I.
    - apply jinv_sig, I.
    - apply jinv_finish, I.
  Qed.

  Lemma run_snoc ls l : run (ls ++ [l]) = step l (run ls).
  Proof. unfold jrun. rewrite fold_left_app. reflexivity. Qed.

  Theorem jinv_run ls : jinv (run ls).
  Proof.
    induction ls as [|l ls IH] using rev_ind; [apply jinv_init|]. rewrite run_snoc. apply jinv_step, IH.
  Qed.
End inv.
