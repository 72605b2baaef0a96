(** Invariant of the message handling. *)
From Coq Require Import ZArith Ascii String List Lia.
From stdpp Require Import base list strings gmap.
From Verif Require Import Base L_Base S_Threshold M_Common S_Common.

(** ** Counting confirmations *)

Lemma NoDup_fst_filter {A B} (P : A * B -> Prop) `{forall x, Decision (P x)} (l : list (A * B)) :
  NoDup l.*1 -> NoDup (filter P l).*1.
Proof.
  induction l as [|x l IH]; [auto|]. rewrite filter_cons, fmap_cons.
  intros Hn. apply NoDup_cons in Hn as [Hx Hn].
  destruct (decide (P x)); [|auto]. rewrite fmap_cons. apply NoDup_cons. split; [|auto]. intros Hin. apply Hx.
  apply elem_of_list_fmap in Hin as (y & Hy & Hin). apply elem_of_list_filter in Hin as [_ Hin].
  rewrite Hy. apply elem_of_list_fmap. eauto.
Qed.

Lemma votes_for_count h votes : votes_for h votes = count_votes h votes.
Proof.
  unfold votes_for, count_votes.
  rewrite map_filter_alt.
  unfold size, map_size.
  rewrite map_to_list_to_map.
  2:{ apply NoDup_fst_filter, NoDup_fst_map_to_list. }
  generalize (map_to_list votes). intros l. induction l as [|[p x] l IH]; [reflexivity|].
  rewrite filter_cons. cbn [map snd]. rewrite filter_cons. cbn [snd].
  destruct (decide (x = h)); cbn [length]; congruence.
Qed.

Lemma best_freq_spec l : forall d m,
  let '(h, f) := best_freq l d m in
  (m <= f)%Z /\ (forall x n, (x, n) ∈ l -> (Z.of_nat n <= f)%Z) /\
  ((h, f) = (d, m) \/ exists n, (h, n) ∈ l /\ f = Z.of_nat n).
Proof.
  induction l as [|[x n] l IH]; intros d m; cbn [best_freq].
  - split; [lia|]. split; [intros ? ? Hin; inversion Hin|auto].
  - destruct (Z.ltb_spec m (Z.of_nat n)) as [Hlt|Hge].
    + specialize (IH x (Z.of_nat n)). destruct (best_freq l x (Z.of_nat n)) as [h f].
      destruct IH as (H1 & H2 & H3). split; [lia|]. split.
      * intros y k Hin. apply elem_of_cons in Hin as [Heq|Hin]; [injection Heq; intros; subst; lia|eauto].
      * right. destruct H3 as [Heq|(k & Hin & ->)].
        -- injection Heq; intros; subst. exists n. split; [left|reflexivity].
        -- exists k. split; [right; exact Hin|reflexivity].
    + specialize (IH d m). destruct (best_freq l d m) as [h f].
      destruct IH as (H1 & H2 & H3). split; [lia|]. split.
      * intros y k Hin. apply elem_of_cons in Hin as [Heq|Hin]; [injection Heq; intros; subst; lia|eauto].
      * destruct H3 as [Heq|(k & Hin & ->)]; [left; exact Heq|].
        right. exists k. split; [right; exact Hin|reflexivity].
Qed.

Lemma count_votes_zero h votes :
  h ∉ map snd (map_to_list votes) -> count_votes h votes = 0.
Proof.
  unfold count_votes. generalize (map snd (map_to_list votes)). intros l Hn.
  induction l as [|x l IH]; [reflexivity|].
  rewrite filter_cons. destruct (decide (x = h)) as [->|].
  - exfalso. apply Hn. left.
  - apply IH. intros Hin. apply Hn. right. exact Hin.
Qed.

Lemma getHighestFreq_spec ord votes h f :
  getHighestFreq ord votes = Some (h, f) ->
  f = Z.of_nat (count_votes h votes) /\
  (forall x, count_votes x votes <= count_votes h votes) /\
  h ∈ map snd (map_to_list votes).
Proof.
  unfold getHighestFreq. destruct (Nat.eqb_spec (size votes) 0) as [|Hne]; [discriminate|].
  set (hs := map snd (map_to_list votes)).
  set (fr := map (fun h => (h, count_votes h votes)) (remove_dups hs)).
  intros Heq. injection Heq as Heq.
  pose proof (best_freq_spec (permute ord fr) EmptyString (-1)) as Hb.
  rewrite Heq in Hb. destruct Hb as (H1 & H2 & H3).
  assert (Hperm : forall y, y ∈ permute ord fr <-> y ∈ fr).
  { intros y. rewrite (permute_perm ord fr). reflexivity. }
  assert (Hfr : forall x n, (x, n) ∈ fr <-> x ∈ hs /\ n = count_votes x votes).
  { intros x n. unfold fr. rewrite elem_of_list_fmap. split.
    - intros (y & Hy & Hin). injection Hy as -> ->. split; [|reflexivity].
      apply elem_of_remove_dups. exact Hin.
    - intros [Hin ->]. exists x. split; [reflexivity|]. apply elem_of_remove_dups. exact Hin. }
  assert (Hmem : exists n, (h, n) ∈ fr /\ f = Z.of_nat n).
  { destruct H3 as [Hd|(n & Hin & ->)].
    - exfalso. injection Hd as -> ->.
      assert (exists x, x ∈ hs) as [x Hx].
      { unfold hs. destruct (map_to_list votes) as [|y l] eqn:Hl.
        - exfalso. apply Hne. unfold size, map_size. rewrite Hl. reflexivity.
        - exists (snd y). left. }
      assert (Hin : (x, count_votes x votes) ∈ permute ord fr).
      { apply Hperm, Hfr. split; [exact Hx|reflexivity]. }
      apply H2 in Hin. lia.
    - exists n. split; [apply Hperm; exact Hin|reflexivity]. }
  destruct Hmem as (n & Hin & ->). apply Hfr in Hin as [Hin ->].
  split; [reflexivity|]. split; [|exact Hin].
  intros x. destruct (decide (x ∈ hs)) as [Hx|Hx].
  - assert (Hin' : (x, count_votes x votes) ∈ permute ord fr).
    { apply Hperm, Hfr. split; [exact Hx|reflexivity]. }
    apply H2 in Hin'. lia.
  - rewrite (count_votes_zero x votes Hx). lia.
Qed.

Lemma getHighestFreq_none ord votes :
  getHighestFreq ord votes = None -> size votes = 0.
Proof.
  unfold getHighestFreq. destruct (Nat.eqb_spec (size votes) 0) as [He|]; [auto|discriminate].
Qed.

(** ** Cache keys *)

Definition no_dash (id : string) : Prop := "-"%char ∉ to_bytes id.

Lemma split_dash (a b c d : list ascii) :
  "-"%char ∉ a -> "-"%char ∉ b -> a ++ "-"%char :: c = b ++ "-"%char :: d -> a = b /\ c = d.
Proof.
  revert b. induction a as [|x a IH]; intros [|y b] Ha Hb Heq; cbn in Heq.
  - injection Heq as ->. auto.
  - injection Heq as <- _. exfalso. apply Hb. left.
  - injection Heq as -> _. exfalso. apply Ha. left.
  - injection Heq as -> Heq. apply IH in Heq as [-> ->]; [auto| |].
    + intros Hin. apply Ha. right. exact Hin.
    + intros Hin. apply Hb. right. exact Hin.
Qed.

Lemma cache_key_inj a r b q :
  no_dash a -> no_dash b -> cache_key a r = cache_key b q -> a = b /\ r = q.
Proof.
  unfold no_dash, cache_key. intros Ha Hb Heq.
  apply (f_equal to_bytes) in Heq. rewrite !to_bytes_app in Heq.
  change (to_bytes "-") with ["-"%char] in Heq.
  cbn [app] in Heq. apply split_dash in Heq as [H1 H2]; [|exact Ha|exact Hb].
  split; apply to_bytes_inj; assumption.
Qed.

(** ** The invariant *)

Section Inv.
  Variable E : env.
  Variable C : cfg.

  Section Hist.
    Variable H : string -> inmsg -> Prop.

    Definition bwire (k : string) (w : wire) (id : string) : Prop :=
      authentic E C H w id /\ is_broadcast w /\ names k w id.
    Definition wire_fine (w : wire) : Prop :=
      exists id, authentic E C H w id /\ (is_broadcast w -> has_quorum E C H w id).

    Definition cache_ok (m : gmap string item) : Prop :=
      forall k it, m !! k = Some it ->
        (forall p h, it_votes it !! p = Some h -> reported E C H p k h) /\
        (forall w, it_msg it = Some w -> exists id, bwire k w id /\ it_hash it = e_sha E (w_body w)).
    Definition stored_ok (m : gmap string wire) : Prop :=
      forall k w, m !! k = Some w -> exists id, bwire k w id /\ has_quorum E C H w id.
    Definition cur_ok (c : option cur) : Prop :=
      forall rest key w, c = Some (Cur rest key w) ->
        wire_fine w /\ (exists l pre, e_dec_bulk E (w_body w) = Some l /\ l = pre ++ rest).
    Definition job_ok (j : job) : Prop :=
      wire_fine (j_wire j) /\ listed E j /\
      (exists key, cf_parties C !! j_from j = Some key) /\
      j_ident j ∈ cf_sessions C.
    Definition jobs_ok (l : list job) : Prop := forall j, j ∈ l -> job_ok j.
    Definition node_ok (n : node) : Prop :=
      (n_data n = [] /\ n_sig n = []) \/
      exists id key w, cf_parties C !! id = Some key /\ e_pub E key = Some (n_pub n) /\
        authentic E C H w id /\ n_data n = w_body w /\ n_sig n = w_sig w.
    Definition blame_ok (b : blame) : Prop := forall n, n ∈ bl_nodes b -> node_ok n.

    Record inv (s : state) : Prop := Inv {
      i_cache : cache_ok (s_cache s);
      i_stored : stored_ok (s_stored s);
      i_cur : cur_ok (s_cur s);
      i_pending : jobs_ok (s_pending s);
      i_updated : jobs_ok (s_updated s);
      i_log : jobs_ok (s_log s);
      i_blame : (forall id, id ∈ dom (cf_parties C) -> no_dash id) -> blame_ok (s_blame s)
    }.

    Lemma is_broadcast_dec w : is_broadcast w \/ ~ is_broadcast w.
    Proof.
      destruct (w_routing w) as [[f to [|]]|] eqn:Hw.
      - left. exists f, to. exact Hw.
      - right. intros (f' & to' & Heq). congruence.
      - right. intros (f' & to' & Heq). congruence.
    Qed.

    Lemma cache_ok_insert m k it :
      cache_ok m ->
      (forall p h, it_votes it !! p = Some h -> reported E C H p k h) ->
      (forall w, it_msg it = Some w -> exists id, bwire k w id /\ it_hash it = e_sha E (w_body w)) ->
      cache_ok (<[k := it]> m).
    Proof.
      intros Hm Hv Hw k' it' Hl. destruct (decide (k' = k)) as [->|Hne].
      - rewrite lookup_insert in Hl. injection Hl as <-. auto.
      - rewrite lookup_insert_ne in Hl by congruence. apply (Hm _ _ Hl).
    Qed.

    Lemma cache_ok_delete m k : cache_ok m -> cache_ok (delete k m).
    Proof. intros Hm k' it' Hl. apply lookup_delete_Some in Hl as [_ Hl]. apply (Hm _ _ Hl). Qed.

    Lemma inv_set_cache f s : inv s -> cache_ok (f (s_cache s)) -> inv (set_cache f s).
    Proof. intros [] Hc. constructor; assumption. Qed.
    Lemma inv_set_stored f s : inv s -> stored_ok (f (s_stored s)) -> inv (set_stored f s).
    Proof. intros [] Hc. constructor; assumption. Qed.
    Lemma inv_set_requested f s : inv s -> inv (set_requested f s).
    Proof. intros []. constructor; assumption. Qed.
    Lemma inv_set_finished f s : inv s -> inv (set_finished f s).
    Proof. intros []. constructor; assumption. Qed.
    Lemma inv_set_closed f s : inv s -> inv (set_closed f s).
    Proof. intros []. constructor; assumption. Qed.
    Lemma inv_set_unicast f s : inv s -> inv (set_unicast f s).
    Proof. intros []. constructor; assumption. Qed.
    Lemma inv_set_accepted f s : inv s -> inv (set_accepted f s).
    Proof. intros []. constructor; assumption. Qed.
    Lemma inv_set_acclog f s : inv s -> inv (set_acclog f s).
    Proof. intros []. constructor; assumption. Qed.
    Lemma inv_set_batch f s : inv s -> inv (set_batch f s).
    Proof. intros []. constructor; assumption. Qed.
    Lemma inv_set_out f s : inv s -> inv (set_out f s).
    Proof. intros []. constructor; assumption. Qed.
    Lemma inv_set_culprits f s : inv s -> inv (set_culprits f s).
    Proof. intros []. constructor; assumption. Qed.
    Lemma inv_crash s : inv s -> inv (crash s).
    Proof. intros []. constructor; assumption. Qed.
    Lemma inv_set_cur c s : inv s -> cur_ok c -> inv (set_cur c s).
    Proof. intros [] Hc. constructor; assumption. Qed.
    Lemma inv_set_blame f s : inv s ->
      ((forall id, id ∈ dom (cf_parties C) -> no_dash id) -> blame_ok (f (s_blame s))) ->
      inv (set_blame f s).
    Proof. intros [] Hc. constructor; assumption. Qed.

    Lemma cur_ok_none : cur_ok None.
    Proof. intros ? ? ? Heq. discriminate. Qed.

    Lemma blame_ok_set reason nodes u b :
      blame_ok b -> (forall n, n ∈ nodes -> node_ok n) -> blame_ok (SetBlame reason nodes u b).
    Proof.
      intros Hb Hn n Hin. cbn in Hin. apply elem_of_app in Hin as [Hin|Hin]; auto.
    Qed.

    (** *** Handlers *)

    Lemma names_inj k w id id' : names k w id -> sent_by w id' -> id' = id.
    Proof.
      intros [(to & bc & H1) _] (to' & bc' & H2). rewrite H1 in H2. injection H2. congruence.
    Qed.

    Lemma inv_updateLocal w key s :
      inv s -> wire_fine w -> inv (fst (updateLocal E C w key s)).
    Proof.
      intros Hs Hw. unfold updateLocal.
      destruct (w_routing w) as [[[| |id] to bc]|]; cbn [fst]; auto using inv_crash.
      destruct (cf_parties C !! id) as [kb|]; cbn [fst]; auto using inv_crash.
      destruct (cf_id2peer C !! id) as [op|]; cbn [fst]; auto.
      assert (H1 : inv (if bc then s else SetLastUnicastPeer op (w_round w) s)).
      { destruct bc; [exact Hs|]. apply inv_set_unicast. exact Hs. }
      destruct (e_dec_bulk E (w_body w)) as [l|] eqn:Hd; cbn [fst]; [|exact H1].
      apply inv_set_cur; [apply inv_set_batch; exact H1|].
      intros rest k' w' Heq. injection Heq as <- <- <-.
      split; [exact Hw|]. exists l, []. auto.
    Qed.

    Lemma inv_update_one b rest key w s :
      inv s -> s_cur s = Some (Cur (b :: rest) key w) ->
      inv (fst (update_one E C b rest key w s)).
    Proof.
      intros Hs Hc. unfold update_one.
      pose proof (i_cur s Hs _ _ _ Hc) as [Hw (l & pre & Hl & Hpre)].
      destruct (bool_decide_reflect (b_ident b ∈ cf_sessions C)) as [Hses|]; cbn [fst].
      2:{ apply inv_set_cur; [exact Hs|apply cur_ok_none]. }
      destruct (b_routing b) as [[[| |id] to bc]|] eqn:Hr; cbn [fst]; auto using inv_crash.
      destruct (cf_parties C !! id) as [kb|] eqn:Hp; cbn [fst].
      2:{ apply inv_set_cur; [exact Hs|apply cur_ok_none]. }
      assert (Hcur : cur_ok (Some (Cur rest key w))).
      { intros rest' k' w' Heq. injection Heq as <- <- <-. split; [exact Hw|].
        exists l, (pre ++ [b]). rewrite <- app_assoc. auto. }
      destruct (GetMsgRound E (b_body b) id bc (b_ident b)) as [r|] eqn:Hg; cbn [fst].
      2:{ apply inv_set_cur; [exact Hs|apply cur_ok_none]. }
      destruct (CheckMsgDuplication r id s); cbn [fst].
      { apply inv_set_cur; [exact Hs|exact Hcur]. }
      destruct (existsb _ _); cbn [fst].
      { apply inv_set_cur; [exact Hs|apply cur_ok_none]. }
      apply inv_set_cur; [|exact Hcur].
      destruct Hs. constructor; try assumption. cbn.
      intros j Hj. apply elem_of_app in Hj as [Hj|Hj]; [auto|].
      apply elem_of_list_singleton in Hj as ->.
      split; [exact Hw|]. cbn. split; [|split; [exists kb; exact Hp|exact Hses]].
      exists l, b, to. cbn. rewrite Hr. split; [exact Hl|]. split; [|auto].
      rewrite Hpre. apply elem_of_app. right. left.
    Qed.

    Lemma inv_update_finish key s : inv s -> inv (fst (update_finish key s)).
    Proof.
      intros Hs. unfold update_finish. cbn [fst].
      apply inv_set_cur; [|apply cur_ok_none].
      destruct key as [k|]; [|exact Hs].
      apply inv_set_cache; [exact Hs|]. apply cache_ok_delete, (i_cache s Hs).
    Qed.

    Lemma inv_request peers msg req s : inv s -> inv (fst (processRequestMsgFromPeer peers msg req s)).
    Proof.
      intros Hs. unfold processRequestMsgFromPeer.
      destruct req; cbn [fst]; [apply inv_set_out; exact Hs|].
      destruct (s_stored s !! c_key msg); cbn [fst]; [apply inv_set_out; exact Hs|exact Hs].
    Qed.

    Lemma inv_requestShare ord votes th key t s :
      inv s -> inv (fst (requestShareFromPeer E ord votes th key t s)).
    Proof.
      intros Hs. unfold requestShareFromPeer.
      destruct (getMsgHash ord votes th); cbn [fst]; [|exact Hs].
      destruct (forallb _ _); cbn [fst]; [|exact Hs].
      destruct t; cbn [fst]; try (apply inv_set_out, inv_set_requested; exact Hs);
        apply inv_set_requested; exact Hs.
    Qed.

    Lemma hashCheck_item ord it owner th r it1 :
      hashCheck C ord it owner th = (r, it1) ->
      it_msg it1 = it_msg it /\ it_hash it1 = it_hash it /\
      (forall p h, it_votes it1 !! p = Some h -> it_votes it !! p = Some h).
    Proof.
      clear H. unfold hashCheck. intros Hh.
      assert (Hid : r = r -> it1 = it ->  it_msg it1 = it_msg it /\ it_hash it1 = it_hash it /\
        (forall p h, it_votes it1 !! p = Some h -> it_votes it !! p = Some h)).
      { intros _ ->. auto. }
      destruct (cf_id2peer C !! owner) as [op|]; [|injection Hh; auto].
      destruct (Z.ltb _ _); [injection Hh; auto|].
      destruct (it_votes it !! op).
      - injection Hh as <- <-. cbn. split; [reflexivity|]. split; [reflexivity|].
        intros p h Hl. apply lookup_delete_Some in Hl. tauto.
      - destruct (getMsgHash _ _ _); [|injection Hh; auto].
        destruct (String.eqb _ _); injection Hh; auto.
    Qed.

    Lemma hashCheck_ok ord it owner th it1 :
      hashCheck C ord it owner th = (HOk, it1) ->
      it1 = it /\ exists op, cf_id2peer C !! owner = Some op /\ it_votes it !! op = None /\
        (th <= Z.of_nat (size (it_votes it)))%Z /\
        (th - 1 <= Z.of_nat (votes_for (it_hash it) (it_votes it)))%Z /\
        (forall h, votes_for h (it_votes it) <= votes_for (it_hash it) (it_votes it)).
    Proof.
      unfold hashCheck. intros Hh.
      destruct (cf_id2peer C !! owner) as [op|]; [|discriminate].
      destruct (Z.ltb_spec (Z.of_nat (size (it_votes it))) th) as [|Hsz]; [discriminate|].
      destruct (it_votes it !! op) eqn:Hop; [discriminate|].
      destruct (getMsgHash ord (it_votes it) th) as [h|r] eqn:Hg; [|destruct r; discriminate Hh || idtac].
      - destruct (String.eqb_spec (it_hash it) h) as [Heq|]; [|discriminate].
        injection Hh as <-. split; [reflexivity|]. exists op.
        split; [reflexivity|]. split; [exact Hop|]. split; [exact Hsz|].
        unfold getMsgHash in Hg.
        destruct (getHighestFreq ord (it_votes it)) as [[h' f]|] eqn:Hf; [|discriminate].
        destruct (Z.ltb_spec f (th - 1)) as [|Hge]; [discriminate|].
        injection Hg as ->. apply getHighestFreq_spec in Hf as (-> & Hmax & _).
        rewrite Heq. rewrite !votes_for_count. split; [exact Hge|].
        intros x. rewrite votes_for_count. apply Hmax.
      - unfold getMsgHash in Hg.
        destruct (getHighestFreq ord (it_votes it)) as [[h' f]|]; [|discriminate].
        destruct (Z.ltb _ _); discriminate.
    Qed.

    Lemma inv_applyShare o1 o2 it w owner bc to key t s :
      inv s ->
      it_msg it = Some w ->
      w_routing w = Some (Routing (FId owner) to bc) ->
      (forall p h, it_votes it !! p = Some h -> reported E C H p key h) ->
      (exists id, bwire key w id) -> it_hash it = e_sha E (w_body w) ->
      inv (fst (applyShare E C o1 o2 it w owner bc key t s)).
    Proof.
      intros Hs Hm Hr Hv [id Hb] Hh. unfold applyShare.
      destruct (hashCheck C o1 it owner (cf_threshold C)) as [r it1] eqn:Hc.
      pose proof (hashCheck_item _ _ _ _ _ _ Hc) as (Hm1 & Hh1 & Hv1).
      assert (Hid : owner = id).
      { destruct Hb as (_ & _ & Hn). eapply names_inj; [exact Hn|]. exists to, bc. exact Hr. }
      subst owner.
      assert (Hs1 : inv (set_cache (<[key := it1]>) s)).
      { apply inv_set_cache; [exact Hs|]. apply cache_ok_insert; [apply (i_cache s Hs)| |].
        - intros p h Hl. apply Hv, Hv1, Hl.
        - intros w' Hw'. rewrite Hm1, Hm in Hw'. injection Hw' as <-.
          exists id. split; [exact Hb|]. congruence. }
      assert (Hnode : forall pk, TssWrongShareBlame E C id = Some pk ->
                node_ok (Node pk (w_body w) (w_sig w))).
      { intros pk Hpk. unfold TssWrongShareBlame in Hpk.
        destruct (cf_parties C !! id) as [kb|] eqn:Hk; [|discriminate].
        right. exists id, kb, w. split; [exact Hk|]. split; [exact Hpk|].
        split; [exact (proj1 Hb)|auto]. }
      assert (Hblame : inv (fst match TssWrongShareBlame E C id with
        | None => (set_blame (SetBlame HashCheckFail [] (negb bc)) (set_cache (<[key := it1]>) s),
                   RErr "error in getting the blame nodes")
        | Some pk =>
            (set_blame (SetBlame HashCheckFail [Node pk (w_body w) (w_sig w)] (negb bc))
               (set_cache (<[key := it1]>) s), RErr "error in processing hash check")
        end)).
      { destruct (TssWrongShareBlame E C id) as [pk|] eqn:Hpk; cbn [fst];
          (apply inv_set_blame; [exact Hs1|]); intros Hwf;
          (apply blame_ok_set; [apply (i_blame _ Hs1 Hwf)|]).
        - intros n Hin. apply elem_of_list_singleton in Hin as ->. auto.
        - intros n Hin. inversion Hin. }
      destruct r; try exact Hblame.
      - (* HOk *)
        apply hashCheck_ok in Hc as (-> & op & Hop & Hnone & Hsz & Hq & Hmax).
        assert (Hquorum : has_quorum E C H w id).
        { exists key, op, (it_votes it). split; [exact (proj2 (proj2 Hb))|].
          split; [exact Hop|]. split; [exact Hv|]. split; [exact Hnone|].
          rewrite Hh in Hq, Hmax. auto. }
        apply inv_updateLocal.
        + apply inv_set_stored; [exact Hs1|].
          intros k' w' Hl. destruct (decide (k' = key)) as [->|Hne].
          * cbn in Hl. rewrite lookup_insert in Hl. injection Hl as <-. exists id. auto.
          * cbn in Hl. rewrite lookup_insert_ne in Hl by congruence. apply (i_stored _ Hs1 _ _ Hl).
        + exists id. split; [exact (proj1 Hb)|]. intros _. exact Hquorum.
      - exact Hs1.
      - (* HNotMajority *)
        apply inv_requestShare. apply inv_set_cache; [exact Hs1|].
        apply cache_ok_insert; [apply (i_cache _ Hs1)| |].
        + cbn. intros p h Hl. apply Hv, Hv1, Hl.
        + cbn. discriminate.
    Qed.

    Lemma inv_processVerMsg o1 o2 peer v t s :
      inv s -> H peer (MVer t (Some v)) -> inv (fst (processVerMsg E C o1 o2 peer v t s)).
    Proof.
      intros Hs Hh. unfold processVerMsg. cbn zeta. cbn [it_msg it_votes].
      set (it0 := match s_cache s !! v_key v with Some it => it | None => Item None (v_hash v) ∅ end).
      set (it := Item (it_msg it0) (it_hash it0) (<[peer := v_hash v]> (it_votes it0))).
      assert (H0 : (forall p h, it_votes it0 !! p = Some h -> reported E C H p (v_key v) h) /\
        (forall w, it_msg it0 = Some w -> exists id, bwire (v_key v) w id /\ it_hash it0 = e_sha E (w_body w))).
      { unfold it0. destruct (s_cache s !! v_key v) as [i|] eqn:Hl; [apply (i_cache s Hs _ _ Hl)|].
        split; cbn; [intros p h Hl'; rewrite lookup_empty in Hl'; discriminate|discriminate]. }
      destruct H0 as [Hv0 Hw0].
      assert (Hv : forall p h, it_votes it !! p = Some h -> reported E C H p (v_key v) h).
      { cbn. intros p h Hl. destruct (decide (p = peer)) as [->|Hne].
        - rewrite lookup_insert in Hl. injection Hl as <-. left. exists t, v. auto.
        - rewrite lookup_insert_ne in Hl by congruence. auto. }
      assert (Hs1 : inv (set_cache (<[v_key v := it]>) s)).
      { apply inv_set_cache; [exact Hs|]. apply cache_ok_insert; [apply (i_cache s Hs)|exact Hv|].
        exact Hw0. }
      destruct (it_msg it0) as [w|] eqn:Hm.
      - destruct (Hw0 w eq_refl) as (id & Hb & Hhash).
        pose proof Hb as (_ & _ & [(to & bc & Hr) _]). rewrite Hr.
        apply inv_applyShare with (to := to); [exact Hs1|unfold it; reflexivity|exact Hr|exact Hv| |exact Hhash].
        exists id. exact Hb.
      - apply inv_requestShare. exact Hs1.
    Qed.

    Lemma inv_receiverBroadcast w owner t s :
      inv s -> inv (receiverBroadcastHashToPeers E C w owner t s).
    Proof.
      intros Hs. unfold receiverBroadcastHashToPeers.
      destruct (cf_id2peer C !! owner); [|exact Hs].
      destruct (filter _ _); [exact Hs|]. apply inv_set_out. exact Hs.
    Qed.

    Lemma inv_processTSSMsg o1 o2 w t fwd s :
      inv s -> got H w -> inv (fst (processTSSMsg E C o1 o2 w t fwd s)).
    Proof.
      intros Hs Hgot. unfold processTSSMsg.
      destruct (w_routing w) as [[[| |owner] to bc]|] eqn:Hr; cbn [fst]; auto using inv_crash.
      destruct (cf_parties C !! owner) as [kb|] eqn:Hk; cbn [fst]; [|exact Hs].
      destruct (verifySignature E C kb (w_body w) (w_sig w)) eqn:Hsig; cbn [fst]; [|exact Hs].
      assert (Hauth : authentic E C H w owner).
      { split; [exact Hgot|]. split; [exists to, bc; exact Hr|]. exists kb. split; [exact Hk|exact Hsig]. }
      destruct bc.
      2:{ apply inv_updateLocal; [exact Hs|]. exists owner. split; [exact Hauth|].
          intros (f & to' & Heq). congruence. }
      cbn zeta.
      set (s1 := if fwd then s else receiverBroadcastHashToPeers E C w owner t s).
      assert (Hs1 : inv s1) by (unfold s1; destruct fwd; auto using inv_receiverBroadcast).
      set (key := cache_key owner (w_round w)).
      assert (Hb : bwire key w owner).
      { split; [exact Hauth|]. split; [exists (FId owner), to; exact Hr|].
        split; [exists to, true; exact Hr|reflexivity]. }
      set (it0 := match s_cache s1 !! key with
                  | None => Item (Some w) (e_sha E (w_body w)) ∅
                  | Some it => match it_msg it with
                               | None => Item (Some w) (e_sha E (w_body w)) (it_votes it)
                               | Some _ => it end end).
      assert (H0 : (forall p h, it_votes it0 !! p = Some h -> reported E C H p key h) /\
        exists w' id, it_msg it0 = Some w' /\ bwire key w' id /\ it_hash it0 = e_sha E (w_body w')).
      { unfold it0. destruct (s_cache s1 !! key) as [i|] eqn:Hl.
        - destruct (i_cache s1 Hs1 _ _ Hl) as [Hvi Hwi].
          destruct (it_msg i) as [w'|] eqn:Hmi.
          + split; [exact Hvi|]. destruct (Hwi w' eq_refl) as (id & Hb' & Hh').
            exists w', id. auto.
          + split; [exact Hvi|]. exists w, owner. auto.
        - split; [cbn; intros p h Hl'; rewrite lookup_empty in Hl'; discriminate|].
          exists w, owner. auto. }
      destruct H0 as [Hv0 (w' & id & Hm & Hb' & Hhash)].
      cbn [it_msg it_votes it_hash]. rewrite Hm.
      pose proof Hb' as (_ & _ & [(to' & bc' & Hr') _]). rewrite Hr'.
      set (it := Item (Some w') (it_hash it0) (<[cf_local C := e_sha E (w_body w)]> (it_votes it0))).
      assert (Hv : forall p h, it_votes it !! p = Some h -> reported E C H p key h).
      { cbn. intros p h Hl. destruct (decide (p = cf_local C)) as [->|Hne].
        - rewrite lookup_insert in Hl. injection Hl as <-. right. split; [reflexivity|].
          exists w, owner. destruct Hb as (? & ? & ?). auto.
        - rewrite lookup_insert_ne in Hl by congruence. auto. }
      apply inv_applyShare with (to := to'); [|reflexivity|exact Hr'|exact Hv| |exact Hhash].
      - apply inv_set_cache; [exact Hs1|]. apply cache_ok_insert; [apply (i_cache s1 Hs1)|exact Hv|].
        cbn. intros w'' Heq. injection Heq as <-. exists id. auto.
      - exists id. exact Hb'.
    Qed.

    Lemma inv_ProcessOneMessage o1 o2 m peer s :
      inv s -> H peer m -> inv (fst (ProcessOneMessage E C o1 o2 m peer s)).
    Proof.
      intros Hs Hh. unfold ProcessOneMessage.
      destruct m as [t [w|]|t [v|]|[[|]|]|[c|]| |]; cbn [fst]; auto.
      - apply inv_processTSSMsg; [exact Hs|]. exists peer, (MShare t (Some w)).
        split; [exact Hh|]. left. exists t. reflexivity.
      - destruct (s_cache s !! v_key v) as [it|]; [|apply inv_processVerMsg; assumption].
        destruct (it_votes it !! peer); [exact Hs|apply inv_processVerMsg; assumption].
      - destruct (bool_decide _); [exact Hs|]. cbn zeta.
        destruct (Z.eqb _ _); cbn [fst].
        + destruct (Nat.eqb _ _); [apply inv_set_closed|apply inv_crash]; apply inv_set_finished; exact Hs.
        + apply inv_set_finished. exact Hs.
      - destruct (c_msg c) as [w|] eqn:Hc.
        + destruct (bool_decide _); [|exact Hs].
          apply inv_processTSSMsg; [apply inv_set_requested; exact Hs|].
          exists peer, (MCtl (Some c)). split; [exact Hh|]. right. exists c. auto.
        + destruct (e_peer_ok E peer); [apply inv_request|]; exact Hs.
    Qed.

    Lemma AccPubKeys_spec ids : forall pks,
      AccPubKeysFromPartyIDs E C ids = Some pks ->
      Forall2 (fun id pk => exists key, cf_parties C !! id = Some key /\ e_pub E key = Some pk) ids pks.
    Proof.
      induction ids as [|id ids IH]; intros pks Ha; cbn in Ha.
      - injection Ha as <-. constructor.
      - destruct (cf_parties C !! id) as [kb|] eqn:Hk; [|discriminate].
        destruct (e_pub E kb) as [pk|] eqn:Hp; [|discriminate].
        destruct (AccPubKeysFromPartyIDs E C ids) as [l|] eqn:Hl; [|discriminate].
        injection Ha as <-. constructor; [eauto|]. apply IH. reflexivity.
    Qed.

    Lemma inv_processInvalid r cs s : inv s -> inv (processInvalidMsgBlame E C r cs s).
    Proof.
      intros Hs. unfold processInvalidMsgBlame.
      destruct (AccPubKeysFromPartyIDs E C (map cu_id cs)) as [pks|] eqn:Ha.
      2:{ apply inv_set_blame; [apply inv_set_culprits; exact Hs|]. intros Hwf.
          apply blame_ok_set; [exact (i_blame s Hs Hwf)|]. intros n Hin. inversion Hin. }
      apply inv_set_blame; [apply inv_set_culprits; exact Hs|]. intros Hwf.
      apply blame_ok_set; [exact (i_blame s Hs Hwf)|].
      apply AccPubKeys_spec in Ha. cbn [s_stored set_culprits].
      revert pks Ha. induction cs as [|c cs IH]; intros pks Ha n Hin.
      - inversion Ha. subst. inversion Hin.
      - cbn [map] in Ha. inversion Ha as [|id pk ids pks' Hid Hrest]; subst.
        destruct Hid as (kb & Hkb & Hpk). cbn [zip_with] in Hin.
        apply elem_of_cons in Hin as [->|Hin]; [|eapply IH; eassumption].
        destruct (s_stored s !! cache_key (cu_id c) (snd (fst r))) as [w|] eqn:Hst; [|left; auto].
        right. destruct (i_stored s Hs _ _ Hst) as (id & (Hauth & _ & [Hsent Hname]) & _).
        assert (Hdom : id ∈ dom (cf_parties C)).
        { destruct Hauth as (_ & _ & kb' & Hk' & _). apply elem_of_dom. eauto. }
        assert (Hdom' : cu_id c ∈ dom (cf_parties C)) by (apply elem_of_dom; eauto).
        apply cache_key_inj in Hname as [Heq _]; [|auto|auto]. subst id.
        exists (cu_id c), kb, w. cbn. auto.
    Qed.

    Lemma jobs_ok_delete k l : jobs_ok l -> jobs_ok (delete k l).
    Proof.
      intros Hl j Hj. apply Hl. revert k Hj. induction l as [|x l IH]; intros [|k] Hj; cbn in Hj.
      - exact Hj.
      - exact Hj.
      - right. exact Hj.
      - apply elem_of_cons in Hj as [->|Hj]; [left|right].
        apply (IH (fun j Hin => Hl j (elem_of_list_further _ _ _ Hin)) k Hj).
    Qed.

    Lemma inv_work k res s : inv s -> inv (work E C k res s).
    Proof.
      intros Hs. unfold work. destruct (s_pending s !! k) as [j|] eqn:Hj; [|exact Hs].
      assert (Hs1 : inv (set_pending (fun l => delete k l) s)).
      { destruct Hs. constructor; try assumption. cbn. apply jobs_ok_delete. assumption. }
      assert (Hjok : job_ok j) by (apply (i_pending s Hs); eapply elem_of_list_lookup_2; exact Hj).
      destruct (GetMsgRound E (j_body j) (j_from j) (j_bcast j) (j_ident j)); [|exact Hs1].
      assert (Hs2 : inv (set_log (fun l => l ++ [j]) (set_pending (fun l => delete k l) s))).
      { destruct Hs1. constructor; try assumption. cbn.
        intros j' Hj'. apply elem_of_app in Hj' as [Hj'|Hj']; [apply i_log0; exact Hj'|].
        apply elem_of_list_singleton in Hj' as ->. exact Hjok. }
      destruct res as [cs|]; [apply inv_processInvalid; exact Hs2|].
      destruct Hs2. constructor; try assumption. cbn.
      intros j' Hj'. apply elem_of_app in Hj' as [Hj'|Hj']; [apply i_updated0; exact Hj'|].
      apply elem_of_list_singleton in Hj' as ->. exact Hjok.
    Qed.

    Lemma inv_accept k s : inv s -> inv (accept E k s).
    Proof.
      intros Hs. unfold accept. destruct (s_updated s !! k) as [j|] eqn:Hj; [|exact Hs].
      assert (Hs1 : inv (set_updated (fun l => delete k l) s)).
      { destruct Hs. constructor; try assumption. cbn. apply jobs_ok_delete. assumption. }
      destruct (GetMsgRound _ _ _ _ _); [|exact Hs1].
      apply inv_set_acclog, inv_set_accepted. exact Hs1.
    Qed.
  End Hist.

  (** *** Growing histories *)

  Lemma got_mono (H H' : string -> inmsg -> Prop) w :
    (forall p m, H p m -> H' p m) -> got H w -> got H' w.
  Proof. intros Hm (p & m & ? & ?). exists p, m. auto. Qed.
  Lemma authentic_mono (H H' : string -> inmsg -> Prop) w id :
    (forall p m, H p m -> H' p m) -> authentic E C H w id -> authentic E C H' w id.
  Proof. intros Hm (? & ? & ?). split; [eapply got_mono; eauto|auto]. Qed.
  Lemma reported_mono (H H' : string -> inmsg -> Prop) p k h :
    (forall p m, H p m -> H' p m) -> reported E C H p k h -> reported E C H' p k h.
  Proof.
    intros Hm [(t & v & ? & ? & ?)|(-> & w & id & Ha & ?)]; [left; exists t, v; auto|].
    right. split; [reflexivity|]. exists w, id. split; [eapply authentic_mono; eauto|auto].
  Qed.
  Lemma has_quorum_mono (H H' : string -> inmsg -> Prop) w id :
    (forall p m, H p m -> H' p m) -> has_quorum E C H w id -> has_quorum E C H' w id.
  Proof.
    intros Hm (k & op & votes & H1 & H2 & H3 & H4). exists k, op, votes.
    split; [exact H1|]. split; [exact H2|]. split; [|exact H4].
    intros p h Hl. eapply reported_mono; eauto.
  Qed.
  Lemma wire_fine_mono (H H' : string -> inmsg -> Prop) w :
    (forall p m, H p m -> H' p m) -> wire_fine H w -> wire_fine H' w.
  Proof.
    intros Hm (id & Ha & Hq). exists id. split; [eapply authentic_mono; eauto|].
    intros Hb. eapply has_quorum_mono; eauto.
  Qed.
  Lemma job_ok_mono (H H' : string -> inmsg -> Prop) j :
    (forall p m, H p m -> H' p m) -> job_ok H j -> job_ok H' j.
  Proof. intros Hm (Hw & ? & ?). split; [eapply wire_fine_mono; eauto|auto]. Qed.
  Lemma bwire_mono (H H' : string -> inmsg -> Prop) k w id :
    (forall p m, H p m -> H' p m) -> bwire H k w id -> bwire H' k w id.
  Proof. intros Hm (? & ? & ?). split; [eapply authentic_mono; eauto|auto]. Qed.

  Lemma inv_mono (H H' : string -> inmsg -> Prop) s :
    (forall p m, H p m -> H' p m) -> inv H s -> inv H' s.
  Proof.
    intros Hm [Hc Hst Hcur Hp Hu Hl Hb]. constructor.
    - intros k it Hk. destruct (Hc k it Hk) as [Hv Hw]. split.
      + intros p h Hph. eapply reported_mono; eauto.
      + intros w Hwm. destruct (Hw w Hwm) as (id & Hbw & Heq). exists id.
        split; [eapply bwire_mono; eauto|exact Heq].
    - intros k w Hk. destruct (Hst k w Hk) as (id & Hbw & Hq). exists id.
      split; [eapply bwire_mono; eauto|eapply has_quorum_mono; eauto].
    - intros rest key w Heq. destruct (Hcur _ _ _ Heq) as [Hw Hl']. split; [eapply wire_fine_mono; eauto|exact Hl'].
    - intros j Hj. eapply job_ok_mono; eauto.
    - intros j Hj. eapply job_ok_mono; eauto.
    - intros j Hj. eapply job_ok_mono; eauto.
    - intros Hwf n Hn. destruct (Hb Hwf n Hn) as [Hl'|(id & kb & w & ? & ? & ? & ?)]; [left; exact Hl'|].
      right. exists id, kb, w. split; [assumption|]. split; [assumption|].
      split; [eapply authentic_mono; eauto|assumption].
  Qed.

  Lemma run_snoc tr l : run E C (tr ++ [l]) = step E C (run E C tr) l.
  Proof. unfold run. rewrite foldl_app. reflexivity. Qed.

  Lemma handled_snoc tr l p m : handled E C tr p m -> handled E C (tr ++ [l]) p m.
  Proof.
    intros (tr1 & o1 & o2 & tr2 & -> & Hc & Hx). exists tr1, o1, o2, (tr2 ++ [l]).
    rewrite <- app_assoc. auto.
  Qed.

  Lemma inv_init H : inv H init_state.
  Proof.
    constructor; cbn.
    - intros k it Hl. rewrite lookup_empty in Hl. discriminate.
    - intros k it Hl. rewrite lookup_empty in Hl. discriminate.
    - apply cur_ok_none.
    - intros j Hj. inversion Hj.
    - intros j Hj. inversion Hj.
    - intros j Hj. inversion Hj.
    - intros _ n Hn. inversion Hn.
  Qed.

  Lemma inv_step tr l :
    inv (handled E C tr) (run E C tr) ->
    inv (handled E C (tr ++ [l])) (step E C (run E C tr) l).
  Proof.
    intros Hi.
    assert (Hs : inv (handled E C (tr ++ [l])) (run E C tr)).
    { eapply inv_mono; [|exact Hi]. intros p m. apply handled_snoc. }
    unfold step. destruct (s_crash (run E C tr)) eqn:Hcr; [exact Hs|].
    destruct l as [o1 o2 peer m| | |k res|k].
    - destruct (s_cur (run E C tr)) eqn:Hcur; [exact Hs|].
      apply inv_ProcessOneMessage; [exact Hs|].
      exists tr, o1, o2, []. auto.
    - destruct (s_cur (run E C tr)) as [[[|b rest] key w]|] eqn:Hcur; try exact Hs.
      apply inv_update_one; assumption.
    - destruct (s_cur (run E C tr)) as [[[|b rest] key w]|] eqn:Hcur; try exact Hs.
      destruct (batch_done (run E C tr)); [|exact Hs]. apply inv_update_finish. exact Hs.
    - apply inv_work. exact Hs.
    - apply inv_accept. exact Hs.
  Qed.

  Lemma inv_run tr : inv (handled E C tr) (run E C tr).
  Proof.
    induction tr as [|l tr IH] using rev_ind.
    - apply inv_init.
    - rewrite run_snoc. apply inv_step. exact IH.
  Qed.
End Inv.
