(** Lemmas about a ceremony of honest nodes: it comes to rest. *)
From Coq Require Import ZArith NArith Ascii String List Lia Relation_Operators Lexicographic_Product.
From stdpp Require Import base list strings gmap.
From Verif Require Import Base L_Base S_Threshold M_Common S_Common L_Common L_Common2 L_Common3 M_Honest S_Honest
  L_Honest L_Honest2 L_Honest3.

Section Rest.
  Context (E : env) (N : ceremony).
  Hypothesis Hwf : well_formed E N.
  Notation at_node := (at_node E N).
  Notation n := (size (ce_peers N)).

  (** ** What a message can cause *)
  Definition weight (m : inmsg) : nat :=
    match m with
    | MShare _ _ => 1 + n * (1 + 2 * n)
    | MVer _ _ => 1 + 2 * n
    | MCtl (Some c) => match c_msg c with None => 2 | Some _ => 1 end
    | _ => 1
    end.
  Definition out_weight (o : out) : nat := length (o_peers o) * weight (o_msg o).
  Definition air_weight (l : list (string * string * inmsg)) : nat :=
    list_sum (map (fun f => weight f.2) l).

  Lemma air_weight_app l1 l2 : air_weight (l1 ++ l2) = air_weight l1 + air_weight l2.
  Proof. unfold air_weight. rewrite map_app, list_sum_app. reflexivity. Qed.
  Lemma frames_weight p m to : air_weight (frames p m to) = length to * weight m.
  Proof. induction to as [|q to IH]; [reflexivity|]. unfold air_weight, frames in *. cbn [map].
    change (weight m + list_sum (map (fun f => weight f.2) (map (fun q => (p, q, m)) to)) = length (q :: to) * weight m).
    rewrite IH. reflexivity.
  Qed.
  Lemma frames_of_weight p outs : air_weight (frames_of p outs) = list_sum (map out_weight outs).
  Proof.
    induction outs as [|o outs IH]; [reflexivity|]. unfold frames_of in *. cbn [flat_map map].
    rewrite air_weight_app, IH, frames_weight. reflexivity.
  Qed.

  Section Node.
    Context (S : list sending) (q : string).
    Hypothesis HS : fair E N S.
    Hypothesis Hq : member N q.
    Notation C := (cfg_of N q).

    Lemma out_updateLocal w key s : s_out (fst (updateLocal E C w key s)) = s_out s.
    Proof.
      unfold updateLocal. destruct (w_routing w) as [[[| |id] to bc]|]; try reflexivity.
      destruct (cf_parties C !! id); [|reflexivity]. destruct (cf_id2peer C !! id); [|reflexivity].
      destruct (e_dec_bulk E (w_body w)); destruct bc; reflexivity.
    Qed.

    Lemma out_applyShare o1 o2 s it x op w bc key t :
      bsent N S x op -> it_msg it = Some w -> it_votes it <> ∅ ->
      (forall p h, it_votes it !! p = Some h -> h = hash_of E x /\ p <> op /\ member N p) ->
      it_hash it = hash_of E x ->
      s_out (fst (applyShare E C o1 o2 it w (sn_id x) bc key t s)) = s_out s.
    Proof.
      intros Hbs Hm Hne Hv Hh. unfold applyShare.
      rewrite (hashCheck_honest E N q S o1 it x op w) by assumption.
      destruct (Z.ltb _ _); [reflexivity|]. rewrite out_updateLocal. reflexivity.
    Qed.

    Lemma voters (m : gmap string string) : (forall p h, m !! p = Some h -> member N p) -> size m <= n.
    Proof.
      intros Hm. rewrite <- (size_dom (D := gset string)).
      assert (Hsub : dom m ⊆ list_to_set (C := gset string) (map snd (map_to_list (ce_peers N)))).
      { intros p Hp. apply elem_of_dom in Hp as [h Hp]. destruct (Hm _ _ Hp) as [id Hid].
        apply elem_of_list_to_set, elem_of_list_In, in_map_iff. exists (id, p). split; [reflexivity|].
        apply elem_of_list_In, elem_of_map_to_list. exact Hid. }
      apply subseteq_size in Hsub. rewrite size_list_to_set in Hsub by (eapply peers_NoDup; exact Hwf).
      rewrite map_length in Hsub. exact Hsub.
    Qed.

    Lemma out_request ord votes key t s : (forall p h, votes !! p = Some h -> member N p) ->
      exists outs, s_out (fst (requestShareFromPeer E ord votes (cf_threshold C) key t s)) = (s_out s ++ outs)%list /\
        list_sum (map out_weight outs) <= 2 * n.
    Proof.
      intros Hv. unfold requestShareFromPeer.
      assert (Hnil : forall s' : state, s_out s' = s_out s -> exists outs, s_out s' = (s_out s ++ outs)%list /\
                list_sum (map out_weight outs) <= 2 * n).
      { intros s' Hs. exists []. rewrite app_nil_r. cbn. split; [exact Hs|lia]. }
      destruct (getMsgHash ord votes (cf_threshold C)) as [h|]; [|apply Hnil; reflexivity].
      set (peers := map fst _). destruct (forallb (e_peer_ok E) peers); [|apply Hnil; reflexivity].
      assert (Hlen : length peers <= n).
      { unfold peers. rewrite map_length. etransitivity; [apply filter_length|]. apply (voters votes Hv). }
      assert (Hs : forall rt, exists outs, s_out (fst (processRequestMsgFromPeer peers (Control h key rt None) true
                     (set_requested (fun r => {[h]} ∪ r) s))) = (s_out s ++ outs)%list /\
                     list_sum (map out_weight outs) <= 2 * n).
      { intros rt. exists [Out (MCtl (Some (Control h key rt None))) peers]. split; [reflexivity|].
        cbn. unfold out_weight. cbn. lia. }
      destruct t; cbn [fst]; try apply Hs; apply Hnil; reflexivity.
    Qed.

    Lemma out_ver o1 o2 s p v t :
      good E N q S s -> legit E N S p q (MVer t (Some v)) ->
      exists outs, s_out (fst (processVerMsg E C o1 o2 p v t s)) = (s_out s ++ outs)%list /\
        list_sum (map out_weight outs) <= 2 * n.
    Proof.
      intros Hg (Hp & _ & Hpq & Ht & x & op & Hbs & Hk & Hh & Hpo & Hqo).
      unfold processVerMsg. cbn zeta.
      set (it0 := match s_cache s !! v_key v with Some it => it | None => Item None (v_hash v) ∅ end).
      assert (Hit0 : (forall p h, it_votes it0 !! p = Some h -> h = hash_of E x /\ p <> op /\ member N p) /\
                (forall w, it_msg it0 = Some w -> w = sn_wire x /\ it_hash it0 = hash_of E x)).
      { subst it0. destruct (s_cache s !! v_key v) as [it|] eqn:Hl.
        - destruct (g_cache _ _ _ _ _ Hg _ _ Hl) as (y & op' & Hbs' & Hk' & _ & Hv & Hv2 & Hw).
          assert (y = x) as ->.
          { destruct Hbs as (? & ? & ?), Hbs' as (? & ? & ?). apply (fair_key E N Hwf S); auto. congruence. }
          destruct Hbs as (? & ? & Ho), Hbs' as (? & ? & Ho'). rewrite Ho in Ho'. injection Ho' as <-. auto.
        - cbn. split; [intros p' h Hl'; rewrite lookup_empty in Hl'; discriminate|discriminate]. }
      destruct Hit0 as (Hv0 & Hw0). clearbody it0. cbn [it_msg it_votes].
      set (it := Item (it_msg it0) (it_hash it0) (<[p := v_hash v]> (it_votes it0))).
      assert (Hv : forall p' h, it_votes it !! p' = Some h -> h = hash_of E x /\ p' <> op /\ member N p').
      { intros p' h Hl. cbn in Hl. apply lookup_insert_Some in Hl as [[<- <-]|[_ Hl]]; [auto|auto]. }
      assert (Hne : it_votes it <> ∅) by apply vote_nonempty.
      destruct (it_msg it0) as [w|] eqn:Hm.
      - destruct (Hw0 w eq_refl) as [-> Hhash].
        pose proof Hbs as (Hin & Hb & Hop). destruct (fair_in E N _ x HS Hin) as (p1 & l1 & Hh1).
        destruct (h_route _ _ _ _ _ _ Hh1) as (to & bc & Hr). rewrite Hr.
        exists []. rewrite app_nil_r. split; [|cbn; lia].
        rewrite (out_applyShare o1 o2 _ it x op); auto.
      - apply (out_request o1 (it_votes it) (v_key v) t (set_cache (<[v_key v := it]>) s)).
        intros p' h Hl. apply (Hv p' h Hl).
    Qed.

    Lemma out_share o1 o2 s x l t fwd :
      good E N q S s -> for_me E q S x l ->
      exists outs, s_out (fst (processTSSMsg E C o1 o2 (sn_wire x) t fwd s)) = (s_out s ++ outs)%list /\
        list_sum (map out_weight outs) <= if fwd then 0 else n * (1 + 2 * n).
    Proof.
      intros Hg Hf. pose proof Hf as (Hin & Hto & Hd).
      destruct (fair_in E N _ x HS Hin) as (op & l' & Hh).
      destruct (h_route _ _ _ _ _ _ Hh) as (to & bc & Hr).
      destruct (h_signed _ _ _ _ _ _ Hh) as (kb & Hkb & Hsig).
      pose proof (h_to _ _ _ _ _ _ Hh q Hto) as Hqo. apply elem_of_others in Hqo as [_ Hqo].
      assert (Hnil : forall s' : state, s_out s' = s_out s -> exists outs, s_out s' = (s_out s ++ outs)%list /\
                list_sum (map out_weight outs) <= if fwd then 0 else n * (1 + 2 * n)).
      { intros s' Hs. exists []. rewrite app_nil_r. cbn. split; [exact Hs|lia]. }
      unfold processTSSMsg. rewrite Hr. change (cf_parties C) with (cf_parties (cfg_of N op)). rewrite Hkb.
      unfold verifySignature. change (cf_msgid C) with (cf_msgid (cfg_of N op)). rewrite Hsig.
      destruct bc; [|apply Hnil; apply out_updateLocal].
      assert (Hb : is_broadcast (sn_wire x)) by (exists (FId (sn_id x)), to; exact Hr).
      assert (Hbs : bsent N S x op) by (split; [exact Hin|]; split; [exact Hb|]; apply (h_peer _ _ _ _ _ _ Hh)).
      cbn zeta. change (cache_key (sn_id x) (w_round (sn_wire x))) with (key_of x).
      change (e_sha E (w_body (sn_wire x))) with (hash_of E x).
      set (s1 := if fwd then s else _).
      assert (Hs1 : (exists outs, s_out s1 = (s_out s ++ outs)%list /\
                list_sum (map out_weight outs) <= if fwd then 0 else n * (1 + 2 * n)) /\ s_cache s1 = s_cache s).
      { subst s1. destruct fwd; [split; [apply Hnil; reflexivity|reflexivity]|].
        unfold receiverBroadcastHashToPeers. destruct (cf_id2peer C !! sn_id x) as [op'|]; [|split; [apply Hnil; reflexivity|reflexivity]].
        destruct (filter _ _) as [|p0 ps] eqn:Hps; [split; [apply Hnil; reflexivity|reflexivity]|].
        split; [|reflexivity]. eexists [_]. split; [reflexivity|]. cbn [map list_sum foldr]. unfold out_weight. cbn [o_peers o_msg weight].
        rewrite <- Hps. pose proof (others_length E N Hwf q Hq) as Hlen.
        pose proof (filter_length (fun p => p <> op') (cf_peers C)) as Hle.
        change (cf_peers C) with (others N q) in *.
        rewrite Nat.add_0_r. apply Nat.mul_le_mono_r. lia. }
      destruct Hs1 as [Hs1 Hcache]. clearbody s1.
      set (it0 := match s_cache s1 !! key_of x with None => _ | Some it => _ end).
      assert (Hit0 : (forall p h, it_votes it0 !! p = Some h -> h = hash_of E x /\ p <> op /\ member N p) /\
                it_msg it0 = Some (sn_wire x) /\ it_hash it0 = hash_of E x).
      { subst it0. rewrite Hcache. destruct (s_cache s !! key_of x) as [it|] eqn:Hl.
        - destruct (g_cache _ _ _ _ _ Hg _ _ Hl) as (y & op' & Hbs' & Hk' & _ & Hv & Hv2 & Hw).
          assert (x = y) as <-.
          { destruct Hbs as (? & ? & ?), Hbs' as (? & ? & ?). apply (fair_key E N Hwf S); auto. }
          destruct Hbs as (? & ? & Ho), Hbs' as (? & ? & Ho'). rewrite Ho in Ho'. injection Ho' as <-.
          destruct (it_msg it) as [w|] eqn:Hm.
          + destruct (Hw w eq_refl) as [-> Hhash]. auto.
          + cbn. auto.
        - cbn. split; [|auto]. intros p h Hl'. rewrite lookup_empty in Hl'. discriminate. }
      destruct Hit0 as (Hv0 & Hw0 & Hh0). clearbody it0. rewrite Hw0. cbn [it_msg it_votes].
      rewrite Hr.
      rewrite (out_applyShare o1 o2 _ _ x op); auto.
      - apply vote_nonempty.
      - intros p' h Hl. cbn in Hl. apply lookup_insert_Some in Hl as [[<- <-]|[_ Hl]]; [auto|auto].
    Qed.

    Lemma out_recv o1 o2 s p m :
      good E N q S s -> s_cur s = None -> legit E N S p q m ->
      exists outs, s_out (step E C s (LRecv o1 o2 p m)) = (s_out s ++ outs)%list /\
        list_sum (map out_weight outs) < weight m.
    Proof.
      intros Hg Hn Hl. unfold step. rewrite (g_crash _ _ _ _ _ Hg), Hn.
      assert (Hnil : forall s' : state, s_out s' = s_out s -> exists outs, s_out s' = (s_out s ++ outs)%list /\
                list_sum (map out_weight outs) < weight m).
      { intros s' Hs. exists []. rewrite app_nil_r. split; [exact Hs|]. cbn.
        destruct m as [| | |[c|]| |]; cbn; try lia. destruct (c_msg c); lia. }
      destruct m as [t [w|]|t [v|]|[[|]|]|[c|]| |]; try (destruct Hl as (_ & _ & _ & []); fail).
      - destruct Hl as (Hp & _ & Hpq & x & Hx & -> & -> & Hpx & Hto).
        destruct (fair_in E N _ x HS Hx) as (op & l & Hh).
        destruct (out_share o1 o2 s x l (sn_type x) false Hg) as (outs & Ho & Hle).
        { split; [exact Hx|]. split; [exact Hto|]. apply (h_dec _ _ _ _ _ _ Hh). }
        exists outs. split; [exact Ho|]. cbn [weight]. lia.
      - assert (Hv : exists outs, s_out (fst (processVerMsg E C o1 o2 p v t s)) = (s_out s ++ outs)%list /\
                  list_sum (map out_weight outs) < weight (MVer t (Some v))).
        { destruct (out_ver o1 o2 s p v t Hg Hl) as (outs & Ho & Hle). exists outs. split; [exact Ho|].
          cbn [weight]. lia. }
        cbn [ProcessOneMessage]. destruct (s_cache s !! v_key v) as [it|]; [|exact Hv].
        destruct (it_votes it !! p); [apply Hnil; reflexivity|exact Hv].
      - apply Hnil. cbn [ProcessOneMessage]. destruct (bool_decide _); [reflexivity|]. cbn zeta.
        destruct (Z.eqb _ _); [|reflexivity]. destruct (Nat.eqb _ _); reflexivity.
      - destruct Hl as (Hp & _ & Hpq & Ht & x & op & Hbs & Hk & Hm). cbn [ProcessOneMessage].
        destruct (c_msg c) as [w|] eqn:Hcm.
        + destruct Hm as [-> Hqo]. destruct (bool_decide _); [|apply Hnil; reflexivity].
          destruct (bsent_for_me E N q Hq S x op HS Hbs Hqo) as [l Hf].
          destruct (out_share o1 o2 (set_requested (fun r => r ∖ {[c_hash c]}) s) x l (c_type c) true) as (outs & Ho & Hle).
          { apply good_set_requested. exact Hg. }
          { exact Hf. }
          exists outs. split; [exact Ho|]. cbn [weight]. rewrite Hcm. lia.
        + destruct (e_peer_ok E p); [|apply Hnil; reflexivity]. unfold processRequestMsgFromPeer.
          destruct (s_stored s !! c_key c) as [w|]; [|apply Hnil; reflexivity]. cbn [fst].
          eexists [_]. split; [reflexivity|]. cbn [map list_sum foldr]. unfold out_weight. cbn.
          rewrite Hcm. lia.
    Qed.

    (** ** The work of a node *)
    Definition todo (s : state) : nat :=
      match s_cur s with Some c => 1 + 3 * length (co_rest c) | None => 0 end +
      2 * length (s_pending s) + length (s_updated s).

    Lemma delete_length {A} (l : list A) k x : l !! k = Some x -> Datatypes.S (length (delete k l)) = length l.
    Proof. intros Hk. rewrite (Permutation_length (delete_Permutation _ _ _ Hk)). reflexivity. Qed.

    Lemma todo_less s l : good E N q S s -> local_step l -> step E C s l <> s ->
      todo (step E C s l) < todo s.
    Proof.
      intros Hg Hl Hne. revert Hne. unfold step. rewrite (g_crash _ _ _ _ _ Hg).
      destruct l as [o1 o2 p m| | |k res|k]; cbn in Hl.
      - destruct Hl.
      - destruct (s_cur s) as [[[|b rest] key w]|] eqn:Hc; try congruence. intros _.
        destruct (wk_cur _ _ _ _ (g_work _ _ _ _ _ Hg) _ _ _ Hc) as (x & l & pre & (Hin & Hto & Hd) & -> & -> & Hj).
        destruct (fair_in E N _ x HS Hin) as (p & l' & Hh).
        rewrite (h_dec _ _ _ _ _ _ Hh) in Hd. injection Hd as ->.
        destruct (h_entries _ _ _ _ _ _ Hh b) as (Hses & to & bc & Hr & Hgr).
        { apply elem_of_app. right. left. }
        unfold update_one. rewrite bool_decide_eq_true_2 by exact Hses. rewrite Hr.
        assert (Hpk : is_Some (cf_parties C !! sn_id x)).
        { apply (wf_dom _ _ Hwf). exists p. apply (h_peer _ _ _ _ _ _ Hh). }
        destruct Hpk as [kb Hkb]. rewrite Hkb.
        destruct (GetMsgRound E (b_body b) (sn_id x) bc (b_ident b)) as [r|]; [|congruence].
        rewrite (g_culprits _ _ _ _ _ Hg). cbn [existsb].
        unfold todo. rewrite Hc. destruct (CheckMsgDuplication _ _ _); cbn; rewrite ?app_length; cbn; lia.
      - destruct (s_cur s) as [[[|b rest] key w]|] eqn:Hc; try congruence.
        destruct (batch_done s); [|congruence]. intros _. unfold todo. rewrite Hc.
        destruct key; cbn; lia.
      - subst res. unfold work. destruct (s_pending s !! k) as [j|] eqn:Hj; [|congruence]. intros _.
        destruct (job_slot E N q S j HS) as [r Hr].
        { apply (wk_jobs _ _ _ _ (g_work _ _ _ _ _ Hg)). apply elem_of_app. right.
          eapply elem_of_list_lookup_2; exact Hj. }
        unfold share_slot in Hr. destruct (GetMsgRound E (j_body j) _ _ _); [|discriminate].
        unfold todo. cbn. rewrite app_length. cbn. pose proof (delete_length _ _ _ Hj). lia.
      - unfold accept. destruct (s_updated s !! k) as [j|] eqn:Hj; [|congruence]. intros _.
        pose proof (delete_length _ _ _ Hj). unfold todo.
        destruct (GetMsgRound E (j_body j) _ _ _); cbn; lia.
    Qed.

    (** A busy node can get on. *)
    Lemma busy_can s : good E N q S s -> s_cur s <> None ->
      exists l, local_step l /\ step E C s l <> s.
    Proof.
      intros Hg Hb.
      assert (Hdiff : forall s', todo s' <> todo s -> s' <> s) by (intros s' Hn ->; congruence).
      destruct (s_cur s) as [[[|b rest] key w]|] eqn:Hc; [| |congruence].
      - destruct (s_pending s) as [|j js] eqn:Hp.
        + destruct (s_updated s) as [|j js] eqn:Hu.
          * exists LFinish. split; [exact I|]. unfold step. rewrite (g_crash _ _ _ _ _ Hg), Hc.
            unfold batch_done. rewrite Hp, Hu. cbn. apply Hdiff. unfold todo. rewrite Hc. destruct key; cbn; rewrite ?Hp, ?Hu; cbn; lia.
          * exists (LAccept 0). split; [exact I|]. unfold step. rewrite (g_crash _ _ _ _ _ Hg).
            unfold accept. rewrite Hu. cbn. apply Hdiff. unfold todo. rewrite Hc, Hp, Hu.
            destruct (GetMsgRound E (j_body j) _ _ _); cbn; rewrite ?Hc, ?Hp, ?Hu; cbn; lia.
        + exists (LWork 0 None). split; [reflexivity|]. unfold step. rewrite (g_crash _ _ _ _ _ Hg).
          unfold work. rewrite Hp. cbn [lookup list_lookup].
          apply Hdiff. unfold todo. rewrite Hc, Hp.
          destruct (GetMsgRound E (j_body j) _ _ _); cbn; rewrite ?Hc, ?Hp; cbn; rewrite ?app_length; cbn; lia.
      - exists LLoop. split; [exact I|]. unfold step. rewrite (g_crash _ _ _ _ _ Hg), Hc.
        intros He. apply (f_equal s_cur) in He. rewrite Hc in He. revert He.
        assert (Hr : forall key' w', Some (Cur rest key' w') <> Some (Cur (b :: rest) key w)).
        { intros key' w' He'. injection He' as He' _ _. apply (f_equal length) in He'. cbn in He'. lia. }
        destruct (wk_cur _ _ _ _ (g_work _ _ _ _ _ Hg) _ _ _ Hc) as (x & l & pre & (Hin & Hto & Hd) & -> & -> & Hj).
        destruct (fair_in E N _ x HS Hin) as (p & l' & Hh).
        rewrite (h_dec _ _ _ _ _ _ Hh) in Hd. injection Hd as ->.
        destruct (h_entries _ _ _ _ _ _ Hh b) as (Hses & to & bc & Hro & Hgr).
        { apply elem_of_app. right. left. }
        unfold update_one. rewrite bool_decide_eq_true_2 by exact Hses. rewrite Hro.
        assert (Hpk : is_Some (cf_parties C !! sn_id x)).
        { apply (wf_dom _ _ Hwf). exists p. apply (h_peer _ _ _ _ _ _ Hh). }
        destruct Hpk as [kb Hkb]. rewrite Hkb.
        destruct (GetMsgRound E (b_body b) (sn_id x) bc (b_ident b)) as [r|]; [|congruence].
        rewrite (g_culprits _ _ _ _ _ Hg). cbn [existsb].
        destruct (CheckMsgDuplication _ _ _); cbn; apply Hr.
    Qed.
  End Node.

  (** ** The network *)
  Definition peers : list string := map snd (map_to_list (ce_peers N)).
  Lemma elem_of_peers q : q ∈ peers <-> member N q.
  Proof.
    unfold peers, member. rewrite elem_of_list_In, in_map_iff. split.
    - intros ([id p] & <- & Hin). exists id. apply elem_of_map_to_list, elem_of_list_In, Hin.
    - intros [id Hid]. exists (id, q). split; [reflexivity|]. apply elem_of_list_In, elem_of_map_to_list, Hid.
  Qed.
  Definition all_todo (s : nstate) : nat := list_sum (map (fun q => todo (at_node s q)) peers).

  Lemma sum_le (f g : string -> nat) l : (forall q, q ∈ l -> f q <= g q) -> list_sum (map f l) <= list_sum (map g l).
  Proof.
    induction l as [|x l IH]; intros Hle; [cbn; lia|]. cbn. unfold list_sum in IH.
    pose proof (Hle x ltac:(left)). assert (fold_right Nat.add 0 (map f l) <= fold_right Nat.add 0 (map g l)); [|lia].
    apply IH. intros q Hq. apply Hle. right. exact Hq.
  Qed.
  Lemma sum_lt (f g : string -> nat) l q0 : q0 ∈ l -> (forall q, q ∈ l -> f q <= g q) -> f q0 < g q0 ->
    list_sum (map f l) < list_sum (map g l).
  Proof.
    induction l as [|x l IH]; intros Hin Hle Hlt; [inversion Hin|]. cbn.
    pose proof (Hle x ltac:(left)) as Hx.
    assert (Hl : forall q, q ∈ l -> f q <= g q) by (intros q Hq; apply Hle; right; exact Hq).
    apply elem_of_cons in Hin as [->|Hin].
    - pose proof (sum_le f g l Hl) as Hs. unfold list_sum in Hs. lia.
    - specialize (IH Hin Hl Hlt). unfold list_sum in IH. lia.
  Qed.

  (** A stranger's node does nothing. *)
  Lemma stranger_idle S q tr : ~ member N q -> Forall (label_ok E N S q) tr -> run E (cfg_of N q) tr = init_state.
  Proof.
    intros Hn. induction tr as [|l tr IH] using rev_ind; intros Hl; [reflexivity|].
    apply Forall_app in Hl as [Hl1 Hl2]. apply Forall_cons_1 in Hl2 as [Hl2 _].
    rewrite run_snoc, (IH Hl1). destruct l as [o1 o2 p m| | |k res|k]; cbn in Hl2; try reflexivity.
    - destruct Hl2 as (_ & Hm & _). contradiction.
  Qed.

  Definition measure (s : nstate) : nat * nat := (air_weight (ns_air s), all_todo s).

  Lemma handles_less s s' : netinv E N s -> handles E N s s' ->
    lexprod nat (fun _ => nat) lt (fun _ => lt) (existT (measure s').1 (measure s').2) (existT (measure s).1 (measure s).2).
  Proof.
    intros Hi [Hst|[Hst (q & Hne)]].
    - left. inversion Hst as [| |s0 a b p q m o1 o2 Hair Hcur tr st' Hs0 Hs'| |]. subst.
      unfold measure. cbn [fst snd ns_air]. rewrite Hair.
      assert (Hleg : legit E N (ns_sent s) p q m).
      { apply (ni_air _ _ _ Hi). rewrite Hair. apply elem_of_app. right. left. }
      assert (Hq : member N q) by apply Hleg.
      pose proof (ni_good E N Hwf s q Hi Hq) as Hg.
      destruct (out_recv (ns_sent s) q (ni_fair _ _ _ Hi) Hq o1 o2 (at_node s q) p m Hg Hcur Hleg) as (outs & Ho & Hlt).
      unfold st', tr. rewrite does_self, run_snoc.
      change (run E (cfg_of N q) (ns_trace s q)) with (at_node s q). rewrite Ho, drop_app.
      rewrite !air_weight_app, frames_of_weight.
      change (air_weight ((p, q, m) :: b)) with (weight m + air_weight b). lia.
    - inversion Hst as [| | | |s0 q0 l Hl Hs0 Hs']. subst. 
      assert (Hloc : local_step l) by (destruct l; exact Hl).
      assert (Hst' : forall q', at_node (NState (does s q0 l) (ns_air s) (ns_sent s) (ns_done s)) q' =
                if decide (q' = q0) then step E (cfg_of N q') (at_node s q') l else at_node s q').
      { intros q'. unfold M_Honest.at_node. cbn [ns_trace]. destruct (decide (q' = q0)) as [->|Hn].
        - rewrite does_self, run_snoc. reflexivity.
        - rewrite does_other by exact Hn. reflexivity. }
      rewrite Hst' in Hne. destruct (decide (q = q0)) as [->|]; [|congruence].
      assert (Hq : member N q0).
      { destruct (decide (q0 ∈ peers)) as [Hin|Hn]; [apply elem_of_peers, Hin|].
        exfalso. assert (~ member N q0) by (rewrite <- elem_of_peers; exact Hn).
        apply Hne. unfold M_Honest.at_node. rewrite (stranger_idle (ns_sent s)) by (auto; apply (ni_labels _ _ _ Hi)).
        destruct l; try reflexivity. destruct Hl. }
      pose proof (ni_good E N Hwf s q0 Hi Hq) as Hg.
      right. unfold measure. cbn [fst snd]. unfold all_todo. apply (sum_lt _ _ _ q0).
      + apply elem_of_peers, Hq.
      + intros q' _. rewrite Hst'. destruct (decide (q' = q0)) as [->|]; [|lia].
        apply Nat.lt_le_incl. apply (todo_less (ns_sent s) q0 (ni_fair _ _ _ Hi)); assumption.
      + rewrite Hst'. destruct (decide (q0 = q0)); [|congruence].
        apply (todo_less (ns_sent s) q0 (ni_fair _ _ _ Hi)); assumption.
  Qed.

  Lemma handles_any s s' : handles E N s s' -> nany E N s s'.
  Proof. intros [H|[H _]]; eexists; exact H. Qed.

  Lemma handles_ends s : netinv E N s -> Acc (flip (handles E N)) s.
  Proof.
    remember (existT (measure s).1 (measure s).2 : sigT (fun _ : nat => nat)) as k eqn:Hk.
    revert s Hk. induction (wf_lexprod nat (fun _ => nat) lt (fun _ => lt) lt_wf (fun _ => lt_wf) k) as [k _ IH].
    intros s -> Hi. constructor. intros s' Hh. cbn in Hh.
    eapply IH; [apply handles_less; [exact Hi|exact Hh]|reflexivity|].
    destruct (handles_any _ _ Hh) as [k Hst]. eapply netinv_step; eassumption.
  Qed.

  Lemma quiet_or_handles s : netinv E N s -> quiet E N s \/ exists s', handles E N s s'.
  Proof.
    intros Hi.
    assert (Hidle : (forall q, q ∈ peers -> s_cur (at_node s q) = None) \/
              exists q, q ∈ peers /\ s_cur (at_node s q) <> None).
    { generalize peers. intros l. induction l as [|q l IH]; [left; intros q Hq; inversion Hq|].
      destruct IH as [IH|(q' & Hq' & Hc)]; [|right; exists q'; split; [right; exact Hq'|exact Hc]].
      destruct (s_cur (at_node s q)) eqn:Hc.
      - right. exists q. split; [left|congruence].
      - left. intros q' Hq'. apply elem_of_cons in Hq' as [->|Hq']; auto. }
    destruct Hidle as [Hidle|(q & Hq & Hc)].
    - destruct (ns_air s) as [|[[p q] m] air] eqn:Hair.
      + left. split; [exact Hair|]. intros q Hq. apply Hidle, elem_of_peers, Hq.
      + right. assert (Hq : member N q) by (apply (ni_air _ _ _ Hi p q m); rewrite Hair; left).
        eexists. left. apply (n_recv E N s [] air p q m [] []); [exact Hair|]. apply Hidle, elem_of_peers, Hq.
    - right. apply elem_of_peers in Hq.
      destruct (busy_can (ns_sent s) q (ni_fair _ _ _ Hi) (at_node s q) (ni_good E N Hwf s q Hi Hq) Hc) as (l & Hl & Hne).
      exists (NState (does s q l) (ns_air s) (ns_sent s) (ns_done s)). right.
      split; [apply n_local; destruct l; auto|]. exists q. unfold M_Honest.at_node. cbn [ns_trace].
      rewrite does_self, run_snoc. exact Hne.
  Qed.

  (** Handling adds no shares and no announcements. *)
  Lemma handles_same s s' : handles E N s s' -> ns_sent s' = ns_sent s /\ ns_done s' = ns_done s.
  Proof. intros [H|[H _]]; inversion H; auto. Qed.

  Lemma comes_to_rest s : netinv E N s ->
    exists s', rtc (handles E N) s s' /\ quiet E N s' /\ ns_sent s' = ns_sent s /\ ns_done s' = ns_done s.
  Proof.
    intros Hi. pose proof (handles_ends s Hi) as Ha. induction Ha as [s _ IH].
    destruct (quiet_or_handles s Hi) as [Hq|[s1 Hs1]].
    - exists s. split; [constructor|auto].
    - assert (Hi1 : netinv E N s1).
      { destruct (handles_any _ _ Hs1) as [k Hst]. eapply netinv_step; eassumption. }
      destruct (IH s1 Hs1 Hi1) as (s' & Hr & Hq & H1 & H2). destruct (handles_same _ _ Hs1) as [H3 H4].
      exists s'. split; [eapply rtc_l; eassumption|]. split; [exact Hq|]. split; congruence.
  Qed.

  (** ** Announcements *)
  Definition no_done (s : state) : Prop := forall o d, o ∈ s_out s -> o_msg o <> MDone d.

  Lemma no_done_same s s' : s_out s' = s_out s -> no_done s -> no_done s'.
  Proof. intros He Hn o d Ho. apply Hn. rewrite <- He. exact Ho. Qed.
  Lemma no_done_send s m to : (forall d, m <> MDone d) -> no_done s -> no_done (send m to s).
  Proof.
    intros Hm Hn o d Ho. cbn in Ho. apply elem_of_app in Ho as [Ho|Ho]; [apply Hn, Ho|].
    apply elem_of_list_singleton in Ho as ->. apply Hm.
  Qed.
  Lemma no_done_req ord votes th key t s : no_done s -> no_done (fst (requestShareFromPeer E ord votes th key t s)).
  Proof.
    intros Hn. unfold requestShareFromPeer. destruct (getMsgHash ord votes th); [|exact Hn].
    destruct (forallb _ _); [|exact Hn].
    destruct t; try exact Hn; cbn; apply no_done_send; try exact Hn; discriminate.
  Qed.
  Lemma no_done_apply q o1 o2 it w owner bc key t s : no_done s ->
    no_done (fst (applyShare E (cfg_of N q) o1 o2 it w owner bc key t s)).
  Proof.
    intros Hn. unfold applyShare. destruct (hashCheck _ _ _ _ _) as [r it1].
    destruct r; try (destruct (TssWrongShareBlame _ _ _); exact Hn).
    - eapply no_done_same; [apply out_updateLocal|exact Hn].
    - exact Hn.
    - apply no_done_req. exact Hn.
  Qed.
  Lemma no_done_tss q o1 o2 w t fwd s : no_done s ->
    no_done (fst (processTSSMsg E (cfg_of N q) o1 o2 w t fwd s)).
  Proof.
    intros Hn. unfold processTSSMsg. destruct (w_routing w) as [[[| |owner] to bc]|]; try exact Hn.
    destruct (cf_parties _ !! owner); [|exact Hn]. destruct (verifySignature _ _ _ _ _); [|exact Hn].
    destruct bc; [|eapply no_done_same; [apply out_updateLocal|exact Hn]].
    cbn zeta. set (s1 := if fwd then s else _).
    assert (Hn1 : no_done s1).
    { subst s1. destruct fwd; [exact Hn|]. unfold receiverBroadcastHashToPeers.
      destruct (cf_id2peer _ !! owner); [|exact Hn]. destruct (filter _ _); [exact Hn|].
      apply no_done_send; [discriminate|exact Hn]. }
    clearbody s1. cbn [it_msg].
    destruct (it_msg _) as [w'|]; [|exact Hn1].
    destruct (w_routing w') as [[[| |owner'] to' bc']|]; try exact Hn1.
    apply no_done_apply. exact Hn1.
  Qed.
  Lemma no_done_run q tr : Forall (fun l => match l with LRecv _ _ _ _ => True | l => local_step l end) tr ->
    no_done (run E (cfg_of N q) tr).
  Proof.
    induction tr as [|l tr IH] using rev_ind; intros Hl; [intros o d Ho; inversion Ho|].
    apply Forall_app in Hl as [Hl1 Hl2]. apply Forall_cons_1 in Hl2 as [Hl2 _].
    specialize (IH Hl1). rewrite run_snoc. destruct l as [o1 o2 p m| | |k res|k];
      try (eapply no_done_same; [apply local_out; exact Hl2|exact IH]).
    unfold step. destruct (s_crash _); [exact IH|]. destruct (s_cur _); [exact IH|].
    set (s := run E (cfg_of N q) tr) in *. clearbody s.
    assert (Hver : forall v t, no_done (fst (processVerMsg E (cfg_of N q) o1 o2 p v t s))).
    { intros v t. unfold processVerMsg. cbn zeta. destruct (it_msg _) as [w|]; [|apply no_done_req; exact IH].
      destruct (w_routing w) as [[[| |owner] to bc]|]; try exact IH. apply no_done_apply. exact IH. }
    destruct m as [t [w|]|t [v|]|[[|]|]|[c|]| |]; cbn [ProcessOneMessage]; try exact IH.
    - apply no_done_tss. exact IH.
    - destruct (s_cache s !! v_key v) as [it|]; [|apply Hver]. destruct (it_votes it !! p); [exact IH|apply Hver].
    - destruct (bool_decide _); [exact IH|]. cbn zeta. destruct (Z.eqb _ _); [|exact IH].
      destruct (Nat.eqb _ _); exact IH.
    - destruct (c_msg c).
      + destruct (bool_decide _); [|exact IH]. apply no_done_tss. exact IH.
      + destruct (e_peer_ok E p); [|exact IH]. unfold processRequestMsgFromPeer.
        destruct (s_stored s !! c_key c); [|exact IH]. apply no_done_send; [discriminate|exact IH].
  Qed.

  (** Only what was announced is heard. *)
  Definition done_inv (s : nstate) : Prop :=
    forall p q, arrives E N s p q (MDone (Some true)) -> p ∈ ns_done s.

  Lemma done_inv_step k s s' : netinv E N s -> done_inv s -> nstep E N k s s' -> done_inv s'.
  Proof.
    intros Hi Hd Hst. destruct Hst as [s x p l Hx|s id p Hid|s a b p q m o1 o2 Hair Hcur tr st'|s f Hf|s q l Hl];
      intros p' q' Harr; cbn [ns_done].
    - destruct Harr as [Ha|Ha]; [|apply (Hd p' q'); right; exact Ha]. cbn in Ha.
      apply elem_of_app in Ha as [Ha|Ha]; [apply (Hd p' q'); left; exact Ha|].
      apply elem_of_frames in Ha as (_ & Hm & _). discriminate.
    - destruct Harr as [Ha|Ha]; [|apply elem_of_app; left; apply (Hd p' q'); right; exact Ha]. cbn in Ha.
      apply elem_of_app. apply elem_of_app in Ha as [Ha|Ha]; [left; apply (Hd p' q'); left; exact Ha|].
      apply elem_of_frames in Ha as (-> & _ & _). right. left.
    - destruct Harr as [Ha|Ha].
      + cbn [ns_air] in Ha. apply elem_of_app in Ha as [Ha|Ha].
        { apply (Hd p' q'). left. rewrite Hair. apply elem_of_app. auto. }
        apply elem_of_app in Ha as [Ha|Ha].
        { apply (Hd p' q'). left. rewrite Hair. apply elem_of_app. right. right. exact Ha. }
        exfalso. apply elem_of_frames_of in Ha as (-> & o & Ho & Hm & _).
        assert (Hnd : no_done st').
        { apply no_done_run. unfold tr. rewrite does_self. apply Forall_app. split; [|repeat constructor].
          eapply Forall_impl; [apply (ni_labels _ _ _ Hi q)|]. intros [| | | |]; cbn; auto. }
        apply (Hnd o (Some true)); [|auto]. apply elem_of_list_lookup in Ho as [i Ho].
        rewrite lookup_drop in Ho. eapply elem_of_list_lookup_2. exact Ho.
      + cbn [ns_trace] in Ha. destruct (decide (q' = q)) as [->|Hn].
        * unfold tr in Ha. rewrite does_self in Ha. apply handled_snoc_inv in Ha as [Ha|(x1 & x2 & Heq & _)].
          -- apply (Hd p' q). right. exact Ha.
          -- injection Heq as _ _ -> ->. apply (Hd p' q). left. rewrite Hair. apply elem_of_app. right. left.
        * unfold tr in Ha. rewrite does_other in Ha by exact Hn. apply (Hd p' q'). right. exact Ha.
    - destruct Harr as [Ha|Ha]; [|apply (Hd p' q'); right; exact Ha]. cbn in Ha.
      apply elem_of_app in Ha as [Ha|Ha]; [apply (Hd p' q'); left; exact Ha|].
      apply elem_of_list_singleton in Ha as <-. apply (Hd p' q'). left. exact Hf.
    - destruct Harr as [Ha|Ha]; [apply (Hd p' q'); left; exact Ha|]. cbn [ns_trace] in Ha.
      destruct (decide (q' = q)) as [->|Hn].
      + rewrite does_self in Ha. apply handled_snoc_inv in Ha as [Ha|(x1 & x2 & Heq & _)].
        * apply (Hd p' q). right. exact Ha.
        * subst l. destruct Hl.
      + rewrite does_other in Ha by exact Hn. apply (Hd p' q'). right. exact Ha.
  Qed.

  Lemma done_reach s : reachable E N s -> done_inv s.
  Proof.
    unfold reachable. intros Hr. pose proof (netinv_init E N) as Hi.
    assert (Hd : done_inv n_init).
    { intros p q [Ha|(t1 & o1 & o2 & t2 & Heq & _)]; [inversion Ha|]. cbn in Heq. destruct t1; discriminate. }
    revert Hi Hd. induction Hr as [s|s1 s2 s3 [k Hst] _ IH]; intros Hi Hd; [exact Hd|].
    apply IH; [eapply netinv_step; eassumption|eapply done_inv_step; eassumption].
  Qed.
End Rest.
