(** Lemmas about a ceremony of honest nodes (M_Honest). *)
From Coq Require Import ZArith NArith Ascii String List Lia.
From stdpp Require Import base list strings gmap.
From Verif Require Import Base L_Base S_Threshold M_Common S_Common L_Common M_Honest S_Honest.

Lemma elem_of_others N p q : q ∈ others N p <-> member N q /\ q <> p.
Proof.
  unfold others, member. rewrite elem_of_list_filter, elem_of_list_In, in_map_iff.
  split.
  - intros (Hn & [id p'] & <- & Hin). cbn in *. apply elem_of_list_In, elem_of_map_to_list in Hin.
    split; [exists id; exact Hin|exact Hn].
  - intros ((id & Hid) & Hn). split; [exact Hn|]. exists (id, q). split; [reflexivity|].
    apply elem_of_list_In, elem_of_map_to_list. exact Hid.
Qed.

Section Honest.
  Context (E : env) (N : ceremony).
  Hypothesis Hwf : well_formed E N.
  Notation slot_of := (slot_of E).
  Notation entry_of := (entry_of E N).

  Definition key_of (x : sending) : string := cache_key (sn_id x) (w_round (sn_wire x)).
  Definition hash_of (x : sending) : string := e_sha E (w_body (sn_wire x)).

  (** ** What was sent *)
  Inductive fair : list sending -> Prop :=
  | fair_nil : fair []
  | fair_snoc S x p l : fair S -> honest E N S x p l -> fair (S ++ [x]).

  Lemma fair_in S x : fair S -> x ∈ S -> exists p l, honest E N [] x p l.
  Proof.
    induction 1 as [|S y p l HS IH Hy]; intros Hx; [inversion Hx|].
    apply elem_of_app in Hx as [Hx|Hx]; [auto|].
    apply elem_of_list_singleton in Hx as ->. exists p, l. destruct Hy. constructor; auto.
    - intros _ z Hz. inversion Hz.
    - intros z l' q b b' Hz. inversion Hz.
  Qed.

  Lemma fair_round S x y : fair S -> x ∈ S -> y ∈ S ->
    is_broadcast (sn_wire x) -> is_broadcast (sn_wire y) -> sn_id x = sn_id y ->
    w_round (sn_wire x) = w_round (sn_wire y) -> x = y.
  Proof.
    intros HS. induction HS as [|S z p l HS IH Hz]; intros Hx Hy Bx By Hi Hr; [inversion Hx|].
    apply elem_of_app in Hx as [Hx|Hx]; apply elem_of_app in Hy as [Hy|Hy].
    - auto.
    - apply elem_of_list_singleton in Hy as ->.
      destruct (h_round _ _ _ _ _ _ Hz By x Hx Bx Hi Hr).
    - apply elem_of_list_singleton in Hx as ->. symmetry in Hi. symmetry in Hr.
      destruct (h_round _ _ _ _ _ _ Hz Bx y Hy By Hi Hr).
    - apply elem_of_list_singleton in Hx as ->. apply elem_of_list_singleton in Hy as ->. reflexivity.
  Qed.

  Lemma honest_dash S x p l : honest E N S x p l -> no_dash (sn_id x).
  Proof.
    intros Hx. apply (wf_dash _ _ Hwf). apply (wf_dom _ _ Hwf). exists p. apply (h_peer _ _ _ _ _ _ Hx).
  Qed.

  Lemma fair_key S x y : fair S -> x ∈ S -> y ∈ S ->
    is_broadcast (sn_wire x) -> is_broadcast (sn_wire y) -> key_of x = key_of y -> x = y.
  Proof.
    intros HS Hx Hy Bx By Hk.
    destruct (fair_in _ _ HS Hx) as (p & l & Hhx). destruct (fair_in _ _ HS Hy) as (p' & l' & Hhy).
    apply cache_key_inj in Hk as [Hi Hr]; [|eapply honest_dash; eassumption|eapply honest_dash; eassumption].
    eapply fair_round; eassumption.
  Qed.

  Lemma NoDup_map_eq {A B} (f : A -> B) (l : list A) a b :
    NoDup (map f l) -> a ∈ l -> b ∈ l -> f a = f b -> a = b.
  Proof.
    induction l as [|c l IH]; intros Hn Ha Hb Hf; [inversion Ha|].
    cbn in Hn. apply NoDup_cons in Hn as [Hc Hn].
    apply elem_of_cons in Ha as [->|Ha]; apply elem_of_cons in Hb as [->|Hb]; [reflexivity| | |auto].
    - destruct Hc. rewrite Hf. apply elem_of_list_In, in_map, elem_of_list_In, Hb.
    - destruct Hc. rewrite <- Hf. apply elem_of_list_In, in_map, elem_of_list_In, Ha.
  Qed.

  Lemma fair_slot S q x y l l' b b' : fair S -> x ∈ S -> y ∈ S -> q ∈ sn_to x -> q ∈ sn_to y ->
    e_dec_bulk E (w_body (sn_wire x)) = Some l -> e_dec_bulk E (w_body (sn_wire y)) = Some l' ->
    b ∈ l -> b' ∈ l' -> slot_of b = slot_of b' -> x = y /\ b = b'.
  Proof.
    intros HS. induction HS as [|S z p lz HS IH Hz]; intros Hx Hy Qx Qy Dx Dy Hb Hb' Hs; [inversion Hx|].
    apply elem_of_app in Hx as [Hx|Hx]; apply elem_of_app in Hy as [Hy|Hy].
    - auto.
    - apply elem_of_list_singleton in Hy as ->.
      rewrite (h_dec _ _ _ _ _ _ Hz) in Dy. injection Dy as <-. symmetry in Hs.
      destruct (h_fresh _ _ _ _ _ _ Hz x l q b' b Hx Qy Qx Dx Hb' Hb Hs).
    - apply elem_of_list_singleton in Hx as ->.
      rewrite (h_dec _ _ _ _ _ _ Hz) in Dx. injection Dx as <-.
      destruct (h_fresh _ _ _ _ _ _ Hz y l' q b b' Hy Qx Qy Dy Hb Hb' Hs).
    - apply elem_of_list_singleton in Hx as ->. apply elem_of_list_singleton in Hy as ->.
      split; [reflexivity|]. rewrite (h_dec _ _ _ _ _ _ Hz) in Dx, Dy.
      injection Dx as <-. injection Dy as <-.
      eapply NoDup_map_eq; [apply (h_slots _ _ _ _ _ _ Hz)| | |]; eassumption.
  Qed.

  Definition bsent (S : list sending) (x : sending) (op : string) : Prop :=
    x ∈ S /\ is_broadcast (sn_wire x) /\ ce_peers N !! sn_id x = Some op.

  (** What peer [p] may send to peer [q]. *)
  Definition legit (S : list sending) (p q : string) (m : inmsg) : Prop :=
    member N p /\ member N q /\ p <> q /\
    match m with
    | MShare t (Some w) =>
        exists x, x ∈ S /\ w = sn_wire x /\ t = sn_type x /\
                  ce_peers N !! sn_id x = Some p /\ q ∈ sn_to x
    | MVer t (Some v) =>
        ver_type t /\ exists x op, bsent S x op /\ v_key v = key_of x /\ v_hash v = hash_of x /\
                                   p <> op /\ q <> op
    | MDone (Some true) => True
    | MCtl (Some c) =>
        share_type (c_type c) /\ exists x op, bsent S x op /\ c_key c = key_of x /\
          match c_msg c with None => p <> op | Some w => w = sn_wire x /\ q <> op end
    | _ => False
    end.

  Lemma legit_mono S S' p q m : (forall x, x ∈ S -> x ∈ S') -> legit S p q m -> legit S' p q m.
  Proof.
    intros Hs (Hp & Hq & Hn & Hm). split; [exact Hp|]. split; [exact Hq|]. split; [exact Hn|].
    destruct m as [t [w|]|t [v|]|[[|]|]|[c|]| |]; auto.
    - destruct Hm as (x & Hx & Hm). exists x. auto.
    - destruct Hm as (Ht & x & op & (Hx & Hb) & Hm). split; [exact Ht|]. exists x, op. split; [|exact Hm]. split; auto.
    - destruct Hm as (Ht & x & op & (Hx & Hb) & Hm). split; [exact Ht|]. exists x, op. split; [|exact Hm]. split; auto.
  Qed.

  (** ** The state of a node *)
  Section Node.
    Context (q : string).
    Hypothesis Hq : member N q.
    Notation C := (cfg_of N q).

    Definition item_ok (S : list sending) (k : string) (it : item) : Prop :=
      exists x op, bsent S x op /\ k = key_of x /\ q <> op /\
        (forall p h, it_votes it !! p = Some h -> h = hash_of x /\ p <> op /\ member N p) /\
        (it_msg it = None -> it_votes it !! q = None) /\
        (forall w, it_msg it = Some w -> w = sn_wire x /\ it_hash it = hash_of x).
    Definition cache_good (S : list sending) (m : gmap string item) : Prop :=
      forall k it, m !! k = Some it -> item_ok S k it.
    Definition stored_good (S : list sending) (m : gmap string wire) : Prop :=
      forall k w, m !! k = Some w -> exists x op, bsent S x op /\ k = key_of x /\ w = sn_wire x.
    Definition out_good (S : list sending) (o : list out) : Prop :=
      forall x p, x ∈ o -> p ∈ o_peers x -> legit S q p (o_msg x).
    Definition for_me (S : list sending) (x : sending) (l : list bulk) : Prop :=
      x ∈ S /\ q ∈ sn_to x /\ e_dec_bulk E (w_body (sn_wire x)) = Some l.

    Record work_good (S : list sending) (s : state) : Prop := {
      wk_idle : s_cur s = None -> s_pending s = [] /\ s_updated s = [];
      wk_cur : forall rest key w, s_cur s = Some (Cur rest key w) ->
        exists x l pre, for_me S x l /\ w = sn_wire x /\ l = (pre ++ rest)%list /\
          forall j, j ∈ (s_pending s ++ s_updated s)%list -> exists b, b ∈ pre /\ share_slot E j = slot_of b;
      wk_batch : forall j, j ∈ (s_pending s ++ s_updated s)%list -> j_batch j = s_batch s;
      wk_jobs : forall j, j ∈ (s_log s ++ s_pending s)%list ->
        exists x l b, for_me S x l /\ b ∈ l /\ is_entry b j /\ j_wire j = sn_wire x;
      wk_slots : NoDup (map (share_slot E) (s_log s ++ s_pending s)%list);
      wk_upd : forall j, j ∈ s_updated s -> j ∈ s_log s;
      wk_acc1 : forall r id, id ∈ default [] (s_accepted s !! r) ->
        exists j, j ∈ s_log s /\ share_slot E j = Some (r, id);
      wk_acc2 : forall j, j ∈ s_log s -> j ∈ s_updated s \/
        exists r id, share_slot E j = Some (r, id) /\ id ∈ default [] (s_accepted s !! r) }.

    Record good (S : list sending) (s : state) : Prop := {
      g_cache : cache_good S (s_cache s);
      g_stored : stored_good S (s_stored s);
      g_out : out_good S (s_out s);
      g_crash : s_crash s = false;
      g_culprits : s_culprits s = [];
      g_blame : s_blame s = Blame "" false [];
      g_work : work_good S s }.

    Lemma good_init : good [] init_state.
    Proof.
      constructor; cbn; try reflexivity.
      - intros k it Hl. rewrite lookup_empty in Hl. discriminate.
      - intros k it Hl. rewrite lookup_empty in Hl. discriminate.
      - intros x p Hx. inversion Hx.
      - constructor; cbn.
        + auto.
        + discriminate.
        + intros j Hj. inversion Hj.
        + intros j Hj. inversion Hj.
        + constructor.
        + intros j Hj. inversion Hj.
        + intros r id Hin. rewrite lookup_empty in Hin. inversion Hin.
        + intros j Hj. inversion Hj.
    Qed.

    Lemma for_me_mono S S' x l : (forall y, y ∈ S -> y ∈ S') -> for_me S x l -> for_me S' x l.
    Proof. intros Hs (Hx & Hr). split; auto. Qed.

    Lemma good_mono S S' s : (forall x, x ∈ S -> x ∈ S') -> good S s -> good S' s.
    Proof.
      intros Hs [Hc Hst Ho Hx Hcu Hb [H1 H2 H3 H4 H5 H8 H6 H7]]. constructor; auto.
      - intros k it Hl. destruct (Hc k it Hl) as (x & op & (Hin & Hr) & Hrest).
        exists x, op. split; [split; auto|exact Hrest].
      - intros k w Hl. destruct (Hst k w Hl) as (x & op & (Hin & Hr) & Hrest).
        exists x, op. split; [split; auto|exact Hrest].
      - intros x p Hin Hp. eapply legit_mono; [exact Hs|]. exact (Ho x p Hin Hp).
      - constructor; auto.
        + intros rest key w Hcur. destruct (H2 _ _ _ Hcur) as (x & l & pre & Hf & Hrest).
          exists x, l, pre. split; [eapply for_me_mono; eassumption|exact Hrest].
        + intros j Hj. destruct (H4 j Hj) as (x & l & b & Hf & Hrest).
          exists x, l, b. split; [eapply for_me_mono; eassumption|exact Hrest].
    Qed.

    Lemma is_entry_slot b j : is_entry b j -> share_slot E j = slot_of b.
    Proof.
      intros (H1 & H2 & to & H3). unfold share_slot, M_Honest.slot_of. rewrite H3, H1, H2.
      reflexivity.
    Qed.

    Lemma entry_slot id b : entry_of id b -> exists r, slot_of b = Some (r, id).
    Proof.
      intros (_ & to & bc & Hr & Hg). unfold M_Honest.slot_of. rewrite Hr.
      destruct (GetMsgRound E (b_body b) id bc (b_ident b)) as [r|]; [exists r; reflexivity|congruence].
    Qed.

    Lemma job_slot S j : fair S -> (exists x l b, for_me S x l /\ b ∈ l /\ is_entry b j /\ j_wire j = sn_wire x) ->
      exists r, share_slot E j = Some (r, j_from j).
    Proof.
      intros HS (x & l & b & (Hx & _ & Hd) & Hb & He & _).
      destruct (fair_in _ _ HS Hx) as (p & l' & Hh).
      rewrite (h_dec _ _ _ _ _ _ Hh) in Hd. injection Hd as <-.
      destruct (entry_slot _ _ (h_entries _ _ _ _ _ _ Hh b Hb)) as [r Hr].
      pose proof (is_entry_slot _ _ He) as Hs. rewrite Hr in Hs.
      unfold share_slot in *. destruct (GetMsgRound E _ _ _ _) as [r'|]; [|discriminate].
      injection Hs as -> ->. eauto.
    Qed.

    (** The fields the handling of messages does not touch. *)
    Definition same_work (s s' : state) : Prop :=
      s_pending s' = s_pending s /\ s_updated s' = s_updated s /\ s_log s' = s_log s /\
      s_accepted s' = s_accepted s.

    Lemma work_good_same S s s' : same_work s s' -> s_batch s' = s_batch s -> s_cur s' = s_cur s ->
      work_good S s -> work_good S s'.
    Proof.
      intros (Hp & Hu & Hl & Ha) Hb Hc [H1 H2 H3 H4 H5 H8 H6 H7]. constructor.
      - rewrite Hc, Hp, Hu. exact H1.
      - rewrite Hc, Hp, Hu. exact H2.
      - rewrite Hp, Hu, Hb. exact H3.
      - rewrite Hp, Hl. exact H4.
      - rewrite Hp, Hl. exact H5.
      - rewrite Hu, Hl. exact H8.
      - rewrite Ha, Hl. exact H6.
      - rewrite Ha, Hl, Hu. exact H7.
    Qed.

    (** *** The local steps *)
    Lemma good_loop S s b rest key w :
      fair S -> good S s -> s_cur s = Some (Cur (b :: rest) key w) ->
      good S (fst (update_one E C b rest key w s)).
    Proof.
      intros HS [Hc Hst Ho Hx Hcu Hbl Hw] Hcur.
      destruct (wk_cur _ _ Hw _ _ _ Hcur) as (x & l & pre & Hf & -> & -> & Hj).
      pose proof Hf as (Hin & Hto & Hd).
      destruct (fair_in _ _ HS Hin) as (p & l' & Hh).
      pose proof Hd as Hd'. rewrite (h_dec _ _ _ _ _ _ Hh) in Hd'. injection Hd' as ->.
      assert (Hbin : b ∈ (pre ++ b :: rest)%list) by (apply elem_of_app; right; left).
      pose proof (h_entries _ _ _ _ _ _ Hh b Hbin) as (Hses & to & bc & Hr & Hg).
      unfold update_one. rewrite bool_decide_eq_true_2 by exact Hses. rewrite Hr.
      assert (Hpk : is_Some (cf_parties C !! sn_id x)).
      { apply (wf_dom _ _ Hwf). exists p. apply (h_peer _ _ _ _ _ _ Hh). }
      destruct Hpk as [kb Hkb]. rewrite Hkb.
      destruct (GetMsgRound E (b_body b) (sn_id x) bc (b_ident b)) as [r|] eqn:Hgr; [|congruence].
      assert (Hslot : slot_of b = Some (r, sn_id x)).
      { unfold M_Honest.slot_of. rewrite Hr, Hgr. reflexivity. }
      destruct Hw as [H1 H2 H3 H4 H5 H8 H6 H7].
      destruct (CheckMsgDuplication r (sn_id x) s) eqn:Hdup.
      - cbn [fst]. constructor; cbn; auto. constructor; cbn; auto.
        + discriminate.
        + intros rest' key' w' Heq. injection Heq as <- <- <-.
          exists x, (pre ++ b :: rest)%list, (pre ++ [b])%list. split; [exact Hf|]. split; [reflexivity|].
          split; [rewrite <- app_assoc; reflexivity|].
          intros j Hjin. destruct (Hj j Hjin) as (b' & Hb' & Hs). exists b'. split; [|exact Hs].
          apply elem_of_app. auto.
      - rewrite Hcu. cbn [existsb fst]. constructor; cbn; auto.
        set (j0 := Job (b_body b) (b_ident b) (sn_id x) bc (s_batch s) (sn_wire x)).
        assert (Hj0 : share_slot E j0 = Some (r, sn_id x)).
        { unfold share_slot. cbn. rewrite Hgr. reflexivity. }
        assert (Hnd : forall b', b' ∈ pre -> slot_of b' <> slot_of b).
        { intros b' Hb' Heq. pose proof (h_slots _ _ _ _ _ _ Hh) as Hn.
          rewrite map_app in Hn. apply NoDup_app in Hn as (_ & Hn & _).
          apply (Hn (slot_of b')).
          - apply elem_of_list_In, in_map, elem_of_list_In, Hb'.
          - rewrite Heq. cbn. left. }
        constructor; cbn.
        + discriminate.
        + intros rest' key' w' Heq. injection Heq as <- <- <-.
          exists x, (pre ++ b :: rest)%list, (pre ++ [b])%list. split; [exact Hf|]. split; [reflexivity|].
          split; [rewrite <- app_assoc; reflexivity|].
          intros j Hjin. rewrite <- app_assoc in Hjin.
          apply elem_of_app in Hjin as [Hjin|Hjin].
          { destruct (Hj j) as (b' & Hb' & Hs); [apply elem_of_app; auto|]. exists b'. split; [|exact Hs].
            apply elem_of_app. auto. }
          apply elem_of_app in Hjin as [Hjin|Hjin].
          { apply elem_of_list_singleton in Hjin as ->. exists b. split; [apply elem_of_app; right; left|].
            rewrite Hslot. exact Hj0. }
          destruct (Hj j) as (b' & Hb' & Hs); [apply elem_of_app; auto|]. exists b'. split; [|exact Hs].
          apply elem_of_app. auto.
        + intros j Hjin. rewrite <- app_assoc in Hjin.
          apply elem_of_app in Hjin as [Hjin|Hjin]; [apply H3; apply elem_of_app; auto|].
          apply elem_of_app in Hjin as [Hjin|Hjin]; [|apply H3; apply elem_of_app; auto].
          apply elem_of_list_singleton in Hjin as ->. reflexivity.
        + intros j Hjin. rewrite app_assoc in Hjin. apply elem_of_app in Hjin as [Hjin|Hjin]; [auto|].
          apply elem_of_list_singleton in Hjin as ->.
          exists x, (pre ++ b :: rest)%list, b. split; [exact Hf|]. split; [exact Hbin|].
          split; [|reflexivity]. split; [reflexivity|]. split; [reflexivity|]. exists to. exact Hr.
        + rewrite app_assoc, map_app. apply NoDup_app. split; [exact H5|].
          split; [|cbn; apply NoDup_singleton].
          intros sl Hin1 Hin2. cbn in Hin2. apply elem_of_list_singleton in Hin2 as ->.
          apply elem_of_list_In, in_map_iff in Hin1 as (j & Hsj & Hjin).
          apply elem_of_list_In in Hjin. rewrite Hj0 in Hsj.
          apply elem_of_app in Hjin as [Hjin|Hjin].
          * destruct (H7 j Hjin) as [Hu|(r' & id' & Hs' & Ha)].
            -- destruct (Hj j) as (b' & Hb' & Hs); [apply elem_of_app; auto|].
               apply (Hnd b' Hb'). congruence.
            -- rewrite Hsj in Hs'. injection Hs' as <- <-.
               unfold CheckMsgDuplication in Hdup. apply bool_decide_eq_false in Hdup. contradiction.
          * destruct (Hj j) as (b' & Hb' & Hs); [apply elem_of_app; auto|].
            apply (Hnd b' Hb'). congruence.
        + exact H8.
        + exact H6.
        + exact H7.
    Qed.

    Lemma good_finish S s key w :
      good S s -> s_cur s = Some (Cur [] key w) -> batch_done s = true ->
      good S (fst (update_finish key s)) /\ s_pending s = [] /\ s_updated s = [].
    Proof.
      intros [Hc Hst Ho Hx Hcu Hbl [H1 H2 H3 H4 H5 H8 H6 H7]] Hcur Hbd.
      assert (Hnil : (s_pending s ++ s_updated s)%list = []).
      { unfold batch_done in Hbd. destruct (s_pending s ++ s_updated s)%list as [|j js] eqn:Hl; [reflexivity|].
        cbn in Hbd. rewrite (H3 j) in Hbd by left. rewrite Nat.eqb_refl in Hbd. discriminate. }
      apply app_eq_nil in Hnil as [Hp Hu].
      split; [|auto].
      assert (Hcd : forall k, cache_good S (delete k (s_cache s))).
      { intros k k' it Hl. apply lookup_delete_Some in Hl as [_ Hl]. auto. }
      unfold update_finish. cbn [fst].
      constructor; destruct key as [k|]; cbn; auto;
        constructor; cbn; auto; discriminate.
    Qed.

    Lemma good_work S s k : fair S -> good S s -> good S (work E C k None s).
    Proof.
      intros HS [Hc Hst Ho Hx Hcu Hbl [H1 H2 H3 H4 H5 H8 H6 H7]].
      unfold work. destruct (s_pending s !! k) as [j|] eqn:Hj; [|constructor; auto; constructor; auto].
      pose proof (delete_Permutation _ _ _ Hj) as Hperm.
      assert (Hjp : j ∈ s_pending s) by (eapply elem_of_list_lookup_2; exact Hj).
      destruct (job_slot S j HS) as [r Hr].
      { apply H4. apply elem_of_app. auto. }
      unfold share_slot in Hr. destruct (GetMsgRound E (j_body j) (j_from j) (j_bcast j) (j_ident j)) as [r'|]; [|discriminate].
      assert (Hperm2 : ((s_log s ++ [j]) ++ delete k (s_pending s))%list ≡ₚ (s_log s ++ s_pending s)%list).
      { rewrite <- app_assoc. cbn. rewrite <- Hperm. reflexivity. }
      assert (Hperm3 : (delete k (s_pending s) ++ s_updated s ++ [j])%list ≡ₚ (s_pending s ++ s_updated s)%list).
      { rewrite (Permutation_app_comm (s_updated s) [j]). cbn.
        rewrite <- Permutation_middle. rewrite app_comm_cons. rewrite <- Hperm. reflexivity. }
      constructor; cbn; auto. constructor; cbn.
      - intros Hn. destruct (H1 Hn) as [Hp _]. rewrite Hp in Hj. discriminate.
      - intros rest key w Hcur. destruct (H2 _ _ _ Hcur) as (x & l & pre & Hf & Hw & Hl & Hs).
        exists x, l, pre. split; [exact Hf|]. split; [exact Hw|]. split; [exact Hl|].
        intros j' Hj'. apply Hs. rewrite <- Hperm3. exact Hj'.
      - intros j' Hj'. apply H3. rewrite <- Hperm3. exact Hj'.
      - intros j' Hj'. apply H4. rewrite <- Hperm2. exact Hj'.
      - rewrite (Permutation_map _ Hperm2). exact H5.
      - intros j' Hj'. apply elem_of_app in Hj' as [Hj'|Hj']; apply elem_of_app; auto.
      - intros r2 id Hin. destruct (H6 r2 id Hin) as (j' & Hj' & Hs). exists j'. split; [|exact Hs].
        apply elem_of_app. auto.
      - intros j' Hj'. apply elem_of_app in Hj' as [Hj'|Hj'].
        + destruct (H7 j' Hj') as [Hu|Hr']; [left; apply elem_of_app; auto|auto].
        + apply elem_of_list_singleton in Hj' as ->. left. apply elem_of_app. right. left.
    Qed.

    Lemma in_accepted (m : gmap roundinfo (list string)) r id r' id' :
      id' ∈ default [] (<[r := (default [] (m !! r) ++ [id])%list]> m !! r') <->
      id' ∈ default [] (m !! r') \/ (r' = r /\ id' = id).
    Proof.
      destruct (decide (r = r')) as [<-|Hn].
      - rewrite lookup_insert. cbn. rewrite elem_of_app, elem_of_list_singleton. naive_solver.
      - rewrite lookup_insert_ne by exact Hn. naive_solver.
    Qed.

    Lemma good_accept S s k : fair S -> good S s -> good S (accept E k s).
    Proof.
      intros HS [Hc Hst Ho Hx Hcu Hbl [H1 H2 H3 H4 H5 H8 H6 H7]].
      unfold accept. destruct (s_updated s !! k) as [j|] eqn:Hj; [|constructor; auto; constructor; auto].
      pose proof (delete_Permutation _ _ _ Hj) as Hperm.
      assert (Hju : j ∈ s_updated s) by (eapply elem_of_list_lookup_2; exact Hj).
      assert (Hdel : forall j', j' ∈ delete k (s_updated s) -> j' ∈ s_updated s).
      { intros j' Hj'. rewrite Hperm. right. exact Hj'. }
      destruct (job_slot S j HS) as [r Hr].
      { apply H4. apply elem_of_app. left. auto. }
      unfold share_slot in Hr. destruct (GetMsgRound E (j_body j) (j_from j) (j_bcast j) (j_ident j)) as [r'|] eqn:Hgr; [|discriminate].
      injection Hr as ->.
      assert (Hsub : forall j', j' ∈ (s_pending s ++ delete k (s_updated s))%list -> j' ∈ (s_pending s ++ s_updated s)%list).
      { intros j' Hj'. apply elem_of_app in Hj' as [Hj'|Hj']; apply elem_of_app; auto. }
      assert (Hslot : share_slot E j = Some (r, j_from j)) by (unfold share_slot; rewrite Hgr; reflexivity).
      constructor; cbn; auto. constructor; cbn.
      - intros Hn. destruct (H1 Hn) as [_ Hu]. rewrite Hu in Hj. discriminate.
      - intros rest key w Hcur. destruct (H2 _ _ _ Hcur) as (x & l & pre & Hf & Hw & Hl & Hs).
        exists x, l, pre. auto 6.
      - auto.
      - auto.
      - auto.
      - auto.
      - intros r2 id Hin. apply in_accepted in Hin as [Hin|[-> ->]]; [auto|].
        exists j. split; [auto|exact Hslot].
      - intros j' Hj'. destruct (H7 j' Hj') as [Hu|(r2 & id & Hs & Ha)].
        + rewrite Hperm in Hu. apply elem_of_cons in Hu as [->|Hu]; [|auto].
          right. exists r, (j_from j). split; [exact Hslot|]. apply in_accepted. auto.
        + right. exists r2, id. split; [exact Hs|]. apply in_accepted. auto.
    Qed.

    (** *** Receiving a message *)
    Lemma good_set_cache S s k it : good S s -> item_ok S k it -> good S (set_cache (<[k := it]>) s).
    Proof.
      intros [Hc Hst Ho Hx Hcu Hbl Hw] Hit. constructor; cbn; auto.
      - intros k' it' Hl. apply lookup_insert_Some in Hl as [[<- <-]|[_ Hl]]; auto.
      - eapply work_good_same; [| | |exact Hw]; [repeat split|reflexivity|reflexivity].
    Qed.
    Lemma good_set_stored S s k w x op : good S s -> bsent S x op -> k = key_of x -> w = sn_wire x ->
      good S (set_stored (<[k := w]>) s).
    Proof.
      intros [Hc Hst Ho Hx Hcu Hbl Hw] Hb Hk Hwx. constructor; cbn; auto.
      - intros k' w' Hl. apply lookup_insert_Some in Hl as [[<- <-]|[_ Hl]]; [|auto]. exists x, op. auto.
      - eapply work_good_same; [| | |exact Hw]; [repeat split|reflexivity|reflexivity].
    Qed.
    Lemma good_send S s m peers : good S s -> (forall p, p ∈ peers -> legit S q p m) ->
      good S (send m peers s).
    Proof.
      intros [Hc Hst Ho Hx Hcu Hbl Hw] Hm. constructor; cbn; auto.
      - intros o p Hin Hp. apply elem_of_app in Hin as [Hin|Hin]; [exact (Ho o p Hin Hp)|].
        apply elem_of_list_singleton in Hin as ->. apply Hm. exact Hp.
      - eapply work_good_same; [| | |exact Hw]; [repeat split|reflexivity|reflexivity].
    Qed.
    Lemma good_set_requested S s f : good S s -> good S (set_requested f s).
    Proof.
      intros [Hc Hst Ho Hx Hcu Hbl Hw]. constructor; cbn; auto.
      eapply work_good_same; [| | |exact Hw]; [repeat split|reflexivity|reflexivity].
    Qed.
    Lemma good_set_finished S s f : good S s -> good S (set_finished f s).
    Proof.
      intros [Hc Hst Ho Hx Hcu Hbl Hw]. constructor; cbn; auto.
      eapply work_good_same; [| | |exact Hw]; [repeat split|reflexivity|reflexivity].
    Qed.
    Lemma good_set_closed S s f : good S s -> good S (set_closed f s).
    Proof.
      intros [Hc Hst Ho Hx Hcu Hbl Hw]. constructor; cbn; auto.
      eapply work_good_same; [| | |exact Hw]; [repeat split|reflexivity|reflexivity].
    Qed.
    Lemma good_set_unicast S s f : good S s -> good S (set_unicast f s).
    Proof.
      intros [Hc Hst Ho Hx Hcu Hbl Hw]. constructor; cbn; auto.
      eapply work_good_same; [| | |exact Hw]; [repeat split|reflexivity|reflexivity].
    Qed.
    Lemma good_begin S s x l key : good S s -> s_cur s = None -> for_me S x l ->
      good S (set_cur (Some (Cur l key (sn_wire x))) (set_batch Datatypes.S s)).
    Proof.
      intros [Hc Hst Ho Hx Hcu Hbl [H1 H2 H3 H4 H5 H8 H6 H7]] Hn Hf.
      destruct (H1 Hn) as [Hp Hu]. constructor; cbn; auto. constructor; cbn; auto.
      - intros rest key' w Heq. injection Heq as <- <- <-. exists x, l, [].
        split; [exact Hf|]. split; [reflexivity|]. split; [reflexivity|].
        intros j Hj. rewrite Hp, Hu in Hj. inversion Hj.
      - intros j Hj. rewrite Hp, Hu in Hj. inversion Hj.
    Qed.

    Lemma good_updateLocal S s x l key : fair S -> good S s -> s_cur s = None -> for_me S x l ->
      good S (fst (updateLocal E C (sn_wire x) key s)) /\
      s_cur (fst (updateLocal E C (sn_wire x) key s)) = Some (Cur l key (sn_wire x)).
    Proof.
      intros HS Hg Hn Hf. pose proof Hf as (Hin & Hto & Hd).
      destruct (fair_in _ _ HS Hin) as (p & l' & Hh).
      destruct (h_route _ _ _ _ _ _ Hh) as (to & bc & Hr).
      assert (Hpk : is_Some (cf_parties C !! sn_id x)).
      { apply (wf_dom _ _ Hwf). exists p. apply (h_peer _ _ _ _ _ _ Hh). }
      destruct Hpk as [kb Hkb].
      unfold updateLocal. rewrite Hr, Hkb.
      change (cf_id2peer C) with (ce_peers N). rewrite (h_peer _ _ _ _ _ _ Hh), Hd. cbn [fst].
      split; [|reflexivity]. apply good_begin; [|destruct bc; exact Hn|exact Hf].
      destruct bc; [exact Hg|apply good_set_unicast; exact Hg].
    Qed.

    (** All votes of an item are for the same hash. *)
    Lemma count_all h (m : gmap string string) :
      (forall p h', m !! p = Some h' -> h' = h) -> count_votes h m = size m.
    Proof.
      intros Hm. unfold count_votes. unfold size, map_size.
      assert (Hall : forall x, x ∈ map snd (map_to_list m) -> x = h).
      { intros x Hx. apply elem_of_list_In, in_map_iff in Hx as ([p h'] & <- & Hin).
        apply elem_of_list_In, elem_of_map_to_list in Hin. eauto. }
      rewrite <- (map_length snd (map_to_list m)).
      revert Hall. generalize (map snd (map_to_list m)). intros l.
      induction l as [|x l IH]; intros Hall; [reflexivity|].
      rewrite filter_cons_True by (apply Hall; left). cbn. f_equal. apply IH. intros y Hy. apply Hall. right. exact Hy.
    Qed.

    Lemma getMsgHash_honest ord m th h : (forall p h', m !! p = Some h' -> h' = h) -> m <> ∅ ->
      getMsgHash ord m th = if Z.ltb (Z.of_nat (size m)) (th - 1) then inr HInconsistency else inl h.
    Proof.
      intros Hm Hne. unfold getMsgHash.
      destruct (getHighestFreq ord m) as [[h' f]|] eqn:Hf.
      2:{ apply getHighestFreq_none, map_size_empty_iff in Hf. contradiction. }
      apply getHighestFreq_spec in Hf as (-> & _ & Hin).
      assert (h' = h) as ->.
      { apply elem_of_list_In, in_map_iff in Hin as ([p h''] & <- & Hin).
        apply elem_of_list_In, elem_of_map_to_list in Hin. cbn. eauto. }
      rewrite (count_all h m Hm). reflexivity.
    Qed.

    Lemma hashCheck_honest S ord it x op w th :
      bsent S x op -> it_msg it = Some w -> it_votes it <> ∅ ->
      (forall p h, it_votes it !! p = Some h -> h = hash_of x /\ p <> op /\ member N p) ->
      it_hash it = hash_of x ->
      hashCheck C ord it (sn_id x) th =
        (if Z.ltb (Z.of_nat (size (it_votes it))) th then HNotEnoughPeer else HOk, it).
    Proof.
      intros (Hin & Hb & Hop) Hmsg Hne Hv Hh. unfold hashCheck.
      change (cf_id2peer C) with (ce_peers N). rewrite Hop.
      destruct (Z.ltb_spec (Z.of_nat (size (it_votes it))) th) as [Hlt|Hge]; [reflexivity|].
      destruct (it_votes it !! op) as [h|] eqn:Ho.
      { destruct (Hv _ _ Ho) as (_ & Hc & _). congruence. }
      rewrite (getMsgHash_honest ord (it_votes it) th (hash_of x)); [|intros p h Hp; apply (Hv p h Hp)|exact Hne].
      destruct (Z.ltb_spec (Z.of_nat (size (it_votes it))) (th - 1)); [lia|].
      rewrite Hh, String.eqb_refl. reflexivity.
    Qed.

    Lemma bsent_for_me S x op : fair S -> bsent S x op -> q <> op -> exists l, for_me S x l.
    Proof.
      intros HS (Hin & Hb & Hop) Hn. destruct (fair_in _ _ HS Hin) as (p & l & Hh).
      exists l. split; [exact Hin|]. split; [|apply (h_dec _ _ _ _ _ _ Hh)].
      apply (h_bcast _ _ _ _ _ _ Hh Hb). apply elem_of_others. split; [exact Hq|].
      rewrite (h_peer _ _ _ _ _ _ Hh) in Hop. injection Hop as <-. exact Hn.
    Qed.

    Lemma good_applyShare S o1 o2 s it x op w bc key t :
      fair S -> good S s -> s_cur s = None ->
      bsent S x op -> q <> op -> key = key_of x -> it_msg it = Some w -> w = sn_wire x ->
      it_votes it <> ∅ -> item_ok S key it ->
      (forall p h, it_votes it !! p = Some h -> h = hash_of x /\ p <> op /\ member N p) ->
      it_hash it = hash_of x ->
      good S (fst (applyShare E C o1 o2 it w (sn_id x) bc key t s)).
    Proof.
      intros HS Hg Hn Hbs Hqo -> Hmsg -> Hne Hit Hv Hh. unfold applyShare.
      rewrite (hashCheck_honest S o1 it x op (sn_wire x)) by assumption.
      destruct (Z.ltb _ _).
      - cbn [fst]. apply good_set_cache; assumption.
      - destruct (bsent_for_me S x op HS Hbs Hqo) as [l Hf].
        apply (good_updateLocal S _ x l); [exact HS| |exact Hn|exact Hf].
        eapply good_set_stored; [|exact Hbs|reflexivity|reflexivity].
        apply good_set_cache; assumption.
    Qed.

    Lemma good_request S ord s it x op key t :
      good S s -> bsent S x op -> q <> op -> key = key_of x -> ver_type t \/ share_type t ->
      it_votes it <> ∅ -> it_votes it !! q = None ->
      (forall p h, it_votes it !! p = Some h -> h = hash_of x /\ p <> op /\ member N p) ->
      good S (fst (requestShareFromPeer E ord (it_votes it) (cf_threshold C) key t s)).
    Proof.
      intros Hg Hbs Hqo -> Ht Hne Hqv Hv. unfold requestShareFromPeer.
      destruct (getMsgHash ord (it_votes it) (cf_threshold C)) as [h|]; [|exact Hg].
      set (peers := map fst _). destruct (forallb (e_peer_ok E) peers) eqn:Hok; [|exact Hg].
      assert (Hp : forall p rt, p ∈ peers -> share_type rt ->
                legit S q p (MCtl (Some (Control h (key_of x) rt None)))).
      { intros p rt Hp Hrt. apply elem_of_list_In, in_map_iff in Hp as ([p' h'] & Heq & Hin). cbn in Heq. subst p'.
        apply elem_of_list_In, elem_of_list_filter in Hin as [_ Hin]. apply elem_of_map_to_list in Hin.
        destruct (Hv _ _ Hin) as (_ & Hpo & Hpm).
        split; [exact Hq|]. split; [exact Hpm|]. split; [intros ->; congruence|]. cbn.
        split; [exact Hrt|]. exists x, op. auto. }
      assert (Hs : forall rt, share_type rt -> good S (fst (processRequestMsgFromPeer peers (Control h (key_of x) rt None) true
                     (set_requested (fun r => {[h]} ∪ r) s)))).
      { intros rt Hrt. cbn. apply good_send; [apply good_set_requested; exact Hg|]. intros p Hin. auto. }
      destruct t; cbn [fst]; try (apply Hs; unfold share_type; auto; fail);
        apply good_set_requested; exact Hg.
    Qed.

    Lemma vote_nonempty (m : gmap string string) p h : <[p := h]> m <> ∅.
    Proof. intros He. apply (f_equal (fun m' => m' !! p)) in He. rewrite lookup_insert, lookup_empty in He. discriminate. Qed.

    Lemma good_ver S o1 o2 s p v t :
      fair S -> good S s -> s_cur s = None -> legit S p q (MVer t (Some v)) ->
      good S (fst (processVerMsg E C o1 o2 p v t s)).
    Proof.
      intros HS Hg Hn (Hp & _ & Hpq & Ht & x & op & Hbs & Hk & Hh & Hpo & Hqo).
      unfold processVerMsg. cbn zeta.
      set (it0 := match s_cache s !! v_key v with Some it => it | None => Item None (v_hash v) ∅ end).
      assert (Hit0 : (forall p h, it_votes it0 !! p = Some h -> h = hash_of x /\ p <> op /\ member N p) /\
                (it_msg it0 = None -> it_votes it0 !! q = None) /\
                (forall w, it_msg it0 = Some w -> w = sn_wire x /\ it_hash it0 = hash_of x)).
      { subst it0. destruct (s_cache s !! v_key v) as [it|] eqn:Hl.
        - destruct (g_cache _ _ Hg _ _ Hl) as (y & op' & Hbs' & Hk' & _ & Hv & Hv2 & Hw).
          assert (y = x) as ->.
          { destruct Hbs as (? & ? & ?), Hbs' as (? & ? & ?). eapply fair_key; eauto. congruence. }
          destruct Hbs as (? & ? & Ho), Hbs' as (? & ? & Ho'). rewrite Ho in Ho'. injection Ho' as <-. auto.
        - cbn. split; [intros p' h Hl'; rewrite lookup_empty in Hl'; discriminate|].
          split; [intros _; apply lookup_empty|discriminate]. }
      destruct Hit0 as (Hv0 & Hl0 & Hw0). clearbody it0. cbn [it_msg it_votes].
      set (it := Item (it_msg it0) (it_hash it0) (<[p := v_hash v]> (it_votes it0))).
      assert (Hv : forall p' h, it_votes it !! p' = Some h -> h = hash_of x /\ p' <> op /\ member N p').
      { intros p' h Hl. cbn in Hl. apply lookup_insert_Some in Hl as [[<- <-]|[_ Hl]]; [auto|auto]. }
      assert (Hql : it_msg it = None -> it_votes it !! q = None).
      { cbn. intros Hm. rewrite lookup_insert_ne by congruence. auto. }
      assert (Hit : item_ok S (v_key v) it).
      { exists x, op. split; [exact Hbs|]. split; [exact Hk|]. split; [exact Hqo|]. split; [exact Hv|].
        split; [exact Hql|]. exact Hw0. }
      assert (Hne : it_votes it <> ∅) by apply vote_nonempty.
      pose proof (good_set_cache S s (v_key v) it Hg Hit) as Hg1.
      destruct (it_msg it0) as [w|] eqn:Hm.
      - destruct (Hw0 w eq_refl) as [-> Hhash].
        destruct Hbs as (Hin & Hb & Hop) eqn:Hbs'. destruct (fair_in _ _ HS Hin) as (p1 & l1 & Hh1).
        destruct (h_route _ _ _ _ _ _ Hh1) as (to & bc & Hr). rewrite Hr.
        eapply good_applyShare with (op := op); eauto.
      - apply (good_request S o1 _ it x op); auto.
    Qed.

    Lemma good_receiver S s x op t :
      good S s -> bsent S x op -> q <> op -> share_type t ->
      good S (receiverBroadcastHashToPeers E C (sn_wire x) (sn_id x) t s).
    Proof.
      intros Hg Hbs Hqo Ht. pose proof Hbs as (_ & _ & Hop). unfold receiverBroadcastHashToPeers.
      change (cf_id2peer C) with (ce_peers N). rewrite Hop.
      set (peers := filter _ _). destruct peers as [|p0 ps] eqn:Hps; [exact Hg|]. rewrite <- Hps.
      apply good_send; [exact Hg|]. intros p Hp. subst peers. apply elem_of_list_filter in Hp as [Hpo Hp].
      apply elem_of_others in Hp as [Hpm Hpq].
      split; [exact Hq|]. split; [exact Hpm|]. split; [auto|]. split; [destruct Ht as [->| ->]; unfold ver_type; auto|].
      exists x, op. cbn. auto 6.
    Qed.

    Lemma good_share S o1 o2 s x l t fwd :
      fair S -> good S s -> s_cur s = None -> for_me S x l -> share_type t ->
      good S (fst (processTSSMsg E C o1 o2 (sn_wire x) t fwd s)).
    Proof.
      intros HS Hg Hn Hf Ht. pose proof Hf as (Hin & Hto & Hd).
      destruct (fair_in _ _ HS Hin) as (op & l' & Hh).
      destruct (h_route _ _ _ _ _ _ Hh) as (to & bc & Hr).
      destruct (h_signed _ _ _ _ _ _ Hh) as (kb & Hkb & Hsig).
      pose proof (h_to _ _ _ _ _ _ Hh q Hto) as Hqo. apply elem_of_others in Hqo as [_ Hqo].
      unfold processTSSMsg. rewrite Hr. change (cf_parties C) with (cf_parties (cfg_of N op)). rewrite Hkb.
      unfold verifySignature. change (cf_msgid C) with (cf_msgid (cfg_of N op)). rewrite Hsig.
      destruct bc; [|apply (good_updateLocal S s x l); assumption].
      assert (Hb : is_broadcast (sn_wire x)) by (exists (FId (sn_id x)), to; exact Hr).
      assert (Hbs : bsent S x op) by (split; [exact Hin|]; split; [exact Hb|]; apply (h_peer _ _ _ _ _ _ Hh)).
      cbn zeta. change (cache_key (sn_id x) (w_round (sn_wire x))) with (key_of x).
      change (e_sha E (w_body (sn_wire x))) with (hash_of x).
      set (s1 := if fwd then s else _).
      assert (Hg1 : good S s1) by (subst s1; destruct fwd; [exact Hg|apply (good_receiver S s x op); assumption]).
      assert (Hn1 : s_cur s1 = None).
      { subst s1. destruct fwd; [exact Hn|]. unfold receiverBroadcastHashToPeers.
        destruct (cf_id2peer C !! sn_id x); [|exact Hn]. destruct (filter _ _); exact Hn. }
      set (it0 := match s_cache s1 !! key_of x with None => _ | Some it => _ end).
      assert (Hit0 : (forall p h, it_votes it0 !! p = Some h -> h = hash_of x /\ p <> op /\ member N p) /\
                it_msg it0 = Some (sn_wire x) /\ it_hash it0 = hash_of x).
      { subst it0. destruct (s_cache s1 !! key_of x) as [it|] eqn:Hl.
        - destruct (g_cache _ _ Hg1 _ _ Hl) as (y & op' & Hbs' & Hk' & _ & Hv & Hv2 & Hw).
          assert (x = y) as <-.
          { destruct Hbs as (? & ? & ?), Hbs' as (? & ? & ?). eapply fair_key; eauto. }
          destruct Hbs as (? & ? & Ho), Hbs' as (? & ? & Ho'). rewrite Ho in Ho'. injection Ho' as <-.
          destruct (it_msg it) as [w|] eqn:Hm.
          + destruct (Hw w eq_refl) as [-> Hhash]. auto.
          + cbn. auto.
        - cbn. split; [|auto]. intros p h Hl'. rewrite lookup_empty in Hl'. discriminate. }
      destruct Hit0 as (Hv0 & Hw0 & Hh0). clearbody it0. rewrite Hw0. cbn [it_msg it_votes].
      rewrite Hr.
      set (it := Item (Some (sn_wire x)) (it_hash it0) (<[cf_local C := hash_of x]> (it_votes it0))).
      assert (Hv : forall p' h, it_votes it !! p' = Some h -> h = hash_of x /\ p' <> op /\ member N p').
      { intros p' h Hl. cbn in Hl. apply lookup_insert_Some in Hl as [[<- <-]|[_ Hl]]; [auto|auto]. }
      assert (Hit : item_ok S (key_of x) it).
      { exists x, op. split; [exact Hbs|]. split; [reflexivity|]. split; [exact Hqo|]. split; [exact Hv|].
        split; [discriminate|]. cbn. intros w Heq. injection Heq as <-. auto. }
      pose proof (good_set_cache S s1 (key_of x) it Hg1 Hit) as Hg2.
      eapply good_applyShare with (op := op); eauto. apply vote_nonempty.
    Qed.

    Lemma good_ctl S o1 o2 s p c :
      fair S -> good S s -> s_cur s = None -> legit S p q (MCtl (Some c)) ->
      good S (fst (ProcessOneMessage E C o1 o2 (MCtl (Some c)) p s)).
    Proof.
      intros HS Hg Hn (Hp & _ & Hpq & Ht & x & op & Hbs & Hk & Hm). cbn [ProcessOneMessage].
      destruct (c_msg c) as [w|].
      - destruct Hm as [-> Hqo]. destruct (bool_decide _); [|exact Hg].
        destruct (bsent_for_me S x op HS Hbs Hqo) as [l Hf].
        apply (good_share S o1 o2 _ x l); [exact HS|apply good_set_requested; exact Hg|exact Hn|exact Hf|exact Ht].
      - destruct (e_peer_ok E p); [|exact Hg]. unfold processRequestMsgFromPeer.
        destruct (s_stored s !! c_key c) as [w|] eqn:Hst; [|exact Hg]. cbn [fst].
        destruct (g_stored _ _ Hg _ _ Hst) as (y & op' & Hbs' & Hk' & ->).
        assert (y = x) as ->.
        { destruct Hbs as (? & ? & ?), Hbs' as (? & ? & ?). eapply fair_key; eauto. congruence. }
        apply good_send; [exact Hg|]. intros p' Hp'. apply elem_of_list_singleton in Hp' as ->.
        split; [exact Hq|]. split; [exact Hp|]. split; [congruence|]. cbn. split; [exact Ht|].
        exists x, op. auto.
    Qed.

    (** [announced] is the count of announcements: taskDone is not closed twice. *)
    Lemma good_receive S o1 o2 s p m :
      fair S -> good S s -> s_cur s = None -> legit S p q m ->
      (m = MDone (Some true) -> s_crash (fst (ProcessOneMessage E C o1 o2 m p s)) = false) ->
      good S (fst (ProcessOneMessage E C o1 o2 m p s)).
    Proof.
      intros HS Hg Hn Hl Hd.
      destruct m as [t [w|]|t [v|]|[[|]|]|[c|]| |]; try (destruct Hl as (_ & _ & _ & []); fail).
      - destruct Hl as (Hp & _ & Hpq & x & Hx & -> & -> & Hpx & Hto).
        destruct (fair_in _ _ HS Hx) as (op & l & Hh).
        apply (good_share S o1 o2 s x l); auto; [|apply (h_type _ _ _ _ _ _ Hh)].
        split; [exact Hx|]. split; [exact Hto|]. apply (h_dec _ _ _ _ _ _ Hh).
      - cbn [ProcessOneMessage]. destruct (s_cache s !! v_key v) as [it|]; [|apply good_ver; assumption].
        destruct (it_votes it !! p); [exact Hg|apply good_ver; assumption].
      - specialize (Hd eq_refl). revert Hd. cbn [ProcessOneMessage].
        destruct (bool_decide _); [intros _; exact Hg|]. cbn zeta.
        destruct (Z.eqb _ _); [|intros _; apply good_set_finished; exact Hg].
        destruct (Nat.eqb _ _); cbn [fst]; [|discriminate].
        intros _. apply good_set_closed, good_set_finished, Hg.
      - apply good_ctl; assumption.
    Qed.

    (** *** One step of the node *)
    Definition local_step (l : label) : Prop :=
      match l with LLoop | LFinish | LAccept _ => True | LWork _ res => res = None | LRecv _ _ _ _ => False end.

    Lemma good_local S s l : fair S -> good S s -> local_step l -> good S (step E C s l).
    Proof.
      intros HS Hg Hl. unfold step. rewrite (g_crash _ _ Hg).
      destruct l as [o1 o2 p m| | |k res|k]; cbn in Hl.
      - destruct Hl.
      - destruct (s_cur s) as [[[|b rest] key w]|] eqn:Hc; try exact Hg. apply good_loop; assumption.
      - destruct (s_cur s) as [[[|b rest] key w]|] eqn:Hc; try exact Hg.
        destruct (batch_done s) eqn:Hb; [|exact Hg]. eapply good_finish; eassumption.
      - subst res. apply good_work; assumption.
      - apply good_accept; assumption.
    Qed.
  End Node.
End Honest.
