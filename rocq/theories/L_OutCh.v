(** Proofs about the batching of outgoing shares. *)
From Coq Require Import ZArith Ascii String List Lia.
From stdpp Require Import base list strings gmap.
From Verif Require Import Base L_Base M_OutCh S_OutCh.

Lemma before_colon_key t d :
  ":"%char ∉ to_bytes t -> of_bytes (before_colon (to_bytes (uni_key t d))) = t.
Proof.
  intros Hno. unfold uni_key. rewrite to_bytes_app. change (to_bytes (String.append ":" d)) with (":"%char :: to_bytes d).
  assert (Hg : forall b, ":"%char ∉ b -> before_colon (b ++ ":"%char :: to_bytes d) = b).
  { induction b as [|c b IH]; intros Hb; cbn; [reflexivity|].
    apply not_elem_of_cons in Hb as [Hc Hb].
    destruct (Ascii.eqb_spec c ":"); [congruence|]. rewrite IH by exact Hb. reflexivity. }
  rewrite Hg by exact Hno. apply of_to_bytes.
Qed.
Lemma uni_key_inj t d t' d' :
  ":"%char ∉ to_bytes t -> ":"%char ∉ to_bytes t' ->
  uni_key t d = uni_key t' d' -> t = t' /\ d = d'.
Proof.
  intros H1 H2 Heq. assert (Ht : t = t').
  { rewrite <- (before_colon_key t d H1), Heq. apply before_colon_key, H2. }
  split; [exact Ht|]. subst t'. unfold uni_key in Heq. apply (f_equal to_bytes) in Heq.
  rewrite !to_bytes_app in Heq. apply app_inv_head in Heq. apply app_inv_head in Heq.
  apply to_bytes_inj, Heq.
Qed.

Section Out.
  Variable E : oenv.
  Hypothesis Hnum : 1 <= oe_num E.
  Hypothesis Hsign : forall b, is_Some (oe_sign E b).

  Lemma flush_idle name l m out :
    Forall (fun kv : string * list entry => length kv.2 <> oe_num E) l ->
    foldl (fun a kv => flush_one E name kv a) (m, out) l = (m, out).
  Proof.
    intros Hl. revert m out. induction Hl as [|kv l Hkv Hl IH]; intros m out; [reflexivity|]. cbn [foldl].
    unfold flush_one at 2. rewrite (proj2 (Nat.eqb_neq _ _) Hkv). apply IH.
  Qed.

  (** At most the key [k] is full. *)
  Lemma flush_spec ord name m out k :
    (forall k' l, m !! k' = Some l -> k' <> k -> length l <> oe_num E) ->
    match m !! k with
    | Some l =>
        if decide (length l = oe_num E) then
          exists e t, head l = Some e /\ sendBulkMsg E (name k) l (en_routing e) = Some t /\
            flush E ord name m out = (delete k m, out ++ [t])
        else flush E ord name m out = (m, out)
    | None => flush E ord name m out = (m, out)
    end.
  Proof.
    intros Hother. unfold flush.
    assert (Hl : forall kv, kv ∈ permute ord (map_to_list m) <-> m !! kv.1 = Some kv.2).
    { intros [k' l']. rewrite permute_perm. apply elem_of_map_to_list. }
    assert (Hnd : NoDup (permute ord (map_to_list m)).*1).
    { rewrite permute_perm. apply NoDup_fst_map_to_list. }
    destruct (m !! k) as [l|] eqn:Hk.
    2:{ apply flush_idle. apply Forall_forall. intros kv Hin. apply Hl in Hin.
        apply (Hother kv.1); [exact Hin|]. intros Heq. rewrite Heq in Hin. congruence. }
    destruct (decide (length l = oe_num E)) as [Hlen|Hlen].
    2:{ apply flush_idle. apply Forall_forall. intros kv Hin. apply Hl in Hin.
        destruct (decide (kv.1 = k)) as [Heq|Hne]; [|eapply Hother; eauto].
        rewrite Heq in Hin. rewrite Hk in Hin. injection Hin as <-. exact Hlen. }
    destruct l as [|e l']; [cbn in Hlen; lia|].
    assert (Hin : (k, e :: l') ∈ permute ord (map_to_list m)) by (apply Hl; exact Hk).
    apply elem_of_list_split in Hin as (l1 & l2 & Heq). rewrite Heq in *.
    rewrite fmap_app in Hnd. cbn in Hnd. apply NoDup_app in Hnd as (_ & Hn1 & Hn2).
    apply NoDup_cons in Hn2 as [Hn2 _].
    assert (Hf1 : Forall (fun kv : string * list entry => length kv.2 <> oe_num E) l1).
    { apply Forall_forall. intros kv Hin. apply (Hother kv.1); [apply Hl, elem_of_app; auto|].
      intros Hx. apply (Hn1 k); [rewrite <- Hx; apply elem_of_list_fmap; eauto|left]. }
    assert (Hf2 : Forall (fun kv : string * list entry => length kv.2 <> oe_num E) l2).
    { apply Forall_forall. intros kv Hin. apply (Hother kv.1); [apply Hl, elem_of_app; right; right; auto|].
      intros Hx. apply Hn2. rewrite <- Hx. apply elem_of_list_fmap. eauto. }
    unfold sendBulkMsg. destruct (Hsign (oe_enc E (e :: l') ++ to_bytes (oe_msgid E))) as [sig Hsig].
    rewrite Hsig. exists e. eexists. split; [reflexivity|]. split; [reflexivity|].
    rewrite foldl_app, flush_idle by exact Hf1. cbn [foldl]. unfold flush_one at 2. cbn [fst snd].
    rewrite Hlen, Nat.eqb_refl. unfold sendBulkMsg. rewrite Hsig.
    apply flush_idle. exact Hf2.
  Qed.

  (** The cache of a group. *)
  Definition cached (s : ostate) (g : group) : option (list entry) :=
    match g with
    | (t, None) => os_bc s !! t
    | (t, Some d) => os_uni s !! uni_key t d
    end.

  Record oinv (ems : list emission) (s : ostate) : Prop := OInv {
    oi_crash : os_crash s = false;
    oi_groups : forall g, ":"%char ∉ to_bytes g.1 ->
        delivered g (os_sent s) ++ default [] (cached s g) = emitted g ems;
    oi_uni : forall k l, os_uni s !! k = Some l -> exists t d,
        k = uni_key t d /\ ":"%char ∉ to_bytes t /\ length l < oe_num E /\
        Forall (fun e => place (en_routing e) = Some d) l;
    oi_bc : forall t l, os_bc s !! t = Some l ->
        ":"%char ∉ to_bytes t /\ length l < oe_num E /\ Forall (fun e => place (en_routing e) = None) l;
    oi_sent : Forall (sent_ok E) (os_sent s) }.

  Lemma sendBulkMsg_ok round l e rest t p :
    l = e :: rest -> length l = oe_num E -> Forall (fun e => place (en_routing e) = p) l ->
    sendBulkMsg E round l (en_routing e) = Some t ->
    sent_ok E t /\ group_sent t = (round, p) /\ t_list t = l.
  Proof.
    intros Heq Hlen Hpl Hs. unfold sendBulkMsg in Hs.
    destruct (oe_sign E _) as [sig|] eqn:Hsig; [|discriminate]. injection Hs as <-.
    assert (Hp : place (en_routing e) = p) by (rewrite Heq in Hpl; apply Forall_cons in Hpl; tauto).
    unfold group_sent, sent_ok. cbn [t_round t_routing t_body t_sig t_peers t_list]. split; [|rewrite Hp; auto].
    split; [exact Hlen|]. split; [eauto|]. split; [rewrite Hp; exact Hpl|].
    split; [reflexivity|]. split; [exact Hsig|]. split.
    - intros ->. reflexivity.
    - intros Hne q. destruct (or_to (en_routing e)) as [|d ds]; [congruence|].
      change (q ∈ omap (fun d => oe_id2peer E !! d_id d) (d :: ds) <->
              exists d0, d0 ∈ d :: ds /\ oe_id2peer E !! d_id d0 = Some q).
      rewrite elem_of_list_omap. split; intros (x & Hx1 & Hx2); exists x; auto.
  Qed.

  Lemma delivered_snoc g l t :
    delivered g (l ++ [t]) = delivered g l ++ (if decide (group_sent t = g) then t_list t else []).
  Proof.
    unfold delivered. rewrite filter_app, map_app, concat_app. f_equal.
    rewrite filter_cons, filter_nil. destruct (decide _); cbn; [apply app_nil_r|reflexivity].
  Qed.
  Lemma emitted_snoc g ems em :
    emitted g (ems ++ [em]) = emitted g ems ++
      (if decide (group_of em = Some g) then option_list (entry_of em) else []).
  Proof.
    unfold emitted. rewrite filter_app, omap_app. f_equal.
    rewrite filter_cons, filter_nil. destruct (decide _); cbn; [|reflexivity].
    destruct (entry_of em); reflexivity.
  Qed.

  Lemma oinv_step ems s em o1 o2 :
    oinv ems s -> proper em -> oinv (ems ++ [em]) (ostep E s (em, o1, o2)).
  Proof.
    intros [Hc Hg Hu Hb Hs] [Hty Hto]. cbn [ostep]. rewrite Hc. unfold ProcessOutCh.
    destruct (em_wire em) as [[body r]|] eqn:Hw.
    2:{ constructor; auto. intros g Hgt. rewrite emitted_snoc, <- Hg by exact Hgt.
        unfold group_of. rewrite Hw. cbn. rewrite app_nil_r. reflexivity. }
    assert (Hgrp : group_of em = Some (em_type em, place r)) by (unfold group_of; rewrite Hw; reflexivity).
    assert (Hent : entry_of em = Some (Entry body (em_ident em) r)) by (unfold entry_of; rewrite Hw; reflexivity).
    set (e := Entry body (em_ident em) r) in *.
    destruct (or_bcast r) eqn:Hbc.
    - (* broadcast *)
      assert (Hpl : place r = None) by (unfold place; rewrite Hbc; reflexivity).
      rewrite Hpl in Hgrp. cbn [os_uni os_bc os_sent os_crash].
      assert (Hidle : flush E o1 (fun k => of_bytes (before_colon (to_bytes k))) (os_uni s) (os_sent s) = (os_uni s, os_sent s)).
      { apply flush_idle. apply Forall_forall. intros [k l] Hin. rewrite permute_perm in Hin.
        apply elem_of_map_to_list in Hin. apply Hu in Hin as (t & d & _ & _ & Hl & _). cbn. lia. }
      rewrite Hidle. clear Hidle.
      set (l := default [] (os_bc s !! em_type em) ++ [e]).
      assert (Hl : length l <= oe_num E /\ Forall (fun e => place (en_routing e) = None) l).
      { unfold l. rewrite app_length. cbn. destruct (os_bc s !! em_type em) as [l0|] eqn:Hk; cbn.
        - apply Hb in Hk as (_ & Hl & Hf). split; [lia|]. apply Forall_app. split; [exact Hf|]. repeat constructor. exact Hpl.
        - split; [lia|]. repeat constructor. exact Hpl. }
      destruct Hl as [Hl Hlf].
      pose proof (flush_spec o2 (fun k => k) (<[em_type em := l]> (os_bc s)) (os_sent s) (em_type em)) as Hfl.
      rewrite lookup_insert in Hfl.
      assert (Hoth : forall k' l', <[em_type em := l]> (os_bc s) !! k' = Some l' -> k' <> em_type em -> length l' <> oe_num E).
      { intros k' l' Hk' Hne. rewrite lookup_insert_ne in Hk' by congruence. apply Hb in Hk'. lia. }
      specialize (Hfl Hoth). clear Hoth.
      destruct (decide (length l = oe_num E)) as [Hfull|Hnot].
      + destruct Hfl as (e0 & t & Hhd & Hsend & Hfl). rewrite Hfl.
        destruct l as [|e1 rest] eqn:Hleq; [discriminate|]. cbn in Hhd. injection Hhd as ->.
        destruct (sendBulkMsg_ok (em_type em) (e0 :: rest) e0 rest t None eq_refl Hfull Hlf Hsend) as (Hok & Hgs & Htl).
        constructor; cbn [os_crash os_uni os_bc os_sent]; [exact Hc| |exact Hu| |].
        * intros g Hgt. rewrite delivered_snoc, emitted_snoc, <- Hg, Hgs, Hgrp, Hent, Htl by exact Hgt. cbn [option_list].
          destruct (decide ((em_type em, None) = g)) as [<-|Hne].
          -- rewrite !decide_True by reflexivity. cbn [cached os_bc]. rewrite delete_insert_delete, lookup_delete.
             cbn. rewrite app_nil_r, <- Hleq. unfold l. rewrite app_assoc. reflexivity.
          -- rewrite !decide_False by congruence. rewrite !app_nil_r. f_equal.
             destruct g as [t' [d|]]; cbn [cached os_bc os_uni]; [reflexivity|].
             rewrite lookup_delete_ne, lookup_insert_ne by congruence. reflexivity.
        * intros t' l' Hk'. rewrite delete_insert_delete in Hk'. apply lookup_delete_Some in Hk' as [_ Hk']. apply Hb, Hk'.
        * apply Forall_app. split; [exact Hs|]. constructor; [exact Hok|constructor].
      + rewrite Hfl. constructor; cbn [os_crash os_uni os_bc os_sent]; [exact Hc| |exact Hu| |exact Hs].
        * intros g Hgt. rewrite emitted_snoc, <- Hg, Hgrp, Hent by exact Hgt. cbn [option_list].
          destruct (decide (Some (em_type em, None) = Some g)) as [Heq|Hne].
          -- injection Heq as <-. rewrite ?decide_True by reflexivity. cbn [cached os_bc]. rewrite lookup_insert. cbn. unfold l. rewrite app_assoc. reflexivity.
          -- rewrite ?decide_False by congruence. rewrite app_nil_r. f_equal. destruct g as [t' [d|]]; cbn [cached os_bc os_uni]; [reflexivity|].
             rewrite lookup_insert_ne by congruence. reflexivity.
        * intros t' l' Hk'. destruct (decide (t' = em_type em)) as [->|Hne].
          -- rewrite lookup_insert in Hk'. injection Hk' as <-. split; [exact Hty|]. split; [lia|exact Hlf].
          -- rewrite lookup_insert_ne in Hk' by congruence. apply Hb, Hk'.
    - (* unicast *)
      specialize (Hto body r eq_refl Hbc). destruct (or_to r) as [|d ds] eqn:Hdst; [congruence|].
      assert (Hpl : place r = Some (d_str d)) by (unfold place; rewrite Hbc, Hdst; reflexivity).
      rewrite Hpl in Hgrp. cbn [os_uni os_bc os_sent os_crash]. set (k := uni_key (em_type em) (d_str d)).
      set (l := default [] (os_uni s !! k) ++ [e]).
      assert (Hl : length l <= oe_num E /\ Forall (fun e => place (en_routing e) = Some (d_str d)) l).
      { unfold l. rewrite app_length. cbn. destruct (os_uni s !! k) as [l0|] eqn:Hk; cbn.
        - apply Hu in Hk as (t' & d' & Hkk & Ht' & Hl & Hf). apply uni_key_inj in Hkk as [<- <-]; auto.
          split; [lia|]. apply Forall_app. split; [exact Hf|]. repeat constructor. exact Hpl.
        - split; [lia|]. repeat constructor. exact Hpl. }
      destruct Hl as [Hl Hlf].
      set (name := fun k => of_bytes (before_colon (to_bytes k))).
      pose proof (flush_spec o1 name (<[k := l]> (os_uni s)) (os_sent s) k) as Hfl.
      rewrite lookup_insert in Hfl.
      assert (Hoth : forall k' l', <[k := l]> (os_uni s) !! k' = Some l' -> k' <> k -> length l' <> oe_num E).
      { intros k' l' Hk' Hne. rewrite lookup_insert_ne in Hk' by congruence.
        apply Hu in Hk' as (? & ? & _ & _ & Hx & _). lia. }
      specialize (Hfl Hoth). clear Hoth.
      assert (Hidle : forall out, flush E o2 (fun k => k) (os_bc s) out = (os_bc s, out)).
      { intros out. apply flush_idle. apply Forall_forall. intros [k' l'] Hin. rewrite permute_perm in Hin.
        apply elem_of_map_to_list in Hin. apply Hb in Hin as (_ & Hx & _). cbn. lia. }
      assert (Hname : name k = em_type em) by (apply before_colon_key, Hty).
      assert (Hkne : forall t' d', ":"%char ∉ to_bytes t' -> (t', d') <> (em_type em, d_str d) -> uni_key t' d' <> k).
      { intros t' d' Ht' Hne Heq. apply uni_key_inj in Heq as [-> ->]; auto. }
      destruct (decide (length l = oe_num E)) as [Hfull|Hnot].
      + destruct Hfl as (e0 & t & Hhd & Hsend & Hfl). rewrite Hfl, Hidle.
        destruct l as [|e1 rest] eqn:Hleq; [discriminate|]. cbn in Hhd. injection Hhd as ->.
        rewrite Hname in Hsend.
        destruct (sendBulkMsg_ok (em_type em) (e0 :: rest) e0 rest t (Some (d_str d)) eq_refl Hfull Hlf Hsend) as (Hok & Hgs & Htl).
        constructor; cbn [os_crash os_uni os_bc os_sent]; [exact Hc| | |exact Hb|].
        * intros g Hgt. rewrite delivered_snoc, emitted_snoc, <- Hg, Hgs, Hgrp, Hent, Htl by exact Hgt. cbn [option_list].
          destruct (decide ((em_type em, Some (d_str d)) = g)) as [<-|Hne].
          -- rewrite !decide_True by reflexivity. cbn [cached os_uni]. fold k. rewrite delete_insert_delete, lookup_delete.
             cbn. rewrite app_nil_r, <- Hleq. unfold l. rewrite app_assoc. reflexivity.
          -- rewrite !decide_False by congruence. rewrite !app_nil_r. f_equal.
             destruct g as [t' [d'|]]; cbn [cached os_bc os_uni]; [|reflexivity]. cbn in Hgt.
             assert (Hk' : uni_key t' d' <> k) by (apply Hkne; [exact Hgt|intros [= -> ->]; apply Hne; reflexivity]).
             rewrite lookup_delete_ne, lookup_insert_ne by congruence. reflexivity.
        * intros t' l' Hk'. rewrite delete_insert_delete in Hk'. apply lookup_delete_Some in Hk' as [_ Hk']. apply Hu, Hk'.
        * apply Forall_app. split; [exact Hs|]. constructor; [exact Hok|constructor].
      + rewrite Hfl, Hidle. constructor; cbn [os_crash os_uni os_bc os_sent]; [exact Hc| | |exact Hb|exact Hs].
        * intros g Hgt. rewrite emitted_snoc, <- Hg, Hgrp, Hent by exact Hgt. cbn [option_list].
          destruct (decide (Some (em_type em, Some (d_str d)) = Some g)) as [Heq|Hne].
          -- injection Heq as <-. rewrite ?decide_True by reflexivity. cbn [cached os_uni]. fold k. rewrite lookup_insert. cbn. unfold l. rewrite app_assoc. reflexivity.
          -- rewrite ?decide_False by congruence. rewrite app_nil_r. f_equal. destruct g as [t' [d'|]]; cbn [cached os_bc os_uni]; [|reflexivity]. cbn in Hgt.
             assert (Hk' : uni_key t' d' <> k) by (apply Hkne; [exact Hgt|intros [= -> ->]; apply Hne; reflexivity]).
             rewrite lookup_insert_ne by congruence. reflexivity.
        * intros k' l' Hk'. destruct (decide (k' = k)) as [->|Hne].
          -- rewrite lookup_insert in Hk'. injection Hk' as <-. exists (em_type em), (d_str d).
             split; [reflexivity|]. split; [exact Hty|]. split; [lia|exact Hlf].
          -- rewrite lookup_insert_ne in Hk' by congruence. apply Hu, Hk'.
  Qed.

  Lemma oinv_run tr :
    Forall (fun x => proper x.1.1) tr -> oinv (map (fun x => x.1.1) tr) (orun E tr).
  Proof.
    induction tr as [|[[em o1] o2] tr IH] using rev_ind; intros Hp.
    - unfold orun. cbn [foldl map]. constructor; auto.
      + intros [t [d|]] _; reflexivity.
      + intros k l Hk. exfalso. clear -Hk. cbn in Hk. discriminate (eq_trans (eq_sym (lookup_empty k)) Hk).
      + intros k l Hk. exfalso. clear -Hk. cbn in Hk. discriminate (eq_trans (eq_sym (lookup_empty k)) Hk).
      + constructor.
    - apply Forall_app in Hp as [Hp1 Hp2]. apply Forall_cons in Hp2 as [Hp2 _].
      unfold orun. rewrite foldl_app, map_app. cbn [foldl map]. apply oinv_step; [apply IH, Hp1|exact Hp2].
  Qed.
End Out.
