(** Proofs: what ProcessOutCh sends for honest local parties is honest in the sense of
    [M_Honest], so a ceremony from local party to local party is one of [M_Honest]. *)
From Coq Require Import ZArith NArith Ascii String List Lia.
From stdpp Require Import base list strings gmap.
From Verif Require Import Base L_Base M_Common S_Common M_OutCh S_OutCh L_OutCh P_OutCh
  M_Wire S_Wire L_Wire2 M_Honest S_Honest L_Honest M_Ceremony S_Ceremony.

Lemma before_colon_none b : ":"%char ∉ before_colon b.
Proof.
  induction b as [|c b IH]; cbn; [apply not_elem_of_nil|].
  destruct (Ascii.eqb_spec c ":"); [apply not_elem_of_nil|]. apply not_elem_of_cons. auto.
Qed.

(** ** The log of ProcessOutCh only grows, and its rounds are type names *)
Section Log.
  Context (E : oenv).

  Lemma flush_log (R : string -> sent -> Prop) ord name m out :
    (forall k l e t, m !! k = Some l -> sendBulkMsg E (name k) l (en_routing e) = Some t -> R k t) ->
    exists ts, snd (flush E ord name m out) = (out ++ ts)%list /\ Forall (fun t => exists k, is_Some (m !! k) /\ R k t) ts /\
      forall k, is_Some (fst (flush E ord name m out) !! k) -> is_Some (m !! k).
  Proof.
    intros HR. unfold flush.
    assert (Hl : Forall (fun kv : string * list entry => m !! kv.1 = Some kv.2) (permute ord (map_to_list m))).
    { apply Forall_forall. intros [k l] Hin. rewrite permute_perm in Hin. apply elem_of_map_to_list in Hin. exact Hin. }
    enough (Hg : forall m0 out0, (forall k, is_Some (m0 !! k) -> is_Some (m !! k)) ->
      let z := foldl (fun a kv => flush_one E name kv a) (m0, out0) (permute ord (map_to_list m)) in
      exists ts, snd z = (out0 ++ ts)%list /\ Forall (fun t => exists k, is_Some (m !! k) /\ R k t) ts /\
        forall k, is_Some (fst z !! k) -> is_Some (m !! k)) by (apply Hg; auto).
    induction Hl as [|[k l] ls Hk _ IH]; intros m0 out0 Hm; cbn [foldl].
    { exists []. split; [cbn; rewrite app_nil_r; reflexivity|]. split; [constructor|exact Hm]. }
    destruct (flush_one E name (k, l) (m0, out0)) as [m1 out1] eqn:Hone. unfold flush_one in Hone. cbn [fst snd] in Hk, Hone.
    destruct (Nat.eqb _ _); [|injection Hone as <- <-; apply IH, Hm].
    destruct l as [|e rest]; [injection Hone as <- <-; apply IH, Hm|].
    destruct (sendBulkMsg E (name k) (e :: rest) (en_routing e)) as [t|] eqn:Ht; [|injection Hone as <- <-; apply IH, Hm].
    injection Hone as <- <-.
    destruct (IH (delete k m0) (out0 ++ [t])%list) as (ts & H1 & H2 & H3).
    { intros k' [x Hx]. apply lookup_delete_Some in Hx as [_ Hx]. apply Hm. eauto. }
    exists (t :: ts). split; [rewrite H1, <- app_assoc; reflexivity|]. split; [|exact H3].
    constructor; [|exact H2]. exists k. split; [eauto|]. eapply HR; eauto.
  Qed.

  Lemma ostep_log s x : 
    (":"%char ∉ to_bytes (em_type x.1.1)) -> (forall k, is_Some (os_bc s !! k) -> ":"%char ∉ to_bytes k) ->
    exists ts, os_sent (ostep E s x) = (os_sent s ++ ts)%list /\ Forall (fun t => ":"%char ∉ to_bytes (t_round t)) ts /\
      forall k, is_Some (os_bc (ostep E s x) !! k) -> ":"%char ∉ to_bytes k.
  Proof.
    destruct x as [[em o1] o2]. intros Hty Hbc. cbn [fst] in Hty. unfold ostep.
    assert (Hsame : exists ts, os_sent s = (os_sent s ++ ts)%list /\ Forall (fun t => ":"%char ∉ to_bytes (t_round t)) ts /\
      forall k, is_Some (os_bc s !! k) -> ":"%char ∉ to_bytes k).
    { exists []. split; [rewrite app_nil_r; reflexivity|]. split; [constructor|exact Hbc]. }
    destruct (os_crash s); [exact Hsame|]. unfold ProcessOutCh. destruct (em_wire em) as [[body r]|]; [|exact Hsame].
    assert (Hgen : forall u b c, (forall k, is_Some (b !! k) -> ":"%char ∉ to_bytes k) ->
      let s1 := OState u b (os_sent s) c in
      exists ts, os_sent (let '(u, out1) := flush E o1 (fun k => of_bytes (before_colon (to_bytes k))) (os_uni s1) (os_sent s1) in
            let '(b, out2) := flush E o2 (fun k => k) (os_bc s1) out1 in
            OState u b out2 (os_crash s1)) = (os_sent s ++ ts)%list /\ Forall (fun t => ":"%char ∉ to_bytes (t_round t)) ts /\
        forall k, is_Some (os_bc (let '(u, out1) := flush E o1 (fun k => of_bytes (before_colon (to_bytes k))) (os_uni s1) (os_sent s1) in
            let '(b, out2) := flush E o2 (fun k => k) (os_bc s1) out1 in
            OState u b out2 (os_crash s1)) !! k) -> ":"%char ∉ to_bytes k).
    { intros u b c Hb s1. cbn [os_uni os_bc os_sent os_crash s1].
      assert (Hround : forall (name : string -> string) k l e t, sendBulkMsg E (name k) l (en_routing e) = Some t -> t_round t = name k).
      { intros name k l e t. unfold sendBulkMsg. destruct (oe_sign E _); [|discriminate]. intros [= <-]. reflexivity. }
      destruct (flush_log (fun k t => t_round t = of_bytes (before_colon (to_bytes k))) o1 (fun k => of_bytes (before_colon (to_bytes k))) u (os_sent s))
        as (ts1 & H1 & H2 & _).
      { intros k l e t _ Ht. apply (Hround (fun k => of_bytes (before_colon (to_bytes k)))) in Ht. exact Ht. }
      destruct (flush E o1 _ u (os_sent s)) as [u' out1]. cbn [snd] in H1. subst out1.
      destruct (flush_log (fun k t => t_round t = k) o2 (fun k => k) b (os_sent s ++ ts1)%list) as (ts2 & H3 & H4 & H5).
      { intros k l e t _ Ht. apply (Hround (fun k => k)) in Ht. exact Ht. }
      destruct (flush E o2 _ b _) as [b' out2]. cbn [fst snd] in *. subst out2. cbn [os_sent os_bc].
      exists (ts1 ++ ts2)%list. split; [rewrite app_assoc; reflexivity|]. split.
      - apply Forall_app. split; [eapply Forall_impl; [exact H2|]|eapply Forall_impl; [exact H4|]].
        + intros t (k & _ & ->). rewrite to_of_bytes. apply before_colon_none.
        + intros t (k & Hk & ->). apply Hb, Hk.
      - intros k Hk. apply Hb, H5, Hk. }
    destruct (or_bcast r).
    - apply Hgen. intros k [l Hl]. destruct (decide (k = em_type em)) as [->|Hne]; [exact Hty|].
      rewrite lookup_insert_ne in Hl by congruence. apply Hbc. eauto.
    - destruct (or_to r) as [|d ds]; [|apply Hgen, Hbc]. exists []. cbn. split; [rewrite app_nil_r; reflexivity|].
      split; [constructor|exact Hbc].
  Qed.

  Lemma orun_rounds tr : Forall (fun x => proper x.1.1) tr ->
    Forall (fun t => ":"%char ∉ to_bytes (t_round t)) (os_sent (orun E tr)) /\
    forall k, is_Some (os_bc (orun E tr) !! k) -> ":"%char ∉ to_bytes k.
  Proof.
    induction tr as [|x tr IH] using rev_ind; intros Hp.
    { split; [constructor|]. intros k [l Hl]. discriminate. }
    apply Forall_app in Hp as [Hp Hx]. apply Forall_cons_1 in Hx as [[Hx _] _]. destruct (IH Hp) as [H1 H2].
    unfold orun. rewrite foldl_app. cbn [foldl]. destruct (ostep_log (foldl (ostep E) oinit tr) x Hx H2) as (ts & -> & H4 & H5).
    split; [apply Forall_app; auto|exact H5].
  Qed.
  Lemma orun_grows tr x : Forall (fun x => proper x.1.1) (tr ++ [x])%list ->
    os_sent (orun E (tr ++ [x])%list) = (os_sent (orun E tr) ++ drop (length (os_sent (orun E tr))) (os_sent (orun E (tr ++ [x])%list)))%list.
  Proof.
    intros Hp. apply Forall_app in Hp as [Hp Hx]. apply Forall_cons_1 in Hx as [[Hx _] _].
    destruct (orun_rounds tr Hp) as [_ H2]. unfold orun in *. rewrite foldl_app. cbn [foldl].
    destruct (ostep_log (foldl (ostep E) oinit tr) x Hx H2) as (ts & -> & _). rewrite drop_app. reflexivity.
  Qed.
End Log.

(** ** One node *)
Section Node.
  Context (E : env) (N : ceremony) (full : entry -> mrouting) (ty : mtype).
  Context (sign : string -> bytes -> option bytes) (name : string -> string).
  Context (Hset : setting E N ty sign name).
  Context (id p : string) (Hid : ce_peers N !! id = Some p).
  Let OE := out_of N full sign p.
  Let ems (tr : list (emission * order * order)) := map (fun x => fst (fst x)) tr.

  (** Every message was emitted in keeping with [emits]. *)
  Inductive valid : list (emission * order * order) -> Prop :=
  | valid_nil : valid []
  | valid_snoc tr em o1 o2 body r :
      valid tr -> emits E N full name id p (ems tr) em body r -> valid (tr ++ [(em, o1, o2)])%list.

  Lemma ems_snoc tr x : ems (tr ++ [x])%list = (ems tr ++ [x.1.1])%list.
  Proof. unfold ems. rewrite map_app. reflexivity. Qed.

  Lemma valid_in tr em : valid tr -> em ∈ ems tr -> exists before body r, emits E N full name id p before em body r.
  Proof.
    induction 1 as [|tr em' o1 o2 body r Hv IH He]; [intros X; apply elem_of_nil in X; contradiction|].
    rewrite ems_snoc. cbn [fst]. intros Hin. apply elem_of_app in Hin as [Hin|Hin]; [apply IH, Hin|].
    apply elem_of_list_singleton in Hin as ->. eauto.
  Qed.
  Lemma valid_proper tr : valid tr -> Forall (fun x => proper x.1.1) tr.
  Proof.
    induction 1 as [|tr em' o1 o2 body r Hv IH He]; [constructor|]. apply Forall_app. split; [exact IH|].
    constructor; [|constructor]. cbn [fst]. split; [apply (e_colon _ _ _ _ _ _ _ _ _ _ He)|].
    intros body' r' Hw Hb. rewrite (e_wire _ _ _ _ _ _ _ _ _ _ He) in Hw. injection Hw as <- <-.
    destruct (e_unicast _ _ _ _ _ _ _ _ _ _ He Hb) as (d & q & -> & _). discriminate.
  Qed.

  Lemma place_broadcast before em body r : emits E N full name id p before em body r ->
    (place r = None <-> or_bcast r = true) /\
    (forall d, place r = Some d -> exists x q, or_to r = [x] /\ d = name (d_id x) /\ ce_peers N !! d_id x = Some q /\ q <> p).
  Proof.
    intros He. unfold place. destruct (or_bcast r) eqn:Hb; [split; [tauto|discriminate]|].
    destruct (e_unicast _ _ _ _ _ _ _ _ _ _ He Hb) as (d & q & Hto & Hn & Hq & Hne). rewrite Hto. cbn.
    split; [split; discriminate|]. intros d' [= <-]. eauto 8.
  Qed.

  (** Messages of one type to one place go to the same parties. *)
  Lemma place_dest before before' em em' body body' r r' :
    emits E N full name id p before em body r -> emits E N full name id p before' em' body' r' ->
    place r = place r' -> or_bcast r = or_bcast r' /\ map d_id (or_to r) = map d_id (or_to r').
  Proof.
    intros He He' Hpl. destruct (place_broadcast _ _ _ _ He) as [Hb Hu]. destruct (place_broadcast _ _ _ _ He') as [Hb' Hu'].
    rewrite <- Hpl in Hb', Hu'. destruct (place r) as [d|] eqn:Hp.
    - split. { destruct (or_bcast r), (or_bcast r'); intuition congruence. }
      destruct (Hu _ eq_refl) as (x & q & -> & Hd & Hq & _). destruct (Hu' _ eq_refl) as (x' & q' & -> & Hd' & Hq' & _).
      cbn. f_equal. eapply (st_name _ _ _ _ _ Hset); [rewrite Hq; eauto|rewrite Hq'; eauto|congruence].
    - destruct Hb as [Hb _], Hb' as [Hb' _]. specialize (Hb eq_refl). specialize (Hb' eq_refl). split; [congruence|].
      rewrite (e_bcast _ _ _ _ _ _ _ _ _ _ He Hb), (e_bcast _ _ _ _ _ _ _ _ _ _ He' Hb'). reflexivity.
  Qed.
  Lemma dest_place before before' em em' body body' r r' :
    emits E N full name id p before em body r -> emits E N full name id p before' em' body' r' ->
    or_bcast r = or_bcast r' -> map d_id (or_to r) = map d_id (or_to r') -> place r = place r'.
  Proof.
    intros He He' Hb Hto. unfold place. rewrite <- Hb. destruct (or_bcast r) eqn:Hbc; [reflexivity|].
    destruct (e_unicast _ _ _ _ _ _ _ _ _ _ He Hbc) as (d & q & Hd & Hn & _).
    destruct (e_unicast _ _ _ _ _ _ _ _ _ _ He') as (d' & q' & Hd' & Hn' & _); [congruence|].
    rewrite Hd, Hd' in *. cbn in *. injection Hto as Hto. congruence.
  Qed.

  (** The shares of a group are of different sessions. *)
  Lemma emitted_in tr g e : valid tr -> e ∈ emitted g (ems tr) ->
    exists em before, em ∈ ems tr /\ emits E N full name id p before em (en_body e) (en_routing e) /\
      g = (em_type em, place (en_routing e)) /\ em_ident em = en_ident e.
  Proof.
    intros Hv He. unfold emitted in He. apply elem_of_list_omap in He as (em & Hin & He).
    apply elem_of_list_filter in Hin as [Hg Hin]. destruct (valid_in _ _ Hv Hin) as (before & body & r & Hem).
    unfold S_OutCh.entry_of in He. unfold group_of in Hg. rewrite (e_wire _ _ _ _ _ _ _ _ _ _ Hem) in *.
    injection He as <-. injection Hg as <-. exists em, before. auto.
  Qed.
  Lemma emitted_sessions tr g : valid tr -> NoDup (map en_ident (emitted g (ems tr))).
  Proof.
    induction 1 as [|tr em o1 o2 body r Hv IH He]; [constructor|]. rewrite ems_snoc, emitted_snoc. cbn [fst].
    destruct (decide _) as [Hg|]; [|rewrite app_nil_r; exact IH].
    unfold S_OutCh.entry_of. unfold group_of in Hg. rewrite (e_wire _ _ _ _ _ _ _ _ _ _ He) in *. injection Hg as <-.
    cbn [option_list]. rewrite map_app. apply NoDup_app. split; [exact IH|]. cbn [map en_ident].
    split; [|repeat constructor; apply not_elem_of_nil]. intros x Hx Hx'. apply elem_of_list_singleton in Hx' as ->.
    apply elem_of_list_fmap in Hx as (e & Hid' & Hin). destruct (emitted_in _ _ _ Hv Hin) as (em' & before & Hem' & He' & Hg & Hid2).
    cbn in Hid'. injection Hg as Hty Hpl. destruct (place_dest _ _ _ _ _ _ _ _ He He' Hpl) as [_ Hd].
    eapply (e_once _ _ _ _ _ _ _ _ _ _ He em'); [exact Hem'|apply (e_wire _ _ _ _ _ _ _ _ _ _ He')|congruence|congruence|congruence].
  Qed.
  Lemma emitted_length tr g : valid tr -> length (emitted g (ems tr)) <= size (ce_sessions N).
  Proof.
    intros Hv. pose proof (emitted_sessions _ g Hv) as Hnd. rewrite <- (map_length en_ident).
    rewrite <- (size_list_to_set (C := gset string) _ Hnd). apply subseteq_size. intros x Hx.
    apply elem_of_list_to_set, elem_of_list_fmap in Hx as (e & -> & Hin).
    destruct (emitted_in _ _ _ Hv Hin) as (em & before & _ & He & _ & <-). apply (e_session _ _ _ _ _ _ _ _ _ _ He).
  Qed.

  Lemma num_pos : 1 <= oe_num OE.
  Proof.
    cbn. destruct (size (ce_sessions N)) eqn:Hs; [|lia]. apply size_empty_inv in Hs.
    destruct (st_sessions _ _ _ _ _ Hset). apply leibniz_equiv, Hs.
  Qed.
  Lemma signs b : is_Some (oe_sign OE b).
  Proof.
    cbn. destruct (proj2 (wf_dom _ _ (st_wf _ _ _ _ _ Hset) id)) as [key Hk]; [rewrite Hid; eauto|].
    destruct (st_sign _ _ _ _ _ Hset id p key b Hid Hk) as (sig & Hs & _). eauto.
  Qed.

  (** What is sent: complete bulk messages, one per group. *)
  Lemma out_facts tr : valid tr ->
    Forall (sent_ok OE) (os_sent (orun OE tr)) /\
    Forall (fun t => ":"%char ∉ to_bytes (t_round t)) (os_sent (orun OE tr)) /\
    (forall g, ":"%char ∉ to_bytes g.1 -> exists waiting,
       (delivered g (os_sent (orun OE tr)) ++ waiting)%list = emitted g (ems tr) /\ length waiting < oe_num OE).
  Proof.
    intros Hv. pose proof (valid_proper _ Hv) as Hp. destruct (C41_batching OE tr num_pos signs Hp) as (_ & H1 & H2).
    split; [exact H1|]. split; [apply orun_rounds, Hp|exact H2].
  Qed.
  Lemma groups_once tr : valid tr -> NoDup (map group_sent (os_sent (orun OE tr))).
  Proof.
    intros Hv. destruct (out_facts tr Hv) as (Hok & Hcol & Hg).
    assert (Hlen : forall g, ":"%char ∉ to_bytes g.1 -> length (delivered g (os_sent (orun OE tr))) <= oe_num OE).
    { intros g Hc. destruct (Hg g Hc) as (w & Heq & _). pose proof (emitted_length tr g Hv) as Hl. rewrite <- Heq, app_length in Hl. cbn. lia. }
    revert Hok Hcol Hlen. generalize (os_sent (orun OE tr)) as ts. induction ts as [|t ts IH] using rev_ind; intros Hok Hcol Hlen; [constructor|].
    apply Forall_app in Hok as [Hok Ht]. apply Forall_cons_1 in Ht as [Ht _].
    apply Forall_app in Hcol as [Hcol Hct]. apply Forall_cons_1 in Hct as [Hct _].
    rewrite map_app. apply NoDup_app. split.
    { apply IH; [exact Hok|exact Hcol|]. intros g Hc. specialize (Hlen g Hc). rewrite delivered_snoc, app_length in Hlen. lia. }
    split; [|repeat constructor; apply not_elem_of_nil]. intros g Hin Hin'. apply elem_of_list_singleton in Hin' as ->.
    specialize (Hlen (group_sent t) Hct). rewrite delivered_snoc, app_length, decide_True in Hlen by reflexivity.
    destruct Ht as (Ht & _). rewrite Ht in Hlen.
    apply elem_of_list_fmap in Hin as (t' & Hgt & Hin). apply elem_of_list_split in Hin as (l1 & l2 & ->).
    apply Forall_app in Hok as [_ Hok]. apply Forall_cons_1 in Hok as [[Ht' _] _].
    unfold delivered in Hlen. rewrite filter_app, filter_cons, decide_True in Hlen by congruence.
    rewrite map_app, concat_app, !app_length in Hlen. cbn [map concat] in Hlen. rewrite app_length, Ht' in Hlen.
    pose proof num_pos. lia.
  Qed.

  (** The shares of a bulk message. *)
  Lemma sent_entry tr t e : valid tr -> t ∈ os_sent (orun OE tr) -> e ∈ t_list t ->
    exists em before, em ∈ ems tr /\ emits E N full name id p before em (en_body e) (en_routing e) /\
      em_type em = t_round t /\ em_ident em = en_ident e /\ place (en_routing e) = place (t_routing t).
  Proof.
    intros Hv Ht He. destruct (out_facts tr Hv) as (_ & Hcol & _). rewrite Forall_forall in Hcol.
    pose proof (C41_nothing_invented OE tr t num_pos signs (valid_proper _ Hv) Ht (Hcol t Ht) e He) as Hin.
    destruct (emitted_in _ _ _ Hv Hin) as (em & before & H1 & H2 & H3 & H4).
    unfold group_sent in H3. injection H3 as H3 H5. exists em, before. auto.
  Qed.
  Lemma sent_renders tr t : valid tr -> t ∈ os_sent (orun OE tr) -> Forall (renders full) (t_list t).
  Proof.
    intros Hv Ht. apply Forall_forall. intros e He. destruct (sent_entry _ _ _ Hv Ht He) as (em & before & _ & Hem & _ & Hi & _).
    pose proof (e_renders _ _ _ _ _ _ _ _ _ _ Hem) as Hr. rewrite Hi in Hr. destruct e. exact Hr.
  Qed.
  Lemma sent_idents tr t : valid tr -> t ∈ os_sent (orun OE tr) -> NoDup (map en_ident (t_list t)).
  Proof.
    intros Hv Ht. destruct (out_facts tr Hv) as (_ & Hcol & Hg). rewrite Forall_forall in Hcol.
    destruct (Hg (group_sent t) (Hcol t Ht)) as (w & Heq & _). pose proof (emitted_sessions tr (group_sent t) Hv) as Hnd.
    rewrite <- Heq in Hnd. apply elem_of_list_split in Ht as (l1 & l2 & Hl). rewrite Hl in Hnd.
    unfold delivered in Hnd. rewrite filter_app, filter_cons, decide_True, !map_app, concat_app in Hnd by reflexivity.
    cbn [map concat] in Hnd. rewrite !map_app in Hnd.
    apply NoDup_app in Hnd as (Hnd & _ & _). apply NoDup_app in Hnd as (_ & _ & Hnd). apply NoDup_app in Hnd as (Hnd & _ & _). exact Hnd.
  Qed.
  Lemma sent_dec tr t : valid tr -> t ∈ os_sent (orun OE tr) ->
    exists bl, e_dec_bulk (wire_env E) (t_body t) = Some bl /\ Forall2 received_entry (t_list t) bl.
  Proof.
    intros Hv Ht. destruct (out_facts tr Hv) as (Hok & _). rewrite Forall_forall in Hok.
    destruct (Hok t Ht) as (_ & _ & _ & -> & _). apply entries_dec. eapply sent_renders; eauto.
  Qed.
  Lemma sent_slot tr t e b : valid tr -> t ∈ os_sent (orun OE tr) -> e ∈ t_list t -> received_entry e b ->
    exists i, slot_of (wire_env E) b = Some ((i, t_round t, en_ident e), id) /\
      GetMsgRound (wire_env E) (b_body b) id (or_bcast (en_routing e)) (b_ident b) = Some (i, t_round t, en_ident e) /\
      b_routing b = Some (Routing (FId id) (map d_id (or_to (en_routing e))) (or_bcast (en_routing e))).
  Proof.
    intros Hv Ht He (Hb & Hi & Hr). destruct (sent_entry _ _ _ Hv Ht He) as (em & before & _ & Hem & Hty & Hid' & _).
    destruct (e_read _ _ _ _ _ _ _ _ _ _ Hem) as [i Hread]. exists i.
    rewrite (e_from _ _ _ _ _ _ _ _ _ _ Hem) in Hr.
    assert (Hread' : GetMsgRound (wire_env E) (b_body b) id (or_bcast (en_routing e)) (b_ident b) = Some (i, t_round t, en_ident e)).
    { rewrite Hb, Hi. change (GetMsgRound (wire_env E)) with (GetMsgRound E). rewrite <- Hid', Hread, Hty. reflexivity. }
    split; [|auto]. unfold slot_of. rewrite Hr, Hread'. reflexivity.
  Qed.

  (** All messages of a type are broadcasts, or none is. *)
  Lemma same_kind tr : valid tr -> forall em em' before before' body body' r r',
    em ∈ ems tr -> em' ∈ ems tr -> emits E N full name id p before em body r -> emits E N full name id p before' em' body' r' ->
    em_type em = em_type em' -> or_bcast r = or_bcast r'.
  Proof.
    induction 1 as [|tr x o1 o2 bx rx Hv IH Hx]; intros em em' before before' body body' r r' Hin Hin' He He' Hty.
    { apply elem_of_nil in Hin. contradiction. }
    rewrite ems_snoc in Hin, Hin'. cbn [fst] in *. apply elem_of_app in Hin as [Hin|Hin]; apply elem_of_app in Hin' as [Hin'|Hin'].
    - eapply (IH em em'); eauto.
    - apply elem_of_list_singleton in Hin' as ->.
      pose proof (e_wire _ _ _ _ _ _ _ _ _ _ He') as Hw. rewrite (e_wire _ _ _ _ _ _ _ _ _ _ Hx) in Hw. injection Hw as <- <-.
      eapply (e_kind _ _ _ _ _ _ _ _ _ _ Hx em); [exact Hin|apply (e_wire _ _ _ _ _ _ _ _ _ _ He)|exact Hty].
    - apply elem_of_list_singleton in Hin as ->.
      pose proof (e_wire _ _ _ _ _ _ _ _ _ _ He) as Hw. rewrite (e_wire _ _ _ _ _ _ _ _ _ _ Hx) in Hw. injection Hw as <- <-.
      symmetry. eapply (e_kind _ _ _ _ _ _ _ _ _ _ Hx em'); [exact Hin'|apply (e_wire _ _ _ _ _ _ _ _ _ _ He')|congruence].
    - apply elem_of_list_singleton in Hin as ->. apply elem_of_list_singleton in Hin' as ->.
      pose proof (e_wire _ _ _ _ _ _ _ _ _ _ He) as Hw. rewrite (e_wire _ _ _ _ _ _ _ _ _ _ He') in Hw. congruence.
  Qed.

  (** The routing of a bulk message on the wire. *)
  Lemma sent_routing tr t : valid tr -> t ∈ os_sent (orun OE tr) ->
    w_routing (wire_of (wmsg_sent full t)) =
      Some (Routing (FId id) (map d_id (or_to (t_routing t))) (or_bcast (t_routing t))) /\
    (or_bcast (t_routing t) = true <-> place (t_routing t) = None) /\
    (or_bcast (t_routing t) = true -> t_peers t = others N p) /\
    (or_bcast (t_routing t) = false -> exists d q, or_to (t_routing t) = [d] /\ d_str d = name (d_id d) /\
       ce_peers N !! d_id d = Some q /\ q <> p /\ forall q', q' ∈ t_peers t <-> q' = q).
  Proof.
    intros Hv Ht. destruct (out_facts tr Hv) as (Hok & _). rewrite Forall_forall in Hok.
    destruct (Hok t Ht) as (_ & (e & rest & Hl & Hrt) & _ & _ & _ & Hall & Hone).
    assert (He : e ∈ t_list t) by (rewrite Hl; left).
    destruct (sent_entry _ _ _ Hv Ht He) as (em & before & _ & Hem & _).
    pose proof (sent_renders _ _ Hv Ht) as Hr. rewrite Forall_forall in Hr. specialize (Hr e He).
    rewrite Hrt in *. split.
    { unfold wmsg_sent, wire_of. cbn [w_routing wm_routing]. rewrite Hl. cbn. rewrite (renders_of _ _ Hr).
      rewrite (e_from _ _ _ _ _ _ _ _ _ _ Hem). reflexivity. }
    split; [symmetry; apply (place_broadcast _ _ _ _ Hem)|]. split.
    - intros Hb. apply Hall, (e_bcast _ _ _ _ _ _ _ _ _ _ Hem Hb).
    - intros Hb. destruct (e_unicast _ _ _ _ _ _ _ _ _ _ Hem Hb) as (d & q & Hto & Hn & Hq & Hne). exists d, q.
      split; [exact Hto|]. split; [exact Hn|]. split; [exact Hq|]. split; [exact Hne|].
      intros q'. rewrite Hone by (rewrite Hto; discriminate). rewrite Hto. split.
      + intros (d' & Hd' & Hq'). apply elem_of_list_singleton in Hd' as ->. cbn in Hq'. congruence.
      + intros ->. exists d. split; [left|exact Hq].
  Qed.
End Node.

Lemma slots_NoDup E id round l bl : Forall2 received_entry l bl -> NoDup (map en_ident l) ->
  (forall e b, e ∈ l -> received_entry e b -> exists i, slot_of E b = Some ((i, round, en_ident e), id)) ->
  NoDup (map (slot_of E) bl).
Proof.
  induction 1 as [|e b l bl He Hl IH]; intros Hnd Hs; [constructor|]. cbn [map] in *.
  apply NoDup_cons in Hnd as [Hn Hnd]. apply NoDup_cons. split.
  - intros Hin. apply elem_of_list_fmap in Hin as (b' & Heq & Hb'). apply elem_of_list_lookup in Hb' as [k Hk].
    destruct (Forall2_lookup_r _ _ _ _ _ Hl Hk) as (e' & He' & Hr'). apply elem_of_list_lookup_2 in He'.
    destruct (Hs e b) as [i Hi]; [left|exact He|]. destruct (Hs e' b') as [i' Hi']; [right; exact He'|exact Hr'|].
    apply Hn, elem_of_list_fmap. exists e'. split; [|exact He']. congruence.
  - apply IH; [exact Hnd|]. intros e' b' He' Hr'. apply Hs; [right; exact He'|exact Hr'].
Qed.

Section All.
  Context (E : env) (N : ceremony) (full : entry -> mrouting) (ty : mtype).
  Context (sign : string -> bytes -> option bytes) (name : string -> string).
  Context (Hset : setting E N ty sign name).
  Notation OE := (out_of N full sign).
  Notation valid := (valid E N full name).

  Definition sends (id p : string) (tr : list (emission * order * order)) (t : sent) : Prop :=
    ce_peers N !! id = Some p /\ valid id p tr /\ t ∈ os_sent (orun (OE p) tr).

  Lemma honest_send id p tr ts t rest S :
    ce_peers N !! id = Some p -> valid id p tr -> os_sent (orun (OE p) tr) = (ts ++ t :: rest)%list ->
    (forall y, y ∈ S -> exists id' p' tr' t', sends id' p' tr' t' /\ y = sending_of full ty id' t' /\
       (id' = id -> tr' = tr /\ t' ∈ ts)) ->
    exists l, honest (wire_env E) N S (sending_of full ty id t) p l.
  Proof.
    intros Hid Hv Hout HS.
    assert (Ht : t ∈ os_sent (orun (OE p) tr)) by (rewrite Hout; apply elem_of_app; right; left).
    destruct (sent_dec _ _ _ _ _ _ Hset _ _ Hid _ _ Hv Ht) as (bl & Hd & Hbl). exists bl.
    destruct (sent_routing _ _ _ _ _ _ Hset _ _ Hid _ _ Hv Ht) as (Hr & Hpl & Hb & Hu).
    assert (Hnew : forall t', t' ∈ ts -> group_sent t' <> group_sent t).
    { intros t' Hin Heq. pose proof (groups_once _ _ _ _ _ _ Hset _ _ Hid _ Hv) as Hnd. rewrite Hout, map_app in Hnd.
      apply NoDup_app in Hnd as (_ & Hnd & _). apply (Hnd (group_sent t)); [|left].
      rewrite <- Heq. apply elem_of_list_fmap. eauto. }
    constructor; cbn [sending_of sn_id sn_type sn_wire sn_to].
    - exact Hid.
    - exact (st_type _ _ _ _ _ Hset).
    - eexists _, _. exact Hr.
    - destruct (proj2 (wf_dom _ _ (st_wf _ _ _ _ _ Hset) id)) as [key Hk]; [rewrite Hid; eauto|].
      exists key. split; [exact Hk|]. destruct (out_facts _ _ _ _ _ _ Hset _ _ Hid _ Hv) as (Hok & _).
      rewrite Forall_forall in Hok. destruct (Hok t Ht) as (_ & _ & _ & _ & Hsig & _).
      destruct (st_sign _ _ _ _ _ Hset id p key (t_body t ++ to_bytes (ce_msgid N))%list Hid Hk) as (sig & Hs & Hver).
      cbn [oe_sign oe_msgid out_of] in Hsig. rewrite Hs in Hsig. injection Hsig as ->. exact Hver.
    - intros (from & to & Hx) q Hq. rewrite Hr in Hx. injection Hx as _ _ Hx. rewrite (Hb Hx). exact Hq.
    - intros q Hq. destruct (or_bcast (t_routing t)) eqn:Hbc; [rewrite (Hb eq_refl) in Hq; exact Hq|].
      destruct (Hu eq_refl) as (d & q' & _ & _ & Hq' & Hne & Hall). apply Hall in Hq as ->.
      apply elem_of_others. split; [eexists; exact Hq'|exact Hne].
    - exact Hd.
    - intros b Hin. apply elem_of_list_lookup in Hin as [k Hk]. destruct (Forall2_lookup_r _ _ _ _ _ Hbl Hk) as (e & He & Hrec).
      apply elem_of_list_lookup_2 in He. destruct (sent_slot _ _ _ _ _ _ Hset _ _ Hid _ _ _ _ Hv Ht He Hrec) as (i & _ & Hg & Hroute).
      split; [|eexists _, _; split; [exact Hroute|congruence]].
      destruct (sent_entry _ _ _ _ _ _ Hset _ _ Hid _ _ _ Hv Ht He) as (em & before & _ & Hem & _ & Hi & _).
      destruct Hrec as (_ & -> & _). rewrite <- Hi. apply (e_session _ _ _ _ _ _ _ _ _ _ Hem).
    - eapply (slots_NoDup _ id (t_round t)); [exact Hbl|eapply sent_idents; eauto|].
      intros e b He Hrec. destruct (sent_slot _ _ _ _ _ _ Hset _ _ Hid _ _ _ _ Hv Ht He Hrec) as (i & Hi & _). eauto.
    - intros (from & to & Hx) y Hy (from' & to' & Hx') Hsame. rewrite Hr in Hx. injection Hx as _ _ Hx.
      destruct (HS y Hy) as (id' & p' & tr' & t' & (Hid' & Hv' & Ht') & -> & Hin). cbn in Hsame, Hx' |- *.
      destruct (Hin Hsame) as [-> Hin']. subst id'. rewrite Hid in Hid'. injection Hid' as <-.
      destruct (sent_routing _ _ _ _ _ _ Hset _ _ Hid _ _ Hv Ht') as (Hr' & Hpl' & _). 
      change (w_routing (wire_of (wmsg_sent full t')) = Some (Routing from' to' true)) in Hx'.
      rewrite Hr' in Hx'. injection Hx' as _ _ Hx'. intros Heq. apply (Hnew t' Hin').
      unfold group_sent. rewrite (proj1 Hpl Hx), (proj1 Hpl' Hx'). f_equal. exact Heq.
    - intros y l' q b b' Hy Hq Hq' Hd' Hin Hin' Hslot.
      destruct (HS y Hy) as (id' & p' & tr' & t' & (Hid' & Hv' & Ht') & -> & Hmine). cbn [sending_of sn_id sn_to sn_wire] in *.
      destruct (sent_dec _ _ _ _ _ _ Hset _ _ Hid' _ _ Hv' Ht') as (bl' & Hd2 & Hbl').
      assert (bl' = l') as -> by (change (w_body (wire_of (wmsg_sent full t'))) with (t_body t') in Hd'; congruence).
      apply elem_of_list_lookup in Hin as [k Hk]. destruct (Forall2_lookup_r _ _ _ _ _ Hbl Hk) as (e & He & Hrec).
      apply elem_of_list_lookup_2 in He. destruct (sent_slot _ _ _ _ _ _ Hset _ _ Hid _ _ _ _ Hv Ht He Hrec) as (i & Hi & _).
      apply elem_of_list_lookup in Hin' as [k' Hk']. destruct (Forall2_lookup_r _ _ _ _ _ Hbl' Hk') as (e' & He' & Hrec').
      apply elem_of_list_lookup_2 in He'. destruct (sent_slot _ _ _ _ _ _ Hset _ _ Hid' _ _ _ _ Hv' Ht' He' Hrec') as (i' & Hi' & _).
      rewrite Hi, Hi' in Hslot. injection Hslot as _ Hround _ Hsame. subst id'. destruct (Hmine eq_refl) as [-> Hts].
      rewrite Hid in Hid'. injection Hid' as <-.
      apply (Hnew t' Hts). unfold group_sent. rewrite <- Hround. f_equal.
      destruct (sent_entry _ _ _ _ _ _ Hset _ _ Hid _ _ _ Hv Ht He) as (em & before & Hem1 & Hem2 & Hem3 & _ & Hem4).
      destruct (sent_entry _ _ _ _ _ _ Hset _ _ Hid _ _ _ Hv Ht' He') as (em' & before' & Hem1' & Hem2' & Hem3' & _ & Hem4').
      assert (Hbk : or_bcast (en_routing e) = or_bcast (en_routing e')).
      { eapply (same_kind E N full name id p tr Hv em em'); eauto. congruence. }
      assert (Hp1 : place (t_routing t) = None <-> place (t_routing t') = None).
      { rewrite <- Hem4, <- Hem4'. rewrite (proj1 (place_broadcast _ _ _ _ _ _ _ _ _ _ Hem2)), (proj1 (place_broadcast _ _ _ _ _ _ _ _ _ _ Hem2')), Hbk. tauto. }
      destruct (sent_routing _ _ _ _ _ _ Hset _ _ Hid _ _ Hv Ht') as (_ & Hpl' & Hb' & Hu').
      destruct (or_bcast (t_routing t)) eqn:Hb1, (or_bcast (t_routing t')) eqn:Hb2.
      + rewrite (proj1 Hpl' eq_refl), (proj1 Hpl eq_refl). reflexivity.
      + pose proof (proj2 Hpl' (proj1 Hp1 (proj1 Hpl eq_refl))). discriminate.
      + pose proof (proj2 Hpl (proj2 Hp1 (proj1 Hpl' eq_refl))). discriminate.
      + destruct (Hu eq_refl) as (d & q1 & Hto & Hn & Hq1 & _ & Hall). destruct (Hu' eq_refl) as (d' & q2 & Hto' & Hn' & Hq2 & _ & Hall').
        apply Hall in Hq as ->. apply Hall' in Hq' as ->.
        pose proof (wf_inj _ _ (st_wf _ _ _ _ _ Hset) _ _ _ Hq1 Hq2) as Hdd.
        unfold place. rewrite Hb1, Hb2, Hto, Hto'. cbn. congruence.
  Qed.

  Record finv (s : fstate) : Prop := {
    fi_valid : forall id p, ce_peers N !! id = Some p -> valid id p (f_out s p);
    fi_sent : forall y, y ∈ ns_sent (f_net s) <-> exists id p t,
      ce_peers N !! id = Some p /\ t ∈ os_sent (orun (OE p) (f_out s p)) /\ y = sending_of full ty id t;
    fi_reach : reachable (wire_env E) N (f_net s) }.

  Lemma puts id p tr new : ce_peers N !! id = Some p -> valid id p tr -> forall ts rest n,
    os_sent (orun (OE p) tr) = (ts ++ new ++ rest)%list -> reachable (wire_env E) N n ->
    (forall y, y ∈ ns_sent n -> exists id' p' tr' t', sends id' p' tr' t' /\ y = sending_of full ty id' t' /\
       (id' = id -> tr' = tr /\ t' ∈ ts)) ->
    let n' := foldl (put full ty p id) n new in
    reachable (wire_env E) N n' /\ ns_sent n' = (ns_sent n ++ map (sending_of full ty id) new)%list.
  Proof.
    intros Hid Hv. induction new as [|t new IH]; intros ts rest n Hout Hn HS; cbn [foldl map].
    { split; [exact Hn|]. rewrite app_nil_r. reflexivity. }
    destruct (honest_send id p tr ts t (new ++ rest) (ns_sent n) Hid Hv Hout HS) as [l Hl].
    destruct (IH (ts ++ [t])%list rest (put full ty p id n t)) as [H1 H2].
    - rewrite Hout, <- app_assoc. reflexivity.
    - eapply rtc_r; [exact Hn|]. exists Produce. exact (n_send (wire_env E) N n (sending_of full ty id t) p l Hl).
    - intros y Hy. cbn [put ns_sent] in Hy. apply elem_of_app in Hy as [Hy|Hy].
      + destruct (HS y Hy) as (id' & p' & tr' & t' & H1 & H2 & H3). exists id', p', tr', t'. split; [exact H1|]. split; [exact H2|].
        intros Heq. destruct (H3 Heq). split; [assumption|]. apply elem_of_app. auto.
      + apply elem_of_list_singleton in Hy as ->. exists id, p, tr, t. split; [|split; [reflexivity|]].
        * split; [exact Hid|]. split; [exact Hv|]. rewrite Hout. apply elem_of_app. right. left.
        * intros _. split; [reflexivity|]. apply elem_of_app. right. left.
    - split; [exact H1|]. rewrite H2. cbn [put ns_sent]. rewrite <- app_assoc. reflexivity.
  Qed.

  Lemma finv_reach s : freachable E N full ty sign name s -> finv s.
  Proof.
    unfold freachable. intros Hr. remember f_init as s0 eqn:H0. assert (Hi : finv s0).
    { subst s0. constructor; cbn [f_init f_out f_net].
      - intros id p _. constructor.
      - intros y. split; [intros Hy; apply elem_of_nil in Hy; contradiction|].
        intros (id & p & t & _ & Ht & _). apply elem_of_nil in Ht. contradiction.
      - apply rtc_refl. }
    clear H0. induction Hr as [s|s s1 s2 Hstep _ IH]; [exact Hi|]. apply IH. clear IH.
    destruct Hi as [Hval Hsent Hreach]. destruct Hstep as [s id p em body r o1 o2 Hid Hem|s k n Hn Heq].
    2:{ constructor; cbn [f_out f_net]; [exact Hval|rewrite Heq; exact Hsent|]. eapply rtc_r; [exact Hreach|]. exists k. exact Hn. }
    assert (Hv : valid id p (f_out s p ++ [(em, o1, o2)])%list) by (econstructor; [apply Hval, Hid|exact Hem]).
    pose proof (orun_grows (OE p) (f_out s p) (em, o1, o2) (valid_proper _ _ _ _ _ _ _ Hv)) as Hgrow.
    fold (news N full sign p (f_out s p) (em, o1, o2)) in Hgrow.
    set (new := news N full sign p (f_out s p) (em, o1, o2)) in *.
    destruct (puts id p _ new Hid Hv (os_sent (orun (OE p) (f_out s p))) [] (f_net s)) as [H1 H2].
    { rewrite app_nil_r. exact Hgrow. }
    { exact Hreach. }
    { intros y Hy. apply Hsent in Hy as (id' & p' & t' & Hid' & Ht' & ->). destruct (decide (id' = id)) as [->|Hne].
      - rewrite Hid in Hid'. injection Hid' as <-. exists id, p, (f_out s p ++ [(em, o1, o2)])%list, t'.
        split; [|auto]. split; [exact Hid|]. split; [exact Hv|]. rewrite Hgrow. apply elem_of_app. auto.
      - exists id', p', (f_out s p'), t'. split; [|split; [reflexivity|contradiction]].
        split; [exact Hid'|]. split; [apply Hval, Hid'|exact Ht']. }
    assert (Hown : forall id', ce_peers N !! id' = Some p -> id' = id).
    { intros id' Hid'. eapply (wf_inj _ _ (st_wf _ _ _ _ _ Hset)); eauto. }
    constructor; cbn [f_out f_net].
    - intros id' p' Hid'. destruct (decide (p' = p)) as [->|_]; [|apply Hval, Hid']. rewrite (Hown _ Hid'). exact Hv.
    - intros y. rewrite H2, elem_of_app, Hsent. split.
      + intros [(id' & p' & t' & Hid' & Ht' & ->)|Hy].
        * exists id', p', t'. split; [exact Hid'|]. split; [|reflexivity]. destruct (decide (p' = p)) as [->|_]; [|exact Ht'].
          rewrite Hgrow. apply elem_of_app. auto.
        * apply elem_of_list_fmap in Hy as (t & -> & Ht). exists id, p, t. split; [exact Hid|]. split; [|reflexivity].
          rewrite decide_True by reflexivity. rewrite Hgrow. apply elem_of_app. auto.
      + intros (id' & p' & t' & Hid' & Ht' & ->). destruct (decide (p' = p)) as [->|_]; [|left; eauto 8].
        rewrite (Hown _ Hid') in *. rewrite Hgrow in Ht'. apply elem_of_app in Ht' as [Ht'|Ht']; [left; eauto 8|right].
        apply elem_of_list_fmap. eauto.
    - exact H1.
  Qed.

  (** A complete round has been sent. *)
  Lemma round_sent id p s em body r : ce_peers N !! id = Some p -> finv s ->
    emitted_by s p em body r -> round_emitted N s p em r ->
    exists t, t ∈ os_sent (orun (OE p) (f_out s p)) /\ Entry body (em_ident em) r ∈ t_list t.
  Proof.
    intros Hid Hi Hem Hall. pose proof (fi_valid s Hi id p Hid) as Hv. set (tr := f_out s p) in *.
    assert (Hin : forall em body r, emitted_by s p em body r -> em ∈ map (fun x => fst (fst x)) tr /\ em_wire em = Some (body, r)).
    { intros em' body' r' [(o1 & o2 & Hx) Hw]. split; [|exact Hw]. apply elem_of_list_fmap. exists (em', o1, o2). auto. }
    assert (Hget : forall em body r, emitted_by s p em body r -> exists before, emits E N full name id p before em body r).
    { intros em' body' r' Hx. destruct (Hin _ _ _ Hx) as [Hx' Hw]. destruct (valid_in _ _ _ _ _ _ _ _ Hv Hx') as (before & b & r0 & He).
      pose proof (e_wire _ _ _ _ _ _ _ _ _ _ He) as Hw'. rewrite Hw in Hw'. injection Hw' as <- <-. eauto. }
    destruct (Hget _ _ _ Hem) as [before He]. set (g := (em_type em, place r)).
    destruct (out_facts _ _ _ _ _ _ Hset _ _ Hid _ Hv) as (Hok & Hcol & Hg).
    destruct (Hg g (e_colon _ _ _ _ _ _ _ _ _ _ He)) as (w & Heq & Hw).
    assert (Hemit : forall em' body' r', emitted_by s p em' body' r' -> em_type em' = em_type em -> map d_id (or_to r') = map d_id (or_to r) ->
      Entry body' (em_ident em') r' ∈ emitted g (map (fun x => fst (fst x)) tr)).
    { intros em' body' r' Hx Hty Hto. destruct (Hin _ _ _ Hx) as [Hx' Hw']. destruct (Hget _ _ _ Hx) as [before' He'].
      unfold emitted. apply elem_of_list_omap. exists em'. split.
      - apply elem_of_list_filter. split; [|exact Hx']. unfold group_of, g. rewrite Hw', Hty. do 2 f_equal.
        eapply (dest_place E N full name id p); [exact He'|exact He| |exact Hto].
        eapply (same_kind E N full name id p tr Hv em' em); [exact Hx'|apply (Hin _ _ _ Hem)|exact He'|exact He|exact Hty].
      - unfold S_OutCh.entry_of. rewrite Hw'. reflexivity. }
    assert (Hlen : size (ce_sessions N) <= length (emitted g (map (fun x => fst (fst x)) tr))).
    { pose proof (emitted_sessions _ _ _ _ _ _ Hset _ _ _ g Hv) as Hnd. rewrite <- (map_length en_ident).
      rewrite <- (size_list_to_set (C := gset string) _ Hnd). apply subseteq_size. intros x Hx.
      destruct (Hall x Hx) as (em' & body' & r' & H1 & H2 & H3 & H4). apply elem_of_list_to_set, elem_of_list_fmap.
      exists (Entry body' (em_ident em') r'). split; [symmetry; exact H2|]. apply Hemit; assumption. }
    assert (Hwnil : w = []).
    { assert (Hmax : length (emitted g (map (fun x => fst (fst x)) tr)) <= size (ce_sessions N)).
      { exact (emitted_length _ _ _ _ _ _ Hset _ _ _ g Hv). }
      rewrite <- Heq, app_length in Hlen. rewrite <- Heq, app_length in Hmax. cbn [oe_num out_of] in Hw.
      destruct w as [|x w]; [reflexivity|]. exfalso. 
      assert (Hz : delivered g (os_sent (orun (OE p) tr)) = [] \/ size (ce_sessions N) <= length (delivered g (os_sent (orun (OE p) tr)))).
      { unfold delivered. destruct (filter _ _) as [|t ts] eqn:Hf; [left; reflexivity|right]. cbn [map concat]. rewrite app_length.
        assert (Ht : t ∈ os_sent (orun (OE p) tr)).
        { apply (elem_of_list_filter (fun t => group_sent t = g)). rewrite Hf. left. }
        rewrite Forall_forall in Hok. destruct (Hok t Ht) as (Hn & _). cbn [oe_num out_of] in Hn. lia. }
      cbn [length] in *. destruct Hz as [Hz|Hz]; [rewrite Hz in Hlen; cbn in Hlen; lia|lia]. }
    rewrite Hwnil, app_nil_r in Heq.
    specialize (Hemit em body r Hem eq_refl eq_refl). rewrite <- Heq in Hemit. unfold delivered in Hemit.
    rewrite <- flat_map_concat_map in Hemit. apply elem_of_list_In, in_flat_map in Hemit as (t & Ht & He').
    apply elem_of_list_In, elem_of_list_filter in Ht as [_ Ht]. exists t. split; [exact Ht|]. apply elem_of_list_In, He'.
  Qed.
End All.
