(** From the sender's batching over the wire to the local parties of the receiver. *)
From Coq Require Import ZArith NArith Ascii String List Lia.
From stdpp Require Import base list strings gmap.
From Verif Require Import Base L_Base S_Utf8 M_Json M_Common S_Common L_Common M_OutCh M_Wire S_Wire L_Wire.

(** ** What is sent consists of what was emitted *)
Section Sent.
  Variable E : oenv.
  Variable Q : entry -> Prop.

  Definition sent_fine (t : sent) : Prop :=
    Forall Q (t_list t) /\ t_body t = oe_enc E (t_list t) /\
    oe_sign E (t_body t ++ to_bytes (oe_msgid E)) = Some (t_sig t) /\
    exists e rest, t_list t = e :: rest /\ t_routing t = en_routing e.
  Definition cache_fine (m : gmap string (list entry)) : Prop := forall k l, m !! k = Some l -> Forall Q l.

  Lemma flush_one_fine name kv m out m' out' :
    cache_fine m -> Forall sent_fine out -> Forall Q (snd kv) ->
    flush_one E name kv (m, out) = (m', out') -> cache_fine m' /\ Forall sent_fine out'.
  Proof.
    intros Hm Ho Hkv. unfold flush_one. destruct (Nat.eqb _ _); [|intros [= <- <-]; auto].
    destruct (snd kv) as [|e rest] eqn:Hk; [intros [= <- <-]; auto|].
    unfold sendBulkMsg. destruct (oe_sign E _) as [sig|] eqn:Hs; [|intros [= <- <-]; auto].
    intros [= <- <-]. split.
    - intros k l Hl. apply lookup_delete_Some in Hl as [_ Hl]. eapply Hm; eauto.
    - apply Forall_app. split; [exact Ho|]. constructor; [|constructor].
      split; [exact Hkv|]. split; [reflexivity|]. split; [exact Hs|]. exists e, rest. auto.
  Qed.
  Lemma flush_fine ord name m out m' out' :
    cache_fine m -> Forall sent_fine out -> flush E ord name m out = (m', out') ->
    cache_fine m' /\ Forall sent_fine out'.
  Proof.
    intros Hm Ho. unfold flush.
    assert (Hl : Forall (fun kv : string * list entry => Forall Q kv.2) (permute ord (map_to_list m))).
    { apply Forall_forall. intros [k l] Hin. rewrite permute_perm in Hin. apply elem_of_map_to_list in Hin. eapply Hm; eauto. }
    assert (Hg : forall l, Forall (fun kv : string * list entry => Forall Q kv.2) l -> forall m0 out0, cache_fine m0 -> Forall sent_fine out0 ->
      foldl (fun a kv => flush_one E name kv a) (m0, out0) l = (m', out') -> cache_fine m' /\ Forall sent_fine out').
    { clear. induction 1 as [|kv l Hkv _ IH]; intros m0 out0 Hm Ho; [intros [= <- <-]; auto|].
      cbn [foldl]. destruct (flush_one E name kv (m0, out0)) as [m1 out1] eqn:Hf.
      destruct (flush_one_fine _ _ _ _ _ _ Hm Ho Hkv Hf) as [Hm1 Ho1]. apply IH; assumption. }
    apply Hg; assumption.
  Qed.
  Lemma orun_fine tr :
    Forall (fun x : emission * order * order => forall body r, em_wire x.1.1 = Some (body, r) -> Q (Entry body (em_ident x.1.1) r)) tr ->
    let s := orun E tr in cache_fine (os_uni s) /\ cache_fine (os_bc s) /\ Forall sent_fine (os_sent s).
  Proof.
    intros Htr s. unfold s, orun.
    assert (Hinit : cache_fine (os_uni oinit) /\ cache_fine (os_bc oinit) /\ Forall sent_fine (os_sent oinit)).
    { split; [intros k l Hl; discriminate|]. split; [intros k l Hl; discriminate|constructor]. }
    clear s. revert Hinit. generalize oinit. induction Htr as [|[[em o1] o2] tr Hx _ IH]; intros s (Hu & Hb & Hs); [auto|].
    cbn [foldl]. apply IH. unfold ostep. destruct (os_crash s); [auto|]. unfold ProcessOutCh.
    destruct (em_wire em) as [[body r]|] eqn:Hw; [|auto]. cbn [fst] in Hx. specialize (Hx body r Hw).
    assert (Hins : forall (k : string) (m : gmap string (list entry)), cache_fine m ->
              cache_fine (<[k := default [] (m !! k) ++ [Entry body (em_ident em) r]]> m)).
    { intros k m Hm k' l Hl. apply lookup_insert_Some in Hl as [[_ <-]|[_ Hl]]; [|eapply Hm; eauto].
      apply Forall_app. split; [|auto]. destruct (m !! k) as [l0|] eqn:Hk; cbn; [eapply Hm; eauto|constructor]. }
    assert (Hdone : forall s1, cache_fine (os_uni s1) -> cache_fine (os_bc s1) -> Forall sent_fine (os_sent s1) ->
      let '(u, out1) := flush E o1 (fun k => of_bytes (before_colon (to_bytes k))) (os_uni s1) (os_sent s1) in
      let '(b, out2) := flush E o2 (fun k => k) (os_bc s1) out1 in
      cache_fine u /\ cache_fine b /\ Forall sent_fine out2).
    { intros s1 H1 H2 H3. destruct (flush E o1 _ (os_uni s1) (os_sent s1)) as [u out1] eqn:F1.
      destruct (flush_fine _ _ _ _ _ _ H1 H3 F1) as [H1' H3'].
      destruct (flush E o2 _ (os_bc s1) out1) as [b out2] eqn:F2.
      destruct (flush_fine _ _ _ _ _ _ H2 H3' F2) as [H2' H3'']. auto. }
    destruct (or_bcast r).
    - match goal with |- context [os_uni ?x] => specialize (Hdone (OState (os_uni s) (<[em_type em:=default [] (os_bc s !! em_type em) ++ [Entry body (em_ident em) r]]> (os_bc s)) (os_sent s) (os_crash s))) end.
      cbn [os_uni os_bc os_sent os_crash] in Hdone |- *. specialize (Hdone Hu (Hins _ _ Hb) Hs).
      destruct (flush E o1 _ _ _) as [u out1]. destruct (flush E o2 _ _ _) as [b out2]. exact Hdone.
    - destruct (or_to r) as [|d ds]; [auto|].
      specialize (Hdone (OState (<[uni_key (em_type em) (d_str d):=default [] (os_uni s !! uni_key (em_type em) (d_str d)) ++ [Entry body (em_ident em) r]]> (os_uni s)) (os_bc s) (os_sent s) (os_crash s))).
      cbn [os_uni os_bc os_sent os_crash] in Hdone |- *. specialize (Hdone (Hins _ _ Hu) Hb Hs).
      destruct (flush E o1 _ _ _) as [u out1]. destruct (flush E o2 _ _ _) as [b out2]. exact Hdone.
  Qed.
End Sent.

(** ** Routings *)
Lemma named_ok id p : named id p -> party_ok p.
Proof.
  intros (q & i & -> & Hid & Hne & Hi & Ht & Hm) q' i' [= <- <-]. split; [exact Hi|]. split; [intros [= ->]; cbn in Hid; congruence|].
  intros pp [= <-]. rewrite Hid. auto.
Qed.
Lemma renders_ok full e : renders full e -> routing_ok (full e).
Proof.
  intros (Hf & Ht & _). split; [eapply named_ok; exact Hf|].
  induction Ht as [|d p ds ps Hd _ IH]; constructor; [eapply named_ok; exact Hd|exact IH].
Qed.
Lemma renders_of full e : renders full e ->
  routing_of (full e) = Routing (FId (or_from (en_routing e))) (map d_id (or_to (en_routing e))) (or_bcast (en_routing e)).
Proof.
  intros ((q & i & Hf & Hid & _) & Ht & Hb & _). unfold routing_of. rewrite Hf, Hb. cbn [sender_of]. rewrite Hid. f_equal.
  induction Ht as [|d p ds ps (q' & i' & -> & Hd & _) _ IH]; [reflexivity|]. cbn [map dest_of]. rewrite Hd, IH. reflexivity.
Qed.
Lemma entries_dec E full l : Forall (renders full) l ->
  exists bl, e_dec_bulk (wire_env E) (entries_enc full l) = Some bl /\ Forall2 received_entry l bl.
Proof.
  intros Hl. exists (map bulk_of (map (bmsg_of full) l)). split.
  - cbn [e_dec_bulk wire_env]. unfold entries_enc. rewrite bulk_enc_dec; [reflexivity|].
    apply Forall_forall. intros b Hb. apply elem_of_list_fmap in Hb as (e & -> & He).
    rewrite Forall_forall in Hl. specialize (Hl e He). split; [intros r [= <-]; apply renders_ok, Hl|apply Hl].
  - induction Hl as [|e l He _ IH]; [constructor|]. cbn [map]. constructor; [|exact IH].
    split; [reflexivity|]. split; [reflexivity|]. cbn [bulk_of bmsg_of bm_routing b_routing]. cbn. f_equal. apply renders_of, He.
Qed.

(** ** From the queue to the local parties *)
Section Apply.
  Variable E : env.
  Variable C : cfg.

  Lemma loop_all l bl key w : Forall2 received_entry l bl -> forall s,
    s_crash s = false -> s_cur s = Some (Cur bl key w) -> s_culprits s = [] -> Forall (takable E C s) l ->
    let s' := foldl (step E C) s (repeat LLoop (length l)) in
    s_cur s' = Some (Cur [] key w) /\ s_crash s' = false /\ s_log s' = s_log s /\
    s_pending s' = s_pending s ++ map (job_of (s_batch s) w) l.
  Proof.
    induction 1 as [|e b l bl (Hb1 & Hb2 & Hb3) _ IH]; intros s Hc Hcu Hcl Ht.
    - cbn. rewrite app_nil_r. auto.
    - inversion Ht as [|? ? (Hs & (kb & Hk) & r & Hr & Hd) Ht']; subst.
      cbn [length repeat foldl].
      assert (Hstep : step E C s LLoop = set_cur (Some (Cur bl key w)) (set_pending (fun x => x ++ [job_of (s_batch s) w e]) s)).
      { unfold step. rewrite Hc, Hcu. unfold update_one. rewrite Hb1, Hb2, Hb3.
        rewrite bool_decide_eq_true_2 by exact Hs. rewrite Hk, Hr.
        unfold CheckMsgDuplication. rewrite bool_decide_eq_false_2 by exact Hd. rewrite Hcl. reflexivity. }
      rewrite Hstep.
      specialize (IH (set_cur (Some (Cur bl key w)) (set_pending (fun x => x ++ [job_of (s_batch s) w e]) s)) Hc eq_refl Hcl Ht').
      cbn zeta in IH. destruct IH as (H1 & H2 & H3 & H4). split; [exact H1|]. split; [exact H2|]. split; [exact H3|].
      rewrite H4. cbn [s_pending s_batch set_cur set_pending map]. rewrite <- app_assoc. reflexivity.
  Qed.

  Lemma work_all n w l : forall s,
    s_crash s = false -> s_pending s = map (job_of n w) l -> Forall (takable E C s) l ->
    s_log (foldl (step E C) s (repeat (LWork 0 None) (length l))) = s_log s ++ map (job_of n w) l.
  Proof.
    induction l as [|e l IH]; intros s Hc Hp Ht; [cbn; rewrite app_nil_r; reflexivity|].
    inversion Ht as [|? ? (Hs & (kb & Hk) & r & Hr & Hd) Ht']; subst. cbn [length repeat foldl].
    assert (Hstep : step E C s (LWork 0 None) =
      set_updated (fun x => x ++ [job_of n w e]) (set_log (fun x => x ++ [job_of n w e]) (set_pending (fun x => delete 0 x) s))).
    { unfold step. rewrite Hc. unfold work. rewrite Hp. cbn [map lookup list_lookup]. 
      change (j_body (job_of n w e)) with (en_body e). change (j_from (job_of n w e)) with (or_from (en_routing e)).
      change (j_bcast (job_of n w e)) with (or_bcast (en_routing e)). change (j_ident (job_of n w e)) with (en_ident e).
      rewrite Hr. reflexivity. }
    rewrite Hstep, IH; [|exact Hc| |exact Ht'].
    - cbn [s_log set_updated set_log set_pending map]. rewrite <- app_assoc. reflexivity.
    - cbn [s_pending set_updated set_log set_pending]. rewrite Hp. reflexivity.
  Qed.

  Lemma apply_all l bl key w s : Forall2 received_entry l bl ->
    s_crash s = false -> s_cur s = Some (Cur bl key w) -> s_culprits s = [] -> s_pending s = [] -> Forall (takable E C s) l ->
    s_log (foldl (step E C) s (repeat LLoop (length l) ++ repeat (LWork 0 None) (length l))) =
      s_log s ++ map (job_of (s_batch s) w) l.
  Proof.
    intros Hl Hc Hcu Hcl Hp Ht. rewrite foldl_app.
    destruct (loop_all l bl key w Hl s Hc Hcu Hcl Ht) as (H1 & H2 & H3 & H4). rewrite Hp in H4. cbn [app] in H4.
    rewrite (work_all (s_batch s) w l); [rewrite H3; reflexivity|exact H2|exact H4|].
    assert (Hacc : s_accepted (foldl (step E C) s (repeat LLoop (length l))) = s_accepted s).
    { clear. revert s. induction (length l) as [|n IH]; intros s; [reflexivity|]. cbn [repeat foldl]. rewrite IH.
      unfold step. destruct (s_crash s); [reflexivity|]. destruct (s_cur s) as [[[|b rest] key' w']|]; try reflexivity.
      unfold update_one. destruct (bool_decide _); [|reflexivity]. destruct (b_routing b) as [[[| |id] to bc]|]; try reflexivity.
      destruct (cf_parties C !! id); [|reflexivity]. destruct (GetMsgRound _ _ _ _ _); [|reflexivity].
      destruct (CheckMsgDuplication _ _ _); [reflexivity|]. destruct (existsb _ _); reflexivity. }
    eapply Forall_impl; [exact Ht|]. intros e (Ha & Hb & r & Hr & Hd). split; [exact Ha|]. split; [exact Hb|].
    exists r. split; [exact Hr|]. rewrite Hacc. exact Hd.
  Qed.
End Apply.
