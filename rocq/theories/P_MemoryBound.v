(** C161: what can be said instead: an entry for unconfirmed messages exists only for
    what a message received so far was about, and one message makes at most one entry. *)
From Coq Require Import ZArith Ascii String List Lia.
From stdpp Require Import base list strings gmap.
From Verif Require Import Base L_Base M_Common S_Common L_Common L_Common2 L_Common3 L_Common4 L_Memory P_Common P_Memory.

(** What the share [w] is about: the broadcast of a party of the ceremony, signed with
    the key of the party. *)
Definition about_share (E : env) (C : cfg) (w : wire) : option string :=
  match w_routing w with
  | Some (Routing (FId owner) _ true) =>
      match cf_parties C !! owner with
      | Some kb => if e_verify E kb (w_body w ++ to_bytes (cf_msgid C)) (w_sig w)
                   then Some (owner +:+ "-" +:+ w_round w)%string else None
      | None => None
      end
  | _ => None
  end.
(** What the message that is received is about. *)
Definition about (E : env) (C : cfg) (l : label) : option string :=
  match l with
  | LRecv _ _ _ (MShare _ (Some w)) => about_share E C w
  | LRecv _ _ _ (MVer _ (Some v)) => Some (v_key v)
  | LRecv _ _ _ (MCtl (Some (Control _ _ _ (Some w)))) => about_share E C w
  | _ => None
  end.

Section Bound.
  Variable E : env.
  Variable C : cfg.
  Lemma verifies kb b s : verifySignature E C kb b s = true -> e_verify E kb (b ++ to_bytes (cf_msgid C)) s = true.
  Proof. unfold verifySignature. auto. Qed.

  Lemma new_processVerMsg o1 o2 peer v t s k :
    k <> v_key v -> s_cache (fst (processVerMsg E C o1 o2 peer v t s)) !! k = s_cache s !! k.
  Proof.
    intros N. unfold processVerMsg. cbn zeta. cbn [it_msg it_votes].
    set (it0 := match s_cache s !! v_key v with Some it => it | None => _ end).
    destruct (it_msg it0) as [w|].
    - destruct (w_routing w) as [[[| |owner] to bc]|];
        rewrite ?applyShare_other by exact N; cbn; rewrite lookup_insert_ne by congruence; reflexivity.
    - rewrite cache_requestShare. cbn. rewrite lookup_insert_ne by congruence. reflexivity.
  Qed.
  Lemma new_processTSSMsg o1 o2 w t fwd s k :
    about_share E C w <> Some k -> s_cache (fst (processTSSMsg E C o1 o2 w t fwd s)) !! k = s_cache s !! k.
  Proof.
    unfold about_share, processTSSMsg. intros N.
    destruct (w_routing w) as [[[| |owner] to bc]|] eqn:Hr; try reflexivity.
    destruct (cf_parties C !! owner) as [kb|]; [|reflexivity].
    destruct (verifySignature E C kb (w_body w) (w_sig w)) eqn:V; [|reflexivity].
    apply verifies in V. destruct bc; [|rewrite cache_updateLocal; reflexivity].
    rewrite V in N.
    assert (N' : k <> cache_key owner (w_round w)) by (intros ->; apply N; reflexivity).
    cbn zeta. cbn [it_msg it_votes].
    set (s1 := if fwd then s else receiverBroadcastHashToPeers E C w owner t s).
    assert (K1 : s_cache s1 = s_cache s).
    { unfold s1. destruct fwd; [reflexivity|]. apply cur_receiver. }
    rewrite K1. match goal with |- context [it_msg ?x] => set (it0 := x) end.
    destruct (it_msg it0) as [w'|].
    - destruct (w_routing w') as [[[| |owner'] to' bc']|];
        rewrite ?applyShare_other by exact N'; cbn; rewrite lookup_insert_ne by congruence; rewrite K1; reflexivity.
    - cbn. rewrite lookup_insert_ne by congruence. rewrite K1; reflexivity.
  Qed.

  Lemma new_step s l k :
    is_Some (s_cache (step E C s l) !! k) -> is_Some (s_cache s !! k) \/ about E C l = Some k.
  Proof.
    destruct (decide (about E C l = Some k)) as [X|X]; [auto|]. intros H. left.
    unfold step in H. destruct (s_crash s); [exact H|].
    destruct l as [o1 o2 peer m| | |j res|j].
    - destruct (s_cur s); [exact H|]. unfold ProcessOneMessage in H.
      destruct m as [t [w|]|t [v|]|[[|]|]|[c|]| |]; try exact H.
      + rewrite new_processTSSMsg in H by exact X. exact H.
      + assert (N : k <> v_key v) by (intros ->; apply X; reflexivity).
        destruct (s_cache s !! v_key v) as [it|]; [destruct (it_votes it !! peer); [exact H|]|];
          rewrite new_processVerMsg in H by exact N; exact H.
      + destruct (bool_decide _); [exact H|]. cbn zeta in H.
        destruct (Z.eqb _ _); cbn [fst] in H; [|exact H]. destruct (Nat.eqb _ _); exact H.
      + destruct c as [ch ck ct [w|]]; cbn in X, H.
        * destruct (bool_decide _); [|exact H]. rewrite new_processTSSMsg in H by exact X. exact H.
        * destruct (e_peer_ok E peer); [|exact H].
          unfold processRequestMsgFromPeer in H. cbn in H. destruct (s_stored s !! ck); exact H.
    - destruct (s_cur s) as [[[|b rest] key w]|]; try exact H.
      unfold update_one in H. destruct (bool_decide _); [|exact H].
      destruct (b_routing b) as [[[| |id] to bc]|]; try exact H.
      destruct (cf_parties C !! id) as [kb|]; [|exact H].
      destruct (GetMsgRound _ _ _ _ _) as [r|]; [|exact H].
      destruct (CheckMsgDuplication r id s); [exact H|].
      destruct (existsb _ _); exact H.
    - destruct (s_cur s) as [[[|b rest] key w]|]; try exact H.
      destruct (batch_done s); [|exact H].
      destruct key as [k'|]; cbn in H; [|exact H].
      apply lookup_delete_is_Some in H. apply H.
    - unfold work in H; destruct (s_pending s !! j) as [x|]; try exact H.
      destruct (GetMsgRound _ _ _ _ _); [|exact H].
      destruct res; [|exact H]. rewrite cache_processInvalid in H. exact H.
    - unfold accept in H; destruct (s_updated s !! j) as [x|]; try exact H;
        destruct (GetMsgRound _ _ _ _ _); exact H.
  Qed.
End Bound.

(** Every entry is about something a message received so far was about: a confirmation
    by anybody, or a broadcast that a party of the ceremony has signed. *)
Theorem C161_entries_are_asked_for :
  forall E C tr k, is_Some (s_cache (run E C tr) !! k) -> exists l, In l tr /\ about E C l = Some k.
Proof.
  intros E C tr k. induction tr as [|l tr IH] using rev_ind.
  - cbn. rewrite lookup_empty. intros [? X]. discriminate X.
  - rewrite run_snoc. intros H. apply new_step in H as [H|H].
    + destruct (IH H) as (l' & X & Y). exists l'. split; [apply in_or_app; auto|exact Y].
    + exists l. split; [apply in_or_app; right; left; reflexivity|exact H].
Qed.
Print Assumptions C161_entries_are_asked_for.

(** So there are at most as many entries as confirmations and signed broadcasts received. *)
Theorem C161_an_entry_per_message :
  forall E C tr, size (s_cache (run E C tr)) <= length (filter (fun l => is_Some (about E C l)) tr).
Proof.
  intros E C tr.
  assert (X : dom (s_cache (run E C tr)) ⊆ (list_to_set (omap (about E C) tr) : gset string)).
  { intros k Y. apply elem_of_dom in Y. destruct (C161_entries_are_asked_for E C tr k Y) as (l & L1 & L2).
    apply elem_of_list_to_set, elem_of_list_omap. exists l. split; [apply elem_of_list_In, L1|exact L2]. }
  apply subseteq_size in X. rewrite size_dom in X. etransitivity; [exact X|].
  clear X. induction tr as [|l tr IH]; [cbn; rewrite size_empty; lia|]. cbn [omap list_omap].
  destruct (about E C l) as [k|] eqn:A.
  - rewrite filter_cons_True by (rewrite A; eauto). cbn [length].
    change (list_to_set (k :: omap (about E C) tr)) with (({[k]} : gset string) ∪ list_to_set (omap (about E C) tr)).
    etransitivity; [|apply le_n_S, IH].
    rewrite size_union_alt, size_singleton.
    pose proof (subseteq_size (list_to_set (omap (about E C) tr) ∖ {[k]}) (list_to_set (omap (about E C) tr) : gset string) ltac:(set_solver)).
    lia.
  - rewrite filter_cons_False by (rewrite A; intros [? X]; discriminate X). exact IH.
Qed.
Print Assumptions C161_an_entry_per_message.

Example C161_bound_example :
  let tr := recv "p1" (share (toy_wire "1" true "KGRound1Message" "good1")) :: map (junk "mallory") (seq 0 2) in
  size (s_cache (run toy_env (toy_cfg 4 "p2") tr)) = 3 /\
  omap (about toy_env (toy_cfg 4 "p2")) tr = ["1-KGRound1Message"; ""; "x"]%string.
Proof. vm_compute. auto. Qed.
