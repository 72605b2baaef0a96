(** Property theorems: starting a node (C152-C158). *)
From Coq Require Import ZArith NArith Ascii String List Lia.
From stdpp Require Import base list strings gmap.
From Verif Require Import Base L_Base M_Conv M_Recovery M_Keys S_Keys L_KeyFile L_Base58 L_Curve L_Keys P_Keys.
From Verif Require Import M_Json M_Storage S_Storage P_Storage M_Key S_Key P_Key M_Start S_Start.

Section Lemmas.
  Context {A : Type} (net : netenv A).
  Lemma dial_loop_ok : forall l r i, snd (dial_loop net r i l) = true <-> Forall (readable net) l.
  Proof.
    induction l as [|a l IH]; intros r i; cbn [dial_loop]; [split; [constructor|reflexivity]|]. rewrite Forall_cons. unfold readable at 1.
    destruct (ne_info net a); [|cbn; split; [discriminate|intros [H _]; congruence]].
    specialize (IH r (S i)). destruct (dial_loop net r (S i) l) as [ev ok]. cbn [snd] in *. rewrite IH. split; [intros H; split; [discriminate|exact H]|tauto].
  Qed.
  Lemma dial_loop_all : forall l r i, Forall (readable net) l -> fst (dial_loop net r i l) = map (EvDial r) (seq i (length l)).
  Proof.
    induction l as [|a l IH]; intros r i Hf; [reflexivity|]. apply Forall_cons in Hf as [Ha Hf]. cbn [dial_loop]. unfold readable in Ha. destruct (ne_info net a); [|congruence].
    specialize (IH r (S i) Hf). destruct (dial_loop net r (S i) l) as [ev ok]. cbn [fst] in *. subst ev. reflexivity.
  Qed.
  Lemma dial_loop_events : forall l r i e, e ∈ fst (dial_loop net r i l) -> exists j, e = EvDial r j.
  Proof.
    induction l as [|a l IH]; intros r i e He; cbn [dial_loop] in He; [inversion He|]. destruct (ne_info net a); [|inversion He].
    specialize (IH r (S i) e). destruct (dial_loop net r (S i) l) as [ev ok]. cbn [fst] in *. apply elem_of_cons in He as [->|He]; eauto.
  Qed.
  Lemma connect_ok r peers : snd (connectToBootstrapPeers net r peers) = true <->
    peers = [] \/ (Forall (readable net) peers /\ exists i, i < length peers /\ ne_conn net r i = true).
  Proof.
    unfold connectToBootstrapPeers. destruct peers as [|a l]; [cbn; tauto|].
    pose proof (dial_loop_ok (a :: l) r 0) as H. destruct (dial_loop net r 0 (a :: l)) as [ev ok]. cbn [snd] in *.
    rewrite andb_true_iff, H, existsb_exists. split.
    - intros [H1 (i & H2 & H3)]. apply in_seq in H2. right. split; [exact H1|]. exists i. split; [lia|exact H3].
    - intros [H1|[H1 (i & H2 & H3)]]; [discriminate|]. split; [exact H1|]. exists i. split; [apply in_seq; lia|exact H3].
  Qed.
  Lemma rounds_ok peers : forall n r, snd (rounds net n r peers) = true <->
    (n <> 0 /\ peers = []) \/ (Forall (readable net) peers /\ exists i k, i < length peers /\ k < n /\ ne_conn net (r + k) i = true).
  Proof.
    induction n as [|n IH]; intros r; cbn [rounds].
    - cbn. split; [discriminate|]. intros [[H _]|(_ & i & k & _ & H & _)]; [congruence|lia].
    - pose proof (connect_ok r peers) as H. destruct (connectToBootstrapPeers net r peers) as [ev ok]. cbn [snd] in H.
      destruct ok.
      + cbn [snd]. destruct (proj1 H eq_refl) as [->|(Hf & i & Hi & Hc)]; [split; auto|]. split; [|auto]. intros _. right. split; [exact Hf|].
        exists i, 0. rewrite Nat.add_0_r. split; [exact Hi|]. split; [lia|exact Hc].
      + specialize (IH (S r)). destruct (rounds net n (S r) peers) as [ev' ok']. cbn [snd] in *. rewrite IH. split.
        * intros [[Hn ->]|(Hf & i & k & Hi & Hk & Hc)]; [left; split; [discriminate|reflexivity]|right].
          split; [exact Hf|]. exists i, (S k). split; [exact Hi|]. split; [lia|]. replace (r + S k) with (S r + k) by lia. exact Hc.
        * intros [[_ ->]|(Hf & i & k & Hi & Hk & Hc)]; [exfalso; discriminate (proj2 H (or_introl eq_refl))|].
          destruct k as [|k]; [exfalso; rewrite Nat.add_0_r in Hc; discriminate (proj2 H (or_intror (conj Hf (ex_intro _ i (conj Hi Hc)))))|].
          right. split; [exact Hf|]. exists i, k. split; [exact Hi|]. split; [lia|]. replace (S r + k) with (r + S k) by lia. exact Hc.
  Qed.
  Lemma rounds_found peers : forall n r ev, peers <> [] -> rounds net n r peers = (ev, true) ->
    exists k i, k < n /\ i < length peers /\ ne_conn net (r + k) i = true /\ EvDial (r + k) i ∈ ev.
  Proof.
    induction n as [|n IH]; intros r ev Hp; cbn [rounds]; [discriminate|].
    pose proof (connect_ok r peers) as H. unfold connectToBootstrapPeers in *. destruct peers as [|a l]; [congruence|].
    pose proof (dial_loop_ok (a :: l) r 0) as Hd. pose proof (dial_loop_all (a :: l) r 0) as Ha.
    destruct (dial_loop net r 0 (a :: l)) as [ev0 ok0]. cbn [fst snd] in *.
    destruct (ok0 && existsb (ne_conn net r) (seq 0 (length (a :: l))))%bool eqn:E.
    - intros [= <-]. destruct (proj1 H eq_refl) as [|(Hf & i & Hi & Hc)]; [discriminate|]. exists 0, i. rewrite Nat.add_0_r.
      split; [lia|]. split; [exact Hi|]. split; [exact Hc|]. rewrite Ha by exact Hf. change (map ?f ?l) with (f <$> l). apply elem_of_list_fmap. exists i. split; [reflexivity|]. apply elem_of_seq. lia.
    - destruct (rounds net n (S r) (a :: l)) as [ev' ok'] eqn:Er. intros [= <- ->]. destruct (IH (S r) ev' Hp Er) as (k & i & H1 & H2 & H3 & H4).
      exists (S k), i. replace (r + S k) with (S r + k) by lia. split; [lia|]. split; [exact H2|]. split; [exact H3|].
      apply elem_of_app. right. right. exact H4.
  Qed.
  Lemma waits_app a b : waits (a ++ b) = waits a + waits b.
  Proof. unfold waits. rewrite List.filter_app, app_length. reflexivity. Qed.
  Lemma dial_waits l r i : waits (fst (dial_loop net r i l)) = 0.
  Proof.
    revert i. induction l as [|a l IH]; intros i; [reflexivity|]. cbn [dial_loop]. destruct (ne_info net a); [|reflexivity].
    specialize (IH (S i)). destruct (dial_loop net r (S i) l) as [ev ok]. cbn [fst] in *. exact IH.
  Qed.
  Lemma rounds_waits peers : forall n r ev, rounds net n r peers = (ev, false) -> waits ev = n.
  Proof.
    induction n as [|n IH]; intros r ev; cbn [rounds]; [intros [= <-]; reflexivity|].
    unfold connectToBootstrapPeers. destruct peers as [|a l]; [discriminate|].
    pose proof (dial_waits (a :: l) r 0) as Hw. destruct (dial_loop net r 0 (a :: l)) as [ev0 ok0]. cbn [fst] in Hw.
    destruct (ok0 && _)%bool; [discriminate|]. destruct (rounds net n (S r) (a :: l)) as [ev' ok'] eqn:Er.
    intros [= <- ->]. rewrite waits_app, Hw. change (waits (EvSleep :: ev')) with (S (waits ev')). rewrite (IH _ _ Er). reflexivity.
  Qed.
  Definition harmless (e : sevent) : Prop := e <> EvClose /\ e <> EvGenerate.
  Lemma rounds_harmless peers : forall n r, Forall harmless (fst (rounds net n r peers)).
  Proof.
    induction n as [|n IH]; intros r; cbn [rounds]; [constructor|].
    assert (Hc : Forall harmless (fst (connectToBootstrapPeers net r peers))).
    { unfold connectToBootstrapPeers. destruct peers as [|a l]; [constructor|]. pose proof (dial_loop_events (a :: l) r 0) as Hd.
      destruct (dial_loop net r 0 (a :: l)) as [ev ok]. cbn [fst] in *. apply Forall_forall. intros e He. destruct (Hd e He) as [j ->]. split; discriminate. }
    destruct (connectToBootstrapPeers net r peers) as [ev ok]. cbn [fst] in Hc. destruct ok; [exact Hc|].
    specialize (IH (S r)). destruct (rounds net n (S r) peers) as [ev' ok']. cbn [fst] in *. apply Forall_app. split; [exact Hc|]. constructor; [split; discriminate|exact IH].
  Qed.
  Lemma pinged_spec peers i : i ∈ pinged net peers <-> exists a, peers !! i = Some a /\ readable net a.
  Proof.
    unfold pinged, readable. rewrite elem_of_list_In, filter_In, in_seq. split.
    - intros [_ H]. destruct (peers !! i) as [a|]; [|discriminate]. exists a. split; [reflexivity|]. destruct (ne_info net a); discriminate.
    - intros (a & H1 & H2). pose proof (lookup_lt_Some _ _ _ H1). rewrite H1. split; [lia|]. destruct (ne_info net a); [reflexivity|congruence].
  Qed.
  Lemma check_ok peers : snd (bootStrapConnectivityCheck net peers) = true <->
    peers = [] \/ exists i a, peers !! i = Some a /\ readable net a /\ ne_ping net i = true.
  Proof.
    unfold bootStrapConnectivityCheck. destruct peers as [|b l]; [cbn; tauto|]. cbn [snd]. rewrite existsb_exists. split.
    - intros (i & H1 & H2). apply elem_of_list_In, pinged_spec in H1 as (a & H1 & H3). right. eauto.
    - intros [H|(i & a & H1 & H2 & H3)]; [discriminate|]. exists i. split; [apply elem_of_list_In, pinged_spec; eauto|exact H3].
  Qed.
  Lemma check_harmless peers : Forall harmless (fst (bootStrapConnectivityCheck net peers)).
  Proof.
    unfold bootStrapConnectivityCheck. destruct peers; [constructor|]. cbn [fst]. generalize (pinged net (a :: peers)). intros l. induction l; constructor; [split; discriminate|assumption].
  Qed.
  (** When the channel starts *)
  Lemma start_ok key peers : snd (Start net key peers) = true <->
    length key = 32 /\ ne_host net = true /\ ne_dht net = true /\
    (peers = [] \/ (Forall (readable net) peers /\ (exists i, i < length peers /\ accepts net i) /\ exists i, i < length peers /\ ne_ping net i = true)).
  Proof.
    unfold Start, startChannel. destruct (Nat.eqb_spec (length key) 32) as [Hk|Hk]; cbn [negb]; [|cbn; split; [discriminate|tauto]].
    destruct (ne_host net) eqn:Hh; cbn [negb]; [|cbn; split; [discriminate|intros (_ & ? & _); discriminate]].
    destruct (ne_dht net) eqn:Hd; cbn [negb]; [|cbn; split; [discriminate|intros (_ & _ & ? & _); discriminate]].
    pose proof (rounds_ok peers 5 0) as Hr. pose proof (check_ok peers) as Hc.
    destruct (rounds net 5 0 peers) as [ev ok]. cbn [snd] in Hr. destruct ok.
    - destruct (bootStrapConnectivityCheck net peers) as [ev' ok']. cbn [snd] in Hc. destruct (proj1 Hr eq_refl) as [[_ ->]|(Hf & i & k & Hi & Hk' & Hcn)].
      + destruct ok'; cbn [snd]; split; auto. intros _. assert (H : false = true) by (apply Hc; left; reflexivity). exact H.
      + assert (Hlook : forall j, j < length peers -> exists a, peers !! j = Some a /\ readable net a).
        { intros j Hj. apply lookup_lt_is_Some in Hj as [a Ha]. exists a. split; [exact Ha|]. exact (Forall_lookup_1 _ _ _ _ Hf Ha). }
        split.
        * destruct ok'; [|discriminate]. intros _. split; [exact Hk|]. split; [reflexivity|]. split; [reflexivity|]. right. split; [exact Hf|].
          split; [exists i; split; [exact Hi|exists k; auto]|]. destruct (proj1 Hc eq_refl) as [->|(j & a & H1 & _ & H3)]; [cbn in Hi; lia|].
          exists j. split; [eapply lookup_lt_Some; eauto|exact H3].
        * intros (_ & _ & _ & H). destruct ok'; [reflexivity|]. cbn. apply Hc. destruct H as [->|(_ & _ & j & Hj & H3)]; [left; reflexivity|].
          destruct (Hlook j Hj) as (a & Ha & Hra). right. exists j, a. auto.
    - cbn [snd]. split; [discriminate|]. intros (_ & _ & _ & H). apply Hr. destruct H as [->|(Hf & (i & Hi & r & Hlt & Hcn) & _)]; [left; auto|].
      right. split; [exact Hf|]. exists i, r. auto.
  Qed.
  Lemma start_harmless key peers : Forall harmless (fst (Start net key peers)).
  Proof.
    unfold Start, startChannel. destruct (negb (Nat.eqb _ _)); [constructor|]. destruct (negb (ne_host net)); [constructor|].
    destruct (negb (ne_dht net)); [repeat constructor; discriminate|].
    pose proof (rounds_harmless peers 5 0) as H1. pose proof (check_harmless peers) as H2.
    destruct (rounds net 5 0 peers) as [ev [|]]; cbn [fst] in *.
    - destruct (bootStrapConnectivityCheck net peers) as [ev' [|]]; cbn [fst] in *.
      + constructor; [split; discriminate|]. apply Forall_app. split; [|repeat constructor; discriminate]. apply Forall_app. split; [exact H1|]. constructor; [split; discriminate|exact H2].
      + constructor; [split; discriminate|]. apply Forall_app. split; [exact H1|]. constructor; [split; discriminate|exact H2].
    - constructor; [split; discriminate|exact H1].
  Qed.
End Lemmas.
Lemma raw_32 k : length k = 32 -> GetPriKeyRawBytes k = k.
Proof. intros H. unfold GetPriKeyRawBytes. rewrite H, app_nil_r, take_ge by lia. reflexivity. Qed.
Lemma key_written p : exists k, Bech32ifyPubKey (SerializeCompressed p) = Some k.
Proof. destruct (bech32ify_text (fun _ => None) (SerializeCompressed p) (serialize_length _)) as (k & Hk & _). eauto. Qed.

(** ** C152 *)
(** A node that starts has peers to bootstrap from only if one of them took a connection
    and one of them answered a ping; the peers are those of the address book, when it
    can be read, and those of the command line. *)
Theorem C152_started_node_reached_the_network {A PP} (net : netenv A) (valid : PP -> bool) generated pub F fs folder_ok
    cmd port priKey pre monitor externalIP registered ev s :
  NewTss net valid generated pub F fs folder_ok cmd port priKey pre monitor externalIP registered = (ev, NServer s) ->
  ((exists saved, RetrieveP2PAddresses F (ne_maddr net) fs = Some saved /\ sv_boot s = saved ++ cmd) \/
   (RetrieveP2PAddresses F (ne_maddr net) fs = None /\ sv_boot s = cmd)) /\
  (sv_boot s = [] \/
   (exists r i, r < 5 /\ i < length (sv_boot s) /\ ne_conn net r i = true /\ EvDial r i ∈ ev) /\
   (exists i a, sv_boot s !! i = Some a /\ readable net a /\ ne_ping net i = true /\ EvPing i ∈ ev)) /\
  EvHost ∈ ev /\ EvLoop ∈ ev /\ EvHandlers ∈ ev.
Proof.
  unfold NewTss. destruct (Bech32ifyPubKey _) as [pk|]; [|discriminate]. destruct folder_ok; cbn [negb]; [|discriminate].
  destruct (NewCommunication net port externalIP) as [[listen ext]|]; [|discriminate].
  destruct (choose_params valid generated pre) as [[pp|] made]; [|discriminate].
  set (peers := bootstrap net F fs cmd). set (raw := GetPriKeyRawBytes priKey). set (ev0 := if made then [EvGenerate] else []).
  destruct (Start net raw peers) as [ev1 ok] eqn:Es. destruct ok; [|discriminate].
  intros H. assert (G : sv_boot s = peers /\ exists tl, ev = ev0 ++ ev1 ++ EvHandlers :: tl).
  { destruct monitor; [destruct registered|]; [discriminate| |]; injection H as <- <-; cbn [sv_boot]; eauto. }
  destruct G as [Hb [tl ->]]. rewrite Hb. clear H Hb. split.
  { unfold peers, bootstrap. destruct (RetrieveP2PAddresses F (ne_maddr net) fs) as [saved|]; [left; eauto|right; auto]. }
  unfold Start, startChannel in Es. destruct (negb (Nat.eqb _ _)); [discriminate|]. destruct (negb (ne_host net)); [discriminate|]. destruct (negb (ne_dht net)); [discriminate|].
  pose proof (rounds_found net peers 5 0) as Hf. destruct (rounds net 5 0 peers) as [ev2 [|]]; [|discriminate].
  pose proof (check_ok net peers) as Hc. destruct (bootStrapConnectivityCheck net peers) as [ev3 ok3] eqn:Ec. cbn [snd] in Hc. destruct ok3; [|discriminate].
  injection Es as <-. split.
  - destruct peers as [|b l] eqn:Ep; [left; reflexivity|right]. rewrite <- Ep in *. split.
    + destruct (Hf ev2 ltac:(congruence) eq_refl) as (k & i & H1 & H2 & H3 & H4). exists k, i. split; [exact H1|]. split; [exact H2|]. split; [exact H3|].
      apply elem_of_app. right. apply elem_of_app. left. right. apply elem_of_app. left. apply elem_of_app. left. exact H4.
    + destruct (proj1 Hc eq_refl) as [H|(i & a & H1 & H2 & H3)]; [congruence|]. exists i, a. split; [exact H1|]. split; [exact H2|]. split; [exact H3|].
      apply elem_of_app. right. apply elem_of_app. left. right. apply elem_of_app. left. apply elem_of_app. right. right.
      unfold bootStrapConnectivityCheck in Ec. destruct peers; [congruence|]. injection Ec as <- _. change (map ?f ?l) with (f <$> l). apply elem_of_list_fmap. exists i. split; [reflexivity|].
      apply pinged_spec. eauto.
  - split; [|split].
    + apply elem_of_app. right. left.
    + apply elem_of_app. right. apply elem_of_app. left. right. apply elem_of_app. right. left.
    + apply elem_of_app. right. apply elem_of_app. right. left.
Qed.
Print Assumptions C152_started_node_reached_the_network.

(** When every bootstrap address can be read, one peer that takes a connection in five
    rounds and one that answers a ping are enough, and so is having no peer at all. *)
Theorem C152_when_a_node_starts {A PP} (net : netenv A) (valid : PP -> bool) generated pub F fs folder_ok
    cmd port priKey pre monitor externalIP registered :
  let peers := match RetrieveP2PAddresses F (ne_maddr net) fs with Some saved => saved ++ cmd | None => cmd end in
  ready net valid generated pre folder_ok port externalIP priKey -> monitor && registered = false ->
  ((exists ev s, NewTss net valid generated pub F fs folder_ok cmd port priKey pre monitor externalIP registered = (ev, NServer s)) <->
   peers = [] \/ (Forall (readable net) peers /\ (exists i, i < length peers /\ accepts net i) /\ exists i, i < length peers /\ ne_ping net i = true)).
Proof.
  intros peers [H1 H2 H3 H4 H5 H6 (p & Hp & Hv)] Hm. unfold NewTss. fold peers.
  destruct (key_written (pub priKey)) as [k ->]. subst folder_ok. cbn [negb].
  assert (Hc : exists x, NewCommunication net port externalIP = Some x).
  { unfold NewCommunication. destruct (ne_maddr net (ip4_tcp "0.0.0.0" port)); [|congruence].
    destruct (Nat.eqb_spec (String.length externalIP) 0) as [E|E]; [eauto|]. destruct (ne_maddr net (ip4_tcp externalIP port)); [eauto|].
    exfalso. apply H3; [|reflexivity]. intros ->. apply E. reflexivity. }
  destruct Hc as [[listen ext] ->].
  assert (Hpp : exists pp made, choose_params valid generated pre = (Some pp, made)).
  { unfold choose_params. destruct Hp as [-> | ->]; [rewrite Hv; eauto|]. destruct pre as [q|]; [destruct (valid q); [eauto|]|]; rewrite Hv; eauto. }
  destruct Hpp as (pp & made & ->). rewrite raw_32 by exact H6. change (bootstrap net F fs cmd) with peers.
  pose proof (start_ok net priKey peers) as Hs. destruct (Start net priKey peers) as [ev ok]. cbn [snd] in Hs.
  assert (Hs' : ok = true <-> peers = [] \/ (Forall (readable net) peers /\ (exists i, i < length peers /\ accepts net i) /\ exists i, i < length peers /\ ne_ping net i = true)) by tauto.
  clear Hs. rewrite <- Hs'. destruct ok.
  - split; [reflexivity|]. intros _. destruct monitor; [destruct registered; [discriminate|]|]; eauto.
  - split; [|discriminate]. intros (ev' & s & H). discriminate.
Qed.
Print Assumptions C152_when_a_node_starts.

Definition ex_net (info : string -> option string) conn : netenv string := NetEnv Some info true true conn (fun _ => true).
Definition ex_F : fsenv := FsEnv "" (fun _ => None) (fun _ => None) (fun _ => None).
Definition ex_new net cmd monitor registered : list sevent * nres string nat :=
  NewTss net (fun n => Nat.leb 5 n) (Some 9) (fun _ => (test_x, test_y)) ex_F ∅ true cmd 6668 (repeat "k"%char 32) (Some 3) monitor "" registered.
(** Nobody answers in the first round, the second peer in the second. *)
Example C152_example :
  let net := ex_net Some (fun r i => (Nat.eqb r 1 && Nat.eqb i 1)%bool) in
  ready net (fun n => Nat.leb 5 n) (Some 9) (Some 3) true 6668 "" (repeat "k"%char 32) /\
  Forall (readable net) ["a"; "b"]%string /\ accepts net 1 /\ ne_ping net 0 = true /\
  exists s, ex_new net ["a"; "b"]%string true false =
    ([EvGenerate; EvHost; EvDial 0 0; EvDial 0 1; EvSleep; EvDial 1 0; EvDial 1 1; EvAdvertise; EvPing 0; EvPing 1; EvLoop; EvHandlers; EvMetrics], NServer s).
Proof.
  cbn zeta. split; [|split; [|split; [|split]]].
  - constructor; try reflexivity; try discriminate. exists 9. split; [right; reflexivity|reflexivity].
  - repeat constructor; discriminate.
  - exists 1. split; [lia|reflexivity].
  - reflexivity.
  - eexists. vm_compute. reflexivity.
Qed.

(** ** C153 *)
(** One address that cannot be read keeps the node from starting, however many of the
    other peers can be reached. *)
Theorem C153_one_reachable_peer_suffices_refuted {A PP} (net : netenv A) (valid : PP -> bool) generated pub F fs folder_ok
    cmd port priKey pre monitor externalIP registered a :
  (a ∈ cmd \/ exists saved, RetrieveP2PAddresses F (ne_maddr net) fs = Some saved /\ a ∈ saved) -> ne_info net a = None ->
  let r := NewTss net valid generated pub F fs folder_ok cmd port priKey pre monitor externalIP registered in
  snd r = NErr /\ (EvHost ∈ fst r -> ne_dht net = true -> waits (fst r) = 5).
Proof.
  intros Hin Hi. set (peers := bootstrap net F fs cmd).
  assert (Hp : a ∈ peers).
  { unfold peers, bootstrap. destruct Hin as [H|(saved & -> & H)]; [|apply elem_of_app; auto].
    destruct (RetrieveP2PAddresses F (ne_maddr net) fs); [apply elem_of_app; auto|exact H]. }
  assert (Hnf : ~ Forall (readable net) peers) by (rewrite Forall_forall; intros H; exact (H a Hp Hi)).
  assert (Hne : peers <> []) by (intros E; rewrite E in Hp; inversion Hp).
  cbn zeta. unfold NewTss. destruct (Bech32ifyPubKey _) as [pk|]; [|split; [reflexivity|intros H; inversion H]]. destruct folder_ok; cbn [negb]; [|split; [reflexivity|intros H; inversion H]].
  destruct (NewCommunication net port externalIP) as [[listen ext]|]; [|split; [reflexivity|intros H; inversion H]].
  destruct (choose_params valid generated pre) as [[pp|] made];
    [|split; [reflexivity|]; cbn [fst]; destruct made; intros H; [apply elem_of_list_singleton in H; discriminate|inversion H]].
  fold peers. set (raw := GetPriKeyRawBytes priKey). pose proof (start_ok net raw peers) as Hs.
  destruct (Start net raw peers) as [ev ok] eqn:Es. cbn [snd] in Hs. destruct ok; [exfalso; destruct (proj1 Hs eq_refl) as (_ & _ & _ & [H|[H _]]); contradiction|].
  split; [reflexivity|]. cbn [fst]. intros Hh Hd. assert (Hev : waits ev = 5).
  { unfold Start, startChannel in Es. destruct (negb (Nat.eqb _ _)).
    { injection Es as <-. destruct made; [apply elem_of_cons in Hh as [Hh|Hh]; [discriminate|]|]; inversion Hh. }
    destruct (negb (ne_host net)). { injection Es as <-. destruct made; [apply elem_of_cons in Hh as [Hh|Hh]; [discriminate|]|]; inversion Hh. }
    rewrite Hd in Es. cbn [negb] in Es. pose proof (rounds_ok net peers 5 0) as Hr. destruct (rounds net 5 0 peers) as [ev2 ok2] eqn:Er. cbn [snd] in Hr. destruct ok2.
    - exfalso. destruct (proj1 Hr eq_refl) as [[_ H]|[H _]]; contradiction.
    - injection Es as <-. change (waits (EvHost :: ev2)) with (waits ev2). exact (rounds_waits net peers 5 0 ev2 Er). }
  rewrite waits_app, Hev. destruct made; reflexivity.
Qed.
Print Assumptions C153_one_reachable_peer_suffices_refuted.
(** The first peer takes every connection and answers; the second address is no peer's. *)
Example C153_example :
  let net := ex_net (fun a => if String.eqb a "bad" then None else Some a) (fun _ _ => true) in
  ready net (fun n => Nat.leb 5 n) (Some 9) (Some 3) true 6668 "" (repeat "k"%char 32) /\
  accepts net 0 /\ ne_ping net 0 = true /\ ne_info net "bad"%string = None /\ snd (ex_new net ["good"; "bad"]%string true false) = NErr /\
  exists s, snd (ex_new net ["good"]%string true false) = NServer s.
Proof.
  cbn zeta. split; [|split; [|split; [|split; [|split]]]].
  - constructor; try reflexivity; try discriminate. exists 9. split; [right; reflexivity|reflexivity].
  - exists 0. split; [lia|reflexivity].
  - reflexivity.
  - reflexivity.
  - vm_compute. reflexivity.
  - eexists. vm_compute. reflexivity.
Qed.

(** ** C154 *)
(** The pre-parameters of a started node are valid: the ones given, if they are, and then
    none are made; otherwise new ones. *)
Theorem C154_valid_parameters {A PP} (net : netenv A) (valid : PP -> bool) generated pub F fs folder_ok
    cmd port priKey pre monitor externalIP registered ev s :
  NewTss net valid generated pub F fs folder_ok cmd port priKey pre monitor externalIP registered = (ev, NServer s) ->
  valid (sv_pre s) = true /\
  (forall p, pre = Some p -> valid p = true -> sv_pre s = p /\ EvGenerate ∉ ev) /\
  ((forall p, pre = Some p -> valid p = false) -> generated = Some (sv_pre s)).
Proof.
  unfold NewTss. destruct (Bech32ifyPubKey _) as [pk|]; [|discriminate]. destruct folder_ok; cbn [negb]; [|discriminate].
  destruct (NewCommunication net port externalIP) as [[listen ext]|]; [|discriminate].
  destruct (choose_params valid generated pre) as [[pp|] made] eqn:Ec; [|discriminate].
  pose proof (start_harmless net (GetPriKeyRawBytes priKey) (bootstrap net F fs cmd)) as Hh.
  destruct (Start net _ _) as [ev1 ok]. cbn [fst] in Hh. destruct ok; [|discriminate].
  intros H. assert (G : sv_pre s = pp /\ exists tl, ev = (if made then [EvGenerate] else []) ++ ev1 ++ tl /\ EvGenerate ∉ tl).
  { destruct monitor; [destruct registered|]; [discriminate| |]; injection H as <- <-; (split; [reflexivity|]); eexists; (split; [reflexivity|]);
      rewrite ?not_elem_of_cons; repeat split; try discriminate; apply not_elem_of_nil. }
  destruct G as [-> (tl & -> & Htl)].
  assert (Hno : EvGenerate ∉ ev1 ++ tl).
  { intros Hin. apply elem_of_app in Hin as [Hin|Hin]; [|contradiction]. rewrite Forall_forall in Hh. destruct (Hh _ Hin) as [_ Hx]. congruence. }
  unfold choose_params in Ec. destruct pre as [p|].
  - destruct (valid p) eqn:Ev.
    + injection Ec as <- <-. split; [exact Ev|]. split; [intros q [= <-] _; split; [reflexivity|exact Hno]|]. intros Hq. specialize (Hq p eq_refl). congruence.
    + destruct generated as [g|]; [|discriminate]. destruct (valid g) eqn:Eg; [|discriminate]. injection Ec as <- <-.
      split; [exact Eg|]. split; [intros q [= <-] Hq; congruence|auto].
  - destruct generated as [g|]; [|discriminate]. destruct (valid g) eqn:Eg; [|discriminate]. injection Ec as <- <-.
    split; [exact Eg|]. split; [discriminate|auto].
Qed.
Print Assumptions C154_valid_parameters.
Example C154_example : exists ev s, ex_new (ex_net Some (fun _ _ => true)) [] false true = (ev, NServer s) /\ sv_pre s = 9.
Proof. do 2 eexists. split; [vm_compute; reflexivity|reflexivity]. Qed.

(** ** C155 *)
(** A start that fails because no bootstrap peer can be reached leaves the host open: it
    still listens and handles streams. Nothing that starts a node ever closes a host. *)
Theorem C155_failed_start_leaves_nothing_refuted {A PP} (net : netenv A) (valid : PP -> bool) generated pub F fs folder_ok
    cmd port priKey pre monitor externalIP registered :
  ready net valid generated pre folder_ok port externalIP priKey -> cmd <> [] -> (forall r i, ne_conn net r i = false) ->
  let r := NewTss net valid generated pub F fs folder_ok cmd port priKey pre monitor externalIP registered in
  snd r = NErr /\ EvHost ∈ fst r /\ EvClose ∉ fst r.
Proof.
  intros [H1 H2 H3 H4 H5 H6 (p & Hp & Hv)] Hcmd Hcn. cbn zeta. unfold NewTss.
  destruct (key_written (pub priKey)) as [k ->]. subst folder_ok. cbn [negb].
  assert (Hc : exists x, NewCommunication net port externalIP = Some x).
  { unfold NewCommunication. destruct (ne_maddr net (ip4_tcp "0.0.0.0" port)); [|congruence].
    destruct (Nat.eqb_spec (String.length externalIP) 0) as [E|E]; [eauto|]. destruct (ne_maddr net (ip4_tcp externalIP port)); [eauto|].
    exfalso. apply H3; [|reflexivity]. intros ->. apply E. reflexivity. }
  destruct Hc as [[listen ext] ->].
  assert (Hpp : exists pp made, choose_params valid generated pre = (Some pp, made)).
  { unfold choose_params. destruct Hp as [-> | ->]; [rewrite Hv; eauto|]. destruct pre as [q|]; [destruct (valid q); [eauto|]|]; rewrite Hv; eauto. }
  destruct Hpp as (pp & made & ->). rewrite raw_32 by exact H6. set (peers := bootstrap net F fs cmd).
  assert (Hne : peers <> []).
  { unfold peers, bootstrap. destruct (RetrieveP2PAddresses _ _ _) as [saved|]; [|exact Hcmd]. intros E. apply app_eq_nil in E as [_ E]. contradiction. }
  unfold Start, startChannel. rewrite H6, H4, H5. cbn [negb Nat.eqb].
  pose proof (rounds_ok net peers 5 0) as Hr. pose proof (rounds_harmless net peers 5 0) as Hh. destruct (rounds net 5 0 peers) as [ev ok]. cbn [fst snd] in *.
  destruct ok; [exfalso; destruct (proj1 Hr eq_refl) as [[_ H]|(_ & i & k' & _ & _ & H)]; [contradiction|rewrite Hcn in H; discriminate]|].
  cbn [fst snd]. split; [reflexivity|]. split; [apply elem_of_app; right; left|].
  intros Hin. apply elem_of_app in Hin as [Hin|Hin]; [destruct made; [apply elem_of_list_singleton in Hin; discriminate|inversion Hin]|].
  apply elem_of_cons in Hin as [Hin|Hin]; [discriminate|]. rewrite Forall_forall in Hh. destruct (Hh _ Hin) as [Hx _]. congruence.
Qed.
Print Assumptions C155_failed_start_leaves_nothing_refuted.
Example C155_example :
  ready (ex_net Some (fun _ _ => false)) (fun n => Nat.leb 5 n) (Some 9) (Some 3) true 6668 "" (repeat "k"%char 32) /\
  fst (ex_new (ex_net Some (fun _ _ => false)) ["a"]%string true false) =
    [EvGenerate; EvHost; EvDial 0 0; EvSleep; EvDial 1 0; EvSleep; EvDial 2 0; EvSleep; EvDial 3 0; EvSleep; EvDial 4 0; EvSleep].
Proof.
  split; [|vm_compute; reflexivity]. constructor; try reflexivity; try discriminate. exists 9. split; [right; reflexivity|reflexivity].
Qed.

(** ** C156 *)
(** The first node of a process never panics when it starts. *)
Theorem C156_first_node_does_not_panic {A PP} (net : netenv A) (valid : PP -> bool) generated pub F fs folder_ok
    cmd port priKey pre monitor externalIP :
  snd (NewTss net valid generated pub F fs folder_ok cmd port priKey pre monitor externalIP false) <> NPanic.
Proof.
  unfold NewTss. destruct (Bech32ifyPubKey _); [|discriminate]. destruct (negb folder_ok); [discriminate|].
  destruct (NewCommunication _ _ _) as [[listen ext]|]; [|discriminate]. destruct (choose_params _ _ _) as [[pp|] made]; [|discriminate].
  destruct (Start _ _ _) as [ev ok]. destruct ok; [|discriminate]. destruct monitor; discriminate.
Qed.
Print Assumptions C156_first_node_does_not_panic.
(** After one node with monitoring, a second one with monitoring in the same process
    panics, in every environment in which it would otherwise start. *)
Theorem C156_two_nodes_in_a_process_refuted {A PP} (net net' : netenv A) (valid : PP -> bool) generated pub pub' F F' fs fs' folder_ok folder_ok'
    cmd cmd' port port' priKey priKey' pre pre' ext ext' ev s :
  NewTss net valid generated pub F fs folder_ok cmd port priKey pre true ext false = (ev, NServer s) ->
  let second registered := NewTss net' valid generated pub' F' fs' folder_ok' cmd' port' priKey' pre' true ext' registered in
  EvMetrics ∈ ev /\
  (forall ev' s', second false = (ev', NServer s') -> snd (second true) = NPanic) /\
  (forall s', snd (second true) <> NServer s').
Proof.
  intros H. cbn zeta. split; [|split].
  - revert H. unfold NewTss. destruct (Bech32ifyPubKey _); [|discriminate]. destruct (negb folder_ok); [discriminate|].
    destruct (NewCommunication _ _ _) as [[listen x]|]; [|discriminate]. destruct (choose_params _ _ _) as [[pp|] made]; [|discriminate].
    destruct (Start _ _ _) as [ev1 ok]. destruct ok; [|discriminate]. intros [= <- _]. apply elem_of_app. right. apply elem_of_app. right. right. left.
  - intros ev' s'. unfold NewTss. destruct (Bech32ifyPubKey _); [|discriminate]. destruct (negb folder_ok'); [discriminate|].
    destruct (NewCommunication _ _ _) as [[listen x]|]; [|discriminate]. destruct (choose_params _ _ _) as [[pp|] made]; [|discriminate].
    destruct (Start _ _ _) as [ev1 ok]. destruct ok; [|discriminate]. reflexivity.
  - intros s'. unfold NewTss. destruct (Bech32ifyPubKey _); [|discriminate]. destruct (negb folder_ok'); [discriminate|].
    destruct (NewCommunication _ _ _) as [[listen x]|]; [|discriminate]. destruct (choose_params _ _ _) as [[pp|] made]; [|discriminate].
    destruct (Start _ _ _) as [ev1 ok]. destruct ok; discriminate.
Qed.
Print Assumptions C156_two_nodes_in_a_process_refuted.
Example C156_example : exists ev s, ex_new (ex_net Some (fun _ _ => true)) [] true false = (ev, NServer s).
Proof. do 2 eexists. vm_compute. reflexivity. Qed.

(** ** C157 *)
(** The node's public key and its peer id belong together: whoever computes the peer of
    the key gets the id of the host, and whoever computes the key of the peer gets the
    key. *)
Theorem C157_key_and_peer_agree {A PP} (net : netenv A) (valid : PP -> bool) generated pub F fs folder_ok
    cmd port priKey pre monitor externalIP registered ev s cap typed_key other_amino other_cid other_id :
  runtime cap -> GetPriKey cap typed_key = KKey priKey -> curve_point (fst (pub priKey)) (snd (pub priKey)) ->
  NewTss net valid generated pub F fs folder_ok cmd port priKey pre monitor externalIP registered = (ev, NServer s) ->
  GetPeerIDFromPubKey other_amino (sv_pub s) = Some (sv_peer s) /\
  GetPubKeyFromPeerID other_cid other_id (id_string (sv_peer s)) = Some (sv_pub s).
Proof.
  intros Hcap Hk Hc H. destruct (C113_raw_bytes cap typed_key priKey Hcap Hk) as [_ Hraw].
  assert (G : Bech32ifyPubKey (SerializeCompressed (pub priKey)) = Some (sv_pub s) /\ sv_peer s = IDFromPublicKey (pub priKey)).
  { revert H. unfold NewTss. destruct (Bech32ifyPubKey (SerializeCompressed (pub priKey))) as [pk|]; [|discriminate]. destruct (negb folder_ok); [discriminate|].
    destruct (NewCommunication _ _ _) as [[listen x]|]; [|discriminate]. destruct (choose_params _ _ _) as [[pp|] made]; [|discriminate].
    rewrite Hraw. destruct (Start _ _ _) as [ev1 ok]. destruct ok; [|discriminate]. destruct monitor; [destruct registered|]; [discriminate| |]; intros [= _ <-]; auto. }
  destruct G as [G1 ->]. destruct (pub priKey) as [x y]. cbn [fst snd] in Hc.
  destruct (C127_every_point other_amino other_cid other_id (SerializeCompressed (x, y)) x y Hc) as (k & id & K1 & K2 & K3 & K4).
  { apply curve_point_iff in Hc. apply encodes_iff; [exact Hc|reflexivity]. }
  rewrite G1 in K1. injection K1 as <-.
  assert (id = IDFromPublicKey (x, y)) as ->; [|auto].
  unfold GetPeerIDFromPubKey in K3. rewrite K2 in K3. apply curve_point_iff in Hc. rewrite parse_serialize in K3 by exact Hc. congruence.
Qed.
Print Assumptions C157_key_and_peer_agree.
Example C157_example : exists priKey ev s, runtime tight /\ GetPriKey tight (key_text key64) = KKey priKey /\ curve_point test_x test_y /\
  NewTss (ex_net Some (fun _ _ => true)) (fun n => Nat.leb 5 n) (Some 9) (fun _ => (test_x, test_y)) ex_F ∅ true [] 6668 priKey (Some 7) false "" false = (ev, NServer s).
Proof.
  destruct C113_ex as (H1 & H2 & _). eexists _, _, _. split; [exact H1|]. split; [exact H2|]. split; [exact test_point|]. vm_compute. reflexivity.
Qed.

(** The host listens on the port at every interface, and announces the external address
    exactly when one is given. *)
Theorem C157_addresses {A PP} (net : netenv A) (valid : PP -> bool) generated pub F fs folder_ok
    cmd port priKey pre monitor externalIP registered ev s :
  NewTss net valid generated pub F fs folder_ok cmd port priKey pre monitor externalIP registered = (ev, NServer s) ->
  ne_maddr net (String.append "/ip4/0.0.0.0/tcp/" (format_int port)) = Some (sv_listen s) /\
  (externalIP = ""%string -> sv_announce s = None) /\
  (externalIP <> ""%string -> exists a, sv_announce s = Some a /\
     ne_maddr net (String.append "/ip4/" (String.append externalIP (String.append "/tcp/" (format_int port)))) = Some a).
Proof.
  unfold NewTss. destruct (Bech32ifyPubKey _); [|discriminate]. destruct (negb folder_ok); [discriminate|].
  destruct (NewCommunication _ _ _) as [[listen ext]|] eqn:E; [|discriminate]. destruct (choose_params _ _ _) as [[pp|] made]; [|discriminate].
  destruct (Start _ _ _) as [ev1 ok]. destruct ok; [|discriminate].
  intros H. assert (G : sv_listen s = listen /\ sv_announce s = ext).
  { destruct monitor; [destruct registered|]; [discriminate| |]; injection H as _ <-; auto. }
  destruct G as [-> ->]. clear H. unfold NewCommunication in E. change (ip4_tcp "0.0.0.0" port) with (String.append "/ip4/0.0.0.0/tcp/" (format_int port)) in E.
  destruct (ne_maddr net (String.append "/ip4/0.0.0.0/tcp/" _)) as [a|]; [|discriminate].
  destruct (Nat.eqb_spec (String.length externalIP) 0) as [El|El].
  - injection E as <- <-. destruct externalIP; [|discriminate]. split; [reflexivity|]. split; [reflexivity|congruence].
  - unfold ip4_tcp in E. destruct (ne_maddr net _) as [b|] eqn:Eb; [|discriminate]. injection E as <- <-. split; [reflexivity|].
    split; [intros ->; exfalso; apply El; reflexivity|]. eauto.
Qed.
Print Assumptions C157_addresses.
Example C157_addresses_example : exists ev s,
  NewTss (ex_net Some (fun _ _ => true)) (fun n => Nat.leb 5 n) (Some 9) (fun _ => (test_x, test_y)) ex_F ∅ true [] 6668 (repeat "k"%char 32) (Some 7) false "10.1.2.3" false = (ev, NServer s) /\
  sv_announce s = Some "/ip4/10.1.2.3/tcp/6668"%string.
Proof. do 2 eexists. split; [vm_compute; reflexivity|reflexivity]. Qed.

(** ** C158 *)
Lemma flag_arg n v : n ∈ flag_names ->
  arg_kind (String.append "-" (String.append n (String "=" v))) = AFlag n (Some v) /\
  arg_kind (String.append "--" (String.append n (String "=" v))) = AFlag n (Some v) /\
  arg_kind (String.append "-" n) = AFlag n None /\ arg_kind (String.append "--" n) = AFlag n None.
Proof.
  intros H. unfold flag_names in H. repeat (apply elem_of_cons in H as [->|H]; [cbn; auto|]). inversion H.
Qed.
Lemma truth_name n : n ∈ truth_flags -> n ∈ flag_names.
Proof. intros H. unfold truth_flags in H. repeat (apply elem_of_cons in H as [->|H]; [apply (bool_decide_unpack _); vm_compute; exact I|]). inversion H. Qed.
Section FlagLemmas.
  Context {A : Type} (maddr : string -> option A) (pi pd : string -> option Z).
  Fixpoint apply_settings (ss : list (string * string)) (o : opts A) : option (opts A) :=
    match ss with
    | [] => Some o
    | (n, v) :: r => match set_opt maddr pi pd n v o with Some o' => apply_settings r o' | None => None end
    end.
  Lemma parse_line args ss : command_line args ss -> forall o,
    parseFlags maddr pi pd args o = match apply_settings ss o with Some o' => Some (o', []) | None => None end.
  Proof.
    induction 1 as [|w s args ss Hw _ IH]; intros o; [reflexivity|].
    inversion Hw as [n v Hn|n v Hn|n v Hn Hb|n v Hn Hb|n Hb|n Hb]; subst; cbn [apply_settings app].
    - cbn [parseFlags]. rewrite (proj1 (flag_arg n v Hn)). destruct (set_opt _ _ _ n v o); [apply IH|reflexivity].
    - cbn [parseFlags]. rewrite (proj1 (proj2 (flag_arg n v Hn))). destruct (set_opt _ _ _ n v o); [apply IH|reflexivity].
    - cbn [parseFlags]. rewrite (proj1 (proj2 (proj2 (flag_arg n v Hn)))). unfold bool_flag. rewrite bool_decide_false by exact Hb. destruct (set_opt _ _ _ n v o); [apply IH|reflexivity].
    - cbn [parseFlags]. rewrite (proj2 (proj2 (proj2 (flag_arg n v Hn)))). unfold bool_flag. rewrite bool_decide_false by exact Hb. destruct (set_opt _ _ _ n v o); [apply IH|reflexivity].
    - cbn [parseFlags]. rewrite (proj1 (proj2 (proj2 (flag_arg n "" (truth_name n Hb))))). unfold bool_flag. rewrite bool_decide_true by exact Hb. destruct (set_opt _ _ _ n "true" o); [apply IH|reflexivity].
    - cbn [parseFlags]. rewrite (proj2 (proj2 (proj2 (flag_arg n "" (truth_name n Hb))))). unfold bool_flag. rewrite bool_decide_true by exact Hb. destruct (set_opt _ _ _ n "true" o); [apply IH|reflexivity].
  Qed.
  Lemma field_value {T} (parse : string -> option T) name (f : opts A -> T) :
    (forall n v o o', set_opt maddr pi pd n v o = Some o' -> if String.eqb n name then parse v = Some (f o') else f o' = f o) ->
    forall ss o o', apply_settings ss o = Some o' -> has_value parse name ss (f o) (f o').
  Proof.
    intros Hstep. induction ss as [|[n v] ss IH]; intros o o' H; cbn [apply_settings] in H.
    - injection H as <-. reflexivity.
    - destruct (set_opt maddr pi pd n v o) as [o1|] eqn:E; [|discriminate]. specialize (IH o1 o' H). specialize (Hstep n v o o1 E).
      unfold has_value in *. cbn [last_given]. destruct (last_given name ss) as [w|]; [exact IH|].
      destruct (String.eqb n name); [rewrite IH; exact Hstep|congruence].
  Qed.
  Ltac one_flag :=
    try change truth with parse_bool;
    intros n v [ad he le pr ho ge si pp mo re po ex pe] o'; unfold set_opt;
    repeat match goal with |- context [String.eqb n ?x] => destruct (String.eqb_spec n x) as [->|?] end;
    try congruence; try discriminate;
    intros HH; cbn;
    repeat match type of HH with match ?x with Some _ => _ | None => _ end = _ => destruct x eqn:? end;
    try discriminate; injection HH as <-; cbn; congruence.
  Lemma peers_value ss : forall o o', apply_settings ss o = Some o' ->
    exists l, op_peers o' = op_peers o ++ l /\ Forall2 (fun v a => maddr v = Some a) (all_given "peer" ss) l.
  Proof.
    induction ss as [|[n v] ss IH]; intros o o' H; cbn [apply_settings] in H.
    - injection H as <-. exists []. split; [symmetry; apply app_nil_r|constructor].
    - destruct (set_opt maddr pi pd n v o) as [o1|] eqn:E; [|discriminate]. destruct (IH o1 o' H) as (l & H1 & H2).
      assert (G : if String.eqb n "peer" then exists a, maddr v = Some a /\ op_peers o1 = op_peers o ++ [a] else op_peers o1 = op_peers o).
      { revert E. generalize o1. clear. revert n v o. intros n v [ad he le pr ho ge si pp mo re po ex pe] o1. unfold set_opt.
        repeat match goal with |- context [String.eqb n ?x] => destruct (String.eqb_spec n x) as [->|?] end;
          try congruence; intros H; cbn;
          repeat match type of H with match ?x with Some _ => _ | None => _ end = _ => destruct x eqn:? end;
          try discriminate; injection H as <-; cbn; try reflexivity. eauto. }
      unfold all_given. cbn [List.filter fst]. destruct (String.eqb n "peer").
      + destruct G as (a & Ga & Gp). exists (a :: l). split; [rewrite H1, Gp, <- app_assoc; reflexivity|]. cbn [map snd]. constructor; [exact Ga|exact H2].
      + exists l. split; [rewrite H1, G; reflexivity|exact H2].
  Qed.
  Lemma settings_meant ss o : apply_settings ss default_opts = Some o -> meant maddr pi pd ss o.
  Proof.
    intros H. constructor.
    - refine (field_value Some "tss-port" op_addr _ ss default_opts o H). one_flag.
    - refine (field_value truth "h" op_help _ ss default_opts o H). one_flag.
    - refine (field_value Some "loglevel" op_level _ ss default_opts o H). one_flag.
    - refine (field_value truth "pretty-log" op_pretty _ ss default_opts o H). one_flag.
    - refine (field_value Some "home" op_home _ ss default_opts o H). one_flag.
    - refine (field_value pd "gentimeout" op_gen _ ss default_opts o H). one_flag.
    - refine (field_value pd "signtimeout" op_sign _ ss default_opts o H). one_flag.
    - refine (field_value pd "preparamtimeout" op_pre _ ss default_opts o H). one_flag.
    - refine (field_value truth "enablemonitor" op_monitor _ ss default_opts o H). one_flag.
    - refine (field_value Some "rendezvous" op_rendezvous _ ss default_opts o H). one_flag.
    - refine (field_value pi "p2p-port" op_port _ ss default_opts o H). one_flag.
    - refine (field_value Some "external-ip" op_ext _ ss default_opts o H). one_flag.
    - destruct (peers_value ss _ _ H) as (l & H1 & H2). rewrite H1. exact H2.
  Qed.
  Lemma truth_accepted v : parse_bool v <> None <-> v ∈ ["1"; "t"; "T"; "TRUE"; "true"; "True"; "0"; "f"; "F"; "FALSE"; "false"; "False"]%string.
  Proof.
    unfold parse_bool. change ["1"; "t"; "T"; "TRUE"; "true"; "True"; "0"; "f"; "F"; "FALSE"; "false"; "False"]%string
      with (["1"; "t"; "T"; "TRUE"; "true"; "True"]%string ++ ["0"; "f"; "F"; "FALSE"; "false"; "False"]%string).
    rewrite elem_of_app. case_bool_decide as H1; [split; [auto|discriminate]|]. case_bool_decide as H2; [split; [auto|discriminate]|].
    split; [congruence|tauto].
  Qed.
  Lemma set_opt_acceptable n v o : n ∈ flag_names -> (is_Some (set_opt maddr pi pd n v o) <-> acceptable maddr pi pd (n, v)).
  Proof.
    intros H. destruct o as [ad he le pr ho ge si pp mo re po ex pe]. unfold acceptable.
    unfold flag_names in H. repeat (apply elem_of_cons in H as [->|H]; [cbn [set_opt String.eqb Ascii.eqb Bool.eqb bool_decide decide_rel];
      first [ rewrite bool_decide_true by (apply (bool_decide_unpack _); vm_compute; exact I)
            | rewrite bool_decide_false by (apply (bool_decide_unpack _); vm_compute; exact I) ];
      try rewrite <- truth_accepted;
      try first [ rewrite bool_decide_true by (apply (bool_decide_unpack _); vm_compute; exact I)
            | rewrite bool_decide_false by (apply (bool_decide_unpack _); vm_compute; exact I) ];
      cbn; repeat match goal with |- context [match ?x with Some _ => _ | None => _ end] => destruct x end;
      (split; intros G; first [exact I|discriminate|congruence|solve [inversion G; discriminate]|solve [eauto]])|]). inversion H.
  Qed.
  Lemma settings_accepted ss : forall o, Forall (fun s => fst s ∈ flag_names) ss ->
    (is_Some (apply_settings ss o) <-> Forall (acceptable maddr pi pd) ss).
  Proof.
    induction ss as [|[n v] ss IH]; intros o Hn; cbn [apply_settings]; [split; [constructor|eauto]|].
    apply Forall_cons in Hn as [Hn Hr]. cbn [fst] in Hn. rewrite Forall_cons, <- (set_opt_acceptable n v o Hn).
    destruct (set_opt maddr pi pd n v o) as [o1|]; [rewrite (IH o1 Hr); split; [intros H; split; [eauto|exact H]|tauto]|].
    split; [intros [x H]; discriminate|intros [[x H] _]; discriminate].
  Qed.
End FlagLemmas.
Lemma line_names args ss : command_line args ss -> Forall (fun s => fst s ∈ flag_names) ss.
Proof.
  induction 1 as [|w s args ss Hw _ IH]; constructor; [|exact IH].
  inversion Hw; subst; cbn [fst]; try assumption; apply truth_name; assumption.
Qed.
(** A command line of settings is taken exactly when every value is acceptable, and then
    means: the peers in order, for everything else the last value given or the default. *)
Theorem C158_settings {A} (maddr : string -> option A) parse_int parse_duration args ss :
  command_line args ss ->
  (Forall (acceptable maddr parse_int parse_duration) ss <-> parseFlags maddr parse_int parse_duration args default_opts <> None) /\
  forall o rest, parseFlags maddr parse_int parse_duration args default_opts = Some (o, rest) ->
    rest = [] /\ meant maddr parse_int parse_duration ss o.
Proof.
  intros H. rewrite (parse_line maddr parse_int parse_duration args ss H default_opts). split.
  - rewrite <- (settings_accepted maddr parse_int parse_duration ss default_opts (line_names args ss H)).
    destruct (apply_settings _ _ _ ss default_opts); [split; [discriminate|eauto]|]. split; [intros [x Hx]; discriminate|congruence].
  - intros o rest. destruct (apply_settings _ _ _ ss default_opts) as [o'|] eqn:E; [|discriminate]. intros [= -> <-].
    split; [reflexivity|]. exact (settings_meant maddr parse_int parse_duration ss o E).
Qed.
Print Assumptions C158_settings.
Example C158_example :
  let args := ["-peer"; "a"; "--p2p-port=7"; "-enablemonitor=false"; "-peer=b"; "-pretty-log"; "-p2p-port"; "8"]%string in
  let ss := [("peer", "a"); ("p2p-port", "7"); ("enablemonitor", "false"); ("peer", "b"); ("pretty-log", "true"); ("p2p-port", "8")]%string in
  let pi v := if String.eqb v "7" then Some 7%Z else if String.eqb v "8" then Some 8%Z else None in
  command_line args ss /\ Forall (acceptable (@Some string) pi (fun _ => None)) ss /\
  parseFlags (@Some string) pi (fun _ => None) args default_opts =
    Some (Opts "127.0.0.1:8080" false "info" true "" 30000000000 30000000000 300000000000 false "Asgard" 8 "" ["a"; "b"], [])%string.
Proof.
  cbn zeta. assert (D : forall n, bool_decide (n ∈ flag_names) = true -> n ∈ flag_names) by (intros n H; exact (bool_decide_eq_true_1 _ H)).
  split; [|split].
  - refine (cl_cons ["-peer"; "a"]%string _ _ _ (wr_next "peer" "a" (D "peer"%string eq_refl) _) _); [apply (bool_decide_unpack _); vm_compute; exact I|].
    refine (cl_cons ["--p2p-port=7"]%string _ _ _ (wr_eq2 "p2p-port" "7" (D "p2p-port"%string eq_refl)) _).
    refine (cl_cons ["-enablemonitor=false"]%string _ _ _ (wr_eq "enablemonitor" "false" (D "enablemonitor"%string eq_refl)) _).
    refine (cl_cons ["-peer=b"]%string _ _ _ (wr_eq "peer" "b" (D "peer"%string eq_refl)) _).
    refine (cl_cons ["-pretty-log"]%string _ _ _ (wr_true "pretty-log" _) _); [apply (bool_decide_unpack _); vm_compute; exact I|].
    refine (cl_cons ["-p2p-port"; "8"]%string _ _ _ (wr_next "p2p-port" "8" (D "p2p-port"%string eq_refl) _) cl_nil). apply (bool_decide_unpack _); vm_compute; exact I.
  - repeat constructor; cbn; try discriminate; apply (bool_decide_unpack _); vm_compute; exact I.
  - vm_compute. reflexivity.
Qed.
(** What comes after the first word that is no flag and no flag's value is not looked at:
    [-enablemonitor false -peer a] turns monitoring on and adds no peer. *)
Theorem C158_stray_word_ends_the_settings {A} (maddr : string -> option A) parse_int parse_duration args ss w more :
  command_line args ss -> arg_kind w = AStop ->
  parseFlags maddr parse_int parse_duration (args ++ w :: more) default_opts =
    match parseFlags maddr parse_int parse_duration args default_opts with Some (o, _) => Some (o, w :: more) | None => None end.
Proof.
  intros H Hw. rewrite (parse_line maddr parse_int parse_duration args ss H default_opts).
  generalize (@default_opts A). revert H. induction 1 as [|u s args ss Hu _ IH]; intros o.
  - cbn [app parseFlags apply_settings]. rewrite Hw. reflexivity.
  - inversion Hu as [n v Hn|n v Hn|n v Hn Hb|n v Hn Hb|n Hb|n Hb]; subst; cbn [apply_settings app].
    + cbn [parseFlags]. rewrite (proj1 (flag_arg n v Hn)). destruct (set_opt _ _ _ n v o); [apply IH|reflexivity].
    + cbn [parseFlags]. rewrite (proj1 (proj2 (flag_arg n v Hn))). destruct (set_opt _ _ _ n v o); [apply IH|reflexivity].
    + cbn [parseFlags]. rewrite (proj1 (proj2 (proj2 (flag_arg n v Hn)))). unfold bool_flag. rewrite bool_decide_false by exact Hb. destruct (set_opt _ _ _ n v o); [apply IH|reflexivity].
    + cbn [parseFlags]. rewrite (proj2 (proj2 (proj2 (flag_arg n v Hn)))). unfold bool_flag. rewrite bool_decide_false by exact Hb. destruct (set_opt _ _ _ n v o); [apply IH|reflexivity].
    + cbn [parseFlags]. rewrite (proj1 (proj2 (proj2 (flag_arg n "" (truth_name n Hb))))). unfold bool_flag. rewrite bool_decide_true by exact Hb. destruct (set_opt _ _ _ n "true" o); [apply IH|reflexivity].
    + cbn [parseFlags]. rewrite (proj2 (proj2 (proj2 (flag_arg n "" (truth_name n Hb))))). unfold bool_flag. rewrite bool_decide_true by exact Hb. destruct (set_opt _ _ _ n "true" o); [apply IH|reflexivity].
Qed.
Print Assumptions C158_stray_word_ends_the_settings.
Example C158_stray_example :
  arg_kind "false" = AStop /\
  exists o, parseFlags (@Some string) (fun _ => None) (fun _ => None) ["-enablemonitor"; "false"; "-peer"; "a"]%string default_opts = Some (o, ["false"; "-peer"; "a"]%string) /\
    op_monitor o = true /\ op_peers o = [].
Proof. split; [reflexivity|]. eexists. split; [vm_compute; reflexivity|]. split; reflexivity. Qed.
