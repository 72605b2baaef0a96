(** The recovery tool: C59-C61, C118-C122. *)
From Coq Require Import ZArith Znumtheory NArith Ascii String List Lia.
From stdpp Require Import base list strings gmap.
From Verif Require Import Base L_Base S_Utf8 L_Utf8 M_Json L_Json S_Json L_JsonSpec M_Storage S_Key P_Key S_Http P_Http M_Recovery S_Recovery L_Lagrange L_Prime L_KeyFile.

Local Open Scope Z_scope.

(** ** C59. Enough shares with distinct numbers give the private key. *)
Theorem C59_shares_give_the_key th pts polys t :
  Forall (degree_at_most t) polys -> (t < length pts)%nat -> distinct secp_n (map fst pts) ->
  Forall (fun p => snd p mod secp_n = dealt polys (fst p) mod secp_n) pts -> th <= Z.of_nat (length pts) ->
  ReConstruct secp_n (map (fun p => Share th (Some (fst p)) (Some (snd p))) pts) = RcKey (group_secret secp_n polys).
Proof. intros. eapply (reconstruct secp_n secp_n_prime); eassumption. Qed.
Print Assumptions C59_shares_give_the_key.

(** Two keygens whose shares agree in that many numbers have the same key. *)
Theorem C59_shares_determine_the_key pts polys1 polys2 t :
  Forall (degree_at_most t) polys1 -> Forall (degree_at_most t) polys2 -> (t < length pts)%nat -> distinct secp_n (map fst pts) ->
  Forall (fun p => snd p mod secp_n = dealt polys1 (fst p) mod secp_n) pts ->
  Forall (fun p => snd p mod secp_n = dealt polys2 (fst p) mod secp_n) pts ->
  group_secret secp_n polys1 = group_secret secp_n polys2.
Proof.
  intros H1 H2 Hl Hd S1 S2. assert (R1 := C59_shares_give_the_key 0 pts polys1 t H1 Hl Hd S1 ltac:(lia)).
  assert (R2 := C59_shares_give_the_key 0 pts polys2 t H2 Hl Hd S2 ltac:(lia)). congruence.
Qed.
Print Assumptions C59_shares_determine_the_key.

(** ** C119. Fewer shares say nothing about the key: with any [t] shares of nonzero
    distinct numbers every key is possible. *)
Theorem C119_fewer_shares_say_nothing pts secret :
  distinct secp_n (map fst pts) -> Forall (fun p => fst p mod secp_n <> 0) pts ->
  exists f, degree_at_most (length pts) f /\ group_secret secp_n [f] = secret mod secp_n /\
    Forall (fun p => snd p mod secp_n = dealt [f] (fst p) mod secp_n) pts.
Proof.
  intros Hd Hn. destruct (interpolate secp_n secp_n_prime (0 :: map fst pts) (secret :: map snd pts)) as (f & Hl & Hf).
  - unfold distinct. cbn [map]. apply NoDup_cons. split; [|exact Hd]. rewrite Zmod_0_l. intros H.
    apply elem_of_list_fmap in H as (x & Hx & Hin). apply elem_of_list_fmap in Hin as (p & -> & Hin).
    rewrite Forall_forall in Hn. apply (Hn p Hin). symmetry. exact Hx.
  - cbn. rewrite !map_length. reflexivity.
  - exists f. split; [unfold degree_at_most; cbn in Hl; rewrite map_length in Hl; exact Hl|]. split.
    + unfold group_secret, dealt. cbn [map fold_right]. rewrite Z.add_0_r. apply eqq_mod; [exact secp_n_prime|]. apply (Hf 0%nat); reflexivity.
    + apply Forall_forall. intros p Hp. apply elem_of_list_lookup in Hp as [i Hi]. unfold dealt. cbn [map fold_right]. rewrite Z.add_0_r.
      symmetry. apply eqq_mod; [exact secp_n_prime|]. apply (Hf (S i)); [change (map fst pts !! i = Some (fst p))|change (map snd pts !! i = Some (snd p))]; rewrite list_lookup_fmap, Hi; reflexivity.
Qed.
Print Assumptions C119_fewer_shares_say_nothing.

Section Tool.
  Context (K : kenv) (parse_int : string -> option Z) (load : string -> option secretfile) (w : wout) (fs : files).
  Local Notation run := (main K parse_int load w fs).
  Local Notation parsed args f names := (Parse parse_int args (Flags 3 "" "") = Some (f, names)).

  (** The file [name] holds the share [p]. *)
  Definition holds (name : string) (p : Z * Z) : Prop :=
    exists s, load name = Some s /\ sf_id s = Some (fst p) /\ sf_xi s = Some (snd p).

  Lemma shares_of names pts : Forall2 holds names pts ->
    map (fun el => Share (Z.of_nat 3 - 1) (sf_id el) (sf_xi el)) (map (fun name => match load name with Some s => s | None => empty_secret end) names) =
    map (fun p => Share 2 (Some (fst p)) (Some (snd p))) pts.
  Proof.
    induction 1 as [|name p names pts (s & Hs & Hi & Hx) _ IH]; [reflexivity|]. cbn [map]. rewrite IH, Hs, Hi, Hx. reflexivity.
  Qed.
  Lemma run_first args f n1 n2 n3 rest pts : parsed args f (n1 :: n2 :: n3 :: rest) -> Forall2 holds [n1; n2; n3] pts ->
    run args = match ReConstruct secp_n (map (fun p => Share 2 (Some (fst p)) (Some (snd p))) pts) with
      | RcKey key =>
            if (negb (String.eqb (fl_export f) "") && Nat.leb 8 (String.length (fl_password f)))%bool then
              TDone key true (fst (WriteFile (fl_export f) (json_enc (match exportKeyStore K (be_bytes 32 (Z.to_N key)) (fl_password f) with Some v => v | None => JNull end)) w fs))
            else TDone key false fs
      | _ => TPanic end.
  Proof.
    intros Hp Hh. unfold main. rewrite Hp. rewrite !map_length. cbn [length Nat.ltb Nat.leb].
    rewrite <- (shares_of _ _ Hh). cbn [map take]. 
    destruct (ReConstruct _ _); reflexivity.
  Qed.

  (** The tool prints the key if the first three files hold shares of a keygen with a
      threshold of at most two. *)
  Theorem C59_tool_prints_the_key args f n1 n2 n3 rest pts polys :
    parsed args f (n1 :: n2 :: n3 :: rest) -> Forall2 holds [n1; n2; n3] pts ->
    Forall (degree_at_most 2) polys -> distinct secp_n (map fst pts) ->
    Forall (fun p => snd p mod secp_n = dealt polys (fst p) mod secp_n) pts ->
    exists wrote fs', run args = TDone (group_secret secp_n polys) wrote fs'.
  Proof.
    intros Hp Hh Hdeg Hd Hs. rewrite (run_first _ _ _ _ _ _ _ Hp Hh). assert (Hl : length pts = 3%nat) by (apply Forall2_length in Hh; symmetry; exact Hh).
    rewrite (C59_shares_give_the_key 2 pts polys 2 Hdeg) by (assumption || lia). destruct (_ && _)%bool; eauto.
  Qed.

  (** ** C118. What the tool uses: the first three files, whatever -n says. *)
  Theorem C118_only_the_first_three_files args1 args2 f1 f2 names1 names2 :
    parsed args1 f1 names1 -> parsed args2 f2 names2 ->
    fl_export f1 = fl_export f2 -> fl_password f1 = fl_password f2 -> take 3 names1 = take 3 names2 ->
    run args1 = run args2.
  Proof.
    intros H1 H2 He Hp Ht. unfold main. rewrite H1, H2, He, Hp, !map_length, !firstn_map, Ht.
    assert (Hl : Nat.ltb (length names1) 3 = Nat.ltb (length names2) 3).
    { assert (H : length (take 3 names1) = length (take 3 names2)) by (rewrite Ht; reflexivity). rewrite !take_length in H.
      destruct (Nat.ltb_spec (length names1) 3), (Nat.ltb_spec (length names2) 3); (reflexivity || lia). }
    rewrite Hl. reflexivity.
  Qed.

  Lemma inv_same a b : a mod secp_n = b mod secp_n -> ModInverse ((a - b) mod secp_n) secp_n = None.
  Proof.
    intros H. apply inverse_none; [exact secp_n_prime|]. apply eqq_mod; [exact secp_n_prime|].
    rewrite Zminus_mod, H, Z.sub_diag. reflexivity.
  Qed.

  Definition entry (name : string) : secretfile := match load name with Some s => s | None => empty_secret end.
  Lemma entry_missing name : (forall p, ~ holds name p) -> sf_id (entry name) = None \/ sf_xi (entry name) = None.
  Proof.
    unfold entry, holds. destruct (load name) as [[pub [id|] [xi|]]|]; cbn [sf_id sf_xi empty_secret]; auto.
    intros H. exfalso. apply (H (id, xi)). exists (SecretFile pub (Some id) (Some xi)). auto.
  Qed.
  Lemma missing_panics s1 s2 s3 : (exists s, s ∈ [s1; s2; s3] /\ (sf_id s = None \/ sf_xi s = None)) ->
    ReConstruct secp_n (map (fun el => Share (Z.of_nat 3 - 1) (sf_id el) (sf_xi el)) [s1; s2; s3]) = RcPanic.
  Proof.
    intros (s & Hin & Hs). unfold ReConstruct. cbn [map length sh_threshold]. change (Z.ltb (Z.of_nat 3) (Z.of_nat 3 - 1)) with false. cbn iota.
    cbn [map sh_id]. cbn [secret_loop sh_id sh_val].
    rewrite !elem_of_cons, elem_of_nil in Hin.
    destruct s1 as [? i1 x1], s2 as [? i2 x2], s3 as [? i3 x3]; cbn [sf_id sf_xi].
    assert (Hc : (i1 = None \/ i2 = None \/ i3 = None) \/ (x1 = None \/ x2 = None \/ x3 = None)).
    { destruct Hin as [->|[->|[->|[]]]]; cbn [sf_id sf_xi] in Hs; tauto. }
    destruct Hc as [Hc|Hc].
    - assert (Ht : times_loop secp_n 0 0 [i1; i2; i3] i1 1 = None).
      { cbn [times_loop Nat.eqb]. destruct i2 as [a2|], i1 as [a1|]; try reflexivity.
        destruct (ModInverse ((a2 - a1) mod secp_n) secp_n); [|reflexivity]. destruct i3; [|reflexivity]. destruct Hc as [|[|]]; discriminate. }
      rewrite Ht. reflexivity.
    - destruct (times_loop secp_n 0 0 [i1; i2; i3] i1 1); [|reflexivity]. destruct x1; [|reflexivity].
      destruct (times_loop secp_n 1 0 [i1; i2; i3] i2 1); [|reflexivity]. destruct x2; [|reflexivity].
      destruct (times_loop secp_n 2 0 [i1; i2; i3] i3 1); [|reflexivity]. destruct x3; [|reflexivity]. destruct Hc as [|[|]]; discriminate.
  Qed.
  Lemma run_missing args f n1 n2 n3 rest name : parsed args f (n1 :: n2 :: n3 :: rest) -> name ∈ [n1; n2; n3] -> (forall p, ~ holds name p) ->
    run args = TPanic.
  Proof.
    intros Hp Hin Hno. unfold main. rewrite Hp. rewrite !map_length. cbn [length Nat.ltb Nat.leb]. cbn [map firstn].
    match goal with |- context [ReConstruct secp_n ?l] =>
      change l with (map (fun el => Share (Z.of_nat 3 - 1) (sf_id el) (sf_xi el)) [entry n1; entry n2; entry n3]) end.
    rewrite missing_panics; [reflexivity|].
    exists (entry name). split; [|apply entry_missing, Hno]. rewrite !elem_of_cons, elem_of_nil in Hin.
    destruct Hin as [->|[->|[->|[]]]]; [|apply elem_of_list_further|do 2 apply elem_of_list_further]; apply elem_of_list_here.
  Qed.

  (** It crashes exactly when there are fewer than three files, or one of the first
      three holds no share, or two of them hold shares of one number. *)
  Theorem C118_when_it_crashes args f names :
    parsed args f names ->
    (run args = TPanic <->
     ((length names < 3)%nat \/ (exists name, name ∈ take 3 names /\ forall p, ~ holds name p) \/
      exists i j n m p r, (i < j < 3)%nat /\ names !! i = Some n /\ names !! j = Some m /\ holds n p /\ holds m r /\
        fst p mod secp_n = fst r mod secp_n)).
  Proof.
    intros Hp. destruct names as [|n1 [|n2 [|n3 rest]]].
    1-3: split; [intros _; left; cbn; lia|]; intros _; unfold main; rewrite Hp; reflexivity.
    assert (Hdec : forall n, (exists p, holds n p) \/ (forall p, ~ holds n p)).
    { intros n. unfold holds. destruct (load n) as [[pub [id|] [xi|]]|]; cbn [sf_id sf_xi].
      - left. exists (id, xi), (SecretFile pub (Some id) (Some xi)). auto.
      - right. intros p (s & [= <-] & _ & H). discriminate.
      - right. intros p (s & [= <-] & H & _). discriminate.
      - right. intros p (s & [= <-] & H & _). discriminate.
      - right. intros p (s & H & _). discriminate. }
    destruct (Hdec n1) as [(p1 & H1)|H1]; [destruct (Hdec n2) as [(p2 & H2)|H2]; [destruct (Hdec n3) as [(p3 & H3)|H3]|]|].
    - rewrite (run_first _ _ _ _ _ _ [p1; p2; p3] Hp) by (repeat (constructor; [assumption|]); constructor).
      assert (Hfun : forall n p r, holds n p -> holds n r -> p = r).
      { intros n [a b] [c d] (s & Hs & Ha & Hb) (s' & Hs' & Hc & Hdd). cbn [fst snd] in *. assert (s = s') by congruence. subst s'. congruence. }
      split.
      + destruct (decide (distinct secp_n [fst p1; fst p2; fst p3])) as [Hd|Hd].
        * destruct (interpolate secp_n secp_n_prime [fst p1; fst p2; fst p3] [snd p1; snd p2; snd p3] Hd eq_refl) as (g & Hg & He).
          rewrite (C59_shares_give_the_key 2 [p1; p2; p3] [g] 2).
          -- destruct (_ && _)%bool; discriminate.
          -- constructor; [exact Hg|constructor].
          -- cbn. lia.
          -- exact Hd.
          -- assert (Hx : forall i p, [p1; p2; p3] !! i = Some p -> snd p mod secp_n = dealt [g] (fst p) mod secp_n).
             { intros i p Hi. unfold dealt. cbn [map fold_right]. rewrite Z.add_0_r. symmetry. apply eqq_mod; [exact secp_n_prime|].
               apply (He i); destruct i as [|[|[|i]]]; (discriminate Hi || (apply Some_inj in Hi; subst p; reflexivity)). }
             apply Forall_forall. intros p Hin. apply elem_of_list_lookup in Hin as [i Hi]. exact (Hx i p Hi).
          -- cbn. lia.
        * intros _. right. right. unfold distinct in Hd. cbn [map] in Hd.
          destruct (decide (fst p1 mod secp_n = fst p2 mod secp_n)) as [E|N12].
          { exists 0%nat, 1%nat, n1, n2, p1, p2. repeat split; (lia || assumption || reflexivity). }
          destruct (decide (fst p1 mod secp_n = fst p3 mod secp_n)) as [E|N13].
          { exists 0%nat, 2%nat, n1, n3, p1, p3. repeat split; (lia || assumption || reflexivity). }
          destruct (decide (fst p2 mod secp_n = fst p3 mod secp_n)) as [E|N23].
          { exists 1%nat, 2%nat, n2, n3, p2, p3. repeat split; (lia || assumption || reflexivity). }
          exfalso. apply Hd. rewrite !NoDup_cons, !elem_of_cons, !elem_of_nil. repeat split; [tauto..|constructor].
      + intros [Hl|[(name & Hin & Hno)|(i & j & n & m & p & r & Hij & Hi & Hj & Hpn & Hrm & He)]].
        * cbn in Hl. lia.
        * exfalso. cbn in Hin. rewrite !elem_of_cons, elem_of_nil in Hin. destruct Hin as [->|[->|[->|[]]]]; [eapply Hno, H1|eapply Hno, H2|eapply Hno, H3].
        * assert (Hcases : (fst p1 mod secp_n = fst p2 mod secp_n) \/ (fst p1 mod secp_n = fst p3 mod secp_n) \/ (fst p2 mod secp_n = fst p3 mod secp_n)).
          { assert (Hc : (i = 0 /\ j = 1)%nat \/ (i = 0 /\ j = 2)%nat \/ (i = 1 /\ j = 2)%nat) by (clear - Hij; lia).
            destruct Hc as [[-> ->]|[[-> ->]|[-> ->]]]; apply Some_inj in Hi, Hj; subst n m.
            - rewrite (Hfun _ _ _ Hpn H1), (Hfun _ _ _ Hrm H2) in He. left. exact He.
            - rewrite (Hfun _ _ _ Hpn H1), (Hfun _ _ _ Hrm H3) in He. right. left. exact He.
            - rewrite (Hfun _ _ _ Hpn H2), (Hfun _ _ _ Hrm H3) in He. right. right. exact He. }
          assert (Hrc : ReConstruct secp_n (map (fun p => Share 2 (Some (fst p)) (Some (snd p))) [p1; p2; p3]) = RcPanic); [|rewrite Hrc; reflexivity].
          unfold ReConstruct. cbn [map length sh_threshold]. change (Z.ltb (Z.of_nat 3) 2) with false. cbn iota.
          assert (Hsl : secret_loop secp_n (map sh_id (map (fun p => Share 2 (Some (fst p)) (Some (snd p))) [p1; p2; p3])) 0
            (map (fun p => Share 2 (Some (fst p)) (Some (snd p))) [p1; p2; p3]) 0 = None); [|cbn [map sh_id] in Hsl; cbn [map sh_id]; rewrite Hsl; reflexivity].
          cbn [map sh_id]. cbn [secret_loop sh_id sh_val].
          destruct Hcases as [E|[E|E]].
          { cbn [times_loop Nat.eqb]. rewrite (inv_same (fst p2) (fst p1)) by (symmetry; exact E). reflexivity. }
          { cbn [times_loop Nat.eqb]. destruct (ModInverse ((fst p2 - fst p1) mod secp_n) secp_n); [|reflexivity].
            rewrite (inv_same (fst p3) (fst p1)) by (symmetry; exact E). reflexivity. }
          { destruct (times_loop secp_n 0 0 [Some (fst p1); Some (fst p2); Some (fst p3)] (Some (fst p1)) 1); [|reflexivity].
            cbn [times_loop Nat.eqb]. destruct (ModInverse ((fst p1 - fst p2) mod secp_n) secp_n); [|reflexivity].
            rewrite (inv_same (fst p3) (fst p2)) by (symmetry; exact E). reflexivity. }
    - split; [intros _; right; left; exists n3; split; [cbn; do 2 apply elem_of_list_further; apply elem_of_list_here|exact H3]|].
      intros _. apply (run_missing _ _ _ _ _ _ n3 Hp); [cbn; do 2 apply elem_of_list_further; apply elem_of_list_here|exact H3].
    - split; [intros _; right; left; exists n2; split; [cbn; apply elem_of_list_further, elem_of_list_here|exact H2]|].
      intros _. apply (run_missing _ _ _ _ _ _ n2 Hp); [apply elem_of_list_further, elem_of_list_here|exact H2].
    - split; [intros _; right; left; exists n1; split; [apply elem_of_list_here|exact H1]|].
      intros _. apply (run_missing _ _ _ _ _ _ n1 Hp); [apply elem_of_list_here|exact H1].
  Qed.
End Tool.
Print Assumptions C59_tool_prints_the_key.
Print Assumptions C118_only_the_first_three_files.
Print Assumptions C118_when_it_crashes.

(** *** A keygen of three parties, with the files of all of them *)
Definition ex_polys : list (list Z) := [[11; 2; 3]; [22; 5; secp_n - 1]; [33; 0; 7]].
Definition ex_load (name : string) : option secretfile :=
  if String.eqb name "a" then Some (SecretFile "g" (Some 1) (Some (dealt ex_polys 1 mod secp_n)))
  else if String.eqb name "b" then Some (SecretFile "g" (Some 2) (Some (dealt ex_polys 2 mod secp_n)))
  else if String.eqb name "c" then Some (SecretFile "g" (Some 3) (Some (dealt ex_polys 3 mod secp_n)))
  else None.
Definition ex_kenv : kenv := KEnv (fun _ _ _ n => replicate n "k"%char) (fun _ b => b) (fun b => b)
  (Some (replicate 32 "s"%char)) (Some (replicate 16 "i"%char)) (Some "id"%string).
Definition ex_pts : list (Z * Z) := map (fun x => (x, dealt ex_polys x mod secp_n)) [1; 2; 3].

Example C59_ex :
  Parse (fun _ => None) ["a"; "b"; "c"] (Flags 3 "" "") = Some (Flags 3 "" "", ["a"; "b"; "c"]) /\
  Forall2 (holds ex_load) ["a"; "b"; "c"] ex_pts /\ Forall (degree_at_most 2) ex_polys /\
  distinct secp_n (map fst ex_pts) /\ Forall (fun p => snd p mod secp_n = dealt ex_polys (fst p) mod secp_n) ex_pts /\
  main ex_kenv (fun _ => None) ex_load WDone ∅ ["a"; "b"; "c"] = TDone 66 false ∅.
Proof.
  split; [reflexivity|]. split; [repeat constructor; eexists; repeat split; reflexivity|].
  split; [repeat constructor; unfold degree_at_most; cbn; lia|].
  split; [unfold distinct; rewrite !map_map; apply (bool_decide_unpack _); vm_compute; exact I|].
  split; [repeat constructor; vm_compute; reflexivity|]. vm_compute. reflexivity.
Qed.
(** Two shares of that keygen fit every key. *)
Example C119_ex : distinct secp_n (map fst (take 2 ex_pts)) /\ Forall (fun p => fst p mod secp_n <> 0) (take 2 ex_pts).
Proof.
  split; [unfold distinct; apply (bool_decide_unpack _); vm_compute; exact I|].
  repeat constructor; vm_compute; discriminate.
Qed.
(** The third file is missing; two files are the same. *)
Example C118_ex :
  main ex_kenv (fun _ => None) ex_load WDone ∅ ["a"; "b"; "x"] = TPanic /\
  main ex_kenv (fun _ => None) ex_load WDone ∅ ["a"; "b"; "a"] = TPanic /\
  main ex_kenv (fun _ => None) ex_load WDone ∅ ["a"; "b"] = TPanic /\
  main ex_kenv (fun _ => Some 5) ex_load WDone ∅ ["-n"; "5"; "a"; "b"; "c"; "x"] = TDone 66 false ∅.
Proof. vm_compute. auto. Qed.

(** ** C60. -n gives the number of shares. *)

(** Given that many files of one keygen and a threshold below that number, the tool prints the key. *)
Definition honours_n (n : Z) : Prop :=
  forall K parse_int load w fs args f names pts polys t,
    Parse parse_int args (Flags 3 "" "") = Some (f, names) -> fl_n f = n ->
    Forall2 (holds load) names pts -> Z.of_nat (length names) = n -> n = Z.of_nat (S t) ->
    Forall (degree_at_most t) polys -> distinct secp_n (map fst pts) ->
    Forall (fun p => snd p mod secp_n = dealt polys (fst p) mod secp_n) pts ->
    exists wrote fs', main K parse_int load w fs args = TDone (group_secret secp_n polys) wrote fs'.

(** Files named a, aa, aaa, ... with the shares of the polynomial [g]. *)
Fixpoint a_name (k : nat) : string := match k with O => "" | S k => String "a" (a_name k) end.
Lemma a_name_length k : String.length (a_name k) = k.
Proof. induction k; cbn; congruence. Qed.
Definition g_share (g : list Z) (k : nat) : Z * Z := (Z.of_nat k, dealt [g] (Z.of_nat k)).
Definition g_load (g : list Z) (name : string) : option secretfile :=
  Some (SecretFile "" (Some (fst (g_share g (String.length name)))) (Some (snd (g_share g (String.length name))))).
Lemma g_holds g ks : Forall2 (holds (g_load g)) (map a_name ks) (map (g_share g) ks).
Proof.
  induction ks as [|k ks IH]; [constructor|]. cbn [map]. constructor; [|exact IH].
  eexists. split; [reflexivity|]. rewrite a_name_length. split; reflexivity.
Qed.
Lemma a_parse n k : (0 < k)%nat ->
  Parse (fun _ => Some n) ("-n" :: "v" :: map a_name (seq 1 k))%string (Flags 3 "" "") = Some (Flags n "" "", map a_name (seq 1 k)).
Proof. intros Hk. destruct k as [|k]; [lia|]. reflexivity. Qed.
Lemma g_distinct g k : Z.of_nat k < secp_n -> distinct secp_n (map fst (map (g_share g) (seq 1 k))).
Proof.
  intros Hk. unfold distinct. rewrite !map_map.
  rewrite (map_ext_in _ Z.of_nat).
  - apply NoDup_fmap_2; [exact Nat2Z.inj|]. apply NoDup_ListNoDup, seq_NoDup.
  - intros x Hx. apply in_seq in Hx. cbn [g_share fst]. apply Z.mod_small. lia.
Qed.
Lemma honours_run g t : degree_at_most t g -> honours_n (Z.of_nat (S t)) -> Z.of_nat (S t) < secp_n ->
  exists wrote fs', main ex_kenv (fun _ => Some (Z.of_nat (S t))) (g_load g) WDone ∅ ("-n" :: "v" :: map a_name (seq 1 (S t)))%string =
    TDone (group_secret secp_n [g]) wrote fs'.
Proof.
  intros Hg Hh Hlt. refine (Hh _ _ _ _ _ _ _ _ (map (g_share g) (seq 1 (S t))) [g] t (a_parse _ (S t) (Nat.lt_0_succ t)) eq_refl (g_holds g _) _ eq_refl _ _ _).
  - rewrite map_length, seq_length. reflexivity.
  - constructor; [exact Hg|constructor].
  - apply g_distinct, Hlt.
  - apply Forall_forall. intros p Hp. apply elem_of_list_fmap in Hp as (k & -> & _). reflexivity.
Qed.

(** It does only for three. *)
Theorem C60_only_three n : 1 <= n < 2 ^ 63 -> (honours_n n <-> n = 3).
Proof.
  intros Hn. split.
  - intros Hh. assert (Hlt : n < secp_n) by (unfold secp_n; lia).
    destruct (Z.to_nat n) as [|t] eqn:E; [lia|]. assert (n = Z.of_nat (S t)) by lia. subst n. clear E.
    destruct t as [|[|[|t]]].
    + destruct (honours_run [5] 0 ltac:(unfold degree_at_most; cbn; lia) Hh Hlt) as (wr & fs' & H). discriminate H.
    + destruct (honours_run [5] 1 ltac:(unfold degree_at_most; cbn; lia) Hh Hlt) as (wr & fs' & H). discriminate H.
    + reflexivity.
    + exfalso. destruct (honours_run [1; 0; 0; 1] (S (S (S t))) ltac:(unfold degree_at_most; cbn; lia) Hh Hlt) as (wr & fs' & H).
      rewrite (run_first _ _ _ _ _ _ _ _ _ _ _ (map (g_share [1; 0; 0; 1]) [1; 2; 3]%nat) (a_parse _ (S (S (S (S t)))) (Nat.lt_0_succ _))) in H by (apply (g_holds _ [1; 2; 3]%nat)).
      vm_compute in H. discriminate H.
  - intros -> K parse_int load w fs args f names pts polys t Hp _ Hh Hl Ht Hdeg Hd Hs.
    assert (t = 2%nat) by lia. subst t. destruct names as [|n1 [|n2 [|n3 [|n4 names]]]]; cbn in Hl; try lia.
    exact (C59_tool_prints_the_key _ _ _ _ _ _ _ _ _ _ _ _ _ Hp Hh Hdeg Hd Hs).
Qed.
Print Assumptions C60_only_three.
Theorem C60_honours_n_refuted : ~ forall n, 1 <= n < 2 ^ 63 -> honours_n n.
Proof. intros H. assert (E := proj1 (C60_only_three 4 ltac:(lia)) (H 4 ltac:(lia))). discriminate E. Qed.
Print Assumptions C60_honours_n_refuted.

(** ** C61. The exported file opens with the password and holds the key. *)
Lemma secret_loop_range q xs i shares secret z : 0 < q -> 0 <= secret < q -> secret_loop q xs i shares secret = Some z -> 0 <= z < q.
Proof.
  intros Hq. revert i secret. induction shares as [|s shares IH]; intros i secret Hs; cbn [secret_loop].
  - intros H. apply Some_inj in H. subst z. exact Hs.
  - destruct (times_loop _ _ _ _ _ _); [|discriminate]. destruct (sh_val s); [|discriminate]. apply IH. apply Z.mod_pos_bound, Hq.
Qed.
Lemma secp_pos : 0 < secp_n. Proof. reflexivity. Qed.
Lemma secp_bits : secp_n < 2 ^ 256. Proof. reflexivity. Qed.
Global Opaque secp_n.
Lemma reconstruct_range shares z : ReConstruct secp_n shares = RcKey z -> 0 <= z < secp_n.
Proof.
  unfold ReConstruct. destruct shares as [|s shares]; [discriminate|]. destruct (Z.ltb _ _); [discriminate|].
  destruct (secret_loop _ _ _ _ _) as [y|] eqn:E; [|discriminate]. intros H. assert (y = z) by congruence. subst y.
  eapply (secret_loop_range secp_n); [exact secp_pos| |exact E]. split; [lia|exact secp_pos].
Qed.

Section Export.
  Context (K : kenv) (parse_int : string -> option Z) (load : string -> option secretfile).
  Local Notation parsed args f names := (Parse parse_int args (Flags 3 "" "") = Some (f, names)).

  Lemma run_done w fs args f names key wrote fs' : parsed args f names -> main K parse_int load w fs args = TDone key wrote fs' ->
    0 <= key < secp_n /\
    wrote = (negb (String.eqb (fl_export f) "") && Nat.leb 8 (String.length (fl_password f)))%bool /\
    fs' = if wrote then fst (WriteFile (fl_export f) (json_enc (match exportKeyStore K (be_bytes 32 (Z.to_N key)) (fl_password f) with Some v => v | None => JNull end)) w fs) else fs.
  Proof.
    intros Hp. unfold main. rewrite Hp. destruct (Nat.ltb _ _); [discriminate|].
    destruct (ReConstruct _ _) as [| |z] eqn:E; [discriminate..|]. apply reconstruct_range in E.
    destruct (_ && _)%bool eqn:B; intros H.
    - assert (z = key) by congruence. assert (wrote = true) by congruence. subst z wrote. split; [exact E|]. split; [reflexivity|]. congruence.
    - assert (z = key) by congruence. assert (wrote = false) by congruence. subst z wrote. split; [exact E|]. split; [reflexivity|]. congruence.
  Qed.

  (** Something is announced and written only with a path and a password of eight bytes. *)
  Theorem C61_written_iff w fs args f names key wrote fs' : parsed args f names -> main K parse_int load w fs args = TDone key wrote fs' ->
    (wrote = true <-> fl_export f <> ""%string /\ (8 <= String.length (fl_password f))%nat) /\
    (wrote = false -> fs' = fs) /\ forall p, p <> fl_export f -> fs' !! p = fs !! p.
  Proof.
    intros Hp H. destruct (run_done _ _ _ _ _ _ _ _ Hp H) as (_ & Hw & Hf). split; [|split].
    - rewrite Hw, Bool.andb_true_iff, Bool.negb_true_iff, String.eqb_neq, Nat.leb_le. reflexivity.
    - intros E. rewrite E in Hf. exact Hf.
    - intros p Hne. rewrite Hf. destruct wrote; [|reflexivity]. destruct w; cbn [WriteFile fst]; [reflexivity|apply (lookup_insert_ne (M:=gmap string)); congruence..].
  Qed.

  Lemma hex_text b : text (hex_encode b).
  Proof.
    unfold text, hex_encode. rewrite to_of_bytes. apply ascii_text. induction b as [|c b IH]; [constructor|]. cbn [map concat app].
    assert (Hh : forall n, (n < 16 -> byte_val (hex_digit n) < 128)%N).
    { intros n Hn. unfold hex_digit. destruct (N.ltb_spec n 10); rewrite byte_val_of; lia. }
    pose proof (byte_val_lt c). constructor; [apply Hh, N.div_lt_upper_bound; lia|]. constructor; [apply Hh, N.mod_lt; lia|exact IH].
  Qed.
  Lemma keystore_texts k pw : (forall id, ke_uuid K = Some id -> text id) -> json_texts (match exportKeyStore K k pw with Some v => v | None => JNull end).
  Proof.
    intros Hid. unfold exportKeyStore. destruct (ke_salt K) as [salt|]; [|constructor]. destruct (ke_iv K) as [iv|]; [|constructor].
    cbn zeta. destruct (aesCTRXOR _ _ _ _) as [x|]; [|constructor]. destruct (ke_uuid K) as [i|]; [|constructor].
    pose proof (Hid i eq_refl) as Hi. repeat (constructor || apply hex_text || exact Hi || (split; [apply ascii_string; reflexivity|]) || (apply ascii_string; reflexivity)).
  Qed.
  Lemma keystore_nesting k pw : (nesting (match exportKeyStore K k pw with Some v => v | None => JNull end) <= max_nesting)%N.
  Proof.
    unfold exportKeyStore. destruct (ke_salt K) as [salt|]; [|cbn; lia]. destruct (ke_iv K) as [iv|]; [|cbn; lia].
    cbn zeta. destruct (aesCTRXOR _ _ _ _) as [x|]; [|cbn; lia]. destruct (ke_uuid K) as [i|]; [|cbn; lia].
    unfold max_nesting. cbn [nesting map fold_right snd]. lia.
  Qed.
  Theorem C61_exported_file_opens fs args f names key fs' salt iv id :
    parsed args f names -> main K parse_int load WDone fs args = TDone key true fs' ->
    ke_salt K = Some salt -> ke_iv K = Some iv -> length iv = 16%nat -> ke_uuid K = Some id -> text id ->
    (forall p s c n, length (ke_pbkdf2 K p s c n) = n) -> (forall k b, length b = 16%nat -> length (ke_aes K k b) = 16%nat) ->
    exists file v plain, fs' !! fl_export f = Some file /\ (forall v', document v' file <-> v' = v) /\
      length plain = 32%nat /\ Z.of_N (be_val plain) = key /\
      forall p, opens (ke_pbkdf2 K) (ke_aes K) (ke_keccak K) v (fl_password f) p <-> p = plain.
  Proof.
    intros Hp H Hsalt Hiv Hlen Hid Hidt Hpb Haes. destruct (run_done _ _ _ _ _ _ _ _ Hp H) as (Hkey & _ & ->).
    cbn [WriteFile fst]. eexists _, _, (be_bytes 32 (Z.to_N key)). split; [apply (lookup_insert (M:=gmap string))|]. split.
    { intros v'. rewrite <- json_dec_iff, json_dec_enc; [split; [intros E; apply Some_inj in E; symmetry; exact E|intros ->; reflexivity]|apply keystore_texts; intros x Hx; congruence|apply keystore_nesting]. }
    split; [apply be_bytes_length|]. split.
    { rewrite be_bytes_val, N.mod_small; [apply Z2N.id; lia|]. pose proof secp_bits. change (256 ^ N.of_nat 32)%N with (Z.to_N (2 ^ 256)). lia. }
    set (dk := ke_pbkdf2 K (to_bytes (fl_password f)) salt 262144%N 32%nat).
    assert (Hdk : length dk = 32%nat) by apply Hpb.
    assert (Htk : take 32 dk = dk) by (apply take_ge; lia).
    destruct (aesCTRXOR K dk (be_bytes 32 (Z.to_N key)) iv) as [text|] eqn:Ha.
    2: { unfold aesCTRXOR in Ha. rewrite Hdk, Hlen in Ha. discriminate Ha. }
    assert (Hdec := aes_decrypts K dk (Haes dk) _ _ _ Hlen Ha).
    unfold exportKeyStore. rewrite Hsalt, Hiv, Hid. fold dk. rewrite Htk, Ha. cbn iota. intros p. split.
    - intros (crypto & params & kdf & salt' & iv' & text' & mac' & saltS & ivS & textS & macS & _ & Hc & _ & _ & Hpar & Hi & Hih & Hkdf & _ & _ & _ & Hs & Hsh & Ht & Hth & _ & _ & _ & Hd).
      match type of Hc with member _ ?v _ =>
        match v with context [JObj (("cipher"%string, ?c) :: ?r)] =>
          assert (X : member "crypto" v (JObj (("cipher"%string, c) :: r))) by mem 0%nat end end.
      rewrite <- (member_fun _ _ _ _ X Hc) in *. clear X Hc.
      match type of Hpar with member _ ?v _ => assert (X : member "cipherparams" v (JObj [("iv"%string, JStr (hex_encode iv))])) by mem 2%nat end.
      rewrite <- (member_fun _ _ _ _ X Hpar) in *. clear X Hpar.
      match type of Hi with member _ ?v _ => assert (X : member "iv" v (JStr (hex_encode iv))) by mem 0%nat end.
      assert (Y := member_fun _ _ _ _ X Hi). injection Y as <-. clear X Hi.
      assert (iv' = iv) by (eapply spells_fun; [exact Hih|apply hex_encode_spells]). subst iv'.
      match type of Hkdf with member _ ?v _ =>
        match v with context [JObj (("c"%string, ?c) :: ?r)] =>
          assert (X : member "kdfparams" v (JObj (("c"%string, c) :: r))) by mem 4%nat end end.
      rewrite <- (member_fun _ _ _ _ X Hkdf) in *. clear X Hkdf.
      match type of Hs with member _ ?v _ => assert (X : member "salt" v (JStr (hex_encode salt))) by mem 3%nat end.
      assert (Y := member_fun _ _ _ _ X Hs). injection Y as <-. clear X Hs.
      assert (salt' = salt) by (eapply spells_fun; [exact Hsh|apply hex_encode_spells]). subst salt'.
      match type of Ht with member _ ?v _ => assert (X : member "ciphertext" v (JStr (hex_encode text))) by mem 1%nat end.
      assert (Y := member_fun _ _ _ _ X Ht). injection Y as <-. clear X Ht.
      assert (text' = text) by (eapply spells_fun; [exact Hth|apply hex_encode_spells]). subst text'.
      exact (decrypts_fun _ _ _ _ _ _ Hd Hdec).
    - intros ->. do 3 eexists. exists salt, iv, text, (ke_keccak K (drop 16 dk ++ text)), (hex_encode salt), (hex_encode iv), (hex_encode text), (hex_encode (ke_keccak K (drop 16 dk ++ text))).
      split; [mem 2%nat|]. split; [mem 0%nat|]. split; [mem 0%nat|]. split; [mem 3%nat|]. split; [mem 2%nat|]. split; [mem 0%nat|]. split; [apply hex_encode_spells|].
      split; [mem 4%nat|]. split; [mem 2%nat|]. split; [mem 0%nat|]. split; [mem 1%nat|]. split; [mem 3%nat|]. split; [apply hex_encode_spells|].
      split; [mem 1%nat|]. split; [apply hex_encode_spells|]. split; [mem 5%nat|]. split; [apply hex_encode_spells|]. split; [reflexivity|exact Hdec].
  Qed.
End Export.
Print Assumptions C61_written_iff.
Print Assumptions C61_exported_file_opens.
Transparent secp_n.

Definition ex_args : list string := ["-export"; "out"; "--password=12345678"; "a"; "b"; "c"].
Example C61_ex :
  (exists fs', main ex_kenv (fun _ => None) ex_load WDone ∅ ex_args = TDone 66 true fs') /\
  Parse (fun _ => None) ex_args (Flags 3 "" "") = Some (Flags 3 "out" "12345678", ["a"; "b"; "c"]) /\
  (exists salt iv id, ke_salt ex_kenv = Some salt /\ ke_iv ex_kenv = Some iv /\ length iv = 16%nat /\ ke_uuid ex_kenv = Some id /\ text id) /\
  (forall p s c n, length (ke_pbkdf2 ex_kenv p s c n) = n) /\ (forall k b, length b = 16%nat -> length (ke_aes ex_kenv k b) = 16%nat) /\
  exists fs', main ex_kenv (fun _ => None) ex_load WDone ∅ ["-export"; "out"; "-password"; "1234567"; "a"; "b"; "c"] = TDone 66 false fs'.
Proof.
  split; [eexists; vm_compute; reflexivity|]. split; [reflexivity|]. split; [eexists _, _, _; repeat (split; [reflexivity|]); apply ascii_string; reflexivity|].
  split; [intros; apply replicate_length|]. split; [intros; assumption|]. eexists. vm_compute. reflexivity.
Qed.

(** ** C120. The key printed is the one of the group key in the files. *)

(** Every file comes from a keygen: its group key is the public key of that keygen's
    private key and its share is one of that keygen's. *)
Definition from_keygen (pub : Z -> string) (s : secretfile) : Prop :=
  exists polys x v, Forall (degree_at_most 2) polys /\ sf_pub s = pub (group_secret secp_n polys) /\
    sf_id s = Some x /\ sf_xi s = Some v /\ v mod secp_n = dealt polys x mod secp_n.
Definition mixed_load (pub : Z -> string) (name : string) : option secretfile :=
  if String.eqb name "a" then Some (SecretFile (pub 1) (Some 1) (Some 2))
  else if String.eqb name "b" then Some (SecretFile (pub 1) (Some 2) (Some 5))
  else if String.eqb name "c" then Some (SecretFile (pub 7) (Some 3) (Some 7))
  else None.
Theorem C120_key_of_the_group_refuted pub :
  (forall a b, 0 <= a < secp_n -> 0 <= b < secp_n -> pub a = pub b -> a = b) ->
  ~ forall K parse_int load w fs args key wrote fs',
    (forall name s, load name = Some s -> from_keygen pub s) ->
    main K parse_int load w fs args = TDone key wrote fs' ->
    exists name s, name ∈ args /\ load name = Some s /\ sf_pub s = pub key.
Proof.
  intros Hinj H. destruct (H ex_kenv (fun _ => None) (mixed_load pub) WDone ∅ ["a"; "b"; "c"]%string (secp_n - 2) false ∅) as (name & s & _ & Hs & Hp).
  - intros name s. unfold mixed_load. destruct (String.eqb name "a"); [|destruct (String.eqb name "b"); [|destruct (String.eqb name "c"); [|discriminate]]]; intros Hs; apply Some_inj in Hs; subst s.
    + exists [[1; 0; 1]], 1, 2. split; [repeat constructor; unfold degree_at_most; cbn; lia|]. repeat split.
    + exists [[1; 0; 1]], 2, 5. split; [repeat constructor; unfold degree_at_most; cbn; lia|]. repeat split.
    + exists [[7]], 3, 7. split; [repeat constructor; unfold degree_at_most; cbn; lia|]. repeat split.
  - vm_compute. reflexivity.
  - unfold mixed_load in Hs. assert (Hc : pub 1 = pub (secp_n - 2) \/ pub 7 = pub (secp_n - 2)).
    { destruct (String.eqb name "a"); [|destruct (String.eqb name "b"); [|destruct (String.eqb name "c"); [|discriminate]]]; apply Some_inj in Hs; subst s; cbn [sf_pub] in Hp; auto. }
    destruct Hc as [Hc|Hc]; apply Hinj in Hc; try (split; reflexivity || discriminate); discriminate Hc.
Qed.
Print Assumptions C120_key_of_the_group_refuted.
Definition pub_ex (z : Z) : string := a_name (Z.to_nat z).
Example C120_ex : forall a b, 0 <= a < secp_n -> 0 <= b < secp_n -> pub_ex a = pub_ex b -> a = b.
Proof.
  intros a b Ha Hb H. unfold pub_ex in H. apply (f_equal String.length) in H. rewrite !a_name_length in H.
  apply Z2Nat.inj; [apply Ha|apply Hb|exact H].
Qed.

(** ** C121. "wrote to" is printed only when the file is there. *)
Theorem C121_announced_is_written_refuted :
  ~ forall K parse_int load w fs args f names key fs',
    Parse parse_int args (Flags 3 "" "") = Some (f, names) -> main K parse_int load w fs args = TDone key true fs' ->
    exists text, fs' !! fl_export f = Some text.
Proof.
  intros H. destruct (H ex_kenv (fun _ => None) ex_load WOpenFail ∅ ex_args (Flags 3 "out" "12345678") ["a"; "b"; "c"]%string 66 ∅) as [text Ht].
  - reflexivity.
  - vm_compute. reflexivity.
  - discriminate Ht.
Qed.
Print Assumptions C121_announced_is_written_refuted.

(** ** C122. A file written in full is a key file that opens. *)
Definition no_id : kenv := KEnv (fun _ _ _ n => replicate n "k"%char) (fun _ b => b) (fun b => b)
  (Some (replicate 32 "s"%char)) (Some (replicate 16 "i"%char)) None.
Theorem C122_written_file_opens_refuted :
  ~ forall K parse_int load fs args f names key fs',
    (forall p s c n, length (ke_pbkdf2 K p s c n) = n) -> (forall k b, length b = 16%nat -> length (ke_aes K k b) = 16%nat) ->
    Parse parse_int args (Flags 3 "" "") = Some (f, names) -> main K parse_int load WDone fs args = TDone key true fs' ->
    exists file v plain, fs' !! fl_export f = Some file /\ document v file /\
      opens (ke_pbkdf2 K) (ke_aes K) (ke_keccak K) v (fl_password f) plain.
Proof.
  intros H. destruct (H no_id (fun _ => None) ex_load ∅ ex_args (Flags 3 "out" "12345678") ["a"; "b"; "c"]%string 66 (<["out"%string := to_bytes "null"]> ∅)) as (file & v & plain & Ht & Hv & Ho).
  - intros. apply replicate_length.
  - intros. assumption.
  - reflexivity.
  - vm_compute. reflexivity.
  - cbn [fl_export] in Ht. setoid_rewrite (lookup_insert (M:=gmap string)) in Ht. apply Some_inj in Ht. subst file. apply json_dec_iff in Hv.
    assert (v = JNull) by (vm_compute in Hv; congruence). subst v.
    destruct Ho as (? & ? & ? & ? & ? & ? & ? & ? & ? & ? & ? & (l1 & l2 & Hm & _) & _). discriminate Hm.
Qed.
Print Assumptions C122_written_file_opens_refuted.

(** ** C123. The command line means what its usage text says. *)
Section CommandLine.
  Context (parse_int : string -> option Z).

  Definition option_name (name : string) : Prop := name ∈ ["n"; "export"; "password"]%string.
  Lemma option_kinds name value : option_name name ->
    known name = true /\ arg_kind (String "-" name) = AFlag name None /\ arg_kind (String "-" (String "-" name)) = AFlag name None /\
    arg_kind (String "-" (name ++ String "=" value)) = AFlag name (Some value) /\
    arg_kind (String "-" (String "-" (name ++ String "=" value))) = AFlag name (Some value).
  Proof.
    unfold option_name. rewrite !elem_of_cons, elem_of_nil.
    intros [->|[->|[->|[]]]]; repeat split.
  Qed.
  Lemma option_parse o ws f f' rest : option_name (fst o) -> option_written (fst o) (snd o) ws -> set_flag parse_int (fst o) (snd o) f = Some f' ->
    Parse parse_int (ws ++ rest) f = Parse parse_int rest f'.
  Proof.
    destruct o as [name value]. cbn [fst snd]. intros Hn Hw Hs. destruct (option_kinds name value Hn) as (Hk & K1 & K2 & K3 & K4).
    destruct Hw; cbn [app Parse]; rewrite ?K1, ?K2, ?K3, ?K4, Hk, Hs; reflexivity.
  Qed.
  (** The flags given by the last options *)
  Definition flags_of (opts : list (string * string)) (f0 f : flags) : Prop :=
    match last_value "n" opts with Some v => parse_int v = Some (fl_n f) | None => fl_n f = fl_n f0 end /\
    match last_value "export" opts with Some v => fl_export f = v | None => fl_export f = fl_export f0 end /\
    match last_value "password" opts with Some v => fl_password f = v | None => fl_password f = fl_password f0 end.
  Lemma last_value_cons name o opts : last_value name (o :: opts) =
    match last_value name opts with Some v => Some v | None => if String.eqb (fst o) name then Some (snd o) else None end.
  Proof.
    unfold last_value. cbn [fold_left]. generalize (if String.eqb (fst o) name then Some (snd o) else None) as d.
    assert (H : forall d, fold_left (fun d o => if String.eqb (fst o) name then Some (snd o) else d) opts d =
      match fold_left (fun d o => if String.eqb (fst o) name then Some (snd o) else d) opts None with Some v => Some v | None => d end); [|exact H].
    induction opts as [|x opts IH]; intros d; [reflexivity|]. cbn [fold_left]. destruct (String.eqb (fst x) name); [|apply IH].
    rewrite (IH (Some (snd x))). destruct (fold_left _ opts None); reflexivity.
  Qed.

  Theorem C123_command_line opts words names tail :
    Forall2 (fun o ws => option_written (fst o) (snd o) ws) opts words ->
    Forall (fun o => option_name (fst o) /\ (fst o = "n"%string -> exists z, parse_int (snd o) = Some z)) opts ->
    names_written names tail ->
    exists f, Parse parse_int (concat words ++ tail) (Flags 3 "" "") = Some (f, names) /\ flags_of opts (Flags 3 "" "") f.
  Proof.
    intros Hw Ho Ht. generalize (Flags 3 "" "") as f0. revert Ho.
    induction Hw as [|o ws opts words Ho1 Hw IH]; intros Ho f0.
    - cbn [concat app]. exists f0. split; [|repeat split].
      destruct Ht as [|Hp]; [reflexivity|]. destruct names as [|a rest]; [reflexivity|]. cbn [Parse].
      assert (Hk : arg_kind a = AStop); [|rewrite Hk; reflexivity]. specialize (Hp a rest eq_refl). unfold arg_kind.
      destruct a as [|c [|d r]]; [reflexivity|destruct c as [[] [] [] [] [] [] [] []]; reflexivity|].
      destruct (decide (c = "-"%char)) as [->|Hne]; [destruct (Hp d r eq_refl)|].
      destruct c as [[] [] [] [] [] [] [] []]; try reflexivity. destruct (Hne eq_refl).
    - apply Forall_cons in Ho as [[Hn Hz] Ho].
      assert (Hset : exists f', set_flag parse_int (fst o) (snd o) f0 = Some f' /\
        (forall f, flags_of opts f' f -> flags_of (o :: opts) f0 f)).
      { destruct o as [name value]. cbn [fst snd] in *. unfold option_name in Hn. rewrite !elem_of_cons, elem_of_nil in Hn.
        destruct Hn as [->|[->|[->|[]]]].
        - destruct (Hz eq_refl) as [z Hv]. eexists. split; [cbn; rewrite Hv; reflexivity|]. intros f (H1 & H2 & H3).
          unfold flags_of. rewrite !last_value_cons. cbn [fst snd String.eqb Ascii.eqb Bool.eqb]. cbn [fl_n fl_export fl_password] in *.
          repeat split; [destruct (last_value "n" opts); [exact H1|rewrite H1; exact Hv]|destruct (last_value "export" opts); exact H2|destruct (last_value "password" opts); exact H3].
        - eexists. split; [reflexivity|]. intros f (H1 & H2 & H3).
          unfold flags_of. rewrite !last_value_cons. cbn [fst snd String.eqb Ascii.eqb Bool.eqb]. cbn [fl_n fl_export fl_password] in *.
          repeat split; [destruct (last_value "n" opts); exact H1|destruct (last_value "export" opts); exact H2|destruct (last_value "password" opts); exact H3].
        - eexists. split; [reflexivity|]. intros f (H1 & H2 & H3).
          unfold flags_of. rewrite !last_value_cons. cbn [fst snd String.eqb Ascii.eqb Bool.eqb]. cbn [fl_n fl_export fl_password] in *.
          repeat split; [destruct (last_value "n" opts); exact H1|destruct (last_value "export" opts); exact H2|destruct (last_value "password" opts); exact H3]. }
      destruct Hset as (f' & Hf' & Hback). destruct (IH Ho f') as (f & Hf & Hff). exists f. split; [|exact (Hback f Hff)].
      cbn [concat]. rewrite <- app_assoc. rewrite (option_parse _ _ _ _ _ Hn Ho1 Hf'). exact Hf.
  Qed.
End CommandLine.
Print Assumptions C123_command_line.

Example C123_ex :
  Forall2 (fun o ws => option_written (fst o) (snd o) ws)
    [("export", "out"); ("password", "a=b"); ("n", "5")]%string [["-export"; "out"]; ["--password=a=b"]; ["-n=5"]]%string /\
  names_written ["-x"; "y"]%string ["--"; "-x"; "y"]%string /\
  Parse (fun _ => Some 5) ["-export"; "out"; "--password=a=b"; "-n=5"; "--"; "-x"; "y"] (Flags 3 "" "") =
    Some (Flags 5 "out" "a=b", ["-x"; "y"]%string).
Proof.
  split; [|split; [constructor|reflexivity]]. constructor; [exact (ow_word "export" "out")|].
  constructor; [exact (ow_eqs "password" "a=b")|]. constructor; [exact (ow_eq "n" "5")|constructor].
Qed.
