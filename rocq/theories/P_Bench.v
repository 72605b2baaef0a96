(** The benchmark programs (cmd/tss-benchgen, cmd/tss-benchsign). *)
From Coq Require Import ZArith NArith Ascii String List Lia.
From stdpp Require Import base list strings gmap sorting.
From Verif Require Import Base L_Base M_Conv M_Json L_Json M_Bench S_Bench.

(** *** Paths *)
Lemma path_nat dir i : makeKeyGenDataFilePath dir (Z.of_nat i) = share_path dir i.
Proof.
  unfold makeKeyGenDataFilePath, share_path, format_int. destruct (Z.ltb_spec (Z.of_nat i) 0); [lia|].
  replace (Z.to_N (Z.of_nat i)) with (N.of_nat i) by lia. reflexivity.
Qed.
Lemma str_app_inj_r (a b c : string) : String.append a c = String.append b c -> a = b.
Proof. intros H. apply (f_equal to_bytes) in H. rewrite !to_bytes_app in H. apply app_inv_tail in H. apply to_bytes_inj, H. Qed.
Lemma str_app_inj_l (a b c : string) : String.append c a = String.append c b -> a = b.
Proof. intros H. apply (f_equal to_bytes) in H. rewrite !to_bytes_app in H. apply app_inv_head in H. apply to_bytes_inj, H. Qed.
Lemma head_minus n r : itoa n <> String "-" r.
Proof. intros H. destruct (itoa_head n) as (c & t & Ht & Hd). rewrite H in Ht. cbn in Ht. injection Ht as <- _. discriminate Hd. Qed.
Lemma format_int_inj a b : format_int a = format_int b -> a = b.
Proof.
  unfold format_int. destruct (Z.ltb_spec a 0); destruct (Z.ltb_spec b 0); intros H1.
  - apply (str_app_inj_l _ _ "-") in H1. apply itoa_inj in H1. lia.
  - symmetry in H1. apply head_minus in H1. destruct H1.
  - apply head_minus in H1. destruct H1.
  - apply itoa_inj in H1. lia.
Qed.
Lemma path_inj dir a b : makeKeyGenDataFilePath dir a = makeKeyGenDataFilePath dir b -> a = b.
Proof. unfold makeKeyGenDataFilePath. intros H. apply str_app_inj_l, str_app_inj_l, str_app_inj_r in H. apply format_int_inj, H. Qed.
Lemma path_not_dir dir i : makeKeyGenDataFilePath dir i <> dir.
Proof.
  unfold makeKeyGenDataFilePath. intros H. apply (f_equal (fun s => length (to_bytes s))) in H. rewrite !to_bytes_app, !app_length in H. cbn in H. lia.
Qed.

(** *** One file *)
Lemma write_keeps dir i data w fs p x : fs !! p = Some x -> (tryWriteKeyGenDataFile dir i data w fs).1 !! p = Some x.
Proof.
  intros H. unfold tryWriteKeyGenDataFile. destruct (fs !! makeKeyGenDataFilePath dir i) as [[|b]|] eqn:E; [exact H|exact H|].
  assert (makeKeyGenDataFilePath dir i <> p) by congruence.
  destruct w; cbn [fst]; try rewrite lookup_insert_ne by assumption; exact H.
Qed.
Lemma write_only dir i data w fs p : fs !! p = None -> (tryWriteKeyGenDataFile dir i data w fs).1 !! p <> None -> p = makeKeyGenDataFilePath dir i.
Proof.
  intros H. destruct (decide (makeKeyGenDataFilePath dir i = p)) as [E|E]; [auto|]. intros H2. destruct H2.
  unfold tryWriteKeyGenDataFile. destruct (fs !! makeKeyGenDataFilePath dir i) as [[|b]|]; [exact H|exact H|].
  destruct w; cbn [fst]; try rewrite lookup_insert_ne by assumption; exact H.
Qed.

(** *** The loop *)
Section Loop.
  Context {M E : Type} (n : nat) (keep : E -> fsys -> fsys * bool) (good : E -> bool).
  Notation stp := (l_step (M := M) n keep good).
  Notation loop := (fold_left (fun s l => stp l s)).
  Lemma loop_ended ls s : l_status s <> LRunning -> loop ls s = s.
  Proof.
    revert s. induction ls as [|l ls IH]; intros s H; [reflexivity|]. cbn [fold_left]. assert (stp l s = s) as -> by (unfold l_step; destruct (l_status s); [destruct (H eq_refl)|reflexivity|reflexivity]).
    apply IH, H.
  Qed.
  (** What the files keep *)
  Lemma loop_inv (P : fsys -> Prop) ls s : (forall e fs, LEnd e ∈ ls -> P fs -> P (keep e fs).1) -> P (l_fs s) -> P (l_fs (loop ls s)).
  Proof.
    intros K. revert s. induction ls as [|l ls IH]; intros s H; [exact H|]. cbn [fold_left]. apply IH; [intros e fs He; apply K; right; exact He|].
    unfold l_step. destruct (l_status s); [|exact H|exact H]. destruct l as [|m from [[|d r]|]|e]; cbn [l_fs]; try exact H.
    - destruct (_ || _ || _)%bool; exact H.
    - specialize (K e (l_fs s) ltac:(left) H). destruct (keep e (l_fs s)) as [fs p]. cbn [fst] in K. destruct p; exact K.
  Qed.
  (** A loop that is done took in n results. *)
  Inductive keeps : list E -> fsys -> fsys -> Prop :=
    | keeps_nil fs : keeps [] fs fs
    | keeps_cons e es fs fs1 fs2 : keep e fs = (fs1, false) -> keeps es fs1 fs2 -> keeps (e :: es) fs fs2.
  Lemma results_cons_end (e : E) (ls : list (llabel M E)) : results (LEnd e :: ls) = e :: results ls. Proof. reflexivity. Qed.
  Lemma loop_done ls s : l_status s = LRunning -> l_status (loop ls s) = LDone ->
    exists es e r, results ls = (es ++ [e]) ++ r /\ l_ended s + length (es ++ [e]) = n /\ keeps (es ++ [e]) (l_fs s) (l_fs (loop ls s)) /\ good e = true.
  Proof.
    revert s. induction ls as [|l ls IH]; intros s R D; [cbn [fold_left] in D; congruence|]. cbn [fold_left] in D |- *.
    assert (N : forall s', stp l s = s' -> l_status s' = LRunning -> l_ended s' = l_ended s -> l_fs s' = l_fs s -> results (l :: ls) = results ls ->
      exists es e r, results (l :: ls) = (es ++ [e]) ++ r /\ l_ended s + length (es ++ [e]) = n /\ keeps (es ++ [e]) (l_fs s) (l_fs (loop ls (stp l s))) /\ good e = true).
    { intros s' E1 R1 E2 E3 E4. rewrite E1 in D |- *. destruct (IH s' R1 D) as (es & e & r & H1 & H2 & H3 & H4). exists es, e, r.
      rewrite E4, <- E2, <- E3. auto. }
    destruct l as [|m from [[|d r]|]|e].
    - rewrite loop_ended in D; unfold l_step in *; rewrite R in *; discriminate.
    - rewrite loop_ended in D; unfold l_step in *; rewrite R in *; discriminate.
    - destruct (Z.eqb d from || Z.ltb d 0 || Z.leb (Z.of_nat n) d)%bool eqn:B.
      + rewrite loop_ended in D; unfold l_step in *; rewrite R, B in *; discriminate.
      + eapply N; [unfold l_step; rewrite R, B; reflexivity|reflexivity..].
    - eapply N; [unfold l_step; rewrite R; reflexivity|reflexivity..].
    - clear N. rewrite results_cons_end. destruct (keep e (l_fs s)) as [fs [|]] eqn:K.
      + rewrite loop_ended in D; unfold l_step in *; rewrite R, K in *; discriminate.
      + destruct (Nat.eqb_spec (S (l_ended s)) n) as [En|En].
        * destruct (good e) eqn:G.
          -- exists [], e, (results ls). split; [reflexivity|]. split; [cbn [app length]; lia|]. split; [|exact G].
             rewrite loop_ended; unfold l_step; rewrite R, K, (proj2 (Nat.eqb_eq _ _) En), G; [|discriminate]. cbn [l_fs]. econstructor; [exact K|constructor].
          -- rewrite loop_ended in D; unfold l_step in *; rewrite R, K, (proj2 (Nat.eqb_eq _ _) En), G in *; discriminate.
        * assert (S1 : stp (LEnd e) s = LState fs (S (l_ended s)) (l_got s) LRunning)
            by (unfold l_step; rewrite R, K; destruct (Nat.eqb_spec (S (l_ended s)) n); [congruence|reflexivity]).
          rewrite S1 in D |- *. destruct (IH (LState fs (S (l_ended s)) (l_got s) LRunning) eq_refl D) as (es & x & r & H1 & H2 & H3 & H4). exists (e :: es), x, r. rewrite H1. split; [reflexivity|].
          cbn [l_ended l_fs] in *. split; [cbn [app length]; lia|]. split; [econstructor; [exact K|exact H3]|exact H4].
  Qed.
  (** What the parties are given while the loop runs *)
  Lemma loop_given ls s i : l_status s = LRunning -> l_status (loop ls s) = LRunning -> (0 <= i < Z.of_nat n)%Z ->
    map snd (filter (fun x => fst x = i) (l_got (loop ls s))) = map snd (filter (fun x => fst x = i) (l_got s)) ++ emitted_for i ls.
  Proof.
    intros R0 D Hi. revert s R0 D. induction ls as [|l ls IH]; intros s R D; [cbn [fold_left emitted_for omap list_omap]; rewrite app_nil_r; reflexivity|]. cbn [fold_left] in D |- *.
    assert (S1 : l_status (stp l s) = LRunning) by (destruct (l_status (stp l s)) eqn:S1; [reflexivity|rewrite loop_ended in D by congruence; congruence..]).
    rewrite (IH _ S1 D). unfold emitted_for. cbn [omap list_omap]. fold (emitted_for i ls). unfold l_step in *. rewrite R in *.
    destruct l as [|m from [[|d r]|]|e]; try discriminate S1; cbn [l_got].
    - destruct (Z.eqb d from || Z.ltb d 0 || Z.leb (Z.of_nat n) d)%bool eqn:B; [discriminate S1|]. cbn [l_got].
      rewrite filter_app, map_app, <- app_assoc. f_equal. rewrite filter_cons, filter_nil. cbn [fst].
      destruct (Z.eqb_spec d i); destruct (decide (d = i)); try congruence; reflexivity.
    - rewrite filter_app, map_app, <- app_assoc. f_equal. clear - Hi. 
      assert (A : forall k j, map snd (filter (fun x : Z * M => fst x = i) (map (fun q => (q, m)) (filter (fun q => q <> from) (map Z.of_nat (seq j k))))) =
        if (Z.ltb i (Z.of_nat j) || Z.leb (Z.of_nat (j + k)) i || Z.eqb from i)%bool then [] else [m]).
      { induction k as [|k IH]; intros j.
        - cbn. destruct (Z.ltb_spec i (Z.of_nat j)); [reflexivity|]. destruct (Z.leb_spec (Z.of_nat (j + 0)) i); [reflexivity|lia].
        - cbn [seq map]. rewrite filter_cons. destruct (decide (Z.of_nat j <> from)) as [Nf|Nf].
          + cbn [map]. rewrite filter_cons. cbn [fst]. destruct (decide (Z.of_nat j = i)) as [Ej|Ej].
            * cbn [map snd]. rewrite IH. destruct (Z.ltb_spec i (Z.of_nat (S j))); [|lia]. cbn [orb].
              destruct (Z.ltb_spec i (Z.of_nat j)); [lia|]. destruct (Z.leb_spec (Z.of_nat (j + S k)) i); [lia|]. destruct (Z.eqb_spec from i); [congruence|]. reflexivity.
            * rewrite IH. replace (S j + k) with (j + S k) by lia. destruct (Z.ltb_spec i (Z.of_nat (S j))); destruct (Z.ltb_spec i (Z.of_nat j)); try lia; reflexivity.
          + rewrite IH. assert (from = Z.of_nat j) by (destruct (Z.eq_dec (Z.of_nat j) from); [congruence|destruct Nf; assumption]). subst from.
            replace (S j + k) with (j + S k) by lia.
            destruct (Z.ltb_spec i (Z.of_nat (S j))); destruct (Z.ltb_spec i (Z.of_nat j)); destruct (Z.eqb_spec (Z.of_nat j) i); try lia; cbn [orb]; try reflexivity;
            destruct (Z.leb_spec (Z.of_nat (j + S k)) i); try lia; reflexivity. }
      rewrite A. destruct (Z.ltb_spec i (Z.of_nat 0)); [lia|]. destruct (Z.leb_spec (Z.of_nat (0 + n)) i); [lia|]. cbn [orb]. destruct (Z.eqb from i); reflexivity.
    - destruct (keep e (l_fs s)) as [fs p]. destruct p; [discriminate S1|]. reflexivity.
  Qed.
End Loop.

(** ** C197: tss-benchgen changes nothing that was there *)

Definition indexed {M} (ls : list (llabel M saved)) (i : Z) : Prop := exists e, e ∈ results ls /\ sv_index e = Some i.
Lemma end_result {M E} (e : E) (ls : list (llabel M E)) : LEnd e ∈ ls -> e ∈ results ls.
Proof. intros H. apply elem_of_list_omap. exists (LEnd e). auto. Qed.
Theorem C197_nothing_overwritten {M} quorum parties args mkdir (fs : fsys) (ls : list (llabel M saved)) r fs' :
  gen_main quorum parties args mkdir fs ls = (r, fs') ->
  (forall p x, fs !! p = Some x -> fs' !! p = Some x) /\
  (forall p, fs !! p = None -> fs' !! p <> None ->
     exists dir rest, args = dir :: rest /\
       (p = dir \/ exists i, indexed ls i /\ p = (dir ++ "/keygen_data_" ++ format_int i ++ ".json")%string)).
Proof.
  unfold gen_main. destruct (_ || _ || _)%bool; [intros H; injection H as _ <-; split; [auto|congruence]|].
  destruct args as [|dir rest]; [intros H; injection H as _ <-; split; [auto|congruence]|].
  destruct (fs !! dir) eqn:Hd; [intros H; injection H as _ <-; split; [auto|congruence]|].
  destruct mkdir; [|intros H; injection H as _ <-; split; [auto|congruence]].
  intros H. injection H as _ <-. unfold l_run. split.
  - intros p x Hp. apply (loop_inv _ _ _ (fun g => g !! p = Some x)).
    + intros e g _ Hg. unfold keep_saved. destruct (sv_index e); [apply write_keeps, Hg|exact Hg].
    + cbn [l_fs]. rewrite lookup_insert_ne by congruence. exact Hp.
  - intros p Hp Hp'. exists dir, rest. split; [reflexivity|]. destruct (decide (p = dir)) as [->|Hpd]; [left; reflexivity|]. right.
    revert Hp'. apply (loop_inv _ _ _ (fun g => g !! p <> None -> exists i, indexed ls i /\ p = makeKeyGenDataFilePath dir i)).
    + intros e g He Hg. unfold keep_saved. destruct (sv_index e) as [i|] eqn:Ei; [|exact Hg]. intros Hn. destruct (g !! p) eqn:Eg; [apply Hg; discriminate|].
      exists i. split; [exists e; split; [apply end_result, He|exact Ei]|]. eapply write_only; eassumption.
    + cbn [l_fs]. rewrite lookup_insert_ne by congruence. congruence.
Qed.
Print Assumptions C197_nothing_overwritten.
Theorem C197_folder_refused {M} quorum parties dir rest mkdir (fs : fsys) (ls : list (llabel M saved)) x :
  fs !! dir = Some x -> gen_main quorum parties (dir :: rest) mkdir fs ls = (BExit 1, fs).
Proof. intros H. unfold gen_main. destruct (_ || _ || _)%bool; [reflexivity|]. rewrite H. reflexivity. Qed.
Print Assumptions C197_folder_refused.

(** ** C198: when tss-benchgen says it is done, the shares are there *)

Lemma keeps_stay dir es fs fs' p x : keeps (keep_saved dir) es fs fs' -> fs !! p = Some x -> fs' !! p = Some x.
Proof.
  induction 1 as [|e es fs fs1 fs2 K _ IH]; [auto|]. intros H. apply IH. unfold keep_saved in K. destruct (sv_index e) as [i|]; [|discriminate].
  pose proof (write_keeps dir i (sv_data e) (sv_write e) fs p x H) as W. rewrite K in W. exact W.
Qed.
Lemma keeps_there dir es fs fs' : keeps (keep_saved dir) es fs fs' -> NoDup (map sv_index es) ->
  (forall e i, e ∈ es -> sv_index e = Some i -> fs !! makeKeyGenDataFilePath dir i = None) ->
  forall e, e ∈ es -> exists i, sv_index e = Some i /\ fs' !! makeKeyGenDataFilePath dir i = Some (NFile (sv_data e)).
Proof.
  induction 1 as [|e es fs fs1 fs2 K H IH]; intros ND Fr x Hx; [inversion Hx|]. apply NoDup_cons in ND as [Ne ND].
  unfold keep_saved in K. destruct (sv_index e) as [i|] eqn:Ei; [|discriminate].
  assert (Hi : fs !! makeKeyGenDataFilePath dir i = None) by (apply (Fr e); [left|exact Ei]).
  unfold tryWriteKeyGenDataFile in K. rewrite Hi in K. destruct (sv_write e); try discriminate K. injection K as <-.
  apply elem_of_cons in Hx as [->|Hx].
  - exists i. split; [exact Ei|]. eapply keeps_stay; [exact H|]. apply lookup_insert.
  - apply IH; [exact ND| |exact Hx]. intros y j Hy Ey. rewrite lookup_insert_ne; [apply (Fr y); [right; exact Hy|exact Ey]|].
    intros P. apply path_inj in P. subst j. apply Ne. rewrite <- Ei, Ei. rewrite <- Ey. apply elem_of_list_fmap. exists y. auto.
Qed.
Theorem C198_shares_written {M} quorum parties args mkdir (fs : fsys) (ls : list (llabel M saved)) fs' :
  no_orphans fs -> gen_main quorum parties args mkdir fs ls = (BExit 0, fs') ->
  (2 <= quorum <= parties)%Z /\
  exists dir rest es e r, args = dir :: rest /\ fs' !! dir = Some NDir /\
    results ls = (es ++ [e]) ++ r /\ Z.of_nat (length (es ++ [e])) = parties /\ sv_curve e = true /\
    (NoDup (map sv_index (es ++ [e])) -> forall x, x ∈ es ++ [e] ->
       exists i, sv_index x = Some i /\ fs' !! (dir ++ "/keygen_data_" ++ format_int i ++ ".json")%string = Some (NFile (sv_data x))).
Proof.
  intros O. unfold gen_main. destruct (Z.leb parties 0 || Z.leb quorum 1 || Z.ltb parties quorum)%bool eqn:B; [discriminate|].
  apply Bool.orb_false_iff in B as [B B3]. apply Bool.orb_false_iff in B as [B1 B2]. apply Z.leb_gt in B1, B2. apply Z.ltb_ge in B3.
  destruct args as [|dir rest]; [discriminate|]. destruct (fs !! dir) eqn:Hd; [discriminate|]. destruct mkdir; [|discriminate].
  set (s0 := LState (<[dir := NDir]> fs) 0 [] LRunning : lstate M). unfold l_run. fold s0.
  destruct (l_status _) eqn:S; [discriminate| |discriminate]. intros H. injection H as <-. split; [lia|].
  destruct (loop_done _ _ _ ls s0 eq_refl S) as (es & e & r & H1 & H2 & H3 & H4). cbn [s0 l_ended l_fs] in H2, H3.
  exists dir, rest, es, e, r. split; [reflexivity|]. split; [eapply keeps_stay; [exact H3|apply lookup_insert]|].
  split; [exact H1|]. split; [lia|]. split; [exact H4|]. intros ND. eapply keeps_there; [exact H3|exact ND|].
  intros x i _ _. rewrite lookup_insert_ne by (intros P; symmetry in P; revert P; apply path_not_dir). apply (O dir), Hd.
Qed.
Print Assumptions C198_shares_written.

(** ** C199: every party is given what the others emitted for it *)

Theorem C199_given {M E} n keep good (fs : fsys) (ls : list (llabel M E)) i :
  l_status (l_run n keep good fs ls) = LRunning -> (0 <= i < Z.of_nat n)%Z ->
  map snd (filter (fun x => fst x = i) (l_got (l_run n keep good fs ls))) = emitted_for i ls.
Proof. intros H Hi. unfold l_run in *. rewrite loop_given by (reflexivity || assumption). reflexivity. Qed.
Print Assumptions C199_given.
(** A loop ends with a panic only because of one of these. *)
Theorem C199_panics {M E} n keep good (fs : fsys) (ls : list (llabel M E)) :
  l_status (l_run n keep good fs ls) = LPanic ->
  LError ∈ ls \/
  (exists m from dest, LMessage m from (Some dest) ∈ ls /\
     match dest with [] => True | d :: _ => d = from \/ ~ (0 <= d < Z.of_nat n)%Z end) \/
  (exists e, LEnd e ∈ ls /\ (good e = false \/ exists g, (keep e g).2 = true)).
Proof.
  unfold l_run. generalize (LState (M := M) fs 0 [] LRunning), (eq_refl LRunning : l_status (LState (M := M) fs 0 [] LRunning) = LRunning).
  induction ls as [|l ls IH]; intros s R D; [cbn [fold_left] in D; congruence|]. cbn [fold_left] in D.
  destruct (l_status (l_step n keep good l s)) eqn:S1.
  - destruct (IH _ S1 D) as [H|[(m & from & dest & H & H')|(e & H & H')]].
    + left. right. exact H.
    + right. left. exists m, from, dest. split; [right; exact H|exact H'].
    + right. right. exists e. split; [right; exact H|exact H'].
  - rewrite loop_ended in D by congruence. congruence.
  - clear IH D. unfold l_step in S1. rewrite R in S1. destruct l as [|m from [[|d r]|]|e]; [left; left| | |discriminate|].
    + right. left. exists m, from, []. split; [left|exact I].
    + destruct (Z.eqb d from || Z.ltb d 0 || Z.leb (Z.of_nat n) d)%bool eqn:B; [|discriminate]. right. left. exists m, from, (d :: r). split; [left|].
      apply Bool.orb_true_iff in B as [B|B]; [apply Bool.orb_true_iff in B as [B|B]|]; [left; apply Z.eqb_eq, B|right; apply Z.ltb_lt in B; lia|right; apply Z.leb_le in B; lia].
    + right. right. exists e. split; [left|]. destruct (keep e (l_fs s)) as [g [|]] eqn:K; [right; exists (l_fs s); rewrite K; reflexivity|].
      cbn [l_status] in S1. destruct (Nat.eqb _ n); [|discriminate]. left. destruct (good e); [discriminate|reflexivity].
Qed.
Print Assumptions C199_panics.

(** ** C200: what tss-benchsign measures *)

Section Sign.
  Context {K : Type} (parse : bytes -> option K) (share_id : K -> Z).
  Context (sign : nat -> list ((string * Z) * K) -> option Z).
  Notation "'cast' dir fs q" := (signers parse share_id dir fs (q - 1)) (at level 10, dir at level 9, fs at level 9, q at level 9).

  Lemma run_quorums_some dir fs run qs x : run_quorums parse share_id sign dir fs run qs = Some x ->
    map fst x = qs /\ forall i q, qs !! i = Some q -> exists ps d, cast dir fs q = Some ps /\ sign run ps = Some d /\ x !! i = Some (q, d).
  Proof.
    revert x. induction qs as [|q qs IH]; intros x; cbn [run_quorums]; [intros H; injection H as <-; split; [reflexivity|intros i q H; discriminate H]|].
    destruct (cast dir fs q) as [ps|] eqn:Es; [|discriminate]. destruct (sign run ps) as [d|] eqn:Ed; [|discriminate].
    destruct (run_quorums _ _ _ dir fs run qs) as [t|]; [|discriminate]. intros H. injection H as <-. destruct (IH t eq_refl) as (H1 & H2).
    split; [cbn [map fst]; congruence|]. intros [|i] q' Hi; cbn in Hi |- *; [injection Hi as <-; eauto|apply H2, Hi].
  Qed.
  Lemma run_quorums_none dir fs run qs : run_quorums parse share_id sign dir fs run qs = None ->
    exists q, q ∈ qs /\ (cast dir fs q = None \/ exists ps, cast dir fs q = Some ps /\ sign run ps = None).
  Proof.
    induction qs as [|q qs IH]; cbn [run_quorums]; [discriminate|].
    destruct (cast dir fs q) as [ps|] eqn:Es; [|intros _; exists q; split; [left|left; exact Es]].
    destruct (sign run ps) as [d|] eqn:Ed; [|intros _; exists q; split; [left|right; eauto]].
    destruct (run_quorums _ _ _ dir fs run qs) as [t|]; [discriminate|]. intros H. destruct (IH H) as (q' & H1 & H2). exists q'. split; [right; exact H1|exact H2].
  Qed.
  Lemma all_runs_some dir fs qs runs xs : all_runs parse share_id sign dir fs qs runs = Some xs ->
    length xs = length runs /\ forall j run, runs !! j = Some run -> exists x, xs !! j = Some x /\ run_quorums parse share_id sign dir fs run qs = Some x.
  Proof.
    revert xs. induction runs as [|run runs IH]; intros xs; cbn [all_runs]; [intros H; injection H as <-; split; [reflexivity|intros j r H; discriminate H]|].
    destruct (run_quorums _ _ _ dir fs run qs) as [x|] eqn:Ex; [|discriminate]. destruct (all_runs _ _ _ dir fs qs runs) as [t|]; [|discriminate].
    intros H. injection H as <-. destruct (IH t eq_refl) as (H1 & H2). split; [cbn [length]; congruence|].
    intros [|j] r Hj; cbn in Hj |- *; [injection Hj as <-; eauto|apply H2, Hj].
  Qed.
  Lemma all_runs_none dir fs qs runs : all_runs parse share_id sign dir fs qs runs = None ->
    exists run, run ∈ runs /\ run_quorums parse share_id sign dir fs run qs = None.
  Proof.
    induction runs as [|run runs IH]; cbn [all_runs]; [discriminate|].
    destruct (run_quorums _ _ _ dir fs run qs) as [x|] eqn:Ex; [|intros _; exists run; split; [left|exact Ex]].
    destruct (all_runs _ _ _ dir fs qs runs) as [t|]; [discriminate|]. intros H. destruct (IH H) as (r & H1 & H2). exists r. split; [right; exact H1|exact H2].
  Qed.
  Lemma column_some xs i : (forall x, x ∈ xs -> i < length x) -> exists ms, column xs i = Some ms /\ length ms = length xs /\
    forall j x y, xs !! j = Some x -> x !! i = Some y -> ms !! j = Some (snd y).
  Proof.
    induction xs as [|x xs IH]; intros H; [exists []; split; [reflexivity|]; split; [reflexivity|intros j x y Hj; discriminate Hj]|].
    destruct IH as (ms & H1 & H2 & H3); [intros y Hy; apply H; right; exact Hy|]. cbn [column].
    destruct (lookup_lt_is_Some_2 x i) as [z Hz]; [apply H; left|]. rewrite Hz, H1. exists (snd z :: ms). split; [reflexivity|]. split; [cbn [length]; congruence|].
    intros [|j] x' y Hj Hy; cbn in Hj |- *; [injection Hj as <-; congruence|eapply H3; eassumption].
  Qed.
  Lemma mapM_total {A B} (f : A -> option B) l : (forall x, x ∈ l -> f x <> None) -> exists r, mapM f l = Some r /\ Forall2 (fun x y => f x = Some y) l r.
  Proof.
    induction l as [|x l IH]; intros H; [exists []; split; [reflexivity|constructor]|]. destruct IH as (r & H1 & H2); [intros y Hy; apply H; right; exact Hy|].
    destruct (f x) as [y|] eqn:E; [|destruct (H x ltac:(left) E)]. exists (y :: r). split; [cbn [mapM]; rewrite E; cbn [mbind option_bind]; rewrite H1; reflexivity|]. constructor; assumption.
  Qed.
  Lemma summary_ok first xs : (forall x, x ∈ first :: xs -> length x = length first) -> exists t, printSummary (first :: xs) = Some t /\
    Forall2 (fun ix y => row (first :: xs) (fst ix) (snd ix) = Some y) (imap (fun i x => (i, x)) first) t.
  Proof.
    intros H. unfold printSummary. apply mapM_total. intros [i x] Hi. apply elem_of_lookup_imap in Hi as (j & y & E & Hj). injection E as <- <-. cbn [fst snd].
    unfold row. destruct (column_some (first :: xs) i) as (ms & -> & _); [|discriminate].
    intros z Hz. rewrite (H z Hz). apply lookup_lt_Some in Hj. exact Hj.
  Qed.
  Lemma fold_add l a : fold_left Z.add l a = (a + foldr Z.add 0 l)%Z.
  Proof. revert a. induction l as [|x l IH]; intros a; cbn [fold_left foldr]; [lia|]. rewrite IH. lia. Qed.
  Lemma quorums_lookup a b i : (a <= b)%Z -> i < length (quorums a b) -> quorums a b !! i = Some (a + Z.of_nat i)%Z.
  Proof.
    intros H Hi. unfold quorums in *. rewrite map_length, seq_length in Hi. rewrite list_lookup_fmap, lookup_seq_lt by exact Hi. reflexivity.
  Qed.
  Lemma quorums_length a b : length (quorums a b) = Z.to_nat (b - a + 1).
  Proof. unfold quorums. rewrite map_length, seq_length. reflexivity. Qed.

  Theorem C200_table startQuorum endQuorum runs args fs rows :
    sign_main parse share_id sign startQuorum endQuorum runs args fs = STable rows ->
    exists dir rest, args = dir :: rest /\ fs !! dir = Some NDir /\
    (2 <= endQuorum /\ startQuorum <= endQuorum /\ 1 <= runs)%Z /\ Z.of_nat (length rows) = (endQuorum - startQuorum + 1)%Z /\
    forall i q ms mean, rows !! i = Some (q, ms, mean) ->
      q = (startQuorum + Z.of_nat i)%Z /\ Z.of_nat (length ms) = runs /\
      (forall j d, ms !! j = Some d -> exists ps, cast dir fs q = Some ps /\ sign j ps = Some d) /\
      (Forall (fun d => 0 <= d)%Z ms -> mean * runs <= foldr Z.add 0 ms < (mean + 1) * runs)%Z.
  Proof.
    unfold sign_main. destruct (Z.leb endQuorum 1 || Z.ltb runs 1 || Z.ltb endQuorum startQuorum)%bool eqn:B; [discriminate|].
    apply Bool.orb_false_iff in B as [B B3]. apply Bool.orb_false_iff in B as [B1 B2]. apply Z.leb_gt in B1. apply Z.ltb_ge in B2, B3.
    destruct args as [|dir rest]; [discriminate|]. destruct (fs !! dir) as [[|b]|] eqn:Hd; [|discriminate..].
    destruct (fs !! makeKeyGenDataFilePath dir _); [|discriminate]. destruct (all_runs _ _ _ _ _ _ _) as [xs|] eqn:Ea; [|discriminate].
    destruct (all_runs_some _ _ _ _ _ Ea) as (La & Ha). rewrite seq_length in La.
    assert (Hx : forall j x, xs !! j = Some x -> run_quorums parse share_id sign dir fs j (quorums startQuorum endQuorum) = Some x).
    { intros j x Hj. assert (j < Z.to_nat runs) by (rewrite <- La; apply lookup_lt_Some in Hj; exact Hj).
      destruct (Ha j j) as (x' & H1 & H2); [rewrite lookup_seq_lt by assumption; reflexivity|]. congruence. }
    assert (Hl : forall x, x ∈ xs -> length x = length (quorums startQuorum endQuorum)).
    { intros x Hi. apply elem_of_list_lookup in Hi as [j Hj]. apply Hx, run_quorums_some in Hj as (Hf & _). rewrite <- Hf, map_length. reflexivity. }
    destruct xs as [|first xs]; [cbn [length] in La; lia|].
    destruct (summary_ok first xs) as (t & Et & Ft); [intros x Hi; rewrite (Hl x Hi), (Hl first ltac:(left)); reflexivity|]. rewrite Et. intros H. injection H as <-.
    exists dir, rest. split; [reflexivity|]. split; [exact Hd|]. split; [lia|].
    pose proof (Forall2_length _ _ _ Ft) as Lt. rewrite imap_length, (Hl first ltac:(left)), quorums_length in Lt. split; [lia|].
    intros i q ms mean Hi. pose proof (Forall2_lookup_r _ _ _ _ _ Ft Hi) as ([i' y] & Hy & Hr).
    rewrite list_lookup_imap in Hy. destruct (first !! i) as [y'|] eqn:Ey; [|discriminate]. injection Hy as <- <-. cbn [fst snd] in Hr. unfold row in Hr.
    assert (Hq : quorums startQuorum endQuorum !! i = Some (startQuorum + Z.of_nat i)%Z).
    { apply quorums_lookup; [lia|]. rewrite <- (Hl first ltac:(left)). apply lookup_lt_Some in Ey. exact Ey. }
    destruct (column_some (first :: xs) i) as (ms' & Ec & Lc & Hc); [intros x Hi'; rewrite (Hl x Hi'); apply lookup_lt_Some in Hq; exact Hq|].
    rewrite Ec in Hr. injection Hr as Eq Em Emean. subst ms'.
    destruct (run_quorums_some _ _ _ _ _ (Hx 0 first eq_refl)) as (_ & H0). destruct (H0 i _ Hq) as (ps & d & Hps & _ & Hf).
    assert (q = (startQuorum + Z.of_nat i)%Z) as -> by (rewrite Hf in Ey; injection Ey as <-; symmetry; exact Eq).
    split; [reflexivity|]. split; [rewrite Lc, La; lia|]. split.
    - intros j e Hj. assert (Hj' : j < length (first :: xs)) by (rewrite <- Lc; apply lookup_lt_Some in Hj; exact Hj).
      destruct (lookup_lt_is_Some_2 _ _ Hj') as [x Hxj]. destruct (run_quorums_some _ _ _ _ _ (Hx j x Hxj)) as (_ & H1).
      destruct (H1 i _ Hq) as (ps' & d' & A1 & A2 & A3). exists ps'. split; [exact A1|]. rewrite (Hc j x _ Hxj A3) in Hj. cbn [snd] in Hj. congruence.
    - intros Hpos. subst mean. rewrite fold_add, Z.add_0_l. cbn [length] in La. match goal with |- context [Z.quot _ ?den] => replace den with runs by lia end.
      assert (0 <= foldr Z.add 0 ms)%Z by (clear - Hpos; induction Hpos; cbn [foldr]; lia).
      rewrite Z.quot_div_nonneg by lia. pose proof (Z.div_mod (foldr Z.add 0%Z ms) runs ltac:(lia)). pose proof (Z.mod_pos_bound (foldr Z.add 0%Z ms) runs ltac:(lia)). nia.
  Qed.
  (** When it panics: only because data could not be loaded or a ceremony panicked. *)
  Theorem C200_panics startQuorum endQuorum runs args fs :
    sign_main parse share_id sign startQuorum endQuorum runs args fs = SPanic ->
    exists dir rest q run, args = dir :: rest /\ (startQuorum <= q <= endQuorum)%Z /\ (Z.of_nat run < runs)%Z /\
      (cast dir fs q = None \/ exists ps, cast dir fs q = Some ps /\ sign run ps = None).
  Proof.
    unfold sign_main. destruct (Z.leb endQuorum 1 || Z.ltb runs 1 || Z.ltb endQuorum startQuorum)%bool eqn:B; [discriminate|].
    apply Bool.orb_false_iff in B as [B B3]. apply Bool.orb_false_iff in B as [B1 B2]. apply Z.leb_gt in B1. apply Z.ltb_ge in B2, B3.
    destruct args as [|dir rest]; [discriminate|]. destruct (fs !! dir) as [[|b]|] eqn:Hd; [|discriminate..].
    destruct (fs !! makeKeyGenDataFilePath dir _); [|discriminate]. destruct (all_runs _ _ _ _ _ _ _) as [xs|] eqn:Ea.
    - intros H. exfalso. destruct (all_runs_some _ _ _ _ _ Ea) as (La & Ha). rewrite seq_length in La. destruct xs as [|first xs]; [cbn [length] in La; lia|].
      destruct (summary_ok first xs) as (t & Et & _); [|rewrite Et in H; discriminate H].
      assert (Hx : forall j x, (first :: xs) !! j = Some x -> length x = length (quorums startQuorum endQuorum)).
      { intros j x Hj. assert (j < Z.to_nat runs) by (rewrite <- La; apply lookup_lt_Some in Hj; exact Hj).
        destruct (Ha j j) as (x' & H1 & H2); [rewrite lookup_seq_lt by assumption; reflexivity|]. assert (x' = x) by congruence. subst x'.
        apply run_quorums_some in H2 as (H2 & _). rewrite <- H2, map_length. reflexivity. }
      intros x Hi. apply elem_of_list_lookup in Hi as [j Hj]. rewrite (Hx j x Hj), (Hx 0 first eq_refl). reflexivity.
    - intros _. destruct (all_runs_none _ _ _ _ Ea) as (run & Hr & Hq). destruct (run_quorums_none _ _ _ _ Hq) as (q & Hin & Hn).
      exists dir, rest, q, run. split; [reflexivity|]. apply elem_of_seq in Hr. apply elem_of_list_fmap in Hin as (i & -> & Hi). apply elem_of_seq in Hi.
      split; [lia|]. split; [lia|exact Hn].
  Qed.
End Sign.
Print Assumptions C200_table.
Print Assumptions C200_panics.
(** ** C200, the quorum: "q must be greater than 1" (refuted: only n is looked at) *)

Definition bench_fs : fsys :=
  <["d"%string := NDir]> (<[share_path "d" 0 := NFile ["0"%char]]> (<[share_path "d" 1 := NFile ["1"%char]]> ∅)).
Definition bench_parse (b : bytes) : option Z := match b with [c] => Some (Z.of_N (byte_val c)) | _ => None end.
Theorem C200_small_quorum_refused_refuted :
  exists rows, sign_main bench_parse id (fun _ ps => Some (Z.of_nat (length ps))) 0 2 1 ["d"%string] bench_fs = STable rows /\
    exists ms mean, (0%Z, ms, mean) ∈ rows.
Proof. eexists. split; [vm_compute; reflexivity|]. do 2 eexists. left. Qed.
Print Assumptions C200_small_quorum_refused_refuted.
Example C200_ex : sign_main bench_parse id (fun run ps => Some (Z.of_nat (length ps + run))) 2 2 2 ["d"%string] bench_fs = STable [(2, [2; 3], 2)%Z].
Proof. vm_compute. reflexivity. Qed.
Example C200_ex_panic : sign_main bench_parse id (fun _ _ => None) 2 2 1 ["d"%string] bench_fs = SPanic.
Proof. vm_compute. reflexivity. Qed.

(** ** C201: every signing party is given its own data *)

Section Pairs.
  Context {K : Type} (parse : bytes -> option K) (share_id : K -> Z).
  Lemma load_files_iff dir fs i n keys : load_files parse dir fs i n = Some keys <->
    length keys = n /\ forall j k, keys !! j = Some k -> exists b, fs !! share_path dir (i + j) = Some (NFile b) /\ parse b = Some k.
  Proof.
    revert i keys. induction n as [|n IH]; intros i keys; cbn [load_files].
    - split; [intros H; injection H as <-; split; [reflexivity|intros j k H; discriminate H]|intros (H & _); destruct keys; [reflexivity|discriminate H]].
    - rewrite path_nat. split.
      + destruct (fs !! share_path dir i) as [[|b]|] eqn:Ef; [discriminate| |discriminate]. destruct (parse b) as [k|] eqn:Ek; [|discriminate].
        destruct (load_files parse dir fs (S i) n) as [r|] eqn:Er; [|discriminate]. intros H. injection H as <-. apply IH in Er as (Lr & Hr).
        split; [cbn [length]; congruence|]. intros [|j] x Hj; cbn in Hj.
        * injection Hj as <-. exists b. rewrite Nat.add_0_r. auto.
        * replace (i + S j) with (S i + j) by lia. apply Hr, Hj.
      + intros (L & H). destruct keys as [|k keys]; [discriminate L|]. destruct (H 0 k eq_refl) as (b & Hb & Hk). rewrite Nat.add_0_r in Hb. rewrite Hb, Hk.
        assert (E : load_files parse dir fs (S i) n = Some keys).
        { apply IH. split; [injection L; auto|]. intros j x Hj. replace (S i + j) with (i + S j) by lia. apply H, Hj. }
        rewrite E. reflexivity.
  Qed.
  Lemma ids_perm (keys : list K) : map snd (merge_sort id_le (imap (fun i k => (itoa (N.of_nat (S i)), share_id k)) keys)) ≡ₚ map share_id keys.
  Proof.
    etransitivity; [apply fmap_Permutation, merge_sort_Permutation|].
    assert (E : snd <$> imap (fun i k => (itoa (N.of_nat (S i)), share_id k)) keys = share_id <$> keys); [|rewrite E; reflexivity].
    rewrite fmap_imap. apply list_eq. intros i. rewrite list_lookup_imap, list_lookup_fmap. destruct (keys !! i); reflexivity.
  Qed.
  Local Instance id_le_total : Total id_le. Proof. intros a b. unfold id_le. lia. Qed.
  Local Instance id_le_trans : Transitive id_le. Proof. intros a b c. unfold id_le. lia. Qed.
  Lemma ids_sorted (l : list (string * Z)) : StronglySorted Z.le (map snd (merge_sort id_le l)).
  Proof.
    pose proof (StronglySorted_merge_sort id_le l) as H. induction H as [|x r H IH F]; cbn [map]; constructor; [exact IH|].
    apply Forall_map. exact F.
  Qed.
  Lemma increasing_sorted l : increasing l <-> StronglySorted Z.le l /\ NoDup l.
  Proof.
    split.
    - induction l as [|x l IH]; intros H; [split; constructor|]. destruct IH as [IH1 IH2]; [intros i j a b L A B; apply (H (S i) (S j) a b); [lia|exact A|exact B]|].
      assert (F : Forall (fun y => x < y)%Z l).
      { apply Forall_lookup. intros j y Hj. apply (H 0 (S j) x y); [lia|reflexivity|exact Hj]. }
      split; constructor; try assumption; [eapply Forall_impl; [exact F|cbv beta; lia]|]. intros Hx. rewrite Forall_forall in F. specialize (F x Hx). lia.
    - intros [S ND]. induction S as [|x l S IH F]; intros i j a b L A B; [discriminate A|]. apply NoDup_cons in ND as [Nx ND].
      destruct j as [|j]; [lia|]. cbn in B. destruct i as [|i]; cbn in A; [|eapply (IH ND i j); [lia|exact A|exact B]].
      injection A as <-. apply elem_of_list_lookup_2 in B. rewrite Forall_forall in F. specialize (F b B). assert (x <> b) by congruence. lia.
  Qed.
  Lemma signers_some dir fs q ps : (0 <= q)%Z -> signers parse share_id dir fs (q - 1) = Some ps <->
    exists keys, load_files parse dir fs 0 (Z.to_nat q) = Some keys /\
      ps = zip (merge_sort id_le (imap (fun i k => (itoa (N.of_nat (S i)), share_id k)) keys)) keys.
  Proof.
    intros Hq. unfold signers, loadKeyGenData. replace (q - 1 + 1)%Z with q by lia. destruct (Z.ltb_spec q 0); [lia|].
    destruct (load_files parse dir fs 0 (Z.to_nat q)) as [keys|] eqn:E; [|split; [discriminate|intros (k & H' & _); discriminate H']].
    apply load_files_iff in E as (L & _). rewrite (Permutation_length (merge_sort_Permutation id_le _)), imap_length, L, Nat.eqb_refl. cbn [andb].
    split; [intros H'; injection H' as <-; eauto|intros (k & H' & ->); injection H' as <-; reflexivity].
  Qed.
  Lemma zip_pairs (keys : list K) : let ids := merge_sort id_le (imap (fun i k => (itoa (N.of_nat (S i)), share_id k)) keys) in
    map fst (zip ids keys) = ids /\ map snd (zip ids keys) = keys.
  Proof.
    intros ids. assert (L : length ids = length keys) by (unfold ids; rewrite (Permutation_length (merge_sort_Permutation id_le _)), imap_length; reflexivity).
    split; [apply fst_zip; lia|apply snd_zip; lia].
  Qed.

  (** The parties of a quorum q are given the data of the first q files. *)
  Theorem C201_first_files dir fs q : (0 <= q)%Z ->
    (forall ps, signers parse share_id dir fs (q - 1) = Some ps -> Z.of_nat (length ps) = q /\ holds parse fs dir (map snd ps)) /\
    (forall keys, Z.of_nat (length keys) = q -> holds parse fs dir keys -> exists ps, signers parse share_id dir fs (q - 1) = Some ps /\ map snd ps = keys).
  Proof.
    intros Hq. split.
    - intros ps H. apply signers_some in H as (keys & E & ->); [|exact Hq]. apply load_files_iff in E as (L & H). destruct (zip_pairs keys) as (_ & Z2).
      rewrite Z2. split; [rewrite <- (map_length snd), Z2, L; lia|]. intros i k Hi. apply (H i k Hi).
    - intros keys L H. eexists. split; [apply signers_some; [exact Hq|]; exists keys; split; [|reflexivity]|apply zip_pairs].
      apply load_files_iff. split; [lia|]. intros j k Hj. apply (H j k Hj).
  Qed.
  (** Each one has its own data exactly when the share ids grow with the numbers of the files. *)
  Theorem C201_own_data_iff dir fs q ps : (0 <= q)%Z -> signers parse share_id dir fs (q - 1) = Some ps -> NoDup (map (fun p => share_id (snd p)) ps) ->
    (Forall (own_data share_id) ps <-> increasing (map (fun p => share_id (snd p)) ps)).
  Proof.
    intros Hq H. apply signers_some in H as (keys & E & ->); [|exact Hq]. clear E. destruct (zip_pairs keys) as (Z1 & Z2).
    set (ids := merge_sort id_le _) in *. rewrite <- (map_map snd share_id), Z2. intros ND.
    assert (F : Forall (own_data share_id) (zip ids keys) <-> map snd ids = map share_id keys).
    { assert (M1 : map snd ids = map (fun p : (string * Z) * K => snd (fst p)) (zip ids keys)) by (rewrite <- (map_map fst snd), Z1; reflexivity).
      assert (M2 : map share_id keys = map (fun p : (string * Z) * K => share_id (snd p)) (zip ids keys)) by (rewrite <- (map_map snd share_id), Z2; reflexivity).
      rewrite M1, M2. generalize (zip ids keys). intros l. split.
      - induction 1 as [|p l Hp _ IH]; [reflexivity|]. cbn [map]. f_equal; [exact Hp|exact IH].
      - induction l as [|p l IH]; [constructor|]. cbn [map]. intros Hm. injection Hm as Hp Hm. constructor; [exact Hp|apply IH, Hm]. }
    rewrite F, increasing_sorted. split.
    - intros Hm. split; [|exact ND]. rewrite <- Hm. apply ids_sorted.
    - intros [S _]. apply (StronglySorted_unique Z.le); [apply ids_sorted|exact S|apply ids_perm].
  Qed.
End Pairs.
Print Assumptions C201_first_files.
Print Assumptions C201_own_data_iff.

(** Data written by tss-benchgen, whose parties have their index by the order of their
    share ids, is such data. *)
Theorem C201_generated {M K} (parse : bytes -> option K) (share_id : K -> Z) (ks : list Z)
    quorum parties dir rest mkdir (fs : fsys) (ls : list (llabel M saved)) fs' q :
  no_orphans fs -> gen_main quorum parties (dir :: rest) mkdir fs ls = (BExit 0, fs') ->
  increasing ks -> Z.of_nat (length ks) = parties ->
  NoDup (map sv_index (take (length ks) (results ls))) ->
  (forall e, e ∈ results ls -> exists i k, sv_index e = Some (Z.of_nat i) /\ parse (sv_data e) = Some k /\ ks !! i = Some (share_id k)) ->
  (0 <= q <= parties)%Z ->
  exists ps, signers parse share_id dir fs' (q - 1) = Some ps /\ Z.of_nat (length ps) = q /\
    Forall (own_data share_id) ps /\ map (fun p => share_id (snd p)) ps = take (Z.to_nat q) ks.
Proof.
  intros O G Inc Lk ND Hsv Hq. destruct (C198_shares_written _ _ _ _ _ _ _ O G) as (_ & dir' & rest' & es & e & r & Ea & _ & Hr & Hl & _ & Hw).
  injection Ea as <- <-. set (all := es ++ [e]) in *. assert (Ht : take (length ks) (results ls) = all) by (rewrite Hr; replace (length ks) with (length all) by lia; apply take_app).
  rewrite Ht in ND. specialize (Hw ND).
  assert (Hall : forall x, x ∈ all -> x ∈ results ls) by (intros x Hx; rewrite Hr; apply elem_of_app; left; exact Hx).
  (* the indices are all numbers below parties *)
  assert (Hidx : forall i, i < length ks -> exists x, x ∈ all /\ sv_index x = Some (Z.of_nat i)).
  { assert (P : map sv_index all ≡ₚ map (fun i => Some (Z.of_nat i)) (seq 0 (length ks))).
    { apply submseteq_Permutation_length_eq; [rewrite !map_length, seq_length; lia|]. apply NoDup_submseteq; [exact ND|].
      intros o Ho. apply elem_of_list_fmap in Ho as (x & -> & Hx). destruct (Hsv x (Hall x Hx)) as (i & k & Hi & _ & Hk). rewrite Hi.
      apply elem_of_list_fmap. exists i. split; [reflexivity|]. apply elem_of_seq. apply lookup_lt_Some in Hk. lia. }
    intros i Hi. assert (Some (Z.of_nat i) ∈ map sv_index all) as Hin by (rewrite P; apply elem_of_list_fmap; exists i; split; [reflexivity|]; apply elem_of_seq; lia).
    apply elem_of_list_fmap in Hin as (x & Hx1 & Hx2). exists x. auto. }
  assert (Hkeys : forall n, n <= length ks -> exists keys, length keys = n /\ holds parse fs' dir keys /\ map share_id keys = take n ks).
  { induction n as [|n IH]; intros Hn; [exists []; split; [reflexivity|]; split; [intros i k Hi; discriminate Hi|reflexivity]|].
    destruct IH as (keys & L & Hh & Hm); [lia|]. destruct (Hidx n) as (x & Hx & Hi); [lia|].
    destruct (Hsv x (Hall x Hx)) as (i & k & Hi' & Hp & Hk). rewrite Hi in Hi'. injection Hi' as Hi'. apply Nat2Z.inj in Hi'. subst i.
    exists (keys ++ [k]). split; [rewrite app_length, L; cbn [length]; lia|]. split.
    - intros j y Hj. apply lookup_app_Some in Hj as [Hj|[Hj1 Hj2]]; [apply Hh, Hj|].
      destruct (j - length keys) as [|d] eqn:Ed; cbn in Hj2; [|destruct d; discriminate Hj2]. injection Hj2 as <-. assert (j = n) by lia. subst j.
      destruct (Hw x Hx) as (z & Hz & Hf). rewrite Hi in Hz. injection Hz as <-. exists (sv_data x). split; [|exact Hp].
      rewrite <- path_nat. exact Hf.
    - rewrite map_app, Hm. cbn [map]. rewrite (take_S_r _ _ _ Hk). reflexivity. }
  destruct (Hkeys (Z.to_nat q)) as (keys & L & Hh & Hm); [lia|].
  destruct (C201_first_files parse share_id dir fs' q ltac:(lia)) as (_ & H2). destruct (H2 keys ltac:(lia) Hh) as (ps & Hps & Hsnd).
  assert (Hsid : map (fun p => share_id (snd p)) ps = take (Z.to_nat q) ks) by (rewrite <- Hm, <- Hsnd, map_map; reflexivity).
  assert (It : increasing (take (Z.to_nat q) ks)).
  { intros i j a b Lij Ha Hb. rewrite lookup_take_Some in Ha, Hb. eapply Inc; [exact Lij|apply Ha|apply Hb]. }
  exists ps. split; [exact Hps|]. split; [rewrite <- (map_length snd), Hsnd, L; lia|]. split; [|exact Hsid].
  apply (C201_own_data_iff parse share_id dir fs' q ps ltac:(lia) Hps); rewrite Hsid; [apply increasing_sorted, It|exact It].
Qed.
Print Assumptions C201_generated.

(** Two parties and their data *)
Definition bench_ends : list (llabel nat saved) :=
  [LMessage 7 0%Z None; LEnd (Saved (Some 1%Z) ["1"%char] Written true); LMessage 8 1%Z (Some [0%Z]); LEnd (Saved (Some 0%Z) ["0"%char] Written true)].
Example C198_ex : exists fs', gen_main 2 2 ["d"%string] true ∅ bench_ends = (BExit 0, fs') /\
  fs' !! share_path "d" 0 = Some (NFile ["0"%char]) /\ fs' !! share_path "d" 1 = Some (NFile ["1"%char]) /\ no_orphans ∅ /\
  NoDup (map sv_index (results bench_ends)).
Proof.
  eexists. split; [reflexivity|]. split; [vm_compute; reflexivity|]. split; [vm_compute; reflexivity|]. split; [intros dir p _; apply lookup_empty|].
  cbn. repeat constructor; set_solver.
Qed.
Example C199_ex : l_got (l_run 3 (keep_saved "d") sv_curve ∅ bench_ends) = [(1%Z, 7); (2%Z, 7); (0%Z, 8)].
Proof. vm_compute. reflexivity. Qed.
Example C201_ex : exists fs' ps, gen_main 2 2 ["d"%string] true ∅ bench_ends = (BExit 0, fs') /\
  signers bench_parse id "d" fs' (2 - 1) = Some ps /\ Forall (own_data id) ps /\ increasing [48; 49]%Z.
Proof.
  eexists _, _. split; [reflexivity|]. split; [vm_compute; reflexivity|]. split; [repeat constructor|].
  intros i j x y L Hx Hy. destruct i as [|[|i]]; destruct j as [|[|j]]; cbn in Hx, Hy; try discriminate; try lia. injection Hx as <-. injection Hy as <-. lia.
Qed.
(** Files the other way round: each party is given the data of the other. *)
Example C201_ex_other : exists ps, signers bench_parse id "d"
    (<[share_path "d" 0 := NFile ["1"%char]]> (<[share_path "d" 1 := NFile ["0"%char]]> ∅)) (2 - 1) = Some ps /\ Forall (fun p => ~ own_data id p) ps.
Proof. eexists. split; [vm_compute; reflexivity|]. repeat constructor; unfold own_data; cbn; lia. Qed.
