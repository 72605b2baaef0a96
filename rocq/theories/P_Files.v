(** C166: where the files are written. *)
From Coq Require Import ZArith NArith Ascii String List Lia.
From stdpp Require Import base list strings gmap.
From Verif Require Import Base L_Base M_Json M_Storage S_Storage L_Storage S_Path P_Storage.
Local Open Scope string_scope.

Definition pre (cur : string) (l : list string) : list string :=
  match l with [] => [cur] | h :: t => String.append cur h :: t end.
Lemma append_nil s : String.append s "" = s.
Proof. apply to_bytes_inj. rewrite to_bytes_app, app_nil_r. reflexivity. Qed.
Lemma walk_slash dir cur r : walk dir cur (String "/" r) = walk (enter dir cur) "" r.
Proof. reflexivity. Qed.
Lemma walk_char dir cur a r : a <> "/"%char -> walk dir cur (String a r) = walk dir (String.append cur (String a "")) r.
Proof. intros H. destruct a as [[] [] [] [] [] [] [] []]; try reflexivity; contradiction. Qed.
Lemma walk_fold p : forall dir cur, walk dir cur p = fold_left enter (pre cur (split_on "/" p)) dir.
Proof.
  induction p as [|a p IH]; intros dir cur; [cbn; rewrite append_nil; reflexivity|].
  destruct (decide (a = "/"%char)) as [->|N].
  - rewrite walk_slash, IH. cbn [split_on]. destruct (decide ("/"%char = "/"%char)) as [_|X]; [|contradiction].
    cbn [pre fold_left]. rewrite append_nil. destruct (split_on "/" p) eqn:E; [destruct (split_ne _ _ E)|reflexivity].
  - rewrite walk_char, IH by exact N. cbn [split_on]. destruct (decide (a = "/"%char)) as [X|_]; [contradiction|].
    destruct (split_on "/" p) eqn:E; [destruct (split_ne _ _ E)|]. cbn [pre fold_left]. rewrite append_assoc. reflexivity.
Qed.
Lemma rooted_spec p : is_rooted p = true -> exists r, p = String "/" r.
Proof. destruct p as [|[[] [] [] [] [] [] [] []] r]; try discriminate. eauto. Qed.
Lemma resolve_fold cwd p :
  resolve cwd p = fold_left enter (split_on "/" p) (if is_rooted p then [] else cwd).
Proof.
  destruct (is_rooted p) eqn:R.
  - destruct (rooted_spec p R) as [r ->]. unfold resolve. rewrite walk_fold. reflexivity.
  - assert (E : resolve cwd p = walk cwd "" p) by (destruct p as [|[[] [] [] [] [] [] [] []] r]; try reflexivity; discriminate).
    rewrite E, walk_fold. destruct (split_on "/" p) eqn:X; [destruct (split_ne _ _ X)|reflexivity].
Qed.

(** The path that is cleaned and the one that is not lead to the same place. *)
Lemma enter_plain dir c : file_name c -> enter dir c = c :: dir.
Proof. intros (_ & H0 & H1 & H2). unfold enter. rewrite !decide_False; tauto. Qed.
Lemma enter_up dir : enter dir ".." = List.tl dir.
Proof. reflexivity. Qed.
Definition tidy (rooted : bool) (st : list string) : Prop :=
  exists a n, st = (a ++ replicate n "..")%list /\ Forall file_name a /\ (rooted = true -> n = 0).
Lemma clean_walk rooted cwd l : Forall (fun x => "/"%char ∉ to_bytes x) l -> (rooted = true -> cwd = []) ->
  forall st, tidy rooted st ->
  let st' := fold_left (clean_step rooted) l st in
  tidy rooted st' /\ fold_left enter (rev st') cwd = fold_left enter l (fold_left enter (rev st) cwd).
Proof.
  intros Hl Hcwd. induction Hl as [|c l Hc Hl IH]; intros st Hst; [auto|]. cbv zeta in *. cbn [fold_left].
  assert (H : tidy rooted (clean_step rooted st c) /\
    fold_left enter (rev (clean_step rooted st c)) cwd = enter (fold_left enter (rev st) cwd) c).
  { clear IH. unfold clean_step. destruct (String.eqb_spec c "") as [->|N0]; [auto|].
    destruct (String.eqb_spec c ".") as [->|N1]; [auto|]. cbn [orb].
    destruct (String.eqb_spec c "..") as [->|N2].
    - destruct Hst as (a & n & -> & Ha & Hn). destruct a as [|t a].
      + destruct n as [|n]; cbn [app replicate].
        * destruct rooted; [rewrite Hcwd by reflexivity; split; [exists [], 0; auto|reflexivity]|].
          split; [exists [], 1; repeat split; auto; discriminate|reflexivity].
        * rewrite String.eqb_refl. split.
          { exists [], (S (S n)). split; [reflexivity|]. split; [constructor|]. intros X. specialize (Hn X). discriminate. }
          cbn [rev]. rewrite !fold_left_app. reflexivity.
      + cbn [app]. apply Forall_cons_1 in Ha as [Ht Ha]. destruct (String.eqb_spec t "..") as [->|_].
        { destruct Ht as (_ & _ & _ & X). contradiction. }
        split; [exists a, n; auto|]. cbn [rev]. rewrite fold_left_app. cbn [fold_left]. rewrite (enter_plain _ t Ht).
        rewrite enter_up. reflexivity.
    - assert (Hf : file_name c) by (repeat split; auto). split.
      + destruct Hst as (a & n & -> & Ha & Hn). exists (c :: a), n. split; [reflexivity|]. auto.
      + cbn [rev]. rewrite fold_left_app. reflexivity. }
  destruct H as [H1 H2]. destruct (IH _ H1) as [H3 H4]. split; [exact H3|]. rewrite H4, H2. reflexivity.
Qed.
Lemma split_parts c s : Forall (fun x => c ∉ to_bytes x) (split_on c s).
Proof.
  induction s as [|a s IH]; [constructor; [intros X; inversion X|constructor]|]. cbn [split_on].
  destruct (decide (a = c)) as [->|N]; [constructor; [intros X; inversion X|exact IH]|].
  destruct (split_on c s) as [|h t]; [constructor; [|constructor]|].
  - cbn. intros X. apply elem_of_list_singleton in X. congruence.
  - inversion IH; subst. constructor; [|assumption]. cbn. intros X. apply elem_of_cons in X as [X|X]; [congruence|contradiction].
Qed.
Lemma split_join l : l <> [] -> Forall (fun x => "/"%char ∉ to_bytes x) l -> split_on "/" (join_strings "/" l) = l.
Proof.
  intros Hn Hl. induction Hl as [|c l Hc Hl IH]; [contradiction|]. destruct l as [|d l]; [apply split_none, Hc|].
  change (join_strings "/" (c :: d :: l)) with (String.append c (String "/" (join_strings "/" (d :: l)))).
  rewrite split_app by exact Hc. rewrite IH by discriminate. reflexivity.
Qed.
Lemma tidy_parts r st : tidy r st -> Forall (fun x => "/"%char ∉ to_bytes x) st /\ Forall (fun x => x <> "") st.
Proof.
  intros (a & n & -> & Ha & _). split; apply Forall_app; split.
  - eapply Forall_impl; [exact Ha|]. intros x (H & _). exact H.
  - apply Forall_replicate. apply (bool_decide_unpack _). vm_compute. exact I.
  - eapply Forall_impl; [exact Ha|]. intros x (_ & H & _). exact H.
  - apply Forall_replicate. discriminate.
Qed.
Lemma join_not_rooted l : l <> [] -> Forall (fun x => "/"%char ∉ to_bytes x) l -> Forall (fun x => x <> "") l ->
  is_rooted (join_strings "/" l) = false.
Proof.
  intros Hn H1 H2. destruct l as [|c l]; [contradiction|]. apply Forall_cons_1 in H1 as [H1 _], H2 as [H2 _].
  destruct c as [|x c]; [contradiction|]. assert (x <> "/"%char) by (intros ->; apply H1; left).
  assert (E : exists t, join_strings "/" (String x c :: l) = String x t) by (destruct l; eexists; reflexivity).
  destruct E as [t ->]. destruct x as [[] [] [] [] [] [] [] []]; try reflexivity; contradiction.
Qed.
Lemma resolve_clean cwd p : resolve cwd (Clean p) = resolve cwd p.
Proof.
  rewrite !resolve_fold. unfold Clean.
  destruct (clean_walk (is_rooted p) (if is_rooted p then [] else cwd) (split_on "/" p) (split_parts _ _)
    ltac:(destruct (is_rooted p); [reflexivity|discriminate]) []) as [Ht Hw].
  { exists [], 0. auto. }
  cbv zeta in Ht, Hw. set (st := fold_left (clean_step (is_rooted p)) (split_on "/" p) []) in *.
  cbn [rev fold_left] in Hw. rewrite <- Hw. destruct (tidy_parts _ _ Ht) as [H1 H2].
  destruct (decide (st = [])) as [E|E]; [rewrite E; destruct (is_rooted p); reflexivity|].
  assert (Hn : rev st <> []).
  { intros X. apply (f_equal (@rev _)) in X. rewrite rev_involutive in X. exact (E X). }
  apply Forall_rev in H1. apply Forall_rev in H2.
  assert (M : match st with [] => if is_rooted p then "/" else "." | _ =>
    String.append (if is_rooted p then "/" else "") (join_strings "/" (rev st)) end =
    String.append (if is_rooted p then "/" else "") (join_strings "/" (rev st))) by (destruct st; [contradiction|reflexivity]).
  rewrite M. destruct (is_rooted p).
  - change (String.append "/" ?x) with (String "/" x). cbn [is_rooted split_on].
    destruct (decide ("/"%char = "/"%char)) as [_|X]; [|contradiction]. rewrite split_join by assumption. reflexivity.
  - change (String.append "" ?x) with x. rewrite join_not_rooted, split_join by assumption. reflexivity.
Qed.
Lemma resolve_in cwd folder n : file_name n ->
  resolve cwd (if Nat.ltb 0 (String.length folder) then Join folder n else n) = n :: resolve cwd folder.
Proof.
  intros Hn. rewrite !resolve_fold. destruct folder as [|a f].
  - cbn [String.length Nat.ltb Nat.leb]. rewrite (split_none _ n) by apply Hn.
    assert (R : is_rooted n = false).
    { destruct n as [|x n]; [reflexivity|]. assert (x <> "/"%char) by (intros ->; apply (proj1 Hn); left).
      destruct x as [[] [] [] [] [] [] [] []]; try reflexivity; contradiction. }
    rewrite R. cbn [fold_left]. rewrite enter_plain by exact Hn. reflexivity.
  - cbn [String.length Nat.ltb Nat.leb]. set (folder := String a f).
    rewrite <- resolve_fold. unfold Join. rewrite resolve_clean, resolve_fold.
    change (String.append "/" n) with (String "/" n). rewrite split_sep, fold_left_app, (split_none _ n) by apply Hn.
    assert (R : is_rooted (String.append folder (String "/" n)) = is_rooted folder) by reflexivity.
    rewrite R. cbn [fold_left]. apply enter_plain, Hn.
Qed.

(** ** C166 *)

(** Whatever is saved, and however it ends, only one file can change: the one with the
    name of the key, or of the address book, in the node's folder, or in the current
    directory when no folder is set. *)
Theorem C166_written_in_the_folder F fs o p cwd :
  fs_laws F -> frun1 F fs o !! p <> fs !! p ->
  resolve cwd p =
    match o with
    | OSave s _ => String.append "localstate-" (String.append (st_pub s) ".json")
    | OBook _ _ => "address_book.seed"
    end :: resolve cwd (fe_folder F).
Proof.
  intros HL. destruct o as [s w|b w]; cbn [frun1]; intros Hne.
  - destruct (save_cases F s w fs) as [[_ Hs]|(q & buf & Ha & Hq & Hb & Hs)]; [rewrite Hs in Hne; contradiction|].
    rewrite Hs in Hne. destruct (decide (q = p)) as [->|N]; [|rewrite write_other in Hne by exact N; contradiction].
    unfold getFilePathName in Hq. destruct (fe_curve F (st_pub s)) as [[]|] eqn:Hc; try discriminate.
    injection Hq as <-. apply resolve_in, state_name_file, (fl_key F HL _ Hc).
  - unfold SaveAddressBook in Hne. destruct (Nat.ltb_spec (String.length (fe_folder F)) 1) as [Hf|Hf]; [contradiction|].
    destruct (decide (book_path F = p)) as [<-|N]; [|rewrite write_other in Hne by exact N; contradiction].
    pose proof (resolve_in cwd (fe_folder F) _ book_name_file) as H.
    destruct (Nat.ltb_spec 0 (String.length (fe_folder F))) as [_|X]; [exact H|lia].
Qed.
Print Assumptions C166_written_in_the_folder.

(** Over a whole history nothing else on the disk changes. *)
Theorem C166_nothing_else_changes F fs ops p cwd :
  fs_laws F -> frun F fs ops !! p <> fs !! p ->
  exists name, resolve cwd p = name :: resolve cwd (fe_folder F) /\
    (name = "address_book.seed" \/
     exists s w, OSave s w ∈ ops /\ name = String.append "localstate-" (String.append (st_pub s) ".json")).
Proof.
  intros HL. induction ops as [|o ops IH] using rev_ind; [intros X; destruct (X eq_refl)|].
  unfold frun in *. rewrite fold_left_app. cbn [fold_left]. set (fs' := fold_left (frun1 F) ops fs) in *. intros Hne.
  destruct (decide (frun1 F fs' o !! p = fs' !! p)) as [E|E].
  - rewrite E in Hne. destruct (IH Hne) as (name & Hr & Hn). exists name. split; [exact Hr|].
    destruct Hn as [Hn|(s & w & Hs & Hn)]; [auto|]. right. exists s, w. split; [|exact Hn]. apply elem_of_app. auto.
  - pose proof (C166_written_in_the_folder F fs' o p cwd HL E) as H. eexists. split; [exact H|].
    destruct o as [s w|b w]; [|auto]. right. exists s, w. split; [|reflexivity]. apply elem_of_app. right. left.
Qed.
Print Assumptions C166_nothing_else_changes.

Example C166_case :
  fs_laws toy_fs /\ resolve ["home"] (fe_folder toy_fs) = ["data"] /\
  resolve ["home"] "../x/./y" = ["y"; "x"] /\
  (let o := OSave toy_old WDone in
   frun1 toy_fs ∅ o !! "/data/localstate-k1.json" <> (∅ : files) !! "/data/localstate-k1.json").
Proof. split; [apply toy_laws|]. split; [reflexivity|]. split; [reflexivity|]. vm_compute. discriminate. Qed.
