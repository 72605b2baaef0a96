(** Lemmas about paths, files and the address book. *)
From Coq Require Import ZArith NArith Ascii String List Lia.
From stdpp Require Import base list strings gmap.
From Verif Require Import Base L_Base S_Utf8 L_Utf8 M_Json L_Json S_Json L_JsonSpec M_Storage S_Storage.

(** ** Strings *)
Lemma append_cons c a b : String.append (String c a) b = String c (String.append a b).
Proof. reflexivity. Qed.
Lemma append_assoc a b c : String.append (String.append a b) c = String.append a (String.append b c).
Proof. apply to_bytes_inj. rewrite !to_bytes_app, app_assoc. reflexivity. Qed.
Lemma append_inj_l a b c : String.append a b = String.append a c -> b = c.
Proof. intros H. apply (f_equal to_bytes) in H. rewrite !to_bytes_app in H. apply app_inv_head in H. apply to_bytes_inj, H. Qed.
Lemma append_inj_r a b c : String.append a c = String.append b c -> a = b.
Proof. intros H. apply (f_equal to_bytes) in H. rewrite !to_bytes_app in H. apply app_inv_tail in H. apply to_bytes_inj, H. Qed.

Lemma split_none c s : c ∉ to_bytes s -> split_on c s = [s].
Proof.
  induction s as [|a s IH]; simpl; [reflexivity|]. intros H. apply not_elem_of_cons in H as [Ha Hs].
  destruct (decide (a = c)) as [->|_]; [contradiction|]. unfold to_bytes in IH. rewrite IH by exact Hs. reflexivity.
Qed.
Lemma split_app c s t : c ∉ to_bytes s -> split_on c (String.append s (String c t)) = s :: split_on c t.
Proof.
  induction s as [|a s IH]; rewrite ?append_cons; simpl.
  - intros _. destruct (decide (c = c)); [reflexivity|contradiction].
  - intros H. apply not_elem_of_cons in H as [Ha Hs]. destruct (decide (a = c)) as [->|_]; [contradiction|].
    rewrite IH by exact Hs. reflexivity.
Qed.
Lemma split_ne c s : split_on c s <> [].
Proof. destruct s as [|a s]; simpl; [discriminate|]. destruct (decide _); [discriminate|]. destruct (split_on c s); discriminate. Qed.
Lemma split_sep c s t : split_on c (String.append s (String c t)) = split_on c s ++ split_on c t.
Proof.
  induction s as [|a s IH]; rewrite ?append_cons; simpl.
  - destruct (decide (c = c)); [reflexivity|contradiction].
  - destruct (decide (a = c)); rewrite IH; [reflexivity|]. pose proof (split_ne c s).
    destruct (split_on c s); [contradiction|reflexivity].
Qed.

(** ** Paths *)
Definition file_name (n : string) : Prop :=
  "/"%char ∉ to_bytes n /\ n <> ""%string /\ n <> "."%string /\ n <> ".."%string.
Lemma join_strings_snoc l n : join_strings "/" (l ++ [n]) =
  match l with [] => n | _ => String.append (join_strings "/" l) (String.append "/" n) end.
Proof.
  induction l as [|x l IH]; [reflexivity|]. destruct l as [|y l]; [reflexivity|].
  change ((x :: y :: l) ++ [n]) with (x :: y :: (l ++ [n])).
  change (join_strings "/" (x :: y :: (l ++ [n]))) with
    (String.append x (String.append "/" (join_strings "/" ((y :: l) ++ [n])))).
  rewrite IH. cbn [join_strings]. rewrite !append_assoc. reflexivity.
Qed.
Lemma Join_prefix folder : folder <> ""%string -> exists pre, forall n, file_name n -> Join folder n = String.append pre n.
Proof.
  intros Hf.
  set (st := fold_left (clean_step (is_rooted folder)) (split_on "/" folder) []).
  exists (String.append (if is_rooted folder then "/" else "")
    (match rev st with [] => "" | _ => String.append (join_strings "/" (rev st)) "/" end)).
  intros n (Hs & H0 & H1 & H2). unfold Join, Clean.
  assert (Hr : is_rooted (String.append folder (String.append "/" n)) = is_rooted folder).
  { destruct folder; [contradiction|reflexivity]. }
  rewrite Hr. change (String.append "/" n) with (String "/" n). rewrite split_sep, fold_left_app, (split_none _ _ Hs).
  fold st. cbn [fold_left]. unfold clean_step.
  destruct (String.eqb_spec n ""); [contradiction|]. destruct (String.eqb_spec n "."); [contradiction|].
  destruct (String.eqb_spec n ".."); [contradiction|]. cbn [orb]. cbn [rev]. rewrite join_strings_snoc, append_assoc.
  f_equal. destruct (rev st); [reflexivity|]. rewrite append_assoc. reflexivity.
Qed.
Lemma Join_inj folder a b : folder <> ""%string -> file_name a -> file_name b -> Join folder a = Join folder b -> a = b.
Proof.
  intros Hf Ha Hb H. destruct (Join_prefix folder Hf) as [pre Hp]. rewrite (Hp a Ha), (Hp b Hb) in H.
  apply append_inj_l in H. exact H.
Qed.
Lemma state_name_file k : "/"%char ∉ to_bytes k -> file_name (state_name k).
Proof.
  intros Hk. unfold state_name. split; [|repeat split; discriminate].
  rewrite !to_bytes_app. intros H. apply elem_of_app in H as [H|H]; [|apply elem_of_app in H as [H|H]; [contradiction|]];
    vm_compute in H; repeat (apply elem_of_cons in H as [H|H]; [discriminate|]); inversion H.
Qed.
Lemma book_name_file : file_name "address_book.seed".
Proof.
  split; [|repeat split; discriminate]. intros H. vm_compute in H.
  repeat (apply elem_of_cons in H as [H|H]; [discriminate|]); inversion H.
Qed.
Lemma state_name_inj a b : state_name a = state_name b -> a = b.
Proof. unfold state_name. intros H. apply append_inj_l, append_inj_r in H. exact H. Qed.

(** ** States *)
Section S.
  Context (F : fsenv) (L : fs_laws F).

  Lemma path_some k : fe_curve F k = Some true -> exists p, getFilePathName F k = Some p.
  Proof. unfold getFilePathName. intros ->. eauto. Qed.
  Lemma path_inj a b p : getFilePathName F a = Some p -> getFilePathName F b = Some p -> a = b.
  Proof.
    unfold getFilePathName. destruct (fe_curve F a) as [[]|] eqn:Ha; try discriminate.
    destruct (fe_curve F b) as [[]|] eqn:Hb; try discriminate.
    destruct (fl_key F L a Ha) as (_ & Ha' & _), (fl_key F L b Hb) as (_ & Hb' & _).
    destruct (Nat.ltb_spec 0 (String.length (fe_folder F))) as [Hf|Hf]; intros [= <-] [= H].
    - apply state_name_inj. symmetry. apply (Join_inj (fe_folder F)); auto using state_name_file.
      intros He. rewrite He in Hf. simpl in Hf. lia.
    - symmetry. apply append_inj_r in H. exact H.
  Qed.
  Lemma path_book k p : fe_folder F <> ""%string -> getFilePathName F k = Some p -> p <> book_path F.
  Proof.
    unfold getFilePathName, book_path. intros Hf. destruct (fe_curve F k) as [[]|] eqn:Hk; try discriminate.
    destruct (fl_key F L k Hk) as (_ & Hk' & _).
    destruct (Nat.ltb_spec 0 (String.length (fe_folder F))) as [Hl|Hl]; intros [= <-].
    - intros He. apply (Join_inj (fe_folder F)) in He; auto using state_name_file, book_name_file. discriminate.
    - destruct (fe_folder F); [contradiction|simpl in Hl; lia].
  Qed.

  Lemma save_cases s w fs :
    (accepted F s = false /\ SaveLocalState F s w fs = (fs, false)) \/
    (exists p b, accepted F s = true /\ getFilePathName F (st_pub s) = Some p /\ marshal_state F s = Some b /\
       SaveLocalState F s w fs = WriteFile p b w fs).
  Proof.
    unfold SaveLocalState, accepted, marshal_state, getFilePathName.
    destruct (fe_data F (st_data s)) as [d|]; [|left; split; [destruct (fe_curve F _) as [[]|]; reflexivity|reflexivity]].
    destruct (fe_curve F (st_pub s)) as [[]|]; [right; eauto 10|left; auto|left; auto].
  Qed.
  Lemma book_cases b w fs :
    SaveAddressBook F b w fs = (fs, false) \/
    (fe_folder F <> ""%string /\ SaveAddressBook F b w fs = WriteFile (book_path F) (to_bytes (book_text b)) w fs).
  Proof.
    unfold SaveAddressBook. destruct (Nat.ltb_spec (String.length (fe_folder F)) 1) as [H|H]; [left; reflexivity|right].
    split; [|reflexivity]. intros He. rewrite He in H. simpl in H. lia.
  Qed.
  Lemma write_other p q b w fs : p <> q -> fst (WriteFile p b w fs) !! q = fs !! q.
  Proof. intros Hne. destruct w; simpl; auto; apply lookup_insert_ne, Hne. Qed.

  (** What one operation does to the file of a key. *)
  Lemma frun1_lookup k p o fs : getFilePathName F k = Some p ->
    frun1 F fs o !! p = match o with
      | OSave s w => if (String.eqb (st_pub s) k && accepted F s)%bool then
          match marshal_state F s, w with
          | Some b, WPartial n => Some (take n b)
          | Some b, WDone => Some b
          | _, _ => fs !! p end
        else fs !! p
      | OBook _ _ => fs !! p end.
  Proof.
    intros Hp. destruct o as [s w|b w]; simpl.
    - destruct (save_cases s w fs) as [[Ha Hs]|(q & b & Ha & Hq & Hb & Hs)]; rewrite Ha, Hs.
      + rewrite andb_false_r. reflexivity.
      + rewrite andb_true_r, Hb. destruct (String.eqb_spec (st_pub s) k) as [Hk|Hk].
        * subst k. rewrite Hq in Hp. injection Hp as ->. destruct w; simpl; try reflexivity; apply lookup_insert.
        * apply write_other. intros ->. apply Hk. apply (path_inj _ _ p); assumption.
    - destruct (book_cases b w fs) as [Hs|[Hf Hs]]; rewrite Hs; [reflexivity|].
      apply write_other. intros He. exact (path_book k p Hf Hp (eq_sym He)).
  Qed.
  Lemma frun1_book o fs : fe_folder F <> ""%string ->
    match o with OSave _ _ => frun1 F fs o !! book_path F = fs !! book_path F | OBook _ _ => True end.
  Proof.
    intros Hf. destruct o as [s w|]; [|exact I]. simpl.
    destruct (save_cases s w fs) as [[Ha Hs]|(q & b & Ha & Hq & Hb & Hs)]; rewrite Hs; [reflexivity|].
    apply write_other. exact (path_book _ _ Hf Hq).
  Qed.

  (** The file of a key after a history. *)
  Definition content (c : option (stored * bool)) (f : option bytes) : Prop :=
    match c with
    | None => f = None
    | Some (s, true) => exists b, marshal_state F s = Some b /\ f = Some b
    | Some (s, false) => exists b n, marshal_state F s = Some b /\ f = Some (take n b)
    end.
  Lemma frun_content k p ops : getFilePathName F k = Some p -> content (last_attempt F k ops) (frun F ∅ ops !! p).
  Proof.
    intros Hp. unfold last_attempt, frun. induction ops as [|o ops IH] using rev_ind; [apply lookup_empty|].
    rewrite !fold_left_app. cbn [fold_left]. set (fs := fold_left (frun1 F) ops ∅) in *.
    set (c := fold_left (attempt F k) ops None) in *. rewrite (frun1_lookup k p o fs Hp). unfold attempt.
    destruct o as [s w|]; [|exact IH]. destruct (String.eqb (st_pub s) k && accepted F s)%bool eqn:He; [|exact IH].
    apply andb_true_iff in He as [_ Ha]. unfold accepted in Ha.
    destruct (fe_curve F (st_pub s)) as [[]|]; try discriminate. destruct (fe_data F (st_data s)) eqn:Hd; [|discriminate].
    assert (Hb : exists b, marshal_state F s = Some b) by (unfold marshal_state; rewrite Hd; eauto).
    destruct Hb as [b Hb]. rewrite Hb. destruct w; [exact IH| |]; simpl; eauto.
  Qed.

  (** A text that was written is read back. *)
  Lemma put_strings_map l : put_strings (map JStr l) = Some l.
  Proof. induction l as [|x l IH]; [reflexivity|]. cbn [map put_strings put_string]. rewrite IH. reflexivity. Qed.
  Lemma round_trip s b : fe_curve F (st_pub s) = Some true -> state_texts s -> marshal_state F s = Some b -> unmarshal_state F b = Some s.
  Proof.
    intros Hc [Hp Hl]. unfold marshal_state. destruct (fe_data F (st_data s)) as [d|] eqn:Hd; [|discriminate]. intros Hb.
    apply Some_inj in Hb. subst b. unfold unmarshal_state. rewrite json_dec_enc.
    2: { constructor. repeat (apply Forall_cons; split); try apply Forall_nil_2; (split; [apply ascii_string; reflexivity|]); cbn [snd].
      - constructor. apply (fl_key F L _ Hc).
      - apply (fl_data F L _ _ Hd).
      - destruct (st_participants s) as [l|]; [|constructor]. constructor.
        clear -Hp. induction Hp; constructor; [constructor; assumption|assumption].
      - constructor. exact Hl. }
    2: { destruct (fl_data F L _ _ Hd) as (_ & Hn & _). apply nested_iff in Hn.
      set (x := match st_participants s with Some _ => _ | None => _ end).
      assert (Hx : (nesting x <= 1)%N) by (unfold x; destruct (st_participants s); [apply nesting_strings|cbn; lia]).
      clearbody x. cbn [nesting map fold_right snd]. unfold max_nesting. lia. }
    cbn [fold_left]. unfold put_field. cbn [fst snd].
    change (fold_name "pub_key") with "pub_key"%string. change (fold_name "local_data") with "local_data"%string.
    change (fold_name "participant_keys") with "participant_keys"%string.
    change (fold_name "local_party_key") with "local_party_key"%string.
    cbn [String.eqb Ascii.eqb Bool.eqb put_string]. rewrite (proj2 (proj2 (fl_data F L _ _ Hd))).
    clear Hc Hp Hl. destruct s as [p sd parts l]. cbn [st_pub st_data st_participants st_local].
    destruct parts as [ps|]; [|reflexivity]. rewrite put_strings_map. reflexivity.
  Qed.

  (** A cut text is not. *)
  Lemma cut_none s b n : marshal_state F s = Some b -> n < length b -> unmarshal_state F (take n b) = None.
  Proof.
    unfold marshal_state. destruct (fe_data F (st_data s)) as [d|] eqn:Hd; [|discriminate]. intros Hb Hn.
    apply Some_inj in Hb. subst b. unfold unmarshal_state. rewrite json_dec_cut by exact Hn. reflexivity.
  Qed.
End S.

(** ** The address book *)
Lemma prefix_app a b : String.prefix a b = true <-> exists y, b = String.append a y.
Proof.
  revert b. induction a as [|x a IH]; intros b.
  - split; [intros _; exists b; reflexivity|intros _; destruct b; reflexivity].
  - destruct b as [|y b]; [split; [discriminate|intros [z Hz]; discriminate]|].
    change (String.prefix (String x a) (String y b)) with (if ascii_dec x y then String.prefix a b else false).
    destruct (ascii_dec x y) as [->|Hne].
    + rewrite IH. split; intros [z Hz]; exists z; rewrite ?append_cons in *; [congruence|injection Hz; auto].
    + split; [discriminate|]. intros [z Hz]. rewrite append_cons in Hz. injection Hz as -> _. contradiction.
Qed.
Lemma contains_spec sub s : str_contains sub s = true <-> exists x y, s = String.append x (String.append sub y).
Proof.
  induction s as [|c s IH]; cbn [str_contains]; rewrite orb_true_iff, prefix_app.
  - split.
    + intros [[y Hy]|H]; [exists ""%string, y; exact Hy|discriminate].
    + intros (x & y & H). left. destruct x; [exists y; exact H|discriminate].
  - rewrite IH. split.
    + intros [[y Hy]|(x & y & H)]; [exists ""%string, y; exact Hy|]. exists (String c x), y. rewrite append_cons. congruence.
    + intros ([|d x] & y & H); [left; exists y; exact H|]. right. exists x, y. rewrite append_cons in H. injection H; auto.
Qed.
Lemma records_lines book : book_lines book (records book).
Proof.
  induction book as [|[p addrs] rest IH]; [constructor|]. unfold records. cbn [flat_map]. fold (records rest).
  induction addrs as [|a addrs IHa]; [constructor; exact IH|]. cbn [flat_map].
  destruct (str_contains "127.0.0.1" a) eqn:Hc.
  - apply bl_skip; [apply contains_spec, Hc|exact IHa].
  - apply bl_keep; [|exact IHa]. intros H. apply contains_spec in H. congruence.
Qed.
Lemma book_lines_fun book l l' : book_lines book l -> book_lines book l' -> l = l'.
Proof.
  intros H. revert l'. induction H as [|p rest l H IH|p a addrs rest l Hc H IH|p a addrs rest l Hc H IH]; intros l' H';
    inversion H'; subst; auto; try contradiction. f_equal. auto.
Qed.
Lemma records_one_line book : one_line book -> Forall (fun r => newline ∉ to_bytes r /\ r <> ""%string) (records book).
Proof.
  unfold one_line. induction 1 as [|[p addrs] rest [Hp Ha] _ IH]; [constructor|].
  unfold records. cbn [flat_map]. fold (records rest). apply Forall_app. split; [|exact IH]. cbn [fst snd] in *.
  induction Ha as [|a addrs Ha _ IHa]; [constructor|]. cbn [flat_map]. apply Forall_app. split; [|exact IHa].
  destruct (str_contains _ _); [constructor|]. repeat constructor.
  - rewrite !to_bytes_app. intros H. apply elem_of_app in H as [H|H]; [contradiction|].
    apply elem_of_app in H as [H|H]; [|contradiction]. vm_compute in H.
    repeat (apply elem_of_cons in H as [H|H]; [discriminate|]). inversion H.
  - destruct a; discriminate.
Qed.
Lemma split_book l : Forall (fun r => newline ∉ to_bytes r /\ r <> ""%string) l ->
  split_on newline (concat_strings (map (fun r => String.append r (String newline EmptyString)) l)) = l ++ [""%string].
Proof.
  induction 1 as [|r l [Hr _] _ IH]; [reflexivity|]. cbn [map concat_strings]. rewrite append_assoc, append_cons.
  change (String.append "" ?t) with t. rewrite split_app by exact Hr. rewrite IH. reflexivity.
Qed.
Lemma parse_lines_records {A} (parse : string -> option A) l : Forall (fun r => newline ∉ to_bytes r /\ r <> ""%string) l ->
  parse_lines parse (l ++ [""%string]) = mapM parse l.
Proof.
  induction 1 as [|r l [_ Hr] _ IH]; [reflexivity|]. cbn [app parse_lines].
  destruct (Nat.eqb_spec (String.length r) 0) as [H0|_]; [destruct r; [contradiction|discriminate]|].
  rewrite IH. cbn [mapM]. destruct (parse r); [|reflexivity]. simpl. destruct (mapM parse l); reflexivity.
Qed.
