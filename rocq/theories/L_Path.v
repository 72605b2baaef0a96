(** Lemmas: which paths the router takes as they are. *)
From Coq Require Import ZArith NArith Ascii String List Lia.
From stdpp Require Import base list strings.
From Verif Require Import Base L_Base M_Storage L_Storage M_Http S_Http.
Local Open Scope string_scope.

Lemma append_empty s : String.append s "" = s.
Proof. induction s as [|a s IH]; [reflexivity|]. change (String a (String.append s "") = String a s). rewrite IH. reflexivity. Qed.
Lemma append_assoc x y z : String.append (String.append x y) z = String.append x (String.append y z).
Proof. induction x as [|a x IH]; [reflexivity|]. change (String a (String.append (String.append x y) z) = String a (String.append x (String.append y z))). rewrite IH. reflexivity. Qed.
Lemma append_cons a x y : String.append (String a x) y = String a (String.append x y).
Proof. reflexivity. Qed.
Lemma slashes_bytes cs : to_bytes (slashes cs) = concat (map (fun c => "/"%char :: to_bytes c) cs).
Proof.
  induction cs as [|c cs IH]; [reflexivity|]. cbn. rewrite to_bytes_app, IH. reflexivity.
Qed.
Lemma split_segs c s : Forall (fun x => c ∉ to_bytes x) (split_on c s).
Proof.
  induction s as [|a s IH]; [constructor; [intros X; inversion X|constructor]|]. cbn [split_on].
  destruct (decide (a = c)) as [->|N]; [constructor; [intros X; inversion X|exact IH]|].
  destruct (split_on c s) as [|h t]; [constructor; [|constructor]|].
  - cbn. intros X. apply elem_of_list_singleton in X. congruence.
  - inversion IH; subst. constructor; [|assumption]. cbn. intros X. apply elem_of_cons in X as [X|X]; [congruence|contradiction].
Qed.
Lemma clean_segs l : Forall (fun x => "/"%char ∉ to_bytes x) l ->
  forall st, Forall segment st -> Forall segment (fold_left (clean_step true) l st).
Proof.
  induction 1 as [|c l Hc Hl IH]; intros st Hst; [exact Hst|]. cbn [fold_left]. apply IH. unfold clean_step.
  destruct (String.eqb_spec c ""); [exact Hst|]. destruct (String.eqb_spec c "."); [exact Hst|]. cbn [orb].
  destruct (String.eqb_spec c "..") as [->|N].
  - destruct st as [|t st]; [constructor|]. inversion Hst as [|? ? Ht Hst']; subst.
    destruct (String.eqb_spec t "..") as [->|]; [|exact Hst']. destruct Ht as (_ & _ & X & _). contradiction.
  - constructor; [|exact Hst]. repeat split; assumption.
Qed.
Lemma join_slashes cs : cs <> [] -> String.append "/" (join_strings "/" cs) = slashes cs.
Proof.
  induction cs as [|c cs IH]; [contradiction|]. intros _. destruct cs as [|d cs].
  - cbn. rewrite append_empty. reflexivity.
  - change (slashes (c :: d :: cs)) with (String "/" (String.append c (slashes (d :: cs)))).
    rewrite <- IH by discriminate. reflexivity.
Qed.
Lemma Clean_rooted p : is_rooted p = true ->
  Clean p = "/" \/ exists cs, cs <> [] /\ Forall segment cs /\ Clean p = slashes cs.
Proof.
  intros Hr. unfold Clean. rewrite Hr.
  pose proof (clean_segs (split_on "/" p) (split_segs _ _) [] (List.Forall_nil _)) as H.
  destruct (fold_left (clean_step true) (split_on "/" p) []) as [|c st]; [left; reflexivity|right].
  exists (rev (c :: st)). split; [intros X; apply (f_equal (@length _)) in X; rewrite rev_length in X; discriminate|].
  split; [apply Forall_rev, H|]. apply join_slashes.
  intros X; apply (f_equal (@length _)) in X; rewrite rev_length in X; discriminate.
Qed.
Lemma cleanPath_canonical p : canonical (cleanPath p).
Proof.
  unfold cleanPath. destruct (String.eqb_spec p "") as [->|N].
  { exists [], "/". repeat split; auto. }
  set (q := if is_rooted p then p else String "/" p).
  assert (Hq : is_rooted q = true) by (unfold q; destruct (is_rooted p) eqn:E; [exact E|reflexivity]).
  destruct (Clean_rooted q Hq) as [->|(cs & Hn & Hcs & ->)].
  { rewrite andb_false_r. exists [], "/". repeat split; auto. }
  destruct (ends_in_slash q && _)%bool.
  - exists cs, "/". repeat split; auto.
  - exists cs, "". split; [exact Hcs|]. split; [auto|]. split; [contradiction|].
    symmetry. apply append_empty.
Qed.

Lemma split_slash t : split_on "/" (String "/" t) = "" :: split_on "/" t.
Proof. reflexivity. Qed.
Lemma split_slashes cs t : Forall segment cs ->
  split_on "/" (String.append (slashes cs) (String "/" t)) = "" :: (cs ++ split_on "/" t)%list.
Proof.
  induction 1 as [|c cs (_ & _ & _ & Hc) Hcs IH]; [reflexivity|].
  cbn [slashes]. rewrite append_cons, append_assoc, split_slash. f_equal.
  destruct cs as [|d cs].
  - cbn [slashes]. exact (split_app "/" c t Hc).
  - cbn [slashes] in IH |- *. rewrite append_cons in IH |- *. rewrite split_slash in IH. injection IH as IH.
    rewrite split_app by exact Hc. rewrite IH. reflexivity.
Qed.
Lemma clean_push l : Forall segment l -> forall st, fold_left (clean_step true) l st = (rev l ++ st)%list.
Proof.
  induction 1 as [|c l (H1 & H2 & H3 & _) Hl IH]; intros st; [reflexivity|]. cbn [fold_left rev].
  unfold clean_step at 2. destruct (String.eqb_spec c ""); [contradiction|]. destruct (String.eqb_spec c "."); [contradiction|].
  destruct (String.eqb_spec c ".."); [contradiction|]. cbn [orb]. rewrite IH, <- app_assoc. reflexivity.
Qed.
Lemma slashes_app a b : slashes (a ++ b) = String.append (slashes a) (slashes b).
Proof.
  induction a as [|c a IH]; [reflexivity|]. cbn [app slashes]. rewrite IH, append_cons, append_assoc. reflexivity.
Qed.
Lemma Clean_slashes cs t l : Forall segment cs -> cs <> [] -> is_rooted t = true ->
  split_on "/" t = ("" :: cs ++ l)%list -> Forall (fun x => x = "") l -> Clean t = slashes cs.
Proof.
  intros Hcs Hn Hr Hs Hl.
  assert (E : fold_left (clean_step true) (split_on "/" t) [] = rev cs).
  { rewrite Hs. change (fold_left (clean_step true) (cs ++ l) [] = rev cs).
    rewrite fold_left_app, (clean_push cs Hcs), app_nil_r.
    clear -Hl. induction Hl as [|x l -> Hl IH]; [reflexivity|]. exact IH. }
  unfold Clean. rewrite Hr, E. destruct (rev cs) as [|x r] eqn:R.
  - apply (f_equal (@rev _)) in R. rewrite rev_involutive in R. contradiction.
  - rewrite <- R, rev_involutive. apply join_slashes, Hn.
Qed.
Lemma ends_slash s : ends_in_slash (String.append s "/") = true.
Proof. unfold ends_in_slash. rewrite to_bytes_app. cbn. rewrite last_snoc. reflexivity. Qed.
Lemma ends_no_slash s c : segment c -> ends_in_slash (String.append s c) = false.
Proof.
  intros (H & _ & _ & Hc). unfold ends_in_slash. rewrite to_bytes_app.
  destruct (to_bytes c) as [|a r _] eqn:E using rev_ind.
  - destruct c; [contradiction|discriminate E].
  - rewrite app_assoc, last_snoc. apply bool_decide_eq_false. intros ->. apply Hc.
    apply elem_of_app. right. left.
Qed.
Lemma canonical_clean p : canonical p -> cleanPath p = p.
Proof.
  intros (cs & tail & Hcs & Ht & Hn & ->). destruct (decide (cs = [])) as [->|N].
  { rewrite (Hn eq_refl). reflexivity. }
  assert (Hr : forall u, is_rooted (String.append (slashes cs) u) = true) by (intros u; destruct cs; [contradiction|reflexivity]).
  assert (Hne : forall u, String.append (slashes cs) u <> "") by (intros u; destruct cs; [contradiction|discriminate]).
  assert (Hns : slashes cs <> "/").
  { destruct cs as [|c cs]; [contradiction|]. inversion Hcs as [|? ? (X & _) _]; subst. cbn. intros Y. injection Y as Y.
    destruct c; [contradiction|discriminate Y]. }
  unfold cleanPath. destruct (String.eqb_spec (String.append (slashes cs) tail) ""); [destruct (Hne _ e)|].
  rewrite Hr. destruct Ht as [->| ->].
  - destruct cs as [|c cs _] using rev_ind; [contradiction|]. rewrite append_empty.
    apply Forall_app in Hcs as [Hcs Hc]. apply Forall_cons_1 in Hc as [Hc _].
    assert (E : slashes (cs ++ [c]) = String.append (slashes cs) (String "/" c)).
    { rewrite slashes_app. cbn. rewrite append_empty. reflexivity. }
    assert (E' : ends_in_slash (slashes (cs ++ [c])) = false).
    { rewrite E. change (String "/" c) with (String.append "/" c).
      assert (A : forall x y, String.append x (String.append "/" y) = String.append (String.append x "/") y)
        by (intros x y; symmetry; apply append_assoc).
      rewrite A. apply ends_no_slash, Hc. }
    rewrite E'. cbn [andb]. apply (Clean_slashes _ _ []).
    + apply Forall_app. auto.
    + exact N.
    + rewrite <- (append_empty (slashes _)). apply Hr.
    + rewrite E, split_slashes by exact Hcs. rewrite split_none by apply Hc. rewrite app_nil_r. reflexivity.
    + constructor.
  - rewrite ends_slash. rewrite (Clean_slashes cs _ [""]); [|exact Hcs|exact N|apply Hr| |repeat constructor].
    + destruct (String.eqb_spec (slashes cs) "/"); [contradiction|]. reflexivity.
    + rewrite split_slashes by exact Hcs. reflexivity.
Qed.
Lemma clean_iff p : cleanPath p = p <-> canonical p.
Proof. split; [intros <-; apply cleanPath_canonical|apply canonical_clean]. Qed.
