(** Lemmas for numbers written in a base: base58 reads back, numbers as bytes. *)
From Coq Require Import ZArith NArith Ascii String List Lia.
From stdpp Require Import base list strings.
From Verif Require Import Base L_Base M_Recovery M_Keys L_KeyFile L_Bech32.

Local Open Scope N_scope.

Definition no_lead (l : list N) : Prop := forall r, l <> 0 :: r.
Lemma digits_val_app base l d : digits_val base (l ++ [d]) = digits_val base l * base + d.
Proof. unfold digits_val. rewrite fold_left_app. reflexivity. Qed.
Lemma no_lead_app l d : l <> [] -> no_lead (l ++ [d]) -> no_lead l.
Proof. intros Hl H r E. subst l. apply (H (r ++ [d])). reflexivity. Qed.
Lemma digits_val_zero base l : 2 <= base -> no_lead l -> digits_val base l = 0 -> l = [].
Proof.
  intros Hb. induction l as [|d l IH] using rev_ind; [reflexivity|]. intros Hn. rewrite digits_val_app. intros E. exfalso.
  assert (d = 0) by lia. subst d. destruct l as [|x l]; [apply (Hn []); reflexivity|].
  assert (digits_val base (x :: l) = 0) by nia. apply IH in H; [discriminate|]. apply (no_lead_app _ 0); [discriminate|exact Hn].
Qed.
Lemma digits_val_inj base l l' : 2 <= base -> Forall (fun d => d < base) l -> Forall (fun d => d < base) l' -> no_lead l -> no_lead l' ->
  digits_val base l = digits_val base l' -> l = l'.
Proof.
  intros Hb. revert l'. induction l as [|d l IH] using rev_ind; intros l' Hl Hl' Hn Hn' E.
  - symmetry. apply (digits_val_zero base); [exact Hb|exact Hn'|]. symmetry. exact E.
  - destruct l' as [|d' l' _] using rev_ind; [apply (digits_val_zero base) in E; [exact E|exact Hb|exact Hn]|].
    rewrite !digits_val_app in E. apply Forall_app in Hl as [Hl Hd]. apply Forall_app in Hl' as [Hl' Hd'].
    apply Forall_cons in Hd as [Hd _]. apply Forall_cons in Hd' as [Hd' _].
    rewrite (N.mul_comm _ base), (N.mul_comm _ base) in E. apply N.div_mod_unique in E as [E <-]; [|exact Hd|exact Hd'].
    f_equal. destruct l as [|x l].
    + symmetry. destruct l' as [|x' l']; [reflexivity|]. apply (digits_val_zero base); [exact Hb|apply (no_lead_app _ d); [discriminate|exact Hn']|symmetry; exact E].
    + destruct l' as [|x' l'].
      * apply (digits_val_zero base) in E; [discriminate|exact Hb|apply (no_lead_app _ d); [discriminate|exact Hn]].
      * apply IH; [exact Hl|exact Hl'|apply (no_lead_app _ d); [discriminate|exact Hn]|apply (no_lead_app _ d); [discriminate|exact Hn']|exact E].
Qed.
Lemma digits_acc fuel base v acc : digits fuel base v acc = digits fuel base v [] ++ acc.
Proof.
  revert v acc. induction fuel as [|fuel IH]; intros v acc; [reflexivity|]. cbn [digits]. destruct (N.eqb v 0); [reflexivity|].
  rewrite IH, (IH _ [_]), <- app_assoc. reflexivity.
Qed.
Lemma digits_spec fuel base v : 2 <= base -> v < 2 ^ N.of_nat fuel ->
  digits_val base (digits fuel base v []) = v /\ Forall (fun d => d < base) (digits fuel base v []) /\ no_lead (digits fuel base v []).
Proof.
  intros Hb. revert v. induction fuel as [|fuel IH]; intros v Hv.
  - cbn in Hv. assert (v = 0) by lia. subst v. repeat split; [constructor|]. intros r. discriminate.
  - cbn [digits]. destruct (N.eqb_spec v 0) as [->|Hz]; [repeat split; [constructor|]; intros r; discriminate|].
    rewrite digits_acc. rewrite Nat2N.inj_succ, N.pow_succ_r in Hv by lia.
    pose proof (N.div_mod v base ltac:(lia)) as Hd. pose proof (N.mod_lt v base ltac:(lia)) as Hm.
    destruct (IH (v / base)) as (I1 & I2 & I3); [apply N.div_lt_upper_bound; [lia|]; nia|].
    split; [rewrite digits_val_app, I1; lia|]. split; [apply Forall_app; split; [exact I2|constructor; [exact Hm|constructor]]|].
    intros r E. destruct (digits fuel base (v / base) []) as [|x l] eqn:D.
    + cbn in I1, E. injection E as E _. lia.
    + cbn in E. injection E as -> _. exact (I3 l eq_refl).
Qed.
Lemma size_bound v : v < 2 ^ N.of_nat (S (N.size_nat v)).
Proof.
  rewrite Nat2N.inj_succ, N.pow_succ_r by lia. assert (v < 2 ^ N.of_nat (N.size_nat v)); [|lia].
  pose proof (N.size_gt v) as H. replace (N.of_nat (N.size_nat v)) with (N.size v); [exact H|].
  destruct v as [|q]; [reflexivity|]. cbn [N.size N.size_nat]. clear. induction q as [q IH|q IH|]; [..|reflexivity]; cbn [Pos.size Pos.size_nat]; lia.
Qed.
Definition in_base (base v : N) : list N := digits (S (N.size_nat v)) base v [].
Lemma in_base_spec base v : 2 <= base ->
  digits_val base (in_base base v) = v /\ Forall (fun d => d < base) (in_base base v) /\ no_lead (in_base base v).
Proof. intros Hb. apply digits_spec; [exact Hb|apply size_bound]. Qed.
Lemma in_base_val base l : 2 <= base -> Forall (fun d => d < base) l -> no_lead l -> in_base base (digits_val base l) = l.
Proof.
  intros Hb Hl Hn. destruct (in_base_spec base (digits_val base l) Hb) as (E & H1 & H2). apply (digits_val_inj base); assumption.
Qed.

(** Bytes *)
Lemma be_val_digits b : be_val b = digits_val 256 (map byte_val b).
Proof.
  unfold be_val, digits_val. generalize 0 as a. induction b as [|c b IH]; intros a; [reflexivity|]. cbn [map fold_left be_val_acc]. rewrite <- IH. reflexivity.
Qed.
Lemma bytes_map b : map ascii_of_N (map byte_val b) = b.
Proof. induction b as [|c b IH]; [reflexivity|]. cbn [map]. rewrite IH. f_equal. apply ascii_N_embedding. Qed.
Lemma values_small b : Forall (fun v => v < 256) (map byte_val b).
Proof. apply Forall_forall. intros v Hv. apply elem_of_list_fmap in Hv as (c & -> & _). apply byte_val_lt. Qed.
Lemma map_values vs : Forall (fun v => v < 256) vs -> map byte_val (map ascii_of_N vs) = vs.
Proof. induction 1 as [|v vs Hv _ IH]; [reflexivity|]. cbn [map]. rewrite IH, byte_val_of by exact Hv. reflexivity. Qed.
Lemma byte_zero c : byte_val c = 0 -> c = "000"%char.
Proof. intros H. rewrite <- (ascii_N_embedding c). unfold byte_val in H. rewrite H. reflexivity. Qed.
Lemma number_bytes_val b : (forall r, b <> "000"%char :: r) -> number_bytes (be_val b) = b.
Proof.
  intros H. unfold number_bytes. rewrite be_val_digits. fold (in_base 256 (digits_val 256 (map byte_val b))). rewrite in_base_val; [apply bytes_map|lia|apply values_small|].
  intros r E. destruct b as [|c b]; [discriminate|]. cbn [map] in E. injection E as E _. apply byte_zero in E. subst c. exact (H b eq_refl).
Qed.
Lemma digits_val_zeros base n l : digits_val base (repeat 0 n ++ l) = digits_val base l.
Proof. unfold digits_val. rewrite fold_left_app. f_equal. induction n as [|n IH]; [reflexivity|]. exact IH. Qed.
Lemma leading_split c b : exists r, b = repeat c (leading c b) ++ r /\ (forall t, r <> c :: t).
Proof.
  induction b as [|d b IH]; [exists []; split; [reflexivity|discriminate]|]. cbn [leading]. destruct (Ascii.eqb_spec d c) as [->|Hne].
  - destruct IH as (r & E & H). exists r. split; [cbn [repeat app]; congruence|exact H].
  - exists (d :: b). split; [reflexivity|]. intros t E. congruence.
Qed.
Lemma leading_app c n r : (forall t, r <> c :: t) -> leading c (repeat c n ++ r) = n.
Proof.
  intros H. induction n as [|n IH]; cbn [repeat app leading]; [|rewrite Ascii.eqb_refl, IH; reflexivity].
  destruct r as [|d r]; [reflexivity|]. cbn [leading]. destruct (Ascii.eqb_spec d c) as [->|]; [destruct (H r eq_refl)|reflexivity].
Qed.
Lemma alphabet_index n : n < 58 -> index_of (char_of alphabet58 n) alphabet58 = Some n.
Proof.
  intros H. assert (Hall : forallb (fun k => match index_of (char_of alphabet58 (N.of_nat k)) alphabet58 with Some m => N.eqb m (N.of_nat k) | None => false end) (seq 0 58) = true) by (vm_compute; reflexivity).
  rewrite forallb_forall in Hall. specialize (Hall (N.to_nat n)). rewrite N2Nat.id in Hall.
  destruct (index_of (char_of alphabet58 n) alphabet58) as [m|].
  - f_equal. apply N.eqb_eq. apply Hall. apply in_seq. lia.
  - discriminate Hall. apply in_seq. lia.
Qed.
Lemma values_58 l : Forall (fun v => v < 58) l -> chars_values alphabet58 (values_chars alphabet58 l) = Some l.
Proof.
  intros Hl. unfold chars_values, values_chars. apply all_some_map. induction Hl as [|v l Hv _ IH]; constructor; [apply alphabet_index, Hv|exact IH].
Qed.
Lemma char_one v : v < 58 -> char_of alphabet58 v = "1"%char -> v = 0.
Proof. intros Hv E. apply alphabet_index in Hv. rewrite E in Hv. vm_compute in Hv. congruence. Qed.
Lemma values_chars_zeros n l : repeat "1"%char n ++ values_chars alphabet58 l = values_chars alphabet58 (repeat 0 n ++ l).
Proof. unfold values_chars. rewrite map_app. f_equal. induction n as [|n IH]; [reflexivity|]. cbn [repeat map]. f_equal. exact IH. Qed.

Lemma base58_round b : b <> [] -> base58_decode (base58_encode b) = Some b.
Proof.
  intros Hb. unfold base58_encode. fold (in_base 58 (be_val b)).
  destruct (in_base_spec 58 (be_val b) ltac:(lia)) as (E & H1 & H2). set (z := leading "000" b). set (ds := in_base 58 (be_val b)) in *.
  destruct (leading_split "000" b) as (r & Eb & Hr). fold z in Eb.
  assert (Hval : be_val b = be_val r).
  { rewrite !be_val_digits, Eb, map_app. replace (map byte_val (repeat "000"%char z)) with (repeat 0 z); [apply digits_val_zeros|].
    clear. induction z as [|z IH]; [reflexivity|]. cbn [repeat map]. f_equal. exact IH. }
  assert (Hlead : leading "1" (repeat "1"%char z ++ values_chars alphabet58 ds) = z).
  { apply leading_app. intros t Et. destruct ds as [|d ds']; [discriminate|]. cbn [values_chars map] in Et. injection Et as Et _.
    apply Forall_cons in H1 as [Hd _]. apply char_one in Et; [|exact Hd]. subst d. exact (H2 ds' eq_refl). }
  unfold base58_decode. destruct (repeat "1"%char z ++ values_chars alphabet58 ds) as [|c s] eqn:Es.
  - exfalso. apply app_eq_nil in Es as [Ez Ed]. apply map_eq_nil in Ed. destruct z; [|discriminate].
    destruct r as [|c r]; [exact (Hb Eb)|]. rewrite Ed in E. cbn in E. rewrite Hval, be_val_digits in E. symmetry in E.
    apply digits_val_zero in E; [discriminate|lia|]. intros t Et. cbn [map] in Et. injection Et as Et _. apply byte_zero in Et. subst c. exact (Hr r eq_refl).
  - rewrite <- Es in *. clear Es. rewrite Hlead. rewrite values_chars_zeros, values_58 by (apply Forall_app; split; [apply Forall_forall; intros x Hx; apply elem_of_list_In, repeat_spec in Hx; subst x; lia|exact H1]).
    rewrite digits_val_zeros, E. fold (number_bytes (be_val b)). rewrite Hval, (number_bytes_val r Hr), <- Eb. reflexivity.
Qed.
