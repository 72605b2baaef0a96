(** Lemmas about base64. *)
From Coq Require Import NArith ZArith Ascii String List Lia ZifyNat ZifyN.
From stdpp Require Import base list strings.
From Verif Require Import Base L_Base M_Base64 S_Base64.

Local Open Scope N_scope.

Lemma below n k : n < N.of_nat k -> exists i, (i < k)%nat /\ n = N.of_nat i.
Proof. intros H. exists (N.to_nat n). lia. Qed.

Ltac each64 n H :=
  let i := fresh "i" in let Hi := fresh "Hi" in
  destruct (below n 64 H) as (i & Hi & ->); clear H;
  do 64 (destruct i as [|i]; [vm_compute; try reflexivity|]); lia.

Lemma val_char n : n < 64 -> b64_val (b64_char n) = Some n.
Proof. intros H. each64 n H. Qed.
Lemma char_newline n : n < 64 -> is_newline (b64_char n) = false.
Proof. intros H. each64 n H. Qed.
Lemma char_stands n : n < 64 -> stands_for (b64_char n) (N.to_nat n).
Proof. intros H. unfold stands_for. each64 n H. Qed.

Lemma val_all (c : ascii) :
  match b64_val c with Some n => n <? 64 | None => true end = true /\
  match b64_val c with Some n => Ascii.eqb (b64_char n) c | None => true end = true.
Proof. destruct c as [[] [] [] [] [] [] [] []]; vm_compute; split; reflexivity. Qed.

Lemma val_lt c n : b64_val c = Some n -> n < 64.
Proof. intros H. destruct (val_all c) as [H1 _]. rewrite H in H1. apply N.ltb_lt, H1. Qed.
Lemma char_val c n : b64_val c = Some n -> b64_char n = c.
Proof. intros H. destruct (val_all c) as [_ H1]. rewrite H in H1. apply Ascii.eqb_eq, H1. Qed.

Lemma stands_val c n : stands_for c n <-> b64_val c = Some (N.of_nat n).
Proof.
  split.
  - unfold stands_for. intros H.
    do 64 (destruct n as [|n]; [vm_compute in H; injection H as <-; reflexivity|]). discriminate H.
  - intros H. pose proof (val_lt _ _ H) as Hlt. apply char_val in H as <-.
    pose proof (char_stands _ Hlt) as Hs. rewrite Nat2N.id in Hs. exact Hs.
Qed.

Lemma ascii_eta n c : byte_val c = n -> ascii_of_N n = c.
Proof. intros <-. apply ascii_N_embedding. Qed.

Lemma byte_val_of n : n < 256 -> byte_val (ascii_of_N n) = n.
Proof. apply N_ascii_embedding. Qed.

(** Induction three by three. *)
Lemma list_ind3 {A} (P : list A -> Prop) :
  P [] -> (forall x, P [x]) -> (forall x y, P [x; y]) ->
  (forall x y z r, P r -> P (x :: y :: z :: r)) -> forall l, P l.
Proof.
  intros H0 H1 H2 H3.
  refine (fix IH l := match l with [] => H0 | [x] => H1 x | [x; y] => H2 x y
                      | x :: y :: z :: r => H3 x y z r (IH r) end).
Qed.
Lemma list_ind4 {A} (P : list A -> Prop) :
  P [] -> (forall x, P [x]) -> (forall x y, P [x; y]) -> (forall x y z, P [x; y; z]) ->
  (forall x y z t r, P r -> P (x :: y :: z :: t :: r)) -> forall l, P l.
Proof.
  intros H0 H1 H2 H3 H4.
  refine (fix IH l := match l with [] => H0 | [x] => H1 x | [x; y] => H2 x y | [x; y; z] => H3 x y z
                      | x :: y :: z :: t :: r => H4 x y z t r (IH r) end).
Qed.

Ltac nsolve := zify; Z.to_euclidean_division_equations; lia.

Lemma encode_no_newline b : List.filter (fun c => negb (is_newline c)) (b64_encode b) = b64_encode b.
Proof.
  induction b as [|x|x y|x y z r IH] using list_ind3; [reflexivity| | |].
  - pose proof (byte_val_lt x). cbn [b64_encode List.filter].
    rewrite !char_newline by nsolve. reflexivity.
  - pose proof (byte_val_lt x). pose proof (byte_val_lt y). cbn [b64_encode List.filter].
    rewrite !char_newline by nsolve. reflexivity.
  - pose proof (byte_val_lt x). pose proof (byte_val_lt y). pose proof (byte_val_lt z).
    cbn [b64_encode List.filter]. rewrite !char_newline by nsolve. cbn [negb]. rewrite IH. reflexivity.
Qed.

Lemma quanta_encode b : b64_quanta (b64_encode b) = Some b.
Proof.
  induction b as [|x|x y|x y z r IH] using list_ind3; [reflexivity| | |].
  - pose proof (byte_val_lt x). cbn [b64_encode b64_quanta].
    rewrite !val_char by nsolve. simpl. do 2 f_equal. apply ascii_eta. nsolve.
  - pose proof (byte_val_lt x). pose proof (byte_val_lt y). cbn [b64_encode b64_quanta].
    rewrite !val_char by nsolve. simpl. f_equal. f_equal; [|f_equal]; apply ascii_eta; nsolve.
  - pose proof (byte_val_lt x). pose proof (byte_val_lt y). pose proof (byte_val_lt z).
    cbn [b64_encode b64_quanta]. rewrite !val_char by nsolve. rewrite IH.
    f_equal. f_equal; [|f_equal; [|f_equal]]; apply ascii_eta; nsolve.
Qed.

Lemma decode_encode b : b64_decode (b64_encode b) = Some b.
Proof. unfold b64_decode. rewrite encode_no_newline. apply quanta_encode. Qed.

Lemma encode_canonical b : canonical (b64_encode b).
Proof.
  induction b as [|x|x y|x y z r IH] using list_ind3; [constructor| | |].
  - pose proof (byte_val_lt x). cbn [b64_encode]. unfold b64_pad.
    eapply can_one; [apply char_stands; nsolve|apply char_stands; nsolve|].
    nsolve.
  - pose proof (byte_val_lt x). pose proof (byte_val_lt y). cbn [b64_encode]. unfold b64_pad.
    eapply can_two; [apply char_stands; nsolve|apply char_stands; nsolve|apply char_stands; nsolve|].
    nsolve.
  - pose proof (byte_val_lt x). pose proof (byte_val_lt y). pose proof (byte_val_lt z). cbn [b64_encode].
    eapply can_more; [apply char_stands; nsolve|apply char_stands; nsolve|apply char_stands; nsolve|apply char_stands; nsolve|exact IH].
Qed.

Lemma canonical_encode s : canonical s -> exists b, s = b64_encode b.
Proof.
  induction 1 as [|a b na nb Ha Hb Hm|a b c na nb nc Ha Hb Hc Hm|a b c d r na nb nc nd Ha Hb Hc Hd Hr (t & ->)].
  - exists []. reflexivity.
  - apply stands_val in Ha, Hb. pose proof (val_lt _ _ Ha). pose proof (val_lt _ _ Hb).
    apply char_val in Ha as <-. apply char_val in Hb as <-.
    exists [ascii_of_N (N.of_nat na * 4 + N.of_nat nb / 16)]. cbn [b64_encode].
    rewrite byte_val_of by nsolve. unfold b64_pad.
    f_equal; [f_equal; nsolve|]. f_equal. f_equal. nsolve.
  - apply stands_val in Ha, Hb, Hc. pose proof (val_lt _ _ Ha). pose proof (val_lt _ _ Hb). pose proof (val_lt _ _ Hc).
    apply char_val in Ha as <-. apply char_val in Hb as <-. apply char_val in Hc as <-.
    exists [ascii_of_N (N.of_nat na * 4 + N.of_nat nb / 16); ascii_of_N (N.of_nat nb mod 16 * 16 + N.of_nat nc / 4)].
    cbn [b64_encode]. rewrite !byte_val_of by nsolve. unfold b64_pad.
    f_equal; [f_equal; nsolve|]. f_equal; [f_equal; nsolve|]. f_equal; f_equal; nsolve.
  - apply stands_val in Ha, Hb, Hc, Hd. pose proof (val_lt _ _ Ha). pose proof (val_lt _ _ Hb).
    pose proof (val_lt _ _ Hc). pose proof (val_lt _ _ Hd).
    apply char_val in Ha as <-. apply char_val in Hb as <-. apply char_val in Hc as <-. apply char_val in Hd as <-.
    exists (ascii_of_N (N.of_nat na * 4 + N.of_nat nb / 16) :: ascii_of_N (N.of_nat nb mod 16 * 16 + N.of_nat nc / 4)
      :: ascii_of_N (N.of_nat nc mod 4 * 64 + N.of_nat nd) :: t).
    cbn [b64_encode]. rewrite !byte_val_of by nsolve.
    f_equal; [f_equal; nsolve|]. f_equal; [f_equal; nsolve|]. f_equal; [f_equal; nsolve|]. f_equal; f_equal; nsolve.
Qed.

Lemma EncodeToString_inj a b : EncodeToString a = EncodeToString b -> a = b.
Proof.
  unfold EncodeToString. intros H%of_bytes_inj.
  pose proof (decode_encode a) as H1. rewrite H, decode_encode in H1. congruence.
Qed.
Lemma DecodeString_Encode b : DecodeString (EncodeToString b) = Some b.
Proof. unfold DecodeString, EncodeToString. rewrite to_of_bytes. apply decode_encode. Qed.
