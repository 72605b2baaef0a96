(** C62, C113: the private key input. *)
From Coq Require Import NArith Ascii String List Lia.
From stdpp Require Import base list strings.
From Verif Require Import Base L_Base M_Base64 S_Base64 L_Base64 M_Key S_Key.

Lemma list_ind2 {A} (P : list A -> Prop) : P [] -> (forall x, P [x]) -> (forall x y l, P l -> P (x :: y :: l)) -> forall l, P l.
Proof. intros H0 H1 H2. fix F 1. intros [|x [|y l]]; [exact H0|exact (H1 x)|exact (H2 x y l (F l))]. Qed.
Lemma digit_all : forallb (fun c => match fromHexChar c with
    | Some n => (N.ltb n 16 && bool_decide (digits !! N.to_nat n = Some c \/ digits_upper !! N.to_nat n = Some c))%bool
    | None => true end) (map ascii_of_nat (seq 0 256)) = true.
Proof. vm_compute. reflexivity. Qed.
Lemma digit_char c n : hex_digit_of c n <-> fromHexChar c = Some (N.of_nat n).
Proof.
  split.
  - unfold hex_digit_of, digits, digits_upper. do 16 (destruct n as [|n]; [intros [H|H]; injection H as <-; reflexivity|]).
    intros [H|H]; discriminate.
  - intros H. pose proof digit_all as Ha. rewrite forallb_forall in Ha. specialize (Ha c).
    rewrite H, Nat2N.id in Ha. assert (Hin : In c (map ascii_of_nat (seq 0 256))).
    { rewrite in_map_iff. exists (nat_of_ascii c). split; [apply ascii_nat_embedding|]. apply in_seq.
      pose proof (nat_ascii_bounded c). lia. }
    apply Ha, andb_true_iff in Hin as [_ Hin]. apply bool_decide_eq_true in Hin. exact Hin.
Qed.
Lemma spells_iff text b : spells text b <-> hex_decode text = Some b.
Proof.
  split.
  - induction 1 as [|c d x y text b Hc Hd _ IH]; [reflexivity|]. apply digit_char in Hc, Hd. cbn [hex_decode].
    rewrite Hc, Hd, IH. do 2 f_equal. unfold ascii_of_nat. f_equal. lia.
  - revert b. induction text as [|c|c d text IH] using list_ind2; cbn [hex_decode]; intros b.
    + intros [= <-]. constructor.
    + discriminate.
    + destruct (fromHexChar c) as [x|] eqn:Hc; [|discriminate]. destruct (fromHexChar d) as [y|] eqn:Hd; [|discriminate].
      destruct (hex_decode text) as [l|]; [|discriminate]. intros H. apply Some_inj in H. subst b.
      rewrite <- (N2Nat.id x) in Hc. rewrite <- (N2Nat.id y) in Hd.
      replace (ascii_of_N (x * 16 + y)) with (ascii_of_nat (N.to_nat x * 16 + N.to_nat y)) by (unfold ascii_of_nat; f_equal; lia).
      constructor; [apply digit_char, Hc|apply digit_char, Hd|auto].
Qed.
Lemma spells_length text b : spells text b -> length text = 2 * length b.
Proof. induction 1; cbn; lia. Qed.
Lemma spells_fun text b b' : spells text b -> spells text b' -> b = b'.
Proof. rewrite !spells_iff. congruence. Qed.
Lemma key_cases cap s :
  (not_typed s /\ GetPriKey cap s = KErr) \/
  (exists text b, DecodeString s = Some text /\ spells text b /\
     GetPriKey cap s = if Nat.leb 32 (cap (length text)) then
       KKey (take 32 (b ++ drop (length b) text ++ replicate (cap (length text) - length text) "000"%char)) else KPanic).
Proof.
  unfold GetPriKey, not_typed, typed. destruct (DecodeString s) as [text|].
  - destruct (hex_decode text) as [b|] eqn:Hd.
    + right. exists text, b. apply spells_iff in Hd. auto.
    + left. split; [|reflexivity]. intros b (t & [= <-] & H). apply spells_iff in H. congruence.
  - left. split; [|reflexivity]. intros b (t & H & _). discriminate.
Qed.

(** ** C113 *)

(** A text that spells at least 32 bytes gives the first 32 of them, whatever the
    runtime; a text that spells no bytes is an error, and nothing else is. *)
Theorem C113_long_key_input cap s :
  runtime cap ->
  (forall b, typed s b -> 32 <= length b -> GetPriKey cap s = KKey (take 32 b)) /\
  (GetPriKey cap s = KErr <-> not_typed s).
Proof.
  intros Hcap. split.
  - intros b (text & Hs & Hb) Hlen. destruct (key_cases cap s) as [[Hn _]|(t' & b' & Hs' & Hb' & ->)].
    + destruct (Hn b). exists text. auto.
    + assert (t' = text) by congruence. subst t'. rewrite (spells_fun _ _ _ Hb' Hb). pose proof (spells_length _ _ Hb).
      pose proof (Hcap (length text)). destruct (Nat.leb_spec 32 (cap (length text))); [|lia].
      rewrite take_app_le by lia. reflexivity.
  - destruct (key_cases cap s) as [[Hn ->]|(text & b & Hs & Hb & ->)]; [tauto|].
    split; [destruct (Nat.leb _ _); discriminate|]. intros Hn. destruct (Hn b). exists text. auto.
Qed.
Print Assumptions C113_long_key_input.

(** The key handed to libp2p is that key. *)
Theorem C113_raw_bytes cap s k : runtime cap -> GetPriKey cap s = KKey k -> length k = 32 /\ GetPriKeyRawBytes k = k.
Proof.
  intros Hcap Hk. assert (Hl : length k = 32).
  { destruct (key_cases cap s) as [[_ H]|(text & b & Hs & Hb & H)]; rewrite H in Hk; [discriminate|].
    destruct (Nat.leb_spec 32 (cap (length text))) as [Hc|]; [|discriminate]. injection Hk as <-.
    pose proof (spells_length _ _ Hb). pose proof (Hcap (length text)).
    rewrite take_length, !app_length, drop_length, replicate_length. lia. }
  split; [exact Hl|]. unfold GetPriKeyRawBytes. rewrite Hl. cbn [Nat.sub replicate]. rewrite app_nil_r. apply take_ge. lia.
Qed.
Print Assumptions C113_raw_bytes.

Definition key_text (b : string) : string := EncodeToString (to_bytes b).
Definition key64 : string := "00112233445566778899aabbccddeeff00112233445566778899AABBCCDDEEFF".
Definition tight (n : nat) : nat := n.
Example C113_ex : runtime tight /\ GetPriKey tight (key_text key64) =
  KKey (map ascii_of_nat [0; 17; 34; 51; 68; 85; 102; 119; 136; 153; 170; 187; 204; 221; 238; 255;
                          0; 17; 34; 51; 68; 85; 102; 119; 136; 153; 170; 187; 204; 221; 238; 255]) /\
  GetPriKey tight "!" = KErr.
Proof. split; [intros n; unfold tight; lia|]. vm_compute. auto. Qed.

(** ** C62 *)

(** A text for fewer than 32 bytes is never refused. With 16 bytes or more it is
    accepted, on every runtime: the key is made of these bytes and of characters of
    the text itself. *)
Theorem C62_short_keys_refused_refuted cap s b text :
  runtime cap -> DecodeString s = Some text -> spells text b -> 16 <= length b < 32 ->
  exists rest, GetPriKey cap s = KKey (take 32 (b ++ drop (length b) text ++ rest)).
Proof.
  intros Hcap Hs Hb Hl. destruct (key_cases cap s) as [[Hn _]|(t' & b' & Hs' & Hb' & ->)].
  - destruct (Hn b). exists text. auto.
  - assert (t' = text) by congruence. subst t'. rewrite (spells_fun _ _ _ Hb' Hb). pose proof (spells_length _ _ Hb).
    pose proof (Hcap (length text)). destruct (Nat.leb_spec 32 (cap (length text))); [eauto|lia].
Qed.
Print Assumptions C62_short_keys_refused_refuted.

Example C62_short_keys_refused_refuted_ex :
  DecodeString (key_text "000102030405060708090a0b0c0d0e0f") = Some (to_bytes "000102030405060708090a0b0c0d0e0f") /\
  hex_decode (to_bytes "000102030405060708090a0b0c0d0e0f") = Some (map ascii_of_nat (seq 0 16)) /\
  GetPriKey tight (key_text "000102030405060708090a0b0c0d0e0f") = KKey (map ascii_of_nat (seq 0 16) ++ to_bytes "08090a0b0c0d0e0f").
Proof. vm_compute. auto. Qed.

(** The empty text crashes the program unless the runtime gives an empty text a large
    array, and so does every short text on a runtime that gives no more than asked. *)
Theorem C62_never_crashes_refuted cap :
  (cap 0 < 32 -> GetPriKey cap "" = KPanic) /\
  (forall s b, (forall n, cap n = n) -> typed s b -> length b < 16 -> GetPriKey cap s = KPanic).
Proof.
  split.
  - intros H. change (GetPriKey cap "") with (if Nat.leb 32 (cap 0) then KKey (take 32 (replicate (cap 0 - 0) "000"%char)) else KPanic).
    destruct (Nat.leb_spec 32 (cap 0)); [lia|reflexivity].
  - intros s b Hc (text & Hs & Hb) Hl. destruct (key_cases cap s) as [[Hn _]|(t' & b' & Hs' & Hb' & ->)].
    + destruct (Hn b). exists text. auto.
    + assert (t' = text) by congruence. subst t'. pose proof (spells_length _ _ Hb). rewrite Hc.
      destruct (Nat.leb_spec 32 (length text)); [lia|reflexivity].
Qed.
Print Assumptions C62_never_crashes_refuted.

Example C62_never_crashes_refuted_ex : tight 0 < 32 /\ GetPriKey tight (key_text "0a0b") = KPanic.
Proof. split; [unfold tight; lia|]. vm_compute. reflexivity. Qed.
