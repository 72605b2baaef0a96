(** Lemmas for keys as text. *)
From Coq Require Import ZArith NArith Ascii String List Lia.
From stdpp Require Import base list strings.
From Verif Require Import Base L_Base M_Recovery M_Keys L_KeyFile L_Bech32 L_Base58 L_Curve.

Local Open Scope N_scope.

Lemma last_cut_none c s : ~ In c s -> last_cut c s = None.
Proof.
  induction s as [|d s IH]; intros H; [reflexivity|]. cbn [last_cut]. rewrite IH by (intros Hi; apply H; right; exact Hi).
  destruct (Ascii.eqb_spec d c) as [->|]; [destruct H; left; reflexivity|reflexivity].
Qed.
Lemma last_cut_app c a b : ~ In c b -> last_cut c (a ++ c :: b) = Some (a, b).
Proof.
  intros H. induction a as [|d a IH]; cbn [app last_cut]; [rewrite last_cut_none, Ascii.eqb_refl by exact H; reflexivity|].
  rewrite IH. reflexivity.
Qed.
Lemma last_cut_spec c s a b : last_cut c s = Some (a, b) -> s = a ++ c :: b.
Proof.
  revert a b. induction s as [|d s IH]; intros a b; [discriminate|]. cbn [last_cut]. destruct (last_cut c s) as [[a' b']|].
  - intros H. injection H as <- <-. cbn [app]. f_equal. apply IH. reflexivity.
  - destruct (Ascii.eqb_spec d c) as [->|]; [|discriminate]. intros H. injection H as <- <-. reflexivity.
Qed.

(** Characters of the text of a key *)
Definition key_char (c : ascii) : bool :=
  (N.leb 33 (byte_val c) && N.leb (byte_val c) 126 && Ascii.eqb (to_lower c) c && negb (Ascii.eqb c "/") && negb (Ascii.eqb (to_upper c) "/"))%bool.
Lemma charset_char v : v < 32 -> key_char (char_of charset v) = true /\ char_of charset v <> "1"%char.
Proof.
  intros H. assert (Hall : forallb (fun k => key_char (char_of charset (N.of_nat k)) && negb (Ascii.eqb (char_of charset (N.of_nat k)) "1"))%bool (seq 0 32) = true) by (vm_compute; reflexivity).
  rewrite forallb_forall in Hall. specialize (Hall (N.to_nat v) ltac:(apply in_seq; lia)). rewrite N2Nat.id in Hall.
  apply andb_prop in Hall as [H1 H2]. split; [exact H1|]. apply Bool.negb_true_iff in H2. apply Ascii.eqb_neq, H2.
Qed.
Lemma values_chars_key l : Forall (fun v => v < 32) l -> forallb key_char (values_chars charset l) = true /\ ~ In "1"%char (values_chars charset l).
Proof.
  induction 1 as [|v l Hv _ [IH1 IH2]]; [split; [reflexivity|intros []]|]. destruct (charset_char v Hv) as [H1 H2].
  cbn [values_chars map forallb]. split; [rewrite H1; exact IH1|]. intros [E|E]; [exact (H2 E)|exact (IH2 E)].
Qed.
Lemma encode_chars data : Forall (fun v => v < 32) data -> forallb key_char (bech32_encode prefix data) = true.
Proof.
  intros H. unfold bech32_encode. rewrite forallb_app. cbn [forallb]. rewrite (proj1 (values_chars_key _ (Forall_app_2 _ _ _ H (checksum_small prefix data)))). reflexivity.
Qed.
Lemma key_chars_lower s : forallb key_char s = true -> map to_lower s = s.
Proof.
  induction s as [|c s IH]; [reflexivity|]. cbn [forallb map]. intros H. apply andb_prop in H as [Hc Hs]. rewrite (IH Hs). f_equal.
  unfold key_char in Hc. apply andb_prop in Hc as [Hc _]. apply andb_prop in Hc as [Hc _]. apply andb_prop in Hc as [_ Hc]. apply Ascii.eqb_eq, Hc.
Qed.
Lemma key_chars_printable s : forallb key_char s = true -> forallb (fun c => N.leb 33 (byte_val c) && N.leb (byte_val c) 126)%bool s = true.
Proof.
  induction s as [|c s IH]; [reflexivity|]. cbn [forallb]. intros H. apply andb_prop in H as [Hc Hs]. rewrite (IH Hs), Bool.andb_true_r.
  unfold key_char in Hc. apply andb_prop in Hc as [Hc _]. apply andb_prop in Hc as [Hc _]. apply andb_prop in Hc as [Hc _]. exact Hc.
Qed.
Lemma decode_encode data : Forall (fun v => v < 32) data -> (length data <= 1009)%nat -> bech32_decode (bech32_encode prefix data) = Some (prefix, data).
Proof.
  intros Hd Hl. pose proof (encode_chars data Hd) as Hc. unfold bech32_decode.
  assert (Hlen : length (bech32_encode prefix data) = (14 + length data)%nat).
  { unfold bech32_encode, values_chars. rewrite app_length. cbn [length]. rewrite map_length, app_length, checksum_length. change (length prefix) with 7%nat. lia. }
  rewrite Hlen. destruct (Nat.ltb_spec (14 + length data) 8); [lia|]. destruct (Nat.ltb_spec 1023 (14 + length data)); [lia|]. cbn [orb].
  rewrite (key_chars_printable _ Hc). cbn [negb]. rewrite (key_chars_lower _ Hc). rewrite bool_decide_eq_true_2 by reflexivity. cbn [orb negb].
  assert (Hs : Forall (fun v => v < 32) (data ++ checksum prefix data)) by (apply Forall_app; split; [exact Hd|apply checksum_small]).
  unfold bech32_encode at 1. rewrite last_cut_app by exact (proj2 (values_chars_key _ Hs)). change (Nat.eqb (length prefix) 0) with false.
  unfold values_chars at 1. rewrite map_length, app_length, checksum_length. destruct (Nat.ltb_spec (length data + 6) 6); [lia|]. cbn [orb].
  rewrite (proj2 (charset_values _ _) (conj eq_refl Hs)).
  rewrite (proj2 (verify_iff prefix data _ Hd (checksum_small _ _) (checksum_length _ _)) eq_refl).
  rewrite app_length, checksum_length, Nat.add_sub, take_app. reflexivity.
Qed.
Lemma decode_inv s hrp data : bech32_decode s = Some (hrp, data) ->
  Forall (fun v => v < 32) data /\ map to_lower s = bech32_encode hrp data /\ (s = map to_lower s \/ s = map to_upper s) /\ (length s <= 1023)%nat.
Proof.
  unfold bech32_decode. destruct (Nat.ltb_spec (length s) 8); [discriminate|]. destruct (Nat.ltb_spec 1023 (length s)); [discriminate|]. cbn [orb].
  destruct (negb (forallb _ _)); [discriminate|]. destruct (negb _) eqn:Hcase; [discriminate|].
  destruct (last_cut "1" (map to_lower s)) as [[h d]|] eqn:Hcut; [|discriminate]. destruct (Nat.eqb (length h) 0); [discriminate|].
  destruct (Nat.ltb_spec (length d) 6) as [|Hd6]; [discriminate|]. cbn [orb]. destruct (chars_values charset d) as [vs|] eqn:Hv; [|discriminate].
  destruct (verifyChecksum h vs) eqn:Hver; [|discriminate]. intros Heq. injection Heq as <- <-.
  apply charset_values in Hv as [-> Hv]. apply last_cut_spec in Hcut.
  assert (Hl : length vs = length (values_chars charset vs)) by (symmetry; apply map_length).
  rewrite <- (take_drop (length vs - 6) vs) in Hver, Hv. apply Forall_app in Hv as [Hv1 Hv2]. rewrite verify_iff in Hver; [|exact Hv1|exact Hv2|rewrite drop_length; lia].
  split; [exact Hv1|]. split; [|split; [|lia]].
  - rewrite Hcut. unfold bech32_encode. do 2 f_equal. rewrite <- Hver, take_drop. reflexivity.
  - apply Bool.negb_false_iff, Bool.orb_true_iff in Hcase as [Hc|Hc]; apply bool_decide_eq_true_1 in Hc; auto.
Qed.
Lemma lower_slash c : to_lower c = "/"%char <-> c = "/"%char.
Proof.
  split; [|intros ->; reflexivity]. unfold to_lower. destruct (N.leb_spec 65 (byte_val c)); cbn [andb]; [|auto]. destruct (N.leb_spec (byte_val c) 90); cbn [andb]; [|auto].
  intros E. exfalso. apply (f_equal byte_val) in E. rewrite byte_val_of in E by lia. change (byte_val "/") with 47 in E. lia.
Qed.
Lemma no_slash s : forallb key_char (map to_lower s) = true -> ~ In "/"%char s.
Proof.
  intros H Hin. rewrite forallb_forall in H. specialize (H "/"%char). assert (Hf : key_char "/" = false) by reflexivity. rewrite H in Hf; [discriminate|].
  apply in_map_iff. exists "/"%char. split; [reflexivity|exact Hin].
Qed.

(** *** The text of the bytes of a key *)

Definition text_of (bz : bytes) : option bytes :=
  match ConvertBits (map byte_val bz) 8 5 true with Some data => Some (bech32_encode prefix data) | None => None end.
Lemma text_of_some bz : (length bz <= 600)%nat ->
  exists data, text_of bz = Some (bech32_encode prefix data) /\ Forall (fun v => v < 32) data /\ ConvertBits data 5 8 false = Some (map byte_val bz) /\ bech32_decode (bech32_encode prefix data) = Some (prefix, data).
Proof.
  intros Hl. destruct (convert_8_5 (map byte_val bz) (values_small bz)) as (data & E & Hd & Hback & Hlen). exists data.
  unfold text_of. rewrite E. split; [reflexivity|]. split; [exact Hd|]. split; [exact Hback|]. rewrite map_length in Hlen. apply decode_encode; [exact Hd|lia].
Qed.
Lemma amino_33 key : length key = 33%nat -> amino_key key = amino_head ++ key.
Proof. intros H. unfold amino_key, amino_head. rewrite H. reflexivity. Qed.
Lemma after_app h b : after h (h ++ b) = Some b.
Proof. unfold after. rewrite take_app, bool_decide_eq_true_2, drop_app by reflexivity. reflexivity. Qed.
Lemma after_spec h b r : after h b = Some r -> b = h ++ r.
Proof. unfold after. case_bool_decide as H; [|discriminate]. intros E. injection E as <-. rewrite <- H at 1. symmetry. apply take_drop. Qed.

Section Keys.
  Context (other_amino : bytes -> option bytes) (other_cid : string -> option bytes) (other_id : bytes -> option bytes).
  Notation get := (GetPubKeyFromBech32 other_amino).

  Lemma bech32ify_text key : length key = 33%nat -> exists k, Bech32ifyPubKey key = Some k /\ get k = Some key /\ map to_lower (to_bytes k) = to_bytes k.
  Proof.
    intros Hl. destruct (text_of_some (amino_key key)) as (data & E & Hd & Hback & Hdec); [rewrite amino_33, app_length, Hl by exact Hl; cbn; lia|].
    unfold text_of in E. unfold Bech32ifyPubKey. destruct (ConvertBits _ 8 5 true) as [data'|]; [|discriminate]. apply Some_inj in E.
    rewrite E. eexists. split; [reflexivity|]. split.
    - unfold GetPubKeyFromBech32. rewrite to_of_bytes, Hdec, Hback. rewrite bool_decide_eq_true_2 by reflexivity.
      rewrite bytes_map, amino_33, after_app by exact Hl. rewrite Hl. reflexivity.
    - rewrite to_of_bytes. apply key_chars_lower, encode_chars, Hd.
  Qed.
  Lemma get_inv k key : get k = Some key ->
    exists bz, text_of bz = Some (map to_lower (to_bytes k)) /\ (to_bytes k = map to_lower (to_bytes k) \/ to_bytes k = map to_upper (to_bytes k)) /\
      forallb key_char (map to_lower (to_bytes k)) = true /\
      ((bz = amino_key key /\ length key = 33%nat) \/ other_amino bz = Some key).
  Proof.
    unfold GetPubKeyFromBech32. destruct (bech32_decode (to_bytes k)) as [[hrp data]|] eqn:E; [|discriminate]. apply decode_inv in E as (Hd & Hk & Hc & Hl).
    destruct (ConvertBits data 5 8 false) as [vs|] eqn:Ev; [|discriminate]. case_bool_decide as Hp; [|discriminate]. subst hrp.
    apply convert_5_8 in Ev as [Hvs Ev]; [|exact Hd]. intros H. exists (map ascii_of_N vs). unfold text_of. rewrite map_values, Ev by exact Hvs.
    split; [congruence|]. split; [exact Hc|]. split; [rewrite Hk; apply encode_chars, Hd|].
    destruct (after amino_head (map ascii_of_N vs)) as [r|] eqn:Ea; [|right; exact H].
    destruct (Nat.eqb_spec (length r) 33) as [Hr|]; [|right; exact H]. injection H as <-. left. split; [|exact Hr].
    rewrite amino_33 by exact Hr. apply after_spec, Ea.
  Qed.
  Lemma bech32ify_text_of key : Bech32ifyPubKey key = match text_of (amino_key key) with Some t => Some (of_bytes t) | None => None end.
  Proof. unfold Bech32ifyPubKey, text_of. destruct (ConvertBits _ 8 5 true); reflexivity. Qed.

  Lemma serialize_length p : length (SerializeCompressed p) = 33%nat.
  Proof. unfold SerializeCompressed. cbn [length]. rewrite be_bytes_length. reflexivity. Qed.
  Lemma id_decode x y : peer_decode other_cid (id_string (IDFromPublicKey (x, y))) = Some (IDFromPublicKey (x, y)).
  Proof.
    unfold peer_decode, id_string. rewrite to_of_bytes.
    assert (H : base58_decode (base58_encode (IDFromPublicKey (x, y))) = Some (IDFromPublicKey (x, y))) by (apply base58_round; discriminate).
    destruct (base58_encode (IDFromPublicKey (x, y))) as [|c s] eqn:E; [discriminate H|].
    assert (c = "1"%char); [|subst c; exact H].
    unfold base58_encode in E. unfold IDFromPublicKey, id_head in E. cbn [map app leading] in E.
    change (Ascii.eqb (ascii_of_N 0) "000") with true in E. cbn [leading repeat app] in E. congruence.
  Qed.
  Lemma extract_id x y : point x y -> extract_raw other_id (IDFromPublicKey (x, y)) = Some (SerializeCompressed (x, y)).
  Proof. intros H. unfold extract_raw, IDFromPublicKey. rewrite after_app, serialize_length, (parse_serialize x y H). reflexivity. Qed.
  Lemma id_inj x y x' y' : point x y -> point x' y' -> IDFromPublicKey (x, y) = IDFromPublicKey (x', y') -> (x, y) = (x', y').
  Proof. intros H H' E. unfold IDFromPublicKey in E. apply app_inj_1 in E as [_ E]; [|reflexivity]. exact (serialize_inj _ _ _ _ H H' E). Qed.
End Keys.
