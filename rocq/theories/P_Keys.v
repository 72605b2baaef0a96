(** Keys as text, curve points and peer ids (conversion/key_provider.go, conversion/conversion.go). *)
From Coq Require Import ZArith Znumtheory NArith Ascii String List Lia.
From stdpp Require Import base list strings gmap.
From Verif Require Import Base S_Utf8 L_Utf8 L_Base M_Conv S_Conv P_Conv M_Recovery M_Keys S_Keys L_KeyFile L_Bech32 L_BechErr L_Base58 L_Curve L_Keys.
From Verif Require Import L_Conv M_Json S_Json M_Storage S_Storage P_Storage.

(** *** Connections of the vocabulary *)
Lemma field_prime_p : field_prime = secp_p. Proof. rewrite secp_p_value. reflexivity. Qed.
Lemma curve_point_iff x y : curve_point x y <-> point x y.
Proof.
  unfold curve_point, point, curve_rhs. rewrite field_prime_p. rewrite (mod_eq secp_p secp_p_prime secp_p_mod4). reflexivity.
Qed.
Lemma byte_val_inj c d : byte_val c = byte_val d -> c = d.
Proof. intros H. rewrite <- (ascii_N_embedding c), <- (ascii_N_embedding d). unfold byte_val in H. rewrite H. reflexivity. Qed.
Lemma x_bound x y : point x y -> (Z.to_N x < 256 ^ N.of_nat 32)%N.
Proof.
  intros (Hx & _ & _). pose proof secp_p_range. apply N2Z.inj_lt. rewrite Z2N.id by lia. change (Z.of_N (256 ^ N.of_nat 32)) with (2 ^ 256)%Z. lia.
Qed.
Lemma encodes_iff key x y : point x y -> encodes key x y <-> key = SerializeCompressed (x, y).
Proof.
  intros H. pose proof (x_bound x y H) as Hb. unfold SerializeCompressed. cbn [fst snd]. split.
  - intros (f & r & -> & Hr & Hv & Hf). f_equal.
    + apply byte_val_inj. rewrite Hf, byte_val_23. reflexivity.
    + apply be_val_inj; [rewrite be_bytes_length; exact Hr|]. rewrite be_bytes_val, N.mod_small by exact Hb. exact Hv.
  - intros ->. do 2 eexists. split; [reflexivity|]. split; [apply be_bytes_length|]. split; [rewrite be_bytes_val, N.mod_small by exact Hb; reflexivity|apply byte_val_23].
Qed.
Lemma small_letter_iff c d : small_letter c d <-> d = to_lower c.
Proof.
  unfold small_letter, to_lower. destruct (N.leb_spec 65 (byte_val c)); destruct (N.leb_spec (byte_val c) 90); cbn [andb]; split.
  - intros [H1 _]. specialize (H1 (conj H H0)). apply byte_val_inj. rewrite H1, byte_val_of by lia. reflexivity.
  - intros ->. split; [intros _; apply byte_val_of; lia|lia].
  - intros [_ H1]. apply H1. lia.
  - intros ->. split; [lia|reflexivity].
  - intros [_ H1]. apply H1. lia.
  - intros ->. split; [lia|reflexivity].
  - intros [_ H1]. apply H1. lia.
  - intros ->. split; [lia|reflexivity].
Qed.
Lemma small_letters_iff k l : small_letters k l <-> to_bytes l = map to_lower (to_bytes k).
Proof.
  unfold small_letters. generalize (to_bytes k) (to_bytes l). intros a b. split.
  - induction 1 as [|c d a b H _ IH]; [reflexivity|]. apply small_letter_iff in H. cbn [map]. congruence.
  - intros ->. induction a as [|c a IH]; constructor; [apply small_letter_iff; reflexivity|exact IH].
Qed.

(** No other amino data is a point. *)
Definition only_this_form (other_amino : bytes -> option bytes) : Prop :=
  forall bz b, other_amino bz = Some b -> ParsePubKey b = None.
Lemma id_point oa k id : GetPeerIDFromPubKey oa k = Some id ->
  exists b x y, GetPubKeyFromBech32 oa k = Some b /\ ParsePubKey b = Some (x, y) /\ point x y /\ id = IDFromPublicKey (x, y).
Proof.
  unfold GetPeerIDFromPubKey. destruct (GetPubKeyFromBech32 oa k) as [b|]; [|discriminate]. destruct (ParsePubKey b) as [[x y]|] eqn:E; [|discriminate].
  intros H. injection H as <-. exists b, x, y. repeat split; auto. all: apply parse_sound in E; apply E.
Qed.
Lemma standard_text oa k b x y : only_this_form oa -> GetPubKeyFromBech32 oa k = Some b -> ParsePubKey b = Some (x, y) ->
  b = SerializeCompressed (x, y) /\ exists k', Bech32ifyPubKey b = Some k' /\ small_letters k k'.
Proof.
  intros Ho Hg Hp. apply get_inv in Hg as (bz & Ht & _ & _ & [[-> Hl]|Ha]); [|apply Ho in Ha; congruence].
  split; [symmetry; apply serialize_parse; assumption|]. rewrite bech32ify_text_of, Ht. eexists. split; [reflexivity|].
  apply small_letters_iff. apply to_of_bytes.
Qed.

(** ** C127: the peer id of a key leads back to the key *)

Theorem C127_peer_to_key other_amino other_cid other_id k id :
  GetPeerIDFromPubKey other_amino k = Some id ->
  exists k', GetPubKeyFromPeerID other_cid other_id (id_string id) = Some k' /\
    GetPeerIDFromPubKey other_amino k' = Some id /\
    (only_this_form other_amino -> small_letters k k').
Proof.
  intros H. apply id_point in H as (b & x & y & Hg & Hp & Hpt & ->).
  destruct (bech32ify_text other_amino (SerializeCompressed (x, y)) (serialize_length _)) as (k' & Hk & Hb & _). exists k'.
  unfold GetPubKeyFromPeerID. rewrite id_decode, extract_id by exact Hpt. split; [exact Hk|]. split.
  - unfold GetPeerIDFromPubKey. rewrite Hb, parse_serialize by exact Hpt. reflexivity.
  - intros Ho. destruct (standard_text _ _ _ _ _ Ho Hg Hp) as [-> (k'' & Hk'' & Hs)]. congruence.
Qed.
Print Assumptions C127_peer_to_key.

(** Every point of the curve is the key of a peer, and the way there and back is exact. *)
Theorem C127_every_point other_amino other_cid other_id key x y :
  curve_point x y -> encodes key x y ->
  exists k id, Bech32ifyPubKey key = Some k /\ GetPubKeyFromBech32 other_amino k = Some key /\
    GetPeerIDFromPubKey other_amino k = Some id /\ GetPubKeyFromPeerID other_cid other_id (id_string id) = Some k.
Proof.
  intros Hc He. apply curve_point_iff in Hc. apply encodes_iff in He; [|exact Hc]. subst key.
  destruct (bech32ify_text other_amino (SerializeCompressed (x, y)) (serialize_length _)) as (k & Hk & Hb & _). exists k, (IDFromPublicKey (x, y)).
  split; [exact Hk|]. split; [exact Hb|]. unfold GetPeerIDFromPubKey, GetPubKeyFromPeerID. rewrite Hb, parse_serialize, id_decode, extract_id by exact Hc.
  split; [reflexivity|exact Hk].
Qed.
Print Assumptions C127_every_point.

Theorem C127_lists other_amino other_cid other_id keys ids :
  GetPeerIDs other_amino keys = Some ids ->
  exists keys', GetPubKeysFromPeerIDs other_cid other_id (map id_string ids) = Some keys' /\
    GetPeerIDs other_amino keys' = Some ids /\ (only_this_form other_amino -> Forall2 small_letters keys keys').
Proof.
  revert ids. induction keys as [|k keys IH]; intros ids; cbn [GetPeerIDs].
  - intros H. injection H as <-. exists []. repeat split; constructor.
  - destruct (GetPeerIDFromPubKey other_amino k) as [id|] eqn:E; [|discriminate]. destruct (GetPeerIDs other_amino keys) as [l|]; [|discriminate].
    intros H. injection H as <-. destruct (IH l eq_refl) as (keys' & H1 & H2 & H3).
    destruct (C127_peer_to_key other_amino other_cid other_id k id E) as (k' & K1 & K2 & K3).
    exists (k' :: keys'). cbn [map GetPubKeysFromPeerIDs GetPeerIDs]. rewrite K1, H1, K2, H2. repeat split. intros Ho. constructor; auto.
Qed.
Print Assumptions C127_lists.

(** A key and its peer as in the tests of /repo (conversion/conversion_test.go:18-20,
    conversion/key_provider_test.go:18-30) *)
Definition test_key : string := "thorpub1addwnpepq2ryyje5zr09lq7gqptjwnxqsy2vcdngvwd6z7yt5yjcnyj8c8cn559xe69".
Definition no_amino (b : bytes) : option bytes := None.
Definition no_cid (s : string) : option bytes := None.
(** The points are given, so that no root is taken here. *)
Definition test_x : Z := 60727052651102781047842054230918261595122622879401458394616537563843415634234.
Definition test_y : Z := 55566883162081623211434528049877128325578013711323590821562865468630316931958.
Ltac show_point := split; [split; vm_compute; congruence|]; split; [split; vm_compute; congruence|]; apply Z.mod_divide; [vm_compute; congruence|vm_compute; reflexivity].
Lemma test_point : curve_point test_x test_y. Proof. show_point. Qed.
Lemma id_of_key k b x y : GetPubKeyFromBech32 no_amino k = Some b -> curve_point x y -> b = SerializeCompressed (x, y) -> GetPeerIDFromPubKey no_amino k = Some (IDFromPublicKey (x, y)).
Proof. intros H Hc ->. apply curve_point_iff in Hc. unfold GetPeerIDFromPubKey. rewrite H, parse_serialize by exact Hc. reflexivity. Qed.
Lemma test_id : GetPeerIDFromPubKey no_amino test_key = Some (IDFromPublicKey (test_x, test_y)).
Proof. eapply id_of_key; [vm_compute; reflexivity|exact test_point|vm_compute; reflexivity]. Qed.
Example C127_ex_id : exists id, GetPeerIDFromPubKey no_amino test_key = Some id /\ id_string id = "16Uiu2HAm4TmEzUqy3q3Dv7HvdoSboHk5sFj2FH3npiN5vDbJC6gh"%string.
Proof. exists (IDFromPublicKey (test_x, test_y)). split; [exact test_id|vm_compute; reflexivity]. Qed.
Definition vector_x : Z := 108875931755530226976948957198836560761716107848678523312924836298042435432810.
Definition vector_y : Z := 115166243456848396552893970297047841419884119388950869048610760396708445468118.
Lemma vector_point : curve_point vector_x vector_y. Proof. show_point. Qed.
Example C127_ex_key : GetPubKeyFromPeerID no_cid no_amino "16Uiu2HAmBdJRswX94UwYj6VLhh4GeUf9X3SjBRgTqFkeEMLmfk2M" =
  Some "thorpub1addwnpepqtctt9l4fddeh0krvdpxmqsxa5z9xsa0ac6frqfhm9fq6c6u5lck5s8fm4n"%string.
Proof.
  assert (H : peer_decode no_cid "16Uiu2HAmBdJRswX94UwYj6VLhh4GeUf9X3SjBRgTqFkeEMLmfk2M" = Some (IDFromPublicKey (vector_x, vector_y))) by (vm_compute; reflexivity).
  unfold GetPubKeyFromPeerID. rewrite H, extract_id by (apply curve_point_iff, vector_point). vm_compute. reflexivity.
Qed.
Example C127_ex_form : only_this_form no_amino. Proof. discriminate. Qed.
(** The base point of the curve *)
Definition base_x : Z := 0x79be667ef9dcbbac55a06295ce870b07029bfcdb2dce28d959f2815b16f81798.
Definition base_y : Z := 0x483ada7726a3c4655da4fbfc0e1108a8fd17b448a68554199c47d08ffb10d4b8.
Example base_point : curve_point base_x base_y.
Proof. split; [split; vm_compute; congruence|]. split; [split; vm_compute; congruence|]. apply Z.mod_divide; [vm_compute; congruence|vm_compute; reflexivity]. Qed.
Example base_encodes : encodes (ascii_of_N 2 :: be_bytes 32 (Z.to_N base_x)) base_x base_y.
Proof. do 2 eexists. split; [reflexivity|]. vm_compute. auto. Qed.

(** ** C128: different keys have different peers *)

Theorem C128_same_peer_same_key other_amino k1 k2 id :
  GetPeerIDFromPubKey other_amino k1 = Some id -> GetPeerIDFromPubKey other_amino k2 = Some id ->
  (exists b1 b2 x y, GetPubKeyFromBech32 other_amino k1 = Some b1 /\ GetPubKeyFromBech32 other_amino k2 = Some b2 /\
     curve_point x y /\ ParsePubKey b1 = Some (x, y) /\ ParsePubKey b2 = Some (x, y)) /\
  (only_this_form other_amino -> exists l, small_letters k1 l /\ small_letters k2 l).
Proof.
  intros H1 H2. split.
  - apply id_point in H1 as (b1 & x & y & G1 & P1 & T1 & ->). apply id_point in H2 as (b2 & x' & y' & G2 & P2 & T2 & E).
    apply id_inj in E; [|exact T1|exact T2]. injection E as <- <-. exists b1, b2, x, y. repeat split; try assumption; apply curve_point_iff in T1; apply T1.
  - intros Ho. destruct (C127_peer_to_key other_amino no_cid no_amino k1 id H1) as (l & L1 & _ & S1).
    destruct (C127_peer_to_key other_amino no_cid no_amino k2 id H2) as (l2 & L2 & _ & S2). assert (l2 = l) by congruence. subst l2. eauto.
Qed.
Print Assumptions C128_same_peer_same_key.
Definition capitals (k : string) : string := of_bytes (map to_upper (to_bytes k)).
Lemma capitals_id : GetPeerIDFromPubKey no_amino (capitals test_key) = Some (IDFromPublicKey (test_x, test_y)).
Proof. eapply id_of_key; [vm_compute; reflexivity|exact test_point|vm_compute; reflexivity]. Qed.
Example C128_ex : exists id, GetPeerIDFromPubKey no_amino test_key = Some id /\ GetPeerIDFromPubKey no_amino (capitals test_key) = Some id.
Proof. exists (IDFromPublicKey (test_x, test_y)). split; [exact test_id|exact capitals_id]. Qed.

(** ** C129: different texts name different peers (refuted: capital letters) *)

Lemma no_amino_more other_amino k id : GetPeerIDFromPubKey no_amino k = Some id -> GetPeerIDFromPubKey other_amino k = Some id.
Proof.
  unfold GetPeerIDFromPubKey, GetPubKeyFromBech32. destruct (bech32_decode _) as [[h d]|]; [|discriminate]. destruct (ConvertBits d 5 8 false); [|discriminate].
  case_bool_decide; [|discriminate]. destruct (after amino_head _) as [r|]; [|discriminate]. destruct (Nat.eqb (length r) 33); [auto|discriminate].
Qed.
Theorem C129_texts_differ_peers_differ_refuted other_amino :
  exists k1 k2 id, k1 <> k2 /\ GetPeerIDFromPubKey other_amino k1 = Some id /\ GetPeerIDFromPubKey other_amino k2 = Some id.
Proof.
  exists test_key, (capitals test_key). destruct C128_ex as (id & H1 & H2). exists id. split; [vm_compute; congruence|].
  split; apply no_amino_more; assumption.
Qed.
Print Assumptions C129_texts_differ_peers_differ_refuted.

(** ** C130: a key is accepted exactly when it is a point of the curve *)

Theorem C130_exactly_points other_amino key k :
  length key = 33 -> Bech32ifyPubKey key = Some k ->
  (CheckKeyOnCurve other_amino k = Some true <-> exists x y, curve_point x y /\ encodes key x y).
Proof.
  intros Hl Hk. destruct (bech32ify_text other_amino key Hl) as (k' & Hk' & Hb & _). assert (k' = k) by congruence. subst k'.
  unfold CheckKeyOnCurve. rewrite Hb. split.
  - destruct (ParsePubKey key) as [[x y]|] eqn:E; [|discriminate]. intros _. pose proof (parse_sound _ _ _ E) as Hp. exists x, y.
    split; [apply curve_point_iff, Hp|]. apply encodes_iff; [exact Hp|]. symmetry. apply serialize_parse; assumption.
  - intros (x & y & Hc & He). apply curve_point_iff in Hc. apply encodes_iff in He; [|exact Hc]. subst key.
    rewrite parse_serialize by exact Hc. destruct Hc as (_ & _ & Hc). unfold isOnCurve. rewrite Hc, Z.eqb_refl. reflexivity.
Qed.
Print Assumptions C130_exactly_points.
(** The answer is never "no": a key off the curve is an error. And the keys that pass
    are those that have a peer. *)
Theorem C130_never_false other_amino k :
  CheckKeyOnCurve other_amino k <> Some false /\
  (CheckKeyOnCurve other_amino k = Some true <-> exists id, GetPeerIDFromPubKey other_amino k = Some id).
Proof.
  unfold CheckKeyOnCurve, GetPeerIDFromPubKey. destruct (GetPubKeyFromBech32 other_amino k) as [b|]; [|split; [discriminate|split; [discriminate|intros (? & ?); discriminate]]].
  destruct (ParsePubKey b) as [[x y]|] eqn:E; [|split; [discriminate|split; [discriminate|intros (? & ?); discriminate]]].
  apply parse_sound in E as (_ & _ & E). unfold isOnCurve. rewrite E, Z.eqb_refl. split; [discriminate|]. split; [eauto|reflexivity].
Qed.
Print Assumptions C130_never_false.
Example C130_ex : exists k, length (SerializeCompressed (test_x, test_y)) = 33 /\ Bech32ifyPubKey (SerializeCompressed (test_x, test_y)) = Some k /\
  CheckKeyOnCurve no_amino k = Some true.
Proof.
  destruct (bech32ify_text no_amino (SerializeCompressed (test_x, test_y)) (serialize_length _)) as (k & Hk & _ & _). exists k.
  split; [apply serialize_length|]. split; [exact Hk|]. apply (C130_exactly_points no_amino _ k (serialize_length _) Hk). exists test_x, test_y.
  split; [exact test_point|]. apply encodes_iff; [apply curve_point_iff, test_point|reflexivity].
Qed.
(** The key with the first byte 4 is refused. *)
Example C130_ex_refused : length (repeat (ascii_of_N 4) 33) = 33 /\
  match Bech32ifyPubKey (repeat (ascii_of_N 4) 33) with Some k => CheckKeyOnCurve no_amino k = None | None => False end.
Proof. split; [reflexivity|]. vm_compute. reflexivity. Qed.

(** ** C131: a mistyped key is refused *)

Lemma differences_app a b c d : length a = length b -> differences (a ++ c) (b ++ d) = differences a b + differences c d.
Proof.
  revert b. induction a as [|x a IH]; intros [|y b] H; try discriminate; [reflexivity|]. cbn [app differences]. rewrite IH by (injection H; auto). lia.
Qed.
Lemma char_of_inj v w : (v < 32)%N -> (w < 32)%N -> char_of charset v = char_of charset w -> v = w.
Proof. intros Hv Hw E. apply charset_index in Hv, Hw. congruence. Qed.
Lemma differences_values l l' : Forall (fun v => v < 32)%N l -> Forall (fun v => v < 32)%N l' -> length l = length l' ->
  differences (values_chars charset l) (values_chars charset l') = weight (zip_with N.lxor l l').
Proof.
  intros Hl. revert l'. induction Hl as [|v l Hv _ IH]; intros l' Hl' E; destruct Hl' as [|v' l' Hv' Hl']; try discriminate; [reflexivity|].
  cbn [values_chars map differences zip_with weight]. fold (values_chars charset l) (values_chars charset l'). rewrite IH by (auto; injection E; auto).
  destruct (Ascii.eqb_spec (char_of charset v) (char_of charset v')) as [Ec|Ec].
  - apply char_of_inj in Ec; [|exact Hv|exact Hv']. subst v'. rewrite N.lxor_nilpotent. reflexivity.
  - destruct (N.eqb_spec (N.lxor v v') 0) as [Ez|]; [|reflexivity]. apply N.lxor_eq in Ez. subst v'. destruct (Ec eq_refl).
Qed.
Lemma lxor_lt32 v w : (v < 32 -> w < 32 -> N.lxor v w < 32)%N.
Proof. intros H1 H2. apply (lxor_lt v w 5); assumption. Qed.
Lemma zip_small l l' : Forall (fun v => v < 32)%N l -> Forall (fun v => v < 32)%N l' -> Forall (fun v => v < 32)%N (zip_with N.lxor l l').
Proof. intros Hl. revert l'. induction Hl as [|v l Hv _ IH]; intros l' Hl'; [constructor|]. destruct Hl' as [|v' l' Hv' Hl']; [constructor|]. constructor; [apply lxor_lt32; assumption|apply IH, Hl']. Qed.
Lemma upper_prefix r s : r = map to_upper r -> length r = length (prefix ++ s) -> 7 <= differences (prefix ++ s) r.
Proof.
  intros Hr Hl. change (length (prefix ++ s)) with (7 + length s) in Hl.
  destruct r as [|c1 [|c2 [|c3 [|c4 [|c5 [|c6 [|c7 t]]]]]]]; try (cbn [length] in Hl; lia).
  cbn [map] in Hr. injection Hr as H1 H2 H3 H4 H5 H6 H8 _.
  assert (G : forall c d, c = to_upper c -> d <> to_upper d -> Ascii.eqb d c = false) by (intros c d Hc Hd; apply Ascii.eqb_neq; congruence).
  change (prefix ++ s) with ("t" :: "h" :: "o" :: "r" :: "p" :: "u" :: "b" :: s)%char. cbn [differences].
  rewrite !G by (assumption || (vm_compute; congruence)). lia.
Qed.
Theorem C131_mistyped_keys_refused other_amino key k k' :
  length key = 33 -> Bech32ifyPubKey key = Some k ->
  String.length k' = String.length k -> 1 <= differences (to_bytes k) (to_bytes k') <= 4 ->
  GetPubKeyFromBech32 other_amino k' = None /\ CheckKeyOnCurve other_amino k' = None /\ GetPeerIDFromPubKey other_amino k' = None.
Proof.
  intros Hl Hk Hlen Hdiff. assert (G : GetPubKeyFromBech32 other_amino k' = None); [|unfold CheckKeyOnCurve, GetPeerIDFromPubKey; rewrite G; auto].
  destruct (GetPubKeyFromBech32 other_amino k') as [b|] eqn:E; [exfalso|reflexivity].
  rewrite bech32ify_text_of in Hk. assert (Ha : length (amino_key key) = 38) by (rewrite amino_33, app_length, Hl by exact Hl; reflexivity).
  destruct (text_of_some (amino_key key)) as (data & Ht & Hd & _ & _); [lia|].
  destruct (convert_8_5 (map byte_val (amino_key key)) (values_small _)) as (data2 & Hc & _ & _ & Hn).
  unfold text_of in Hk, Ht. rewrite Hc in Hk, Ht. apply Some_inj in Hk, Ht. rewrite Ht in Hk. rewrite map_length, Ha in Hn.
  assert (Hdl : length data = length data2).
  { apply (f_equal length) in Ht. unfold bech32_encode, values_chars in Ht. rewrite !app_length in Ht. cbn [length] in Ht. rewrite !map_length, !app_length, !checksum_length in Ht. lia. }
  subst k. rewrite to_of_bytes in Hdiff.
  assert (Hb : length (to_bytes k') = length (bech32_encode prefix data)).
  { rewrite to_bytes_length, Hlen, <- to_bytes_length, to_of_bytes. reflexivity. }
  unfold GetPubKeyFromBech32 in E. destruct (bech32_decode (to_bytes k')) as [[hrp data']|] eqn:Ed; [|discriminate].
  apply decode_inv in Ed as (Hd' & He & Hcase & _).
  destruct (ConvertBits data' 5 8 false); [|discriminate]. case_bool_decide as Hp; [|discriminate]. subst hrp. clear E.
  destruct Hcase as [Hcase|Hcase].
  - rewrite <- Hcase in He. rewrite He in Hdiff, Hb. unfold bech32_encode in Hdiff, Hb. rewrite differences_app in Hdiff by reflexivity.
    rewrite !app_length in Hb. cbn [length] in Hb. unfold values_chars in Hb. rewrite !map_length, !app_length, !checksum_length in Hb.
    assert (S1 : Forall (fun v => v < 32)%N (data ++ checksum prefix data)) by (apply Forall_app; split; [exact Hd|apply checksum_small]).
    assert (S2 : Forall (fun v => v < 32)%N (data' ++ checksum prefix data')) by (apply Forall_app; split; [exact Hd'|apply checksum_small]).
    assert (L : length (data ++ checksum prefix data) = length (data' ++ checksum prefix data')) by (rewrite !app_length, !checksum_length; lia).
    replace (differences prefix prefix) with 0 in Hdiff by reflexivity. cbn [differences] in Hdiff. rewrite Ascii.eqb_refl in Hdiff.
    rewrite differences_values in Hdiff by assumption. cbn [Nat.add] in Hdiff.
    set (v := data ++ checksum prefix data) in *. set (v' := data' ++ checksum prefix data') in *.
    assert (V1 : run 1 (hrpExpand prefix ++ v) = 1%N).
    { apply N.eqb_eq. exact (proj2 (verify_iff prefix data _ Hd (checksum_small _ _) (checksum_length _ _)) eq_refl). }
    assert (V2 : run 1 (hrpExpand prefix ++ v') = 1%N).
    { apply N.eqb_eq. exact (proj2 (verify_iff prefix data' _ Hd' (checksum_small _ _) (checksum_length _ _)) eq_refl). }
    rewrite run_app in V1, V2. set (s := run 1 (hrpExpand prefix)) in *.
    pose proof (run_lxor s s v v' L) as R. rewrite V1, V2, !N.lxor_nilpotent, run_val in R. revert R.
    apply four_errors; [apply Forall_rev, zip_small; assumption| |rewrite weight_rev; exact Hdiff].
    rewrite rev_length, zip_with_length. unfold v, v', dist. rewrite !app_length, !checksum_length. lia.
  - unfold bech32_encode in Hdiff, Hb. apply (upper_prefix _ _ Hcase) in Hb. lia.
Qed.
Print Assumptions C131_mistyped_keys_refused.
Example C131_ex : exists key k', length key = 33 /\ Bech32ifyPubKey key = Some test_key /\ String.length k' = String.length test_key /\
  differences (to_bytes test_key) (to_bytes k') = 2 /\
  k' = "thorpub1addwnpepq2ryyje5zr09lq7gqptjwnxqsy2vcdngvwd6z7yt5yjcnyj8c8cn559ex69"%string.
Proof. destruct (GetPubKeyFromBech32 no_amino test_key) as [key|] eqn:E; [|vm_compute in E; discriminate]. exists key, "thorpub1addwnpepq2ryyje5zr09lq7gqptjwnxqsy2vcdngvwd6z7yt5yjcnyj8c8cn559ex69"%string. vm_compute in E. injection E as <-. repeat split; vm_compute; reflexivity. Qed.

(** ** C132: a key that parses is a file name *)

Lemma key_ascii s : forallb key_char (map to_lower s) = true -> Forall (fun c => (byte_val c < 128)%N) s.
Proof.
  intros H. apply key_chars_printable in H. rewrite forallb_forall in H. apply Forall_forall. intros c Hc. apply elem_of_list_In in Hc.
  specialize (H _ (in_map to_lower _ _ Hc)). apply andb_true_iff in H as [_ H]. apply N.leb_le in H. unfold to_lower in H.
  destruct (N.leb_spec 65 (byte_val c)); cbn [andb] in H; [|lia]. destruct (N.leb_spec (byte_val c) 90); cbn [andb] in H; lia.
Qed.
Theorem C132_key_is_a_file_name other_amino k b :
  GetPubKeyFromBech32 other_amino k = Some b -> k <> ""%string /\ "/"%char ∉ to_bytes k /\ text k.
Proof.
  intros H. split; [intros ->; vm_compute in H; discriminate|]. apply get_inv in H as (_ & _ & _ & Hc & _).
  split; [rewrite elem_of_list_In; apply no_slash, Hc|]. apply ascii_text, key_ascii, Hc.
Qed.
Print Assumptions C132_key_is_a_file_name.
(** What the theorems about the saved states assume of the check of keys *)
Theorem C132_state_laws F other_amino :
  fe_curve F = CheckKeyOnCurve other_amino -> (forall d v, fe_data F d = Some v -> json_texts v /\ nested 100 v /\ fe_undata F v = Some d) -> fs_laws F.
Proof.
  intros Hc Hd. split; [|exact Hd]. intros k. rewrite Hc. unfold CheckKeyOnCurve. destruct (GetPubKeyFromBech32 other_amino k) as [b|] eqn:E; [|discriminate].
  intros _. exact (C132_key_is_a_file_name other_amino k b E).
Qed.
Print Assumptions C132_state_laws.
Definition curve_fs : fsenv := FsEnv (fe_folder toy_fs) (CheckKeyOnCurve no_amino) (fe_data toy_fs) (fe_undata toy_fs).
Example C132_ex : GetPubKeyFromBech32 no_amino test_key <> None /\ fs_laws curve_fs.
Proof. split; [vm_compute; discriminate|]. apply (C132_state_laws _ no_amino); [reflexivity|apply (fl_data toy_fs toy_laws)]. Qed.

(** ** C134: the state saved for a key is found for every text of the key (refuted) *)

Lemma other_text F k1 k2 s : fs_laws F -> fe_curve F k1 = Some true -> fe_curve F k2 = Some true -> k1 <> k2 -> st_pub s = k1 -> fe_data F (st_data s) <> None -> state_texts s ->
  let fs := frun F ∅ [OSave s WDone] in GetLocalState F k1 fs = Some s /\ GetLocalState F k2 fs = None.
Proof.
  intros L B1 B2 Hne Hs Hd Ht. cbn zeta.
  assert (A : accepted F s = true) by (unfold accepted; rewrite Hs, B1; destruct (fe_data F (st_data s)); [reflexivity|congruence]).
  pose proof (C52_reads_last_saved F [OSave s WDone] k1 L B1) as R1. pose proof (C52_reads_last_saved F [OSave s WDone] k2 L B2) as R2.
  unfold last_attempt in R1, R2. cbn [fold_left attempt] in R1, R2. rewrite A, Hs in R1, R2. rewrite String.eqb_refl in R1.
  apply String.eqb_neq in Hne. rewrite Hne in R2. split; [exact (R1 Ht)|exact R2].
Qed.
Lemma on_curve_of_id k id : GetPeerIDFromPubKey no_amino k = Some id -> CheckKeyOnCurve no_amino k = Some true.
Proof. intros H. apply (proj2 (proj2 (C130_never_false no_amino k))). exists id. exact H. Qed.
Theorem C134_state_of_every_text_refuted :
  exists F k1 k2 id s, fe_curve F = CheckKeyOnCurve no_amino /\ fs_laws F /\
    GetPeerIDFromPubKey no_amino k1 = Some id /\ GetPeerIDFromPubKey no_amino k2 = Some id /\ st_pub s = k1 /\
    let fs := frun F ∅ [OSave s WDone] in GetLocalState F k1 fs = Some s /\ GetLocalState F k2 fs = None.
Proof.
  destruct C128_ex as (id & H1 & H2). assert (Hne : test_key <> capitals test_key) by (vm_compute; congruence).
  revert H1 H2 Hne. generalize (capitals test_key) as k2. generalize test_key as k1. intros k1 k2 H1 H2 Hne.
  exists curve_fs, k1, k2, id, (Stored k1 (toy_data "aa") (Some [k1]) k1). split; [reflexivity|]. assert (L : fs_laws curve_fs) by apply C132_ex.
  split; [exact L|]. split; [exact H1|]. split; [exact H2|]. split; [reflexivity|].
  apply other_text; [exact L|exact (on_curve_of_id _ _ H1)|exact (on_curve_of_id _ _ H2)|exact Hne|reflexivity|discriminate|].
  assert (T : text k1) by exact (proj2 (proj2 (fl_key _ L k1 (on_curve_of_id _ _ H1)))). split; [constructor; [exact T|constructor]|exact T].
Qed.
Print Assumptions C134_state_of_every_text_refuted.

(** ** C133: parties stand for the peers and the keys of the participants *)

Lemma party_bytes x y : point x y -> GetPeerIDFromPartyID (be_val (SerializeCompressed (x, y))) = Some (IDFromPublicKey (x, y)) /\
  PartyIDtoPubKey (be_val (SerializeCompressed (x, y))) = Bech32ifyPubKey (SerializeCompressed (x, y)).
Proof.
  intros H. assert (Hn : number_bytes (be_val (SerializeCompressed (x, y))) = SerializeCompressed (x, y)).
  { apply number_bytes_val. intros r E. apply (f_equal (fun l => match l with c :: _ => byte_val c | [] => 0%N end)) in E. unfold SerializeCompressed in E. cbv beta iota in E. cbn [snd] in E.
    rewrite byte_val_23 in E. destruct (Z.odd y); discriminate. }
  assert (Hz : be_val (SerializeCompressed (x, y)) <> 0%N).
  { intros E. rewrite E in Hn. apply (f_equal length) in Hn. rewrite serialize_length in Hn. discriminate. }
  unfold GetPeerIDFromPartyID, PartyIDtoPubKey, GetPeerIDFromSecp256PubKey. rewrite Hn, serialize_length. cbn [Nat.eqb].
  destruct (N.eqb_spec (be_val (SerializeCompressed (x, y))) 0); [contradiction|]. rewrite parse_serialize by exact H. auto.
Qed.
Theorem C133_parties_stand_for_participants other_amino keys local ps me :
  only_this_form other_amino ->
  GetParties (GetPubKeyFromBech32 other_amino) keys local = Some (ps, me) ->
  Forall (fun k => exists id, GetPeerIDFromPubKey other_amino k = Some id) keys ->
  (forall p, p ∈ ps -> exists k k' id, k ∈ keys /\ small_letters k k' /\ GetPeerIDFromPubKey other_amino k = Some id /\
     GetPeerIDFromPartyID (p_key p) = Some id /\ PartyIDtoPubKey (p_key p) = Some k') /\
  (exists k' id, small_letters local k' /\ GetPeerIDFromPubKey other_amino local = Some id /\
     GetPeerIDFromPartyID (p_key me) = Some id /\ PartyIDtoPubKey (p_key me) = Some k').
Proof.
  intros Ho Hg Hk. apply C06_party_table in Hg as [_ Hkeys _ _ _ Hloc]. rewrite Forall_forall in Hk.
  assert (In_ranked : forall i k, ranked keys i k -> k ∈ keys).
  { intros i k (sk & Hp & _ & Hi). rewrite <- Hp. eapply elem_of_list_lookup_2, Hi. }
  assert (G : forall k b, k ∈ keys -> GetPubKeyFromBech32 other_amino k = Some b -> exists k' id, small_letters k k' /\ GetPeerIDFromPubKey other_amino k = Some id /\
    GetPeerIDFromPartyID (be_val b) = Some id /\ PartyIDtoPubKey (be_val b) = Some k').
  { intros k b Hin Hb. destruct (Hk k Hin) as [id Hid]. pose proof Hid as Hid'. apply id_point in Hid as (b' & x & y & Hb' & Hp & Hpt & ->).
    assert (b' = b) by congruence. subst b'. destruct (standard_text _ _ _ _ _ Ho Hb Hp) as [-> (k' & Hk' & Hs)]. destruct (party_bytes x y Hpt) as [P1 P2].
    exists k', (IDFromPublicKey (x, y)). rewrite P2. auto. }
  split.
  - intros p Hp. destruct (Hkeys p Hp) as (i & k & b & _ & Hr & Hb & ->). destruct (G k b (In_ranked _ _ Hr) Hb) as (k' & id & ?). exists k, k', id. split; [exact (In_ranked _ _ Hr)|tauto].
  - destruct Hloc as (i & b & _ & Hr & Hb & ->). exact (G local b (In_ranked _ _ Hr) Hb).
Qed.
Print Assumptions C133_parties_stand_for_participants.
Definition other_key : string := "thorpub1addwnpepqtdklw8tf3anjz7nn5fly3uvq2e67w2apn560s4smmrt9e3x52nt2svmmu3".
Definition other_x : Z := 99253910128895441060132341993891689965515942076762033542835873852304497223349.
Definition other_y : Z := 12156730307947215897341727243745861048742579037556339633924271847116223878034.
Lemma other_point : curve_point other_x other_y. Proof. show_point. Qed.
Example C133_ex : only_this_form no_amino /\
  (exists ps me, GetParties (GetPubKeyFromBech32 no_amino) [test_key; other_key] other_key = Some (ps, me) /\ length ps = 2) /\
  Forall (fun k => exists id, GetPeerIDFromPubKey no_amino k = Some id) [test_key; other_key].
Proof.
  split; [discriminate|]. split.
  - do 2 eexists. split; vm_compute; reflexivity.
  - constructor; [|constructor; [|constructor]]; [exists (IDFromPublicKey (test_x, test_y)); exact test_id|].
    exists (IDFromPublicKey (other_x, other_y)). eapply id_of_key; [vm_compute; reflexivity|exact other_point|vm_compute; reflexivity].
Qed.
