(** Which bytes are read as a public key (btcec.ParsePubKey, as called by
    conversion/key_provider.go and conversion/conversion.go). *)
From Coq Require Import ZArith Znumtheory NArith Ascii String List Lia.
From stdpp Require Import base list strings.
From Verif Require Import Base L_Base M_Conv M_Recovery M_Keys S_Keys L_KeyFile L_Bech32 L_Base58 L_Curve L_Keys P_Keys.

Lemma first_byte n (b : bool) : (n < 256)%N ->
  (N.eqb (N.land n 254) 4 || (N.eqb (N.land n 254) 6 && Bool.eqb (N.odd n) b))%bool = true <->
  (n = 4 \/ n = 5 \/ n = if b then 7 else 6)%N.
Proof.
  intros Hn.
  assert (H : forallb (fun k => let n := N.of_nat k in
      Bool.eqb (N.eqb (N.land n 254) 4 || (N.eqb (N.land n 254) 6 && Bool.eqb (N.odd n) b))
               (N.eqb n 4 || (N.eqb n 5 || N.eqb n (if b then 7 else 6)))) (seq 0 256) = true) by (destruct b; vm_compute; reflexivity).
  rewrite forallb_forall in H. specialize (H (N.to_nat n) ltac:(apply in_seq; lia)). cbv zeta in H. rewrite N2Nat.id in H.
  apply Bool.eqb_prop in H. rewrite H, !Bool.orb_true_iff, !N.eqb_eq. reflexivity.
Qed.
Lemma parse_long f r x y : length r = 64 ->
  ParsePubKey (f :: r) = Some (x, y) <-> point x y /\ encodes_long (f :: r) x y.
Proof.
  intros L. split.
  - intros H. split; [apply (parse_sound _ _ _ H)|]. revert H. unfold ParsePubKey. cbn [length]. rewrite L. cbn [Nat.eqb].
    match goal with |- context [if ?t then Some (?x', ?y') else None] => destruct t eqn:T; [|discriminate] end.
    destruct (_ && _ && _)%bool; [|discriminate]. intros E. injection E as <- <-.
    exists f, (take 32 r), (drop 32 r). rewrite (take_drop 32 r), !N2Z.id. split; [reflexivity|].
    split; [rewrite take_length; lia|]. split; [rewrite drop_length; lia|]. split; [reflexivity|]. split; [reflexivity|].
    apply (first_byte _ _ (byte_val_lt f)). exact T.
  - intros (Hp & f' & rx & ry & E & Lx & Ly & Vx & Vy & Hf). injection E as <- ->. destruct Hp as (Hx & Hy & C).
    unfold ParsePubKey. cbn [length]. rewrite L. cbn [Nat.eqb]. rewrite <- Lx, take_app, drop_app, Vx, Vy, !Z2N.id by lia.
    apply (first_byte _ _ (byte_val_lt f)) in Hf. rewrite Hf.
    destruct (Z.ltb_spec x secp_p); [|lia]. destruct (Z.ltb_spec y secp_p); [|lia]. unfold isOnCurve. rewrite C, Z.eqb_refl. reflexivity.
Qed.
Lemma parse_length b x y : ParsePubKey b = Some (x, y) -> length b = 33 \/ length b = 65.
Proof.
  unfold ParsePubKey. destruct b as [|f r]; [discriminate|]. destruct (Nat.eqb_spec (length (f :: r)) 65); [auto|].
  destruct (Nat.eqb_spec (length (f :: r)) 33); [auto|discriminate].
Qed.

(** ** C196: the bytes that are a public key, and the point they give *)

Theorem C196_key_bytes b x y :
  ParsePubKey b = Some (x, y) <-> curve_point x y /\ (encodes b x y \/ encodes_long b x y).
Proof.
  rewrite curve_point_iff. split.
  - intros H. pose proof (parse_sound _ _ _ H) as Hp. split; [exact Hp|]. destruct (parse_length _ _ _ H) as [L|L].
    + left. apply encodes_iff; [exact Hp|]. symmetry. apply serialize_parse; assumption.
    + right. destruct b as [|f r]; [discriminate|]. apply (parse_long f r x y); [injection L; auto|exact H].
  - intros (Hp & [H|H]).
    + apply encodes_iff in H; [|exact Hp]. subst b. apply parse_serialize, Hp.
    + destruct H as (f & rx & ry & -> & Lx & Ly & H). apply parse_long; [rewrite app_length; lia|]. split; [exact Hp|].
      exists f, rx, ry. auto.
Qed.
Print Assumptions C196_key_bytes.

(** A text names a peer exactly when its bytes are a point, and then the peer of that
    point, whichever form the bytes have. *)
Theorem C196_peer_of_text other_amino k b id :
  GetPubKeyFromBech32 other_amino k = Some b ->
  (GetPeerIDFromPubKey other_amino k = Some id <->
   exists x y key k', curve_point x y /\ (encodes b x y \/ encodes_long b x y) /\ encodes key x y /\
     Bech32ifyPubKey key = Some k' /\ GetPeerIDFromPubKey other_amino k' = Some id).
Proof.
  intros Hb. split.
  - intros H. unfold GetPeerIDFromPubKey in H. rewrite Hb in H. destruct (ParsePubKey b) as [[x y]|] eqn:E; [|discriminate].
    pose proof (proj1 (C196_key_bytes b x y) E) as (Hc & Hf). pose proof (proj1 (curve_point_iff x y) Hc) as Hp.
    destruct (bech32ify_text other_amino (SerializeCompressed (x, y)) (serialize_length _)) as (k' & Hk' & Hb' & _).
    exists x, y, (SerializeCompressed (x, y)), k'. split; [exact Hc|]. split; [exact Hf|]. split; [apply encodes_iff; auto|]. split; [exact Hk'|].
    unfold GetPeerIDFromPubKey. rewrite Hb', parse_serialize by exact Hp. exact H.
  - intros (x & y & key & k' & Hc & Hf & He & Hk' & Hid).
    pose proof (proj2 (C196_key_bytes b x y) (conj Hc Hf)) as E. pose proof (proj1 (curve_point_iff x y) Hc) as Hp.
    apply encodes_iff in He; [|exact Hp]. subst key.
    destruct (bech32ify_text other_amino (SerializeCompressed (x, y)) (serialize_length _)) as (k2 & Hk2 & Hb' & _).
    assert (k2 = k') by congruence. subst k2. unfold GetPeerIDFromPubKey in Hid |- *. rewrite Hb' in Hid. rewrite parse_serialize in Hid by exact Hp.
    rewrite Hb, E. exact Hid.
Qed.
Print Assumptions C196_peer_of_text.
Example C196_ex_text : exists b, GetPubKeyFromBech32 no_amino test_key = Some b.
Proof. eexists. vm_compute. reflexivity. Qed.
(** A point in the long form *)
Definition long_key : bytes := ascii_of_N 4 :: be_bytes 32 (Z.to_N test_x) ++ be_bytes 32 (Z.to_N test_y).
Example C196_ex : encodes_long long_key test_x test_y /\ length long_key = 65.
Proof.
  split; [|unfold long_key; cbn [length]; rewrite app_length, !be_bytes_length; reflexivity].
  unfold long_key. do 3 eexists. split; [reflexivity|]. rewrite !be_bytes_length. split; [reflexivity|]. split; [reflexivity|].
  split; [vm_compute; reflexivity|]. split; [vm_compute; reflexivity|]. left. reflexivity.
Qed.
