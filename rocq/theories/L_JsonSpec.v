(** Reading a JSON text is exactly its grammar. *)
From Coq Require Import ZArith NArith Ascii String List Lia ZifyNat ZifyN.
From stdpp Require Import base list strings.
From Verif Require Import Base L_Base M_Semver L_Semver M_Utf8 S_Utf8 L_Utf8 M_Base64 M_Json L_Json S_Json.

(** ** Characters *)

Lemma byte_inj (a c : ascii) : byte_val a = byte_val c <-> a = c.
Proof. unfold byte_val. split; [|intros ->; reflexivity]. intros H. rewrite <- (ascii_N_embedding a), H. apply ascii_N_embedding. Qed.
Lemma byte_of a k : byte_val a = k -> a = ascii_of_N k.
Proof. intros <-. symmetry. apply ascii_N_embedding. Qed.
Lemma of_byte k : (k < 256)%N -> byte_val (ascii_of_N k) = k.
Proof. apply N_ascii_embedding. Qed.

Lemma is_space_iff c : is_space c = true <-> blank c.
Proof.
  unfold is_space, blank. rewrite bool_decide_eq_true.
  rewrite <- (byte_inj c " "), <- (byte_inj c "009"), <- (byte_inj c "010"), <- (byte_inj c "013"). reflexivity.
Qed.
Lemma is_digit_iff c : is_digit c = true <-> decimal_digit c.
Proof. unfold is_digit, decimal_digit. rewrite andb_true_iff, !N.leb_le. reflexivity. Qed.
Lemma hex_val_iff c n : hex_val c = Some n <-> digit16 c n.
Proof.
  unfold hex_val. split.
  - destruct (is_digit c) eqn:Hd.
    + apply is_digit_iff in Hd. unfold decimal_digit in Hd. intros [= <-]. apply d16_digit; lia.
    + destruct (N.leb 97 _ && _)%bool eqn:Hl.
      { apply andb_true_iff in Hl as [H1 H2]. apply N.leb_le in H1, H2. intros [= <-]. apply d16_lower; lia. }
      destruct (N.leb 65 _ && _)%bool eqn:Hu; [|discriminate].
      apply andb_true_iff in Hu as [H1 H2]. apply N.leb_le in H1, H2. intros [= <-]. apply d16_upper; lia.
  - intros H. destruct H as [c n Hn Hc|c n Hn Hc|c n Hn Hc].
    + rewrite (proj2 (is_digit_iff c)) by (unfold decimal_digit; lia). f_equal. lia.
    + destruct (is_digit c) eqn:Hd; [apply is_digit_iff in Hd; unfold decimal_digit in Hd; lia|].
      rewrite (proj2 (N.leb_le 97 _)), (proj2 (N.leb_le _ 102)) by lia. cbn [andb]. f_equal. lia.
    + destruct (is_digit c) eqn:Hd; [apply is_digit_iff in Hd; unfold decimal_digit in Hd; lia|].
      rewrite (proj2 (N.leb_gt 97 _)) by lia. cbn [andb].
      rewrite (proj2 (N.leb_le 65 _)), (proj2 (N.leb_le _ 70)) by lia. cbn [andb]. f_equal. lia.
Qed.
Lemma hex4_iff a b c d u : hex4 a b c d = Some u <-> unit16 [a; b; c; d] u.
Proof.
  split.
  - intros H. destruct (hex4_some _ _ _ _ _ H) as (i & j & k & l & H1 & H2 & H3 & H4 & ->).
    apply hex_val_iff in H1, H2, H3, H4.
    replace (((i * 16 + j) * 16 + k) * 16 + l)%N with (4096 * i + 256 * j + 16 * k + l)%N by lia. constructor; assumption.
  - intros H. inversion H as [a' b' c' d' i j k l H1 H2 H3 H4]; subst. apply hex_val_iff in H1, H2, H3, H4. unfold hex4.
    rewrite H1, H2, H3, H4. f_equal. lia.
Qed.
Lemma unit16_four h u : unit16 h u -> exists a b c d, h = [a; b; c; d] /\ hex4 a b c d = Some u.
Proof. intros H. inversion H; subst. eexists _, _, _, _. split; [reflexivity|]. apply hex4_iff, H. Qed.
Lemma unit16_bound h u : unit16 h u -> (u < 65536)%N.
Proof.
  intros H. inversion H as [a b c d i j k l H1 H2 H3 H4]; subst.
  assert (Hd : forall c n, digit16 c n -> (n < 16)%N) by (intros ? ?; inversion 1; subst; lia).
  apply Hd in H1, H2, H3, H4. lia.
Qed.
Lemma unescape_iff e c : unescape e = Some c <-> short e c.
Proof.
  unfold unescape, short. change dquote with quote. change reverse_solidus with backslash.
  assert (Hin : forall (x y : ascii), byte_val c = byte_val y -> c = y) by (intros _ y; apply byte_inj).
  split.
  - repeat (destruct (decide _) as [->|_]; [intros [= <-]; repeat ((left; reflexivity) || right)|]). discriminate.
  - cbn [In]. intros H.
    destruct H as [H|[H|[H|[H|[H|[H|[H|[H|[]]]]]]]]]; injection H as <- H;
      symmetry in H; apply byte_of in H; subst c; reflexivity.
Qed.
Lemma is_high_iff u : is_high u = true <-> first_half u.
Proof. unfold is_high, first_half. rewrite andb_true_iff, N.leb_le, N.ltb_lt. lia. Qed.
Lemma is_low_iff u : is_low u = true <-> second_half u.
Proof. unfold is_low, second_half. rewrite andb_true_iff, N.leb_le, N.ltb_lt. lia. Qed.
Lemma half_dec u : (is_high u || is_low u)%bool = true <-> first_half u \/ second_half u.
Proof. rewrite orb_true_iff, is_high_iff, is_low_iff. reflexivity. Qed.
Lemma utf8_half u : first_half u \/ second_half u -> utf8 u = replacement.
Proof.
  intros H. pose proof (proj2 (half_dec u) H) as Hd. unfold first_half, second_half in H. unfold utf8.
  rewrite (proj2 (N.ltb_ge u 128)), (proj2 (N.ltb_ge u 2048)), Hd by lia. reflexivity.
Qed.

Lemma utf8_encodes u : (u <= 0x10FFFF)%N -> ~ (first_half u \/ second_half u) -> encodes u (utf8 u).
Proof.
  intros Hu Hs. unfold utf8. destruct (N.ltb_spec u 128).
  { split; [constructor; rewrite of_byte; lia|]. cbn [code_point]. apply of_byte. lia. }
  assert (Hdiv : forall k, (0 < k)%N -> (u / k <= u)%N) by (intros k Hk; apply N.div_le_upper_bound; nia).
  destruct (N.ltb_spec u 2048).
  { assert (u / 64 < 32)%N by (apply N.div_lt_upper_bound; lia). pose proof (N.mod_lt u 64 ltac:(lia)).
    split; [apply (utf8_two u); [lia|apply of_byte; lia|apply of_byte; lia]|]. cbn [code_point]. rewrite !of_byte by lia.
    pose proof (N.div_mod u 64). lia. }
  destruct (is_high u || is_low u)%bool eqn:Hd; [apply half_dec in Hd; contradiction|].
  destruct (N.ltb_spec u 65536).
  { assert (u / 4096 < 16)%N by (apply N.div_lt_upper_bound; lia). pose proof (N.mod_lt u 64 ltac:(lia)).
    pose proof (N.mod_lt (u / 64) 64 ltac:(lia)).
    split; [apply (utf8_three u); [lia|unfold first_half, second_half in Hs; lia|apply of_byte; lia..]|].
    cbn [code_point]. rewrite !of_byte by lia. pose proof (N.div_mod u 64). pose proof (N.div_mod (u / 64) 64).
    replace (u / 4096)%N with (u / 64 / 64)%N by (rewrite N.div_div by lia; reflexivity). lia. }
  assert (u / 262144 < 5)%N by (apply N.div_lt_upper_bound; lia). pose proof (N.mod_lt u 64 ltac:(lia)).
  pose proof (N.mod_lt (u / 64) 64 ltac:(lia)). pose proof (N.mod_lt (u / 4096) 64 ltac:(lia)).
  split; [apply (utf8_four u); [lia|apply of_byte; lia..]|].
  cbn [code_point]. rewrite !of_byte by lia. pose proof (N.div_mod u 64). pose proof (N.div_mod (u / 64) 64).
  pose proof (N.div_mod (u / 4096) 64).
  replace (u / 262144)%N with (u / 4096 / 64)%N by (rewrite N.div_div by lia; reflexivity).
  replace (u / 4096)%N with (u / 64 / 64)%N in * by (rewrite N.div_div by lia; reflexivity). lia.
Qed.
Lemma code_point_of n ch : utf8_char ch -> code_point ch = n ->
  (n <= 0x10FFFF)%N /\ ~ (first_half n \/ second_half n) /\ ch = utf8 n.
Proof.
  intros H <-. inversion H as [c Hc|n a b Hn Ha Hb|n a b c Hn Hs Ha Hb Hc|n a b c d Hn Ha Hb Hc Hd]; subst; cbn [code_point].
  - split; [lia|]. split; [unfold first_half, second_half; lia|]. unfold utf8. rewrite (proj2 (N.ltb_lt _ _)) by exact Hc.
    f_equal. apply byte_of. reflexivity.
  - assert (He : ((byte_val a - 0xC0) * 64 + (byte_val b - 0x80) = n)%N).
    { rewrite Ha, Hb. pose proof (N.div_mod n 64). lia. }
    rewrite He. split; [lia|]. split; [unfold first_half, second_half; lia|]. unfold utf8.
    rewrite (proj2 (N.ltb_ge n 128)), (proj2 (N.ltb_lt n 2048)) by lia. rewrite (byte_of _ _ Ha), (byte_of _ _ Hb). reflexivity.
  - assert (He : (((byte_val a - 0xE0) * 64 + (byte_val b - 0x80)) * 64 + (byte_val c - 0x80) = n)%N).
    { rewrite Ha, Hb, Hc. pose proof (N.div_mod n 64). pose proof (N.div_mod (n / 64) 64).
      replace (n / 4096)%N with (n / 64 / 64)%N by (rewrite N.div_div by lia; reflexivity). lia. }
    rewrite He. assert (Hh : ~ (first_half n \/ second_half n)) by (unfold first_half, second_half; lia).
    split; [lia|]. split; [exact Hh|]. unfold utf8.
    rewrite (proj2 (N.ltb_ge n 128)), (proj2 (N.ltb_ge n 2048)), (proj2 (N.ltb_lt n 65536)) by lia.
    destruct (is_high n || is_low n)%bool eqn:Hx; [apply half_dec in Hx; contradiction|].
    rewrite (byte_of _ _ Ha), (byte_of _ _ Hb), (byte_of _ _ Hc). reflexivity.
  - assert (He : ((((byte_val a - 0xF0) * 64 + (byte_val b - 0x80)) * 64 + (byte_val c - 0x80)) * 64 + (byte_val d - 0x80) = n)%N).
    { rewrite Ha, Hb, Hc, Hd. pose proof (N.div_mod n 64). pose proof (N.div_mod (n / 64) 64). pose proof (N.div_mod (n / 4096) 64).
      replace (n / 262144)%N with (n / 4096 / 64)%N by (rewrite N.div_div by lia; reflexivity).
      replace (n / 4096)%N with (n / 64 / 64)%N in * by (rewrite N.div_div by lia; reflexivity). lia. }
    rewrite He. assert (Hh : ~ (first_half n \/ second_half n)) by (unfold first_half, second_half; lia).
    split; [lia|]. split; [exact Hh|]. unfold utf8.
    rewrite (proj2 (N.ltb_ge n 128)), (proj2 (N.ltb_ge n 2048)), (proj2 (N.ltb_ge n 65536)) by lia.
    destruct (is_high n || is_low n)%bool eqn:Hx; [apply half_dec in Hx; contradiction|].
    rewrite (byte_of _ _ Ha), (byte_of _ _ Hb), (byte_of _ _ Hc), (byte_of _ _ Hd). reflexivity.
Qed.

(** ** Strings *)

Definition follows (r : bytes) : option (N * bytes) :=
  match r with
  | b1 :: b2 :: g1 :: g2 :: g3 :: g4 :: r3 =>
      if decide (b1 = backslash /\ b2 = "u"%char) then
        match hex4 g1 g2 g3 g4 with Some v => if is_low v then Some (v, r3) else None | None => None end
      else None
  | _ => None
  end.
Lemma follows_iff r v r3 : follows r = Some (v, r3) <-> exists g, unit16 g v /\ second_half v /\ r = escaped g ++ r3.
Proof.
  split.
  - unfold follows. destruct r as [|b1 [|b2 [|g1 [|g2 [|g3 [|g4 r]]]]]]; try discriminate.
    destruct (decide _) as [[-> ->]|_]; [|discriminate]. destruct (hex4 g1 g2 g3 g4) as [y|] eqn:Hy; [|discriminate].
    destruct (is_low y) eqn:Hl; [|discriminate]. intros [= <- <-]. exists [g1; g2; g3; g4]. split; [apply hex4_iff, Hy|].
    split; [apply is_low_iff, Hl|reflexivity].
  - intros (g & Hg & Hs & ->). destruct (unit16_four g v Hg) as (a & b & c & d & -> & Hx). cbn [follows escaped app].
    destruct (decide _) as [_|He]; [|destruct He; split; reflexivity]. rewrite Hx, (proj2 (is_low_iff v) Hs). reflexivity.
Qed.
Definition prefixed (p : bytes) (x : option (bytes * bytes)) : option (bytes * bytes) :=
  match x with Some (s, t) => Some (p ++ s, t) | None => None end.
Lemma str_body_u a b c d u r : hex4 a b c d = Some u ->
  str_body (escaped [a; b; c; d] ++ r) =
  match (if is_high u then follows r else None) with
  | Some (v, r3) => prefixed (utf8 (pair_rune u v)) (str_body r3)
  | None => prefixed (utf8 u) (str_body r)
  end.
Proof.
  intros Hx. cbn [escaped app]. change reverse_solidus with backslash. cbn [str_body]. destruct (decide (backslash = quote)); [discriminate|].
  destruct (decide (backslash = backslash)); [|contradiction]. destruct (decide ("u"%char = "u"%char)); [|contradiction].
  rewrite Hx. cbv zeta. unfold prefixed, follows. destruct (is_high u) eqn:Hh.
  - destruct r as [|b1 [|b2 [|g1 [|g2 [|g3 [|g4 r3]]]]]]; try reflexivity.
    destruct (decide (b1 = backslash /\ b2 = "u"%char)) as [[-> ->]|Hn].
    + destruct (decide _) as [_|He]; [|destruct He; repeat split].
      destruct (hex4 g1 g2 g3 g4) as [y|]; [|reflexivity]. destruct (is_low y); reflexivity.
    + destruct (decide _) as [(H1 & H2 & _)|_]; [destruct Hn; split; assumption|reflexivity].
  - destruct r as [|b1 [|b2 [|g1 [|g2 [|g3 [|g4 r3]]]]]]; try reflexivity.
    destruct (decide _) as [(_ & _ & He)|_]; [discriminate|reflexivity].
Qed.
Lemma pair_rune_eq u v : pair_rune u v = (0x10000 + 0x400 * (u - 0xD800) + (v - 0xDC00))%N.
Proof. unfold pair_rune. lia. Qed.
Lemma pair_plain u v : first_half u -> second_half v ->
  (pair_rune u v <= 0x10FFFF)%N /\ ~ (first_half (pair_rune u v) \/ second_half (pair_rune u v)).
Proof. rewrite pair_rune_eq. unfold first_half, second_half. lia. Qed.

Lemma str_body_sound : forall n b v t, length b <= n -> str_body b = Some (v, t) ->
  exists u, b = u ++ quote :: t /\ string_text u v.
Proof.
  induction n as [|n IH]; intros b v t Hn H.
  { destruct b; [discriminate|simpl in Hn; lia]. }
  destruct b as [|c r]; [discriminate|]. simpl in Hn.
  destruct (decide (c = quote)) as [->|Hq].
  { cbn [str_body] in H. destruct (decide (quote = quote)); [|contradiction]. injection H as <- <-. exists []. split; [reflexivity|constructor]. }
  destruct (decide (c = backslash)) as [->|Hb].
  - destruct r as [|e r]; [discriminate|]. simpl in Hn. destruct (decide (e = "u"%char)) as [->|He].
    + assert (Hh : exists h1 h2 h3 h4 r' u, r = h1 :: h2 :: h3 :: h4 :: r' /\ hex4 h1 h2 h3 h4 = Some u).
      { cbn [str_body] in H. destruct (decide (backslash = quote)); [discriminate|].
        destruct (decide (backslash = backslash)); [|contradiction]. destruct (decide ("u"%char = "u"%char)); [|contradiction].
        destruct r as [|h1 [|h2 [|h3 [|h4 r]]]]; try discriminate. destruct (hex4 h1 h2 h3 h4) as [u|] eqn:Hu; [|discriminate]. eauto 10. }
      destruct Hh as (h1 & h2 & h3 & h4 & r' & u & -> & Hu). simpl in Hn.
      change (backslash :: "u"%char :: h1 :: h2 :: h3 :: h4 :: r') with (escaped [h1; h2; h3; h4] ++ r') in H |- *.
      rewrite (str_body_u _ _ _ _ u) in H by exact Hu. pose proof (proj1 (hex4_iff _ _ _ _ _) Hu) as H16.
      pose proof (unit16_bound _ _ H16) as Hub.
      destruct (if is_high u then follows r' else None) as [[w r3]|] eqn:Hf.
      * destruct (is_high u) eqn:Hh; [|discriminate]. apply is_high_iff in Hh. apply follows_iff in Hf as (g & Hg & Hs & ->).
        unfold prefixed in H. destruct (str_body r3) as [[s' t']|] eqn:Hr; [|discriminate]. injection H as <- <-.
        rewrite app_length in Hn.
        destruct (IH r3 s' t' ltac:(lia) Hr) as (x & -> & Hx). exists (escaped [h1; h2; h3; h4] ++ escaped g ++ x).
        split; [rewrite <- !app_assoc; reflexivity|]. destruct (pair_plain u w Hh Hs) as [Hp1 Hp2].
        apply (st_pair _ g u w); try assumption. rewrite <- pair_rune_eq. apply utf8_encodes; assumption.
      * unfold prefixed in H. destruct (str_body r') as [[s' t']|] eqn:Hr; [|discriminate]. injection H as <- <-.
        destruct (IH r' s' t' ltac:(lia) Hr) as (x & -> & Hx). exists (escaped [h1; h2; h3; h4] ++ x).
        split; [rewrite <- !app_assoc; reflexivity|]. destruct (is_high u || is_low u)%bool eqn:Hh.
        -- apply half_dec in Hh. rewrite utf8_half by exact Hh. apply (st_lone _ u); try assumption.
           intros g w r H1 Hg Hs ->. rewrite (proj2 (is_high_iff u) H1) in Hf.
           rewrite (proj2 (follows_iff ((escaped g ++ r) ++ quote :: t') w (r ++ quote :: t'))) in Hf; [discriminate|].
           exists g. rewrite <- app_assoc. auto.
        -- apply (st_unit _ u); try assumption. apply utf8_encodes; [lia|]. rewrite <- half_dec, Hh. discriminate.
    + cbn [str_body] in H. destruct (decide (backslash = quote)); [discriminate|].
      destruct (decide (backslash = backslash)); [|contradiction]. destruct (decide (e = "u"%char)); [contradiction|].
      destruct (unescape e) as [y|] eqn:Hy; [|discriminate]. destruct (str_body r) as [[s' t']|] eqn:Hr; [|discriminate]. injection H as <- <-.
      destruct (IH r s' t' ltac:(lia) Hr) as (u & -> & Hu). exists (backslash :: e :: u). split; [reflexivity|].
      apply (st_short e y u s'); [apply unescape_iff, Hy|exact Hu].
  - cbn [str_body] in H. destruct (decide (c = quote)); [contradiction|]. destruct (decide (c = backslash)); [contradiction|].
    destruct (N.ltb_spec (byte_val c) 32); [discriminate|]. destruct (str_body r) as [[s' t']|] eqn:Hr; [|discriminate]. injection H as <- <-.
    destruct (IH r s' t' ltac:(lia) Hr) as (u & -> & Hu). exists (c :: u). split; [reflexivity|]. constructor; assumption.
Qed.
(** An escape does not reach over the closing quote. *)
Lemma prefix_in (p u r t : bytes) : ~ In quote p -> u ++ quote :: t = p ++ r -> exists r', u = p ++ r'.
Proof.
  revert u. induction p as [|x p IH]; intros u Hp He; [exists u; reflexivity|].
  destruct u as [|y u].
  - cbn [app] in He. injection He as <- _. destruct Hp. left. reflexivity.
  - cbn [app] in He. injection He as <- He. destruct (IH u) as (r' & ->); [intros Hi; apply Hp; right; exact Hi|exact He|].
    exists r'. reflexivity.
Qed.
Lemma escaped_no_quote g w : unit16 g w -> ~ In quote (escaped g).
Proof.
  intros H. destruct (unit16_four g w H) as (a & b & c & d & -> & Hx).
  destruct (hex4_some _ _ _ _ _ Hx) as (i & j & k & l & H1 & H2 & H3 & H4 & _).
  cbn [escaped In]. intros [?|[?|[->|[->|[->|[->|[]]]]]]]; discriminate.
Qed.
Lemma str_body_complete u v t : string_text u v -> str_body (u ++ quote :: t) = Some (v, t).
Proof.
  induction 1 as [|c u v Hc H1 H2 _ IH|e c u v He _ IH|h x ch u v Hh Hch _ IH|h g x w ch u v Hh Hx Hg Hw Hch _ IH|h x u v Hh Hx Hno _ IH].
  - reflexivity.
  - cbn [app]. rewrite str_body_raw, IH by (assumption || (apply N.ltb_ge; lia)). reflexivity.
  - apply unescape_iff in He. cbn [app]. change reverse_solidus with backslash. cbn [str_body].
    destruct (decide (backslash = quote)); [discriminate|]. destruct (decide (backslash = backslash)); [|contradiction].
    destruct (decide (e = "u"%char)) as [->|_]; [discriminate|]. rewrite He, IH. reflexivity.
  - destruct (unit16_four h x Hh) as (a & b & c & d & -> & Hu). rewrite <- app_assoc, (str_body_u _ _ _ _ x) by exact Hu.
    destruct Hch as [Hc1 Hc2]. destruct (code_point_of x ch Hc1 Hc2) as (_ & Hn & ->).
    destruct (is_high x) eqn:Hx; [destruct Hn; left; apply is_high_iff, Hx|]. rewrite IH. reflexivity.
  - destruct (unit16_four h x Hh) as (a & b & c & d & -> & Hu). rewrite <- !app_assoc, (str_body_u _ _ _ _ x) by exact Hu.
    rewrite (proj2 (is_high_iff x) Hx), (proj2 (follows_iff _ w (u ++ quote :: t))) by eauto. rewrite IH.
    destruct Hch as [Hc1 Hc2]. rewrite <- pair_rune_eq in Hc2. destruct (code_point_of _ ch Hc1 Hc2) as (_ & _ & ->). reflexivity.
  - destruct (unit16_four h x Hh) as (a & b & c & d & -> & Hu). rewrite <- app_assoc, (str_body_u _ _ _ _ x) by exact Hu.
    destruct (is_high x) eqn:Hhx.
    + destruct (follows (u ++ quote :: t)) as [[w r3]|] eqn:Hf; [|rewrite IH, utf8_half by exact Hx; reflexivity].
      apply follows_iff in Hf as (g & Hg & Hs & He). destruct (prefix_in _ _ _ _ (escaped_no_quote g w Hg) He) as (r' & Hr).
      destruct (Hno g w r' (proj1 (is_high_iff x) Hhx) Hg Hs Hr).
    + rewrite IH, utf8_half by exact Hx. reflexivity.
Qed.
Lemma str_val_iff v s : s = str_val v <-> repaired v (to_bytes s).
Proof.
  rewrite repaired_coerce. unfold str_val. split; [intros ->; apply to_of_bytes|].
  intros H. rewrite <- H. symmetry. apply of_to_bytes.
Qed.

(** ** Numbers *)

Definition nodigit (r : bytes) : Prop := match r with [] => True | c :: _ => is_digit c = false end.
Lemma ends_nodigit r : ends r -> nodigit r.
Proof. destruct r; [auto|]. intros [H _]. exact H. Qed.
Lemma span_digits_max d r : Forall decimal_digit d -> nodigit r -> span_digits (d ++ r) = (d, r).
Proof.
  intros Hd Hr. induction Hd as [|c d Hc Hd IH]; [destruct r as [|c r]; [reflexivity|simpl in *; rewrite Hr; reflexivity]|].
  cbn [app span_digits]. rewrite (proj2 (is_digit_iff c) Hc), IH. reflexivity.
Qed.
Lemma digits_forall d : forallb is_digit d = true <-> Forall decimal_digit d.
Proof.
  rewrite Forall_forall, forallb_forall. split; intros H c Hc; apply is_digit_iff, H, elem_of_list_In, Hc.
Qed.
Lemma dec_val_decimal d : dec_val d = decimal d.
Proof.
  unfold dec_val, decimal. generalize 0%N. induction d as [|c d IH]; intros a; [reflexivity|]. cbn [fold_left]. rewrite IH.
  f_equal. lia.
Qed.
Lemma leading_iff d : hasLeadingZeroes d = false <-> (forall r, d = "0"%char :: r -> r = []).
Proof.
  unfold hasLeadingZeroes. destruct d as [|c [|c' d]]; [split; [discriminate|reflexivity]|split; [intros _ r [= _ <-]; reflexivity|reflexivity]|].
  change (Nat.ltb 1 (length (c :: c' :: d))) with true. cbn [andb]. rewrite N.eqb_neq. split.
  - intros Hc r [= -> _]. destruct Hc. reflexivity.
  - intros H Hc. change 48%N with (byte_val "0") in Hc. apply byte_inj in Hc as ->. discriminate (H _ eq_refl).
Qed.
Lemma whole_iff b n t : num_abs b = Some (n, t) -> exists d, whole d n /\ b = d ++ t.
Proof.
  unfold num_abs. destruct (span_digits b) as [d t'] eqn:He. destruct (span_digits_spec _ _ _ He) as [-> Hd].
  destruct d as [|c d]; [discriminate|]. destruct (hasLeadingZeroes _) eqn:Hl; [discriminate|]. intros [= <- <-].
  exists (c :: d). split; [|reflexivity]. split; [|split].
  - split; [discriminate|apply digits_forall, Hd].
  - apply leading_iff, Hl.
  - apply dec_val_decimal.
Qed.
Lemma num_abs_whole d n t : whole d n -> nodigit t -> num_abs (d ++ t) = Some (n, t).
Proof.
  intros ([Hne Hd] & Hl & ->) Ht. unfold num_abs. rewrite span_digits_max by assumption.
  destruct d as [|c d]; [contradiction|]. rewrite (proj2 (leading_iff _) Hl), dec_val_decimal. reflexivity.
Qed.
Lemma digits1_digits d t : digits d -> nodigit t -> digits1 (d ++ t) = Some t.
Proof. intros [Hne Hd] Ht. unfold digits1. rewrite span_digits_max by assumption. destruct d; [contradiction|reflexivity]. Qed.
Lemma digits1_sound b t : digits1 b = Some t -> exists d, digits d /\ b = d ++ t.
Proof.
  intros H. destruct (digits1_spec _ _ H) as (d & -> & Hd & Hne). exists d. split; [|reflexivity]. split; [exact Hne|apply digits_forall, Hd].
Qed.

Definition some (b : bytes) : bool := match b with [] => false | _ => true end.
Lemma num_frac_sound b f t : num_frac b = Some (f, t) -> exists x, fraction x /\ b = x ++ t /\ f = some x.
Proof.
  destruct b as [|c r]; cbn [num_frac]; [intros [= <- <-]; exists []; repeat split; left; reflexivity|].
  destruct (decide _) as [->|_]; [|intros [= <- <-]; exists []; repeat split; left; reflexivity].
  destruct (digits1 r) as [t'|] eqn:Hd; [|discriminate]. intros [= <- <-]. destruct (digits1_sound _ _ Hd) as (d & Hdd & ->).
  exists ("."%char :: d). repeat split. right. eauto.
Qed.
Lemma num_exp_sound b f t : num_exp b = Some (f, t) -> exists x, exponent x /\ b = x ++ t /\ f = some x.
Proof.
  destruct b as [|c r]; cbn [num_exp]; [intros [= <- <-]; exists []; repeat split; left; reflexivity|].
  destruct (decide _) as [Hc|_]; [|intros [= <- <-]; exists []; repeat split; left; reflexivity].
  destruct (digits1 _) as [t'|] eqn:Hd; [|discriminate]. intros [= <- <-]. destruct (digits1_sound _ _ Hd) as (d & Hdd & He).
  destruct r as [|x r]; [destruct Hdd as [Hne _]; destruct d; [contradiction|discriminate]|].
  destruct (decide _) as [Hx|_].
  - exists (c :: [x] ++ d). subst r. repeat split. right. exists c, [x], d. repeat split; try assumption; try apply Hdd.
    destruct Hx as [-> | ->]; auto.
  - exists (c :: d). rewrite He. repeat split. right. exists c, [], d. repeat split; try assumption; try apply Hdd. auto.
Qed.
Lemma exponent_head e r : exponent e -> ends r -> nodigit (e ++ r) /\ (forall x, e ++ r <> "."%char :: x).
Proof.
  intros [->|(c & s & d & -> & Hc & _)] Hr.
  - split; [apply ends_nodigit, Hr|]. intros x Hx. cbn [app] in Hx. rewrite Hx in Hr. destruct Hr as (_ & Hr & _). contradiction.
  - destruct Hc as [-> | ->]; (split; [reflexivity|discriminate]).
Qed.
Lemma num_frac_complete f t : fraction f -> nodigit t -> (forall x, t <> "."%char :: x) -> num_frac (f ++ t) = Some (some f, t).
Proof.
  intros [->|(d & -> & Hd)] Ht Hp.
  - cbn [app some]. destruct t as [|c r]; [reflexivity|]. cbn [num_frac]. destruct (decide _) as [->|_]; [destruct (Hp r eq_refl)|reflexivity].
  - cbn [app num_frac some]. destruct (decide _); [|contradiction]. rewrite digits1_digits by assumption. reflexivity.
Qed.
Lemma num_exp_complete e r : exponent e -> ends r -> num_exp (e ++ r) = Some (some e, r).
Proof.
  intros [->|(c & s & d & -> & Hc & Hs & Hd)] Hr; [apply num_exp_none, Hr|].
  cbn [app num_exp some]. destruct (decide _) as [_|Hn]; [|contradiction].
  assert (He : digits1 (d ++ r) = Some r) by (apply digits1_digits; [exact Hd|apply ends_nodigit, Hr]).
  rewrite <- app_assoc. destruct Hs as [->|[-> | ->]]; cbn [app].
  - destruct Hd as [Hne Hf]. destruct d as [|x d]; [contradiction|]. cbn [app] in *. inversion Hf as [|? ? Hx Hf']; subst.
    destruct (decide _) as [[->| ->]|_]; [destruct Hx as [Hx1 Hx2]; vm_compute in Hx1; contradiction..|]. rewrite He. reflexivity.
  - destruct (decide _) as [_|Hn]; [|destruct Hn; auto]. rewrite He. reflexivity.
  - destruct (decide _) as [_|Hn]; [|destruct Hn; auto]. rewrite He. reflexivity.
Qed.
Lemma num_rest_complete z f e r : fraction f -> exponent e -> ends r ->
  num_rest z (f ++ e ++ r) = Some (match f ++ e with [] => JNum z | _ => JReal end, r).
Proof.
  intros Hf He Hr. destruct (exponent_head e r He Hr) as [H1 H2]. unfold num_rest.
  rewrite num_frac_complete, num_exp_complete by assumption. destruct f, e; reflexivity.
Qed.
Lemma num_rest_sound z b v t : num_rest z b = Some (v, t) -> exists f e, fraction f /\ exponent e /\ b = f ++ e ++ t /\
  v = match f ++ e with [] => JNum z | _ => JReal end.
Proof.
  unfold num_rest. destruct (num_frac b) as [[f t1]|] eqn:Hf; [|discriminate]. destruct (num_exp t1) as [[e t2]|] eqn:He; [|discriminate].
  intros [= <- <-]. destruct (num_frac_sound _ _ _ Hf) as (x & Hx & -> & ->). destruct (num_exp_sound _ _ _ He) as (y & Hy & -> & ->).
  exists x, y. repeat split; try assumption. destruct x, y; reflexivity.
Qed.
Lemma num_body_sound b v t : num_body b = Some (v, t) -> exists x, number v x /\ b = x ++ t.
Proof.
  assert (Hgo : forall s z n d f e, (s = [] /\ z = Z.of_N n \/ s = ["-"%char] /\ z = (- Z.of_N n)%Z) -> whole d n -> fraction f -> exponent e ->
            v = match f ++ e with [] => JNum z | _ => JReal end -> number v (s ++ d ++ f ++ e)).
  { intros s z n d f e Hs Hd Hf He ->. destruct (f ++ e) as [|x y] eqn:Hfe.
    - rewrite app_nil_r. destruct Hs as [[-> ->]|[-> ->]]; constructor; exact Hd.
    - rewrite <- Hfe. apply (num_real s d n); try assumption; [destruct Hs as [[-> _]|[-> _]]; auto|]. rewrite Hfe. discriminate. }
  destruct b as [|c r]; [discriminate|]. cbn [num_body]. destruct (decide (c = "-"%char)) as [->|_].
  - destruct (num_abs r) as [[n t']|] eqn:Hr; [|discriminate]. intros Hz.
    destruct (whole_iff _ _ _ Hr) as (d & Hd & ->). destruct (num_rest_sound _ _ _ _ Hz) as (f & e & Hf & He & -> & Hv).
    exists (["-"%char] ++ d ++ f ++ e). split; [eapply Hgo; eauto|]. rewrite <- !app_assoc. reflexivity.
  - destruct (num_abs (c :: r)) as [[n t']|] eqn:Hr; [|discriminate]. intros Hz.
    destruct (whole_iff _ _ _ Hr) as (d & Hd & ->). destruct (num_rest_sound _ _ _ _ Hz) as (f & e & Hf & He & -> & Hv).
    exists ([] ++ d ++ f ++ e). split; [eapply Hgo; eauto|]. cbn [app]. rewrite <- !app_assoc. reflexivity.
Qed.
Lemma digits_head d : digits d -> exists c r, d = c :: r /\ is_digit c = true.
Proof. intros [Hne Hf]. destruct d as [|c r]; [contradiction|]. inversion Hf; subst. exists c, r. split; [reflexivity|apply is_digit_iff; assumption]. Qed.
Lemma number_head v x : number v x -> exists c r, x = c :: r /\ (c = "-"%char \/ is_digit c = true).
Proof.
  intros H. destruct H as [d n (Hd & _)|d n _|s d n f e Hs (Hd & _) _ _ _].
  - destruct (digits_head d Hd) as (c & r & -> & Hc). eauto.
  - eauto.
  - destruct Hs as [-> | ->]; [|cbn [app]; eauto]. destruct (digits_head d Hd) as (c & r & -> & Hc). cbn [app]. eauto.
Qed.
Lemma num_body_complete v x r : number v x -> ends r -> num_body (x ++ r) = Some (v, r).
Proof.
  intros H Hr.
  assert (Hpos : forall d n f e, whole d n -> fraction f -> exponent e ->
            num_body (d ++ f ++ e ++ r) = Some (match f ++ e with [] => JNum (Z.of_N n) | _ => JReal end, r)).
  { intros d n f e Hd Hf He. assert (Hno : nodigit (f ++ e ++ r)).
    { destruct Hf as [->|(d' & -> & _)]; [|reflexivity]. apply (exponent_head e r He Hr). }
    pose proof (num_abs_whole d n _ Hd Hno) as Ha. destruct Hd as (Hd & _). destruct (digits_head d Hd) as (c & l & -> & Hc).
    cbn [app num_body] in *. destruct (decide (c = "-"%char)) as [->|_]; [discriminate|]. rewrite Ha. apply num_rest_complete; assumption. }
  assert (Hneg : forall d n f e, whole d n -> fraction f -> exponent e ->
            num_body ("-"%char :: d ++ f ++ e ++ r) = Some (match f ++ e with [] => JNum (- Z.of_N n) | _ => JReal end, r)).
  { intros d n f e Hd Hf He. assert (Hno : nodigit (f ++ e ++ r)).
    { destruct Hf as [->|(d' & -> & _)]; [|reflexivity]. apply (exponent_head e r He Hr). }
    cbn [num_body]. destruct (decide ("-"%char = "-"%char)); [|contradiction]. rewrite (num_abs_whole d n _ Hd Hno).
    apply num_rest_complete; assumption. }
  assert (Hf0 : fraction []) by (left; reflexivity). assert (He0 : exponent []) by (left; reflexivity).
  destruct H as [d n Hd|d n Hd|s d n f e Hs Hd Hf He Hne].
  - exact (Hpos d n [] [] Hd Hf0 He0).
  - exact (Hneg d n [] [] Hd Hf0 He0).
  - destruct Hs as [-> | ->]; cbn [app]; rewrite <- !app_assoc; [rewrite (Hpos d n f e)|rewrite (Hneg d n f e)]; try assumption;
      destruct (f ++ e); [contradiction|reflexivity|contradiction|reflexivity].
Qed.

(** ** Values *)

Lemma skip_ws_blanks w b : blanks w -> skip_ws (w ++ b) = skip_ws b.
Proof. induction 1 as [|c w Hc _ IH]; [reflexivity|]. cbn [app skip_ws]. rewrite (proj2 (is_space_iff c) Hc). exact IH. Qed.
Lemma skip_ws_split b : exists w, blanks w /\ b = w ++ skip_ws b.
Proof.
  destruct (skip_ws_spec b) as (w & Hw & _ & Hs). exists w. split; [|exact Hw]. apply Forall_forall. intros c Hc. apply is_space_iff.
  rewrite forallb_forall in Hs. apply Hs, elem_of_list_In, Hc.
Qed.
Lemma jval_blanks n w b : blanks w -> jval n (w ++ b) = jval n b.
Proof. intros H. destruct n; [reflexivity|]. cbn [jval]. rewrite skip_ws_blanks by exact H. reflexivity. Qed.
Lemma ends_char c r : blank c \/ c = ","%char \/ c = "]"%char \/ c = "}"%char -> ends (c :: r).
Proof.
  intros H. destruct H as [H|[-> |[-> | ->]]]; try (repeat split; discriminate).
  apply is_space_iff in H. unfold is_space in H. apply bool_decide_eq_true in H.
  destruct H as [-> |[-> |[-> | ->]]]; repeat split; discriminate.
Qed.
Lemma ends_blanks w r : blanks w -> ends r -> ends (w ++ r).
Proof. intros Hw Hr. destruct Hw as [|c w Hc _]; [exact Hr|]. apply ends_char. auto. Qed.
Lemma not_blank c : is_space c = false -> ~ blank c.
Proof. intros H Hb. apply is_space_iff in Hb. congruence. Qed.

Lemma jval_num n c r : c = "-"%char \/ is_digit c = true -> jval (S n) (c :: r) = num_body (c :: r).
Proof.
  intros Hc. cbn [jval]. rewrite skip_ws_cons by (destruct Hc as [->|Hc]; [reflexivity|apply digit_space, Hc]).
  assert (Hno : forall x, is_digit x = false -> x <> "-"%char -> c <> x).
  { intros x Hx Hm ->. destruct Hc; congruence. }
  destruct (decide (c = quote)) as [e|_]; [destruct (Hno quote eq_refl ltac:(discriminate) e)|].
  destruct (decide (c = "["%char)) as [e|_]; [destruct (Hno "["%char eq_refl ltac:(discriminate) e)|].
  destruct (decide (c = "{"%char)) as [e|_]; [destruct (Hno "{"%char eq_refl ltac:(discriminate) e)|].
  assert (Hst : forall x p, x <> c -> strip (x :: p) (c :: r) = None).
  { intros x p Hx. cbn [strip]. destruct (decide (x = c)); [contradiction|reflexivity]. }
  change (to_bytes "null") with ("n"%char :: to_bytes "ull"). change (to_bytes "true") with ("t"%char :: to_bytes "rue").
  change (to_bytes "false") with ("f"%char :: to_bytes "alse").
  rewrite !Hst by (apply not_eq_sym, Hno; [reflexivity|discriminate]). reflexivity.
Qed.
Lemma value_head v x : value v x -> exists c r, x = c :: r /\ is_space c = false /\ c <> "]"%char /\ c <> "}"%char.
Proof.
  intros H. destruct H as [| | |v b Hb|t s _|w _|l b _|w _|l b _];
    try (eexists _, _; split; [reflexivity|]; split; [reflexivity|split; discriminate]).
  destruct (number_head v b Hb) as (c & r & -> & Hc). exists c, r. split; [reflexivity|]. destruct Hc as [->|Hc].
  - split; [reflexivity|split; discriminate].
  - split; [apply digit_space, Hc|]. split; apply (digit_not _ _ Hc); reflexivity.
Qed.
Lemma elements_head l b r : elements l b -> strip ["]"%char] (skip_ws (b ++ r)) = None.
Proof.
  assert (H : forall w v x y, blanks w -> value v x -> strip ["]"%char] (skip_ws ((w ++ x ++ y) ++ r)) = None).
  { intros w v x y Hw Hv. rewrite <- !app_assoc, skip_ws_blanks by exact Hw. destruct (value_head v x Hv) as (c & t & -> & Hs & Hc & _).
    cbn [app]. rewrite skip_ws_cons by exact Hs. cbn [strip]. destruct (decide _); [congruence|reflexivity]. }
  destruct 1; eapply H; eassumption.
Qed.
Lemma member_head k v b r : jmember k v b -> exists t, skip_ws (b ++ r) = quote :: t.
Proof.
  intros H. destruct H as [w t k w1 w2 v b w3 Hw _ _ _ _ _]. rewrite <- !app_assoc, skip_ws_blanks by exact Hw. cbn [app].
  change dquote with quote. rewrite skip_ws_cons by reflexivity. eauto.
Qed.
Lemma members_head l b r : jmembers l b -> strip ["}"%char] (skip_ws (b ++ r)) = None.
Proof.
  intros H. assert (Hh : exists t, skip_ws (b ++ r) = quote :: t).
  { destruct H as [k x b Hm|k x b l b' Hm _]; [|rewrite <- app_assoc]; eapply member_head; exact Hm. }
  destruct Hh as (t & ->). cbn [strip]. destruct (decide _); [discriminate|reflexivity].
Qed.

Scheme value_mut := Induction for value Sort Prop
  with elements_mut := Induction for elements Sort Prop
  with members_mut := Induction for jmembers Sort Prop
  with member_mut := Induction for jmember Sort Prop.
Combined Scheme value_all from value_mut, elements_mut, members_mut, member_mut.

Definition reads_value (v : json) (x : bytes) : Prop := forall n r, 2 * length x <= n -> ends r -> jval n (x ++ r) = Some (v, r).
Definition reads_elements (l : list json) (x : bytes) : Prop := forall n r, 2 * length x + 1 <= n -> jelems n (x ++ "]"%char :: r) = Some (l, r).
Definition reads_members (l : list (string * json)) (x : bytes) : Prop := forall n r, 2 * length x + 1 <= n -> jfields n (x ++ "}"%char :: r) = Some (l, r).
Definition reads_member (k : string) (v : json) (x : bytes) : Prop := forall n r, 2 * length x <= n -> ends r -> skip_ws r = r ->
  exists r1 kk t t0 t1, strip [quote] (skip_ws (x ++ r)) = Some r1 /\ str_body r1 = Some (kk, t) /\ str_val kk = k /\
    strip [":"%char] (skip_ws t) = Some t0 /\ jval n t0 = Some (v, t1) /\ skip_ws t1 = r.
Lemma jfields_step n b r1 kk t t0 v t1 : strip [quote] (skip_ws b) = Some r1 -> str_body r1 = Some (kk, t) ->
  strip [":"%char] (skip_ws t) = Some t0 -> jval n t0 = Some (v, t1) ->
  jfields (S n) b = match strip ["}"%char] (skip_ws t1), strip [","%char] (skip_ws t1) with
    | Some t', _ => Some ([(str_val kk, v)], t')
    | _, Some t' => match jfields n t' with Some (l, t'') => Some ((str_val kk, v) :: l, t'') | None => None end
    | _, _ => None
    end.
Proof. intros H1 H2 H3 H4. cbn [jfields]. rewrite H1, H2, H3, H4. reflexivity. Qed.

Lemma grammar_reads :
  (forall v x, value v x -> reads_value v x) /\ (forall l x, elements l x -> reads_elements l x) /\
  (forall l x, jmembers l x -> reads_members l x) /\ (forall k v x, jmember k v x -> reads_member k v x).
Proof.
  apply value_all.
  - intros n r Hn Hr. destruct n as [|n]; [simpl in Hn; lia|]. reflexivity.
  - intros n r Hn Hr. destruct n as [|n]; [simpl in Hn; lia|]. reflexivity.
  - intros n r Hn Hr. destruct n as [|n]; [simpl in Hn; lia|]. reflexivity.
  - intros v x Hx n r Hn Hr. destruct (number_head v x Hx) as (c & l & He & Hc). destruct n as [|n]; [subst x; simpl in Hn; lia|].
    pose proof (num_body_complete v x r Hx Hr) as Hb. subst x. cbn [app] in *. rewrite jval_num by exact Hc. exact Hb.
  - intros t s (v & Hv & Hs) n r Hn Hr. destruct n as [|n]; [simpl in Hn; lia|]. apply str_val_iff in Hs. change dquote with quote.
    cbn [app jval]. rewrite skip_ws_cons by reflexivity. destruct (decide (quote = quote)); [|contradiction].
    rewrite <- app_assoc. cbn [app]. rewrite (str_body_complete t v) by exact Hv. subst s. reflexivity.
  - intros w Hw n r Hn Hr. destruct n as [|n]; [simpl in Hn; lia|]. cbn [app jval]. rewrite skip_ws_cons by reflexivity.
    destruct (decide _); [discriminate|]. destruct (decide _); [|contradiction].
    rewrite <- app_assoc, skip_ws_blanks by exact Hw. cbn [app]. rewrite skip_ws_cons by reflexivity. reflexivity.
  - intros l b Hb IH n r Hn Hr. destruct n as [|n]; [simpl in Hn; lia|]. cbn [app jval]. rewrite skip_ws_cons by reflexivity.
    destruct (decide _); [discriminate|]. destruct (decide _); [|contradiction]. cbn [length] in Hn. rewrite app_length in Hn. cbn [length] in Hn.
    rewrite <- app_assoc, (elements_head l) by exact Hb. cbn [app]. rewrite IH by lia. reflexivity.
  - intros w Hw n r Hn Hr. destruct n as [|n]; [simpl in Hn; lia|]. cbn [app jval]. rewrite skip_ws_cons by reflexivity.
    destruct (decide _); [discriminate|]. destruct (decide _); [discriminate|]. destruct (decide _); [|contradiction].
    rewrite <- app_assoc, skip_ws_blanks by exact Hw. cbn [app]. rewrite skip_ws_cons by reflexivity. reflexivity.
  - intros l b Hb IH n r Hn Hr. destruct n as [|n]; [simpl in Hn; lia|]. cbn [app jval]. rewrite skip_ws_cons by reflexivity.
    destruct (decide _); [discriminate|]. destruct (decide _); [discriminate|]. destruct (decide _); [|contradiction].
    cbn [length] in Hn. rewrite app_length in Hn. cbn [length] in Hn.
    rewrite <- app_assoc, (members_head l) by exact Hb. cbn [app]. rewrite IH by lia. reflexivity.
  - intros w v b w' Hw Hv IH Hw' n r Hn. rewrite !app_length in Hn. destruct n as [|n]; [lia|]. cbn [jelems].
    rewrite <- !app_assoc, jval_blanks by exact Hw.
    rewrite IH by (lia || (apply ends_blanks; [exact Hw'|apply ends_char; auto])).
    rewrite skip_ws_blanks by exact Hw'. rewrite skip_ws_cons by reflexivity. reflexivity.
  - intros w v b w' l b' Hw Hv IH Hw' Hl IHl n r Hn. rewrite !app_length in Hn. cbn [length] in Hn. destruct n as [|n]; [lia|]. cbn [jelems].
    rewrite <- !app_assoc, jval_blanks by exact Hw. cbn [app].
    rewrite IH by (lia || (apply ends_blanks; [exact Hw'|apply ends_char; auto])).
    rewrite skip_ws_blanks by exact Hw'. rewrite skip_ws_cons by reflexivity. cbn [strip].
    destruct (decide _); [discriminate|]. destruct (decide _); [|contradiction].
    destruct (value_head v b Hv) as (c & t & -> & _). cbn [length] in Hn. rewrite IHl by lia. reflexivity.
  - intros k x b Hm IH n r Hn. destruct n as [|n]; [lia|].
    destruct (IH n ("}"%char :: r) ltac:(lia) (ends_char _ _ ltac:(auto)) eq_refl) as (r1 & kk & t & t0 & t1 & H1 & H2 & <- & H3 & H4 & H5).
    rewrite (jfields_step _ _ _ _ _ _ _ _ H1 H2 H3 H4), H5. reflexivity.
  - intros k x b l b' Hm IH Hl IHl n r Hn. rewrite app_length in Hn. cbn [length] in Hn. destruct n as [|n]; [lia|].
    rewrite <- app_assoc. cbn [app].
    destruct (IH n (","%char :: b' ++ "}"%char :: r) ltac:(lia) (ends_char ","%char _ (or_intror (or_introl eq_refl))) eq_refl)
      as (r1 & kk & t & t0 & t1 & H1 & H2 & <- & H3 & H4 & H5).
    rewrite (jfields_step _ _ _ _ _ _ _ _ H1 H2 H3 H4), H5. cbn [strip].
    destruct (decide _); [discriminate|]. destruct (decide _); [|contradiction]. rewrite IHl by lia. reflexivity.
  - intros w t k w1 w2 v b w3 Hw (kk & Hk & Hs) Hw1 Hw2 Hv IH Hw3 n r Hn Hr Hsk. apply str_val_iff in Hs.
    exists (t ++ quote :: w1 ++ ":"%char :: w2 ++ b ++ w3 ++ r), kk, (w1 ++ ":"%char :: w2 ++ b ++ w3 ++ r), (w2 ++ b ++ w3 ++ r), (w3 ++ r).
    rewrite !app_length in Hn. cbn [length] in Hn. rewrite !app_length in Hn. cbn [length] in Hn.
    split; [|split; [|split; [|split; [|split]]]].
    + rewrite <- !app_assoc, skip_ws_blanks by exact Hw. change dquote with quote. cbn [app]. rewrite skip_ws_cons by reflexivity. cbn [strip].
      destruct (decide _); [|contradiction]. rewrite <- !app_assoc. reflexivity.
    + apply str_body_complete, Hk.
    + symmetry. exact Hs.
    + rewrite skip_ws_blanks by exact Hw1. rewrite skip_ws_cons by reflexivity. reflexivity.
    + rewrite jval_blanks by exact Hw2. apply IH; [lia|]. apply ends_blanks; assumption.
    + rewrite skip_ws_blanks by exact Hw3. exact Hsk.
Qed.
Lemma value_reads v x n r : value v x -> 2 * length x <= n -> ends r -> jval n (x ++ r) = Some (v, r).
Proof. intros Hv. apply (proj1 grammar_reads v x Hv). Qed.

Lemma str_sound b s t : str_body b = Some (s, t) -> exists u, b = u ++ quote :: t /\ string_value u (str_val s).
Proof.
  intros H. destruct (str_body_sound _ b s t (le_n _) H) as (u & -> & Hu). exists u. split; [reflexivity|]. exists s. split; [exact Hu|].
  apply str_val_iff. reflexivity.
Qed.
Lemma jval_sound : forall n,
  (forall b v t, jval n b = Some (v, t) -> exists w x, blanks w /\ value v x /\ b = w ++ x ++ t) /\
  (forall b l t, jelems n b = Some (l, t) -> exists x, elements l x /\ b = x ++ "]"%char :: t) /\
  (forall b l t, jfields n b = Some (l, t) -> exists x, jmembers l x /\ b = x ++ "}"%char :: t).
Proof.
  induction n as [|n (IHv & IHe & IHf)]; [repeat split; discriminate|].
  split; [|split].
  - intros b v t H. cbn [jval] in H. destruct (skip_ws_split b) as (w & Hw & Hb). destruct (skip_ws b) as [|c r]; [discriminate|].
    assert (Hlift : (exists x, value v x /\ c :: r = x ++ t) -> exists w x, blanks w /\ value v x /\ b = w ++ x ++ t).
    { intros (x & Hx & He). exists w, x. rewrite Hb, He. auto. }
    apply Hlift. destruct (decide (c = quote)) as [->|Hq].
    { destruct (str_body r) as [[s t']|] eqn:Hr; [|discriminate]. injection H as <- <-. destruct (str_sound _ _ _ Hr) as (u & -> & Hu).
      exists (quote :: u ++ [quote]). split; [apply v_str, Hu|]. cbn [app]. rewrite <- app_assoc. reflexivity. }
    destruct (decide (c = "["%char)) as [->|Ha].
    { destruct (strip ["]"%char] (skip_ws r)) as [t'|] eqn:Hs.
      - injection H as <- <-. apply strip_spec in Hs. destruct (skip_ws_split r) as (w' & Hw' & Hr). rewrite Hs in Hr.
        exists ("["%char :: w' ++ ["]"%char]). split; [apply v_arr0, Hw'|]. rewrite Hr. cbn [app]. rewrite <- app_assoc. reflexivity.
      - destruct (jelems n r) as [[l t']|] eqn:He; [|discriminate]. injection H as <- <-.
        destruct (IHe _ _ _ He) as (u & Hu & ->). exists ("["%char :: u ++ ["]"%char]).
        split; [apply v_arr, Hu|]. cbn [app]. rewrite <- app_assoc. reflexivity. }
    destruct (decide (c = "{"%char)) as [->|Ho].
    { destruct (strip ["}"%char] (skip_ws r)) as [t'|] eqn:Hs.
      - injection H as <- <-. apply strip_spec in Hs. destruct (skip_ws_split r) as (w' & Hw' & Hr). rewrite Hs in Hr.
        exists ("{"%char :: w' ++ ["}"%char]). split; [apply v_obj0, Hw'|]. rewrite Hr. cbn [app]. rewrite <- app_assoc. reflexivity.
      - destruct (jfields n r) as [[l t']|] eqn:He; [|discriminate]. injection H as <- <-.
        destruct (IHf _ _ _ He) as (u & Hu & ->). exists ("{"%char :: u ++ ["}"%char]).
        split; [apply v_obj, Hu|]. cbn [app]. rewrite <- app_assoc. reflexivity. }
    destruct (strip (to_bytes "null") (c :: r)) as [t'|] eqn:H1.
    { injection H as <- <-. apply strip_spec in H1. rewrite H1. eexists. split; [apply v_null|reflexivity]. }
    destruct (strip (to_bytes "true") (c :: r)) as [t'|] eqn:H2.
    { injection H as <- <-. apply strip_spec in H2. rewrite H2. eexists. split; [apply v_true|reflexivity]. }
    destruct (strip (to_bytes "false") (c :: r)) as [t'|] eqn:H3.
    { injection H as <- <-. apply strip_spec in H3. rewrite H3. eexists. split; [apply v_false|reflexivity]. }
    destruct (num_body_sound _ _ _ H) as (x & Hx & He). exists x. split; [apply v_num, Hx|exact He].
  - intros b l t H. cbn [jelems] in H. destruct (jval n b) as [[v t0]|] eqn:Hv; [|discriminate].
    destruct (IHv _ _ _ Hv) as (w & x & Hw & Hx & ->). destruct (skip_ws_split t0) as (w' & Hw' & Ht0).
    destruct (strip ["]"%char] (skip_ws t0)) as [t'|] eqn:H1.
    { injection H as <- <-. apply strip_spec in H1. exists (w ++ x ++ w'). split; [constructor; assumption|].
      rewrite Ht0, H1, <- !app_assoc. reflexivity. }
    destruct (strip [","%char] (skip_ws t0)) as [t'|] eqn:H2; [|discriminate]. apply strip_spec in H2.
    destruct (jelems n t') as [[l' t'']|] eqn:He; [|discriminate]. injection H as <- <-.
    destruct (IHe _ _ _ He) as (u' & Hu' & ->). exists (w ++ x ++ w' ++ ","%char :: u'). split; [constructor; assumption|].
    rewrite Ht0, H2, <- !app_assoc. reflexivity.
  - intros b l t H. cbn [jfields] in H. destruct (skip_ws_split b) as (w0 & Hw0 & Hb).
    destruct (strip [quote] (skip_ws b)) as [r|] eqn:Hq; [|discriminate]. apply strip_spec in Hq.
    destruct (str_body r) as [[k tk]|] eqn:Hk; [|discriminate]. destruct (str_sound _ _ _ Hk) as (uk & Huk & Hsk).
    destruct (skip_ws_split tk) as (w1 & Hw1 & Htk).
    destruct (strip [":"%char] (skip_ws tk)) as [tv|] eqn:Hc; [|discriminate]. apply strip_spec in Hc.
    destruct (jval n tv) as [[v t0]|] eqn:Hv; [|discriminate].
    destruct (IHv _ _ _ Hv) as (w2 & x & Hw2 & Hx & ->). destruct (skip_ws_split t0) as (w & Hw & Ht0).
    set (m := w0 ++ (dquote :: uk ++ [dquote]) ++ w1 ++ ":"%char :: w2 ++ x ++ w).
    assert (Hm : jmember (str_val k) v m) by (constructor; assumption).
    assert (Hbm : b = m ++ skip_ws t0).
    { unfold m. rewrite Hb, Hq, Huk. rewrite Htk, Hc. rewrite Ht0 at 1. change dquote with quote.
      repeat (rewrite <- app_assoc; cbn [app]). reflexivity. }
    destruct (strip ["}"%char] (skip_ws t0)) as [t'|] eqn:H1.
    { injection H as <- <-. apply strip_spec in H1. exists m. split; [constructor; exact Hm|]. rewrite Hbm, H1. reflexivity. }
    destruct (strip [","%char] (skip_ws t0)) as [t'|] eqn:H2; [|discriminate]. apply strip_spec in H2.
    destruct (jfields n t') as [[l' t'']|] eqn:He; [|discriminate]. injection H as <- <-.
    destruct (IHf _ _ _ He) as (u' & Hu' & ->). exists (m ++ ","%char :: u'). split; [constructor; assumption|].
    rewrite Hbm, H2, <- !app_assoc. reflexivity.
Qed.

(** ** Nesting *)
Lemma nested_iff v : forall n, nested n v <-> (nesting v <= N.of_nat n)%N.
Proof.
  induction v as [|b|z|s|l IH|l IH|] using json_rect'; intros n; cbn [nesting]; try (split; [lia|constructor]).
  - assert (H : forall n, Forall (nested n) l <-> (fold_right N.max 0%N (map nesting l) <= N.of_nat n)%N).
    { clear n. intros n. induction IH as [|x l Hx _ IHl]; [split; [cbn; lia|constructor]|]. rewrite Forall_cons, IHl, Hx. cbn [map fold_right]. lia. }
    split.
    + inversion 1 as [| | | |m l' Hl| |]; subst. apply H in Hl. lia.
    + intros Hn. destruct n as [|n]; [lia|]. constructor. apply H. lia.
  - assert (H : forall n, Forall (fun kv => nested n (snd kv)) l <-> (fold_right N.max 0%N (map (fun kv => nesting (snd kv)) l) <= N.of_nat n)%N).
    { clear n. intros n. induction IH as [|[k x] l Hx _ IHl]; [split; [cbn; lia|constructor]|]. rewrite Forall_cons, IHl. cbn [map fold_right snd] in *. rewrite Hx. lia. }
    split.
    + inversion 1 as [| | | | |m l' Hl|]; subst. apply H in Hl. lia.
    + intros Hn. destruct n as [|n]; [lia|]. constructor. apply H. lia.
Qed.
Lemma shallow_iff v : shallow v <-> (nesting v <= max_nesting)%N.
Proof.
  unfold shallow, max_nesting. split.
  - intros (n & Hn & H). apply nested_iff in H. lia.
  - intros H. exists (N.to_nat (nesting v)). rewrite N2Nat.id. split; [exact H|]. apply nested_iff. lia.
Qed.
Lemma nesting_arr n l : Forall (fun x => (nesting x <= n)%N) l -> (nesting (JArr l) <= 1 + n)%N.
Proof. cbn [nesting]. intros H. induction H as [|x l Hx _ IH]; cbn [map fold_right] in *; lia. Qed.
Lemma nesting_strings l : (nesting (JArr (map JStr l)) <= 1)%N.
Proof. apply (nesting_arr 0). induction l; constructor; [cbn; lia|assumption]. Qed.

Lemma json_dec_iff b v : json_dec b = Some v <-> document v b.
Proof.
  unfold json_dec, document. rewrite shallow_iff. split.
  - destruct (jval _ b) as [[v' t]|] eqn:Hv; [|discriminate]. destruct (skip_ws t) as [|] eqn:Ht; [|discriminate].
    destruct (N.leb_spec (nesting v') max_nesting) as [Hn|]; [|discriminate]. intros [= <-]. split; [exact Hn|].
    destruct (proj1 (jval_sound _) _ _ _ Hv) as (w & x & Hw & Hx & ->). destruct (skip_ws_split t) as (w' & Hw' & He).
    rewrite Ht, app_nil_r in He. subst t. exists w, x, w'. auto.
  - intros (Hn & w & x & w' & Hw & Hx & Hw' & ->). rewrite jval_blanks by exact Hw. rewrite !app_length.
    rewrite (value_reads v x) by (assumption || lia || (rewrite <- (app_nil_r w'); apply ends_blanks; [exact Hw'|exact I])).
    rewrite <- (app_nil_r w'), skip_ws_blanks by exact Hw'. cbn [skip_ws]. apply N.leb_le in Hn. rewrite Hn. reflexivity.
Qed.

(** ** Values made of text *)
Lemma repair_text s : text s -> repair s = s.
Proof. intros H. unfold repair. rewrite coerce_text by exact H. apply of_to_bytes. Qed.
Lemma repair_is_text s : text (repair s).
Proof. unfold text, repair. rewrite to_of_bytes. apply coerce_is_text. Qed.
Lemma jrepair_texts v : json_texts v -> jrepair v = v.
Proof.
  induction v as [|b|z|s|l IH|l IH|] using json_rect'; intros H; inversion H as [| | |s' Hs|l' Hl|l' Hl|]; subst; cbn [jrepair]; try reflexivity.
  - rewrite repair_text by exact Hs. reflexivity.
  - f_equal. clear H. induction IH as [|x l Hx _ IHl]; [reflexivity|]. inversion Hl; subst. cbn [map]. rewrite Hx, IHl by assumption. reflexivity.
  - f_equal. clear H. induction IH as [|[k x] l Hx _ IHl]; [reflexivity|]. inversion Hl as [|? ? [Hk Hv] Hl']; subst. cbn [map fst snd] in *.
    rewrite Hx, IHl, repair_text by assumption. reflexivity.
Qed.
Lemma json_dec_enc v : json_texts v -> (nesting v <= max_nesting)%N -> json_dec (json_enc v) = Some v.
Proof. intros H Hn. rewrite json_dec_repair, jrepair_texts by assumption. reflexivity. Qed.

(** Whatever is read consists of text. *)
Lemma string_value_text t s : string_value t s -> text s.
Proof. intros (v & _ & H). apply repaired_coerce in H. unfold text. rewrite H. apply coerce_is_text. Qed.
Lemma grammar_texts :
  (forall v x, value v x -> json_texts v) /\ (forall l x, elements l x -> Forall json_texts l) /\
  (forall l x, jmembers l x -> Forall (fun kv => text (fst kv) /\ json_texts (snd kv)) l) /\
  (forall k v x, jmember k v x -> text k /\ json_texts v).
Proof.
  apply value_all; try (intros; constructor; fail).
  - intros v b H. destruct H; constructor.
  - intros t s H. constructor. eapply string_value_text, H.
  - intros w _. constructor. constructor.
  - intros l b _ IH. constructor. exact IH.
  - intros w _. constructor. constructor.
  - intros l b _ IH. constructor. exact IH.
  - intros w v b w' _ _ IH _. repeat constructor. exact IH.
  - intros w v b w' l b' _ _ IH _ _ IHl. constructor; assumption.
  - intros k x b _ IH. repeat constructor; apply IH.
  - intros k x b l b' _ IH _ IHl. constructor; assumption.
  - intros w t k w1 w2 v b w3 _ Hk _ _ _ IH _. split; [eapply string_value_text, Hk|exact IH].
Qed.
Lemma value_texts v x : value v x -> json_texts v.
Proof. apply (proj1 grammar_texts). Qed.

(** An object and null end where they end. *)
Lemma value_closed v x n r : v = JNull \/ (exists l, v = JObj l) -> value v x -> 2 * length x <= n -> jval n (x ++ r) = Some (v, r).
Proof.
  intros Hv H Hn. destruct Hv as [->|(l & ->)].
  - inversion H as [| | |v b Hb| | | | |]; subst; [|inversion Hb]. destruct n; [simpl in Hn; lia|]. reflexivity.
  - inversion H as [| | |v b Hb| | | |w Hw|l' b Hb]; subst; [inversion Hb| |].
    + destruct n as [|n]; [simpl in Hn; lia|]. cbn [app jval]. rewrite skip_ws_cons by reflexivity.
      destruct (decide _); [discriminate|]. destruct (decide _); [discriminate|]. destruct (decide _); [|contradiction].
      rewrite <- app_assoc, skip_ws_blanks by exact Hw. cbn [app]. rewrite skip_ws_cons by reflexivity. reflexivity.
    + destruct n as [|n]; [simpl in Hn; lia|]. cbn [app jval]. rewrite skip_ws_cons by reflexivity.
      destruct (decide _); [discriminate|]. destruct (decide _); [discriminate|]. destruct (decide _); [|contradiction].
      cbn [length] in Hn. rewrite app_length in Hn. cbn [length] in Hn.
      rewrite <- app_assoc, (members_head l) by exact Hb. cbn [app].
      rewrite (proj1 (proj2 (proj2 grammar_reads)) l b Hb) by lia. reflexivity.
Qed.

Lemma b64_char_ascii n : (byte_val (b64_char n) < 128)%N.
Proof.
  unfold b64_char. destruct (N.ltb_spec n 26); [rewrite of_byte; lia|]. destruct (N.ltb_spec n 52); [rewrite of_byte; lia|].
  destruct (N.ltb_spec n 62); [rewrite of_byte; lia|]. destruct (N.eqb n 62); reflexivity.
Qed.
Lemma b64_ascii : forall n b, length b <= n -> Forall (fun c => (byte_val c < 128)%N) (b64_encode b).
Proof.
  induction n as [|n IH]; intros b Hn; [destruct b; [constructor|simpl in Hn; lia]|].
  destruct b as [|x [|y [|z b]]]; [constructor|cbn [b64_encode]; repeat (apply Forall_cons; split); try apply b64_char_ascii; try apply Forall_nil_2; reflexivity..|].
  cbn [b64_encode]. repeat (apply Forall_cons; split); try apply b64_char_ascii. apply IH. simpl in Hn. lia.
Qed.
Lemma base64_text b : text (EncodeToString b).
Proof. unfold text, EncodeToString. rewrite to_of_bytes. apply ascii_text, (b64_ascii (length b)), le_n. Qed.
Lemma ascii_string s : forallb (fun c => N.ltb (byte_val c) 128) (to_bytes s) = true -> text s.
Proof.
  intros H. apply ascii_text, Forall_forall. intros c Hc. rewrite forallb_forall in H. apply N.ltb_lt, H, elem_of_list_In, Hc.
Qed.
Lemma text_app a b : text a -> text b -> text (String.append a b).
Proof.
  intros (l & Hl & Ha) (l' & Hl' & Hb). exists (l ++ l'). rewrite to_bytes_app, Hl, Hl', concat_app. split; [reflexivity|]. apply Forall_app. auto.
Qed.
