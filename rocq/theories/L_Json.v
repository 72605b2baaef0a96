(** The text of a JSON object closes only at its end; reading inverts writing. *)
From Coq Require Import ZArith NArith Ascii String List Lia ZifyNat ZifyN.
From stdpp Require Import base list strings.
From Verif Require Import Base L_Base M_Semver L_Semver M_Utf8 S_Utf8 L_Utf8 M_Json.

Fixpoint json_rect' (P : json -> Prop) (Hn : P JNull) (Hb : forall b, P (JBool b)) (Hz : forall z, P (JNum z))
    (Hs : forall s, P (JStr s)) (Ha : forall l, Forall P l -> P (JArr l))
    (Ho : forall l, Forall (fun kv => P (snd kv)) l -> P (JObj l)) (Hr : P JReal) (v : json) : P v :=
  match v with
  | JReal => Hr
  | JNull => Hn
  | JBool b => Hb b
  | JNum z => Hz z
  | JStr s => Hs s
  | JArr l => Ha l ((fix go l := match l return Forall P l with
      | [] => Forall_nil_2 _
      | x :: r => Forall_cons_2 _ _ _ (json_rect' P Hn Hb Hz Hs Ha Ho Hr x) (go r) end) l)
  | JObj l => Ho l ((fix go l := match l return Forall (fun kv => P (snd kv)) l with
      | [] => Forall_nil_2 _
      | x :: r => Forall_cons_2 _ _ _ (json_rect' P Hn Hb Hz Hs Ha Ho Hr (snd x)) (go r) end) l)
  end.

(** The brackets of a text, outside its strings. *)
Inductive jmode := MOut | MIn | MEsc.
Definition jscan1 (st : nat * jmode) (c : ascii) : option (nat * jmode) :=
  match st with
  | (d, MOut) =>
      if decide (c = "{"%char \/ c = "["%char) then Some (S d, MOut)
      else if decide (c = "}"%char \/ c = "]"%char) then match d with O => None | S d' => Some (d', MOut) end
      else if decide (c = quote) then Some (d, MIn)
      else Some (d, MOut)
  | (d, MIn) =>
      if decide (c = quote) then Some (d, MOut)
      else if decide (c = backslash) then Some (d, MEsc)
      else Some (d, MIn)
  | (d, MEsc) => Some (d, MIn)
  end.
Fixpoint jscan (st : nat * jmode) (b : bytes) : option (nat * jmode) :=
  match b with
  | [] => Some st
  | c :: r => match jscan1 st c with Some st' => jscan st' r | None => None end
  end.
Definition json_closed (b : bytes) : Prop := b <> [] /\ jscan (0, MOut) b = Some (0, MOut).

Lemma jscan_app st a b : jscan st (a ++ b) = match jscan st a with Some st' => jscan st' b | None => None end.
Proof. revert st. induction a as [|c a IH]; intros st; simpl; [reflexivity|]. destruct (jscan1 st c); [apply IH|reflexivity]. Qed.

(** Text that leaves the structure as it is, and never goes below it. *)
Definition flat (b : bytes) : Prop := forall d,
  jscan (d, MOut) b = Some (d, MOut) /\ forall n, exists d' m, jscan (d, MOut) (take n b) = Some (d', m) /\ d <= d'.
Definition flat_in (b : bytes) : Prop := forall d,
  jscan (d, MIn) b = Some (d, MIn) /\ forall n, exists m, jscan (d, MIn) (take n b) = Some (d, m).

Lemma flat_nil : flat [].
Proof. intros d. split; [reflexivity|]. intros n. rewrite firstn_nil. exists d, MOut. auto. Qed.
Lemma flat_app a b : flat a -> flat b -> flat (a ++ b).
Proof.
  intros Ha Hb d. destruct (Ha d) as [Ha1 Ha2], (Hb d) as [Hb1 Hb2]. split; [rewrite jscan_app, Ha1; exact Hb1|].
  intros n. rewrite firstn_app, jscan_app.
  destruct (Nat.le_gt_cases (length a) n) as [Hn|Hn].
  - rewrite (firstn_all2 a Hn), Ha1. apply Hb2.
  - replace (n - length a) with 0 by lia. destruct (Ha2 n) as (d' & m & -> & Hd). simpl. eauto.
Qed.
Lemma flat_in_app a b : flat_in a -> flat_in b -> flat_in (a ++ b).
Proof.
  intros Ha Hb d. destruct (Ha d) as [Ha1 Ha2], (Hb d) as [Hb1 Hb2]. split; [rewrite jscan_app, Ha1; exact Hb1|].
  intros n. rewrite firstn_app, jscan_app.
  destruct (Nat.le_gt_cases (length a) n) as [Hn|Hn].
  - rewrite (firstn_all2 a Hn), Ha1. apply Hb2.
  - replace (n - length a) with 0 by lia. destruct (Ha2 n) as (m & ->). simpl. eauto.
Qed.

Definition plain_char (c : ascii) : Prop :=
  c <> "{"%char /\ c <> "["%char /\ c <> "}"%char /\ c <> "]"%char /\ c <> quote.
Lemma flat_char c : plain_char c -> flat [c].
Proof.
  intros (H1 & H2 & H3 & H4 & H5) d.
  assert (H : jscan1 (d, MOut) c = Some (d, MOut)).
  { simpl. destruct (decide _) as [[?|?]|]; try contradiction. destruct (decide _) as [[?|?]|]; try contradiction.
    destruct (decide _); [contradiction|reflexivity]. }
  split; [cbn [jscan]; rewrite H; reflexivity|]. intros [|n]; cbn [take]; [|rewrite firstn_nil]; cbn [jscan]; [|rewrite H]; eauto.
Qed.
Lemma flat_plain b : Forall plain_char b -> flat b.
Proof. induction 1 as [|c b Hc _ IH]; [exact flat_nil|]. apply (flat_app [c] b); [apply flat_char, Hc|exact IH]. Qed.

Lemma flat_wrap o c b : o = "{"%char /\ c = "}"%char \/ o = "["%char /\ c = "]"%char -> flat b -> flat (o :: b ++ [c]).
Proof.
  intros Hoc Hb d.
  assert (Ho : forall e, jscan1 (e, MOut) o = Some (S e, MOut)) by (intros e; destruct Hoc as [[-> _]|[-> _]]; reflexivity).
  assert (Hc : forall e, jscan1 (S e, MOut) c = Some (e, MOut)) by (intros e; destruct Hoc as [[_ ->]|[_ ->]]; reflexivity).
  destruct (Hb (S d)) as [Hb1 Hb2]. split.
  - cbn [jscan]. rewrite Ho, jscan_app, Hb1. cbn [jscan]. rewrite Hc. reflexivity.
  - intros [|n]; [exists d, MOut; auto|]. cbn [take jscan]. rewrite Ho, firstn_app, jscan_app.
    destruct (Nat.le_gt_cases (length b) n) as [Hn|Hn].
    + rewrite (firstn_all2 b Hn), Hb1. destruct (n - length b) as [|k]; cbn [take jscan]; [exists (S d), MOut; auto|].
      rewrite Hc, firstn_nil. simpl. eauto.
    + replace (n - length b) with 0 by lia. destruct (Hb2 n) as (d' & m & -> & Hd). simpl. exists d', m. split; [reflexivity|lia].
Qed.
(** Cut anywhere before its end, the text in brackets leaves something open. *)
Lemma open_prefix o c b n : o = "{"%char /\ c = "}"%char \/ o = "["%char /\ c = "]"%char -> flat b ->
  n < length (o :: b ++ [c]) -> ~ json_closed (take n (o :: b ++ [c])).
Proof.
  intros Hoc Hb Hn [Hne Hcl].
  assert (Ho : forall e, jscan1 (e, MOut) o = Some (S e, MOut)) by (intros e; destruct Hoc as [[-> _]|[-> _]]; reflexivity).
  destruct n as [|n]; [apply Hne; reflexivity|]. cbn [take jscan] in Hcl. rewrite Ho, firstn_app in Hcl.
  simpl in Hn. rewrite app_length in Hn. simpl in Hn. replace (n - length b) with 0 in Hcl by lia.
  cbn [take] in Hcl. rewrite app_nil_r in Hcl. destruct (Hb 1) as [_ Hb2]. destruct (Hb2 n) as (d' & m & Hd & Hle).
  rewrite Hd in Hcl. injection Hcl as -> _. lia.
Qed.

Lemma plain_string s : Forall plain_char (to_bytes s) -> flat (to_bytes s).
Proof. apply flat_plain. Qed.
Lemma digit_plain c : is_digit c = true -> plain_char c.
Proof. intros H. repeat split; apply (digit_not _ _ H); reflexivity. Qed.
Lemma itoa_plain n : Forall plain_char (to_bytes (itoa n)).
Proof.
  destruct (itoa_shape n) as (H & _). apply Forall_forall. intros c Hc. apply digit_plain.
  rewrite forallb_forall in H. apply H, elem_of_list_In, Hc.
Qed.
Lemma flat_num z : flat (json_num z).
Proof.
  destruct z as [|p|p]; [apply flat_plain, itoa_plain|apply flat_plain, itoa_plain|].
  apply (flat_app ["-"%char] _); [apply flat_char; repeat split; discriminate|apply flat_plain, itoa_plain].
Qed.

Lemma flat_in_step c d : c <> quote -> c <> backslash -> jscan1 (d, MIn) c = Some (d, MIn).
Proof. intros H1 H2. simpl. destruct (decide _); [contradiction|]. destruct (decide _); [contradiction|reflexivity]. Qed.
Lemma flat_in_plain b : Forall (fun c => c <> quote /\ c <> backslash) b -> flat_in b.
Proof.
  induction 1 as [|c b [H1 H2] _ IH]; intros d.
  - split; [reflexivity|]. intros n. rewrite firstn_nil. eauto using ex_intro.
  - destruct (IH d) as [IH1 IH2]. split.
    + cbn [jscan]. rewrite (flat_in_step c d H1 H2). exact IH1.
    + intros [|n]; cbn [take jscan]; [eauto|]. rewrite (flat_in_step c d H1 H2). apply IH2.
Qed.
Lemma flat_in_esc c b : Forall (fun c => c <> quote /\ c <> backslash) b -> flat_in (backslash :: c :: b).
Proof.
  intros Hb d. destruct (flat_in_plain b Hb d) as [H1 H2]. split; [exact H1|].
  intros [|[|n]]; cbn [take]; [simpl; eauto|simpl; eauto|]. exact (H2 n).
Qed.
Lemma hex_digit_plain n : (n < 16)%N -> hex_digit n <> quote /\ hex_digit n <> backslash.
Proof.
  intros Hn. assert (H : (N_of_ascii (hex_digit n) = (if N.ltb n 10 then 48 + n else 87 + n))%N).
  { unfold hex_digit. apply N_ascii_embedding. destruct (N.ltb_spec n 10); lia. }
  split; intros He; rewrite He in H; [change (N_of_ascii quote) with 34%N in H|change (N_of_ascii backslash) with 92%N in H];
    destruct (N.ltb_spec n 10); lia.
Qed.
Lemma flat_in_escape c : flat_in (escape_char c).
Proof.
  unfold escape_char.
  destruct (decide (c = quote)); [apply flat_in_esc; constructor|].
  destruct (decide (c = backslash)); [apply flat_in_esc; constructor|].
  destruct (decide _); [apply flat_in_esc; constructor|].
  destruct (decide _); [apply flat_in_esc; constructor|].
  destruct (decide _); [apply flat_in_esc; constructor|].
  destruct (_ || _)%bool.
  - apply flat_in_esc. assert (Hv : (byte_val c < 256)%N) by apply N_ascii_bounded.
    repeat (apply Forall_cons; split); try (split; discriminate); try apply Forall_nil_2.
    + apply hex_digit_plain, N.div_lt_upper_bound; lia.
    + apply hex_digit_plain, N.mod_lt. lia.
  - apply flat_in_plain. repeat constructor; assumption.
Qed.
Lemma char_bytes ch : utf8_char ch -> (exists c, ch = [c] /\ (byte_val c < 128)%N) \/ Forall (fun c => (128 <= byte_val c)%N) ch /\ 2 <= length ch.
Proof.
  intros H. inversion H as [c Hc|n a b Hn Ha Hb|n a b c Hn Hs Ha Hb Hc|n a b c d Hn Ha Hb Hc Hd]; subst; [left; eauto|right|right|right];
    (split; [repeat constructor; lia|simpl; lia]).
Qed.
Lemma high_plain c : (128 <= byte_val c)%N -> c <> quote /\ c <> backslash.
Proof. intros H. split; intros ->; vm_compute in H; apply H; reflexivity. Qed.
Lemma flat_in_rune ch : utf8_char ch -> flat_in (escape_rune ch).
Proof.
  intros H. unfold escape_rune.
  destruct (decide _); [apply (flat_in_esc "u" (to_bytes "2028")); repeat constructor; discriminate|].
  destruct (decide _); [apply (flat_in_esc "u" (to_bytes "2029")); repeat constructor; discriminate|].
  destruct (char_bytes ch H) as [(c & -> & _)|[Hf Hl]]; [apply flat_in_escape|].
  destruct ch as [|a [|b r]]; [simpl in Hl; lia|simpl in Hl; lia|]. apply flat_in_plain.
  eapply Forall_impl; [exact Hf|]. intros x. apply high_plain.
Qed.
Lemma escape_from_skip l : forall b, escape_from (length l) (l ++ b) = escape b.
Proof. induction l as [|x l IH]; intros b; [reflexivity|]. cbn [length app escape_from]. apply IH. Qed.
Lemma escape_app ch b : utf8_char ch -> escape (ch ++ b) = escape_rune ch ++ escape b.
Proof.
  intros H. pose proof (rune_len_char ch b H) as Hl. destruct (char_nonempty ch H) as (c & l & ->).
  unfold escape at 1. cbn [app] in *. cbn [escape_from]. rewrite Hl. cbn [length].
  replace (take (S (length l)) (c :: l ++ b)) with (c :: l).
  - rewrite escape_from_skip. reflexivity.
  - cbn [take]. rewrite firstn_app, Nat.sub_diag, firstn_O, app_nil_r, firstn_all. reflexivity.
Qed.
Lemma escape_bad c b : rune_len (c :: b) = 0 -> escape (c :: b) = to_bytes "\ufffd" ++ escape b.
Proof. intros H. unfold escape at 1. cbn [escape_from]. rewrite H. reflexivity. Qed.
Lemma flat_in_concat l : flat_in (escape l).
Proof.
  induction l as [|ch b Hc IH|c b Hn IH] using bytes_ind_rune; [apply flat_in_plain; constructor| |].
  - rewrite escape_app by exact Hc. apply flat_in_app; [apply flat_in_rune, Hc|exact IH].
  - rewrite escape_bad by exact Hn. apply flat_in_app; [|exact IH]. apply (flat_in_esc "u" (to_bytes "fffd")). repeat constructor; discriminate.
Qed.
Lemma flat_string s : flat (json_string s).
Proof.
  unfold json_string. intros d. destruct (flat_in_concat (to_bytes s) d) as [H1 H2].
  assert (Hq : jscan1 (d, MOut) quote = Some (d, MIn)) by reflexivity.
  split.
  - cbn [jscan]. rewrite Hq, jscan_app, H1. reflexivity.
  - intros [|n]; [exists d, MOut; auto|]. cbn [take jscan]. rewrite Hq, firstn_app, jscan_app.
    set (e := escape (to_bytes s)) in *.
    destruct (Nat.le_gt_cases (length e) n) as [Hn|Hn].
    + rewrite (firstn_all2 e Hn), H1. destruct (n - length e) as [|k]; cbn [take jscan]; [exists d, MIn; auto|].
      rewrite firstn_nil. exists d, MOut. auto.
    + replace (n - length e) with 0 by lia. destruct (H2 n) as (m & ->). exists d, m. auto.
Qed.

Lemma flat_commas l : Forall flat l -> flat (commas l).
Proof.
  induction 1 as [|x l Hx Hl IH]; [exact flat_nil|]. destruct l as [|y l]; [exact Hx|].
  change (commas (x :: y :: l)) with (x ++ [","%char] ++ commas (y :: l)).
  apply flat_app; [exact Hx|]. apply flat_app; [apply flat_char; repeat split; discriminate|exact IH].
Qed.
Lemma flat_fields l : Forall (fun kv => flat (json_enc (snd kv))) l ->
  flat (commas (map (fun kv => json_string (fst kv) ++ ":"%char :: json_enc (snd kv)) l)).
Proof.
  intros H. apply flat_commas. induction H as [|kv l Hk _ IH]; cbn [map]; constructor; [|exact IH].
  apply flat_app; [apply flat_string|]. apply (flat_app [":"%char]); [apply flat_char; repeat split; discriminate|exact Hk].
Qed.
Lemma flat_enc v : flat (json_enc v).
Proof.
  induction v as [|b|z|s|l IH|l IH|] using json_rect'.
  - apply flat_plain. repeat constructor; discriminate.
  - destruct b; apply flat_plain; repeat constructor; discriminate.
  - apply flat_num.
  - apply flat_string.
  - cbn [json_enc]. apply flat_wrap; [right; auto|]. apply flat_commas. induction IH; cbn [map]; constructor; assumption.
  - cbn [json_enc]. apply flat_wrap; [left; auto|]. apply flat_fields, IH.
  - apply flat_plain. repeat constructor; discriminate.
Qed.

Lemma enc_closed l : json_closed (json_enc (JObj l)).
Proof. split; [discriminate|]. apply (flat_enc (JObj l) 0). Qed.
Lemma enc_prefix_open l n : n < length (json_enc (JObj l)) -> ~ json_closed (take n (json_enc (JObj l))).
Proof.
  intros Hn. cbn [json_enc] in *. apply open_prefix; [left; auto| |exact Hn]. apply flat_fields.
  apply Forall_forall. intros kv _. apply flat_enc.
Qed.

(** ** What is read closes what it opens *)

Definition closes (b : bytes) : Prop := forall d, jscan (d, MOut) b = Some (d, MOut).
Definition closes_in (b : bytes) : Prop := forall d, jscan (d, MIn) b = Some (d, MOut).
Lemma closes_app a b : closes a -> closes b -> closes (a ++ b).
Proof. intros Ha Hb d. rewrite jscan_app, Ha. apply Hb. Qed.
Lemma closes_plain b : Forall plain_char b -> closes b.
Proof. intros H d. apply (flat_plain b H). Qed.

Lemma skip_ws_spec b : exists w, b = w ++ skip_ws b /\ Forall plain_char w /\ forallb is_space w = true.
Proof.
  induction b as [|c b IH]; [exists []; repeat constructor|]. simpl. destruct (is_space c) eqn:Hc.
  - destruct IH as (w & He & Hp & Hs). exists (c :: w). simpl. rewrite <- He, Hc. split; [reflexivity|]. split; [|exact Hs].
    constructor; [|exact Hp]. unfold is_space in Hc. apply bool_decide_eq_true in Hc.
    destruct Hc as [-> |[-> |[-> | ->]]]; repeat split; discriminate.
  - exists []. repeat constructor.
Qed.
Lemma strip_spec p : forall b t, strip p b = Some t -> b = p ++ t.
Proof.
  induction p as [|x p IH]; intros b t; cbn [strip]; [intros [= ->]; reflexivity|].
  destruct b as [|y b]; [discriminate|]. destruct (decide (x = y)) as [->|_]; [|discriminate].
  intros H. rewrite (IH _ _ H). reflexivity.
Qed.
Lemma strip_app p t : strip p (p ++ t) = Some t.
Proof. induction p as [|x p IH]; [reflexivity|]. cbn [app strip]. destruct (decide (x = x)); [exact IH|contradiction]. Qed.

Lemma hex_val_plain c n : hex_val c = Some n -> c <> quote /\ c <> backslash.
Proof. intros H. split; intros ->; discriminate. Qed.
Lemma hex4_some h1 h2 h3 h4 u : hex4 h1 h2 h3 h4 = Some u -> exists a1 a2 a3 a4,
  hex_val h1 = Some a1 /\ hex_val h2 = Some a2 /\ hex_val h3 = Some a3 /\ hex_val h4 = Some a4 /\
  u = (((a1 * 16 + a2) * 16 + a3) * 16 + a4)%N.
Proof.
  unfold hex4. destruct (hex_val h1) as [a1|]; [|discriminate]. destruct (hex_val h2) as [a2|]; [|discriminate].
  destruct (hex_val h3) as [a3|]; [|discriminate]. destruct (hex_val h4) as [a4|]; [|discriminate]. intros [= <-]. eauto 10.
Qed.
Lemma hex4_flat h1 h2 h3 h4 u : hex4 h1 h2 h3 h4 = Some u -> flat_in [backslash; "u"%char; h1; h2; h3; h4].
Proof.
  intros H. destruct (hex4_some _ _ _ _ _ H) as (a1 & a2 & a3 & a4 & H1 & H2 & H3 & H4 & _).
  apply flat_in_esc. repeat constructor; eapply hex_val_plain; eassumption.
Qed.
Lemma str_body_spec : forall n b s t, length b <= n -> str_body b = Some (s, t) -> exists u, b = u ++ t /\ closes_in u.
Proof.
  induction n as [|n IH]; intros b s t Hn H.
  { destruct b; [discriminate|simpl in Hn; lia]. }
  destruct b as [|c r]; [discriminate|]. cbn [str_body] in H. simpl in Hn.
  destruct (decide (c = quote)) as [->|Hq].
  { injection H as <- <-. exists [quote]. split; [reflexivity|]. intros d. reflexivity. }
  destruct (decide (c = backslash)) as [->|Hb].
  - destruct r as [|e r]; [discriminate|]. simpl in Hn. destruct (decide (e = "u"%char)) as [->|He].
    + destruct r as [|h1 [|h2 [|h3 [|h4 r]]]]; try discriminate. simpl in Hn.
      destruct (hex4 h1 h2 h3 h4) as [x|] eqn:Hx; [|discriminate]. pose proof (hex4_flat _ _ _ _ _ Hx) as Hf.
      assert (Hone : forall p, match str_body r with Some (s', t') => Some (p ++ s', t') | None => None end = Some (s, t) ->
                exists u, backslash :: "u"%char :: h1 :: h2 :: h3 :: h4 :: r = u ++ t /\ closes_in u).
      { intros p Hp. destruct (str_body r) as [[s' t']|] eqn:Hr; [|discriminate]. injection Hp as <- <-.
        destruct (IH r s' t' ltac:(lia) Hr) as (u & -> & Hu).
        exists ([backslash; "u"%char; h1; h2; h3; h4] ++ u). split; [reflexivity|]. intros d. rewrite jscan_app, (proj1 (Hf d)). apply Hu. }
      cbv zeta in H. destruct r as [|b1 [|b2 [|g1 [|g2 [|g3 [|g4 r3]]]]]]; try exact (Hone (utf8 x) H).
      destruct (decide _) as [(-> & -> & _)|_]; [|exact (Hone (utf8 x) H)].
      destruct (hex4 g1 g2 g3 g4) as [y|] eqn:Hy; [|exact (Hone (utf8 x) H)]. destruct (is_low y); [|exact (Hone (utf8 x) H)].
      clear Hone. simpl in Hn. destruct (str_body r3) as [[s' t']|] eqn:Hr; [|discriminate]. injection H as <- <-.
      destruct (IH r3 s' t' ltac:(lia) Hr) as (u & -> & Hu). pose proof (hex4_flat _ _ _ _ _ Hy) as Hg.
      exists ([backslash; "u"%char; h1; h2; h3; h4] ++ [backslash; "u"%char; g1; g2; g3; g4] ++ u). split; [reflexivity|].
      intros d. rewrite jscan_app, (proj1 (Hf d)), jscan_app, (proj1 (Hg d)). apply Hu.
    + destruct (unescape e); [|discriminate]. destruct (str_body r) as [[s' t']|] eqn:Hr; [|discriminate]. injection H as <- <-.
      destruct (IH r s' t' ltac:(lia) Hr) as (u & -> & Hu). exists (backslash :: e :: u). split; [reflexivity|].
      intros d. exact (Hu d).
  - destruct (N.ltb _ _); [discriminate|]. destruct (str_body r) as [[s' t']|] eqn:Hr; [|discriminate]. injection H as <- <-.
    destruct (IH r s' t' ltac:(lia) Hr) as (u & -> & Hu). exists (c :: u). split; [reflexivity|].
    intros d. cbn [jscan]. rewrite flat_in_step by assumption. apply Hu.
Qed.
Lemma str_spec b s t : str_body b = Some (s, t) -> exists u, quote :: b = u ++ t /\ closes u /\ u <> [].
Proof.
  intros H. destruct (str_body_spec _ b s t (le_n _) H) as (u & -> & Hu). exists (quote :: u).
  split; [reflexivity|]. split; [intros d; exact (Hu d)|discriminate].
Qed.
Lemma span_digits_spec b d t : span_digits b = (d, t) -> b = d ++ t /\ forallb is_digit d = true.
Proof.
  revert d t. induction b as [|c b IH]; intros d t; cbn [span_digits]; [intros [= <- <-]; auto|].
  destruct (is_digit c) eqn:Hc; [|intros [= <- <-]; auto].
  destruct (span_digits b) as [d' t'] eqn:He. intros [= <- <-]. destruct (IH _ _ eq_refl) as [-> Hd].
  split; [reflexivity|]. simpl. rewrite Hc. exact Hd.
Qed.
Lemma digits_closes d : forallb is_digit d = true -> closes d.
Proof.
  intros H. apply closes_plain, Forall_forall. intros c Hc. apply digit_plain. rewrite forallb_forall in H.
  apply H, elem_of_list_In, Hc.
Qed.
Lemma num_abs_spec b n t : num_abs b = Some (n, t) -> exists u, b = u ++ t /\ closes u /\ u <> [].
Proof.
  unfold num_abs. destruct (span_digits b) as [d t'] eqn:He. destruct (span_digits_spec _ _ _ He) as [-> Hd].
  destruct d as [|c d]; [discriminate|]. destruct (hasLeadingZeroes _); [discriminate|]. intros [= _ <-].
  exists (c :: d). split; [reflexivity|]. split; [apply digits_closes, Hd|discriminate].
Qed.
Lemma char_closes c : plain_char c -> closes [c].
Proof. intros H. apply closes_plain. constructor; [exact H|constructor]. Qed.
Lemma digits1_spec b t : digits1 b = Some t -> exists d, b = d ++ t /\ forallb is_digit d = true /\ d <> [].
Proof.
  unfold digits1. destruct (span_digits b) as [d t'] eqn:He. destruct (span_digits_spec _ _ _ He) as [-> Hd].
  destruct d as [|c d]; [discriminate|]. intros [= <-]. exists (c :: d). repeat split; [exact Hd|discriminate].
Qed.
Lemma num_frac_spec b f t : num_frac b = Some (f, t) -> exists u, b = u ++ t /\ closes u.
Proof.
  destruct b as [|c r]; cbn [num_frac]; [intros [= _ <-]; exists []; split; [reflexivity|intros d; reflexivity]|].
  destruct (decide _) as [->|_]; [|intros [= _ <-]; exists []; split; [reflexivity|intros d; reflexivity]].
  destruct (digits1 r) as [t'|] eqn:Hd; [|discriminate]. intros [= _ <-]. destruct (digits1_spec _ _ Hd) as (d & -> & Hf & _).
  exists ("."%char :: d). split; [reflexivity|]. intros e. apply (digits_closes d Hf).
Qed.
Lemma num_exp_spec b f t : num_exp b = Some (f, t) -> exists u, b = u ++ t /\ closes u.
Proof.
  destruct b as [|c r]; cbn [num_exp]; [intros [= _ <-]; exists []; split; [reflexivity|intros d; reflexivity]|].
  destruct (decide _) as [Hc|_]; [|intros [= _ <-]; exists []; split; [reflexivity|intros d; reflexivity]].
  destruct (digits1 _) as [t'|] eqn:Hd; [|discriminate]. intros [= _ <-]. destruct (digits1_spec _ _ Hd) as (d & He & Hf & Hne).
  assert (Hcc : closes [c]) by (apply char_closes; destruct Hc as [-> | ->]; repeat split; discriminate).
  destruct r as [|x r]; [destruct d; [contradiction|discriminate]|].
  destruct (decide _) as [Hx|_].
  - exists ([c] ++ [x] ++ d). rewrite He. split; [reflexivity|]. apply closes_app; [exact Hcc|]. apply closes_app; [|apply digits_closes, Hf].
    apply char_closes. destruct Hx as [-> | ->]; repeat split; discriminate.
  - exists ([c] ++ d). rewrite He. split; [reflexivity|]. apply closes_app; [exact Hcc|]. apply digits_closes, Hf.
Qed.
Lemma num_rest_spec z b v t : num_rest z b = Some (v, t) -> exists u, b = u ++ t /\ closes u.
Proof.
  unfold num_rest. destruct (num_frac b) as [[f t1]|] eqn:Hf; [|discriminate]. destruct (num_exp t1) as [[e t2]|] eqn:He; [|discriminate].
  intros [= _ <-]. destruct (num_frac_spec _ _ _ Hf) as (u & -> & Hu). destruct (num_exp_spec _ _ _ He) as (w & -> & Hw).
  exists (u ++ w). rewrite app_assoc. split; [reflexivity|]. apply closes_app; assumption.
Qed.
Lemma num_body_spec b v t : num_body b = Some (v, t) -> exists u, b = u ++ t /\ closes u /\ u <> [].
Proof.
  destruct b as [|c r]; [discriminate|]. cbn [num_body]. destruct (decide (c = "-"%char)) as [->|_].
  - destruct (num_abs r) as [[n t']|] eqn:Hr; [|discriminate]. intros Hz.
    destruct (num_abs_spec _ _ _ Hr) as (u & -> & Hu & _). destruct (num_rest_spec _ _ _ _ Hz) as (w & -> & Hw).
    exists ("-"%char :: u ++ w). split; [simpl; rewrite app_assoc; reflexivity|]. split; [|discriminate].
    apply (closes_app ["-"%char]); [apply char_closes; repeat split; discriminate|]. apply closes_app; assumption.
  - destruct (num_abs (c :: r)) as [[n t']|] eqn:Hr; [|discriminate]. intros Hz.
    destruct (num_abs_spec _ _ _ Hr) as (u & -> & Hu & Hne). destruct (num_rest_spec _ _ _ _ Hz) as (w & -> & Hw).
    exists (u ++ w). split; [rewrite app_assoc; reflexivity|]. split; [apply closes_app; assumption|]. destruct u; [contradiction|discriminate].
Qed.

Lemma wrap_closes o c u : o = "{"%char /\ c = "}"%char \/ o = "["%char /\ c = "]"%char ->
  (forall d, jscan (d, MOut) u = Some (d, MOut)) -> closes (o :: u ++ [c]).
Proof.
  intros Hoc Hu d.
  assert (Ho : forall e, jscan1 (e, MOut) o = Some (S e, MOut)) by (intros e; destruct Hoc as [[-> _]|[-> _]]; reflexivity).
  assert (Hc : forall e, jscan1 (S e, MOut) c = Some (e, MOut)) by (intros e; destruct Hoc as [[_ ->]|[_ ->]]; reflexivity).
  cbn [jscan]. rewrite Ho, jscan_app, Hu. cbn [jscan]. rewrite Hc. reflexivity.
Qed.

Lemma jval_closes : forall n,
  (forall b v t, jval n b = Some (v, t) -> exists u, b = u ++ t /\ closes u /\ u <> []) /\
  (forall b l t, jelems n b = Some (l, t) -> exists u, b = u ++ "]"%char :: t /\ closes u) /\
  (forall b l t, jfields n b = Some (l, t) -> exists u, b = u ++ "}"%char :: t /\ closes u).
Proof.
  induction n as [|n (IHv & IHe & IHf)]; [repeat split; discriminate|].
  assert (Hcomma : closes [","%char]) by (apply char_closes; repeat split; discriminate).
  assert (Hcolon : closes [":"%char]) by (apply char_closes; repeat split; discriminate).
  split; [|split].
  - intros b v t H. cbn [jval] in H. destruct (skip_ws_spec b) as (w & Hw & Hp & _). destruct (skip_ws b) as [|c r]; [discriminate|].
    assert (Hlift : (exists u, c :: r = u ++ t /\ closes u /\ u <> []) -> exists u, b = u ++ t /\ closes u /\ u <> []).
    { intros (u & Hu & Hc & Hne). exists (w ++ u). rewrite Hw, Hu, app_assoc. split; [reflexivity|]. split.
      - apply closes_app; [apply closes_plain, Hp|exact Hc].
      - destruct w; [exact Hne|discriminate]. }
    apply Hlift. destruct (decide (c = quote)) as [->|Hq].
    { destruct (str_body r) as [[s t']|] eqn:Hr; [|discriminate]. injection H as _ <-. exact (str_spec _ _ _ Hr). }
    destruct (decide (c = "["%char)) as [->|Ha].
    { destruct (strip ["]"%char] (skip_ws r)) as [t'|] eqn:Hs.
      - injection H as _ <-. apply strip_spec in Hs. destruct (skip_ws_spec r) as (w' & Hw' & Hp' & _). rewrite Hs in Hw'.
        exists ("["%char :: w' ++ ["]"%char]). rewrite Hw'. split; [simpl; rewrite <- app_assoc; reflexivity|].
        split; [|discriminate]. apply wrap_closes; [right; auto|apply closes_plain, Hp'].
      - destruct (jelems n r) as [[l t']|] eqn:He; [|discriminate]. injection H as _ <-.
        destruct (IHe _ _ _ He) as (u & -> & Hu). exists ("["%char :: u ++ ["]"%char]).
        split; [simpl; rewrite <- app_assoc; reflexivity|]. split; [|discriminate]. apply wrap_closes; [right; auto|exact Hu]. }
    destruct (decide (c = "{"%char)) as [->|Ho].
    { destruct (strip ["}"%char] (skip_ws r)) as [t'|] eqn:Hs.
      - injection H as _ <-. apply strip_spec in Hs. destruct (skip_ws_spec r) as (w' & Hw' & Hp' & _). rewrite Hs in Hw'.
        exists ("{"%char :: w' ++ ["}"%char]). rewrite Hw'. split; [simpl; rewrite <- app_assoc; reflexivity|].
        split; [|discriminate]. apply wrap_closes; [left; auto|apply closes_plain, Hp'].
      - destruct (jfields n r) as [[l t']|] eqn:He; [|discriminate]. injection H as _ <-.
        destruct (IHf _ _ _ He) as (u & -> & Hu). exists ("{"%char :: u ++ ["}"%char]).
        split; [simpl; rewrite <- app_assoc; reflexivity|]. split; [|discriminate]. apply wrap_closes; [left; auto|exact Hu]. }
    assert (Hlit : forall p t', strip p (c :: r) = Some t' -> p <> [] -> Forall plain_char p -> t' = t ->
              exists u, c :: r = u ++ t /\ closes u /\ u <> []).
    { intros p t' Hs Hne Hpl ->. apply strip_spec in Hs. exists p. split; [exact Hs|]. split; [apply closes_plain, Hpl|exact Hne]. }
    destruct (strip (to_bytes "null") (c :: r)) as [t'|] eqn:H1.
    { injection H as _ Ht. apply (Hlit _ _ H1); [discriminate| |exact Ht]. repeat constructor; discriminate. }
    destruct (strip (to_bytes "true") (c :: r)) as [t'|] eqn:H2.
    { injection H as _ Ht. apply (Hlit _ _ H2); [discriminate| |exact Ht]. repeat constructor; discriminate. }
    destruct (strip (to_bytes "false") (c :: r)) as [t'|] eqn:H3.
    { injection H as _ Ht. apply (Hlit _ _ H3); [discriminate| |exact Ht]. repeat constructor; discriminate. }
    exact (num_body_spec _ _ _ H).
  - intros b l t H. cbn [jelems] in H. destruct (jval n b) as [[v t0]|] eqn:Hv; [|discriminate].
    destruct (IHv _ _ _ Hv) as (u & -> & Hu & _). destruct (skip_ws_spec t0) as (w & Hw & Hp & _).
    assert (Huw : closes (u ++ w)) by (apply closes_app; [exact Hu|apply closes_plain, Hp]).
    destruct (strip ["]"%char] (skip_ws t0)) as [t'|] eqn:H1.
    { injection H as _ <-. apply strip_spec in H1. exists (u ++ w). rewrite Hw, H1, <- app_assoc. auto. }
    destruct (strip [","%char] (skip_ws t0)) as [t'|] eqn:H2; [|discriminate]. apply strip_spec in H2.
    destruct (jelems n t') as [[l' t'']|] eqn:He; [|discriminate]. injection H as _ <-.
    destruct (IHe _ _ _ He) as (u' & -> & Hu'). exists ((u ++ w) ++ [","%char] ++ u'). rewrite Hw, H2. split.
    + rewrite <- !app_assoc. reflexivity.
    + apply closes_app; [exact Huw|]. apply closes_app; [exact Hcomma|exact Hu'].
  - intros b l t H. cbn [jfields] in H. destruct (skip_ws_spec b) as (w0 & Hw0 & Hp0 & _).
    destruct (strip [quote] (skip_ws b)) as [r|] eqn:Hq; [|discriminate]. apply strip_spec in Hq.
    destruct (str_body r) as [[k tk]|] eqn:Hk; [|discriminate]. destruct (str_spec _ _ _ Hk) as (uk & Huk & Hck & _).
    destruct (skip_ws_spec tk) as (w1 & Hw1 & Hp1 & _).
    destruct (strip [":"%char] (skip_ws tk)) as [tv|] eqn:Hc; [|discriminate]. apply strip_spec in Hc.
    destruct (jval n tv) as [[v t0]|] eqn:Hv; [|discriminate].
    destruct (IHv _ _ _ Hv) as (u & -> & Hu & _). destruct (skip_ws_spec t0) as (w & Hw & Hp & _).
    assert (Hb : b = (w0 ++ uk ++ w1 ++ [":"%char] ++ u) ++ t0).
    { rewrite Hw0, Hq. change ([quote] ++ r) with (quote :: r). rewrite Huk. rewrite Hw1 at 1. rewrite Hc, <- !app_assoc. reflexivity. }
    assert (Hcl : closes (w0 ++ uk ++ w1 ++ [":"%char] ++ u)).
    { apply closes_app; [apply closes_plain, Hp0|]. apply closes_app; [exact Hck|]. apply closes_app; [apply closes_plain, Hp1|].
      apply closes_app; [exact Hcolon|exact Hu]. }
    set (x := w0 ++ uk ++ w1 ++ [":"%char] ++ u) in *.
    assert (Huw : closes (x ++ w)) by (apply closes_app; [exact Hcl|apply closes_plain, Hp]).
    destruct (strip ["}"%char] (skip_ws t0)) as [t'|] eqn:H1.
    { injection H as _ <-. apply strip_spec in H1. exists (x ++ w). rewrite Hb. rewrite Hw at 1. rewrite H1, <- app_assoc. auto. }
    destruct (strip [","%char] (skip_ws t0)) as [t'|] eqn:H2; [|discriminate]. apply strip_spec in H2.
    destruct (jfields n t') as [[l' t'']|] eqn:He; [|discriminate]. injection H as _ <-.
    destruct (IHf _ _ _ He) as (u' & -> & Hu'). exists ((x ++ w) ++ [","%char] ++ u'). rewrite Hb. split.
    + rewrite Hw at 1. rewrite H2, <- !app_assoc. reflexivity.
    + apply closes_app; [exact Huw|]. apply closes_app; [exact Hcomma|exact Hu'].
Qed.
Lemma json_dec_closed b v : json_dec b = Some v -> json_closed b.
Proof.
  unfold json_dec. destruct (jval _ b) as [[v' t]|] eqn:Hv; [|discriminate].
  destruct (skip_ws t) as [|] eqn:Ht; [|discriminate]. intros _.
  destruct (proj1 (jval_closes _) _ _ _ Hv) as (u & -> & Hu & Hne). destruct (skip_ws_spec t) as (w & Hw & Hp & _).
  rewrite Ht, app_nil_r in Hw. subst t. split; [destruct u; [contradiction|discriminate]|].
  apply closes_app; [exact Hu|apply closes_plain, Hp].
Qed.
(** A text cut before its end is not read. *)
Lemma json_dec_cut l n : n < length (json_enc (JObj l)) -> json_dec (take n (json_enc (JObj l))) = None.
Proof.
  intros Hn. destruct (json_dec (take n (json_enc (JObj l)))) as [v|] eqn:H; [|reflexivity].
  apply json_dec_closed in H. destruct (enc_prefix_open l n Hn H).
Qed.

(** ** Reading inverts writing *)

Lemma hex_val_digit n : (n < 16)%N -> hex_val (hex_digit n) = Some n.
Proof.
  intros Hn. assert (H : (N_of_ascii (hex_digit n) = (if N.ltb n 10 then 48 + n else 87 + n))%N).
  { unfold hex_digit. apply N_ascii_embedding. destruct (N.ltb_spec n 10); lia. }
  unfold hex_val, is_digit, byte_val. rewrite H. destruct (N.ltb_spec n 10).
  - rewrite (proj2 (N.leb_le 48 (48 + n)%N)) by lia. rewrite (proj2 (N.leb_le (48 + n) 57)%N) by lia. simpl. f_equal. lia.
  - rewrite (proj2 (N.leb_gt (87 + n) 57)%N) by lia. rewrite andb_false_r.
    rewrite (proj2 (N.leb_le 97 (87 + n))%N) by lia. rewrite (proj2 (N.leb_le (87 + n) 102)%N) by lia. simpl. f_equal. lia.
Qed.
(** A unit that is no first half of a pair stands alone whatever follows. *)
Lemma str_body_unit h1 h2 h3 h4 u r : hex4 h1 h2 h3 h4 = Some u -> is_high u = false ->
  str_body (backslash :: "u"%char :: h1 :: h2 :: h3 :: h4 :: r) =
  match str_body r with Some (s, t) => Some (utf8 u ++ s, t) | None => None end.
Proof.
  intros Hx Hh. cbn [str_body]. destruct (decide (backslash = quote)); [discriminate|].
  destruct (decide (backslash = backslash)); [|contradiction]. destruct (decide ("u"%char = "u"%char)); [|contradiction].
  rewrite Hx. cbv zeta. destruct r as [|b1 [|b2 [|g1 [|g2 [|g3 [|g4 r3]]]]]]; try reflexivity.
  destruct (decide _) as [(_ & _ & He)|_]; [congruence|reflexivity].
Qed.
Lemma str_body_raw c r : c <> quote -> c <> backslash -> N.ltb (byte_val c) 32 = false ->
  str_body (c :: r) = match str_body r with Some (s, t) => Some (c :: s, t) | None => None end.
Proof.
  intros H1 H2 H3. cbn [str_body]. destruct (decide (c = quote)); [contradiction|]. destruct (decide (c = backslash)); [contradiction|].
  rewrite H3. reflexivity.
Qed.
Lemma str_body_escape c r : str_body (escape_char c ++ r) =
  match str_body r with Some (s, t) => Some (c :: s, t) | None => None end.
Proof.
  unfold escape_char.
  destruct (decide (c = quote)) as [->|H1]; [reflexivity|].
  destruct (decide (c = backslash)) as [->|H2]; [reflexivity|].
  destruct (decide (c = "010"%char)) as [->|H3]; [reflexivity|].
  destruct (decide (c = "013"%char)) as [->|H4]; [reflexivity|].
  destruct (decide (c = "009"%char)) as [->|H5]; [reflexivity|].
  destruct (_ || _)%bool eqn:He.
  - assert (Hb : (byte_val c < 128)%N).
    { apply orb_true_iff in He as [He|He]; [apply orb_true_iff in He as [He|He]; [apply orb_true_iff in He as [He|He]|]|].
      - apply N.ltb_lt in He. lia.
      - apply bool_decide_eq_true in He. subst c. reflexivity.
      - apply bool_decide_eq_true in He. subst c. reflexivity.
      - apply bool_decide_eq_true in He. subst c. reflexivity. }
    assert (Hv : ((((0 * 16 + 0) * 16 + byte_val c / 16) * 16 + byte_val c mod 16) = byte_val c)%N).
    { pose proof (N.div_mod (byte_val c) 16). lia. }
    cbn [app]. rewrite (str_body_unit _ _ _ _ (byte_val c)).
    + unfold utf8. rewrite (proj2 (N.ltb_lt _ _) Hb). unfold byte_val. rewrite ascii_N_embedding. reflexivity.
    + unfold hex4. rewrite !hex_val_digit by (first [apply N.mod_lt; lia|apply N.div_lt_upper_bound; lia]).
      change (hex_val "0") with (Some 0%N). cbv iota beta. rewrite Hv. reflexivity.
    + unfold is_high. rewrite (proj2 (N.leb_gt 55296 _)) by lia. reflexivity.
  - apply orb_false_iff in He as [He _]. apply orb_false_iff in He as [He _]. apply orb_false_iff in He as [He _].
    apply str_body_raw; assumption.
Qed.
Lemma str_body_high l r : Forall (fun c => (128 <= byte_val c)%N) l ->
  str_body (l ++ r) = match str_body r with Some (s, t) => Some (l ++ s, t) | None => None end.
Proof.
  induction 1 as [|c l Hc Hl IH]; cbn [app]; [destruct (str_body r) as [[]|]; reflexivity|].
  destruct (high_plain c Hc) as [H1 H2]. rewrite str_body_raw, IH by (assumption || (apply N.ltb_ge; lia)).
  destruct (str_body r) as [[]|]; reflexivity.
Qed.
Lemma str_body_rune ch r : utf8_char ch -> str_body (escape_rune ch ++ r) =
  match str_body r with Some (s, t) => Some (ch ++ s, t) | None => None end.
Proof.
  intros H. unfold escape_rune.
  destruct (decide _) as [->|_]; [exact (str_body_unit "2" "0" "2" "8" 8232 r eq_refl eq_refl)|].
  destruct (decide _) as [->|_]; [exact (str_body_unit "2" "0" "2" "9" 8233 r eq_refl eq_refl)|].
  destruct (char_bytes ch H) as [(c & -> & _)|[Hf Hl]]; [apply str_body_escape|].
  destruct ch as [|a [|b l]]; [simpl in Hl; lia|simpl in Hl; lia|]. apply str_body_high, Hf.
Qed.
Lemma str_body_enc s r : str_body (escape s ++ quote :: r) = Some (coerce s, r).
Proof.
  induction s as [|ch b Hc IH|c b Hn IH] using bytes_ind_rune; [reflexivity| |].
  - rewrite escape_app, <- app_assoc, str_body_rune, IH, coerce_char by exact Hc. reflexivity.
  - rewrite escape_bad, <- app_assoc, coerce_bad by exact Hn.
    change (to_bytes "\ufffd" ++ escape b ++ quote :: r) with (backslash :: "u"%char :: "f"%char :: "f"%char :: "f"%char :: "d"%char :: escape b ++ quote :: r).
    rewrite (str_body_unit _ _ _ _ 65533) by reflexivity. rewrite IH. reflexivity.
Qed.

(** What is read of a value that was written: what is no text is repaired. *)
Definition repair (s : string) : string := of_bytes (coerce (to_bytes s)).
Fixpoint jrepair (v : json) : json :=
  match v with
  | JStr s => JStr (repair s)
  | JArr l => JArr (map jrepair l)
  | JObj l => JObj (map (fun kv => (repair (fst kv), jrepair (snd kv))) l)
  | _ => v
  end.
Lemma str_val_coerce s : str_val (coerce (to_bytes s)) = repair s.
Proof. unfold str_val, repair. rewrite coerce_idem. reflexivity. Qed.

(** What may follow a value. *)
Definition ends (r : bytes) : Prop :=
  match r with [] => True | c :: _ => is_digit c = false /\ c <> "."%char /\ c <> "e"%char /\ c <> "E"%char end.
Lemma span_digits_app d r : forallb is_digit d = true -> ends r -> span_digits (d ++ r) = (d, r).
Proof.
  intros Hd Hr. induction d as [|c d IH]; [destruct r as [|c r]; [reflexivity|simpl in *; rewrite (proj1 Hr); reflexivity]|].
  simpl in Hd. apply andb_true_iff in Hd as [Hc Hd]. cbn [app span_digits]. rewrite Hc, (IH Hd). reflexivity.
Qed.
Lemma num_abs_itoa n r : ends r -> num_abs (to_bytes (itoa n) ++ r) = Some (n, r).
Proof.
  intros Hr. destruct (itoa_shape n) as (Hd & Hne & _). unfold num_abs. rewrite span_digits_app by assumption.
  rewrite itoa_no_leading, dec_val_itoa. destruct (to_bytes (itoa n)); [contradiction|reflexivity].
Qed.
Lemma itoa_head n : exists c r, to_bytes (itoa n) = c :: r /\ is_digit c = true.
Proof.
  destruct (itoa_shape n) as (Hd & Hne & _). destruct (to_bytes (itoa n)) as [|c r]; [contradiction|].
  simpl in Hd. apply andb_true_iff in Hd as [Hc _]. eauto.
Qed.
Lemma num_exp_none r : ends r -> num_exp r = Some (false, r).
Proof.
  destruct r as [|c r]; [reflexivity|]. intros (_ & _ & H1 & H2). cbn [num_exp]. destruct (decide _) as [[?|?]|]; congruence.
Qed.
Lemma num_frac_none r : ends r -> num_frac r = Some (false, r).
Proof. destruct r as [|c r]; [reflexivity|]. intros (_ & H1 & _). cbn [num_frac]. destruct (decide _); congruence. Qed.
Lemma num_rest_none z r : ends r -> num_rest z r = Some (JNum z, r).
Proof. intros H. unfold num_rest. rewrite num_frac_none, num_exp_none by exact H. reflexivity. Qed.
Lemma num_enc z r : ends r -> num_body (json_num z ++ r) = Some (JNum z, r).
Proof.
  intros Hr. destruct z as [|p|p]; unfold json_num.
  - change (to_bytes (itoa (Z.to_N 0))) with ["0"%char]. cbn [app num_body]. destruct (decide _); [discriminate|].
    change ("0"%char :: r) with (to_bytes (itoa 0) ++ r). rewrite num_abs_itoa, num_rest_none by exact Hr. reflexivity.
  - destruct (itoa_head (Z.to_N (Z.pos p))) as (c & l & He & Hc). pose proof (num_abs_itoa (Z.to_N (Z.pos p)) r Hr) as Hn.
    rewrite He in *. cbn [app num_body]. destruct (decide (c = "-"%char)) as [->|_]; [discriminate|].
    cbn [app] in Hn. rewrite Hn, num_rest_none by exact Hr. reflexivity.
  - cbn [app num_body]. destruct (decide ("-"%char = "-"%char)); [|contradiction]. rewrite num_abs_itoa, num_rest_none by exact Hr. reflexivity.
Qed.
Lemma real_enc r : ends r -> num_body (to_bytes "0.5" ++ r) = Some (JReal, r).
Proof.
  intros Hr. change (to_bytes "0.5" ++ r) with ("0"%char :: "."%char :: ["5"%char] ++ r). cbn [num_body].
  destruct (decide _); [discriminate|]. unfold num_abs. cbn [span_digits]. change (is_digit "0") with true. change (is_digit ".") with false.
  cbv iota beta. unfold num_rest, num_frac, digits1.
  pose proof (span_digits_app ["5"%char] r eq_refl Hr) as H5. cbn [app] in H5. change (hasLeadingZeroes ["0"%char]) with false. cbv iota beta. cbn [app]. destruct (decide ("."%char = "."%char)); [|contradiction]. rewrite H5. cbv iota beta. rewrite num_exp_none by exact Hr. reflexivity.
Qed.
Lemma num_head z : exists c r, json_num z = c :: r /\ (c = "-"%char \/ is_digit c = true).
Proof.
  destruct z as [|p|p]; unfold json_num.
  - exists "0"%char, []. auto.
  - destruct (itoa_head (Z.to_N (Z.pos p))) as (c & r & -> & Hc). eauto.
  - eauto.
Qed.

(** Where no space is written none is skipped. *)
Lemma skip_ws_cons c r : is_space c = false -> skip_ws (c :: r) = c :: r.
Proof. intros H. cbn [skip_ws]. rewrite H. reflexivity. Qed.
Lemma digit_space c : is_digit c = true -> is_space c = false.
Proof.
  intros H. unfold is_space. apply bool_decide_eq_false. intros [-> |[-> |[-> | ->]]]; discriminate.
Qed.
Lemma enc_head v : exists c r, json_enc v = c :: r /\ is_space c = false /\ c <> "]"%char /\ c <> "}"%char.
Proof.
  destruct v as [|[]|z|s|l|l|]; try (eexists _, _; split; [reflexivity|]; split; [reflexivity|split; discriminate]).
  destruct (num_head z) as (c & r & He & Hc). exists c, r. split; [exact He|]. destruct Hc as [->|Hc].
  - split; [reflexivity|split; discriminate].
  - split; [apply digit_space, Hc|]. split; apply (digit_not _ _ Hc); reflexivity.
Qed.
Lemma enc_pos v : 0 < length (json_enc v).
Proof. destruct (enc_head v) as (c & r & -> & _). simpl. lia. Qed.

Definition reads (v : json) : Prop := forall n r, 2 * length (json_enc v) <= n -> ends r -> jval n (json_enc v ++ r) = Some (jrepair v, r).
Lemma commas_cons x y l : commas (x :: y :: l) = x ++ ","%char :: commas (y :: l).
Proof. reflexivity. Qed.

Lemma jelems_enc l : Forall reads l -> l <> [] -> forall n r, 2 * length (commas (map json_enc l)) + 1 <= n ->
  jelems n (commas (map json_enc l) ++ "]"%char :: r) = Some (map jrepair l, r).
Proof.
  induction 1 as [|x l Hx Hl IH]; [congruence|]. intros _ n r Hn. destruct n as [|n]; [lia|]. cbn [jelems].
  destruct l as [|y l].
  - cbn [map commas] in *. rewrite (Hx n ("]"%char :: r)) by (lia || (repeat split; discriminate)).
    rewrite skip_ws_cons by reflexivity. change ("]"%char :: r) with (["]"%char] ++ r). rewrite strip_app. reflexivity.
  - cbn [map] in *. rewrite commas_cons in *. rewrite app_length in Hn. cbn [length] in Hn.
    rewrite <- app_assoc. cbn [app]. rewrite Hx by (lia || (repeat split; discriminate)).
    rewrite skip_ws_cons by reflexivity. cbn [strip]. destruct (decide ("]"%char = ","%char)); [discriminate|].
    destruct (decide (","%char = ","%char)); [|contradiction].
    rewrite IH by (discriminate || lia). reflexivity.
Qed.
Lemma jfields_enc (l : list (string * json)) : Forall (fun kv => reads (snd kv)) l -> l <> [] -> forall n r,
  2 * length (commas (map (fun kv => json_string (fst kv) ++ ":"%char :: json_enc (snd kv)) l)) + 1 <= n ->
  jfields n (commas (map (fun kv => json_string (fst kv) ++ ":"%char :: json_enc (snd kv)) l) ++ "}"%char :: r) =
    Some (map (fun kv => (repair (fst kv), jrepair (snd kv))) l, r).
Proof.
  induction 1 as [|[k x] l Hx Hl IH]; [congruence|]. intros _ n r Hn. destruct n as [|n]; [lia|]. cbn [jfields snd] in *.
  assert (Hhd : forall rest, strip [quote] (skip_ws (json_string k ++ rest)) = Some (escape (to_bytes k) ++ quote :: rest)).
  { intros rest. unfold json_string. cbn [app]. rewrite skip_ws_cons by reflexivity. cbn [strip].
    destruct (decide (quote = quote)); [|contradiction]. rewrite <- app_assoc. reflexivity. }
  assert (Hcol : forall rest, strip [":"%char] (skip_ws (":"%char :: rest)) = Some rest) by reflexivity.
  destruct l as [|y l].
  - cbn [map commas fst snd] in *. rewrite <- app_assoc. cbn [app]. rewrite Hhd, str_body_enc, Hcol.
    rewrite app_length in Hn. cbn [length] in Hn. rewrite Hx by (lia || (repeat split; discriminate)).
    rewrite skip_ws_cons by reflexivity. change ("}"%char :: r) with (["}"%char] ++ r). rewrite strip_app, str_val_coerce. reflexivity.
  - cbn [map fst snd] in *. rewrite commas_cons in *. rewrite !app_length in Hn. cbn [length] in Hn.
    rewrite <- !app_assoc. cbn [app]. rewrite Hhd, str_body_enc, Hcol.
    rewrite Hx by (lia || (repeat split; discriminate)). rewrite skip_ws_cons by reflexivity. cbn [strip].
    destruct (decide ("}"%char = ","%char)); [discriminate|]. destruct (decide (","%char = ","%char)); [|contradiction].
    rewrite IH by (discriminate || lia). rewrite str_val_coerce. reflexivity.
Qed.
Lemma jval_enc v : reads v.
Proof.
  induction v as [|b|z|s|l IH|l IH|] using json_rect'; intros n r Hn Hr.
  - destruct n as [|n]; [simpl in Hn; lia|]. reflexivity.
  - destruct n as [|n]; [destruct b; simpl in Hn; lia|]. destruct b; reflexivity.
  - destruct n as [|n]; [pose proof (enc_pos (JNum z)); lia|]. cbn [json_enc jval].
    pose proof (num_enc z r Hr) as He. destruct (num_head z) as (c & l & Hz & Hc). rewrite Hz in *. cbn [app] in *.
    rewrite skip_ws_cons by (destruct Hc as [->|Hc]; [reflexivity|apply digit_space, Hc]).
    assert (Hno : forall x, is_digit x = false -> x <> "-"%char -> c <> x).
    { intros x Hx Hm ->. destruct Hc; congruence. }
    destruct (decide (c = quote)) as [e|_]; [destruct (Hno quote eq_refl ltac:(discriminate) e)|].
    destruct (decide (c = "["%char)) as [e|_]; [destruct (Hno "["%char eq_refl ltac:(discriminate) e)|].
    destruct (decide (c = "{"%char)) as [e|_]; [destruct (Hno "{"%char eq_refl ltac:(discriminate) e)|].
    assert (Hst : forall x p, x <> c -> strip (x :: p) (c :: l ++ r) = None).
    { intros x p Hx. cbn [strip]. destruct (decide (x = c)); [contradiction|reflexivity]. }
    change (to_bytes "null") with ("n"%char :: to_bytes "ull"). change (to_bytes "true") with ("t"%char :: to_bytes "rue").
    change (to_bytes "false") with ("f"%char :: to_bytes "alse").
    rewrite !Hst by (apply not_eq_sym, Hno; [reflexivity|discriminate]). exact He.
  - destruct n as [|n]; [simpl in Hn; lia|]. cbn [json_enc jval]. unfold json_string. cbn [app].
    rewrite skip_ws_cons by reflexivity. destruct (decide (quote = quote)); [|contradiction].
    rewrite <- app_assoc. cbn [app]. rewrite str_body_enc, str_val_coerce. reflexivity.
  - destruct n as [|n]; [simpl in Hn; lia|]. cbn [json_enc jval] in *. cbn [app]. rewrite skip_ws_cons by reflexivity.
    destruct (decide ("["%char = quote)); [discriminate|]. destruct (decide ("["%char = "["%char)); [|contradiction].
    rewrite <- app_assoc. cbn [app length] in *. rewrite app_length in Hn. cbn [length] in Hn.
    destruct l as [|x l]; [cbn [map commas app]; rewrite skip_ws_cons by reflexivity; reflexivity|].
    rewrite jelems_enc by (assumption || discriminate || lia).
    assert (Hh : exists c t, commas (map json_enc (x :: l)) ++ "]"%char :: r = c :: t /\ is_space c = false /\ c <> "]"%char).
    { destruct (enc_head x) as (c & t & Hx & Hs & H1 & _). cbn [map]. destruct l as [|y l]; [cbn [commas map]|cbn [map]; rewrite commas_cons];
        rewrite Hx; cbn [app]; eauto. }
    destruct Hh as (c & t & -> & Hs & H1). rewrite skip_ws_cons by exact Hs. cbn [strip].
    destruct (decide ("]"%char = c)); [congruence|]. reflexivity.
  - destruct n as [|n]; [simpl in Hn; lia|]. cbn [json_enc jval] in *. cbn [app]. rewrite skip_ws_cons by reflexivity.
    destruct (decide ("{"%char = quote)); [discriminate|]. destruct (decide ("{"%char = "["%char)); [discriminate|].
    destruct (decide ("{"%char = "{"%char)); [|contradiction].
    rewrite <- app_assoc. cbn [app length] in *. rewrite app_length in Hn. cbn [length] in Hn.
    destruct l as [|x l]; [cbn [map commas app]; rewrite skip_ws_cons by reflexivity; reflexivity|].
    rewrite jfields_enc by (assumption || discriminate || lia).
    assert (Hh : exists t, commas (map (fun kv => json_string (fst kv) ++ ":"%char :: json_enc (snd kv)) (x :: l)) ++ "}"%char :: r = quote :: t).
    { cbn [map]. destruct l as [|y l]; [cbn [commas map]|cbn [map]; rewrite commas_cons]; unfold json_string; cbn [app]; eauto. }
    destruct Hh as (t & ->). rewrite skip_ws_cons by reflexivity. cbn [strip].
    destruct (decide ("}"%char = quote)); [discriminate|]. reflexivity.
  - destruct n as [|n]; [simpl in Hn; lia|]. cbn [json_enc jval]. pose proof (real_enc r Hr) as He.
    change (to_bytes "0.5" ++ r) with ("0"%char :: "."%char :: "5"%char :: r) in *. rewrite skip_ws_cons by reflexivity.
    destruct (decide _); [discriminate|]. destruct (decide _); [discriminate|]. destruct (decide _); [discriminate|].
    cbn [to_bytes strip list_ascii_of_string]. repeat (destruct (decide _); [discriminate|]). exact He.
Qed.
Lemma nesting_repair v : nesting (jrepair v) = nesting v.
Proof.
  induction v as [|b|z|s|l IH|l IH|] using json_rect'; cbn [jrepair nesting]; try reflexivity; f_equal.
  - induction IH as [|x l Hx _ IHl]; [reflexivity|]. cbn [map fold_right]. rewrite Hx, IHl. reflexivity.
  - induction IH as [|[k x] l Hx _ IHl]; [reflexivity|]. cbn [map fold_right snd] in *. rewrite Hx, IHl. reflexivity.
Qed.
Lemma json_dec_repair v : (nesting v <= max_nesting)%N -> json_dec (json_enc v) = Some (jrepair v).
Proof.
  intros Hn. unfold json_dec. rewrite <- (app_nil_r (json_enc v)) at 2. rewrite (jval_enc v) by (exact I || lia).
  cbn [skip_ws]. rewrite nesting_repair. apply N.leb_le in Hn. rewrite Hn. reflexivity.
Qed.
Lemma json_dec_deep v : (max_nesting < nesting v)%N -> json_dec (json_enc v) = None.
Proof.
  intros Hn. unfold json_dec. rewrite <- (app_nil_r (json_enc v)) at 2. rewrite (jval_enc v) by (exact I || lia).
  cbn [skip_ws]. rewrite nesting_repair. apply N.leb_gt in Hn. rewrite Hn. reflexivity.
Qed.
