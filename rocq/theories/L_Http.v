(** Lemmas for the HTTP endpoints: indented JSON reads back. *)
From Coq Require Import ZArith NArith Ascii String List Lia.
From stdpp Require Import base list strings.
From Verif Require Import Base L_Base M_Semver L_Semver M_Utf8 S_Utf8 L_Utf8 M_Json L_Json S_Json L_JsonSpec M_Storage M_Http.

Lemma skip_nl d b : skip_ws (nl d ++ b) = skip_ws b.
Proof.
  unfold nl. cbn [app skip_ws]. change (is_space newline) with true. cbn match.
  induction d as [|d IH]; [reflexivity|]. cbn [replicate app skip_ws]. change (is_space tab) with true. exact IH.
Qed.
Lemma jval_nl n d b : jval n (nl d ++ b) = jval n b.
Proof. destruct n as [|n]; [reflexivity|]. cbn [jval]. rewrite skip_nl. reflexivity. Qed.
Lemma jval_sp n b : jval n (" "%char :: b) = jval n b.
Proof. destruct n as [|n]; reflexivity. Qed.
Lemma nl_ends d b : ends (nl d ++ b).
Proof. repeat split; discriminate. Qed.

Definition elem_ind d (x : json) : bytes := nl (S d) ++ json_ind (S d) x.
Definition field_ind d (kv : string * json) : bytes :=
  nl (S d) ++ json_string (fst kv) ++ ":"%char :: " "%char :: json_ind (S d) (snd kv).
Lemma ind_arr d x l : json_ind d (JArr (x :: l)) = "["%char :: commas (map (elem_ind d) (x :: l)) ++ nl d ++ ["]"%char].
Proof. reflexivity. Qed.
Lemma ind_obj d x l : json_ind d (JObj (x :: l)) = "{"%char :: commas (map (field_ind d) (x :: l)) ++ nl d ++ ["}"%char].
Proof. reflexivity. Qed.

Lemma ind_head d v : exists c r, json_ind d v = c :: r /\ is_space c = false /\ c <> "]"%char /\ c <> "}"%char.
Proof.
  destruct v as [|b|z|s|l|l|]; try exact (enc_head _).
  - destruct l; [exact (enc_head (JArr []))|]. rewrite ind_arr. eexists _, _. split; [reflexivity|]. split; [reflexivity|split; discriminate].
  - destruct l; [exact (enc_head (JObj []))|]. rewrite ind_obj. eexists _, _. split; [reflexivity|]. split; [reflexivity|split; discriminate].
Qed.

Definition ireads (v : json) : Prop := forall d n r, 2 * length (json_ind d v) <= n -> ends r -> jval n (json_ind d v ++ r) = Some (jrepair v, r).

Lemma jelems_ind l : Forall ireads l -> l <> [] -> forall d n r, 2 * length (commas (map (elem_ind d) l)) + 1 <= n ->
  jelems n (commas (map (elem_ind d) l) ++ nl d ++ "]"%char :: r) = Some (map jrepair l, r).
Proof.
  induction 1 as [|x l Hx Hl IH]; [congruence|]. intros _ d n r Hn. destruct n as [|n]; [lia|]. cbn [jelems].
  destruct l as [|y l].
  - cbn [map commas] in *. unfold elem_ind in *. rewrite app_length in Hn. rewrite <- app_assoc, jval_nl.
    rewrite Hx by (apply nl_ends || lia). rewrite skip_nl, skip_ws_cons by reflexivity.
    change ("]"%char :: r) with (["]"%char] ++ r). rewrite strip_app. reflexivity.
  - cbn [map] in *. rewrite commas_cons in *. rewrite app_length in Hn. cbn [length] in Hn.
    unfold elem_ind in Hn at 1. rewrite app_length in Hn. rewrite <- app_assoc. cbn [app].
    unfold elem_ind at 1. rewrite <- app_assoc, jval_nl. rewrite Hx by (lia || (repeat split; discriminate)).
    rewrite skip_ws_cons by reflexivity. cbn [strip]. destruct (decide ("]"%char = ","%char)); [discriminate|].
    destruct (decide (","%char = ","%char)); [|contradiction].
    rewrite IH by (discriminate || lia). reflexivity.
Qed.
Lemma jfields_ind (l : list (string * json)) : Forall (fun kv => ireads (snd kv)) l -> l <> [] -> forall d n r,
  2 * length (commas (map (field_ind d) l)) + 1 <= n ->
  jfields n (commas (map (field_ind d) l) ++ nl d ++ "}"%char :: r) =
    Some (map (fun kv => (repair (fst kv), jrepair (snd kv))) l, r).
Proof.
  induction 1 as [|[k x] l Hx Hl IH]; [congruence|]. intros _ d n r Hn. destruct n as [|n]; [lia|]. cbn [jfields snd] in *.
  assert (Hhd : forall rest, strip [quote] (skip_ws (nl (S d) ++ json_string k ++ rest)) = Some (escape (to_bytes k) ++ quote :: rest)).
  { intros rest. rewrite skip_nl. unfold json_string. cbn [app]. rewrite skip_ws_cons by reflexivity. cbn [strip].
    destruct (decide (quote = quote)); [|contradiction]. rewrite <- app_assoc. reflexivity. }
  assert (Hcol : forall rest, strip [":"%char] (skip_ws (":"%char :: rest)) = Some rest) by reflexivity.
  assert (Hone : forall rest, field_ind d (k, x) ++ rest = nl (S d) ++ json_string k ++ ":"%char :: " "%char :: json_ind (S d) x ++ rest).
  { intros rest. unfold field_ind. cbn [fst snd]. rewrite <- !app_assoc. reflexivity. }
  assert (Hlen : length (json_ind (S d) x) + 3 <= length (field_ind d (k, x))).
  { unfold field_ind. cbn [fst snd]. rewrite !app_length. cbn [length nl]. lia. }
  destruct l as [|y l].
  - cbn [map commas] in *. rewrite Hone, Hhd, str_body_enc, Hcol, jval_sp.
    rewrite Hx by (apply nl_ends || lia). rewrite skip_nl, skip_ws_cons by reflexivity.
    change ("}"%char :: r) with (["}"%char] ++ r). rewrite strip_app, str_val_coerce. reflexivity.
  - cbn [map] in *. rewrite commas_cons in *. rewrite !app_length in Hn. cbn [length] in Hn.
    rewrite <- !app_assoc. cbn [app]. rewrite Hone, Hhd, str_body_enc, Hcol, jval_sp.
    rewrite Hx by (lia || (repeat split; discriminate)). rewrite skip_ws_cons by reflexivity. cbn [strip].
    destruct (decide ("}"%char = ","%char)); [discriminate|]. destruct (decide (","%char = ","%char)); [|contradiction].
    rewrite IH by (discriminate || lia). rewrite str_val_coerce. reflexivity.
Qed.
Lemma jval_ind v : ireads v.
Proof.
  induction v as [|b|z|s|l IH|l IH|] using json_rect'; intros d n r Hn Hr.
  1-4, 7: exact (jval_enc _ n r Hn Hr).
  - destruct l as [|x l]; [exact (jval_enc (JArr []) n r Hn Hr)|]. rewrite ind_arr in *.
    destruct n as [|n]; [simpl in Hn; lia|]. cbn [jval]. cbn [app]. rewrite skip_ws_cons by reflexivity.
    destruct (decide ("["%char = quote)); [discriminate|]. destruct (decide ("["%char = "["%char)); [|contradiction].
    rewrite <- !app_assoc. cbn [app]. cbn [length] in Hn. rewrite !app_length in Hn.
    rewrite jelems_ind by (assumption || discriminate || lia).
    assert (Hh : exists c t, skip_ws (commas (map (elem_ind d) (x :: l)) ++ nl d ++ "]"%char :: r) = c :: t /\ c <> "]"%char).
    { destruct (ind_head (S d) x) as (c & t & Hx & Hs & H1 & _). exists c.
      cbn [map]. destruct l as [|y l]; [cbn [commas map]|cbn [map]; rewrite commas_cons]; unfold elem_ind at 1;
        rewrite Hx, <- ?app_assoc, skip_nl; cbn [app]; rewrite skip_ws_cons by exact Hs; eauto. }
    destruct Hh as (c & t & -> & H1). cbn [strip]. destruct (decide ("]"%char = c)); [congruence|]. reflexivity.
  - destruct l as [|x l]; [exact (jval_enc (JObj []) n r Hn Hr)|]. rewrite ind_obj in *.
    destruct n as [|n]; [simpl in Hn; lia|]. cbn [jval]. cbn [app]. rewrite skip_ws_cons by reflexivity.
    destruct (decide ("{"%char = quote)); [discriminate|]. destruct (decide ("{"%char = "["%char)); [discriminate|].
    destruct (decide ("{"%char = "{"%char)); [|contradiction].
    rewrite <- !app_assoc. cbn [app]. cbn [length] in Hn. rewrite !app_length in Hn.
    rewrite jfields_ind by (assumption || discriminate || lia).
    assert (Hh : exists t, skip_ws (commas (map (field_ind d) (x :: l)) ++ nl d ++ "}"%char :: r) = quote :: t).
    { cbn [map]. destruct l as [|y l]; [cbn [commas map]|cbn [map]; rewrite commas_cons]; unfold field_ind at 1;
        rewrite <- ?app_assoc, skip_nl; unfold json_string; cbn [app]; rewrite skip_ws_cons by reflexivity; eauto. }
    destruct Hh as (t & ->). cbn [strip]. destruct (decide ("}"%char = quote)); [discriminate|]. reflexivity.
Qed.
Lemma json_dec_ind_repair v : (nesting v <= max_nesting)%N -> json_dec (json_ind 0 v) = Some (jrepair v).
Proof.
  intros Hn. unfold json_dec. rewrite <- (app_nil_r (json_ind 0 v)) at 2. rewrite (jval_ind v) by (exact I || lia).
  cbn [skip_ws]. rewrite nesting_repair. apply N.leb_le in Hn. rewrite Hn. reflexivity.
Qed.
Lemma json_dec_ind v : json_texts v -> (nesting v <= max_nesting)%N -> json_dec (json_ind 0 v) = Some v.
Proof. intros H Hn. rewrite json_dec_ind_repair, jrepair_texts by assumption. reflexivity. Qed.

Lemma first_value_begins v b : first_value b = Some v -> begins v b.
Proof.
  unfold first_value, begins. rewrite shallow_iff. destruct (jval _ b) as [[v' t]|] eqn:H; [|discriminate].
  destruct (N.leb_spec (nesting v') max_nesting) as [Hn|]; [|discriminate]. intros [= <-]. split; [exact Hn|].
  destruct (proj1 (jval_sound _) _ _ _ H) as (w & x & Hw & Hx & ->). exists w, x, t. auto.
Qed.
Lemma first_value_iff v b : v = JNull \/ (exists l, v = JObj l) -> first_value b = Some v <-> begins v b.
Proof.
  intros Hv. split; [apply first_value_begins|]. intros (Hn & w & x & r & Hw & Hx & ->). apply shallow_iff in Hn. unfold first_value.
  rewrite jval_blanks by exact Hw. rewrite value_closed with (v := v); [|assumption..|rewrite !app_length; lia].
  apply N.leb_le in Hn. rewrite Hn. reflexivity.
Qed.
