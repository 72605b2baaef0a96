(** C186, C187: which bytes are read as messages and states. *)
From Coq Require Import ZArith NArith Ascii String List Lia.
From stdpp Require Import base list strings gmap.
From Verif Require Import Base L_Base M_Utf8 S_Utf8 L_Utf8 M_Base64 S_Base64 L_Base64 P_Base64 M_Json L_Json S_Json L_JsonSpec M_Storage S_Storage L_Storage P_Storage
  M_Conv M_Batch M_KeySign M_Keygen S_Keygen P_Keygen S_Http M_Http L_Http P_Http M_Common M_Wire L_Wire.

(** ** Vocabulary *)

(** Values the fields of a message accept: a number below 256; bytes, as base64 text or
    as numbers. Null is always accepted. *)
Definition byte_or_null (v : json) : Prop := v = JNull \/ exists z, v = JNum z /\ (0 <= z < 256)%Z.
Definition bytes_or_null (v : json) : Prop :=
  v = JNull \/ (exists s b, v = JStr s /\ decodes_to (to_bytes s) b) \/ (exists l, v = JArr l /\ Forall byte_or_null l).
Definition envelope (v : json) : Prop :=
  v = JNull \/ exists l, v = JObj l /\ Forall (fun kv =>
    (named (fst kv) "message_type" -> byte_or_null (snd kv)) /\
    (named (fst kv) "message_id" -> text_or_null (snd kv)) /\
    (named (fst kv) "payload" -> bytes_or_null (snd kv))) l.
(** The values of a state's file; what the save data may be is the library's. *)
Definition state_value (F : fsenv) (v : json) : Prop :=
  exists l, v = JObj l /\ Forall (fun kv =>
    (named (fst kv) "pub_key" -> text_or_null (snd kv)) /\
    (named (fst kv) "local_data" -> exists d, fe_undata F (snd kv) = Some d) /\
    (named (fst kv) "participant_keys" -> texts_or_null (snd kv)) /\
    (named (fst kv) "local_party_key" -> text_or_null (snd kv))) l.

(** ** The fields *)
Lemma put_uint8_ok v old : byte_or_null v <-> exists n, put_uint8 v old = Some n.
Proof.
  split.
  - intros [->|(z & -> & H1 & H2)]; [eauto|]. cbn [put_uint8]. apply Z.leb_le in H1. apply Z.ltb_lt in H2. rewrite H1, H2. eauto.
  - destruct v as [| |z| | | |]; intros (n & H); try discriminate; [left; reflexivity|]. cbn [put_uint8] in H.
    destruct (Z.leb_spec 0 z); [|discriminate]. destruct (Z.ltb_spec z 256); [|discriminate]. right. eauto.
Qed.
Lemma put_uint8s_ok l : Forall byte_or_null l <-> exists b, put_elems (fun x => put_uint8 x 0) l = Some b.
Proof.
  induction l as [|v l IH]; [split; [eauto|constructor]|]. rewrite Forall_cons, IH, (put_uint8_ok v 0). cbn [put_elems]. split.
  - intros [(n & ->) (b & ->)]. eauto.
  - intros (b & H). destruct (put_uint8 v 0) as [n|]; [|discriminate]. destruct (put_elems _ l) as [x|]; [|discriminate]. eauto.
Qed.
Lemma put_bytes_ok v : bytes_or_null v <-> exists b, put_bytes v = Some b.
Proof.
  split.
  - intros [->|[(s & b & -> & H)|(l & -> & H)]]; [eexists; reflexivity| |].
    + exists b. apply C181_decodes_exactly, H.
    + apply put_uint8s_ok in H as (b & H). cbn [put_bytes]. rewrite H. eexists. reflexivity.
  - destruct v as [| | |s|l| |]; intros (y & H); try discriminate; [left; reflexivity| |]; right.
    + left. exists s, y. split; [reflexivity|]. apply C181_decodes_exactly, H.
    + right. exists l. split; [reflexivity|]. apply put_uint8s_ok. cbn [put_bytes] in H.
      destruct (put_elems _ l) as [x|]; [eauto|discriminate].
Qed.

Lemma wrapped_none l : fold_left (fun acc kv => match acc with None => None | Some x => wrapped_field (fold_name (fst kv)) (snd kv) x end) l None = None.
Proof. induction l; [reflexivity|assumption]. Qed.
Lemma wrapped_fill l w :
  Forall (fun kv =>
    (named (fst kv) "message_type" -> byte_or_null (snd kv)) /\
    (named (fst kv) "message_id" -> text_or_null (snd kv)) /\
    (named (fst kv) "payload" -> bytes_or_null (snd kv))) l <->
  exists r, fold_left (fun acc kv => match acc with None => None | Some x => wrapped_field (fold_name (fst kv)) (snd kv) x end) l (Some w) = Some r.
Proof.
  revert w. induction l as [|[k x] l IH]; intros w; [split; [eexists; reflexivity|constructor]|].
  rewrite Forall_cons. cbn [fold_left fst snd]. unfold wrapped_field at 2.
  by_name k "message_type"; [|by_name k "message_id"; [|by_name k "payload"]].
  1: assert (Hk : named k "message_type") by (apply E; reflexivity); assert (Hv := put_uint8_ok x (wr_type w)); destruct (put_uint8 x (wr_type w)) as [s|].
  3: assert (Hk : named k "message_id") by (apply E0; reflexivity); assert (Hv := put_string_ok x (wr_id w)); destruct (put_string x (wr_id w)) as [s|].
  5: assert (Hk : named k "payload") by (apply E1; reflexivity); assert (Hv := put_bytes_ok x); destruct (put_bytes x) as [s|].
  2,4,6: rewrite wrapped_none; split; [|intros (r & H); discriminate];
    intros [(H1 & H2 & H3) _]; exfalso;
    first [destruct (proj1 Hv (H1 Hk)) as (s & H)|destruct (proj1 Hv (H2 Hk)) as (s & H)|destruct (proj1 Hv (H3 Hk)) as (s & H)]; discriminate.
  1-3: rewrite <- IH; split; [intros [_ Hl]; exact Hl|]; intros Hl; split; [|exact Hl];
    assert (Hv' := proj2 Hv (ex_intro _ s eq_refl)); repeat split; intros Hn; try exact Hv';
    exfalso; revert Hn; eapply named_not; try exact Hk; (reflexivity || discriminate).
  assert (forall n, (false = true <-> named k n) -> ~ named k n) as Hno by (intros n [_ H] Hn; apply H in Hn; discriminate).
  apply Hno in E, E0, E1. rewrite <- IH. tauto.
Qed.
Lemma wrapped_dec_ok b : (exists w, wrapped_dec b = Some w) <-> exists v, document v b /\ envelope v.
Proof.
  unfold wrapped_dec, unmarshal. assert (Hd := json_dec_iff b). destruct (json_dec b) as [v|].
  2: { split; [intros (? & ?); discriminate|]. intros (v & H & _). apply Hd in H. discriminate. }
  assert (Hv : forall v', document v' b <-> v' = v) by (intros v'; rewrite <- Hd; split; congruence).
  assert (He : (exists v', document v' b /\ envelope v') <-> envelope v).
  { split; [intros (v' & H & H'); apply Hv in H; subst; exact H'|]. intros H. exists v. split; [apply Hv; reflexivity|exact H]. }
  rewrite He. unfold envelope. destruct v as [| | | | |l|]; cbn [put_struct];
    try (split; [intros (? & ?); discriminate|intros [?|(? & ? & _)]; discriminate]).
  - split; [left; reflexivity|eauto].
  - rewrite <- wrapped_fill. split; [right; eauto|]. intros [?|(l' & [= <-] & H)]; [discriminate|exact H].
Qed.

Section State.
  Variable F : fsenv.
  Lemma put_field_none l : fold_left (put_field F) l None = None.
  Proof. induction l; [reflexivity|assumption]. Qed.
  Lemma state_fill l s :
    Forall (fun kv =>
      (named (fst kv) "pub_key" -> text_or_null (snd kv)) /\
      (named (fst kv) "local_data" -> exists d, fe_undata F (snd kv) = Some d) /\
      (named (fst kv) "participant_keys" -> texts_or_null (snd kv)) /\
      (named (fst kv) "local_party_key" -> text_or_null (snd kv))) l <->
    exists r, fold_left (put_field F) l (Some s) = Some r.
  Proof.
    revert s. induction l as [|[k x] l IH]; intros s; [split; [eexists; reflexivity|constructor]|].
    rewrite Forall_cons. cbn [fold_left fst snd]. unfold put_field at 2. cbn [fst snd].
    assert (Hp : forall x, texts_or_null x <-> exists r, match x with
        | JNull => Some (Stored (st_pub s) (st_data s) None (st_local s))
        | JArr l => match put_strings l with Some y => Some (Stored (st_pub s) (st_data s) (Some y) (st_local s)) | None => None end
        | _ => None end = Some r).
    { clear. intros x. split.
      - intros [->|(l & -> & H)]; [eauto|]. apply put_strings_ok in H as (y & ->). eauto.
      - destruct x as [| | | |l| |]; intros (r & H); try discriminate; [left; reflexivity|]. right. exists l. split; [reflexivity|].
        apply put_strings_ok. destruct (put_strings l); [eauto|discriminate]. }
    by_name k "pub_key"; [|by_name k "local_data"; [|by_name k "participant_keys"; [|by_name k "local_party_key"]]].
    1: assert (Hk : named k "pub_key") by (apply E; reflexivity); assert (Hv := put_string_ok x (st_pub s)); destruct (put_string x (st_pub s)) as [y|].
    3: assert (Hk : named k "local_data") by (apply E0; reflexivity);
       assert (Hv : (exists d, fe_undata F x = Some d) <-> (exists d, fe_undata F x = Some d)) by tauto; destruct (fe_undata F x) as [y|].
    5: assert (Hk : named k "participant_keys") by (apply E1; reflexivity); assert (Hv := Hp x);
       match type of Hv with _ <-> exists r, ?t = _ => change (match x with JNull => _ | _ => _ end) with t; destruct t as [y|] end.
    7: assert (Hk : named k "local_party_key") by (apply E2; reflexivity); assert (Hv := put_string_ok x (st_local s)); destruct (put_string x (st_local s)) as [y|].
    2,4,6,8: rewrite put_field_none; split; [|intros (r & H); discriminate];
      intros [(H1 & H2 & H3 & H4) _]; exfalso;
      first [destruct (proj1 Hv (H1 Hk)) as (z & H)|destruct (proj1 Hv (H2 Hk)) as (z & H)|destruct (proj1 Hv (H3 Hk)) as (z & H)
            |destruct (proj1 Hv (H4 Hk)) as (z & H)]; discriminate.
    1-4: rewrite <- IH; split; [intros [_ Hl]; exact Hl|]; intros Hl; split; [|exact Hl];
      assert (Hv' := proj2 Hv (ex_intro _ y eq_refl)); split; [|split; [|split]]; intros Hn; try exact Hv';
      exfalso; revert Hn; eapply named_not; try exact Hk; (reflexivity || discriminate).
    assert (forall n, (false = true <-> named k n) -> ~ named k n) as Hno by (intros n [_ H] Hn; apply H in Hn; discriminate).
    apply Hno in E, E0, E1, E2. rewrite <- IH. tauto.
  Qed.
End State.

(** ** C186 *)

(** A JSON text states one value. *)
Theorem C186_one_value v v' b : document v b -> document v' b -> v = v'.
Proof. intros H H'. apply json_dec_iff in H, H'. congruence. Qed.
Print Assumptions C186_one_value.

(** Bytes from the network are taken as a message exactly when they are one JSON text
    of an object whose fields of the message, in any order and spelled with capitals or
    not, have values of their types. *)
Theorem C186_messages_are_json b : (exists m, inbound b = Some m) <-> exists v, document v b /\ envelope v.
Proof.
  rewrite <- wrapped_dec_ok. unfold inbound. destruct (wrapped_dec b) as [w|]; cbn.
  - split; eauto.
  - split; intros (? & ?); discriminate.
Qed.
Print Assumptions C186_messages_are_json.
(** Beside the fields it looks for, a message may say anything, but not at any depth: with
    a value that is [n] brackets deep it is read only if the brackets, with the braces
    around them, are at most 10000. *)
Fixpoint tower (n : nat) : json := match n with O => JNum 0 | S n => JArr [tower n] end.
Lemma tower_text n : json_enc (tower n) = (replicate n "["%char ++ "0"%char :: replicate n "]"%char)%list.
Proof.
  induction n as [|n IH]; [reflexivity|]. cbn [tower json_enc map commas replicate app]. rewrite IH. f_equal. rewrite <- app_assoc. f_equal.
  cbn [app]. f_equal. symmetry. apply replicate_cons_app.
Qed.
Lemma tower_nesting n : nesting (tower n) = N.of_nat n.
Proof. induction n as [|n IH]; [reflexivity|]. cbn [tower nesting map fold_right]. rewrite IH. lia. Qed.
Theorem C186_depth_is_limited :
  forall n, (exists w, wrapped_dec (to_bytes (of_bytes ["{"; dquote; "x"; dquote; ":"]%char) ++ replicate n "["%char ++ "0"%char :: replicate n "]"%char ++ ["}"%char])%list = Some w) <->
    (N.of_nat n < 10000)%N.
Proof.
  intros n. rewrite to_of_bytes. set (b := (_ ++ _)%list).
  assert (Hb : b = json_enc (JObj [("x", tower n)])).
  { cbn [json_enc map commas fst snd]. rewrite tower_text. change (json_string "x") with [dquote; "x"%char; dquote]. unfold b. cbn [app].
    do 5 f_equal. rewrite <- app_assoc. reflexivity. }
  rewrite Hb. clear b Hb. unfold wrapped_dec, unmarshal. pose proof (tower_nesting n) as Ht. split.
  - intros (w & H). destruct (N.lt_ge_cases (N.of_nat n) 10000) as [|Hn]; [assumption|]. rewrite json_dec_deep in H; [discriminate|].
    cbn [nesting map fold_right snd]. rewrite Ht. unfold max_nesting. lia.
  - intros Hn. rewrite json_dec_repair.
    + cbn [jrepair map fst snd]. eexists. reflexivity.
    + cbn [nesting map fold_right snd]. rewrite Ht. unfold max_nesting. lia.
Qed.
Print Assumptions C186_depth_is_limited.
Theorem C186_topics_are_json b : (exists t, topic_of b = Some t) <-> exists v, document v b /\ envelope v.
Proof.
  rewrite <- wrapped_dec_ok. unfold topic_of. destruct (wrapped_dec b) as [w|]; [split; eauto|]. split; intros (? & ?); discriminate.
Qed.
Print Assumptions C186_topics_are_json.

(** A state is read for a key exactly when its file is one JSON text of an object whose
    fields have values of their types, or null. *)
Theorem C186_states_are_json F fs k p b :
  k <> ""%string -> getFilePathName F k = Some p -> fs !! p = Some b ->
  (exists s, GetLocalState F k fs = Some s) <-> exists v, document v b /\ (v = JNull \/ state_value F v).
Proof.
  intros Hk Hp Hf. unfold GetLocalState. destruct (Nat.eqb_spec (String.length k) 0) as [H0|_]; [destruct k; [contradiction|discriminate]|].
  rewrite Hp, Hf. unfold unmarshal_state. assert (Hd := json_dec_iff b). destruct (json_dec b) as [v|].
  2: { split; [intros (? & ?); discriminate|]. intros (v & H & _). apply Hd in H. discriminate. }
  assert (Hv : forall v', document v' b <-> v' = v) by (intros v'; rewrite <- Hd; split; congruence).
  assert (He : (exists v', document v' b /\ (v' = JNull \/ state_value F v')) <-> (v = JNull \/ state_value F v)).
  { split; [intros (v' & H & H'); apply Hv in H; subst; exact H'|]. intros H. exists v. split; [apply Hv; reflexivity|exact H]. }
  rewrite He. unfold state_value. destruct v as [| | | | |l|];
    try (split; [intros (? & ?); discriminate|intros [?|(? & ? & _)]; discriminate]).
  - split; [left; reflexivity|eauto].
  - rewrite <- state_fill. split; [right; eauto|]. intros [?|(l' & [= <-] & H)]; [discriminate|exact H].
Qed.
Print Assumptions C186_states_are_json.
Example C186_states_ex : getFilePathName toy_fs "k1" = Some "/data/localstate-k1.json"%string /\
  GetLocalState toy_fs "k1" {["/data/localstate-k1.json"%string := to_bytes "{}"]} <> None /\
  GetLocalState toy_fs "k1" {["/data/localstate-k1.json"%string := to_bytes "{},"]} = None.
Proof. vm_compute. repeat split; discriminate. Qed.

Definition q1 : string := String quote "".
Example C186_ex :
  let b := to_bytes ("{ " ++ q1 ++ "PayLoad" ++ q1 ++ ": [1, null,255], " ++ q1 ++ "other" ++ q1 ++ ":-1.5e3} ")%string in
  document (JObj [("PayLoad"%string, JArr [JNum 1; JNull; JNum 255]); ("other"%string, JReal)]) b /\
  topic_of b = Some (0%nat, ""%string) /\ topic_of (to_bytes "{} x") = None /\ topic_of (to_bytes "[]") = None.
Proof. split; [apply json_dec_iff; vm_compute; reflexivity|]. vm_compute. auto. Qed.

(** ** C187. Every accepted state is read back as it was saved. *)

(** A string that is not text comes back changed. *)
Definition not_text : stored := Stored "k1" (toy_data "aa") (Some ["k1"; "k2"]%string) (String "255" "").
Theorem C187_any_state_survives_refuted :
  ~ forall F s, fs_laws F -> accepted F s = true -> GetLocalState F (st_pub s) (frun F ∅ [OSave s WDone]) = Some s.
Proof.
  intros H. specialize (H toy_fs not_text toy_laws). assert (E : accepted toy_fs not_text = true) by (vm_compute; reflexivity).
  specialize (H E). vm_compute in H. discriminate.
Qed.
Print Assumptions C187_any_state_survives_refuted.

(** But no request that comes in over HTTP has such a string, so the states of its
    keygens are read back. *)
Theorem C187_http_states_survive {M} kg ks peer metrics body E (I : kgin M) keys h v r :
  fs_laws (kg_fs E) -> fst (serve kg ks peer metrics (HReq "POST" "/keygen" body)) = Some (KeygenReq keys h v) ->
  Keygen E I keys h v = Some r -> kr_status (ko_resp r) = Success ->
  exists d keys', keys' ≡ₚ keys /\
    GetLocalState (kg_fs E) (kr_pub (ko_resp r)) (disk (kg_fs E) ∅ (ko_fx r)) = Some (Stored (kr_pub (ko_resp r)) d (Some keys') (kg_local E)).
Proof.
  intros HL Hq HK HS. apply C116_request_is_text in Hq as [Ht _].
  destruct (C50_success_is_durable E I keys h v r HL Ht HK HS) as (_ & pre & post & d & keys' & H). cbn zeta in H.
  destruct H as (Hfx & Ha & _ & _ & _ & Hread). exists d, keys'. split; [apply Ha|].
  rewrite Hfx. apply (Hread ∅ post []). rewrite app_nil_r. reflexivity.
Qed.
Print Assumptions C187_http_states_survive.
Example C187_ex : fs_laws (kg_fs kg_toy) /\
  fst (serve (fun _ => (empty_kresp, true)) (fun _ => (empty_resp, true)) "p" (fun _ => HAns 200 [])
    (HReq "POST" "/keygen" (json_enc (JObj (keygen_fields kg_keys 10 "0.14.0"))))) = Some (KeygenReq kg_keys 10 "0.14.0") /\
  exists r, run_toy all_in WDone 10 "0.14.0" = Some r /\ kr_status (ko_resp r) = Success.
Proof.
  split; [apply toy_laws|]. split; [vm_compute; reflexivity|]. eexists. split; [apply C50_success_is_durable_ex|reflexivity].
Qed.
