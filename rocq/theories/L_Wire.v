(** Lemmas on the ceremony messages on the wire. *)
From Coq Require Import ZArith NArith Ascii String List Lia.
From stdpp Require Import base list strings gmap.
From Verif Require Import Base L_Base M_Utf8 S_Utf8 L_Utf8 M_Base64 L_Base64 M_Json L_Json S_Json L_JsonSpec M_Storage M_Http M_Common M_OutCh M_Wire S_Wire.

Lemma unmarshal_enc {A} (put : json -> option A) v : json_texts v -> (nesting v <= 10)%N -> unmarshal put (json_enc v) = put v.
Proof. intros H Hn. unfold unmarshal. rewrite json_dec_enc; [reflexivity|exact H|]. unfold max_nesting. lia. Qed.

(** What is written is not deep. *)
Lemma bytes_nesting b : nesting (bytes_json b) = 0%N.
Proof. destruct b; reflexivity. Qed.
Lemma opt_nesting {A} (f : A -> json) o n : (forall x, (nesting (f x) <= n)%N) -> (nesting (opt_json f o) <= n)%N.
Proof. intros H. destruct o as [x|]; [apply H|cbn; lia]. Qed.
Ltac nests := cbn [nesting map fold_right snd app]; rewrite ?bytes_nesting.
Lemma party_nesting p : (nesting (party_json p) <= 1)%N.
Proof.
  destruct p as [[[id mon key]|] i]; unfold party_json, pparty_fields; cbn [pa_in pa_index pp_id pp_moniker pp_key]; [|nests; lia].
  destruct (String.eqb id ""), (String.eqb mon ""), key as [|c key]; nests; lia.
Qed.
Lemma routing_nesting r : (nesting (routing_json r) <= 3)%N.
Proof.
  unfold routing_json. set (a := opt_json party_json (mr_from r)).
  assert (Ha : (nesting a <= 1)%N) by (apply opt_nesting, party_nesting).
  set (t := match mr_to r with [] => JNull | _ => _ end).
  assert (Ht : (nesting t <= 2)%N).
  { unfold t. destruct (mr_to r) as [|p l]; [cbn; lia|]. apply (nesting_arr 1).
    generalize (p :: l). clear. intros l. induction l; constructor; [apply opt_nesting, party_nesting|assumption]. }
  clearbody a t. nests. lia.
Qed.
Lemma wmsg_nesting w : (nesting (wmsg_json w) <= 4)%N.
Proof.
  unfold wmsg_json. set (a := opt_json routing_json (wm_routing w)).
  assert (Ha : (nesting a <= 3)%N) by (apply opt_nesting, routing_nesting). clearbody a. nests. lia.
Qed.
Lemma bmsg_nesting b : (nesting (bmsg_json b) <= 4)%N.
Proof.
  unfold bmsg_json. set (a := opt_json routing_json (bm_routing b)).
  assert (Ha : (nesting a <= 3)%N) by (apply opt_nesting, routing_nesting). clearbody a. nests. lia.
Qed.
Lemma confirm_nesting c : (nesting (confirm_json c) <= 1)%N.
Proof. unfold confirm_json. nests. lia. Qed.
Lemma done_nesting d : (nesting (done_json d) <= 1)%N.
Proof. unfold done_json. nests. lia. Qed.
Lemma control_nesting c : (nesting (control_json c) <= 5)%N.
Proof.
  unfold control_json. set (a := opt_json wmsg_json (tc_msg c)).
  assert (Ha : (nesting a <= 4)%N) by (apply opt_nesting, wmsg_nesting). clearbody a. nests. lia.
Qed.
Lemma wrapped_nesting w : (nesting (wrapped_json w) <= 1)%N.
Proof. unfold wrapped_json. nests. lia. Qed.
Ltac deep L := eapply N.le_trans; [apply L|lia].

(** What is written consists of text. *)
Lemma bytes_texts b : json_texts (bytes_json b).
Proof. destruct b; constructor. apply base64_text. Qed.
Lemma fields_texts l : Forall (fun kv => forallb (fun c => N.ltb (byte_val c) 128) (to_bytes (fst kv)) = true /\ json_texts (snd kv)) l -> json_texts (JObj l).
Proof.
  intros H. constructor. eapply Forall_impl; [exact H|]. intros [k v] [Hk Hv]. split; [apply ascii_string, Hk|exact Hv].
Qed.
Ltac fields := apply fields_texts; repeat (apply Forall_cons; split); try apply Forall_nil_2; (split; [reflexivity|]); cbn [snd].
Lemma opt_texts {A} (f : A -> json) o : (forall x, o = Some x -> json_texts (f x)) -> json_texts (opt_json f o).
Proof. intros H. destruct o as [x|]; [apply H; reflexivity|constructor]. Qed.
Lemma party_texts p : party_ok (Some p) -> json_texts (party_json p).
Proof.
  destruct p as [q i]. intros H. destruct (H q i eq_refl) as (_ & _ & Ht). unfold party_json. cbn [pa_in pa_index].
  apply fields_texts, Forall_app. split; [|constructor; [split; [reflexivity|constructor]|constructor]].
  destruct q as [[id mon key]|]; [|constructor]. destruct (Ht _ eq_refl) as [H1 H2]. unfold pparty_fields. cbn [pp_id pp_moniker pp_key] in *.
  apply Forall_app. split; [|apply Forall_app; split].
  - destruct (String.eqb _ _); constructor; [|constructor]. split; [reflexivity|]. constructor. exact H1.
  - destruct (String.eqb _ _); constructor; [|constructor]. split; [reflexivity|]. constructor. exact H2.
  - destruct key as [|c key]; constructor; [|constructor]. split; [reflexivity|]. apply bytes_texts.
Qed.
Lemma routing_texts r : routing_ok r -> json_texts (routing_json r).
Proof.
  intros [Hf Ht]. unfold routing_json. fields; try constructor.
  - apply opt_texts. intros x Hx. apply party_texts. rewrite <- Hx. exact Hf.
  - destruct (mr_to r) as [|p l]; [constructor|]. constructor. induction Ht as [|x l' Hx _ IH]; constructor; [|exact IH].
    apply opt_texts. intros y ->. apply party_texts, Hx.
Qed.
Lemma wmsg_texts w : wmsg_ok w -> json_texts (wmsg_json w).
Proof.
  intros [Hr Ht]. unfold wmsg_json. fields; try apply bytes_texts.
  - apply opt_texts. intros x Hx. apply routing_texts, Hr, Hx.
  - constructor. exact Ht.
Qed.
Lemma bmsg_texts b : bmsg_ok b -> json_texts (bmsg_json b).
Proof.
  intros [Hr Ht]. unfold bmsg_json. fields; try apply bytes_texts.
  - constructor. exact Ht.
  - apply opt_texts. intros x Hx. apply routing_texts, Hr, Hx.
Qed.
Lemma confirm_texts c : confirm_ok c -> json_texts (confirm_json c).
Proof. intros (H1 & H2 & H3). unfold confirm_json. fields; constructor; assumption. Qed.
Lemma done_texts d : json_texts (done_json d).
Proof. unfold done_json. fields. constructor. Qed.
Lemma control_texts c : tcontrol_ok c -> json_texts (control_json c).
Proof.
  intros (_ & Hw & H1 & H2). unfold control_json. fields; try (constructor; assumption).
  apply opt_texts. intros w E. apply wmsg_texts, Hw, E.
Qed.
Lemma wrapped_texts w : text (wr_id w) -> json_texts (wrapped_json w).
Proof. intros H. unfold wrapped_json. fields; [constructor|constructor; exact H|apply bytes_texts]. Qed.

Lemma put_bytes_json b : put_bytes (bytes_json b) = Some b.
Proof. destruct b as [|c b]; [reflexivity|]. cbn [bytes_json put_bytes]. apply DecodeString_Encode. Qed.
Lemma put_int64_int z old : go_int z -> put_int64 (JNum z) old = Some z.
Proof.
  intros [H1 H2]. unfold put_int64. rewrite (proj2 (Z.leb_le _ _) H1), (proj2 (Z.ltb_lt _ _) H2). reflexivity.
Qed.
Lemma put_uint8_num n old : (n < 256)%N -> put_uint8 (JNum (Z.of_N n)) old = Some n.
Proof.
  intros H. unfold put_uint8. rewrite (proj2 (Z.leb_le 0 (Z.of_N n))) by lia. rewrite (proj2 (Z.ltb_lt (Z.of_N n) 256)) by lia.
  cbn [andb]. rewrite N2Z.id. reflexivity.
Qed.

(** Reading the fields one after the other. *)
Lemma struct_nil {A} (field : string -> json -> A -> option A) x : put_struct field (JObj []) x = Some x.
Proof. reflexivity. Qed.
Lemma struct_cons {A} (field : string -> json -> A -> option A) k v l x y :
  field (fold_name k) v x = Some y -> put_struct field (JObj ((k, v) :: l)) x = put_struct field (JObj l) y.
Proof. intros H. cbn [put_struct fold_left fst snd]. rewrite H. reflexivity. Qed.

Lemma put_party_json p : party_ok p -> put_party (opt_json party_json p) None = Some p.
Proof.
  intros Hok. destruct p as [[q i]|]; [|reflexivity]. destruct (Hok q i eq_refl) as (Hi & Hq & _). clear Hok.
  unfold put_party, put_ptr, opt_json, party_json. cbn [pa_in pa_index default].
  assert (Hlast : forall o, put_struct party_field (JObj [("index", JNum i)]) (Party o 0) = Some (Party o i)).
  { intros o. erewrite struct_cons; [apply struct_nil|].
    change (fold_name "index") with "index". unfold party_field. cbn [String.eqb Ascii.eqb Bool.eqb pa_in pa_index].
    rewrite put_int64_int by exact Hi. reflexivity. }
  destruct q as [[id mon key]|]; [|cbn [app]; rewrite Hlast; reflexivity].
  unfold pparty_fields. cbn [pp_id pp_moniker pp_key].
  match goal with |- Some <$> ?x = _ => enough (H : x = Some (Party (Some (PParty id mon key)) i)) by (rewrite H; reflexivity) end.
  assert (Hid : forall o x, put_string (JStr x) o = Some x) by reflexivity.
  assert (E1 : forall x o, party_field (fold_name "id") (JStr x) (Party o 0) =
    Some (Party (Some (PParty x (pp_moniker (default (PParty "" "" []) o)) (pp_key (default (PParty "" "" []) o)))) 0)) by reflexivity.
  assert (E2 : forall x o, party_field (fold_name "moniker") (JStr x) (Party o 0) =
    Some (Party (Some (PParty (pp_id (default (PParty "" "" []) o)) x (pp_key (default (PParty "" "" []) o)))) 0)) by reflexivity.
  assert (E3 : forall x o, party_field (fold_name "key") (bytes_json x) (Party o 0) =
    Some (Party (Some (PParty (pp_id (default (PParty "" "" []) o)) (pp_moniker (default (PParty "" "" []) o)) x)) 0)).
  { intros x o. change (fold_name "key") with "key". unfold party_field. cbn [String.eqb Ascii.eqb Bool.eqb pa_in pa_index].
    rewrite put_bytes_json. reflexivity. }
  destruct (String.eqb_spec id "") as [->|Hidn]; destruct (String.eqb_spec mon "") as [->|Hmon]; destruct key as [|c key];
    cbn [app]; try contradiction;
    repeat first [rewrite (struct_cons _ _ _ _ _ _ (E1 _ _)) | rewrite (struct_cons _ _ _ _ _ _ (E2 _ _))
                 | rewrite (struct_cons _ _ _ _ _ _ (E3 _ _))]; cbn [default pp_id pp_moniker pp_key];
    try (rewrite Hlast; reflexivity).
Qed.

Lemma put_elems_map {A B} (f : json -> option A) (g : B -> json) (h : B -> A) l :
  Forall (fun x => f (g x) = Some (h x)) l -> put_elems f (map g l) = Some (map h l).
Proof. induction 1 as [|x l Hx _ IH]; [reflexivity|]. cbn [map put_elems]. rewrite Hx, IH. reflexivity. Qed.

Lemma put_routing_json r : routing_ok r -> put_routing (routing_json r) None = Some (Some r).
Proof.
  intros [Hf Ht]. destruct r as [from to bc old both]. cbn [mr_from mr_to] in *.
  unfold put_routing, put_ptr, routing_json. cbn [default mr_from mr_to mr_bcast mr_old mr_both].
  erewrite struct_cons.
  2:{ change (fold_name "From") with "from". unfold routing_field. cbn [String.eqb Ascii.eqb Bool.eqb mr_from mr_to mr_bcast mr_old mr_both].
      rewrite put_party_json by exact Hf. reflexivity. }
  erewrite struct_cons.
  2:{ change (fold_name "To") with "to". unfold routing_field. cbn [String.eqb Ascii.eqb Bool.eqb mr_from mr_to mr_bcast mr_old mr_both].
      match goal with |- match ?x with _ => _ end = _ => assert (H : x = Some to) end.
      { destruct to as [|p to]; [reflexivity|]. rewrite (put_elems_map _ _ (fun x => x)).
        - rewrite map_id. reflexivity.
        - eapply Forall_impl; [exact Ht|]. intros p' Hp. apply put_party_json, Hp. }
      rewrite H. reflexivity. }
  reflexivity.
Qed.
Lemma put_routing_opt r : (forall x, r = Some x -> routing_ok x) -> put_routing (opt_json routing_json r) None = Some r.
Proof. intros H. destruct r as [r|]; [|reflexivity]. apply put_routing_json, H. reflexivity. Qed.

Lemma put_wmsg_json w : wmsg_ok w -> put_struct wmsg_field (wmsg_json w) wmsg_zero = Some w.
Proof.
  intros [Hok _]. destruct w as [r rd body sig]. cbn [wm_routing] in Hok.
  unfold wmsg_json, wmsg_zero. cbn [wm_routing wm_round wm_body wm_sig].
  erewrite struct_cons.
  2:{ change (fold_name "routing") with "routing". unfold wmsg_field. cbn [String.eqb Ascii.eqb Bool.eqb wm_routing wm_round wm_body wm_sig].
      rewrite put_routing_opt by exact Hok. reflexivity. }
  erewrite struct_cons; [|reflexivity].
  erewrite struct_cons.
  2:{ change (fold_name "message") with "message". unfold wmsg_field. cbn [String.eqb Ascii.eqb Bool.eqb wm_routing wm_round wm_body wm_sig].
      rewrite put_bytes_json. reflexivity. }
  erewrite struct_cons.
  2:{ change (fold_name "signature") with "signature". unfold wmsg_field. cbn [String.eqb Ascii.eqb Bool.eqb wm_routing wm_round wm_body wm_sig].
      rewrite put_bytes_json. reflexivity. }
  reflexivity.
Qed.
Lemma put_bmsg_json b : bmsg_ok b -> put_struct bmsg_field (bmsg_json b) (BMsg [] "" None) = Some b.
Proof.
  intros [Hok _]. destruct b as [body id r]. cbn [bm_routing] in Hok.
  unfold bmsg_json. cbn [bm_body bm_ident bm_routing].
  erewrite struct_cons.
  2:{ change (fold_name "WiredBulkMsgs") with "wiredbulkmsgs". unfold bmsg_field. cbn [String.eqb Ascii.eqb Bool.eqb bm_body bm_ident bm_routing].
      rewrite put_bytes_json. reflexivity. }
  erewrite struct_cons; [|reflexivity].
  erewrite struct_cons.
  2:{ change (fold_name "Routing") with "routing". unfold bmsg_field. cbn [String.eqb Ascii.eqb Bool.eqb bm_body bm_ident bm_routing].
      rewrite put_routing_opt by exact Hok. reflexivity. }
  reflexivity.
Qed.
Lemma put_confirm_json c : put_struct confirm_field (confirm_json c) (Confirm "" "" "") = Some c.
Proof. destruct c. reflexivity. Qed.
Lemma put_done_json d : put_struct done_field (done_json d) false = Some d.
Proof. destruct d; reflexivity. Qed.
Lemma put_control_json c : tcontrol_ok c -> put_struct control_field (control_json c) (TControl "" "" 0 None) = Some c.
Proof.
  intros (Ht & Hw & _). destruct c as [h k t m]. cbn [tc_type tc_msg] in *.
  unfold control_json. cbn [tc_hash tc_key tc_type tc_msg].
  erewrite struct_cons; [|reflexivity]. erewrite struct_cons; [|reflexivity].
  erewrite struct_cons.
  2:{ change (fold_name "request_type") with "request_type". unfold control_field. cbn [String.eqb Ascii.eqb Bool.eqb tc_hash tc_key tc_type tc_msg].
      rewrite put_uint8_num by exact Ht. reflexivity. }
  erewrite struct_cons.
  2:{ change (fold_name "message_body") with "message_body". unfold control_field. cbn [String.eqb Ascii.eqb Bool.eqb tc_hash tc_key tc_type tc_msg].
      assert (H : put_ptr wmsg_field wmsg_zero (opt_json wmsg_json m) None = Some m).
      { destruct m as [w|]; [|reflexivity]. unfold put_ptr, opt_json. cbn [default].
        pose proof (put_wmsg_json w (Hw w eq_refl)) as H. unfold wmsg_json in H |- *. rewrite H. reflexivity. }
      rewrite H. reflexivity. }
  reflexivity.
Qed.
Lemma wrapped_enc_dec w : (wr_type w < 256)%N -> text (wr_id w) -> wrapped_dec (json_enc (wrapped_json w)) = Some w.
Proof.
  intros Ht Hx. unfold wrapped_dec. rewrite unmarshal_enc by (apply wrapped_texts, Hx || deep wrapped_nesting). clear Hx. destruct w as [t id pl]. cbn [wr_type] in Ht.
  unfold wrapped_json. cbn [wr_type wr_id wr_payload].
  erewrite struct_cons.
  2:{ change (fold_name "message_type") with "message_type". unfold wrapped_field. cbn [String.eqb Ascii.eqb Bool.eqb wr_type wr_id wr_payload].
      rewrite put_uint8_num by exact Ht. reflexivity. }
  erewrite struct_cons; [|reflexivity].
  erewrite struct_cons.
  2:{ change (fold_name "payload") with "payload". unfold wrapped_field. cbn [String.eqb Ascii.eqb Bool.eqb wr_type wr_id wr_payload].
      rewrite put_bytes_json. reflexivity. }
  reflexivity.
Qed.

Lemma number_lt t : (number_of t < 256)%N.
Proof. destruct t; reflexivity. Qed.
Lemma type_number t : type_of (number_of t) = t.
Proof. destruct t; reflexivity. Qed.
Lemma inbound_wrap t id v : (t < 256)%N -> text id -> inbound (wrap t id v) = Some (inmsg_of (Wrapped t id (json_enc v))).
Proof. intros H Hx. unfold inbound, wrap. rewrite wrapped_enc_dec by assumption. reflexivity. Qed.
Lemma topic_wrap t id v : (t < 256)%N -> text id -> topic_of (wrap t id v) = Some (N.to_nat t, id).
Proof. intros H Hx. unfold topic_of, wrap. rewrite wrapped_enc_dec by assumption. reflexivity. Qed.

Lemma bulk_enc_dec l : Forall bmsg_ok l -> bulk_dec (bulk_enc l) = Some l.
Proof.
  intros H. unfold bulk_dec, bulk_enc. rewrite unmarshal_enc.
  2: { constructor. clear -H. induction H; constructor; [apply bmsg_texts; assumption|assumption]. }
  2: { eapply N.le_trans; [apply (nesting_arr 4)|lia]. clear. induction l; constructor; [apply bmsg_nesting|assumption]. }
  rewrite (put_elems_map _ _ (fun x => x)); [rewrite map_id; reflexivity|].
  eapply Forall_impl; [exact H|]. intros b Hb. apply put_bmsg_json, Hb.
Qed.

(** ** The signed bytes *)

Lemma arr_prefix_open l n : n < length (json_enc (JArr l)) -> ~ json_closed (take n (json_enc (JArr l))).
Proof.
  intros Hn. cbn [json_enc] in *. apply open_prefix; [right; auto| |exact Hn].
  apply flat_commas, Forall_forall. intros x Hx. apply elem_of_list_fmap in Hx as (v & -> & _). apply flat_enc.
Qed.
Lemma no_blank_space c : byte_val c <> 32%N /\ byte_val c <> 9%N /\ byte_val c <> 10%N /\ byte_val c <> 13%N -> is_space c = false.
Proof.
  intros (H1 & H2 & H3 & H4). unfold is_space. apply bool_decide_eq_false.
  intros [-> |[-> |[-> | ->]]]; [apply H1|apply H2|apply H3|apply H4]; reflexivity.
Qed.
Lemma jval_arr l n r : 2 * length (json_enc (JArr l)) <= n -> jval n (json_enc (JArr l) ++ r) = Some (jrepair (JArr l), r).
Proof.
  intros Hn. assert (IH : Forall reads l) by (apply Forall_forall; intros v _; apply jval_enc).
  destruct n as [|n]; [simpl in Hn; lia|]. cbn [json_enc jval] in *. cbn [app]. rewrite skip_ws_cons by reflexivity.
  destruct (decide ("["%char = quote)); [discriminate|]. destruct (decide ("["%char = "["%char)); [|contradiction].
  rewrite <- app_assoc. cbn [app length] in *. rewrite app_length in Hn. cbn [length] in Hn.
  destruct l as [|x l]; [cbn [map commas app]; rewrite skip_ws_cons by reflexivity; reflexivity|].
  rewrite jelems_enc by (assumption || discriminate || lia).
  assert (Hh : exists c t, commas (map json_enc (x :: l)) ++ "]"%char :: r = c :: t /\ is_space c = false /\ c <> "]"%char).
  { destruct (enc_head x) as (c & t & Hx & Hs & H1 & _). cbn [map]. destruct l as [|y l]; [cbn [commas map]|cbn [map]; rewrite commas_cons];
      rewrite Hx; cbn [app]; eauto. }
  destruct Hh as (c & t & -> & Hs & H1). rewrite skip_ws_cons by exact Hs. cbn [strip].
  destruct (decide ("]"%char = c)); [congruence|]. reflexivity.
Qed.
(** A list, and something that is not blank after it, is not one value. *)
Lemma arr_trailing l c t : is_space c = false -> json_dec (json_enc (JArr l) ++ c :: t) = None.
Proof.
  intros Hc. unfold json_dec.
  assert (H : jval (2 * length (json_enc (JArr l) ++ c :: t) + 2) (json_enc (JArr l) ++ c :: t) = Some (jrepair (JArr l), c :: t)).
  { apply jval_arr. rewrite app_length. lia. }
  rewrite H. cbn [skip_ws]. rewrite Hc. reflexivity.
Qed.
Lemma signed_bytes l id body id' v :
  no_blank id -> body ++ to_bytes id' = json_enc (JArr l) ++ to_bytes id -> json_dec body = Some v ->
  body = json_enc (JArr l) /\ id' = id.
Proof.
  intros Hb He Hd. apply app_eq_inv in He as [(k & H1 & H2)|(k & H1 & H2)].
  - destruct k as [|c k].
    + rewrite app_nil_r in H1. split; [exact H1|]. apply to_bytes_inj. symmetry. exact H2.
    + exfalso. rewrite H1, arr_trailing in Hd; [discriminate|].
      unfold no_blank in Hb. rewrite H2 in Hb. apply no_blank_space. inversion Hb. assumption.
  - destruct k as [|c k].
    + rewrite app_nil_r in H1. split; [auto|]. apply to_bytes_inj. exact H2.
    + exfalso. apply json_dec_closed in Hd.
      assert (Htake : take (length body) (json_enc (JArr l)) = body) by (rewrite H1; apply take_app).
      rewrite <- Htake in Hd. revert Hd. apply arr_prefix_open. rewrite H1, app_length. simpl. lia.
Qed.

(** ** Sizes *)
Lemma escape_length b : length (escape b) <= 6 * length b.
Proof.
  induction b as [|ch b Hc IH|c b Hn IH] using bytes_ind_rune; [reflexivity| |].
  - rewrite escape_app by exact Hc. rewrite !app_length. assert (length (escape_rune ch) <= 6 * length ch); [|lia].
    unfold escape_rune. destruct (decide _) as [->|_]; [cbn; lia|]. destruct (decide _) as [->|_]; [cbn; lia|].
    destruct ch as [|c [|d ch]]; cbn [length]; [lia| |lia].
    unfold escape_char. repeat destruct (decide _); cbn [length]; try lia. destruct (_ || _)%bool; cbn [length]; lia.
  - rewrite escape_bad by exact Hn. rewrite app_length. cbn [length]. assert (length (to_bytes "\ufffd") = 6) by reflexivity. lia.
Qed.
Lemma json_string_length s : length (json_string s) <= 6 * String.length s + 2.
Proof.
  unfold json_string. cbn [length]. rewrite app_length. cbn [length]. pose proof (escape_length (to_bytes s)) as H.
  assert (Hl : length (to_bytes s) = String.length s) by (clear; unfold to_bytes; induction s as [|a s IH]; [reflexivity|]; cbn [list_ascii_of_string length String.length]; rewrite IH; reflexivity). lia.
Qed.

Lemma wrapped_length w :
  length (json_enc (wrapped_json w)) =
  length (json_num (Z.of_N (wr_type w))) + length (json_string (wr_id w)) + length (json_enc (bytes_json (wr_payload w))) + 42.
Proof.
  unfold wrapped_json. generalize (bytes_json (wr_payload w)) (Z.of_N (wr_type w)) (wr_id w). intros j z i.
  change (json_enc (JObj [("message_type", JNum z); ("message_id", JStr i); ("payload", j)])) with
    ("{"%char :: ((json_string "message_type" ++ ":"%char :: json_num z) ++ ","%char ::
      (json_string "message_id" ++ ":"%char :: json_string i) ++ ","%char ::
      (json_string "payload" ++ ":"%char :: json_enc j)) ++ ["}"%char]).
  assert (H1 : length (json_string "message_type") = 14) by reflexivity.
  assert (H2 : length (json_string "message_id") = 12) by reflexivity.
  assert (H3 : length (json_string "payload") = 9) by reflexivity.
  revert H1 H2 H3. generalize (json_string "message_type") (json_string "message_id") (json_string "payload") (json_string i) (json_num z) (json_enc j).
  intros. repeat first [rewrite app_length | progress cbn [length]]. lia.
Qed.
