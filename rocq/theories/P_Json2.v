(** C189: which payloads are read as shares, confirmations and the like. *)
From Coq Require Import ZArith NArith Ascii String List Lia.
From stdpp Require Import base list strings gmap.
From Verif Require Import Base L_Base M_Base64 S_Base64 M_Json L_Json S_Json L_JsonSpec M_Storage
  M_Conv M_Batch M_KeySign M_Keygen S_Http M_Http L_Http P_Http M_Common M_Wire L_Wire P_Json.
Local Open Scope string_scope.

(** ** Vocabulary *)

(** Null, or an object in which every field with one of these names has a value of the
    type that stands with the name. *)
Definition object_of (fields : list (string * (json -> Prop))) (v : json) : Prop :=
  v = JNull \/ exists l, v = JObj l /\ Forall (fun kv : string * json => Forall (fun f : string * (json -> Prop) => named (fst kv) (fst f) -> (snd f) (snd kv)) fields) l.
Definition list_of (P : json -> Prop) (v : json) : Prop := v = JNull \/ exists l, v = JArr l /\ Forall P l.
Definition bool_or_null (v : json) : Prop := v = JNull \/ exists b, v = JBool b.

Definition party_value : json -> Prop :=
  object_of [("id", text_or_null); ("moniker", text_or_null); ("key", bytes_or_null); ("index", number_or_null)].
Definition routing_value : json -> Prop :=
  object_of [("from", party_value); ("to", list_of party_value); ("isbroadcast", bool_or_null);
             ("istooldcommittee", bool_or_null); ("istooldandnewcommittees", bool_or_null)].
Definition share_value : json -> Prop :=
  object_of [("routing", routing_value); ("round_info", text_or_null); ("message", bytes_or_null); ("signature", bytes_or_null)].
Definition confirm_value : json -> Prop := object_of [("p2pid", text_or_null); ("key", text_or_null); ("hash", text_or_null)].
Definition control_value : json -> Prop :=
  object_of [("reqest_hash", text_or_null); ("request_key", text_or_null); ("request_type", byte_or_null); ("message_body", share_value)].
Definition done_value : json -> Prop := object_of [("task_done", bool_or_null)].
Definition bulk_value : json -> Prop :=
  list_of (object_of [("wiredbulkmsgs", bytes_or_null); ("msgidentifier", text_or_null); ("routing", routing_value)]).

(** ** Structures, generically *)
Definition fits {A} (field : string -> json -> A -> option A) (fields : list (string * (json -> Prop))) : Prop :=
  Forall (fun f : string * (json -> Prop) => forallb lowercase (to_bytes (fst f)) = true) fields /\
  forall name v x, (exists y, field name v x = Some y) <-> Forall (fun f : string * (json -> Prop) => name = fst f -> (snd f) v) fields.
Lemma put_struct_ok {A} field fields (v : json) (old : A) : fits field fields ->
  (exists y, put_struct field v old = Some y) <-> object_of fields v.
Proof.
  intros [Hl Hf]. unfold object_of.
  destruct v as [| | | | |l|]; cbn [put_struct]; try (split; [intros (? & ?); discriminate|intros [?|(? & ? & _)]; discriminate]).
  { split; [left; reflexivity|eauto]. }
  transitivity (Forall (fun kv : string * json => Forall (fun f : string * (json -> Prop) => named (fst kv) (fst f) -> (snd f) (snd kv)) fields) l).
  2:{ split; [right; eauto|]. intros [?|(l' & [= <-] & H)]; [discriminate|exact H]. }
  assert (Hn : forall l, fold_left (fun acc kv => match acc with None => None | Some x => field (fold_name (fst kv)) (snd kv) x end) l None = None)
    by (intros l'; induction l'; auto).
  revert old. induction l as [|[k x] l IH]; intros old; [split; [constructor|eauto]|]. cbn [fold_left fst snd]. rewrite Forall_cons. cbn [fst snd].
  assert (Hx : (exists y, field (fold_name k) x old = Some y) <-> Forall (fun f : string * (json -> Prop) => named k (fst f) -> (snd f) x) fields).
  { rewrite Hf. clear -Hl. induction Hl as [|f fs Hf _ IH]; [split; constructor|]. rewrite !Forall_cons, IH, <- (named_iff k (fst f) Hf), String.eqb_eq. reflexivity. }
  rewrite <- Hx. destruct (field (fold_name k) x old) as [y|].
  - rewrite IH. split; [split; [eauto|assumption]|tauto].
  - rewrite Hn. split; [intros (? & ?); discriminate|]. intros [(? & ?) _]. discriminate.
Qed.
Lemma put_ptr_ok {A} field fields (zero : A) v old : fits field fields ->
  (exists y, put_ptr field zero v old = Some y) <-> object_of fields v.
Proof.
  intros Hf. rewrite <- (put_struct_ok field fields v (default zero old) Hf). unfold put_ptr.
  destruct v; cbn [put_struct]; try (split; intros (? & ?); discriminate); [split; eauto|].
  destruct (fold_left _ _ _) as [x|]; cbn; split; intros (? & ?); try discriminate; eauto.
Qed.
Lemma put_elems_ok {A} (f : json -> option A) P l : (forall v, (exists y, f v = Some y) <-> P v) ->
  (exists y, put_elems f l = Some y) <-> Forall P l.
Proof.
  intros Hf. induction l as [|v l IH]; [split; [constructor|eexists; reflexivity]|]. rewrite Forall_cons, <- IH, <- Hf. cbn [put_elems].
  destruct (f v) as [x|]; [|split; [intros (? & ?)|intros [(? & ?) _]]; discriminate].
  destruct (put_elems f l) as [t|]; [split; eauto|split; [intros (? & ?)|intros [_ (? & ?)]]; discriminate].
Qed.
Lemma put_bool_ok v old : (exists y, put_bool v old = Some y) <-> bool_or_null v.
Proof.
  unfold bool_or_null. split.
  - destruct v; intros (y & H); try discriminate; eauto.
  - intros [->|(b & ->)]; eexists; reflexivity.
Qed.

(** One step through the names: the field is the one named [n], or another one. *)
Ltac hit H := rewrite ?Forall_cons; cbn [fst snd];
  match goal with |- (exists y, match ?o with Some _ => _ | None => _ end = Some y) <-> _ =>
    transitivity (exists y, o = Some y); [destruct o; split; intros (? & X); try discriminate X; eexists; reflexivity|] end;
  rewrite H; split; [intros X; repeat split; try (intros Y; try discriminate Y; exact X); apply Forall_nil_2|tauto].
Ltac miss := rewrite ?Forall_cons; cbn [fst snd]; split; [intros _; repeat split; try (intros Y; congruence); apply Forall_nil_2|eauto].
Lemma put_string_iff v old : (exists y, put_string v old = Some y) <-> text_or_null v.
Proof. symmetry. apply put_string_ok. Qed.
Lemma put_bytes_iff v : (exists y, put_bytes v = Some y) <-> bytes_or_null v.
Proof. symmetry. apply put_bytes_ok. Qed.
Lemma put_uint8_iff v old : (exists y, put_uint8 v old = Some y) <-> byte_or_null v.
Proof. symmetry. apply put_uint8_ok. Qed.
Lemma put_int64_iff v old : (exists y, put_int64 v old = Some y) <-> number_or_null v.
Proof. symmetry. apply put_int64_ok. Qed.

Lemma party_fits : fits party_field [("id", text_or_null); ("moniker", text_or_null); ("key", bytes_or_null); ("index", number_or_null)].
Proof.
  split; [repeat constructor|]. intros name v x. unfold party_field.
  destruct (String.eqb_spec name "id") as [->|N1]; [hit put_string_iff|].
  destruct (String.eqb_spec name "moniker") as [->|N2]; [hit put_string_iff|].
  destruct (String.eqb_spec name "key") as [->|N3]; [hit put_bytes_iff|].
  destruct (String.eqb_spec name "index") as [->|N4]; [hit put_int64_iff|]. miss.
Qed.
Lemma put_party_iff v old : (exists y, put_party v old = Some y) <-> party_value v.
Proof. apply put_ptr_ok, party_fits. Qed.
Lemma put_to_iff v : (exists y, match v with JNull => Some [] | JArr l => put_elems (fun x => put_party x None) l | _ => None end = Some y) <-> list_of party_value v.
Proof.
  unfold list_of. destruct v as [| | | |l| |]; try (split; [intros (? & ?); discriminate|intros [?|(? & ? & _)]; discriminate]).
  - split; [left; reflexivity|eauto].
  - rewrite (put_elems_ok _ party_value) by (intros; apply put_party_iff). split; [right; eauto|]. intros [?|(l' & [= <-] & H)]; [discriminate|exact H].
Qed.
Lemma routing_fits : fits routing_field [("from", party_value); ("to", list_of party_value); ("isbroadcast", bool_or_null);
             ("istooldcommittee", bool_or_null); ("istooldandnewcommittees", bool_or_null)].
Proof.
  split; [repeat constructor|]. intros name v x. unfold routing_field.
  destruct (String.eqb_spec name "from") as [->|N1]; [hit put_party_iff|].
  destruct (String.eqb_spec name "to") as [->|N2]; [hit put_to_iff|].
  destruct (String.eqb_spec name "isbroadcast") as [->|N3]; [hit put_bool_ok|].
  destruct (String.eqb_spec name "istooldcommittee") as [->|N4]; [hit put_bool_ok|].
  destruct (String.eqb_spec name "istooldandnewcommittees") as [->|N5]; [hit put_bool_ok|]. miss.
Qed.
Lemma put_routing_iff v old : (exists y, put_routing v old = Some y) <-> routing_value v.
Proof. apply put_ptr_ok, routing_fits. Qed.
Lemma wmsg_fits : fits wmsg_field [("routing", routing_value); ("round_info", text_or_null); ("message", bytes_or_null); ("signature", bytes_or_null)].
Proof.
  split; [repeat constructor|]. intros name v x. unfold wmsg_field.
  destruct (String.eqb_spec name "routing") as [->|N1]; [hit put_routing_iff|].
  destruct (String.eqb_spec name "round_info") as [->|N2]; [hit put_string_iff|].
  destruct (String.eqb_spec name "message") as [->|N3]; [hit put_bytes_iff|].
  destruct (String.eqb_spec name "signature") as [->|N4]; [hit put_bytes_iff|]. miss.
Qed.
Lemma put_share_iff v old : (exists y, put_ptr wmsg_field wmsg_zero v old = Some y) <-> share_value v.
Proof. apply put_ptr_ok, wmsg_fits. Qed.
Lemma confirm_fits : fits confirm_field [("p2pid", text_or_null); ("key", text_or_null); ("hash", text_or_null)].
Proof.
  split; [repeat constructor|]. intros name v x. unfold confirm_field.
  destruct (String.eqb_spec name "p2pid") as [->|N1]; [hit put_string_iff|].
  destruct (String.eqb_spec name "key") as [->|N2]; [hit put_string_iff|].
  destruct (String.eqb_spec name "hash") as [->|N3]; [hit put_string_iff|]. miss.
Qed.
Lemma control_fits : fits control_field [("reqest_hash", text_or_null); ("request_key", text_or_null); ("request_type", byte_or_null); ("message_body", share_value)].
Proof.
  split; [repeat constructor|]. intros name v x. unfold control_field.
  destruct (String.eqb_spec name "reqest_hash") as [->|N1]; [hit put_string_iff|].
  destruct (String.eqb_spec name "request_key") as [->|N2]; [hit put_string_iff|].
  destruct (String.eqb_spec name "request_type") as [->|N3]; [hit put_uint8_iff|].
  destruct (String.eqb_spec name "message_body") as [->|N4]; [hit put_share_iff|]. miss.
Qed.
Lemma done_fits : fits done_field [("task_done", bool_or_null)].
Proof.
  split; [repeat constructor|]. intros name v x. unfold done_field. destruct (String.eqb_spec name "task_done") as [->|N1]; [|miss].
  rewrite Forall_cons. cbn [fst snd]. rewrite put_bool_ok. split; [intros X; split; [intros _; exact X|apply Forall_nil_2]|tauto].
Qed.
Lemma bmsg_fits : fits bmsg_field [("wiredbulkmsgs", bytes_or_null); ("msgidentifier", text_or_null); ("routing", routing_value)].
Proof.
  split; [repeat constructor|]. intros name v x. unfold bmsg_field.
  destruct (String.eqb_spec name "wiredbulkmsgs") as [->|N1]; [hit put_bytes_iff|].
  destruct (String.eqb_spec name "msgidentifier") as [->|N2]; [hit put_string_iff|].
  destruct (String.eqb_spec name "routing") as [->|N3]; [hit put_routing_iff|]. miss.
Qed.
Lemma unmarshal_ok {A} (put : json -> option A) P b : (forall v, (exists y, put v = Some y) <-> P v) ->
  (exists y, unmarshal put b = Some y) <-> exists v, document v b /\ P v.
Proof.
  intros Hp. unfold unmarshal. assert (Hd := json_dec_iff b). destruct (json_dec b) as [v|].
  - rewrite Hp. split; [intros H; exists v; split; [apply Hd; reflexivity|exact H]|]. intros (v' & H & H'). apply Hd in H. congruence.
  - split; [intros (? & ?); discriminate|]. intros (v & H & _). apply Hd in H. discriminate.
Qed.

(** ** C189. The payload of a share, a confirmation, a control message and a notice is
    read exactly if it is one JSON text of a value of the right shape; so is the list
    of shares in a body. Types are those of messages/p2p_message.go:60-88. *)
Theorem C189_payloads_are_json t id b :
  (t = 0%N \/ t = 1%N -> (exists w, inmsg_of (Wrapped t id b) = MShare (type_of t) (Some w)) <-> exists v, document v b /\ share_value v) /\
  (t = 2%N \/ t = 3%N -> (exists c, inmsg_of (Wrapped t id b) = MVer (type_of t) (Some c)) <-> exists v, document v b /\ confirm_value v) /\
  (t = 4%N -> (exists c, inmsg_of (Wrapped t id b) = MCtl (Some c)) <-> exists v, document v b /\ control_value v) /\
  (t = 5%N -> (exists d, inmsg_of (Wrapped t id b) = MDone (Some d)) <-> exists v, document v b /\ done_value v).
Proof.
  assert (H1 := unmarshal_ok (fun v => put_struct wmsg_field v wmsg_zero) share_value b (fun v => put_struct_ok _ _ v _ wmsg_fits)).
  assert (H2 := unmarshal_ok (fun v => put_struct confirm_field v (Confirm "" "" "")) confirm_value b (fun v => put_struct_ok _ _ v _ confirm_fits)).
  assert (H3 := unmarshal_ok (fun v => put_struct control_field v (TControl "" "" 0 None)) control_value b (fun v => put_struct_ok _ _ v _ control_fits)).
  assert (H4 := unmarshal_ok (fun v => put_struct done_field v false) done_value b (fun v => put_struct_ok _ _ v _ done_fits)).
  split_and!.
  - intros Ht. rewrite <- H1. fold wmsg_dec. destruct Ht as [-> | ->]; cbn [inmsg_of wr_type wr_payload type_of];
      (destruct (wmsg_dec b) as [w|]; cbn; split; intros (y & X); try discriminate; eexists; reflexivity).
  - intros Ht. rewrite <- H2. fold confirm_dec. destruct Ht as [-> | ->]; cbn [inmsg_of wr_type wr_payload type_of];
      (destruct (confirm_dec b) as [w|]; cbn; split; intros (y & X); try discriminate; eexists; reflexivity).
  - intros ->. rewrite <- H3. fold control_dec. cbn [inmsg_of wr_type wr_payload type_of].
    destruct (control_dec b) as [w|]; cbn; split; intros (y & X); try discriminate; eexists; reflexivity.
  - intros ->. rewrite <- H4. fold done_dec. cbn [inmsg_of wr_type wr_payload type_of].
    destruct (done_dec b) as [w|]; cbn; split; intros (y & X); try discriminate; eexists; reflexivity.
Qed.
Print Assumptions C189_payloads_are_json.
Theorem C189_lists_are_json E b :
  (exists l, e_dec_bulk (wire_env E) b = Some l) <-> exists v, document v b /\ bulk_value v.
Proof.
  cbn [e_dec_bulk wire_env]. transitivity (exists l, bulk_dec b = Some l).
  { destruct (bulk_dec b) as [l|]; cbn; split; intros (y & X); try discriminate; eexists; reflexivity. }
  apply unmarshal_ok. intros v. unfold bulk_value, list_of.
  destruct v as [| | | |l| |]; try (split; [intros (? & ?); discriminate|intros [?|(? & ? & _)]; discriminate]).
  - split; [left; reflexivity|eauto].
  - rewrite (put_elems_ok _ (object_of [("wiredbulkmsgs", bytes_or_null); ("msgidentifier", text_or_null); ("routing", routing_value)]))
      by (intros; apply put_struct_ok, bmsg_fits).
    split; [right; eauto|]. intros [?|(l' & [= <-] & H)]; [discriminate|exact H].
Qed.
Print Assumptions C189_lists_are_json.

(** A share with a routing is read; with a number for its round it is not. *)
Example C189_example :
  let q := String """"%char "" in
  let f (n v : string) := q ++ n ++ q ++ ":" ++ v in
  (exists v, document v (to_bytes ("{" ++ f "routing" ("{" ++ f "To" "[null]" ++ "," ++ f "IsBroadcast" "true" ++ "}") ++ "," ++ f "Message" "[1,2]" ++ "}")) /\ share_value v) /\
  ~ (exists v, document v (to_bytes ("{" ++ f "round_info" "1" ++ "}")) /\ share_value v).
Proof.
  cbn zeta. destruct (C189_payloads_are_json 0 "" (to_bytes ("{" ++ String """"%char "" ++ "round_info" ++ String """"%char "" ++ ":1}"))) as [H _].
  split.
  - destruct (C189_payloads_are_json 0 "" (to_bytes ("{" ++ String """"%char "" ++ "routing" ++ String """"%char "" ++ ":{" ++ String """"%char "" ++ "To" ++ String """"%char "" ++ ":[null]," ++ String """"%char "" ++ "IsBroadcast" ++ String """"%char "" ++ ":true}," ++ String """"%char "" ++ "Message" ++ String """"%char "" ++ ":[1,2]}"))) as [G _].
    apply G; [left; reflexivity|]. eexists. vm_compute. reflexivity.
  - intros X. apply H in X; [|left; reflexivity]. destruct X as [w X]. vm_compute in X. discriminate.
Qed.
