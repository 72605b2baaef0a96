(** C165: what is left out of a message, and numbers that do not fit. *)
From Coq Require Import ZArith NArith Ascii String List Lia.
From stdpp Require Import base list strings gmap.
From Verif Require Import Base L_Base M_Conv M_Batch M_Keygen M_KeySign M_Common M_Json S_Json L_JsonSpec M_Storage M_OutCh M_Wire M_Http S_Http L_Http P_Http.
Local Open Scope string_scope.

(** An object in which no field has the name [n], whatever the case of its letters. *)
Definition omits (n : string) (l : list (string * json)) : Prop := Forall (fun kv => ~ named (fst kv) n) l.

Lemma put_keeps {A B} (field : string -> json -> A -> option A) (get : A -> B) n l :
  forallb lowercase (to_bytes n) = true ->
  (forall name v x y, field name v x = Some y -> name <> n -> get y = get x) ->
  omits n l -> forall old x, put_struct field (JObj l) old = Some x -> get x = get old.
Proof.
  intros Hn Hf Hl. cbn. induction Hl as [|kv l Hkv Hl IH]; intros old x H; cbn in H; [congruence|].
  destruct (field (fold_name (fst kv)) (snd kv) old) as [y|] eqn:E.
  - rewrite (IH _ _ H). eapply Hf; [exact E|]. intros X. apply Hkv, named_iff; [exact Hn|]. apply String.eqb_eq, X.
  - exfalso. clear -H. induction l; cbn in H; [discriminate|auto].
Qed.
Lemma put_fails {A} (field : string -> json -> A -> option A) kv l :
  kv ∈ l -> (forall x, field (fold_name (fst kv)) (snd kv) x = None) -> forall old, put_struct field (JObj l) old = None.
Proof.
  intros Hin Hf. cbn.
  assert (N : forall l, fold_left (fun acc kv => match acc with None => None | Some x => field (fold_name (fst kv)) (snd kv) x end) l None = None)
    by (intros l'; induction l'; auto).
  induction Hin as [kv l|kv kv' l Hin IH]; intros old; cbn.
  - rewrite Hf. apply N.
  - destruct (field (fold_name (fst kv')) (snd kv') old); [exact (IH Hf _)|apply N].
Qed.

Ltac keeps := intros name v x y; 
  unfold wrapped_field, control_field, confirm_field, wmsg_field, routing_field, bmsg_field, done_field;
  repeat match goal with |- context [String.eqb name ?n] => destruct (String.eqb_spec name n) as [->|?] end;
  repeat match goal with |- context [match ?o with Some _ => _ | None => _ end] => destruct o end;
  intros X Y; try discriminate X; try congruence; injection X as <-; try reflexivity; congruence.

(** A frame that does not say what it is is taken for a share of a key generation, for the
    request with the empty id, with an empty payload. *)
Theorem C165_frame_without_a_field :
  forall b l w, document (JObj l) b -> wrapped_dec b = Some w ->
    (omits "message_type" l -> type_of (wr_type w) = TSSKeyGenMsg) /\
    (omits "message_id" l -> wr_id w = "") /\
    (omits "payload" l -> wr_payload w = []).
Proof.
  intros b l w Hj%json_dec_iff. unfold wrapped_dec, unmarshal. rewrite Hj. intros H. repeat split; intros Hl.
  - assert (X : wr_type w = 0%N).
    { refine (put_keeps wrapped_field wr_type "message_type" l eq_refl _ Hl (Wrapped 0 "" []) w H). keeps. }
    rewrite X. reflexivity.
  - refine (put_keeps wrapped_field wr_id "message_id" l eq_refl _ Hl (Wrapped 0 "" []) w H). keeps.
  - refine (put_keeps wrapped_field wr_payload "payload" l eq_refl _ Hl (Wrapped 0 "" []) w H). keeps.
Qed.
Print Assumptions C165_frame_without_a_field.

(** A routing that does not say it is a broadcast is taken for a unicast, which no other peer
    has to confirm; a share without a routing has no sender, one without a signature an empty one. *)
Theorem C165_share_without_a_field :
  (forall l old r, put_routing (JObj l) old = Some (Some r) -> old = None ->
     (omits "isbroadcast" l -> r_bcast (routing_of r) = false) /\
     (omits "to" l -> r_to (routing_of r) = []) /\
     (omits "from" l -> r_from (routing_of r) = FNil)) /\
  (forall b l w, document (JObj l) b -> wmsg_dec b = Some w ->
     (omits "routing" l -> w_routing (wire_of w) = None) /\
     (omits "round_info" l -> w_round (wire_of w) = "") /\
     (omits "message" l -> w_body (wire_of w) = []) /\
     (omits "signature" l -> w_sig (wire_of w) = [])).
Proof.
  split.
  - intros l old r H ->. cbn in H.
    destruct (fold_left _ l (Some (MRouting None [] false false false))) as [r'|] eqn:E; [|discriminate].
    injection H as <-.
    assert (H : put_struct routing_field (JObj l) (MRouting None [] false false false) = Some r') by exact E.
    repeat split; intros Hl; cbn.
    + refine (put_keeps routing_field mr_bcast "isbroadcast" l eq_refl _ Hl _ _ H). keeps.
    + assert (X : mr_to r' = []) by (refine (put_keeps routing_field mr_to "to" l eq_refl _ Hl _ _ H); keeps).
      rewrite X. reflexivity.
    + assert (X : mr_from r' = None) by (refine (put_keeps routing_field mr_from "from" l eq_refl _ Hl _ _ H); keeps).
      rewrite X. reflexivity.
  - intros b l w Hj%json_dec_iff. unfold wmsg_dec, unmarshal. rewrite Hj. intros H. repeat split; intros Hl; cbn.
    + assert (X : wm_routing w = None) by (refine (put_keeps wmsg_field wm_routing "routing" l eq_refl _ Hl _ _ H); keeps).
      rewrite X. reflexivity.
    + refine (put_keeps wmsg_field wm_round "round_info" l eq_refl _ Hl _ _ H). keeps.
    + refine (put_keeps wmsg_field wm_body "message" l eq_refl _ Hl _ _ H). keeps.
    + refine (put_keeps wmsg_field wm_sig "signature" l eq_refl _ Hl _ _ H). keeps.
Qed.
Print Assumptions C165_share_without_a_field.

(** Confirmations, requests for shares and end-of-task notices likewise. *)
Theorem C165_others_without_a_field :
  (forall b l c, document (JObj l) b -> confirm_dec b = Some c ->
     (omits "key" l -> v_key c = "") /\ (omits "hash" l -> v_hash c = "")) /\
  (forall b l c, document (JObj l) b -> control_dec b = Some c ->
     (omits "reqest_hash" l -> tc_hash c = "") /\ (omits "request_key" l -> tc_key c = "") /\
     (omits "request_type" l -> type_of (tc_type c) = TSSKeyGenMsg) /\ (omits "message_body" l -> tc_msg c = None)) /\
  (forall b l d, document (JObj l) b -> done_dec b = Some d -> omits "task_done" l -> d = false).
Proof.
  split; [|split].
  - intros b l c Hj%json_dec_iff. unfold confirm_dec, unmarshal. rewrite Hj. intros H. repeat split; intros Hl.
    + refine (put_keeps confirm_field v_key "key" l eq_refl _ Hl _ _ H). keeps.
    + refine (put_keeps confirm_field v_hash "hash" l eq_refl _ Hl _ _ H). keeps.
  - intros b l c Hj%json_dec_iff. unfold control_dec, unmarshal. rewrite Hj. intros H. repeat split; intros Hl.
    + refine (put_keeps control_field tc_hash "reqest_hash" l eq_refl _ Hl _ _ H). keeps.
    + refine (put_keeps control_field tc_key "request_key" l eq_refl _ Hl _ _ H). keeps.
    + assert (X : tc_type c = 0%N) by (refine (put_keeps control_field tc_type "request_type" l eq_refl _ Hl _ _ H); keeps).
      rewrite X. reflexivity.
    + refine (put_keeps control_field tc_msg "message_body" l eq_refl _ Hl _ _ H). keeps.
  - intros b l d Hj%json_dec_iff. unfold done_dec, unmarshal. rewrite Hj. intros H Hl.
    refine (put_keeps done_field (fun d => d) "task_done" l eq_refl _ Hl _ _ H). keeps.
Qed.
Print Assumptions C165_others_without_a_field.

(** A type that is not a number from 0 to 255 makes the whole message unreadable. *)
Theorem C165_type_out_of_range :
  forall b l k z, document (JObj l) b -> (k, JNum z) ∈ l -> (z < 0 \/ 255 < z)%Z ->
    (named k "message_type" -> wrapped_dec b = None) /\
    (named k "request_type" -> control_dec b = None).
Proof.
  intros b l k z Hj%json_dec_iff Hin Hz.
  assert (P : forall old, put_uint8 (JNum z) old = None).
  { intros old. cbn. destruct (Z.leb_spec 0 z), (Z.ltb_spec z 256); cbn; try reflexivity. lia. }
  split; intros Hk; apply named_iff, String.eqb_eq in Hk; try reflexivity.
  - unfold wrapped_dec, unmarshal. rewrite Hj. eapply put_fails; [exact Hin|]. intros x. cbn [fst snd].
    rewrite Hk. unfold wrapped_field. cbn [String.eqb Ascii.eqb Bool.eqb]. rewrite P. reflexivity.
  - unfold control_dec, unmarshal. rewrite Hj. eapply put_fails; [exact Hin|]. intros x. cbn [fst snd].
    rewrite Hk. unfold control_field. cbn [String.eqb Ascii.eqb Bool.eqb]. rewrite P. reflexivity.
Qed.
Print Assumptions C165_type_out_of_range.

(** What a client leaves out of a request is empty or zero, and the request goes ahead. *)
Theorem C165_request_without_a_field :
  forall keygen keysign peer metrics b l,
    begins (JObj l) b ->
    (forall q, fst (serve keygen keysign peer metrics (HReq "POST" "/keygen" b)) = Some q ->
       exists keys h v, q = KeygenReq keys h v /\
         (omits "keys" l -> keys = []) /\ (omits "block_height" l -> h = 0%Z) /\ (omits "tss_version" l -> v = "")) /\
    (forall q, fst (serve keygen keysign peer metrics (HReq "POST" "/keysign" b)) = Some q ->
       exists pool msgs signers h v, q = KeysignReq pool msgs signers h v /\
         (omits "pool_pub_key" l -> pool = "") /\ (omits "messages" l -> msgs = []) /\
         (omits "signer_pub_keys" l -> signers = []) /\
         (omits "block_height" l -> h = 0%Z) /\ (omits "tss_version" l -> v = "")).
Proof.
  intros keygen keysign peer metrics b l Hj.
  assert (Hf : first_value b = Some (JObj l)) by (apply first_value_iff; eauto).
  assert (On : forall n (kv : string * json), forallb lowercase (to_bytes n) = true -> ~ named (fst kv) n -> String.eqb (fold_name (fst kv)) n = false).
  { intros n kv Hn H. destruct (String.eqb (fold_name (fst kv)) n) eqn:E; [|reflexivity]. apply named_iff in E; [contradiction|exact Hn]. }
  split; intros q.
  - rewrite serve_keygen. unfold keygenHandler. cbn [h_method h_body negb]. change (String.eqb "POST" "POST") with true. cbn [negb].
    unfold keygen_request. rewrite Hf.
    destruct (fold_left put_keygen l _) as [[[keys h] v]|] eqn:F; [|discriminate].
    destruct (keygen _). intros [= <-]. exists keys, h, v. split; [reflexivity|].
    assert (G : forall l k0 h0 v0, fold_left put_keygen l (Some (k0, h0, v0)) = Some (keys, h, v) ->
              (omits "keys" l -> keys = k0) /\ (omits "block_height" l -> h = h0) /\ (omits "tss_version" l -> v = v0)).
    { clear -On. induction l as [|kv l IH]; intros k0 h0 v0 F; [injection F as -> -> ->; auto|]. cbn [fold_left] in F.
      destruct (put_keygen (Some (k0, h0, v0)) kv) as [[[k1 h1] v1]|] eqn:P.
      2:{ exfalso. clear -F. induction l; cbn in F; [discriminate|auto]. }
      destruct (IH _ _ _ F) as (A1 & A2 & A3). cbn in P.
      split; [|split]; intros O; inversion O as [|? ? O1 O2]; subst; apply On in O1; try reflexivity; rewrite O1 in P;
        [rewrite (A1 O2)|rewrite (A2 O2)|rewrite (A3 O2)];
        repeat match type of P with context [if ?c then _ else _] => destruct c | context [match ?o with Some _ => _ | None => _ end] => destruct o end;
        congruence. }
    exact (G l [] 0%Z "" F).
  - rewrite serve_keysign. unfold keySignHandler. cbn [h_method h_body]. change (String.eqb "POST" "POST") with true. cbn [negb].
    unfold keysign_request. rewrite Hf.
    destruct (fold_left put_keysign l _) as [[[[[pool msgs] signers] h] v]|] eqn:F; [|discriminate].
    destruct (keysign _). intros [= <-]. exists pool, msgs, signers, h, v. split; [reflexivity|].
    assert (G : forall l p0 m0 s0 h0 v0, fold_left put_keysign l (Some (p0, m0, s0, h0, v0)) = Some (pool, msgs, signers, h, v) ->
              (omits "pool_pub_key" l -> pool = p0) /\ (omits "messages" l -> msgs = m0) /\ (omits "signer_pub_keys" l -> signers = s0) /\
              (omits "block_height" l -> h = h0) /\ (omits "tss_version" l -> v = v0)).
    { clear -On. induction l as [|kv l IH]; intros p0 m0 s0 h0 v0 F; [injection F as -> -> -> -> ->; auto|]. cbn [fold_left] in F.
      destruct (put_keysign (Some (p0, m0, s0, h0, v0)) kv) as [[[[[p1 m1] s1] h1] v1]|] eqn:P.
      2:{ exfalso. clear -F. induction l; cbn in F; [discriminate|auto]. }
      destruct (IH _ _ _ _ _ F) as (A1 & A2 & A3 & A4 & A5). cbn in P.
      split; [|split; [|split; [|split]]]; intros O; inversion O as [|? ? O1 O2]; subst; apply On in O1; try reflexivity; rewrite O1 in P;
        [rewrite (A1 O2)|rewrite (A2 O2)|rewrite (A3 O2)|rewrite (A4 O2)|rewrite (A5 O2)];
        repeat match type of P with context [if ?c then _ else _] => destruct c | context [match ?o with Some _ => _ | None => _ end] => destruct o end;
        congruence. }
    exact (G l "" [] [] 0%Z "" F).
Qed.
Print Assumptions C165_request_without_a_field.
Example C165_request_example :
  let srv := serve (fun _ => (empty_kresp, true)) (fun _ => (empty_resp, true)) "p" (fun _ => HAns 200 []) in
  document (JObj []) (to_bytes "{}") /\ begins (JObj []) (to_bytes "{} {") /\
  fst (srv (HReq "POST" "/keysign" (to_bytes "{}"))) = Some (KeysignReq "" [] [] 0 "") /\
  fst (srv (HReq "POST" "/keysign" (to_bytes "null"))) = Some (KeysignReq "" [] [] 0 "") /\
  fst (srv (HReq "POST" "/keygen" (to_bytes "null"))) = Some (KeygenReq [] 0 "").
Proof.
  cbn zeta. split; [apply json_dec_iff; vm_compute; reflexivity|]. split; [apply first_value_iff; [eauto|vm_compute; reflexivity]|]. vm_compute. auto.
Qed.

Example C165_example :
  let q := String """"%char "" in
  let f (n v : string) := q ++ n ++ q ++ ":" ++ v in
  wrapped_dec (to_bytes "{}") = Some (Wrapped 0 "" []) /\
  wrapped_dec (to_bytes ("{" ++ f "MESSAGE_id" (q ++ "x" ++ q) ++ "," ++ f "payload" "[null,65]" ++ "}")) =
    Some (Wrapped 0 "x" ["000"; "A"]%char) /\
  wrapped_dec (to_bytes ("{" ++ f "message_type" "255" ++ "}")) = Some (Wrapped 255 "" []) /\
  wrapped_dec (to_bytes ("{" ++ f "message_type" "256" ++ "}")) = None /\
  wrapped_dec (to_bytes ("{" ++ f "message_type" "-1" ++ "}")) = None /\
  wmsg_dec (to_bytes ("{" ++ f "routing" "{}" ++ "}")) = Some (WMsg (Some (MRouting None [] false false false)) "" [] []).
Proof. vm_compute. auto 10. Qed.
(** A name with a kelvin sign for its k, or a long s for an s, is still that name. *)
Example C165_example_names :
  let q := String """"%char "" in
  named (of_bytes (map ascii_of_nat [226; 132; 170] ++ to_bytes "EYs")) "keys" /\
  ~ named (of_bytes (map ascii_of_nat [226; 132; 171] ++ to_bytes "eys")) "keys" /\
  wrapped_dec (to_bytes ("{" ++ q ++ "me\u017FsAge_id" ++ q ++ ":" ++ q ++ "x" ++ q ++ "}")) = Some (Wrapped 0 "x" []).
Proof.
  cbn zeta. split; [apply named_iff; vm_compute; reflexivity|]. split; [|vm_compute; reflexivity].
  intros H. apply named_iff in H; [vm_compute in H; discriminate|reflexivity].
Qed.
