(** C195: what a message or a request says is what its JSON says. *)
From Coq Require Import ZArith NArith Ascii String List Lia.
From stdpp Require Import base list strings gmap.
From Verif Require Import Base L_Base M_Base64 S_Base64 P_Base64 M_Conv M_Batch M_Keygen M_KeySign M_Common M_Json S_Json L_JsonSpec M_Storage
  M_OutCh M_Wire M_Http S_Http L_Http P_Http P_Json.
Local Open Scope string_scope.

(** ** Vocabulary *)

(** Values as texts, bytes, numbers, truth values, byte strings and lists of texts. *)
Definition text_read (v : json) (s : string) : Prop := v = JStr s.
Definition byte_read (v : json) (n : N) : Prop := v = JNum (Z.of_N n).
Definition number_read (v : json) (z : Z) : Prop := v = JNum z.
Definition bool_read (v : json) (b : bool) : Prop := v = JBool b.
Definition bytes_read (v : json) (b : bytes) : Prop :=
  (v = JNull /\ b = []) \/ (exists s, v = JStr s /\ decodes_to (to_bytes s) b) \/
  (exists l, v = JArr l /\ Forall2 (fun x c => (x = JNull /\ c = "000"%char) \/ x = JNum (Z.of_N (N_of_ascii c))) l b).
Definition texts_read (v : json) (l : list string) : Prop :=
  (v = JNull /\ l = []) \/ exists vs, v = JArr vs /\ Forall2 (fun x s => (x = JNull /\ s = "") \/ x = JStr s) vs l.

(** The fields with the name [n] say [x]: the last one that says anything does, or none
    does and [x] is [zero]. Those in [keeps] say nothing. *)
Definition says {B} (keeps : json -> Prop) (R : json -> B -> Prop) (zero : B) (n : string) (l : list (string * json)) (x : B) : Prop :=
  (exists l1 k v l2, l = (l1 ++ (k, v) :: l2)%list /\ named k n /\ R v x /\ Forall (fun kv => named (fst kv) n -> keeps (snd kv)) l2) \/
  (Forall (fun kv => named (fst kv) n -> keeps (snd kv)) l /\ x = zero).
(** A null says nothing about a text, a number or a truth value; it empties a list. *)
Definition null (v : json) : Prop := v = JNull.
Definition never (v : json) : Prop := False.
Definition says_text := says null text_read "".
Definition says_byte := says null byte_read 0%N.
Definition says_number := says null number_read 0%Z.
Definition says_bool := says null bool_read false.
(** encoding/json reads an array into what an earlier field of the same name left, and a
    null in it leaves an element as it was. The model does not have this, so lists are
    looked at where it makes no difference: the name stands once, or there are no nulls
    in its arrays. *)
Definition clear (n : string) (l : list (string * json)) : Prop :=
  (forall l1 k v l2, l = (l1 ++ (k, v) :: l2)%list -> named k n -> Forall (fun kv => ~ named (fst kv) n) (l1 ++ l2)%list) \/
  Forall (fun kv => named (fst kv) n -> forall vs, snd kv = JArr vs -> JNull ∉ vs) l.
Definition says_bytes n l x : Prop := clear n l -> says never bytes_read [] n l x.
Definition says_texts n l x : Prop := clear n l -> says never texts_read [] n l x.

(** What the fields with the name [n] say of a structure that may be missing: a null
    takes it away, and the fields of an object come after those it already has. *)
Inductive merges (n : string) : list (string * json) -> option (list (string * json)) -> Prop :=
  | merges_nil : merges n [] None
  | merges_other l o k v : merges n l o -> ~ named k n -> merges n (l ++ [(k, v)])%list o
  | merges_null l o k : merges n l o -> named k n -> merges n (l ++ [(k, JNull)])%list None
  | merges_object l o k m : merges n l o -> named k n -> merges n (l ++ [(k, JObj m)])%list (Some (default [] o ++ m)%list).
Definition says_ptr {A} (n : string) (says_it : list (string * json) -> A -> Prop) (l : list (string * json)) (x : option A) : Prop :=
  exists o, merges n l o /\ match x, o with None, None => True | Some a, Some m => says_it m a | _, _ => False end.
Definition says_party (l : list (string * json)) (p : party) : Prop :=
  says_number "index" l (pa_index p) /\
  says_text "id" l (pp_id (default (PParty "" "" []) (pa_in p))) /\
  says_text "moniker" l (pp_moniker (default (PParty "" "" []) (pa_in p))) /\
  says_bytes "key" l (pp_key (default (PParty "" "" []) (pa_in p))) /\
  (pa_in p = None <-> Forall (fun kv => ~ named (fst kv) "id" /\ ~ named (fst kv) "moniker" /\ ~ named (fst kv) "key") l).
Definition says_routing (l : list (string * json)) (r : mrouting) : Prop :=
  says_bool "isbroadcast" l (mr_bcast r) /\ says_bool "istooldcommittee" l (mr_old r) /\
  says_bool "istooldandnewcommittees" l (mr_both r) /\ says_ptr "from" says_party l (mr_from r).
Definition says_share (l : list (string * json)) (w : wmsg) : Prop :=
  says_text "round_info" l (wm_round w) /\ says_bytes "message" l (wm_body w) /\ says_bytes "signature" l (wm_sig w) /\
  says_ptr "routing" says_routing l (wm_routing w).

(** ** Reading field by field *)
Lemma says_fold {A B} (F : option A -> string * json -> option A) (get : A -> B) keeps R n init :
  forallb lowercase (to_bytes n) = true -> (forall kv, F None kv = None) ->
  (forall kv x y, F (Some x) kv = Some y ->
     (fold_name (fst kv) = n -> (keeps (snd kv) /\ get y = get x) \/ R (snd kv) (get y)) /\
     (fold_name (fst kv) <> n -> get y = get x)) ->
  forall l x, fold_left F l (Some init) = Some x -> says keeps R (get init) n l (get x).
Proof.
  intros Hn HN HF l. induction l as [|[k v] l IH] using rev_ind; intros x; [cbn; intros [= <-]; right; split; [constructor|reflexivity]|].
  rewrite fold_left_app. cbn [fold_left]. destruct (fold_left F l (Some init)) as [y|]; [|rewrite HN; discriminate].
  intros H. specialize (IH _ eq_refl). destruct (HF _ _ _ H) as [H1 H2]. cbn [fst snd] in *.
  assert (Hk : fold_name k = n <-> named k n) by (rewrite <- (named_iff k n Hn), String.eqb_eq; reflexivity).
  assert (Hold : (named k n -> keeps v) -> get x = get y -> says keeps R (get init) n (l ++ [(k, v)]) (get x)).
  { intros Hv Hx. rewrite Hx. destruct IH as [(l1 & k' & v' & l2 & -> & A1 & A2 & A3)|[A1 A2]].
    - left. exists l1, k', v', (l2 ++ [(k, v)])%list. rewrite <- app_assoc. split; [reflexivity|]. split; [exact A1|]. split; [exact A2|].
      apply Forall_app_2; [exact A3|]. constructor; [exact Hv|constructor].
    - right. split; [|exact A2]. apply Forall_app_2; [exact A1|]. constructor; [exact Hv|constructor]. }
  destruct (decide (fold_name k = n)) as [E|E].
  - destruct (H1 E) as [[K1 K2]|HR]; [apply Hold; auto|]. left. exists l, k, v, []. split; [reflexivity|]. split; [apply Hk; exact E|]. split; [exact HR|constructor].
  - apply Hold; [intros X; apply Hk in X; contradiction|apply H2; exact E].
Qed.

Definition into {A} (field : string -> json -> A -> option A) (acc : option A) (kv : string * json) : option A :=
  match acc with None => None | Some x => field (fold_name (fst kv)) (snd kv) x end.
Lemma string_says v old x : put_string v old = Some x -> (null v /\ x = old) \/ text_read v x.
Proof. destruct v; intros [= <-]; [left; split; reflexivity|right; reflexivity]. Qed.
Lemma uint8_says v old x : put_uint8 v old = Some x -> (null v /\ x = old) \/ byte_read v x.
Proof.
  destruct v as [| |z| | | |]; try discriminate; [intros [= <-]; left; split; reflexivity|]. cbn [put_uint8].
  destruct (Z.leb_spec 0 z); [|discriminate]. destruct (Z.ltb_spec z 256); [|discriminate]. intros [= <-]. right. unfold byte_read. rewrite Z2N.id by assumption. reflexivity.
Qed.
Lemma int64_says v old x : put_int64 v old = Some x -> (null v /\ x = old) \/ number_read v x.
Proof.
  destruct v as [| |z| | | |]; try discriminate; [intros [= <-]; left; split; reflexivity|]. cbn [put_int64].
  destruct (_ && _)%bool; [|discriminate]. intros [= <-]. right. reflexivity.
Qed.
Lemma bool_says v old x : put_bool v old = Some x -> (null v /\ x = old) \/ bool_read v x.
Proof. destruct v; intros [= <-]; [left; split; reflexivity|right; reflexivity]. Qed.
Lemma bytes_says v x old : put_bytes v = Some x -> (never v /\ x = old) \/ bytes_read v x.
Proof.
  intros H. right. unfold bytes_read. destruct v as [| | |s|l| |]; try discriminate.
  - left. injection H as <-. auto.
  - right. left. exists s. split; [reflexivity|]. apply C181_decodes_exactly, H.
  - right. right. exists l. split; [reflexivity|]. cbn [put_bytes] in H. revert x H. induction l as [|v l IH]; intros x H; [injection H as <-; constructor|].
    cbn [put_elems] in H. destruct (put_uint8 v 0) as [c|] eqn:Ev; [|discriminate]. destruct (put_elems _ l) as [t|]; [|discriminate]. injection H as <-.
    cbn [map]. constructor; [|apply IH; reflexivity].
    destruct (uint8_says _ _ _ Ev) as [[-> ->]|Hb]; [left; split; reflexivity|right]. rewrite Hb in Ev |- *. cbn [put_uint8] in Ev.
    destruct (Z.leb_spec 0 (Z.of_N c)); [|discriminate]. destruct (Z.ltb_spec (Z.of_N c) 256); [|discriminate]. rewrite N_ascii_embedding by lia. reflexivity.
Qed.
Lemma texts_says v x old : put_list v = Some x -> (never v /\ x = old) \/ texts_read v x.
Proof.
  intros H. right. unfold texts_read. destruct v as [| | | |l| |]; try discriminate; [left; injection H as <-; auto|].
  right. exists l. split; [reflexivity|]. cbn [put_list] in H. revert x H. induction l as [|v l IH]; intros x H; [injection H as <-; constructor|].
  cbn [put_strings] in H. destruct (put_string v "") as [s|] eqn:Ev; [|discriminate]. destruct (put_strings l) as [t|]; [|discriminate]. injection H as <-.
  constructor; [|apply IH; reflexivity]. destruct (string_says _ _ _ Ev) as [[-> ->]|Hb]; [left; split; reflexivity|right; exact Hb].
Qed.

(** One field of a structure. *)
Ltac one L :=
  let kv := fresh "kv" in let x := fresh "x" in let y := fresh "y" in
  intros [k u] x y; cbn [fst snd];
  try destruct x as [[[[? ?] ?] ?] ?]; try destruct x as [[? ?] ?];
  unfold into, party_field, routing_field, wrapped_field, confirm_field, control_field, done_field, wmsg_field, put_keygen, put_keysign; cbn [fst snd];
  repeat match goal with |- context [String.eqb (fold_name k) ?m] => destruct (String.eqb_spec (fold_name k) m) as [EE|?]; [try rewrite EE in *|] end;
  repeat match goal with |- context [match ?o with Some _ => _ | None => _ end] => destruct o eqn:? end;
  let X := fresh "X" in
  intros X; try discriminate X; try injection X as <-;
  (split; [intros Y; try (exfalso; congruence); try discriminate Y;
           try (eapply L; eassumption)
          |intros Y; try reflexivity; congruence]).

Ltac field get init H L :=
  unfold says_bytes, says_texts;
  try (intros _);
  match goal with |- _ ?n ?l _ => refine (says_fold _ get _ _ n init eq_refl (fun _ => eq_refl) _ l _ H) end; one L.

(** ** C195. Every field of a message that could be read is what the last field of that
    name in its JSON says, whatever the spelling of the name, and zero if none says
    anything. *)
Theorem C195_messages_say :
  (forall b l w, document (JObj l) b -> wrapped_dec b = Some w ->
     says_byte "message_type" l (wr_type w) /\ says_text "message_id" l (wr_id w) /\ says_bytes "payload" l (wr_payload w)) /\
  (forall b l w, document (JObj l) b -> wmsg_dec b = Some w ->
     says_text "round_info" l (wm_round w) /\ says_bytes "message" l (wm_body w) /\ says_bytes "signature" l (wm_sig w)) /\
  (forall b l c, document (JObj l) b -> confirm_dec b = Some c ->
     says_text "p2pid" l (v_p2p c) /\ says_text "key" l (v_key c) /\ says_text "hash" l (v_hash c)) /\
  (forall b l c, document (JObj l) b -> control_dec b = Some c ->
     says_text "reqest_hash" l (tc_hash c) /\ says_text "request_key" l (tc_key c) /\ says_byte "request_type" l (tc_type c)) /\
  (forall b l d, document (JObj l) b -> done_dec b = Some d -> says_bool "task_done" l d).
Proof.
  split; [|split; [|split; [|split]]]; intros b l w Hj%json_dec_iff H.
  - unfold wrapped_dec, unmarshal in H. rewrite Hj in H. cbn [put_struct] in H. split; [|split].
    + field wr_type (Wrapped 0 "" []) H uint8_says.
    + field wr_id (Wrapped 0 "" []) H string_says.
    + field wr_payload (Wrapped 0 "" []) H bytes_says.
  - unfold wmsg_dec, unmarshal in H. rewrite Hj in H. cbn [put_struct] in H. split; [|split].
    + field wm_round wmsg_zero H string_says.
    + field wm_body wmsg_zero H bytes_says.
    + field wm_sig wmsg_zero H bytes_says.
  - unfold confirm_dec, unmarshal in H. rewrite Hj in H. cbn [put_struct] in H. split; [|split].
    + field v_p2p (Confirm "" "" "") H string_says.
    + field v_key (Confirm "" "" "") H string_says.
    + field v_hash (Confirm "" "" "") H string_says.
  - unfold control_dec, unmarshal in H. rewrite Hj in H. cbn [put_struct] in H. split; [|split].
    + field tc_hash (TControl "" "" 0 None) H string_says.
    + field tc_key (TControl "" "" 0 None) H string_says.
    + field tc_type (TControl "" "" 0 None) H uint8_says.
  - unfold done_dec, unmarshal in H. rewrite Hj in H. cbn [put_struct] in H.
    field (fun d : bool => d) false H bool_says.
Qed.
Print Assumptions C195_messages_say.

Theorem C195_requests_say :
  (forall b l keys h v, begins (JObj l) b -> keygen_request b = Some (KeygenReq keys h v) ->
     says_texts "keys" l keys /\ says_number "block_height" l h /\ says_text "tss_version" l v) /\
  (forall b l pool msgs signers h v, begins (JObj l) b -> keysign_request b = Some (KeysignReq pool msgs signers h v) ->
     says_text "pool_pub_key" l pool /\ says_texts "messages" l msgs /\ says_texts "signer_pub_keys" l signers /\
     says_number "block_height" l h /\ says_text "tss_version" l v).
Proof.
  split.
  - intros b l keys h v Hj H. apply first_value_iff in Hj; [|eauto]. unfold keygen_request in H. rewrite Hj in H.
    destruct (fold_left put_keygen l _) as [[[keys' h'] v']|] eqn:E; [|discriminate]. injection H as -> -> ->.
    split; [|split].
    + field (fun x : list string * Z * string => fst (fst x)) (@nil string, 0%Z, "") E texts_says.
    + field (fun x : list string * Z * string => snd (fst x)) (@nil string, 0%Z, "") E int64_says.
    + field (fun x : list string * Z * string => snd x) (@nil string, 0%Z, "") E string_says.
  - intros b l pool msgs signers h v Hj H. apply first_value_iff in Hj; [|eauto]. unfold keysign_request in H. rewrite Hj in H.
    destruct (fold_left put_keysign l _) as [[[[[pool' msgs'] signers'] h'] v']|] eqn:E; [|discriminate]. injection H as -> -> -> -> ->.
    split; [|split; [|split; [|split]]].
    + field (fun x : string * list string * list string * Z * string => fst (fst (fst (fst x)))) ("", @nil string, @nil string, 0%Z, "") E string_says.
    + field (fun x : string * list string * list string * Z * string => snd (fst (fst (fst x)))) ("", @nil string, @nil string, 0%Z, "") E texts_says.
    + field (fun x : string * list string * list string * Z * string => snd (fst (fst x))) ("", @nil string, @nil string, 0%Z, "") E texts_says.
    + field (fun x : string * list string * list string * Z * string => snd (fst x)) ("", @nil string, @nil string, 0%Z, "") E int64_says.
    + field (fun x : string * list string * list string * Z * string => snd x) ("", @nil string, @nil string, 0%Z, "") E string_says.
Qed.
Print Assumptions C195_requests_say.


(** ** The structures within *)
Lemma ptr_fold {A B} (F : option A -> string * json -> option A) (get : A -> option B) field zero (says_it : list (string * json) -> B -> Prop) n init :
  forallb lowercase (to_bytes n) = true -> (forall kv, F None kv = None) -> get init = None ->
  (forall kv x y, F (Some x) kv = Some y ->
     (fold_name (fst kv) = n -> put_ptr field zero (snd kv) (get x) = Some (get y)) /\
     (fold_name (fst kv) <> n -> get y = get x)) ->
  (forall m b, fold_left (into field) m (Some zero) = Some b -> says_it m b) ->
  forall l x, fold_left F l (Some init) = Some x -> says_ptr n says_it l (get x).
Proof.
  intros Hn HN Hi HF Hs l x Hx.
  enough (G : exists o, merges n l o /\ match get x, o with None, None => True | Some a, Some m => fold_left (into field) m (Some zero) = Some a | _, _ => False end).
  { destruct G as (o & Ho & G). exists o. split; [exact Ho|]. destruct (get x), o; try exact G. apply Hs, G. }
  revert x Hx. induction l as [|[k v] l IH] using rev_ind; intros x.
  - cbn. intros [= <-]. exists None. rewrite Hi. split; [constructor|exact I].
  - rewrite fold_left_app. cbn [fold_left]. destruct (fold_left F l (Some init)) as [y|]; [|rewrite HN; discriminate].
    intros H. destruct (IH _ eq_refl) as (o & Ho & Hy). destruct (HF _ _ _ H) as [H1 H2]. cbn [fst snd] in *.
    assert (Hk : fold_name k = n <-> named k n) by (rewrite <- (named_iff k n Hn), String.eqb_eq; reflexivity).
    destruct (decide (fold_name k = n)) as [E|E].
    + specialize (H1 E). apply Hk in E. destruct v as [| | | | |m|]; cbn in H1; try discriminate H1.
      * injection H1 as <-. exists None. split; [eapply merges_null; eauto|exact I].
      * exists (Some (default [] o ++ m)%list). split; [eapply merges_object; eauto|].
        assert (Hb : fold_left (into field) m (Some (default zero (get y))) = fold_left (into field) (default [] o ++ m) (Some zero)).
        { rewrite fold_left_app. destruct (get y), o; cbn in *; try contradiction; [rewrite Hy; reflexivity|reflexivity]. }
        change (Some <$> fold_left (into field) m (Some (default zero (get y))) = Some (get x)) in H1. rewrite Hb in H1.
        destruct (fold_left (into field) (default [] o ++ m) (Some zero)) as [b|]; [|discriminate H1]. injection H1 as <-. reflexivity.
    + exists o. rewrite (H2 E). split; [|exact Hy]. apply merges_other; [exact Ho|]. rewrite <- Hk. exact E.
Qed.
Ltac nested getter init H lem :=
  match goal with |- says_ptr ?n _ _ _ =>
    refine (ptr_fold _ getter _ _ _ n init eq_refl _ eq_refl _ lem _ _ H); [intros; reflexivity|];
    clear H; intros [k v] x y G; cbn [fst snd] in *; unfold into in G; cbn [fst snd] in G; split; intros E
  end.

Ltac subst_name E G := rewrite E in G.
Ltac others G :=
  unfold routing_field, wmsg_field, control_field in G;
  repeat match type of G with context[String.eqb ?a ?b] => destruct (String.eqb_spec a b); [try contradiction|] end;
  repeat match type of G with match ?e with _ => _ end = _ => destruct e; try discriminate G end; injection G as <-; reflexivity.
Lemma party_says m p : fold_left (into party_field) m (Some (Party None 0)) = Some p -> says_party m p.
Proof.
  intros H. split; [|split; [|split; [|split]]].
  - field pa_index (Party None 0) H int64_says.
  - field (fun p => pp_id (default (PParty "" "" []) (pa_in p))) (Party None 0) H string_says.
  - field (fun p => pp_moniker (default (PParty "" "" []) (pa_in p))) (Party None 0) H string_says.
  - field (fun p => pp_key (default (PParty "" "" []) (pa_in p))) (Party None 0) H bytes_says.
  - revert p H. induction m as [|[k v] m IH] using rev_ind; intros p; [cbn; intros [= <-]; split; [constructor|reflexivity]|].
    rewrite fold_left_app. cbn [fold_left]. destruct (fold_left (into party_field) m _) as [q|]; [|discriminate]. specialize (IH _ eq_refl).
    cbn. intros H. rewrite Forall_app, Forall_cons, <- IH. cbn [fst].
    rewrite <- (named_iff k "id" eq_refl), <- (named_iff k "moniker" eq_refl), <- (named_iff k "key" eq_refl), !String.eqb_eq.
    unfold party_field in H. repeat match type of H with context[String.eqb ?a ?b] => destruct (String.eqb_spec a b) end;
    repeat match type of H with match ?e with _ => _ end = _ => destruct e; try discriminate H end; injection H as <-; cbn [pa_in];
    (split; [intros HH; try discriminate HH; split_and!; auto; constructor|intros (A1 & (A2 & A3 & A4) & _); try contradiction; try exact A1]).
Qed.
Lemma routing_says m r : fold_left (into routing_field) m (Some (MRouting None [] false false false)) = Some r -> says_routing m r.
Proof.
  intros H. split; [|split; [|split]].
  - field mr_bcast (MRouting None [] false false false) H bool_says.
  - field mr_old (MRouting None [] false false false) H bool_says.
  - field mr_both (MRouting None [] false false false) H bool_says.
  - nested mr_from (MRouting None [] false false false) H party_says.
    + subst_name E G. unfold routing_field in G. cbn in G. fold (put_party v (mr_from x)). destruct (put_party v (mr_from x)); [|discriminate G]. injection G as <-. reflexivity.
    + others G.
Qed.
Lemma share_says m w : fold_left (into wmsg_field) m (Some wmsg_zero) = Some w -> says_share m w.
Proof.
  intros H. split; [|split; [|split]].
  - field wm_round wmsg_zero H string_says.
  - field wm_body wmsg_zero H bytes_says.
  - field wm_sig wmsg_zero H bytes_says.
  - nested wm_routing wmsg_zero H routing_says.
    + subst_name E G. unfold wmsg_field in G. cbn in G. fold (put_routing v (wm_routing x)). destruct (put_routing v (wm_routing x)); [|discriminate G]. injection G as <-. reflexivity.
    + others G.
Qed.
(** The routing of a share, its sender and the share in a control message are there
    unless the last field of that name is a null or there is none, and say what the
    objects given since the last null say. *)
Theorem C195_structures_say :
  (forall b l w, document (JObj l) b -> wmsg_dec b = Some w -> says_share l w) /\
  (forall b l c, document (JObj l) b -> control_dec b = Some c -> says_ptr "message_body" says_share l (tc_msg c)).
Proof.
  split; intros b l w Hj%json_dec_iff H.
  - unfold wmsg_dec, unmarshal in H. rewrite Hj in H. apply share_says. exact H.
  - unfold control_dec, unmarshal in H. rewrite Hj in H. cbn [put_struct] in H.
    nested tc_msg (TControl "" "" 0 None) H share_says.
    + subst_name E G. unfold control_field in G. cbn in G. destruct (put_ptr wmsg_field wmsg_zero v (tc_msg x)); [|discriminate G]. injection G as <-. reflexivity.
    + others G.
Qed.
Print Assumptions C195_structures_say.
(** A share whose routing is given, taken away and given again *)
Example C195_example_routing :
  let l := [("routing", JObj [("from", JObj [("id", JStr "a")]); ("isBroadcast", JBool true)]); ("Routing", JNull);
            ("routing", JObj [("isBroadcast", JNull)]); ("round_info", JStr "x"); ("ROUTING", JObj [("From", JObj [("Index", JNum 3)])])] in
  put_struct wmsg_field (JObj l) wmsg_zero = Some (WMsg (Some (MRouting (Some (Party None 3)) [] false false false)) "x" [] []) /\
  merges "routing" l (Some [("isBroadcast", JNull); ("From", JObj [("Index", JNum 3)])]).
Proof.
  cbn zeta. split; [vm_compute; reflexivity|].
  assert (N : forall k n, forallb lowercase (to_bytes n) = true -> String.eqb (fold_name k) n = true -> named k n) by (intros k n Hn Hk; apply (named_iff k n Hn); exact Hk).
  apply (merges_object "routing" [_; _; _; _] (Some [("isBroadcast", JNull)]) "ROUTING" [_]); [|apply N; reflexivity].
  apply (merges_other "routing" [_; _; _] _ "round_info"); [|rewrite <- named_iff by reflexivity; vm_compute; discriminate].
  apply (merges_object "routing" [_; _] None "routing" [_]); [|apply N; reflexivity].
  eapply (merges_null "routing" [_] _ "Routing"); [|apply N; reflexivity].
  apply (merges_object "routing" [] None "routing" _ (merges_nil _)). apply N; reflexivity.
Qed.

(** A frame that names its type twice: the second one counts, the null after it does not. *)
Example C195_example :
  let q := String """"%char "" in
  let f (n v : string) := q ++ n ++ q ++ ":" ++ v in
  let b := to_bytes ("{" ++ f "message_type" "1" ++ "," ++ f "Message_Type" "4" ++ "," ++ f "message_type" "null" ++ "," ++ f "payload" "[65,null]" ++ "}") in
  let l := [("message_type", JNum 1); ("Message_Type", JNum 4); ("message_type", JNull); ("payload", JArr [JNum 65; JNull])] in
  document (JObj l) b /\ wrapped_dec b = Some (Wrapped 4 "" ["A"%char; "000"%char]).
Proof. cbn zeta. split; [apply json_dec_iff; vm_compute; reflexivity|]. vm_compute. reflexivity. Qed.
Example C195_example_clear : clear "payload" [("message_type", JNum 1); ("payload", JArr [JNum 65; JNull])] /\
  clear "payload" [("payload", JStr "QQ=="); ("payload", JArr [JNum 65])].
Proof.
  assert (N : ~ named "message_type" "payload") by (rewrite <- named_iff by reflexivity; vm_compute; discriminate). split.
  - left. intros l1 k v l2 H Hk. destruct l1 as [|p1 [|p2 l1]]; cbn in H.
    + injection H as <- <- <-. contradiction.
    + injection H as H1 H2 H3 H4. subst. constructor; [exact N|constructor].
    + injection H as _ _ H. destruct l1; discriminate H.
  - right. repeat constructor; cbn [snd]; intros _ vs E; [discriminate E|]. injection E as <-. set_solver.
Qed.
