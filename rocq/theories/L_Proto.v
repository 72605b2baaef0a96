(** Lemmas about protocol buffers. *)
From Coq Require Import ZArith NArith Ascii String List Lia.
From stdpp Require Import base list strings.
From Verif Require Import Base L_Base M_Notifier M_Join M_Proto S_Proto L_Base64.
From Verif Require Export L_Utf8.

Local Open Scope N_scope.

(** ** Numbers *)

Lemma get_varint_SS f c r : get_varint_fuel (S (S f)) (c :: r) =
  if byte_val c <? 128 then Some (byte_val c, r)
  else match get_varint_fuel (S f) r with
       | Some (v, r') => Some (byte_val c - 128 + 128 * v, r')
       | None => None
       end.
Proof. reflexivity. Qed.
Lemma get_put_varint_fuel f : forall v r, (0 < f)%nat -> v < 2 * 128 ^ N.of_nat (f - 1) ->
  get_varint_fuel f (put_varint_fuel f v ++ r) = Some (v, r).
Proof.
  induction f as [|f IH]; intros v r Hf Hv; [lia|]. clear Hf. cbn [put_varint_fuel].
  destruct (N.ltb_spec v 128) as [Hlt|Hge].
  - cbn [app]. cbn [get_varint_fuel]. rewrite byte_val_of by lia. destruct f as [|f].
    + rewrite (proj2 (N.ltb_lt v 2)); [reflexivity|]. cbn in Hv. lia.
    + rewrite (proj2 (N.ltb_lt v 128)) by lia. reflexivity.
  - destruct f as [|f].
    + cbn in Hv. lia.
    + assert (Hm : v mod 128 < 128) by (apply N.mod_lt; lia).
      change ((ascii_of_N (v mod 128 + 128) :: put_varint_fuel (S f) (v / 128)) ++ r)
        with (ascii_of_N (v mod 128 + 128) :: (put_varint_fuel (S f) (v / 128) ++ r)).
      rewrite get_varint_SS. rewrite byte_val_of by lia.
      rewrite (proj2 (N.ltb_ge (v mod 128 + 128) 128)) by lia.
      rewrite IH; [|lia|].
      * f_equal. f_equal. pose proof (N.div_mod v 128 ltac:(lia)). lia.
      * apply N.div_lt_upper_bound; [lia|].
        replace (N.of_nat (S (S f) - 1)) with (1 + N.of_nat (S f - 1)) in Hv by lia.
        rewrite N.pow_add_r in Hv. change (128 ^ 1) with 128 in Hv. lia.
Qed.
Lemma get_put_varint v r : v < 2 ^ 64 -> get_varint (put_varint v ++ r) = Some (v, r).
Proof. intros Hv. apply get_put_varint_fuel; [lia|]. exact Hv. Qed.

Lemma get_put_bytes b r : sized b ->
  get_bytes (put_varint (N.of_nat (length b)) ++ b ++ r) = Some (b, r).
Proof.
  intros Hs. unfold sized in Hs. unfold get_bytes.
  rewrite get_put_varint by (assert (2 ^ 60 < 2 ^ 64) by reflexivity; lia).
  rewrite app_length, Nat2N.inj_add, (proj2 (N.ltb_ge _ _)) by lia. rewrite Nat2N.id, take_app, drop_app. reflexivity.
Qed.

Lemma put_varint_small v : v < 128 -> put_varint v = [ascii_of_N v].
Proof. intros Hv. unfold put_varint. cbn [put_varint_fuel]. rewrite (proj2 (N.ltb_lt v 128)) by lia. reflexivity. Qed.
Lemma get_small v r : v < 128 -> get_varint (ascii_of_N v :: r) = Some (v, r).
Proof. intros Hv. unfold get_varint. cbn [get_varint_fuel]. rewrite byte_val_of by lia. rewrite (proj2 (N.ltb_lt v 128)) by lia. reflexivity. Qed.

(** ** Fields *)

Definition one_field (b : bytes) : option (N * pval * bytes) :=
  match get_varint b with
  | None => None
  | Some (tag, r) =>
      let num := tag / 8 in
      if ((num <? 1) || (536870911 <? num))%bool then None
      else
        let next (o : option (pval * bytes)) := match o with Some (v, r') => Some (num, v, r') | None => None end in
        let skip o := next match o with Some r' => Some (PSkipped, r') | None => None end in
        match tag mod 8 with
        | 0 => next match get_varint r with Some (v, r') => Some (PVarint v, r') | None => None end
        | 1 => skip (get_fixed 8 r)
        | 2 => next match get_bytes r with Some (v, r') => Some (PBytes v, r') | None => None end
        | 3 => skip (skip_group (length r) num r)
        | 5 => skip (get_fixed 4 r)
        | _ => None
        end
  end.
Lemma get_fields_cons f c b : get_fields (S f) (c :: b) =
  match one_field (c :: b) with
  | Some (num, v, r) => match get_fields f r with Some l => Some ((num, v) :: l) | None => None end
  | None => None
  end.
Proof.
  cbn [get_fields]. unfold one_field. destruct (get_varint (c :: b)) as [[tag r]|]; [|reflexivity]. cbv zeta.
  destruct ((tag / 8 <? 1) || (536870911 <? tag / 8))%bool; [reflexivity|].
  destruct (tag mod 8) as [|[[[p|p|]|[p|p|]|]|[[p|p|]|[p|p|]|]|]]; try reflexivity.
  - destruct (get_varint r) as [[? ?]|]; reflexivity.
  - destruct (get_fixed 4 r); reflexivity.
  - destruct (skip_group (length r) (tag / 8) r); reflexivity.
  - destruct (get_bytes r) as [[? ?]|]; reflexivity.
  - destruct (get_fixed 8 r); reflexivity.
Qed.
Lemma get_fields_S f b l : get_fields f b = Some l -> get_fields (S f) b = Some l.
Proof.
  revert b l. induction f as [|f IH]; intros b l H.
  - destruct b; [exact H|discriminate].
  - destruct b as [|c b]; [exact H|]. rewrite get_fields_cons in H |- *.
    destruct (one_field (c :: b)) as [[[num v] r]|]; [|discriminate].
    destruct (get_fields f r) as [l1|] eqn:E; [|discriminate]. rewrite (IH _ _ E). exact H.
Qed.
Lemma get_fields_mono f f' b l : (f <= f')%nat -> get_fields f b = Some l -> get_fields f' b = Some l.
Proof. intros Hle H. induction Hle; [exact H|]. apply get_fields_S. assumption. Qed.

(** The text [b] is the fields [l]. *)
Definition written (b : bytes) (l : list (N * pval)) : Prop :=
  (length l <= length b)%nat /\
  forall f r l', get_fields f r = Some l' -> get_fields (length l + f) (b ++ r) = Some (l ++ l').
Lemma written_nil : written [] [].
Proof. split; [reflexivity|]. intros f r l' H. exact H. Qed.
Lemma written_app b1 l1 b2 l2 : written b1 l1 -> written b2 l2 -> written (b1 ++ b2) (l1 ++ l2).
Proof.
  intros [Hl1 H1] [Hl2 H2]. split; [rewrite !app_length; lia|]. intros f r l' H.
  rewrite app_length, <- !app_assoc, <- Nat.add_assoc. apply H1, H2, H.
Qed.
Lemma written_fields b l : written b l -> proto_fields b = Some l.
Proof.
  intros [Hl H]. unfold proto_fields. specialize (H 0%nat [] [] eq_refl).
  rewrite !app_nil_r, Nat.add_0_r in H. eapply get_fields_mono; [|exact H]. exact Hl.
Qed.
Lemma tag_div num typ : typ < 8 -> (num * 8 + typ) / 8 = num /\ (num * 8 + typ) mod 8 = typ.
Proof.
  intros H. split.
  - rewrite N.add_comm, N.div_add, N.div_small by lia. lia.
  - rewrite N.add_comm, N.mod_add, N.mod_small by lia. reflexivity.
Qed.
Lemma written_bytes num b : 1 <= num < 16 -> sized b -> written (put_bytes num b) [(num, PBytes b)].
Proof.
  intros Hn Hs. unfold put_bytes, put_tag. rewrite put_varint_small by lia. split; [cbn; lia|].
  intros f r l' H. cbn [app length Nat.add]. rewrite <- app_assoc. cbn [get_fields].
  rewrite get_small by lia. destruct (tag_div num 2 ltac:(lia)) as [-> ->].
  rewrite (proj2 (N.ltb_ge num 1)) by lia. rewrite (proj2 (N.ltb_ge 536870911 num)) by lia. cbn [orb].
  rewrite get_put_bytes by exact Hs. rewrite H. reflexivity.
Qed.
Lemma written_nz num b : 1 <= num < 16 -> sized b ->
  written (put_bytes_nz num b) match b with [] => [] | _ => [(num, PBytes b)] end.
Proof. intros Hn Hs. destruct b; [apply written_nil|]. apply written_bytes; assumption. Qed.
Lemma written_enum num v : 1 <= num < 16 -> v < 2 ^ 31 ->
  written (put_enum_nz num v) (if v =? 0 then [] else [(num, PVarint v)]).
Proof.
  intros Hn Hv. unfold put_enum_nz. destruct (N.eqb_spec v 0); [apply written_nil|].
  unfold put_tag. rewrite put_varint_small by lia. split; [cbn; lia|].
  intros f r l' H. cbn [app length Nat.add]. cbn [get_fields].
  rewrite get_small by lia. destruct (tag_div num 0 ltac:(lia)) as [-> ->].
  rewrite (proj2 (N.ltb_ge num 1)) by lia. rewrite (proj2 (N.ltb_ge 536870911 num)) by lia. cbn [orb].
  rewrite get_put_varint by (assert (2 ^ 31 < 2 ^ 64) by reflexivity; lia). rewrite H. reflexivity.
Qed.
Lemma written_list {A} num (g : A -> bytes) l : 1 <= num < 16 -> Forall (fun x => sized (g x)) l ->
  written (concat (map (fun x => put_bytes num (g x)) l)) (map (fun x => (num, PBytes (g x))) l).
Proof.
  intros Hn. induction 1 as [|x l Hx Hl IH]; [apply written_nil|]. cbn.
  apply (written_app _ [(num, PBytes (g x))]); [apply written_bytes; assumption|exact IH].
Qed.

(** ** The messages *)

Lemma of_to_text s : utf8_valid (to_bytes s) = text_ok s.
Proof. reflexivity. Qed.
Lemma fold_ks_sigs l m : fold_left ks_put (map (fun b => (2, PBytes b)) l) (Some m) =
  Some (KsWire (kw_id m) (kw_sigs m ++ l) (kw_status m)).
Proof.
  revert m. induction l as [|b l IH]; intros m; cbn [map fold_left].
  - rewrite app_nil_r. destruct m; reflexivity.
  - cbn [ks_put]. rewrite IH. cbn. rewrite <- app_assoc. reflexivity.
Qed.
Lemma to_bytes_nil s : to_bytes s = [] -> s = ""%string.
Proof. destruct s; [reflexivity|discriminate]. Qed.
Lemma ks_roundtrip m : text (kw_id m) -> sized (to_bytes (kw_id m)) -> Forall sized (kw_sigs m) -> kw_status m < 2 ^ 31 ->
  exists b, ks_marshal m = Some b /\ ks_unmarshal b = Some m.
Proof.
  destruct m as [id sigs st]. cbn. intros Ht Hs Hss Hst. apply text_ok_iff in Ht.
  unfold ks_marshal. cbn [kw_id kw_sigs kw_status]. rewrite Ht. eexists. split; [reflexivity|].
  unfold ks_unmarshal.
  erewrite written_fields; [|apply written_app; [apply (written_nz 1); [lia|exact Hs]|apply written_app; [|apply (written_enum 3); [lia|exact Hst]]]].
  2:{ rewrite <- (map_id sigs) at 1. rewrite map_map. apply (written_list 2 (fun b => b)); [lia|exact Hss]. }
  rewrite !fold_left_app.
  assert (H1 : fold_left ks_put match to_bytes id with [] => [] | _ => [(1, PBytes (to_bytes id))] end (Some (KsWire "" [] 0)) = Some (KsWire id [] 0)).
  { destruct (to_bytes id) as [|c r] eqn:E; [apply to_bytes_nil in E as ->; reflexivity|]. rewrite <- E.
    cbn [fold_left ks_put]. rewrite of_to_text, Ht, of_to_bytes. reflexivity. }
  rewrite H1, fold_ks_sigs. cbn [kw_id kw_sigs kw_status app].
  destruct (N.eqb_spec st 0) as [->|Hne]; [reflexivity|]. cbn [fold_left ks_put kw_id kw_sigs]. unfold enum_of.
  rewrite N.mod_small by (assert (2 ^ 31 < 4294967296) by reflexivity; lia). reflexivity.
Qed.
Lemma notify_roundtrip m : text (km_id m) -> sized (to_bytes (km_id m)) -> Forall sized (km_sigs m) ->
  exists b, notify_marshal m = Some b /\ notify_unmarshal b = Some m.
Proof.
  intros Ht Hs Hss. unfold notify_marshal, notify_unmarshal.
  destruct (ks_roundtrip (KsWire (km_id m) (km_sigs m) (if km_success m then Status_Success else Status_Failed))) as (b & Hb & Hu);
    [exact Ht|exact Hs|exact Hss|destruct (km_success m); reflexivity|].
  exists b. split; [exact Hb|]. rewrite Hu. destruct m as [id sigs []]; reflexivity.
Qed.

Definition empty_is_nil (s : ecsig) : ecsig :=
  EcSig (nil_if_empty (default [] (sg_signature s))) (sg_recovery s) (sg_R s) (sg_S s) (sg_M s).
Lemma small_sized b : small b -> sized b.
Proof. unfold small, sized. assert (2 ^ 50 < 2 ^ 60) by reflexivity. lia. Qed.
Lemma put_varint_fuel_length f v : (length (put_varint_fuel f v) <= f)%nat.
Proof. revert v. induction f as [|f IH]; intros v; cbn; [lia|]. destruct (v <? 128); cbn; [lia|]. specialize (IH (v / 128)). lia. Qed.
Lemma put_bytes_nz_length num b : (length (put_bytes_nz num b) <= length b + 20)%nat.
Proof.
  destruct b as [|c b]; [cbn; lia|]. unfold put_bytes_nz, put_bytes, put_tag. rewrite !app_length.
  pose proof (put_varint_fuel_length 10 (num * 8 + 2)). pose proof (put_varint_fuel_length 10 (N.of_nat (length (c :: b)))).
  unfold put_varint. lia.
Qed.
Lemma sig_marshal_sized s b : sized_sig s -> sig_marshal s = Some b -> sized b.
Proof.
  intros (H1 & H2 & H3 & H4 & H5) [= <-]. unfold small, sized in *. rewrite !app_length.
  pose proof (put_bytes_nz_length 1 (default [] (sg_signature s))). pose proof (put_bytes_nz_length 2 (sg_recovery s)).
  pose proof (put_bytes_nz_length 3 (sg_R s)). pose proof (put_bytes_nz_length 4 (sg_S s)). pose proof (put_bytes_nz_length 5 (sg_M s)).
  assert (5 * 2 ^ 50 + 100 < 2 ^ 60) by reflexivity. lia.
Qed.
Lemma sig_roundtrip s : sized_sig s ->
  exists b, sig_marshal s = Some b /\ sig_unmarshal b = Some (empty_is_nil s).
Proof.
  intros (H1 & H2 & H3 & H4 & H5). unfold sig_marshal. eexists. split; [reflexivity|]. unfold sig_unmarshal.
  erewrite written_fields; [|repeat apply written_app; (apply written_nz; [lia|apply small_sized; assumption])].
  unfold empty_is_nil. destruct (default [] (sg_signature s)), (sg_recovery s), (sg_R s), (sg_S s), (sg_M s); reflexivity.
Qed.
Lemma empty_is_nil_made s : made s -> empty_is_nil s = s.
Proof. intros (b & Hb & Hne). destruct s as [sg re r s m]. cbn in Hb. subst sg. unfold empty_is_nil. cbn. destruct b; [congruence|reflexivity]. Qed.

Lemma old_roundtrip id : text id -> sized (to_bytes id) ->
  exists b, old_marshal id = Some b /\ old_unmarshal b = Some id.
Proof.
  intros Ht Hs. apply text_ok_iff in Ht. unfold old_marshal. rewrite Ht. eexists. split; [reflexivity|]. unfold old_unmarshal.
  erewrite written_fields; [|apply (written_nz 1); [lia|exact Hs]].
  destruct (to_bytes id) as [|c r] eqn:E; [apply to_bytes_nil in E as ->; reflexivity|]. rewrite <- E.
  cbn [fold_left old_put]. rewrite of_to_text, Ht, of_to_bytes. reflexivity.
Qed.

Definition lm_fields (m : leadermsg) : list (N * pval) :=
  match to_bytes (lm_id m) with [] => [] | _ => [(1, PBytes (to_bytes (lm_id m)))] end ++
  match to_bytes (lm_msgtype m) with [] => [] | _ => [(2, PBytes (to_bytes (lm_msgtype m)))] end ++
  (if N.of_nat (lm_type m) =? 0 then [] else [(3, PVarint (N.of_nat (lm_type m)))]) ++
  map (fun p => (4, PBytes (to_bytes p))) (lm_peers m).
Lemma lm_written m : leader_ok m -> exists b, lm_marshal m = Some b /\ proto_fields b = Some (lm_fields m).
Proof.
  intros (H1 & H2 & H3 & H4 & H5 & H6). unfold lm_marshal.
  rewrite (proj2 (text_ok_iff _) H1), (proj2 (text_ok_iff _) H3).
  assert (Hp : forallb text_ok (lm_peers m) = true).
  { apply forallb_forall. intros p Hp. apply text_ok_iff. rewrite Forall_forall in H6. apply H6. apply elem_of_list_In. exact Hp. }
  rewrite Hp. cbn [andb]. eexists. split; [reflexivity|]. apply written_fields. unfold lm_fields.
  apply written_app; [apply (written_nz 1); [lia|exact H2]|].
  apply written_app; [apply (written_nz 2); [lia|exact H4]|].
  apply written_app; [apply written_enum; [lia|exact H5]|].
  apply (written_list 4 to_bytes); [lia|]. eapply Forall_impl; [exact H6|]. intros p [_ H]. exact H.
Qed.
Lemma fold_lm_peers l m : Forall (fun p => text p) l ->
  fold_left lm_put (map (fun p => (4, PBytes (to_bytes p))) l) (Some m) =
  Some (LeaderMsg (lm_id m) (lm_msgtype m) (lm_type m) (lm_peers m ++ l)).
Proof.
  revert m. induction l as [|b l IH]; intros m Hl; cbn [map fold_left].
  - rewrite app_nil_r. destruct m; reflexivity.
  - apply Forall_cons in Hl as [Hb Hl]. apply text_ok_iff in Hb. cbn [lm_put]. rewrite of_to_text, Hb, of_to_bytes, IH by exact Hl.
    cbn. rewrite <- app_assoc. reflexivity.
Qed.
Lemma lm_fold m : leader_ok m -> fold_left lm_put (lm_fields m) (Some (LeaderMsg "" "" 0 [])) = Some m.
Proof.
  destruct m as [id mt ty ps]. intros (H1 & H2 & H3 & H4 & H5 & H6). cbn in H1, H2, H3, H4, H5, H6.
  apply text_ok_iff in H1, H3. unfold lm_fields. cbn [lm_id lm_msgtype lm_type lm_peers]. rewrite !fold_left_app.
  assert (E1 : fold_left lm_put match to_bytes id with [] => [] | _ => [(1, PBytes (to_bytes id))] end (Some (LeaderMsg "" "" 0 [])) = Some (LeaderMsg id "" 0 [])).
  { destruct (to_bytes id) as [|c r] eqn:E; [apply to_bytes_nil in E as ->; reflexivity|]. rewrite <- E.
    cbn [fold_left lm_put]. rewrite of_to_text, H1, of_to_bytes. reflexivity. }
  rewrite E1. clear E1.
  assert (E2 : fold_left lm_put match to_bytes mt with [] => [] | _ => [(2, PBytes (to_bytes mt))] end (Some (LeaderMsg id "" 0 [])) = Some (LeaderMsg id mt 0 [])).
  { destruct (to_bytes mt) as [|c r] eqn:E; [apply to_bytes_nil in E as ->; reflexivity|]. rewrite <- E.
    cbn [fold_left lm_put]. rewrite of_to_text, H3, of_to_bytes. reflexivity. }
  rewrite E2. clear E2.
  assert (E3 : fold_left lm_put (if N.of_nat ty =? 0 then [] else [(3, PVarint (N.of_nat ty))]) (Some (LeaderMsg id mt 0 [])) = Some (LeaderMsg id mt ty [])).
  { destruct (N.eqb_spec (N.of_nat ty) 0) as [E|E].
    - replace ty with 0%nat by lia. reflexivity.
    - cbn [fold_left lm_put lm_id lm_msgtype lm_peers]. unfold enum_of. rewrite N.mod_small, Nat2N.id; [reflexivity|].
      assert (2 ^ 31 < 4294967296) by reflexivity. lia. }
  rewrite E3. clear E3. rewrite fold_lm_peers; [reflexivity|].
  eapply Forall_impl; [exact H6|]. intros p [H _]. exact H.
Qed.
Lemma old_fold_lm m : leader_ok m -> fold_left old_put (lm_fields m) (Some ""%string) = Some (lm_id m).
Proof.
  intros (H1 & _). apply text_ok_iff in H1. unfold lm_fields. rewrite !fold_left_app.
  assert (E1 : fold_left old_put match to_bytes (lm_id m) with [] => [] | _ => [(1, PBytes (to_bytes (lm_id m)))] end (Some ""%string) = Some (lm_id m)).
  { destruct (to_bytes (lm_id m)) as [|c r] eqn:E; [apply to_bytes_nil in E as ->; reflexivity|]. rewrite <- E.
    cbn [fold_left old_put]. rewrite of_to_text, H1, of_to_bytes. reflexivity. }
  rewrite E1. destruct (to_bytes (lm_msgtype m)); destruct (N.of_nat (lm_type m) =? 0); cbn [fold_left old_put];
    induction (lm_peers m); cbn [map fold_left old_put]; auto.
Qed.
Lemma leader_roundtrip m : leader_ok m ->
  exists b, lm_marshal m = Some b /\ lm_unmarshal b = Some m /\ leader_incoming b = Some (InLeader m).
Proof.
  intros Hok. destruct (lm_written m Hok) as (b & Hb & Hf). exists b. split; [exact Hb|].
  unfold leader_incoming, lm_unmarshal, old_unmarshal. rewrite Hf, lm_fold, old_fold_lm by exact Hok. auto.
Qed.

(** ** A text is read the same whatever follows *)

Lemma get_varint_fuel_app f : forall b x v r, get_varint_fuel f b = Some (v, r) -> get_varint_fuel f (b ++ x) = Some (v, r ++ x).
Proof.
  induction f as [|f IH]; intros b x v r H; (destruct b as [|c b]; [discriminate|]); [discriminate|].
  destruct f as [|f].
  - cbn in *. destruct (byte_val c <? 2); [|discriminate]. injection H as <- <-. reflexivity.
  - change ((c :: b) ++ x) with (c :: (b ++ x)). rewrite get_varint_SS in H |- *.
    destruct (byte_val c <? 128); [injection H as <- <-; reflexivity|].
    destruct (get_varint_fuel (S f) b) as [[v' r']|] eqn:E; [|discriminate]. injection H as <- <-.
    rewrite (IH _ x _ _ E). reflexivity.
Qed.
Lemma get_varint_app b x v r : get_varint b = Some (v, r) -> get_varint (b ++ x) = Some (v, r ++ x).
Proof. apply get_varint_fuel_app. Qed.
Lemma get_bytes_app b x v r : get_bytes b = Some (v, r) -> get_bytes (b ++ x) = Some (v, r ++ x).
Proof.
  unfold get_bytes. intros H. destruct (get_varint b) as [[n r']|] eqn:E; [|discriminate]. rewrite (get_varint_app _ x _ _ E).
  destruct (N.ltb_spec (N.of_nat (length r')) n) as [|Hn]; [discriminate|]. injection H as <- <-.
  assert (Hle : (N.to_nat n <= length r')%nat) by lia.
  rewrite app_length, (proj2 (N.ltb_ge _ _)) by lia. rewrite take_app_le, drop_app_le by exact Hle. reflexivity.
Qed.
Lemma get_fixed_app n b x r : get_fixed n b = Some r -> get_fixed n (b ++ x) = Some (r ++ x).
Proof.
  unfold get_fixed. destruct (Nat.ltb_spec (length b) n); [discriminate|]. intros [= <-].
  rewrite app_length. rewrite (proj2 (Nat.ltb_ge (length b + length x)%nat n)) by lia. rewrite drop_app_le by lia. reflexivity.
Qed.
Lemma skip_group_app f : forall f' num b x r, (f <= f')%nat -> skip_group f num b = Some r -> skip_group f' num (b ++ x) = Some (r ++ x).
Proof.
  induction f as [|f IH]; intros f' num b x r Hf H; [discriminate|]. destruct f' as [|f']; [lia|].
  cbn [skip_group] in *. destruct (get_varint b) as [[tag t]|] eqn:E; [|discriminate]. rewrite (get_varint_app _ x _ _ E).
  cbv zeta in *. destruct ((tag / 8 <? 1) || (2147483647 <? tag / 8))%bool; [discriminate|].
  destruct (tag mod 8) as [|[[[p|p|]|[p|p|]|]|[[p|p|]|[p|p|]|]|]]; try discriminate.
  - destruct (get_varint t) as [[v t']|] eqn:Et; [|discriminate]. rewrite (get_varint_app _ x _ _ Et).
    apply IH; [lia|exact H].
  - destruct (get_fixed 4 t) as [t'|] eqn:Et; [|discriminate]. rewrite (get_fixed_app _ _ x _ Et). apply IH; [lia|exact H].
  - destruct (skip_group f (tag / 8) t) as [t'|] eqn:Et; [|discriminate].
    rewrite (IH f' _ _ x _ ltac:(lia) Et). apply IH; [lia|exact H].
  - destruct (tag / 8 =? num); [|discriminate]. injection H as <-. reflexivity.
  - destruct (get_bytes t) as [[v t']|] eqn:Et; [|discriminate]. rewrite (get_bytes_app _ x _ _ Et).
    apply IH; [lia|exact H].
  - destruct (get_fixed 8 t) as [t'|] eqn:Et; [|discriminate]. rewrite (get_fixed_app _ _ x _ Et). apply IH; [lia|exact H].
Qed.
Lemma one_field_app b x num v r : one_field b = Some (num, v, r) -> one_field (b ++ x) = Some (num, v, r ++ x).
Proof.
  unfold one_field. intros H. destruct (get_varint b) as [[tag t]|] eqn:E; [|discriminate]. rewrite (get_varint_app _ x _ _ E).
  cbv zeta in *. destruct ((tag / 8 <? 1) || (536870911 <? tag / 8))%bool; [discriminate|].
  destruct (tag mod 8) as [|[[[p|p|]|[p|p|]|]|[[p|p|]|[p|p|]|]|]]; try discriminate.
  - destruct (get_varint t) as [[w t']|] eqn:Et; [|discriminate]. rewrite (get_varint_app _ x _ _ Et).
    injection H as <- <- <-. reflexivity.
  - destruct (get_fixed 4 t) as [t'|] eqn:Et; [|discriminate]. rewrite (get_fixed_app _ _ x _ Et). injection H as <- <- <-. reflexivity.
  - destruct (skip_group (length t) (tag / 8) t) as [t'|] eqn:Et; [|discriminate].
    assert (Hl : (length t <= length (t ++ x))%nat) by (rewrite app_length; lia).
    rewrite (skip_group_app _ _ _ _ x _ Hl Et). injection H as <- <- <-. reflexivity.
  - destruct (get_bytes t) as [[w t']|] eqn:Et; [|discriminate]. rewrite (get_bytes_app _ x _ _ Et). injection H as <- <- <-. reflexivity.
  - destruct (get_fixed 8 t) as [t'|] eqn:Et; [|discriminate]. rewrite (get_fixed_app _ _ x _ Et). injection H as <- <- <-. reflexivity.
Qed.
Lemma get_fields_app f : forall b l g x lx, get_fields f b = Some l -> get_fields g x = Some lx ->
  get_fields (f + g) (b ++ x) = Some (l ++ lx).
Proof.
  induction f as [|f IH]; intros b l g x lx Hb Hx.
  - destruct b; [|discriminate]. injection Hb as <-. exact Hx.
  - destruct b as [|c b].
    + injection Hb as <-. cbn [app]. eapply get_fields_mono; [|exact Hx]. lia.
    + rewrite get_fields_cons in Hb. destruct (one_field (c :: b)) as [[[num v] r]|] eqn:E; [|discriminate].
      destruct (get_fields f r) as [l1|] eqn:E1; [|discriminate]. injection Hb as <-.
      apply (one_field_app _ x) in E. change (S f + g)%nat with (S (f + g)). cbn [app] in E |- *.
      rewrite get_fields_cons, E, (IH _ _ _ _ _ E1 Hx). reflexivity.
Qed.
Lemma proto_fields_app b l x lx : proto_fields b = Some l -> proto_fields x = Some lx -> proto_fields (b ++ x) = Some (l ++ lx).
Proof. intros Hb Hx. unfold proto_fields. rewrite app_length. apply get_fields_app; assumption. Qed.

(** ** What is read as text is text *)

Lemma ks_fold_text l : forall m m', text (kw_id m) -> fold_left ks_put l (Some m) = Some m' -> text (kw_id m').
Proof.
  induction l as [|f l IH]; intros m m' Ht H; [injection H as <-; exact Ht|]. cbn [fold_left] in H.
  destruct (ks_put (Some m) f) as [m1|] eqn:E.
  - apply (IH m1); [|exact H]. cbn [ks_put] in E.
    destruct f as [[|[[p|p|]|[p|p|]|]] [v|b|]]; cbv beta iota in E; try (injection E as <-; exact Ht).
    destruct (utf8_valid b) eqn:Eb; [|discriminate]. injection E as <-. cbn. unfold text. rewrite to_of_bytes. apply utf8_valid_iff. exact Eb.
  - exfalso. clear -H. induction l; [discriminate|auto].
Qed.
Lemma old_fold_text l : forall m m', text m -> fold_left old_put l (Some m) = Some m' -> text m'.
Proof.
  induction l as [|f l IH]; intros m m' Ht H; [injection H as <-; exact Ht|]. cbn [fold_left] in H.
  destruct (old_put (Some m) f) as [m1|] eqn:E.
  - apply (IH m1); [|exact H]. cbn [old_put] in E.
    destruct f as [[|[[p|p|]|[p|p|]|]] [v|b|]]; cbv beta iota in E; try (injection E as <-; exact Ht).
    destruct (utf8_valid b) eqn:Eb; [|discriminate]. injection E as <-. unfold text. rewrite to_of_bytes. apply utf8_valid_iff. exact Eb.
  - exfalso. clear -H. induction l; [discriminate|auto].
Qed.
Definition lm_text (m : leadermsg) : Prop := text (lm_id m) /\ text (lm_msgtype m) /\ Forall text (lm_peers m).
Lemma lm_fold_text l : forall m m', lm_text m -> fold_left lm_put l (Some m) = Some m' -> lm_text m'.
Proof.
  induction l as [|f l IH]; intros m m' Ht H; [injection H as <-; exact Ht|]. cbn [fold_left] in H.
  destruct (lm_put (Some m) f) as [m1|] eqn:E.
  - apply (IH m1); [|exact H]. cbn [lm_put] in E. destruct Ht as (H1 & H2 & H3).
    assert (Hb : forall b, utf8_valid b = true -> text (of_bytes b)).
    { intros b Hb. unfold text. rewrite to_of_bytes. apply utf8_valid_iff. exact Hb. }
    destruct f as [[|[[p|p|]|[p|[p|p|]|]|]] [v|b|]]; cbv beta iota in E; try (injection E as <-; repeat split; assumption);
      (destruct (utf8_valid b) eqn:Eb; [|discriminate]; injection E as <-; repeat split; cbn; auto).
    apply Forall_app. auto.
  - exfalso. clear -H. induction l; [discriminate|auto].
Qed.
Lemma text_empty : text "".
Proof. exists []. auto. Qed.
