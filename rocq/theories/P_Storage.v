(** C52-C54, C104-C106: the saved states and the address book. *)
From Coq Require Import ZArith NArith Ascii String List Lia.
From stdpp Require Import base list strings gmap.
From Verif Require Import Base L_Base S_Utf8 L_Utf8 M_Base64 L_Base64 M_Json L_Json S_Json L_JsonSpec M_Storage S_Storage L_Storage.

(** ** Witnesses *)

Definition toy_data (b : string) : savedata := SaveData (Some (1%N, 2%N)) (to_bytes b).
Definition toy_old : stored := Stored "k1" (toy_data "aa") (Some ["k1"; "k2"]%string) "k1".
Definition toy_new : stored := Stored "k1" (toy_data "bb") (Some ["k1"; "k2"; "k3"]%string) "k1".
Definition toy_two : stored := Stored "k2" (toy_data "c\") None "k1".
Definition toy_fs : fsenv := FsEnv "/data/"
  (fun k => if decide (k = "k1"%string \/ k = "k2"%string) then Some true
            else if decide (k = "off"%string) then Some false else None)
  (fun d => Some (JObj [("Xi"%string, JStr (EncodeToString (sd_rest d)));
     ("Pub"%string, match sd_pub d with Some (x, y) => JArr [JNum (Z.of_N x); JNum (Z.of_N y)] | None => JNull end)]))
  (fun v => match v with
    | JObj [(_, JStr r); (_, JArr [JNum x; JNum y])] => option_map (SaveData (Some (Z.to_N x, Z.to_N y))) (DecodeString r)
    | JObj [(_, JStr r); (_, JNull)] => option_map (SaveData None) (DecodeString r)
    | _ => None end).
Lemma toy_laws : fs_laws toy_fs.
Proof.
  split.
  - intros k Hk. cbn in Hk. destruct (decide (k = "k1"%string \/ k = "k2"%string)) as [[-> | ->]|_].
    + split; [discriminate|]. split; [apply (bool_decide_unpack _); vm_compute; exact I|]. apply ascii_string; reflexivity.
    + split; [discriminate|]. split; [apply (bool_decide_unpack _); vm_compute; exact I|]. apply ascii_string; reflexivity.
    + destruct (decide _); discriminate.
  - intros [[[x y]|] r] v H; cbn [fe_data toy_fs sd_pub sd_rest] in H; injection H as <-; cbn [fe_undata toy_fs];
      (split; [|split; [apply nested_iff; cbn; lia|rewrite ?N2Z.id, DecodeString_Encode; reflexivity]]);
      constructor; repeat (apply Forall_cons; split); try apply Forall_nil_2; (split; [apply ascii_string; reflexivity|]); cbn [snd];
      [constructor; apply base64_text|constructor; repeat constructor|constructor; apply base64_text|constructor].
Qed.

(** ** C52 *)

Lemma last_curve F k ops s c : fe_curve F k = Some true -> last_attempt F k ops = Some (s, c) -> fe_curve F (st_pub s) = Some true.
Proof.
  intros Hk. unfold last_attempt. induction ops as [|o ops IH] using rev_ind; [discriminate|]. rewrite fold_left_app. cbn [fold_left].
  unfold attempt at 1. destruct o as [s' w|]; [|exact IH]. destruct (String.eqb_spec (st_pub s') k) as [He|_]; [|exact IH]. cbn [andb].
  destruct (accepted F s'); [|exact IH]. destruct w; [exact IH|intros [= <- _]; congruence..].
Qed.
(** After any history of saves, complete, failed or cut by a crash, reading a key
    gives the state of its last attempt: nothing when there was none, that state when
    it was complete, and an error or that state when it was not. The states are those
    whose strings are text. *)
Theorem C52_reads_last_saved F ops k :
  fs_laws F -> fe_curve F k = Some true ->
  match last_attempt F k ops with
  | None => GetLocalState F k (frun F ∅ ops) = None
  | Some (s, true) => state_texts s -> GetLocalState F k (frun F ∅ ops) = Some s
  | Some (s, false) => state_texts s -> GetLocalState F k (frun F ∅ ops) = None \/ GetLocalState F k (frun F ∅ ops) = Some s
  end.
Proof.
  intros HL Hk. destruct (path_some F k Hk) as [p Hp]. pose proof (frun_content F HL k p ops Hp) as Hc.
  unfold GetLocalState. destruct (fl_key F HL k Hk) as [Hne _].
  destruct (Nat.eqb_spec (String.length k) 0) as [H0|_]; [destruct k; [contradiction|discriminate]|].
  rewrite Hp. destruct (last_attempt F k ops) as [[s [|]]|] eqn:Hl; cbn [content] in Hc.
  - intros Ht. destruct Hc as (b & Hb & ->). exact (round_trip F HL s b (last_curve F k ops s true Hk Hl) Ht Hb).
  - intros Ht. destruct Hc as (b & n & Hb & ->). destruct (Nat.lt_ge_cases n (length b)) as [Hn|Hn].
    + left. exact (cut_none F s b n Hb Hn).
    + right. rewrite take_ge by exact Hn. exact (round_trip F HL s b (last_curve F k ops s false Hk Hl) Ht Hb).
  - rewrite Hc. reflexivity.
Qed.
Print Assumptions C52_reads_last_saved.

Definition toy_ops : list fop := [OSave toy_old WDone; OSave toy_two WDone; OBook [("p"%string, ["/ip4/1.2.3.4"%string])] WDone;
  OSave toy_new WOpenFail; OSave toy_new WDone; OSave (Stored "off" (toy_data "z") None "x") WDone].
Example C52_reads_last_saved_ex :
  fs_laws toy_fs /\
  GetLocalState toy_fs "k1" (frun toy_fs ∅ toy_ops) = Some toy_new /\
  GetLocalState toy_fs "k2" (frun toy_fs ∅ toy_ops) = Some toy_two /\
  last_attempt toy_fs "k1" toy_ops = Some (toy_new, true) /\ state_texts toy_new.
Proof.
  split; [apply toy_laws|]. split; [vm_compute; reflexivity|]. split; [vm_compute; reflexivity|]. split; [vm_compute; reflexivity|].
  split; [repeat constructor; apply ascii_string|apply ascii_string]; reflexivity.
Qed.

(** An operation on another key, or on the address book, changes neither what is read
    for a key nor, for a save, what is read from the book, whatever the disk holds. *)
Theorem C52_isolation F fs k :
  fs_laws F ->
  (forall s w, st_pub s <> k -> GetLocalState F k (fst (SaveLocalState F s w fs)) = GetLocalState F k fs) /\
  (forall b w, GetLocalState F k (fst (SaveAddressBook F b w fs)) = GetLocalState F k fs) /\
  (forall s w A (parse : string -> option A),
     RetrieveP2PAddresses F parse (fst (SaveLocalState F s w fs)) = RetrieveP2PAddresses F parse fs).
Proof.
  intros HL. split; [|split].
  - intros s w Hne. unfold GetLocalState. destruct (Nat.eqb _ _); [reflexivity|].
    destruct (getFilePathName F k) as [p|] eqn:Hp; [|reflexivity].
    pose proof (frun1_lookup F HL k p (OSave s w) fs Hp) as H. cbn [frun1] in H. rewrite H.
    destruct (String.eqb_spec (st_pub s) k) as [He|_]; [contradiction|]. reflexivity.
  - intros b w. unfold GetLocalState. destruct (Nat.eqb _ _); [reflexivity|].
    destruct (getFilePathName F k) as [p|] eqn:Hp; [|reflexivity].
    pose proof (frun1_lookup F HL k p (OBook b w) fs Hp) as H. cbn [frun1] in H. rewrite H. reflexivity.
  - intros s w A parse. unfold RetrieveP2PAddresses.
    destruct (Nat.ltb_spec (String.length (fe_folder F)) 1) as [Hf|Hf]; [reflexivity|].
    assert (Hne : fe_folder F <> ""%string) by (intros He; rewrite He in Hf; simpl in Hf; lia).
    pose proof (frun1_book F HL (OSave s w) fs Hne) as H. cbn [frun1] in H. rewrite H. reflexivity.
Qed.
Print Assumptions C52_isolation.

Example C52_isolation_ex : fs_laws toy_fs /\ st_pub toy_two <> "k1"%string /\
  GetLocalState toy_fs "k1" (fst (SaveLocalState toy_fs toy_two WDone (frun toy_fs ∅ [OSave toy_old WDone]))) = Some toy_old.
Proof. split; [apply toy_laws|]. split; [discriminate|]. vm_compute. reflexivity. Qed.

(** A state under a key that does not parse or is not on the curve is refused and
    nothing is written; such a key, and the empty one, read as an error. *)
Theorem C52_invalid_refused F fs s w k :
  (fe_curve F (st_pub s) <> Some true -> SaveLocalState F s w fs = (fs, false)) /\
  (k = ""%string \/ fe_curve F k <> Some true -> GetLocalState F k fs = None).
Proof.
  split.
  - intros H. destruct (save_cases F s w fs) as [[_ Hs]|(p & b & Ha & _)]; [exact Hs|].
    unfold accepted in Ha. destruct (fe_curve F (st_pub s)) as [[]|]; congruence.
  - unfold GetLocalState, getFilePathName. intros [-> |H]; [reflexivity|].
    destruct (Nat.eqb _ _); [reflexivity|]. destruct (fe_curve F k) as [[]|]; congruence.
Qed.
Print Assumptions C52_invalid_refused.

Example C52_invalid_refused_ex : fe_curve toy_fs "off" = Some false /\ fe_curve toy_fs "../../etc/x" = None.
Proof. vm_compute. auto. Qed.

(** ** C53, C104 *)

(** A crash during a save can lose the state saved before: neither the old nor the new
    one can be read. *)
Theorem C53_crash_keeps_old_or_new_refuted :
  exists F fs old new n,
    fs_laws F /\ st_pub old = st_pub new /\
    GetLocalState F (st_pub old) fs = Some old /\
    GetLocalState F (st_pub new) (fst (SaveLocalState F new WDone fs)) = Some new /\
    GetLocalState F (st_pub old) (fst (SaveLocalState F new (WPartial n) fs)) = None.
Proof.
  exists toy_fs, (frun toy_fs ∅ [OSave toy_old WDone]), toy_old, toy_new, 0.
  split; [apply toy_laws|]. vm_compute. auto.
Qed.
Print Assumptions C53_crash_keeps_old_or_new_refuted.

(** A save cut at any byte leaves a file that is reported as an error: it is never read
    as the old state or as a state nobody saved. When all bytes are there the new
    state is read. Every other key and the address book are as before. *)
Theorem C104_cut_save_is_an_error F fs s b n :
  fs_laws F -> fe_curve F (st_pub s) = Some true -> state_texts s -> marshal_state F s = Some b ->
  let fs' := fst (SaveLocalState F s (WPartial n) fs) in
  GetLocalState F (st_pub s) fs' = (if Nat.ltb n (length b) then None else Some s) /\
  snd (SaveLocalState F s (WPartial n) fs) = false /\
  (forall k, k <> st_pub s -> GetLocalState F k fs' = GetLocalState F k fs) /\
  (forall A (parse : string -> option A), RetrieveP2PAddresses F parse fs' = RetrieveP2PAddresses F parse fs).
Proof.
  intros HL Hk Ht Hb fs'. subst fs'. destruct (path_some F _ Hk) as [p Hp].
  destruct (C52_isolation F fs "" HL) as (_ & _ & H3). split; [|split; [|split]].
  - unfold GetLocalState. destruct (fl_key F HL _ Hk) as [Hne _].
    destruct (Nat.eqb_spec (String.length (st_pub s)) 0) as [H0|_]; [destruct (st_pub s); [contradiction|discriminate]|].
    rewrite Hp. unfold SaveLocalState. rewrite Hb, Hp. cbn [WriteFile fst]. unfold files in *. rewrite lookup_insert.
    destruct (Nat.ltb_spec n (length b)) as [Hn|Hn].
    + exact (cut_none F s b n Hb Hn).
    + rewrite take_ge by exact Hn. exact (round_trip F HL s b Hk Ht Hb).
  - unfold SaveLocalState. rewrite Hb, Hp. reflexivity.
  - intros k Hne. destruct (C52_isolation F fs k HL) as (H1 & _). apply H1. congruence.
  - intros A parse. apply H3.
Qed.
Print Assumptions C104_cut_save_is_an_error.

Example C104_cut_save_is_an_error_ex : exists b,
  fs_laws toy_fs /\ fe_curve toy_fs (st_pub toy_two) = Some true /\
  marshal_state toy_fs toy_two = Some b /\ length b = 102 /\ state_texts toy_two.
Proof.
  eexists. split; [apply toy_laws|]. split; [vm_compute; reflexivity|].
  split; [vm_compute; reflexivity|]. split; [vm_compute; reflexivity|]. split; [exact I|apply ascii_string; reflexivity].
Qed.

(** ** C54, C105, C106 *)

(** What is read back is the parse of exactly the lines written, in their order: one
    for every address without the loopback text, followed by its peer; one line that
    does not parse makes the whole retrieval fail. *)
Theorem C54_round_trip {A} F (parse : string -> option A) fs book l :
  fe_folder F <> ""%string -> one_line book -> book_lines book l ->
  snd (SaveAddressBook F book WDone fs) = true /\
  RetrieveP2PAddresses F parse (fst (SaveAddressBook F book WDone fs)) = mapM parse l.
Proof.
  intros Hf Ho Hl. unfold SaveAddressBook, RetrieveP2PAddresses.
  destruct (Nat.ltb_spec (String.length (fe_folder F)) 1) as [Hn|_].
  { destruct (fe_folder F); [contradiction|simpl in Hn; lia]. }
  split; [reflexivity|]. cbn [WriteFile fst]. unfold files in *. rewrite lookup_insert, of_to_bytes. unfold book_text.
  pose proof (records_one_line book Ho) as Hr. rewrite split_book by exact Hr. rewrite parse_lines_records by exact Hr.
  rewrite (book_lines_fun book l (records book) Hl (records_lines book)). reflexivity.
Qed.
Print Assumptions C54_round_trip.

(** Every book has its lines, and only one list of them. *)
Theorem C54_lines_exist book : exists! l, book_lines book l.
Proof. exists (records book). split; [apply records_lines|]. intros l Hl. exact (book_lines_fun _ _ _ (records_lines book) Hl). Qed.
Print Assumptions C54_lines_exist.

(** Without a folder nothing is saved and nothing is read; without a saved book reading
    is an error. *)
Theorem C54_no_book {A} F (parse : string -> option A) fs book w :
  (fe_folder F = ""%string -> SaveAddressBook F book w fs = (fs, false) /\ RetrieveP2PAddresses F parse fs = None) /\
  (fs !! book_path F = None -> RetrieveP2PAddresses F parse fs = None).
Proof.
  unfold SaveAddressBook, RetrieveP2PAddresses. split.
  - intros ->. split; reflexivity.
  - intros ->. destruct (Nat.ltb _ _); reflexivity.
Qed.
Print Assumptions C54_no_book.

Definition toy_book : list (string * list string) :=
  [("16Uiu2A"%string, ["/ip4/10.0.0.2/tcp/6668"; "/ip4/127.0.0.1/tcp/6668"; "/ip4/10.0.0.3/tcp/1"]%string); ("16Uiu2B"%string, []);
   ("16Uiu2C"%string, ["/ip4/10.0.0.4/tcp/2"]%string)].
Example C54_round_trip_ex :
  one_line toy_book /\
  RetrieveP2PAddresses toy_fs Some (fst (SaveAddressBook toy_fs toy_book WDone ∅)) =
  Some ["/ip4/10.0.0.2/tcp/6668/p2p/16Uiu2A"; "/ip4/10.0.0.3/tcp/1/p2p/16Uiu2A"; "/ip4/10.0.0.4/tcp/2/p2p/16Uiu2C"]%string.
Proof.
  split; [|vm_compute; reflexivity]. unfold one_line, toy_book.
  repeat (constructor; cbn [fst snd]); apply (bool_decide_unpack _); vm_compute; exact I.
Qed.

(** A crash while the book is saved is not noticed when it falls between two lines: the
    addresses not yet written are silently missing. *)
Theorem C105_cut_book_is_an_error_refuted :
  exists F (parse : string -> option string) book n l,
    fe_folder F <> ""%string /\ one_line book /\
    RetrieveP2PAddresses F parse (fst (SaveAddressBook F book WDone ∅)) = Some l /\
    RetrieveP2PAddresses F parse (fst (SaveAddressBook F book (WPartial n) ∅)) = Some (take 1 l) /\ length l = 3.
Proof.
  exists toy_fs, Some, toy_book, 35. eexists. split; [discriminate|]. split; [apply C54_round_trip_ex|].
  split; [vm_compute; reflexivity|]. split; vm_compute; reflexivity.
Qed.
Print Assumptions C105_cut_book_is_an_error_refuted.

(** The loopback test is a test on the text: other loopback addresses are saved, and an
    address whose text merely contains the loopback one is dropped. *)
Theorem C106_loopback_dropped_refuted :
  book_lines [("p"%string, ["/ip6/::1/tcp/1"; "/ip4/127.0.0.2/tcp/1"; "/dns4/127.0.0.1.example.org/tcp/1"]%string)]
    ["/ip6/::1/tcp/1/p2p/p"; "/ip4/127.0.0.2/tcp/1/p2p/p"]%string.
Proof. exact (records_lines [("p"%string, ["/ip6/::1/tcp/1"; "/ip4/127.0.0.2/tcp/1"; "/dns4/127.0.0.1.example.org/tcp/1"]%string)]). Qed.
Print Assumptions C106_loopback_dropped_refuted.
