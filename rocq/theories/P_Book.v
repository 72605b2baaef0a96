(** C105: what is read of an address book whose saving was cut. *)
From Coq Require Import ZArith NArith Ascii String List Lia.
From stdpp Require Import base list strings gmap.
From Verif Require Import Base L_Base M_Conv M_Json M_Storage S_Storage L_Storage P_Storage.

(** The text of lines *)
Fixpoint text_of_lines (l : list string) : bytes :=
  match l with [] => [] | s :: r => to_bytes s ++ newline :: text_of_lines r end.
Lemma book_text_lines book : to_bytes (book_text book) = text_of_lines (records book).
Proof.
  unfold book_text. induction (records book) as [|s r IH]; [reflexivity|]. cbn [map concat_strings text_of_lines].
  rewrite !to_bytes_app, IH. cbn. rewrite <- app_assoc. reflexivity.
Qed.
Lemma split_lines l t : Forall (fun r => newline ∉ to_bytes r) l -> newline ∉ to_bytes t ->
  split_on newline (of_bytes (text_of_lines l ++ to_bytes t)) = l ++ [t].
Proof.
  intros Hl Ht. induction Hl as [|s r Hs _ IH]; cbn [text_of_lines app].
  - rewrite of_to_bytes. apply split_none, Ht.
  - rewrite <- app_assoc. cbn [app]. rewrite of_bytes_app, of_to_bytes. change (of_bytes (newline :: ?x)) with (String newline (of_bytes x)). rewrite split_app by exact Hs. rewrite IH. reflexivity.
Qed.
Lemma parse_lines_end {A} (parse : string -> option A) l t : Forall (fun r => r <> ""%string) l ->
  parse_lines parse (l ++ [t]) = mapM parse (l ++ if decide (t = ""%string) then [] else [t]).
Proof.
  intros Hl. induction Hl as [|s r Hs _ IH]; cbn [app parse_lines].
  - destruct (decide (t = ""%string)) as [->|Ht]; [reflexivity|]. destruct t; [contradiction|]. cbn. destruct (parse _); reflexivity.
  - destruct (Nat.eqb_spec (String.length s) 0) as [H0|_]; [destruct s; [contradiction|discriminate H0]|].
    rewrite IH. cbn. destruct (parse s); [|reflexivity]. cbn. destruct (mapM parse _); reflexivity.
Qed.
Lemma cut_lines : forall l n, exists m t,
  (to_bytes t = [] /\ m = length l \/ exists r, l !! m = Some (String.append t r)) /\
  take n (text_of_lines l) = text_of_lines (take m l) ++ to_bytes t.
Proof.
  induction l as [|s l IH]; intros n.
  - exists 0, ""%string. split; [left; split; reflexivity|]. destruct n; reflexivity.
  - destruct (decide (n <= length (to_bytes s))) as [Hn|Hn].
    + exists 0, (of_bytes (take n (to_bytes s))). split.
      * right. exists (of_bytes (drop n (to_bytes s))). cbn. f_equal. rewrite <- of_bytes_app, take_drop, of_to_bytes. reflexivity.
      * cbn. rewrite take_app_le by exact Hn. rewrite to_of_bytes. reflexivity.
    + destruct (IH (n - length (to_bytes s) - 1)) as (m & t & H1 & H2). exists (S m), t. split.
      * destruct H1 as [[Ht ->]|H1]; [left; split; [exact Ht|reflexivity]|right; exact H1].
      * cbn [text_of_lines take]. rewrite take_app_ge by lia. rewrite <- app_assoc. f_equal.
        destruct (n - length (to_bytes s)) as [|p] eqn:E; [lia|]. cbn [take app]. f_equal. rewrite Nat.sub_1_r in H2. cbn in H2. exact H2.
Qed.

(** A book whose saving was cut is read as its first lines and, if a line was cut, as
    what was written of this line; an error is reported only if one of these does not
    parse. *)
Theorem C105_cut_book {A} F (parse : string -> option A) fs book l n :
  fe_folder F <> ""%string -> one_line book -> book_lines book l ->
  exists m t,
    ((t = ""%string /\ m = length l) \/ exists r, l !! m = Some (String.append t r)) /\
    take n (text_of_lines l) = text_of_lines (take m l) ++ to_bytes t /\
    RetrieveP2PAddresses F parse (fst (SaveAddressBook F book (WPartial n) fs)) =
      mapM parse (take m l ++ if decide (t = ""%string) then [] else [t]).
Proof.
  intros Hf Ho Hl. rewrite (book_lines_fun book l (records book) Hl (records_lines book)).
  pose proof (records_one_line book Ho) as Hr. destruct (cut_lines (records book) n) as (m & t & H1 & H2).
  exists m, t. split; [destruct H1 as [[Ht Hm]|H1]; [left; split; [destruct t; [reflexivity|discriminate Ht]|exact Hm]|right; exact H1]|].
  split; [exact H2|]. unfold SaveAddressBook, RetrieveP2PAddresses.
  destruct (Nat.ltb_spec (String.length (fe_folder F)) 1) as [Hn|_]; [destruct (fe_folder F); [contradiction|simpl in Hn; lia]|].
  cbn [WriteFile fst]. unfold files in *. rewrite lookup_insert, book_text_lines, H2.
  assert (Ht : newline ∉ to_bytes t).
  { destruct H1 as [[-> _]|[r H]]; [intros X; inversion X|]. rewrite Forall_lookup in Hr. destruct (Hr _ _ H) as [Hx _].
    rewrite to_bytes_app in Hx. intros X. apply Hx, elem_of_app. left. exact X. }
  rewrite split_lines; [|eapply Forall_impl; [apply Forall_take, Hr|cbn; tauto]|exact Ht].
  apply parse_lines_end. eapply Forall_impl; [apply Forall_take, Hr|cbn; tauto].
Qed.
Print Assumptions C105_cut_book.

(** So an address nobody saved may be read, if a beginning of a line is an address too. *)
Theorem C105_only_saved_addresses_refuted :
  exists F book l n, fe_folder F <> ""%string /\ one_line book /\ book_lines book l /\
    forall A (parse : string -> option A) x, parse "/ip4/10.0.0.2/tcp/66"%string = Some x ->
      ~ In "/ip4/10.0.0.2/tcp/66"%string l /\
      RetrieveP2PAddresses F parse (fst (SaveAddressBook F book (WPartial n) ∅)) = Some [x].
Proof.
  exists toy_fs, toy_book, (records toy_book), 20. split; [discriminate|]. split; [apply C54_round_trip_ex|]. split; [apply records_lines|].
  intros A parse x Hx. split.
  - vm_compute. intros H. repeat (destruct H as [H|H]; [discriminate H|]). exact H.
  - assert (E : RetrieveP2PAddresses toy_fs parse (fst (SaveAddressBook toy_fs toy_book (WPartial 20) ∅)) = parse_lines parse ["/ip4/10.0.0.2/tcp/66"]%string) by (vm_compute; reflexivity).
    rewrite E. cbn. rewrite Hx. reflexivity.
Qed.
Print Assumptions C105_only_saved_addresses_refuted.
