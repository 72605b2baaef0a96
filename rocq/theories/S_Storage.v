(** Vocabulary for the properties of the stored state. *)
From Coq Require Import ZArith NArith Ascii String List.
From stdpp Require Import base list strings gmap.
From Verif Require Import Base S_Utf8 M_Json S_Json M_Storage.

(** What is assumed of the code not modelled: a key that parses is Bech32 text with
    the prefix of the chain, so it is not empty, has no slash and is text; the JSON
    value of the library's save data consists of text, is not nested deeper than a
    hundred and reads back as that data. *)
Record fs_laws (F : fsenv) : Prop := FsLaws {
  fl_key : forall k, fe_curve F k = Some true -> k <> ""%string /\ "/"%char ∉ to_bytes k /\ text k;
  fl_data : forall d v, fe_data F d = Some v -> json_texts v /\ nested 100 v /\ fe_undata F v = Some d }.

(** A state of which the other strings are text *)
Definition state_texts (s : stored) : Prop :=
  match st_participants s with Some l => Forall text l | None => True end /\ text (st_local s).

(** A state the manager accepts: its key is on the curve and it marshals. *)
Definition accepted (F : fsenv) (s : stored) : bool :=
  match fe_curve F (st_pub s), fe_data F (st_data s) with Some true, Some _ => true | _, _ => false end.

(** The last attempt to save a state for the key that opened the file, and whether it
    was complete. *)
Definition attempt (F : fsenv) (k : string) (acc : option (stored * bool)) (o : fop) : option (stored * bool) :=
  match o with
  | OBook _ _ => acc
  | OSave s w =>
      if (String.eqb (st_pub s) k && accepted F s)%bool then
        match w with WOpenFail => acc | WPartial _ => Some (s, false) | WDone => Some (s, true) end
      else acc
  end.
Definition last_attempt (F : fsenv) (k : string) (ops : list fop) : option (stored * bool) :=
  fold_left (attempt F k) ops None.

(** ** The address book *)

(** The lines of a book, in its order: every address without the loopback text,
    followed by its peer. *)
Inductive book_lines : list (string * list string) -> list string -> Prop :=
  | bl_nil : book_lines [] []
  | bl_peer p rest l : book_lines rest l -> book_lines ((p, []) :: rest) l
  | bl_skip p a addrs rest l :
      (exists x y, a = String.append x (String.append "127.0.0.1" y)) ->
      book_lines ((p, addrs) :: rest) l -> book_lines ((p, a :: addrs) :: rest) l
  | bl_keep p a addrs rest l :
      ~ (exists x y, a = String.append x (String.append "127.0.0.1" y)) ->
      book_lines ((p, addrs) :: rest) l ->
      book_lines ((p, a :: addrs) :: rest) (String.append a (String.append "/p2p/" p) :: l).
(** No line break in a text of the book. *)
Definition one_line (book : list (string * list string)) : Prop :=
  Forall (fun pa => newline ∉ to_bytes (fst pa) /\ Forall (fun a => newline ∉ to_bytes a) (snd pa)) book.
