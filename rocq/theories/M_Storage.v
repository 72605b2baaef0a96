(** storage/localstate_mgr.go: the key shares and the address book on disk. *)
From Coq Require Import ZArith NArith Ascii String List.
From stdpp Require Import base list strings gmap.
From Verif Require Import Base M_Json.

(** ** Paths *)

(** strings.Split with a separator of one byte *)
Fixpoint split_on (c : ascii) (s : string) : list string :=
  match s with
  | EmptyString => [EmptyString]
  | String a r =>
      if decide (a = c) then EmptyString :: split_on c r
      else match split_on c r with
      | [] => [String a EmptyString]
      | h :: t => String a h :: t
      end
  end.

(** path/filepath Clean on Unix (not in /repo), component by component: [st] is the
    path so far, innermost first. *)
Definition clean_step (rooted : bool) (st : list string) (c : string) : list string :=
  if (String.eqb c "" || String.eqb c ".")%bool then st
  else if String.eqb c ".." then
    match st with
    | [] => if rooted then [] else [".."%string]
    | t :: st' => if String.eqb t ".." then c :: st else st'
    end
  else c :: st.
Definition is_rooted (p : string) : bool := match p with String "/" _ => true | _ => false end.
Definition Clean (p : string) : string :=
  let comps := fold_left (clean_step (is_rooted p)) (split_on "/" p) [] in
  match comps with
  | [] => if is_rooted p then "/" else "."
  | _ => String.append (if is_rooted p then "/" else "") (join_strings "/" (rev comps))
  end.
(** filepath.Join(folder, name), both not empty *)
Definition Join (folder name : string) : string := Clean (String.append folder (String.append "/" name)).

(** ** Files *)

Definition files := gmap string bytes.
(** How ioutil.WriteFile ends: the file cannot be opened; the file was truncated and
    [k] bytes written when an error came, or the process died; all is written. *)
Inductive wout := WOpenFail | WPartial (k : nat) | WDone.
Definition WriteFile (p : string) (buf : bytes) (w : wout) (fs : files) : files * bool :=
  match w with
  | WOpenFail => (fs, false)
  | WPartial k => (<[p := take k buf]> fs, false)
  | WDone => (<[p := buf]> fs, true)
  end.

(** tss-lib keygen.LocalPartySaveData: the group public key and the rest, secret
    share included. *)
Record savedata := SaveData { sd_pub : option (N * N); sd_rest : bytes }.
(** storage/localstate_mgr.go:21-27; the participants may be a nil slice. *)
Record stored := Stored {
  st_pub : string;
  st_data : savedata;
  st_participants : option (list string);
  st_local : string }.

(** Code not modelled: CheckKeyOnCurve ([None]: an error) and the JSON value of the
    library's save data, both ways ([None]: an error). *)
Record fsenv := FsEnv {
  fe_folder : string;
  fe_curve : string -> option bool;
  fe_data : savedata -> option json;
  fe_undata : json -> option savedata }.

(** Field names are matched without regard to case (encoding/json decode.go, object, and
    fold.go, equalFoldRight: U+017F, the long s, is an s and U+212A, the kelvin sign, a k). *)
Definition lower (c : ascii) : ascii :=
  if (N.leb 65 (byte_val c) && N.leb (byte_val c) 90)%bool then ascii_of_N (byte_val c + 32) else c.
Definition is_byte (n : N) (c : ascii) : bool := N.eqb (byte_val c) n.
Fixpoint fold_bytes (l : bytes) : bytes :=
  match l with
  | [] => []
  | a :: l1 =>
      match l1 with
      | b :: l2 =>
          if (is_byte 0xC5 a && is_byte 0xBF b)%bool then "s"%char :: fold_bytes l2
          else match l2 with
               | c :: l3 =>
                   if (is_byte 0xE2 a && is_byte 0x84 b && is_byte 0xAA c)%bool then "k"%char :: fold_bytes l3
                   else lower a :: fold_bytes l1
               | [] => lower a :: fold_bytes l1
               end
      | [] => [lower a]
      end
  end.
Definition fold_name (s : string) : string := of_bytes (fold_bytes (to_bytes s)).
(** A value stored into a string: null leaves it as it is, anything but a string is an
    error. *)
Definition put_string (v : json) (old : string) : option string :=
  match v with JStr s => Some s | JNull => Some old | _ => None end.
Fixpoint put_strings (l : list json) : option (list string) :=
  match l with
  | [] => Some []
  | v :: r =>
      match put_string v "", put_strings r with Some s, Some t => Some (s :: t) | _, _ => None end
  end.

Section Storage.
  Context (F : fsenv).

  (** storage/localstate_mgr.go:70: the name of the file *)
  Definition state_name (pubKey : string) : string :=
    String.append "localstate-" (String.append pubKey ".json").
  (** storage/localstate_mgr.go:61-75 (getFilePathName) *)
  Definition getFilePathName (pubKey : string) : option string :=
    match fe_curve F pubKey with
    | Some true =>
        Some (if Nat.ltb 0 (String.length (fe_folder F)) then Join (fe_folder F) (state_name pubKey)
              else state_name pubKey)
    | _ => None
    end.

  (** json.Marshal of the state, storage/localstate_mgr.go:22-27 for the field names *)
  Definition marshal_state (s : stored) : option bytes :=
    match fe_data F (st_data s) with
    | None => None
    | Some d =>
        Some (json_enc (JObj [
          ("pub_key"%string, JStr (st_pub s));
          ("local_data"%string, d);
          ("participant_keys"%string, match st_participants s with Some l => JArr (map JStr l) | None => JNull end);
          ("local_party_key"%string, JStr (st_local s))]))
    end.

  (** json.Unmarshal into the state, field by field; the last of equal names wins and
      other names are ignored *)
  Definition put_field (acc : option stored) (kv : string * json) : option stored :=
    match acc with
    | None => None
    | Some s =>
        let name := fold_name (fst kv) in
        let v := snd kv in
        if String.eqb name "pub_key" then
          match put_string v (st_pub s) with
          | Some x => Some (Stored x (st_data s) (st_participants s) (st_local s))
          | None => None
          end
        else if String.eqb name "local_data" then
          match fe_undata F v with
          | Some x => Some (Stored (st_pub s) x (st_participants s) (st_local s))
          | None => None
          end
        else if String.eqb name "participant_keys" then
          match v with
          | JNull => Some (Stored (st_pub s) (st_data s) None (st_local s))
          | JArr l =>
              match put_strings l with
              | Some x => Some (Stored (st_pub s) (st_data s) (Some x) (st_local s))
              | None => None
              end
          | _ => None
          end
        else if String.eqb name "local_party_key" then
          match put_string v (st_local s) with
          | Some x => Some (Stored (st_pub s) (st_data s) (st_participants s) x)
          | None => None
          end
        else acc
    end.
  Definition zero_state : stored := Stored "" (SaveData None []) None "".
  Definition unmarshal_state (b : bytes) : option stored :=
    match json_dec b with
    | Some (JObj l) => fold_left put_field l (Some zero_state)
    | Some JNull => Some zero_state
    | _ => None
    end.

  (** storage/localstate_mgr.go:78-88 (SaveLocalState); the flag: no error *)
  Definition SaveLocalState (s : stored) (w : wout) (fs : files) : files * bool :=
    match marshal_state s with
    | None => (fs, false)
    | Some buf =>
        match getFilePathName (st_pub s) with
        | None => (fs, false)
        | Some p => WriteFile p buf w fs
        end
    end.

  (** storage/localstate_mgr.go:91-112 (GetLocalState); reading a file that is there
      is taken to succeed *)
  Definition GetLocalState (pubKey : string) (fs : files) : option stored :=
    if Nat.eqb (String.length pubKey) 0 then None
    else match getFilePathName pubKey with
    | None => None
    | Some p => match fs !! p with None => None | Some buf => unmarshal_state buf end
    end.

  (** ** The address book *)

  (** strings.Contains *)
  Fixpoint str_contains (sub s : string) : bool :=
    (String.prefix sub s || match s with EmptyString => false | String _ r => str_contains sub r end)%bool.

  (** storage/localstate_mgr.go:121-133; the book in the order the map is iterated,
      peers and addresses as their texts *)
  Definition records (book : list (string * list string)) : list string :=
    flat_map (fun '(p, addrs) => flat_map (fun a =>
      if str_contains "127.0.0.1" a then []
      else [String.append a (String.append "/p2p/" p)]) addrs) book.
  Definition newline : ascii := "010"%char.
  Definition book_text (book : list (string * list string)) : string :=
    concat_strings (map (fun r => String.append r (String newline EmptyString)) (records book)).
  Definition book_path : string := Join (fe_folder F) "address_book.seed".

  (** storage/localstate_mgr.go:114-137 (SaveAddressBook) *)
  Definition SaveAddressBook (book : list (string * list string)) (w : wout) (fs : files) : files * bool :=
    if Nat.ltb (String.length (fe_folder F)) 1 then (fs, false)
    else WriteFile book_path (to_bytes (book_text book)) w fs.

  (** storage/localstate_mgr.go:139-170 (RetrieveP2PAddresses); [parse] is
      ma.NewMultiaddr *)
  Context {A : Type} (parse : string -> option A).
  Fixpoint parse_lines (l : list string) : option (list A) :=
    match l with
    | [] => Some []
    | el :: r =>
        if Nat.eqb (String.length el) 0 then parse_lines r
        else match parse el with
        | None => None
        | Some a => match parse_lines r with Some l' => Some (a :: l') | None => None end
        end
    end.
  Definition RetrieveP2PAddresses (fs : files) : option (list A) :=
    if Nat.ltb (String.length (fe_folder F)) 1 then None
    else match fs !! book_path with
    | None => None
    | Some input => parse_lines (split_on newline (of_bytes input))
    end.
End Storage.

(** ** Histories *)
Inductive fop := OSave (s : stored) (w : wout) | OBook (book : list (string * list string)) (w : wout).
Definition frun1 (F : fsenv) (fs : files) (o : fop) : files :=
  match o with
  | OSave s w => fst (SaveLocalState F s w fs)
  | OBook b w => fst (SaveAddressBook F b w fs)
  end.
Definition frun (F : fsenv) (fs : files) (ops : list fop) : files := fold_left (frun1 F) ops fs.
