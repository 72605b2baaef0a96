(** Model of the benchmark programs cmd/tss-benchgen/main.go and
    cmd/tss-benchsign/main.go.

    The local parties of tss-lib run as goroutines; what they send, when they end and
    with what are inputs of the loop in the middle of both programs. Simplifications: the
    flag package gives the numbers and the other arguments (its rules are in
    [M_Recovery]); a path is a text and names one thing; what is printed on the way, the
    progress in per cent and the number of threads are left out; the counter of ended
    parties does not overflow; the times measured are inputs. *)
From Coq Require Import ZArith NArith Ascii String List.
From stdpp Require Import base list strings gmap sorting.
From Verif Require Import Base M_Conv.
Local Open Scope string_scope.

(** ** Files *)

Inductive node := NDir | NFile (b : bytes).
Notation fsys := (gmap string node).
(** cmd/tss-benchgen/main.go:231-233, cmd/tss-benchsign/main.go:264-266 *)
Definition makeKeyGenDataFilePath (dir : string) (partyIndex : Z) : string :=
  dir ++ "/keygen_data_" ++ format_int partyIndex ++ ".json".
(** How the writing of one file ends. *)
Inductive wend :=
  | OpenFails        (* OpenFile gives an error *)
  | MarshalFails     (* the file is there, empty *)
  | WriteFails (k : nat) (* only the first k bytes are there *)
  | Written.
(** cmd/tss-benchgen/main.go:205-229 (tryWriteKeyGenDataFile); true: it panics *)
Definition tryWriteKeyGenDataFile (dir : string) (index : Z) (data : bytes) (w : wend) (fs : fsys) : fsys * bool :=
  let p := makeKeyGenDataFilePath dir index in
  match fs !! p with
  | Some (NFile _) => (fs, false)
  | Some NDir => (fs, true)
  | None =>
      match w with
      | OpenFails => (fs, true)
      | MarshalFails => (<[p := NFile []]> fs, true)
      | WriteFails k => (<[p := NFile (take k data)]> fs, true)
      | Written => (<[p := NFile data]> fs, false)
      end
  end.

(** ** The loop: cmd/tss-benchgen/main.go:148-203, cmd/tss-benchsign/main.go:144-196 *)

Inductive lstatus := LRunning | LDone | LPanic.
(** What a local party does: it reports an error, emits a message (the sender and the
    receivers it names, or none), or ends with a result. *)
Inductive llabel (M E : Type) :=
  | LError
  | LMessage (m : M) (from : Z) (dest : option (list Z))
  | LEnd (e : E).
Arguments LError {M E}. Arguments LMessage {M E}. Arguments LEnd {M E}.
(** [l_got]: the calls of the updater, the number of the party and the message *)
Record lstate (M : Type) := LState { l_fs : fsys; l_ended : nat; l_got : list (Z * M); l_status : lstatus }.
Arguments LState {M}. Arguments l_fs {M}. Arguments l_ended {M}. Arguments l_got {M}. Arguments l_status {M}.

Section Loop.
  Context {M E : Type}.
  Context (n : nat).                            (* how many local parties *)
  Context (keep : E -> fsys -> fsys * bool).    (* what is done with a result; true: panic *)
  Context (good : E -> bool).                   (* the checks on the last result *)

  Definition l_step (l : llabel M E) (s : lstate M) : lstate M :=
    match l_status s with
    | LRunning =>
        let panic := LState (l_fs s) (l_ended s) (l_got s) LPanic in
        match l with
        | LError => panic
        | LMessage m from None =>
            let others := filter (fun i => i <> from) (map Z.of_nat (seq 0 n)) in
            LState (l_fs s) (l_ended s) ((l_got s ++ map (fun i => (i, m)) others)%list) LRunning
        | LMessage m from (Some []) => panic
        | LMessage m from (Some (d :: _)) =>
            if (Z.eqb d from || Z.ltb d 0 || Z.leb (Z.of_nat n) d)%bool then panic
            else LState (l_fs s) (l_ended s) ((l_got s ++ [(d, m)])%list) LRunning
        | LEnd e =>
            let '(fs, p) := keep e (l_fs s) in
            if p then LState fs (l_ended s) (l_got s) LPanic
            else
              let ended := S (l_ended s) in
              LState fs ended (l_got s)
                (if Nat.eqb ended n then if good e then LDone else LPanic else LRunning)
        end
    | _ => s
    end.
  Definition l_run (fs : fsys) (ls : list (llabel M E)) : lstate M :=
    fold_left (fun s l => l_step l s) ls (LState fs 0 [] LRunning).
End Loop.

(** ** tss-benchgen *)

(** A result of a local party: the index OriginalIndex gives, the JSON of the data, how
    its file is written, and whether the public key is on the curve. *)
Record saved := Saved { sv_index : option Z; sv_data : bytes; sv_write : wend; sv_curve : bool }.
(** cmd/tss-benchgen/main.go:174-181 *)
Definition keep_saved (dir : string) (e : saved) (fs : fsys) : fsys * bool :=
  match sv_index e with
  | None => (fs, true)
  | Some i => tryWriteKeyGenDataFile dir i (sv_data e) (sv_write e) fs
  end.
(** How the program ends or where it stands: a code of exit, a panic, or still in the
    loop. *)
Inductive bend := BExit (code : nat) | BPanic | BLoop.
(** cmd/tss-benchgen/main.go:49-93 (main); [mkdir]: Mkdir works *)
Definition gen_main {M} (quorum parties : Z) (args : list string) (mkdir : bool) (fs : fsys)
    (ls : list (llabel M saved)) : bend * fsys :=
  if (Z.leb parties 0 || Z.leb quorum 1 || Z.ltb parties quorum)%bool then (BExit 1, fs)
  else match args with
  | [] => (BExit 2, fs)
  | dir :: _ =>
      match fs !! dir with
      | Some _ => (BExit 1, fs)
      | None =>
          if mkdir then
            let s := l_run (Z.to_nat parties) (keep_saved dir) sv_curve (<[dir := NDir]> fs) ls in
            (match l_status s with LRunning => BLoop | LDone => BExit 0 | LPanic => BPanic end, l_fs s)
          else (BPanic, fs)
      end
  end.

(** ** tss-benchsign *)

Section Sign.
  (** json.Unmarshal of the data of a party, and its share id *)
  Context {K : Type} (parse : bytes -> option K) (share_id : K -> Z).

  (** cmd/tss-benchsign/main.go:233-262 (loadKeyGenData), without the optional start. The
      parties are their names and share ids, in the order of tss.SortPartyIDs. *)
  Fixpoint load_files (dir : string) (fs : fsys) (i : nat) (qty : nat) : option (list K) :=
    match qty with
    | O => Some []
    | S qty =>
        match fs !! makeKeyGenDataFilePath dir (Z.of_nat i) with
        | Some (NFile b) =>
            match parse b, load_files dir fs (S i) qty with
            | Some k, Some r => Some (k :: r)
            | _, _ => None
            end
        | _ => None
        end
    end.
  Definition id_le (a b : string * Z) : Prop := (snd a <= snd b)%Z.
  Global Instance id_le_dec : RelDecision id_le := fun a b => Z_le_dec (snd a) (snd b).
  Definition loadKeyGenData (dir : string) (fs : fsys) (qty : nat) : option (list K * list (string * Z)) :=
    match load_files dir fs 0 qty with
    | None => None
    | Some keys =>
        Some (keys, merge_sort id_le (imap (fun i k => (itoa (N.of_nat (S i)), share_id k)) keys))
    end.
  (** The local parties of a run: the id and the data each one is given
      (cmd/tss-benchsign/main.go:113-137); [None]: the program panics. *)
  Definition signers (dir : string) (fs : fsys) (t : Z) : option (list ((string * Z) * K)) :=
    let q := (t + 1)%Z in
    if Z.ltb q 0 then None
    else match loadKeyGenData dir fs (Z.to_nat q) with
         | Some (keys, ids) =>
             if (Nat.eqb (length keys) (Z.to_nat q) && Nat.eqb (length ids) (Z.to_nat q))%bool then Some (zip ids keys) else None
         | None => None
         end.
  (** The runs of main: cmd/tss-benchsign/main.go:80-97. [sign parties]: how one ceremony
      ends; [None]: it panics; otherwise the time it takes. The result is that of each
      run: the quorums and the times. *)
  Context (sign : nat -> list ((string * Z) * K) -> option Z).
  Fixpoint run_quorums (dir : string) (fs : fsys) (run : nat) (qs : list Z) : option (list (Z * Z)) :=
    match qs with
    | [] => Some []
    | q :: r =>
        match signers dir fs (q - 1) with
        | None => None
        | Some ps =>
            match sign run ps, run_quorums dir fs run r with Some d, Some t => Some ((q, d) :: t) | _, _ => None end
        end
    end.
  Definition quorums (start stop : Z) : list Z := map (fun i => (start + Z.of_nat i)%Z) (seq 0 (Z.to_nat (stop - start + 1))).
  Fixpoint all_runs (dir : string) (fs : fsys) (qs : list Z) (runs : list nat) : option (list (list (Z * Z))) :=
    match runs with
    | [] => Some []
    | run :: r => match run_quorums dir fs run qs, all_runs dir fs qs r with Some x, Some t => Some (x :: t) | _, _ => None end
    end.
  (** cmd/tss-benchsign/main.go:198-229 (printSummary): of each row the quorum, the times and
      the mean; [None]: an index out of range *)
  Fixpoint column (results : list (list (Z * Z))) (i : nat) : option (list Z) :=
    match results with
    | [] => Some []
    | l :: r => match l !! i, column r i with Some x, Some t => Some (snd x :: t) | _, _ => None end
    end.
  Definition row (results : list (list (Z * Z))) (i : nat) (x : Z * Z) : option (Z * list Z * Z) :=
    match column results i with
    | None => None
    | Some ms => Some (fst x, ms, (fold_left Z.add ms 0 ÷ Z.of_nat (length results))%Z)
    end.
  Definition printSummary (results : list (list (Z * Z))) : option (list (Z * list Z * Z)) :=
    match results with
    | [] => None
    | first :: _ => mapM (fun ix => row results (fst ix) (snd ix)) (imap (fun i x => (i, x)) first)
    end.
  (** How tss-benchsign ends: refused, a panic, or the table it prints *)
  Inductive sres := SRefused (code : nat) | SPanic | STable (rows : list (Z * list Z * Z)).
  (** cmd/tss-benchsign/main.go:43-102 (main) *)
  Definition sign_main (startQuorum endQuorum runs : Z) (args : list string) (fs : fsys) : sres :=
    if (Z.leb endQuorum 1 || Z.ltb runs 1 || Z.ltb endQuorum startQuorum)%bool then SRefused 1
    else match args with
    | [] => SRefused 2
    | dir :: _ =>
        match fs !! dir with
        | Some NDir =>
            match fs !! makeKeyGenDataFilePath dir (endQuorum - 1) with
            | None => SRefused 1
            | Some _ =>
                match all_runs dir fs (quorums startQuorum endQuorum) (seq 0 (Z.to_nat runs)) with
                | None => SPanic
                | Some results => match printSummary results with None => SPanic | Some t => STable t end
                end
            end
        | _ => SRefused 1
        end
    end.
End Sign.
