(** cmd/tss-recovery: the tool that puts a private key together from saved shares. *)
From Coq Require Import ZArith NArith Ascii String List.
From stdpp Require Import base list strings gmap.
From Verif Require Import Base M_Json M_Storage.

(** ** tss-lib crypto/vss/feldman_vss.go, ReConstruct (not in /repo) *)

(** The inverse of [g] modulo [n] (math/big ModInverse), by the extended Euclidean
    algorithm: [r0 = s0 g], [r1 = s1 g] modulo [n]. [None]: nil, there is no inverse. *)
Fixpoint euclid (fuel : nat) (r0 r1 s0 s1 : Z) : Z * Z :=
  match fuel with
  | O => (r0, s0)
  | S fuel =>
      if Z.eqb r1 0 then (r0, s0)
      else euclid fuel r1 (r0 mod r1) s1 (s0 - r0 / r1 * s1)
  end.
Definition ModInverse (g n : Z) : option Z :=
  let '(d, s) := euclid (2 * Z.to_nat (Z.log2 n) + 4) n (g mod n) 0 1 in
  if Z.eqb d 1 then Some (s mod n)%Z else None.

(** vss.Share; [None]: a nil pointer *)
Record share := Share { sh_threshold : Z; sh_id : option Z; sh_val : option Z }.
(** The product over the other shares; [None]: nil is dereferenced. *)
Fixpoint times_loop (q : Z) (i j : nat) (xs : list (option Z)) (id : option Z) (times : Z) : option Z :=
  match xs with
  | [] => Some times
  | x :: rest =>
      if Nat.eqb j i then times_loop q i (S j) rest id times
      else match x, id with
      | Some x, Some a =>
          let sub := ((x - a) mod q)%Z in
          match ModInverse sub q with
          | Some subInv =>
              let div := (x * subInv mod q)%Z in
              times_loop q i (S j) rest id (times * div mod q)%Z
          | None => None
          end
      | _, _ => None
      end
  end.
Fixpoint secret_loop (q : Z) (xs : list (option Z)) (i : nat) (shares : list share) (secret : Z) : option Z :=
  match shares with
  | [] => Some secret
  | s :: rest =>
      match times_loop q i 0 xs (sh_id s) 1 with
      | None => None
      | Some times =>
          match sh_val s with
          | None => None
          | Some v => secret_loop q xs (S i) rest ((secret + v * times mod q) mod q)%Z
          end
      end
  end.
Inductive rc := RcErr | RcPanic | RcKey (z : Z).
Definition ReConstruct (q : Z) (shares : list share) : rc :=
  match shares with
  | [] => RcPanic
  | s :: _ =>
      if Z.ltb (Z.of_nat (length shares)) (sh_threshold s) then RcErr
      else match secret_loop q (map sh_id shares) 0 shares 0 with Some z => RcKey z | None => RcPanic end
  end.

(** The order of secp256k1 (tss.EC().Params().N) *)
Definition secp_n : Z := 0xFFFFFFFFFFFFFFFFFFFFFFFFFFFFFFFEBAAEDCE6AF48A03BBFD25E8CD0364141.

(** ** The flag package (not in /repo): Parse of the command line with the flags n,
    export and password of cmd/tss-recovery/tss-recovery.go:15-19 *)

(** The name and the value after the first equals sign, not looked for at the front *)
Fixpoint cut_eq (s : string) : string * option string :=
  match s with
  | EmptyString => (EmptyString, None)
  | String c r =>
      if decide (c = "="%char) then (EmptyString, Some r)
      else let '(n, v) := cut_eq r in (String c n, v)
  end.
Definition flag_name (s : string) : string * option string :=
  match s with
  | EmptyString => (EmptyString, None)
  | String c r => let '(n, v) := cut_eq r in (String c n, v)
  end.
(** What an argument is: the end of the flags (with or without being one of the other
    arguments), bad syntax, or a flag. *)
Inductive argkind := AStop | ADashes | ABad | AFlag (name : string) (value : option string).
Definition arg_kind (s : string) : argkind :=
  match s with
  | String "-" (String c r) =>
      if decide (c = "-"%char) then
        match r with
        | EmptyString => ADashes
        | String d _ => if decide (d = "-"%char \/ d = "="%char) then ABad else let '(n, v) := flag_name r in AFlag n v
        end
      else if decide (c = "="%char) then ABad
      else let '(n, v) := flag_name (String c r) in AFlag n v
  | _ => AStop
  end.
Record flags := Flags { fl_n : Z; fl_export : string; fl_password : string }.

Section Flags.
  (** strconv.ParseInt(s, 0, 64) *)
  Context (parse_int : string -> option Z).

  Definition set_flag (name value : string) (f : flags) : option flags :=
    if String.eqb name "n" then
      match parse_int value with Some z => Some (Flags z (fl_export f) (fl_password f)) | None => None end
    else if String.eqb name "export" then Some (Flags (fl_n f) value (fl_password f))
    else if String.eqb name "password" then Some (Flags (fl_n f) (fl_export f) value)
    else None.
  Definition known (name : string) : bool :=
    (String.eqb name "n" || String.eqb name "export" || String.eqb name "password")%bool.
  (** [None]: the program ends with a message (also for -h and -help). *)
  Fixpoint Parse (args : list string) (f : flags) : option (flags * list string) :=
    match args with
    | [] => Some (f, [])
    | a :: rest =>
        match arg_kind a with
        | AStop => Some (f, args)
        | ADashes => Some (f, rest)
        | ABad => None
        | AFlag name value =>
            if known name then
              match value with
              | Some v => match set_flag name v f with Some f' => Parse rest f' | None => None end
              | None =>
                  match rest with
                  | [] => None
                  | v :: rest' => match set_flag name v f with Some f' => Parse rest' f' | None => None end
                  end
              end
            else None
        end
    end.
End Flags.

(** ** cmd/tss-recovery/key.go: the exported key file *)

Definition xor_byte (a b : ascii) : ascii := ascii_of_N (N.lxor (byte_val a) (byte_val b)).
(** crypto/cipher ctr.go (not in /repo): the counter goes up by one, from its last byte *)
Fixpoint incr_rev (b : bytes) : bytes :=
  match b with
  | [] => []
  | c :: r => if N.eqb (byte_val c) 255 then "000"%char :: incr_rev r else ascii_of_N (byte_val c + 1) :: r
  end.
Definition incr (ctr : bytes) : bytes := rev (incr_rev (rev ctr)).
Definition hex_digit (n : N) : ascii := ascii_of_N (if N.ltb n 10 then 48 + n else 87 + n)%N.
(** hex.EncodeToString *)
Definition hex_encode (b : bytes) : string :=
  of_bytes (concat (map (fun c => [hex_digit (byte_val c / 16); hex_digit (byte_val c mod 16)]) b)).

(** Code not modelled: pbkdf2.Key with SHA-256 (password, salt, iterations, length),
    the AES block function of a key, Keccak-512; what crypto/rand and uuid.NewV4 give
    ([None]: an error). *)
Record kenv := KEnv {
  ke_pbkdf2 : bytes -> bytes -> N -> nat -> bytes;
  ke_aes : bytes -> bytes -> bytes;
  ke_keccak : bytes -> bytes;
  ke_salt : option bytes;
  ke_iv : option bytes;
  ke_uuid : option string }.

Section Key.
  Context (K : kenv).

  Fixpoint keystream (key : bytes) (n : nat) (ctr : bytes) : bytes :=
    match n with O => [] | S n => ke_aes K key ctr ++ keystream key n (incr ctr) end.
  (** cmd/tss-recovery/tool.go:72-82 (aesCTRXOR); [None]: an error or the panic of
      cipher.NewCTR, both from lengths this tool does not use *)
  Definition aesCTRXOR (key inText iv : bytes) : option bytes :=
    if negb (Nat.eqb (length key) 16 || Nat.eqb (length key) 24 || Nat.eqb (length key) 32)%bool then None
    else if negb (Nat.eqb (length iv) 16) then None
    else Some (zip_with xor_byte inText (keystream key (S (length inText / 16)) iv)).

  (** cmd/tss-recovery/key.go:33-85 (exportKeyStore), with the JSON value of the result
      (lines 13-31); the keys of a map are sorted *)
  Definition exportKeyStore (privKey : bytes) (password : string) : option json :=
    match ke_salt K, ke_iv K with
    | Some salt, Some iv =>
        let derivedKey := ke_pbkdf2 K (to_bytes password) salt 262144 32 in
        let encryptKey := take 32 derivedKey in
        match aesCTRXOR encryptKey privKey iv with
        | None => None
        | Some cipherText =>
            let mac := ke_keccak K (drop 16 (take 32 derivedKey) ++ cipherText) in
            match ke_uuid K with
            | None => None
            | Some id =>
                Some (JObj [
                  ("crypto"%string, JObj [
                    ("cipher"%string, JStr "aes-256-ctr");
                    ("ciphertext"%string, JStr (hex_encode cipherText));
                    ("cipherparams"%string, JObj [("iv"%string, JStr (hex_encode iv))]);
                    ("kdf"%string, JStr "pbkdf2");
                    ("kdfparams"%string, JObj [
                      ("c"%string, JNum 262144); ("dklen"%string, JNum 32);
                      ("prf"%string, JStr "hmac-sha256"); ("salt"%string, JStr (hex_encode salt))]);
                    ("mac"%string, JStr (hex_encode mac))]);
                  ("id"%string, JStr id); ("version"%string, JNum 1)])
            end
        end
    | _, _ => None
    end.
End Key.

(** ** cmd/tss-recovery/tss-recovery.go *)

(** What the tool uses of a file (tool.go:21-43, getTssSecretFile): the group key, the
    share's number and the share, nil when they are not given. *)
Record secretfile := SecretFile { sf_pub : string; sf_id : option Z; sf_xi : option Z }.
Definition empty_secret : secretfile := SecretFile "" None None.
(** NewPrivateKey and Serialize of the dcrd library: 32 bytes, big-endian *)
Fixpoint be_bytes (n : nat) (z : N) : bytes :=
  match n with O => [] | S n => be_bytes n (z / 256) ++ [ascii_of_N (z mod 256)] end.

(** How the program ends. [THelp]: from flag.Parse. [TDone]: the key printed, whether
    "wrote to" is printed, the files. *)
Inductive tres := THelp | TPanic | TDone (key : Z) (wrote : bool) (fs : files).

Section Tool.
  Context (K : kenv) (parse_int : string -> option Z)
    (load : string -> option secretfile)   (* getTssSecretFile; None: an error *)
    (w : wout)                             (* how the write of the key file ends *)
    (fs : files).

  (** cmd/tss-recovery/tss-recovery.go:14-81 (main); [n] is read before Parse. The
      public key printed is left out. *)
  Definition main (args : list string) : tres :=
    let n := 3 in
    let threshold := (Z.of_nat n - 1)%Z in
    match Parse parse_int args (Flags 3 "" "") with
    | None => THelp
    | Some (f, names) =>
        let allSecret := map (fun name => match load name with Some s => s | None => empty_secret end) names in
        let vssShares := map (fun el => Share threshold (sf_id el) (sf_xi el)) allSecret in
        if Nat.ltb (length vssShares) n then TPanic
        else match ReConstruct secp_n (take n vssShares) with
        | RcPanic => TPanic
        | RcErr => TPanic (* NewPrivateKey of nil *)
        | RcKey key =>
            if (negb (String.eqb (fl_export f) "") && Nat.leb 8 (String.length (fl_password f)))%bool then
              let jsonString := json_enc (match exportKeyStore K (be_bytes 32 (Z.to_N key)) (fl_password f) with Some v => v | None => JNull end) in
              TDone key true (fst (WriteFile (fl_export f) jsonString w fs))
            else TDone key false fs
        end
    end.
End Tool.
