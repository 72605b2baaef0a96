(** Vocabulary for the recovery tool. *)
From Coq Require Import ZArith Znumtheory NArith Ascii String List.
From stdpp Require Import base list strings.
From Verif Require Import Base M_Json S_Key S_Http.

Local Open Scope Z_scope.

(** ** Shamir's sharing *)

(** A polynomial by its coefficients, the constant first. *)
Fixpoint peval (f : list Z) (x : Z) : Z := match f with [] => 0 | a :: f' => a + x * peval f' x end.
(** Every party deals a polynomial. The share of number [x] is the sum of what is dealt
    to it, the private key is the sum of the constants, both modulo [q]. *)
Definition dealt (polys : list (list Z)) (x : Z) : Z := fold_right Z.add 0 (map (fun f => peval f x) polys).
Definition group_secret (q : Z) (polys : list (list Z)) : Z := dealt polys 0 mod q.
Definition degree_at_most (t : nat) (f : list Z) : Prop := (length f <= S t)%nat.
(** Distinct numbers modulo [q]. *)
Definition distinct (q : Z) (xs : list Z) : Prop := NoDup (map (fun x => x mod q) xs).

(** ** A key file *)

(** Byte [i] of the stream of AES in counter mode: the counter is a number of 128 bits. *)
Definition counter_block (b : bytes) (n : N) : Prop := length b = 16%nat /\ be_val b = (n mod 2 ^ 128)%N.
Definition stream_byte (aes : bytes -> bytes -> bytes) (key iv : bytes) (i : nat) (c : ascii) : Prop :=
  exists block, counter_block block (be_val iv + N.of_nat (i / 16)%nat) /\ aes key block !! (i mod 16)%nat = Some c.
Definition decrypts (aes : bytes -> bytes -> bytes) (key iv text plain : bytes) : Prop :=
  length text = length plain /\
  forall i c, text !! i = Some c -> exists k, stream_byte aes key iv i k /\
    plain !! i = Some (ascii_of_N (N.lxor (byte_val c) (byte_val k))).

(** [s] is hexadecimal text of [b]. *)
Definition hex_of (s : string) (b : bytes) : Prop := spells (to_bytes s) b.
(** What a wallet does with the file and the password: read the parameters, derive the
    key, check the code of the cipher text, decrypt. *)
Definition opens (pbkdf2 : bytes -> bytes -> N -> nat -> bytes) (aes : bytes -> bytes -> bytes) (keccak : bytes -> bytes)
    (v : json) (password : string) (plain : bytes) : Prop :=
  exists crypto params kdf salt iv text mac saltS ivS textS macS,
    member "version" v (JNum 1) /\ member "crypto" v crypto /\
    member "cipher" crypto (JStr "aes-256-ctr") /\ member "kdf" crypto (JStr "pbkdf2") /\
    member "cipherparams" crypto params /\ member "iv" params (JStr ivS) /\ hex_of ivS iv /\
    member "kdfparams" crypto kdf /\ member "prf" kdf (JStr "hmac-sha256") /\
    member "c" kdf (JNum 262144) /\ member "dklen" kdf (JNum 32) /\ member "salt" kdf (JStr saltS) /\ hex_of saltS salt /\
    member "ciphertext" crypto (JStr textS) /\ hex_of textS text /\
    member "mac" crypto (JStr macS) /\ hex_of macS mac /\
    let dk := pbkdf2 (to_bytes password) salt 262144%N 32%nat in
    mac = keccak (drop 16 dk ++ text) /\ decrypts aes dk iv text plain.

(** ** The command line *)

(** How an option is written. *)
Inductive option_written (name value : string) : list string -> Prop :=
  | ow_word : option_written name value [String "-" name; value]
  | ow_words : option_written name value [String "-" (String "-" name); value]
  | ow_eq : option_written name value [String "-" (name ++ String "=" value)]
  | ow_eqs : option_written name value [String "-" (String "-" (name ++ String "=" value))].
(** The value of the last option of that name *)
Definition last_value (name : string) (opts : list (string * string)) : option string :=
  fold_left (fun d o => if String.eqb (fst o) name then Some (snd o) else d) opts None.
(** The names of the files after the options: marked with two dashes, or the first does
    not look like an option. *)
Inductive names_written (names : list string) : list string -> Prop :=
  | nw_dashes : names_written names ("--"%string :: names)
  | nw_plain : (forall a rest, names = a :: rest -> forall c r, a <> String "-" (String c r)) -> names_written names names.
