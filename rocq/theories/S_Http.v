(** Vocabulary for the HTTP endpoints: what a client sends and how it reads an answer. *)
From Coq Require Import ZArith NArith Ascii String List.
From stdpp Require Import base list strings.
From Verif Require Import Base S_Utf8 M_Base64 M_Conv M_Batch M_Common M_KeySign M_Json M_Keygen.

Local Open Scope string_scope.

(** ** Reading an answer, field by field *)

(** [k] stands once in the object [v], with the value [x]; [lacks]: it does not stand there. *)
Definition member (k : string) (v x : json) : Prop :=
  exists l1 l2, v = JObj (l1 ++ (k, x) :: l2) /\ k ∉ map fst (l1 ++ l2).
Definition lacks (k : string) (v : json) : Prop := exists l, v = JObj l /\ k ∉ map fst l.

Definition says_bytes (k : string) (v : json) (b : bytes) : Prop :=
  match b with
  | [] => member k v JNull \/ lacks k v
  | _ => exists s, member k v (JStr s) /\ DecodeString s = Some b
  end.
Definition says_node (v : json) (n : node) : Prop :=
  member "pubkey" v (JStr (n_pub n)) /\ says_bytes "data" v (n_data n) /\ says_bytes "signature" v (n_sig n).
Definition says_blame (v : json) (b : blame) : Prop :=
  member "fail_reason" v (JStr (bl_reason b)) /\ member "is_broadcast" v (JBool (bl_unicast b)) /\
  match bl_nodes b with
  | [] => lacks "blame_peers" v
  | nodes => exists l, member "blame_peers" v (JArr l) /\ Forall2 says_node l nodes
  end.
(** 0: not available, 1: success, 2: failure *)
Definition says_status (v : json) (s : status) : Prop :=
  (s = NA /\ member "status" v (JNum 0)) \/ (s = Success /\ member "status" v (JNum 1)) \/
  (s = Fail /\ member "status" v (JNum 2)).
Definition says_keygen (v : json) (r : kresp) : Prop :=
  member "pub_key" v (JStr (kr_pub r)) /\ member "pool_address" v (JStr (kr_addr r)) /\
  says_status v (kr_status r) /\ exists w, member "blame" v w /\ says_blame w (kr_blame r).
Definition says_sig (v : json) (g : rsig) : Prop :=
  member "signed_msg" v (JStr (rs_msg g)) /\ member "r" v (JStr (rs_r g)) /\
  member "s" v (JStr (rs_s g)) /\ member "recovery_id" v (JStr (rs_recovery g)).
Definition says_keysign (v : json) (r : response) : Prop :=
  match rp_sigs r with
  | [] => member "signatures" v JNull
  | gs => exists l, member "signatures" v (JArr l) /\ Forall2 says_sig l gs
  end /\
  says_status v (rp_status r) /\ exists w, member "blame" v w /\ says_blame w (rp_blame r).

(** Responses of which all strings are text. *)
Definition blame_texts (b : blame) : Prop := text (bl_reason b) /\ Forall (fun n => text (n_pub n)) (bl_nodes b).
Definition keygen_texts (r : kresp) : Prop := text (kr_pub r) /\ text (kr_addr r) /\ blame_texts (kr_blame r).
Definition keysign_texts (r : response) : Prop :=
  Forall (fun g => text (rs_msg g) /\ text (rs_r g) /\ text (rs_s g) /\ text (rs_recovery g)) (rp_sigs r) /\ blame_texts (rp_blame r).

(** ** Requests *)

Definition request_texts (q : request) : Prop :=
  match q with
  | KeygenReq keys _ v => Forall text keys /\ text v
  | KeysignReq pool msgs signers _ v => text pool /\ Forall text msgs /\ Forall text signers /\ text v
  end.

Definition int64 (z : Z) : Prop := (- 2 ^ 63 <= z < 2 ^ 63)%Z.
(** Fields as a client writes them. *)
Definition texts (l : list string) : json := JArr (map JStr l).
Definition keygen_fields (keys : list string) (h : Z) (v : string) : list (string * json) :=
  [("keys", texts keys); ("block_height", JNum h); ("tss_version", JStr v)].
Definition keysign_fields (pool : string) (msgs signers : list string) (h : Z) (v : string) : list (string * json) :=
  [("pool_pub_key", JStr pool); ("messages", texts msgs); ("signer_pub_keys", texts signers);
   ("block_height", JNum h); ("tss_version", JStr v)].

(** Values a field accepts: null is always accepted. *)
Definition text_or_null (v : json) : Prop := v = JNull \/ exists s, v = JStr s.
Definition texts_or_null (v : json) : Prop := v = JNull \/ exists l, v = JArr l /\ Forall text_or_null l.
Definition number_or_null (v : json) : Prop := v = JNull \/ exists z, v = JNum z /\ int64 z.
(** The same name up to the case of letters. The long s (U+017F) is an s and the kelvin
    sign (U+212A) is a k. *)
Definition is_upper (c : ascii) : Prop := (65 <= byte_val c <= 90)%N.
Definition same_letter (a b : ascii) : Prop :=
  a = b \/ (is_upper a /\ byte_val b = (byte_val a + 32)%N) \/ (is_upper b /\ byte_val a = (byte_val b + 32)%N).
Inductive spelled : bytes -> bytes -> Prop :=
  | sp_end : spelled [] []
  | sp_letter a b l n : same_letter a b -> spelled l n -> spelled (a :: l) (b :: n)
  | sp_long_s a b c l n : byte_val a = 0xC5%N -> byte_val b = 0xBF%N -> c = "s"%char \/ c = "S"%char ->
      spelled l n -> spelled (a :: b :: l) (c :: n)
  | sp_kelvin a b c d l n : byte_val a = 0xE2%N -> byte_val b = 0x84%N -> byte_val c = 0xAA%N -> d = "k"%char \/ d = "K"%char ->
      spelled l n -> spelled (a :: b :: c :: l) (d :: n).
Definition named (k name : string) : Prop := spelled (to_bytes k) (to_bytes name).

Definition keygen_typed (v : json) : Prop :=
  v = JNull \/ exists l, v = JObj l /\ Forall (fun kv =>
    (named (fst kv) "keys" -> texts_or_null (snd kv)) /\
    (named (fst kv) "block_height" -> number_or_null (snd kv)) /\
    (named (fst kv) "tss_version" -> text_or_null (snd kv))) l.
Definition keysign_typed (v : json) : Prop :=
  v = JNull \/ exists l, v = JObj l /\ Forall (fun kv =>
    (named (fst kv) "pool_pub_key" -> text_or_null (snd kv)) /\
    (named (fst kv) "messages" -> texts_or_null (snd kv)) /\
    (named (fst kv) "signer_pub_keys" -> texts_or_null (snd kv)) /\
    (named (fst kv) "block_height" -> number_or_null (snd kv)) /\
    (named (fst kv) "tss_version" -> text_or_null (snd kv))) l.

(** The object [l] states the fields [fs], in any order, perhaps among others of other names. *)
Definition states (fs l : list (string * json)) : Prop :=
  fs ⊆ l /\ Forall (fun kv => kv ∈ fs \/ forall f, f ∈ fs -> ~ named (fst kv) (fst f)) l.

(** ** Paths *)

(** A path in canonical form: names other than "." and ".." with one slash before each, and
    possibly one at the end. *)
Definition segment (c : string) : Prop := c <> "" /\ c <> "." /\ c <> ".." /\ "/"%char ∉ to_bytes c.
Fixpoint slashes (cs : list string) : string :=
  match cs with [] => "" | c :: cs => String "/" (String.append c (slashes cs)) end.
Definition canonical (p : string) : Prop :=
  exists cs tail, Forall segment cs /\ (tail = "" \/ tail = "/") /\ (cs = [] -> tail = "/") /\ p = String.append (slashes cs) tail.
