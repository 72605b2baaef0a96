(** Vocabulary for a signing request on all the nodes of a pool. *)
From Coq Require Import ZArith NArith Ascii String List.
From stdpp Require Import base list strings.
From Verif Require Import Base M_Semver M_Conv M_Base64 M_Batch M_Notifier S_Notifier S_Batch M_Join M_Common M_Blame M_KeySign S_KeySign M_Pool.

(** What the nodes broadcast, the others read back as it was. *)
Definition intact (E : string -> senv) (J : string -> sjob) (tr : list (string * klabel)) : Prop :=
  forall p q sig ps b, (sig, ps) ∈ k_bcasts (at_node E J tr p) -> q ∈ ps ->
    notification (se_n (E p)) (sj_id (J p)) sig = Some b ->
    decode_notification (se_n (E q)) (Some b) = Some (sj_id (J p), default [] sig).

(** The same said beforehand: the signatures [l], in whatever order, can be written
    by every node and read back by every other, and a failure reads as no signature. *)
Record readable (E : string -> senv) (J : string -> sjob) (peers : list string) (l : list ecsig) : Prop := Readable {
  rd_sigs : forall p q d, p ∈ peers -> q ∈ peers -> d ≡ₚ l -> exists b,
    notification (se_n (E p)) (sj_id (J p)) (Some d) = Some b /\
    decode_notification (se_n (E q)) (Some b) = Some (sj_id (J p), d);
  rd_failure : forall p q b, p ∈ peers -> q ∈ peers ->
    notification (se_n (E p)) (sj_id (J p)) None = Some b ->
    decode_notification (se_n (E q)) (Some b) = Some (sj_id (J p), []) }.

(** Every node of the pool got the same request; [keys] and [peers] are the members'
    keys and peer ids. *)
Record one_request (E : string -> senv) (J : string -> sjob) (sha : bytes -> string) (keys peers : list string)
    (pool : string) (strs signers : list string) (h : Z) (v : string) : Prop := OneRequest {
  or_hash : forall b, sha b <> ""%string;
  or_strs : strs <> [];
  or_pool : pool <> ""%string;
  or_height : h <> 0%Z;
  or_members : keys <> [];
  or_signers : forall k, k ∈ signers -> k ∈ keys;
  or_node : forall p, p ∈ peers ->
    se_sha (E p) = sha /\ se_self (E p) = p /\
    prepare (E p) pool strs signers h v = inr (J p) /\ sj_participants (J p) = keys /\
    Forall2 (fun k q => peer_of (E p) k = Some q /\ se_pub (E p) q = Some k) keys peers /\
    se_pub (E p) p = Some (sj_local (J p)) }.

(** [l] is a set of signatures for the messages: one over the integer of each, which
    every node finds to verify for the messages that have this integer. *)
Record signature_set (E : string -> senv) (peers : list string) (pool : string) (msgs : list bytes) (l : list ecsig) : Prop := SigSet {
  ss_all : all_signed (fun _ _ => True) msgs l;
  ss_valid : forall q g m, q ∈ peers -> g ∈ l -> m ∈ msgs -> be_val (sg_M g) = MsgToHashInt m ->
    sg_signature g <> None /\ verifies (se_n (E q)) pool m g }.

(** The node was given the signatures by another one. *)
Definition told (s : kstate) : Prop := exists r, k_w s = WEnd (Some r).

(** A run in which nothing goes wrong: no node gives up waiting or learns of the
    signatures before it started to wait; the party that forms is [party] and the
    ceremony leaves the signatures [l] in whatever order - unless the node was told
    the signatures before. *)
Definition goes_well (E : string -> senv) (J : string -> sjob) (peers party : list string) (l : list ecsig)
    (tr : list (string * klabel)) (p : string) (lab : klabel) : Prop :=
  p ∈ peers /\
  match lab with
  | KWTimeout => False
  | KWData _ => k_w (at_node E J tr p) <> WNew
  | KGJoined o =>
      (oc_err o = ENone /\ exists online, oc_peers o = Some online /\ forall q, q ∈ online <-> q ∈ party) \/
      told (at_node E J tr p)
  | KGSigned (CEnd endCh) => endCh ≡ₚ l
  | KGSigned (CFail _) => told (at_node E J tr p)
  | _ => True
  end.

(** The answer: for the messages [ms] one entry each, which carries a signature of
    [l] over the integer of the message that verifies under the pool key. *)
Definition signed_answer (e : senv) (pool : string) (ms : list bytes) (l : list ecsig) (r : response) : Prop :=
  rp_status r = Success /\ rp_blame r = Blame "" false [] /\
  exists pairs : list (bytes * ecsig), pairs.*1 ≡ₚ ms /\ pairs.*2 ≡ₚ l /\
    (forall m g, (m, g) ∈ pairs -> be_val (sg_M g) = MsgToHashInt m /\ verifies (se_n e) pool m g) /\
    rp_sigs r = (fun x => RSig (EncodeToString (fst x)) (EncodeToString (sg_R (snd x))) (EncodeToString (sg_S (snd x)))
                            (EncodeToString (sg_recovery (snd x)))) <$> pairs.
