(** Vocabulary for the properties of waiting for signatures. *)
From Coq Require Import ZArith NArith Ascii String List.
From stdpp Require Import base list strings gmap.
From Verif Require Import Base M_Notifier.

(** The signature verifies for the message under the pool key. *)
Definition verifies (E : nenv) (pool : string) (msg : bytes) (s : ecsig) : Prop :=
  exists p, ne_point E pool = Some p /\
    ne_verify E p msg (be_val (sg_R s)) (be_val (sg_S s)) = true.

(** Every signature of the list verifies for the message at the same position. *)
Definition valid_for (E : nenv) (pool : string) (msgs : list bytes) (d : list ecsig) : Prop :=
  forall i s, d !! i = Some s -> exists msg, msgs !! i = Some msg /\ verifies E pool msg s.

(** A payload some peer sent announces success for the id with these signatures. *)
Definition announces (E : nenv) (payload : bytes) (id : string) (d : list ecsig) : Prop :=
  exists m, ne_unmarshal E payload = Some m /\ km_id m = id /\ km_success m = true /\
    Forall2 (fun b s => ne_unmarshal_sig E b = Some s) (km_sigs m) d.

(** Call [c] of the history was made with these arguments. *)
Definition started (ls : list nlabel) (c : nat) (id : string) (msgs : list bytes) (pool : string)
    : Prop :=
  exists l1 l2, ls = l1 ++ NCall c id msgs pool :: l2 /\
    forall id' msgs' pool', NCall c id' msgs' pool' ∉ l1.

(** The call has returned [r]. *)
Definition returned (s : nstate) (c : nat) (r : wresult) : Prop :=
  exists n, ns_calls s !! c = Some (n, WDone r).

(** The call is still waiting. *)
Definition waiting (s : nstate) (c : nat) : Prop :=
  exists n, ns_calls s !! c = Some (n, WWaiting).
