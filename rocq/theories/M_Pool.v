(** The KeySign calls of all the nodes of a pool, with the notifications between
    them: tss/keysign.go and keysign/signature_notifier.go.

    Each node runs the machine of M_KeySign. What its broadcasts write to the
    streams is that of M_Notifier, and so is what the receiver makes of it. A
    notification arrives at any later time, in any order, or not at all. The join
    party and the ceremony are not composed here: their results are labels. *)
From Coq Require Import ZArith NArith Ascii String List.
From stdpp Require Import base list strings.
From Verif Require Import Base M_Notifier M_Join M_KeySign.

(** The labels of one node, from those of all. *)
Definition mine (p : string) (tr : list (string * klabel)) : list klabel :=
  omap (fun x => if String.eqb (fst x) p then Some (snd x) else None) tr.

(** A notification under way: the peer it is for and what was written ([None]:
    nothing, because of an error). *)
Definition mail : Type := string * option bytes.

Section Pool.
  (** Each node's surroundings and request, by peer id. *)
  Context (E : string -> senv) (J : string -> sjob).

  Definition at_node (tr : list (string * klabel)) (p : string) : kstate := krun (E p) (J p) (mine p tr).

  (** tss/keysign.go:113-119, 130-136, 161-172 and keysign/signature_notifier.go:157-180:
      one stream per peer of the list other than the node itself. *)
  Definition mails (p : string) (bs : list bcast) : list mail :=
    flat_map (fun b => broadcastCommon (se_n (E p)) (se_self (E p)) (sj_id (J p)) (fst b) (snd b)) bs.

  (** keysign/signature_notifier.go:56-104: what a node gets out of a notification
      ([None]: nothing, or it is for another request). *)
  Definition arrives (q : string) (payload : option bytes) : option (list ecsig) :=
    match decode_notification (se_n (E q)) payload with
    | Some (id, d) => if String.eqb id (sj_id (J q)) then Some d else None
    | None => None
    end.

  (** The runs whose steps are all [ok], what happened before given; [lossy]:
      notifications may get lost. *)
  Context (ok : list (string * klabel) -> string -> klabel -> Prop) (lossy : Prop).
  Inductive pool_run : list (string * klabel) -> list mail -> Prop :=
    | pr_init : pool_run [] []
    | pr_local tr air p l :
        pool_run tr air -> (forall d, l <> KWData d) -> ok tr p l ->
        pool_run (tr ++ [(p, l)])
          (air ++ mails p (drop (length (k_bcasts (at_node tr p))) (k_bcasts (at_node (tr ++ [(p, l)]) p))))
    | pr_deliver tr a1 q payload a2 d :
        pool_run tr (a1 ++ (q, payload) :: a2) -> arrives q payload = Some d -> ok tr q (KWData d) ->
        pool_run (tr ++ [(q, KWData d)]) (a1 ++ a2)
    | pr_ignored tr a1 q payload a2 :
        pool_run tr (a1 ++ (q, payload) :: a2) -> arrives q payload = None ->
        pool_run tr (a1 ++ a2)
    | pr_lost tr a1 x a2 :
        pool_run tr (a1 ++ x :: a2) -> lossy -> pool_run tr (a1 ++ a2).
End Pool.
