(** Several honest nodes of one ceremony, exchanging the confirmations and
    requests [M_Common] sends, and an adversary that controls all other peers.

    Simplifications: a message an honest node sends can be delivered any number of
    times, in any order, or never (the real streams lose and reorder, they do not
    duplicate); the shares the local parties of honest nodes emit
    (common/tss.go:501-562) are not part of this network, so the only share
    senders are controlled by the adversary. *)
From Coq Require Import ZArith Ascii String List.
From stdpp Require Import base list strings gmap.
From Verif Require Import Base M_Common.

Definition net := gmap string state.

Inductive glabel :=
  | GInternal (i : string) (l : label)
      (* an action of node i other than taking a message *)
  | GForge (i p : string) (o1 o2 : order) (m : inmsg)
      (* peer p, not honest, sends m to i *)
  | GDeliver (i j : string) (k : nat) (o1 o2 : order).
      (* node i takes the k-th message honest node j sent *)

Section Net.
  Variable E : env.
  Variable cfgs : gmap string cfg.   (* the honest nodes, by peer id *)

  Definition node_step (n : net) (i : string) (l : label) : net :=
    match cfgs !! i, n !! i with
    | Some C, Some s => <[i := step E C s l]> n
    | _, _ => n
    end.

  Definition gstep (n : net) (g : glabel) : net :=
    match g with
    | GInternal i l => match l with LRecv _ _ _ _ => n | _ => node_step n i l end
    | GForge i p o1 o2 m =>
        match cfgs !! p with
        | None => node_step n i (LRecv o1 o2 p m)
        | Some _ => n
        end
    | GDeliver i j k o1 o2 =>
        match n !! j with
        | Some sj =>
            match s_out sj !! k with
            | Some o => if bool_decide (i ∈ o_peers o) then node_step n i (LRecv o1 o2 j (o_msg o)) else n
            | None => n
            end
        | None => n
        end
    end.

  Definition ginit : net := (fun _ => init_state) <$> cfgs.
  Definition grun (gs : list glabel) : net := foldl gstep ginit gs.
End Net.
