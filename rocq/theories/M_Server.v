(** tss/tss.go:169-204 (joinParty): which join party a request goes through.
    The two coordinator calls themselves are M_Join (leaderless) and M_JoinRef (with
    a leader). *)
From Coq Require Import ZArith NArith Ascii String List.
From stdpp Require Import base list strings.
From Verif Require Import Base M_Semver.

(** conversion/key_provider.go:32-42 (GetPeerIDsFromPubKeys), :58-68
    (GetPubKeysFromPeerIDs): the first element that does not convert makes the
    whole call fail. [conv] is the conversion of one element. *)
Definition GetPeerIDsFromPubKeys (conv : string -> option string) (l : list string) : option (list string) :=
  all_some conv l.

(** What joinParty does: it fails with the leader string it returns, or calls
    JoinPartyWithRetry / JoinPartyWithLeader with these peers. *)
Inductive join_plan :=
  | JoinErr (leader : string)
  | JoinLeaderless (peers : list string)
  | JoinLeader (peers : list string).

Definition joinParty (peer_of : string -> option string) (version : string) (participants : list string) : join_plan :=
  match oldJoinParty version with
  | None => JoinErr ""
  | Some true =>
      match GetPeerIDsFromPubKeys peer_of participants with
      | None => JoinErr "NONE"
      | Some peers => JoinLeaderless peers
      end
  | Some false =>
      if Nat.eqb (length participants) 0 then JoinErr ""
      else match GetPeerIDsFromPubKeys peer_of participants with
      | None => JoinErr ""
      | Some peers => JoinLeader peers
      end
  end.
