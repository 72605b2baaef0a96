(** Vocabulary for the properties of Keygen. *)
From Coq Require Import ZArith NArith Ascii String List Sorted.
From stdpp Require Import base list strings gmap.
From Verif Require Import Base M_Conv M_Semver M_Join M_Common M_KeySign M_Storage M_Loop M_Keygen.

(** What was counted, in order. *)
Definition kjoins {M} (fx : list (kgfx M)) : list bool :=
  flat_map (fun x => match x with FxJoin b => [b] | _ => [] end) fx.
Definition keygens {M} (fx : list (kgfx M)) : list bool :=
  flat_map (fun x => match x with FxKeygen b => [b] | _ => [] end) fx.

(** The keys of the request, ascending. *)
Definition ascending (keys keys' : list string) : Prop := keys' ≡ₚ keys /\ Sorted.StronglySorted str_le keys'.
(** Their peers, in that order. *)
Definition key_peers (E : kgenv) (keys peers : list string) : Prop :=
  exists keys', ascending keys keys' /\ Forall2 (fun k p => peer_of (kg_s E) k = Some p) keys' peers.
(** The message id of the request. *)
Definition keygen_id (E : kgenv) (keys : list string) (id : string) : Prop :=
  exists keys', ascending keys keys' /\ concat_strings keys' <> ""%string /\
    id = se_sha (kg_s E) (to_bytes (concat_strings keys')).

(** The join party the request starts: without a leader, or with this one. *)
Inductive starts_join (E : kgenv) (keys : list string) (h : Z) (v : string) : option string -> Prop :=
  | sj_leaderless peers :
      oldJoinParty v = Some true -> key_peers E keys peers -> starts_join E keys h v None
  | sj_with peers id leader :
      oldJoinParty v = Some false -> key_peers E keys peers -> keygen_id E keys id ->
      LeaderNode (se_sha (kg_s E)) id h peers = Some leader -> starts_join E keys h v (Some leader).
(** The party formed. *)
Definition formed {M} (E : kgenv) (I : kgin M) keys h v : Prop :=
  (exists l, starts_join E keys h v l) /\ oc_err (ki_join I) = ENone.

(** The ceremony left a share [d], whose public key is [pk] with this address, and it
    could be written. *)
Definition generated {M} (E : kgenv) (I : kgin M) (keys : list string) (d : savedata) (pk addr : string) : Prop :=
  kg_local E ∈ keys /\ kg_params E = true /\
  l_res (lrun (kg_T E) 1 (ki_loop I)) = Some (LDone [d]) /\
  kg_pub E (sd_pub d) = Some (pk, addr) /\
  fe_curve (kg_fs E) pk = Some true /\ fe_data (kg_fs E) d <> None /\ ki_w I = WDone.

(** A key of the request whose peer is not in the list. *)
Definition absent (E : kgenv) (keys online : list string) (k : string) : Prop :=
  k ∈ keys /\ exists p, peer_of (kg_s E) k = Some p /\ p ∉ online.
