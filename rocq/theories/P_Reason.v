(** C94: the reason after a timeout. *)
From Coq Require Import ZArith NArith Ascii String List Lia.
From stdpp Require Import base list strings gmap.
From Verif Require Import Base M_Conv M_Common M_Blame S_Blame P_Blame P_Timeout.
Local Open Scope string_scope.
(** A timeout keeps the reason there was; it gives one, the timeout, exactly if there was
    none and the private shares name somebody to blame, and not too many. *)
Definition reason_after E C local around o s s' : Prop :=
  let u := GetUnicastBlame E C local (to_u o) (to_u2 o) (to_u3 o) around s in
  (bl_reason (s_blame s) <> "" -> bl_reason (s_blame s') = bl_reason (s_blame s)) /\
  (bl_reason (s_blame s) = "" ->
     (bl_reason (s_blame s') = "Tss timeout"%string /\ exists l, u = BOk l /\ 0 < length l <= peers_threshold C) \/
     (bl_reason (s_blame s') = "" /\ forall l, u = BOk l -> length l = 0 \/ peers_threshold C < length l)).
Lemma timeout_reason E C local around bround rounds o s s' :
  timeout_blame E C local around bround rounds o s = Some s' -> reason_after E C local around o s s'.
Proof.
  unfold timeout_blame, reason_after.
  set (R := if String.eqb (bl_reason (s_blame s)) "" then TssTimeout else bl_reason (s_blame s)).
  assert (Hend : forall s1, match nodes_of id (GetBroadcastBlame E C local (to_b o) (to_b2 o) bround s1) with
    | None => None
    | Some b =>
        match bl_nodes (s_blame (set_blame (AddBlameNodes b) s1)) with
        | [] => match TssMissingShareBlame E C local (to_m o) (to_m2 o) (to_ms o) rounds (set_blame (AddBlameNodes b) s1) with
            | BPanic => None
            | BErr _ => Some (set_blame (AddBlameNodes b) s1)
            | BOk (m, unicast) =>
                if Nat.ltb 0 (length m) && Nat.leb (length m) (peers_threshold C) then
                  Some (set_blame (fun b => let b' := AddBlameNodes m b in Blame (bl_reason b') unicast (bl_nodes b')) (set_blame (AddBlameNodes b) s1))
                else Some (set_blame (AddBlameNodes b) s1)
            end
        | _ => Some (set_blame (AddBlameNodes b) s1)
        end
    end = Some s' -> bl_reason (s_blame s') = bl_reason (s_blame s1)).
  { intros s1. destruct (nodes_of id _) as [b|]; [|discriminate].
    destruct (bl_nodes _); [|intros [= <-]; reflexivity].
    destruct (TssMissingShareBlame _ _ _ _ _ _ _ _) as [[m uni]|e|]; [|intros [= <-]; reflexivity|discriminate].
    destruct (_ && _)%bool; intros [= <-]; reflexivity. }
  destruct (GetUnicastBlame E C local _ _ _ around s) as [u|e|]; cbn [nodes_of id]; [| |discriminate].
  - intros H. apply Hend in H. revert H.
    destruct (Nat.ltb_spec 0 (length u)) as [H0|H0], (Nat.leb_spec (length u) (peers_threshold C)) as [H1|H1]; cbn [andb]; intros ->.
    + cbn [set_blame s_blame SetBlame bl_reason]. subst R. destruct (String.eqb_spec (bl_reason (s_blame s)) "") as [E0|E0]; (split; [tauto|]); [|tauto].
      intros _. left. split; [reflexivity|]. exists u. split; [reflexivity|lia].
    + split; [tauto|]. intros E0. right. split; [exact E0|]. intros l [= <-]. lia.
    + split; [tauto|]. intros E0. right. split; [exact E0|]. intros l [= <-]. lia.
    + split; [tauto|]. intros E0. right. split; [exact E0|]. intros l [= <-]. lia.
  - intros H. apply Hend in H. rewrite H. split; [tauto|]. intros E0. right. split; [exact E0|]. discriminate.
Qed.
Theorem C94_reason_after E C local o s s' :
  (forall ty, keygenTimeout E C local (Some ty) o s = Some s' -> reason_after E C local "KGRound2Message1" o s s') /\
  (forall ty, keysignTimeout E C local (Some (ty, false)) o s = Some s' -> reason_after E C local ty o s s') /\
  (forall prefix, keysignTimeout E C local (Some (String.append prefix "SignRound1Message2", true)) o s = Some s' ->
     reason_after E C local "SignRound1Message1" o s s') /\
  (forall ty, ~ (exists prefix, ty = String.append prefix "SignRound1Message2") ->
     keysignTimeout E C local (Some (ty, true)) o s = Some s' -> reason_after E C local "SignRound2Message" o s s').
Proof.
  split; [intros; eapply timeout_reason; eassumption|]. split; [intros; eapply timeout_reason; eassumption|]. split.
  - intros prefix H. rewrite <- (proj1 (previous_spec (String.append prefix "SignRound1Message2"))) by eauto.
    eapply timeout_reason. exact H.
  - intros ty N H. rewrite <- (proj2 (previous_spec ty) N). eapply timeout_reason. exact H.
Qed.
Print Assumptions C94_reason_after.
(** The case of [C94_timeout_report_has_reason_refuted]: nobody to blame for private shares *)
Example C94_reason_after_case : exists s',
  keygenTimeout b_env (b_cfg 3 "1") "1" (Some "KGRound1Message") b_orders b_state1 = Some s' /\ bl_reason (s_blame s') = "".
Proof.
  assert (H : (fun s => bl_reason (s_blame s)) <$> keygenTimeout b_env (b_cfg 3 "1") "1" (Some "KGRound1Message") b_orders b_state1 = Some "") by (vm_compute; reflexivity).
  apply fmap_Some in H as (s' & Hs' & H). exists s'. split; [exact Hs'|]. symmetry. exact H.
Qed.
