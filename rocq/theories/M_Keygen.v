(** tss/keygen.go (Keygen) and keygen/tss_keygen.go (GenerateNewKey, processKeyGen).

    The join party is M_Join, the ceremony M_Common and M_OutCh, the loop M_Loop, the
    disk M_Storage; what they return is an input here. Keygen runs alone
    (tssKeyGenLocker, tss/keygen.go:14-15), so a call is a function. Left out: logging,
    the subscriptions (M_Comm), the wait of at most five seconds for the others to be
    done and for the two goroutines (tss_keygen.go:133-141). *)
From Coq Require Import ZArith NArith Ascii String List.
From stdpp Require Import base list strings gmap.
From Verif Require Import Base M_Conv M_Semver M_Server M_Join M_Common M_Blame M_KeySign M_Storage M_Loop.

(** keygen/response.go:9-14 *)
Record kresp := KResp { kr_pub : string; kr_addr : string; kr_status : status; kr_blame : blame }.
Definition empty_kresp : kresp := KResp "" "" NA no_blame.

(** What a call does to the world, in order. *)
Inductive kgfx (M : Type) :=
  | FxJoin (success : bool)      (* monitor/metric.go:40-47 *)
  | FxKeygen (success : bool)    (* monitor/metric.go:22-29 *)
  | FxOut (m : M)                (* a message of the local party, given to ProcessOutCh *)
  | FxNotify                     (* NotifyTaskDone: the others are told *)
  | FxSave (s : stored) (w : wout)
  | FxBook (b : list (string * list string)) (w : wout).
Arguments FxJoin {M} success. Arguments FxKeygen {M} success. Arguments FxOut {M} m. Arguments FxNotify {M}.
Arguments FxSave {M} s w. Arguments FxBook {M} b w.

Record kgenv := KgEnv {
  kg_s : senv;                                     (* keys and peers *)
  kg_local : string;                               (* localNodePubKey *)
  kg_params : bool;                                (* preParams != nil *)
  kg_pub : option (N * N) -> option (string * string);   (* GetTssPubKey: key and address *)
  kg_fs : fsenv;
  kg_T : N }.                                      (* KeyGenTimeout *)

(** The inputs of one call: how the join party ended, what the local party did, what
    the blame manager holds at the end, how the two writes ended and the address book. *)
Record kgin (M : Type) := KgIn {
  ki_join : outcome;
  ki_loop : list (llabel M savedata);
  ki_blame : blame;
  ki_w : wout;
  ki_book : list (string * list string);
  ki_wb : wout }.
Arguments ki_join {M}. Arguments ki_loop {M}. Arguments ki_blame {M}. Arguments ki_w {M}. Arguments ki_book {M}. Arguments ki_wb {M}.

Record kgout (M : Type) := KgOut { ko_resp : kresp; ko_err : bool; ko_fx : list (kgfx M) }.
Arguments KgOut {M}. Arguments ko_resp {M}. Arguments ko_err {M}. Arguments ko_fx {M}.

(** The disk after some of the effects. *)
Definition disk1 {M} (F : fsenv) (fs : files) (x : kgfx M) : files :=
  match x with
  | FxSave s w => fst (SaveLocalState F s w fs)
  | FxBook b w => fst (SaveAddressBook F b w fs)
  | _ => fs
  end.
Definition disk {M} (F : fsenv) (fs : files) (fx : list (kgfx M)) : files := fold_left (disk1 F) fx fs.

Section Keygen.
  Context {M : Type} (E : kgenv) (I : kgin M).

  (** How GenerateNewKey ends: an error, or a point ([None]: nil). *)
  Inductive gnk := GErr | GPoint (p : option (N * N)).

  (** keygen/tss_keygen.go:216-236; GetTssPubKey refuses a nil point, which the library
      does not produce (the log line before it would panic) *)
  Definition finish_keygen (keys : list string) (d : savedata) : list (kgfx M) * gnk :=
    match kg_pub E (sd_pub d) with
    | None => ([FxNotify], GErr)
    | Some (pk, _) =>
        let st := Stored pk d (Some keys) (kg_local E) in
        if snd (SaveLocalState (kg_fs E) st (ki_w I) ∅) then
          ([FxNotify; FxSave st (ki_w I); FxBook (ki_book I) (ki_wb I)], GPoint (sd_pub d))
        else ([FxNotify; FxSave st (ki_w I)], GErr)
    end.

  (** keygen/tss_keygen.go:69-143 (GenerateNewKey), with the blame the manager holds
      then. [None]: the loop has not ended. When SetupIDMaps fails, a nil error is
      returned (lines 97-102). *)
  Definition GenerateNewKey (keys : list string) : option (list (kgfx M) * gnk * blame) :=
    match GetParties (se_key (kg_s E)) keys (kg_local E) with
    | None => Some ([], GErr, no_blame)
    | Some _ =>
        if kg_params E then
          if forallb (fun k => match peer_of (kg_s E) k with Some _ => true | None => false end) keys then
            let s := lrun (kg_T E) 1 (ki_loop I) in
            match l_res s with
            | None => None
            | Some (LDone (d :: _)) =>
                let '(fx, r) := finish_keygen keys d in Some (map FxOut (l_sent s) ++ fx, r, ki_blame I)
            | Some _ => Some (map FxOut (l_sent s), GErr, ki_blame I)
            end
          else Some ([], GPoint None, no_blame)
        else Some ([], GErr, no_blame)
    end.

  (** tss/keygen.go:52-103 *)
  Definition keygen_join_failed (keys : list string) (leader : string) (o : outcome) : kgout M :=
    let b :=
      if String.eqb leader "NONE" then
        match oc_peers o with
        | None => Blame InternalError false []
        | Some online => Blame TssSyncFail false (sync_nodes (kg_s E) keys online)
        end
      else
        let blameLeader := match se_pub (kg_s E) leader with Some k => [plain k] | None => [] end in
        let online := default [] (oc_peers o) in
        if Nat.eqb (length online) 0 then Blame TssSyncFail false blameLeader
        else AddBlameNodes blameLeader (Blame TssSyncFail false (sync_nodes (kg_s E) keys online)) in
    KgOut (KResp "" "" Fail b) false [FxJoin false; FxKeygen false].

  (** tss/keygen.go:105-135 *)
  Definition keygen_formed (keys : list string) : option (kgout M) :=
    match GenerateNewKey keys with
    | None => None
    | Some (fx, GErr, b) => Some (KgOut (KResp "" "" Fail b) true (FxJoin true :: fx ++ [FxKeygen false]))
    | Some (fx, GPoint p, b) =>
        let fx := FxJoin true :: fx ++ [FxKeygen true] in
        match kg_pub E p with
        | None => Some (KgOut (KResp "" "" Fail b) false fx)
        | Some (pk, addr) => Some (KgOut (KResp pk addr Success b) false fx)
        end
    end.

  (** tss/keygen.go:13-136 (Keygen) *)
  Definition Keygen (keys : list string) (height : Z) (version : string) : option (kgout M) :=
    match requestToMsgId (se_sha (kg_s E)) (KeygenReq keys height version) with
    | (Some id, KeygenReq keys' _ _) =>
        let joined leader :=
          match oc_err (ki_join I) with
          | ENone => keygen_formed keys'
          | _ => Some (keygen_join_failed keys' leader (ki_join I))
          end in
        match joinParty (peer_of (kg_s E)) version keys' with
        | JoinErr leader => Some (keygen_join_failed keys' leader (Outcome None EInvalid))
        | JoinLeaderless _ => joined "NONE"%string
        | JoinLeader peers =>
            match LeaderNode (se_sha (kg_s E)) id height peers with
            | None => Some (keygen_join_failed keys' "" (Outcome None EInvalid))
            | Some leader => joined leader
            end
        end
    | _ => Some (KgOut empty_kresp true [])
    end.
End Keygen.
