(** cmd/tss/tss_http.go: the HTTP endpoints.

    The server behind them (tss.Server) is a parameter, and so is the handler of /metrics
    (promhttp.Handler). Left out: logging, errors of writing the answer. *)
From Coq Require Import ZArith NArith Ascii String List.
From stdpp Require Import base list strings.
From Verif Require Import Base M_Conv M_Base64 M_Batch M_Common M_KeySign M_Json M_Storage M_Keygen.

(** json.MarshalIndent with an empty prefix and a tab (encoding/json indent.go) *)
Definition tab : ascii := "009"%char.
Definition nl (d : nat) : bytes := newline :: replicate d tab.
Fixpoint json_ind (d : nat) (v : json) : bytes :=
  match v with
  | JArr [] => to_bytes "[]"
  | JObj [] => to_bytes "{}"
  | JArr l => "["%char :: commas (map (fun x => nl (S d) ++ json_ind (S d) x) l) ++ nl d ++ ["]"%char]
  | JObj l => "{"%char :: commas (map (fun kv => nl (S d) ++ json_string (fst kv) ++ ":"%char :: " "%char :: json_ind (S d) (snd kv)) l)
                ++ nl d ++ ["}"%char]
  | _ => json_enc v
  end.

(** json.NewDecoder(r.Body).Decode, up to filling the structure: the first value; what
    follows it is not looked at *)
Definition first_value (b : bytes) : option json :=
  match jval (2 * length b + 2) b with
  | Some (v, _) => if N.leb (nesting v) max_nesting then Some v else None
  | None => None
  end.

(** Filling in: null leaves a value as it is (a slice becomes nil). A null inside an
    array gives an empty string (left out: when the field stands twice, it leaves the
    element read before). *)
Definition put_int64 (v : json) (old : Z) : option Z :=
  match v with
  | JNum z => if (Z.leb (- 2 ^ 63) z && Z.ltb z (2 ^ 63))%bool then Some z else None
  | JNull => Some old
  | _ => None
  end.
Definition put_list (v : json) : option (list string) :=
  match v with JNull => Some [] | JArr l => put_strings l | _ => None end.

(** keygen/request.go:4-8 *)
Definition put_keygen (acc : option (list string * Z * string)) (kv : string * json) : option (list string * Z * string) :=
  match acc with
  | None => None
  | Some (keys, h, v) =>
      let name := fold_name (fst kv) in
      if String.eqb name "keys" then match put_list (snd kv) with Some x => Some (x, h, v) | None => None end
      else if String.eqb name "block_height" then match put_int64 (snd kv) h with Some x => Some (keys, x, v) | None => None end
      else if String.eqb name "tss_version" then match put_string (snd kv) v with Some x => Some (keys, h, x) | None => None end
      else acc
  end.
Definition keygen_request (b : bytes) : option request :=
  match first_value b with
  | Some (JObj l) =>
      match fold_left put_keygen l (Some ([], 0%Z, ""%string)) with
      | Some (keys, h, v) => Some (KeygenReq keys h v)
      | None => None
      end
  | Some JNull => Some (KeygenReq [] 0 "")
  | _ => None
  end.
(** keysign/request.go:4-10 *)
Definition put_keysign (acc : option (string * list string * list string * Z * string)) (kv : string * json)
    : option (string * list string * list string * Z * string) :=
  match acc with
  | None => None
  | Some (pool, msgs, signers, h, v) =>
      let name := fold_name (fst kv) in
      if String.eqb name "pool_pub_key" then match put_string (snd kv) pool with Some x => Some (x, msgs, signers, h, v) | None => None end
      else if String.eqb name "messages" then match put_list (snd kv) with Some x => Some (pool, x, signers, h, v) | None => None end
      else if String.eqb name "signer_pub_keys" then match put_list (snd kv) with Some x => Some (pool, msgs, x, h, v) | None => None end
      else if String.eqb name "block_height" then match put_int64 (snd kv) h with Some x => Some (pool, msgs, signers, x, v) | None => None end
      else if String.eqb name "tss_version" then match put_string (snd kv) v with Some x => Some (pool, msgs, signers, h, x) | None => None end
      else acc
  end.
Definition keysign_request (b : bytes) : option request :=
  match first_value b with
  | Some (JObj l) =>
      match fold_left put_keysign l (Some (""%string, [], [], 0%Z, ""%string)) with
      | Some (pool, msgs, signers, h, v) => Some (KeysignReq pool msgs signers h v)
      | None => None
      end
  | Some JNull => Some (KeysignReq "" [] [] 0 "")
  | _ => None
  end.

(** ** Responses as JSON; a nil slice and an empty one are not distinguished *)

(** common/status.go *)
Definition status_num (s : status) : Z := match s with NA => 0 | Success => 1 | Fail => 2 end.
(** blame/types.go:37-48, []byte is base64 text *)
Definition json_data (b : bytes) : json := match b with [] => JNull | _ => JStr (EncodeToString b) end.
Definition node_json (n : node) : json :=
  JObj ([("pubkey"%string, JStr (n_pub n)); ("data"%string, json_data (n_data n))] ++
        match n_sig n with [] => [] | s => [("signature"%string, JStr (EncodeToString s))] end).
Definition blame_json (b : blame) : json :=
  JObj ([("fail_reason"%string, JStr (bl_reason b)); ("is_broadcast"%string, JBool (bl_unicast b))] ++
        match bl_nodes b with [] => [] | l => [("blame_peers"%string, JArr (map node_json l))] end).
(** keygen/response.go:9-14 *)
Definition kresp_json (r : kresp) : json :=
  JObj [("pub_key"%string, JStr (kr_pub r)); ("pool_address"%string, JStr (kr_addr r));
        ("status"%string, JNum (status_num (kr_status r))); ("blame"%string, blame_json (kr_blame r))].
(** keysign/response.go:9-22 *)
Definition rsig_json (g : rsig) : json :=
  JObj [("signed_msg"%string, JStr (rs_msg g)); ("r"%string, JStr (rs_r g));
        ("s"%string, JStr (rs_s g)); ("recovery_id"%string, JStr (rs_recovery g))].
Definition resp_json (r : response) : json :=
  JObj [("signatures"%string, match rp_sigs r with [] => JNull | l => JArr (map rsig_json l) end);
        ("status"%string, JNum (status_num (rp_status r))); ("blame"%string, blame_json (rp_blame r))].

(** ** The endpoints *)

Record hreq := HReq { h_method : string; h_path : string; h_body : bytes }.
Record hans := HAns { a_code : nat; a_body : bytes }.

(** gorilla/mux cleanPath (not in /repo): path.Clean, which keeps no slash at the end *)
Definition ends_in_slash (p : string) : bool :=
  match list.last (to_bytes p) with Some c => bool_decide (c = "/"%char) | None => false end.
Definition cleanPath (p : string) : string :=
  if String.eqb p "" then "/" else
  let p := if is_rooted p then p else String "/" p in
  let np := Clean p in
  if (ends_in_slash p && negb (String.eqb np "/"))%bool then String.append np "/" else np.

Section Http.
  (** tss.Server: Keygen and KeySign give a response and whether there is an error *)
  Context (keygen : request -> kresp * bool) (keysign : request -> response * bool) (peer : string).
  Context (metrics : hreq -> hans).

  (** cmd/tss/tss_http.go:54-87 (keygenHandler), with the request passed on *)
  Definition keygenHandler (r : hreq) : option request * hans :=
    if negb (String.eqb (h_method r) "POST") then (None, HAns 405 [])
    else match keygen_request (h_body r) with
    | None => (None, HAns 400 [])
    | Some q =>
        let '(resp, err) := keygen q in (Some q, HAns 200 (json_enc (kresp_json resp)))
    end.
  (** cmd/tss/tss_http.go:89-126 (keySignHandler) *)
  Definition keySignHandler (r : hreq) : option request * hans :=
    if negb (String.eqb (h_method r) "POST") then (None, HAns 405 [])
    else match keysign_request (h_body r) with
    | None => (None, HAns 400 [])
    | Some q =>
        let '(resp, err) := keysign q in
        (Some q, if err : bool then HAns 500 [] else HAns 200 (json_ind 0 (resp_json resp)))
    end.

  (** cmd/tss/tss_http.go:42-52 (tssNewHandler): gorilla/mux redirects a path that is not
      clean, and answers 405 when only the method is wrong and 404 when the path is unknown *)
  Definition serve (r : hreq) : option request * hans :=
    if negb (String.eqb (cleanPath (h_path r)) (h_path r)) then (None, HAns 301 []) else
    let route meth h := if String.eqb (h_method r) meth then h r else (None, HAns 405 []) in
    if String.eqb (h_path r) "/keygen" then route "POST"%string keygenHandler
    else if String.eqb (h_path r) "/keysign" then route "POST"%string keySignHandler
    else if String.eqb (h_path r) "/ping" then route "GET"%string (fun _ => (None, HAns 200 []))
    else if String.eqb (h_path r) "/p2pid" then route "GET"%string (fun _ => (None, HAns 200 (to_bytes peer)))
    else if String.eqb (h_path r) "/metrics" then (None, metrics r)
    else (None, HAns 404 (to_bytes "404 page not found" ++ [newline])).
End Http.
