(** Vocabulary for the properties of starting a node. *)
From Coq Require Import ZArith NArith Ascii String List.
From stdpp Require Import base list strings gmap.
From Verif Require Import Base M_Storage M_Start.

(** Everything but the bootstrap peers is fine: addresses, folder, host and DHT, the key
    has 32 bytes, and valid pre-parameters are given or can be made. *)
Record ready {A PP} (net : netenv A) (valid : PP -> bool) (generated pre : option PP) (folder_ok : bool)
    (port : Z) (externalIP : string) (priKey : bytes) : Prop := {
  rd_folder : folder_ok = true;
  rd_listen : ne_maddr net (ip4_tcp "0.0.0.0" port) <> None;
  rd_ext : externalIP <> ""%string -> ne_maddr net (ip4_tcp externalIP port) <> None;
  rd_host : ne_host net = true;
  rd_dht : ne_dht net = true;
  rd_key : length priKey = 32;
  rd_pre : exists p, (pre = Some p \/ generated = Some p) /\ valid p = true;
}.
(** The [i]-th bootstrap peer accepts a connection in one of the five rounds; answers a
    ping. *)
Definition accepts {A} (net : netenv A) (i : nat) : Prop := exists r, r < 5 /\ ne_conn net r i = true.
Definition readable {A} (net : netenv A) (a : A) : Prop := ne_info net a <> None.
(** How often the start waited for five seconds *)
Definition waits (ev : list sevent) : nat :=
  length (List.filter (fun e => match e with EvSleep => true | _ => false end) ev).

(** The flags of the program, and those for a truth value *)
Definition flag_names : list string :=
  ["tss-port"; "h"; "loglevel"; "pretty-log"; "home"; "gentimeout"; "signtimeout"; "preparamtimeout"; "enablemonitor";
   "rendezvous"; "p2p-port"; "external-ip"; "peer"]%string.
Definition truth_flags : list string := ["h"; "pretty-log"; "enablemonitor"]%string.
(** The ways to write a setting on the command line *)
Inductive written : list string -> string * string -> Prop :=
  | wr_eq n v : n ∈ flag_names -> written [String.append "-" (String.append n (String "=" v))] (n, v)
  | wr_eq2 n v : n ∈ flag_names -> written [String.append "--" (String.append n (String "=" v))] (n, v)
  | wr_next n v : n ∈ flag_names -> n ∉ truth_flags -> written [String.append "-" n; v] (n, v)
  | wr_next2 n v : n ∈ flag_names -> n ∉ truth_flags -> written [String.append "--" n; v] (n, v)
  | wr_true n : n ∈ truth_flags -> written [String.append "-" n] (n, "true"%string)
  | wr_true2 n : n ∈ truth_flags -> written [String.append "--" n] (n, "true"%string).
Inductive command_line : list string -> list (string * string) -> Prop :=
  | cl_nil : command_line [] []
  | cl_cons w s args ss : written w s -> command_line args ss -> command_line (w ++ args) (s :: ss).
(** A value that the flag can take *)
Definition acceptable {A} (maddr : string -> option A) (parse_int parse_duration : string -> option Z) (s : string * string) : Prop :=
  let '(n, v) := s in
  if bool_decide (n ∈ truth_flags) then v ∈ ["1"; "t"; "T"; "TRUE"; "true"; "True"; "0"; "f"; "F"; "FALSE"; "false"; "False"]%string
  else if bool_decide (n ∈ ["gentimeout"; "signtimeout"; "preparamtimeout"]%string) then parse_duration v <> None
  else if String.eqb n "p2p-port" then parse_int v <> None
  else if String.eqb n "peer" then maddr v <> None
  else True.
(** The last value given to a flag, and all of them in order *)
Fixpoint last_given (name : string) (ss : list (string * string)) : option string :=
  match ss with
  | [] => None
  | (n, v) :: r => match last_given name r with Some w => Some w | None => if String.eqb n name then Some v else None end
  end.
Definition all_given (name : string) (ss : list (string * string)) : list string :=
  map snd (List.filter (fun s => String.eqb (fst s) name) ss).
(** The flag has the default value, or the last one given. *)
Definition has_value {T} (parse : string -> option T) (name : string) (ss : list (string * string)) (default x : T) : Prop :=
  match last_given name ss with None => x = default | Some v => parse v = Some x end.
Definition truth (v : string) : option bool :=
  if bool_decide (v ∈ ["1"; "t"; "T"; "TRUE"; "true"; "True"]%string) then Some true
  else if bool_decide (v ∈ ["0"; "f"; "F"; "FALSE"; "false"; "False"]%string) then Some false else None.
(** What the settings of the command line mean *)
Record meant {A} (maddr : string -> option A) (parse_int parse_duration : string -> option Z) (ss : list (string * string)) (o : opts A) : Prop := {
  me_addr : has_value Some "tss-port" ss "127.0.0.1:8080"%string (op_addr o);
  me_help : has_value truth "h" ss false (op_help o);
  me_level : has_value Some "loglevel" ss "info"%string (op_level o);
  me_pretty : has_value truth "pretty-log" ss false (op_pretty o);
  me_home : has_value Some "home" ss ""%string (op_home o);
  me_gen : has_value parse_duration "gentimeout" ss (30 * 1000000000)%Z (op_gen o);
  me_sign : has_value parse_duration "signtimeout" ss (30 * 1000000000)%Z (op_sign o);
  me_pre : has_value parse_duration "preparamtimeout" ss (5 * 60 * 1000000000)%Z (op_pre o);
  me_monitor : has_value truth "enablemonitor" ss true (op_monitor o);
  me_rendezvous : has_value Some "rendezvous" ss "Asgard"%string (op_rendezvous o);
  me_port : has_value parse_int "p2p-port" ss 6668%Z (op_port o);
  me_ext : has_value Some "external-ip" ss ""%string (op_ext o);
  me_peers : Forall2 (fun v a => maddr v = Some a) (all_given "peer" ss) (op_peers o);
}.
