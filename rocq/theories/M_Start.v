(** Starting a node: tss/tss.go (NewTss), the start of p2p/communication.go, p2p/types.go,
    monitor/metric.go (Enable) and cmd/tss/main.go.

    What the network and libp2p do are inputs: whether the host, the DHT and its bootstrap
    come up, which bootstrap peer can be connected to in which round, and which answers a
    ping. The goroutines that dial and ping the peers are taken together: the code waits
    for all of them. Addresses are of any type [A]. Not modelled: the DHT and the
    advertisement, the party coordinator and the signature notifier beyond their
    existence, logging. *)
From Coq Require Import ZArith NArith Ascii String List.
From stdpp Require Import base list strings gmap.
From Verif Require Import Base M_Conv M_Recovery M_Keys M_Json M_Storage M_Key.

(** What starting a node does, in order *)
Inductive sevent :=
  | EvGenerate                    (* GeneratePreParams is called *)
  | EvHost                        (* the host exists: it listens and handles streams *)
  | EvDial (round i : nat)        (* the i-th bootstrap peer is dialled *)
  | EvSleep                       (* five seconds *)
  | EvAdvertise
  | EvPing (i : nat)
  | EvLoop                        (* ProcessBroadcast is running *)
  | EvHandlers                    (* party coordinator and signature notifier *)
  | EvMetrics                     (* the metrics are registered *)
  | EvClose.                      (* the host is closed: no code that starts does it *)

Record netenv (A : Type) := NetEnv {
  ne_maddr : string -> option A;  (* multiaddr.NewMultiaddr *)
  ne_info : A -> option string;   (* peer.AddrInfoFromP2pAddr: the peer *)
  ne_host : bool;                 (* libp2p.New *)
  ne_dht : bool;                  (* dht.New and Bootstrap *)
  ne_conn : nat -> nat -> bool;   (* host.Connect, by round and position *)
  ne_ping : nat -> bool }.
Arguments NetEnv {A}. Arguments ne_maddr {A}. Arguments ne_info {A}. Arguments ne_host {A}. Arguments ne_dht {A}.
Arguments ne_conn {A}. Arguments ne_ping {A}.

Section Start.
  Context {A : Type} (net : netenv A).

  (** communication.go:329-333: the loop up to the first address that is refused *)
  Fixpoint dial_loop (round i : nat) (l : list A) : list sevent * bool :=
    match l with
    | [] => ([], true)
    | a :: rest =>
        match ne_info net a with
        | None => ([], false)
        | Some _ => let '(ev, ok) := dial_loop round (S i) rest in (EvDial round i :: ev, ok)
        end
    end.
  (** communication.go:320-355 (connectToBootstrapPeers) *)
  Definition connectToBootstrapPeers (round : nat) (peers : list A) : list sevent * bool :=
    match peers with
    | [] => ([], true)
    | _ =>
        let '(ev, ok) := dial_loop round 0 peers in
        (ev, (ok && existsb (ne_conn net round) (seq 0 (length peers)))%bool)
    end.
  (** communication.go:278-289: [n] more rounds *)
  Fixpoint rounds (n round : nat) (peers : list A) : list sevent * bool :=
    match n with
    | O => ([], false)
    | S n =>
        let '(ev, ok) := connectToBootstrapPeers round peers in
        if ok then (ev, true)
        else let '(ev', ok') := rounds n (S round) peers in (ev ++ EvSleep :: ev', ok')
    end.
  (** communication.go:195-237 (bootStrapConnectivityCheck) *)
  Definition pinged (peers : list A) : list nat :=
    List.filter (fun i => match peers !! i with Some a => match ne_info net a with Some _ => true | None => false end | None => false end)
      (seq 0 (length peers)).
  Definition bootStrapConnectivityCheck (peers : list A) : list sevent * bool :=
    match peers with
    | [] => ([], true)
    | _ => (map EvPing (pinged peers), existsb (ne_ping net) (pinged peers))
    end.

  (** communication.go:239-302 (startChannel). UnmarshalSecp256k1PrivateKey wants 32
      bytes. *)
  Definition startChannel (priKey : bytes) (peers : list A) : list sevent * bool :=
    if negb (Nat.eqb (length priKey) 32) then ([], false)
    else if negb (ne_host net) then ([], false)
    else if negb (ne_dht net) then ([EvHost], false)
    else
      let '(ev, ok) := rounds 5 0 peers in
      if ok then
        let '(ev', ok') := bootStrapConnectivityCheck peers in
        (EvHost :: ev ++ EvAdvertise :: ev', ok')
      else (EvHost :: ev, false).
  (** communication.go:358-365 (Start) *)
  Definition Start (priKey : bytes) (peers : list A) : list sevent * bool :=
    let '(ev, ok) := startChannel priKey peers in
    if ok then (ev ++ [EvLoop], true) else (ev, false).

  (** communication.go:65-91 (NewCommunication): the address to listen on and the one to
      announce. *)
  Definition ip4_tcp (ip : string) (port : Z) : string :=
    String.append "/ip4/" (String.append ip (String.append "/tcp/" (format_int port))).
  Definition NewCommunication (port : Z) (externalIP : string) : option (A * option A) :=
    match ne_maddr net (ip4_tcp "0.0.0.0" port) with
    | None => None
    | Some listen =>
        if Nat.eqb (String.length externalIP) 0 then Some (listen, None)
        else match ne_maddr net (ip4_tcp externalIP port) with
        | None => None
        | Some ext => Some (listen, Some ext)
        end
    end.

  (** The pre-parameters of the library: what is valid, and what GeneratePreParams
      returns. *)
  Context {PP : Type} (valid : PP -> bool) (generated : option PP).
  (** The public point of a private key *)
  Context (pub : bytes -> Z * Z).
  (** The disk, and whether the folder is there or can be made (NewFileStateMgr) *)
  Context (F : fsenv) (fs : files) (folder_ok : bool).

  Record server := Server {
    sv_pub : string;          (* localNodePubKey *)
    sv_peer : bytes;          (* the host's id *)
    sv_pre : PP;
    sv_boot : list A;
    sv_listen : A;
    sv_announce : option A }. (* [None]: the addresses the host finds itself *)
  Inductive nres := NErr | NPanic | NServer (s : server).

  (** tss.go:70-77 *)
  Definition bootstrap (cmd : list A) : list A :=
    match RetrieveP2PAddresses F (ne_maddr net) fs with
    | None => cmd
    | Some saved => saved ++ cmd
    end.
  (** tss.go:87-95: the pre-parameters that are used, and whether new ones were made *)
  Definition choose_params (pre : option PP) : option PP * bool :=
    let given := match pre with Some p => if valid p then Some p else None | None => None end in
    match given with
    | Some p => (Some p, false)
    | None => (match generated with Some p => if valid p then Some p else None | None => None end, true)
    end.

  (** tss.go:46-126 (NewTss). [registered]: the metrics are registered in this process
      already; registering them again panics (prometheus MustRegister). *)
  Definition NewTss (cmd : list A) (port : Z) (priKey : bytes) (pre : option PP) (monitor : bool)
      (externalIP : string) (registered : bool) : list sevent * nres :=
    match Bech32ifyPubKey (SerializeCompressed (pub priKey)) with
    | None => ([], NErr)
    | Some pubKey =>
        if negb folder_ok then ([], NErr)
        else match NewCommunication port externalIP with
        | None => ([], NErr)
        | Some (listen, ext) =>
            let peers := bootstrap cmd in
            let '(pp, made) := choose_params pre in
            let ev0 := if made then [EvGenerate] else [] in
            match pp with
            | None => (ev0, NErr)
            | Some pp =>
                let raw := GetPriKeyRawBytes priKey in
                let '(ev, ok) := Start raw peers in
                if ok then
                  if monitor then
                    if registered then (ev0 ++ ev ++ [EvHandlers], NPanic)
                    else (ev0 ++ ev ++ [EvHandlers; EvMetrics], NServer (Server pubKey (IDFromPublicKey (pub raw)) pp peers listen ext))
                  else (ev0 ++ ev ++ [EvHandlers], NServer (Server pubKey (IDFromPublicKey (pub raw)) pp peers listen ext))
                else (ev0 ++ ev, NErr)
            end
        end
    end.
End Start.
Arguments server : clear implicits. Arguments nres : clear implicits.
Arguments NErr {A PP}. Arguments NPanic {A PP}. Arguments NServer {A PP} s.
Arguments sv_pub {A PP}. Arguments sv_peer {A PP}. Arguments sv_pre {A PP}. Arguments sv_boot {A PP}.
Arguments sv_listen {A PP}. Arguments sv_announce {A PP}. Arguments Server {A PP}.

(** ** cmd/tss/main.go *)

(** The options, cmd/tss/main.go:89-115; times in nanoseconds *)
Record opts (A : Type) := Opts {
  op_addr : string; op_help : bool; op_level : string; op_pretty : bool; op_home : string;
  op_gen : Z; op_sign : Z; op_pre : Z; op_monitor : bool;
  op_rendezvous : string; op_port : Z; op_ext : string; op_peers : list A }.
Arguments Opts {A}. Arguments op_addr {A}. Arguments op_help {A}. Arguments op_level {A}. Arguments op_pretty {A}. Arguments op_home {A}.
Arguments op_gen {A}. Arguments op_sign {A}. Arguments op_pre {A}. Arguments op_monitor {A}. Arguments op_rendezvous {A}.
Arguments op_port {A}. Arguments op_ext {A}. Arguments op_peers {A}.
Definition default_opts {A} : opts A :=
  Opts "127.0.0.1:8080" false "info" false "" 30000000000 30000000000 300000000000 true "Asgard" 6668 "" [].

(** strconv.ParseBool (not in /repo) *)
Definition parse_bool (s : string) : option bool :=
  if bool_decide (s ∈ ["1"; "t"; "T"; "TRUE"; "true"; "True"]%string) then Some true
  else if bool_decide (s ∈ ["0"; "f"; "F"; "FALSE"; "false"; "False"]%string) then Some false
  else None.
Definition bool_flag (name : string) : bool := bool_decide (name ∈ ["h"; "pretty-log"; "enablemonitor"]%string).

Section Flags.
  Context {A : Type} (maddr : string -> option A).
  (** strconv.ParseInt(s, 0, 64) and time.ParseDuration *)
  Context (parse_int parse_duration : string -> option Z).

  (** One flag is given a value; [None]: the value is refused, or there is no such flag.
      p2p/types.go:30-37 (Set) appends to the bootstrap list. *)
  Definition set_opt (name v : string) (o : opts A) : option (opts A) :=
    let '(Opts ad he le pr ho ge si pp mo re po ex pe) := o in
    if String.eqb name "tss-port" then Some (Opts v he le pr ho ge si pp mo re po ex pe)
    else if String.eqb name "h" then match parse_bool v with Some b => Some (Opts ad b le pr ho ge si pp mo re po ex pe) | None => None end
    else if String.eqb name "loglevel" then Some (Opts ad he v pr ho ge si pp mo re po ex pe)
    else if String.eqb name "pretty-log" then match parse_bool v with Some b => Some (Opts ad he le b ho ge si pp mo re po ex pe) | None => None end
    else if String.eqb name "home" then Some (Opts ad he le pr v ge si pp mo re po ex pe)
    else if String.eqb name "gentimeout" then match parse_duration v with Some d => Some (Opts ad he le pr ho d si pp mo re po ex pe) | None => None end
    else if String.eqb name "signtimeout" then match parse_duration v with Some d => Some (Opts ad he le pr ho ge d pp mo re po ex pe) | None => None end
    else if String.eqb name "preparamtimeout" then match parse_duration v with Some d => Some (Opts ad he le pr ho ge si d mo re po ex pe) | None => None end
    else if String.eqb name "enablemonitor" then match parse_bool v with Some b => Some (Opts ad he le pr ho ge si pp b re po ex pe) | None => None end
    else if String.eqb name "rendezvous" then Some (Opts ad he le pr ho ge si pp mo v po ex pe)
    else if String.eqb name "p2p-port" then match parse_int v with Some n => Some (Opts ad he le pr ho ge si pp mo re n ex pe) | None => None end
    else if String.eqb name "external-ip" then Some (Opts ad he le pr ho ge si pp mo re po v pe)
    else if String.eqb name "peer" then match maddr v with Some a => Some (Opts ad he le pr ho ge si pp mo re po ex (pe ++ [a])) | None => None end
    else None.
  (** flag.Parse (not in /repo), as in [M_Recovery.Parse]; a flag for a truth value needs
      none. [None]: the program ends with a message. *)
  Fixpoint parseFlags (args : list string) (o : opts A) : option (opts A * list string) :=
    match args with
    | [] => Some (o, [])
    | a :: rest =>
        match arg_kind a with
        | AStop => Some (o, args)
        | ADashes => Some (o, rest)
        | ABad => None
        | AFlag name (Some v) => match set_opt name v o with Some o' => parseFlags rest o' | None => None end
        | AFlag name None =>
            if bool_flag name then match set_opt name "true" o with Some o' => parseFlags rest o' | None => None end
            else match rest with
            | [] => None
            | v :: rest' => match set_opt name v o with Some o' => parseFlags rest' o' | None => None end
            end
        end
    end.
End Flags.
