# Design

A Rocq (Coq 8.16.1) model of thorchain/thorchain-tss (`/repo`, Go), and proofs
of the properties listed in `properties.jsonl`. std++ and Flocq 4.1.0 are the
only libraries used besides Coq's own.

## Layout

`rocq/theories/` (logical name `Verif`):

| files | content |
|---|---|
| `Base.v` | Go primitives: byte strings, sorting, decimal printing, map iteration order |
| `M_*.v`  | the model: one definition per Go function, each citing file and lines; no proofs |
| `S_*.v`  | specifications: the vocabulary the theorems are stated in; it does not mention helpers of the model |
| `L_*.v`  | lemmas and proofs |
| `P_*.v`  | the property theorems `Cnn_...`, each followed by `Print Assumptions`, and the examples showing that their hypotheses can be met |

A claim that is false of the code keeps its property and gets a theorem
`Cnn_..._refuted` with a concrete witness (status `partial` in the manifest, with
a note). What does hold instead is a property of its own, named in the note.

## Modelling conventions

* Go `map` is std++ `gmap`. Wherever the result of the Go code can depend on
  the iteration order of a map, the model takes an explicit *order* argument, a
  `list nat` interpreted by `Base.permute`; `permute` reaches every permutation
  (`permute_complete`), so a theorem quantifying over orders covers every
  iteration order.
* Goroutines: small-step machines. A state record, a type of labels (who moves,
  with which input), a total function `step`. Labels that are not enabled leave
  the state unchanged. A theorem about all runs quantifies over all label lists.
  A function that runs under one lock is one step; a function that gives a lock
  up in between is several.
* A blocking channel operation is a step that is enabled only when the operation
  can proceed; "waits for ever" is stated over all continuations.
* External code is never axiomatised: it is a parameter (a function, or a record
  of functions) over which the theorems quantify universally; where a theorem
  needs something of it (collision-freeness on given inputs, verification of
  what was signed) this is an explicit premise of the theorem. Where the
  behaviour of a library decides a property, the library is modelled itself
  (see below) and the premise is discharged.
* A Go panic is an explicit outcome of the model (`crashed`, `Panic`), an error
  return is a value.
* `int` is `Z` or `nat`; where a machine width matters (uint32 frame length,
  uint64 version numbers, float64 threshold, lengths of 2^32 and more) it is
  modelled exactly.
* Time: where a property speaks of time (the waiting loops), events carry
  instants; elsewhere a timeout may happen at any step.

## What is modelled

| code | model |
|---|---|
| `conversion/conversion.go` (GetThreshold, GetParties, SetupPartyIDMap, SetupIDMaps, GetPreviousKeySignUicast, BytesToHashString, CheckKeyOnCurve, AccPubKeysFromPartyIDs) | `M_Threshold`, `M_Conv`, `M_Keys`, `M_Common` |
| `conversion/key_provider.go`, `bech32.go` | `M_Key`, `M_Keys` |
| `conversion/tss_helper.go` (VersionLTCheck) | `M_Semver` |
| `p2p/leader_provider.go` | `M_Conv` |
| `p2p/stream_helper.go` (framing; StreamMgr) | `M_Stream`, `M_Comm` |
| `p2p/message_id_subscriber.go`, subscriptions and inbound side of `communication.go` | `M_Comm` |
| `p2p/peer_status.go`, `p2p/party_coordinator.go` | `M_Join` (one node), `M_Server` (which join is used) |
| `common/tss.go`, `common/tss_helper.go`, `common/local_cache_item.go` | `M_Common` (inbound), `M_OutCh` (outbound), `M_Network` (several nodes, some of them dishonest), `M_Honest` (a ceremony of honest nodes as a whole; nothing is lost, anything may be repeated), `M_Ceremony` (`M_OutCh`, `M_Wire` and `M_Honest` together, from local party to local party; what tss-lib emits is `emits`) |
| `blame/*.go` | `M_Blame`, `M_Common` |
| `keysign/notifier.go`, `keysign/signature_notifier.go` | `M_Notifier` |
| `messages/*.proto` and the payloads of the join and notification streams | `M_Proto` |
| `messages/p2p_message.go`, the JSON of the ceremony messages as written by `sendBulkMsg`, `NotifyTaskDone`, `requestShareFromPeer` and the confirmations, and as read by `readFromStream`, `ProcessOneMessage` and `updateLocal` | `M_Wire` |
| the sending side of `p2p/communication.go` (`ProcessBroadcast`, `Broadcast`, `broadcastToPeers`, `writeToStream`, `connectToOnePeer`, `Stop`) | `M_Broadcast` |
| how the program ends: `main` from the signal on, `TssHttpServer.Start`/`Stop`, `TssServer.Start`/`Stop` | `M_Shutdown` |
| `conversion/conversion.go` (GetTssPubKey, GetPeersID, SetupIDMaps with peer ids) | `M_Ids` |
| the worker goroutines of `common/tss.go` (updateLocal, doTssJob) | `M_Workers` (what each entry leads to is an input here; `M_Common` models that part) |
| starting a node: `tss/tss.go` (NewTss), `p2p/communication.go` (NewCommunication, Start, startChannel, connectToBootstrapPeers, bootStrapConnectivityCheck), `cmd/tss/main.go` (parseFlags), `p2p/types.go` | `M_Start` (what the network does is a parameter; each dial and each ping has one outcome per round) |
| `keysign/tss_keysign.go`, `keygen/tss_keygen.go` | `M_Batch`, `M_Loop`, `M_Keygen` |
| `tss/keysign.go`, `tss/keygen.go`, `tss/tss.go` (requestToMsgId, joinParty) | `M_KeySign`, `M_Keygen`, `M_Conv`, `M_Server`, `M_Pool` (the KeySign calls of all the nodes of a pool with the notifications between them; the results of join party and ceremony are labels) |
| `storage/localstate_mgr.go` | `M_Storage` (with crashes during a write) |
| `cmd/tss/tss_http.go` | `M_Http` (handlers, bodies, and the router's choice by path and method) |
| `cmd/tss-recovery` | `M_Recovery` |
| `cmd/tss-benchgen`, `cmd/tss-benchsign` | `M_Bench` (files, the loop that passes messages between the parties, the table of times; the parties themselves are inputs) |
| the locks of all packages | `M_Locks` (for each call that takes a lock: the locks and accesses in order, no data) |
| `p2p/stream_helper.go` again | `M_Slices` (the arrays behind the lists of streams, `append` in place) |
| `monitor/metric.go` (which counter is incremented) | `M_KeySign`, `M_Keygen` |

Libraries that are not in `/repo` and are modelled from knowledge of their
source, since a property depends on what they do. These models are part of what
has to be believed:

* Go: `sort.SliceStable` (`M_Sort`: the 1.14-1.18 algorithm, with comparators that are no
  orders), `sort.Strings`, `strconv.Itoa`, `encoding/base64` (`M_Base64`), `encoding/hex`,
  `encoding/json` of Go 1.15 (`M_Json`, `M_Utf8`: the grammar of RFC 8259, escapes and
  surrogates, the replacement of bytes that are not UTF-8, field names without regard to
  case, the limit of nesting; a number with a fraction or an exponent has no value, `JReal`,
  as no field takes one), `unicode/utf8`, `bufio`,
  `io.ReadFull`, `filepath.Join` on the names used, `flag`, `math/big`
  (SetBytes, Bytes, arithmetic), `crypto/cipher` CTR mode over an abstract block
  cipher;
* blang/semver (Parse, Compare); bech32 (Encode, Decode, ConvertBits); base58;
  amino framing of a secp256k1 key; btcec (ParsePubKey, SerializeCompressed,
  IsOnCurve); libp2p peer ids of secp256k1 keys; tss-lib's `Shares.ReConstruct`;
  the scrypt keystore format of go-ethereum with the KDF and MAC abstract;
* google.golang.org/protobuf: the wire format (varints, lengths, groups, unknown
  fields, UTF-8 checks) of the three messages of `/repo` and of `ECSignature`;
* IEEE-754 binary64: Flocq.

Bytes that do not have the one form of key encoding modelled (`M_Keys`) go to the
parameters `other_amino`, `other_cid`, `other_id`; theorems which need to know
that such bytes are refused say so (`only_this_form`). In particular amino length
prefixes that are longer than necessary are not covered.

## What is not modelled

* tss-lib: the rounds of keygen and signing are inputs (the messages and results
  the local party produces and the answers it gives to a share are arbitrary), so
  nothing is proved about the cryptography of the ceremonies themselves, e.g. that
  the shares are shares of one key. C59, C119, C120 start from shares of a
  polynomial.
* SHA-256, Keccak, AES, scrypt, ECDSA signing and verification: arbitrary
  functions, with premises where needed.
* libp2p: dialling, NAT, the DHT, connection management, authentication of the
  remote peer (the remote peer id of a stream is taken as given), deadlines.
* Logging, the Prometheus endpoint, the
  mocks, the memory model of Go: `M_Locks` says which goroutine may access what at
  which time, and C204 that a few accesses are races; what a race then does to the
  data is looked at only in `M_Slices`. Elsewhere the steps between a lock and its
  release are one step.
* Restricting premises of single theorems are stated in the theorem and repeated
  in the comment of the model file concerned ("Simplifications").

## Trusted base

* Coq's kernel (`coqc`, and `coqchk` on the compiled files). No `Admitted`, no axiom,
  no `Variable` outside a section, no switched-off check, no functor or module type,
  no plugin beyond those Coq loads itself. `vm_compute` is used in proofs.
* What `Print Assumptions` lists:

| theorems | `Print Assumptions` |
|---|---|
| `C01_threshold_exact` | `ClassicalDedekindReals.sig_not_dec`, `ClassicalDedekindReals.sig_forall_dec`, `FunctionalExtensionality.functional_extensionality_dep`, `Classical_Prop.classic` |
| every other theorem of the manifest (401 of 402) | Closed under the global context |

  The axioms are those of the standard library's real numbers, through Flocq. The
  `functional_extensionality_dep` is the standard library's.
* The reading of the Go code, recorded with file and lines in the comments of
  the `M_*.v` files, and of the libraries listed above.

## Tests against wrong programs

`seeded/LOG.jsonl` has one line per edit of the model: the definition, the edit,
the claim it breaks, the theorems whose proof then failed, and the theorems that
were tightened because they still held. A failed proof is what was observed; it
shows that the proof noticed the edit, and need not mean that the theorem is false
of the edited model. When a lemma fails, the files that use it are not reached.

Two kinds of lines:

- Edits written by hand, each with the claim it was meant to break.
- Edits made by a program (a constant, a comparison or a branch exchanged), in two
  runs on earlier states of the files; no claim was named beforehand, and only the
  first failure is given. The second run was stopped before its end. Edits that did
  not type-check and two that were interrupted are left out.

`note` says where an edit survived: no proof failed in that run. Some of these were
killed by theorems added later, and have a later line for the same edit; some change
nothing that can be observed; the others, mostly wordings of errors, are changes the
theorems do not notice.

Until shortly before the end the log held only the edits that made a proof fail, and a
field computed from the imports of the files was kept beside them. The survivors and
the generated edits were added afterwards from the output of the runs, and the field
was removed. Output of the earliest batches by hand was not kept, so survivors of
those that were not tightened may be missing.

## Properties

"refuted": the claim is false of the code and the theorem gives a witness; the
theorems listed beside it without `_refuted` are what is proved about it.

| id | property | status | theorems (file) |
|---|---|---|---|
| C01 | Threshold arithmetic is exact | proved | `C01_threshold_exact`, `C01_threshold_unique` (`P_Threshold.v`) |
| C02 | All nodes elect the same leader | proved | `C02_leader_agreement` (`P_Conv.v`) |
| C03 | Leader election rejects exactly the invalid inputs | proved | `C03_leader_rejects_exactly_invalid` (`P_Conv.v`) |
| C04 | The request id does not depend on the order of keys or messages | proved | `C04_request_id_order_independent`, `C04_request_id_error` (`P_Conv.v`) |
| C05 | Different requests get different ids | refuted | `C05_request_id_injective_refuted`, `C05_message_or_signer_refuted` (`P_Conv.v`) |
| C06 | All nodes build the same party table | proved | `C06_parties_order_independent`, `C06_party_table`, `C06_parties_error` (`P_Conv.v`) |
| C07 | The integer that is signed is the first 32 bytes of the payload | proved | `C07_hash_int`, `C07_hash_int_same` (`P_Conv.v`) |
| C08 | Signatures are returned next to the message they sign | proved | `C08_signatures_next_to_their_messages` (`P_Batch.v`) |
| C09 | All nodes number the batch messages identically | proved | `C09_same_identifiers`, `C09_same_identifiers_by_value`, `C09_identifiers_are_not_shared`, `C09_one_session_per_message` (`P_Batch.v`) |
| C10 | Version gate | proved | `C10_version_gate`, `C10_check_is_semver_order`, `C10_version_unique`, `C10_total_order`, `C10_join_party` (`P_Semver.v`) |
| C11 | Stream framing round-trip | proved | `C11_write_puts_a_frame`, `C11_read_back`, `C11_round_trip`, `C11_failed_write_is_prefix` (`P_Stream.v`) |
| C12 | Oversized frames are refused before being read | proved | `C12_limit`, `C12_oversized_refused` (`P_Stream.v`) |
| C13 | A truncated frame is never taken for a message | proved | `C13_truncated_refused`, `C13_read_is_a_frame` (`P_Stream.v`) |
| C14 | Whatever is written can be read back | refuted | `C14_written_but_unreadable_refuted` (`P_Stream.v`) |
| C15 | Subscriptions are a map from (type, message id) to a channel | proved | `C15_subscriptions_are_a_map`, `C15_delivery`, `C15_nothing_else_delivered`, `C15_request_gets_only_its_messages` (`P_Comm.v`) |
| C16 | Finished requests leave no subscription and affect no other | proved | `C16_finished_leave_nothing`, `C16_all_finished_table_empty`, `C16_others_do_not_interfere` (`P_Comm.v`) |
| C17 | Releasing a request resets its streams and leaves the others alone | proved | `C17_release`, `C17_forgotten`, `C17_others_kept` (`P_Comm.v`) |
| C18 | No recorded stream is lost | refuted | `C18_stream_lost_refuted` (`P_Comm.v`) |
| C19 | Only expected peers are ever counted as online | proved | `C19_online_peers_are_participants_that_asked`, `C19_others_are_ignored` (`P_Join.v`) |
| C20 | The leader counts at most threshold peers and signals formation once | proved | `C20_online_are_the_first_to_ask`, `C20_signal_once` (`P_Join.v`) |
| C21 | A formed party has enough distinct participants, leader included | proved | `C21_leader_success`, `C21_leader_timeout`, `C21_leader_timeout_reports_all` (`P_Join.v`) |
| C22 | A member takes its party only from the elected leader | proved | `C22_member_follows_its_leader` (`P_Join.v`) |
| C23 | A member never joins an undersized or foreign party | refuted | `C23_member_checks_the_list_refuted` (`P_JoinRef.v`) |
| C24 | Leaderless join succeeds exactly when everybody showed up | proved | `C24_leaderless_outcome`, `C24_leaderless_exact` (`P_Join.v`) |
| C25 | Leaderless join returns as soon as everybody showed up | refuted | `C25_only_the_timeout_ends_the_wait`, `C25_leaderless_returns_when_complete_refuted` (`P_JoinRef.v`) |
| C26 | A leader reports ErrSignReceived exactly when it was told of the signature | proved | `C26_leader_reports_signature` (`P_Join.v`) |
| C27 | Join-party handlers of a leader or a leaderless node never block | proved | `C27_handlers_never_block` (`P_Join.v`) |
| C28 | Only authentic shares reach the local party | proved | `C28_only_authentic_shares` (`P_Common.v`) |
| C29 | A share is attributed to the party that signed it | refuted | `C29_attribution_refuted` (`P_Common.v`) |
| C30 | Broadcast shares are applied only with a quorum of matching confirmations | proved | `C30_broadcast_quorum` (`P_Common.v`) |
| C31 | Two nodes never apply different broadcasts of one sender and round | refuted | `C31_agreement_refuted` (`P_Common.v`) |
| C32 | One confirmation per peer, tied to the transport identity | proved | `C32_later_report_ignored`, `C32_first_report_stays`, `C32_transport_identity` (`P_Common.v`) |
| C33 | Only party members can confirm a broadcast or announce completion | refuted | `C33_outsiders_refuted` (`P_Common.v`) |
| C34 | A share is applied at most once per round, session and party | proved | `C34_accepted_once` (`P_Common.v`) |
| C35 | Task completion is signalled exactly once | proved | `C35_completion_signal`, `C35_duplicate_reported`, `C35_never_closed_twice` (`P_Common.v`) |
| C36 | Blame evidence is genuine | proved | `C36_blame_evidence`, `C36_party_ids_have_no_dash` (`P_Common.v`) |
| C37 | A node never blames itself for a timeout | proved | `C37_no_self_blame`, `C37_own_key_not_named`, `C37_timeout_no_self_blame` (`P_Blame.v`) |
| C38 | Broadcast-timeout blame names exactly the silent parties | proved | `C38_broadcast_blame_exact`, `C38_confirmed_was_sent`, `C38_applied_not_blamed` (`P_Blame.v`) |
| C39 | Unicast-timeout blame names exactly the parties that sent nothing | proved | `C39_unicast_blame_exact`, `C39_seen_was_sent`, `C39_sent_is_seen` (`P_Blame.v`) |
| C40 | Missing-share blame names exactly the parties whose share of the first incomplete round is missing | proved | `C40_missing_share_blame_exact`, `C40_no_shares_no_blame` (`P_Blame.v`) |
| C41 | Outgoing shares are batched without loss, duplication or mixing | proved | `C41_batching`, `C41_nothing_invented` (`P_OutCh.v`) |
| C42 | Processing an inbound message never crashes the node | refuted | `C42_never_crashes_refuted`, `C42_one_frame_refuted` (`P_Common.v`, `P_Wire.v`) |
| C43 | Unsolicited shares are ignored | proved | `C43_unsolicited_ignored`, `C43_answered_once` (`P_Common.v`) |
| C44 | Every broadcast-round share goes through the confirmation quorum | refuted | `C44_hash_check_bypass_refuted` (`P_Common.v`) |
| C45 | A waited-for signature is valid | proved | `C45_waited_signature_valid`, `C45_waited_signature_length` (`P_Notifier.v`) |
| C46 | A waited-for signature set is complete | refuted | `C46_prefix_returned`, `C46_waited_set_complete_refuted` (`P_Notifier.v`) |
| C47 | A notifier delivers at most once and never blocks | proved | `C47_at_most_one_delivery`, `C47_failed_ignored`, `C47_invalid_ignored`, `C47_other_ids_untouched`, `C47_other_status_ignored` (`P_Notifier.v`, `P_Proto.v`) |
| C48 | KeySign always ends and never blocks on its internal channel | proved | `C48_sends_never_block`, `C48_never_wait_for_each_other`, `C48_bounded`, `C48_always_ends`, `C48_closed_after_both` (`P_KeySign.v`) |
| C49 | KeySign reports success only with signatures, failure otherwise | refuted | `C49_no_status_refuted`, `C49_missing_signature_refuted`, `C49_no_signature_refuted` (`P_KeySign.v`) |
| C50 | A successful keygen is durable | proved | `C50_success_is_durable` (`P_Keygen.v`) |
| C51 | Completion is announced only after the share is durable | refuted | `C51_announced_after_saved_refuted`, `C51_announced_only_if_saved_refuted` (`P_Keygen.v`) |
| C52 | Saved state round-trip and isolation | proved | `C52_reads_last_saved`, `C52_isolation`, `C52_invalid_refused` (`P_Storage.v`) |
| C53 | A crash during a save never destroys saved state | refuted | `C53_crash_keeps_old_or_new_refuted` (`P_Storage.v`) |
| C54 | Address book round-trip | proved | `C54_round_trip`, `C54_lines_exist`, `C54_no_book` (`P_Storage.v`) |
| C55 | Keygen gives up after a bounded time of silence | refuted | `C55_total_time_bounded_refuted` (`P_Loop.v`) |
| C56 | A keysign timeout never crashes the node | refuted | `C56_keysign_timeout_never_crashes_refuted` (`P_Blame.v`) |
| C57 | HTTP status reflects the outcome | refuted | `C57_keygen_errors_refuted` (`P_Http.v`) |
| C58 | Every request is counted exactly once in the metrics | proved | `C58_keysign_counters`, `C58_join_counter`, `C58_keygen_counted_once` (`P_KeySign.v`, `P_Keygen.v`) |
| C59 | Shares recover the private key | proved | `C59_shares_give_the_key`, `C59_shares_determine_the_key`, `C59_tool_prints_the_key` (`P_Recovery.v`) |
| C60 | The recovery tool honours -n | refuted | `C60_only_three`, `C60_honours_n_refuted` (`P_Recovery.v`) |
| C61 | An exported key file decrypts to the recovered key | proved | `C61_written_iff`, `C61_exported_file_opens` (`P_Recovery.v`) |
| C62 | Node key input decoding | refuted | `C62_short_keys_refused_refuted`, `C62_never_crashes_refuted` (`P_Key.v`) |
| C63 | Base64 of messages round-trips | proved | `C63_payload_round_trip`, `C63_string_round_trip`, `C63_canonical_is_decodable`, `C63_strings_are_not_shared` (`P_Batch.v`) |
| C64 | Adding blame never duplicates or drops | proved | `C64_add_blame_nodes`, `C64_no_duplicates_created`, `C64_set_blame_keeps` (`P_Blame.v`) |
| C65 | Node-sync blame names exactly the absent parties | proved | `C65_node_sync_blame_exact` (`P_Blame.v`) |
| C66 | Honest senders are not blamed by a hash check | refuted | `C66_honest_sender_blamed_refuted` (`P_Common.v`) |
| C67 | An agreed broadcast is applied | proved | `C67_agreed_broadcast_applied` (`P_Common.v`) |
| C68 | No signing request can crash the node | refuted | `C68_no_crash`, `C68_no_messages_refuted` (`P_KeySign.v`) |
| C69 | Nodes that apply different broadcasts expose double reporters | proved | `C69_disagreement_exposed` (`P_Common.v`) |
| C70 | Messages that name their senders cannot crash a node | proved | `C70_named_senders_no_crash` (`P_Common.v`) |
| C71 | Hash-check blame has grounds | proved | `C71_hash_check_grounds` (`P_Common.v`) |
| C72 | No stream is lost unless it is added during the release of its own id | proved | `C72_no_stream_lost` (`P_Comm.v`) |
| C73 | A stream is reset at most once | refuted | `C73_reset_once_refuted`, `C73_reset_once` (`P_Comm.v`, `P_ResetOnce.v`) |
| C74 | Overlapping requests with the same id do not disturb each other | refuted | `C74_same_id_disturbs_refuted` (`P_Comm.v`) |
| C75 | The handler of an incoming message always ends | refuted | `C75_handler_never_ends_refuted`, `C75_when_the_handler_can_end` (`P_Comm.v`, `P_HandlerEnds.v`) |
| C76 | A member reports a received signature | refuted | `C76_member_reports_signature_refuted` (`P_JoinRef.v`) |
| C77 | A received signature ends the leader's wait | refuted | `C77_leader_stops_on_signature_refuted` (`P_JoinRef.v`) |
| C78 | Join-party handlers of a member end | refuted | `C78_member_handlers_end_refuted` (`P_JoinRef.v`) |
| C79 | A leader returns once enough peers have asked | refuted | `C79_leader_returns_when_complete_refuted` (`P_JoinRef.v`) |
| C80 | A member's result is one response of its leader | refuted | `C80_one_response_decides_refuted` (`P_JoinRef.v`) |
| C81 | Overlapping joins with one id do not disturb each other | refuted | `C81_overlapping_joins_are_independent_refuted` (`P_JoinRef.v`) |
| C82 | A finished join is forgotten | refuted | `C82_join_is_forgotten_refuted` (`P_JoinRef.v`) |
| C83 | Missing-share blame of a batch names every party with a missing share | refuted | `C83_batch_blames_all_missing_refuted`, `C83_blame_depends_on_iteration_order_refuted` (`P_Blame.v`) |
| C84 | Missing-share blame of a batch is sound | proved | `C84_batch_blame_sound` (`P_Blame.v`) |
| C85 | Nobody is blamed when no share is missing | refuted | `C85_complete_ceremony_blames_everybody`, `C85_nobody_blamed_if_nothing_missing_refuted` (`P_Blame.v`) |
| C86 | A keygen timeout never crashes the node | refuted | `C86_keygen_timeout_never_crashes_refuted` (`P_Blame.v`) |
| C87 | After its first message a keysign timeout never crashes the node | proved | `C87_keysign_timeout_no_crash_after_first_message` (`P_Blame.v`) |
| C88 | A valid notification reaches the waiting call | proved | `C88_valid_notification_delivered` (`P_Notifier.v`) |
| C89 | Concurrent waits for the same message id do not disturb each other | refuted | `C89_same_id_independent_refuted` (`P_Notifier.v`) |
| C90 | A signature notification never crashes the node | refuted | `C90_notification_no_crash_refuted`, `C90_one_signature_too_many_refuted` (`P_Notifier.v`, `P_Proto.v`) |
| C91 | Only a holder of valid signatures can crash the signature notifier | proved | `C91_crash_needs_valid_signatures` (`P_Notifier.v`) |
| C92 | What a signer broadcasts is what the others return | proved | `C92_broadcast_targets`, `C92_broadcast_received`, `C92_failure_not_propagated` (`P_Notifier.v`, `P_Proto.v`) |
| C93 | A timeout blames a minority unless broadcasts decide | proved | `C93_timeout_blames_a_minority` (`P_Blame.v`) |
| C94 | A timeout report that blames somebody has a reason | refuted | `C94_timeout_report_has_reason_refuted`, `C94_reason_after` (`P_Blame.v`, `P_Reason.v`) |
| C95 | An honest batch is accepted by every waiting node | proved | `C95_honest_batch_is_accepted` (`P_Batch.v`) |
| C96 | Signing nodes answer the same | proved | `C96_nodes_answer_the_same` (`P_Batch.v`) |
| C97 | Building the keysign answer crashes only on excess signatures | proved | `C97_answer_panics_exactly_on_excess` (`P_Batch.v`) |
| C98 | A signature from the others always wins | proved | `C98_received_signature_wins`, `C98_abandoned_only_for_a_signature`, `C98_signals_reach_the_other_goroutine` (`P_KeySign.v`) |
| C99 | What a signing call can answer | proved | `C99_answers`, `C99_keysign_returns`, `C99_answers_the_request` (`P_KeySign.v`) |
| C100 | Errors of a signing call come from its checks | proved | `C100_errors_come_from_the_checks` (`P_KeySign.v`) |
| C101 | A signing call broadcasts its own result, once, to the whole pool | proved | `C101_broadcasts`, `C101_signatures_come_from_the_ceremony` (`P_KeySign.v`) |
| C102 | Who is blamed when no signing party forms | proved | `C102_join_failure_blame` (`P_KeySign.v`) |
| C103 | A node signs only where it belongs | proved | `C103_signs_only_as_member`, `C103_inactive_only_as_outsider` (`P_KeySign.v`) |
| C104 | A half-written share is an error, never a wrong share | proved | `C104_cut_save_is_an_error` (`P_Storage.v`) |
| C105 | A half-written address book is noticed | refuted | `C105_cut_book`, `C105_only_saved_addresses_refuted`, `C105_cut_book_is_an_error_refuted` (`P_Book.v`, `P_Storage.v`) |
| C106 | Loopback addresses are left out of the address book, and only those | refuted | `C106_what_is_saved`, `C106_loopback_dropped_refuted` (`P_BookText.v`, `P_Storage.v`) |
| C107 | The wait for the local party ends after silence, and within a bound given by its progress | proved | `C107_time_bound`, `C107_silence`, `C107_always_ends`, `C107_done`, `C107_endings` (`P_Loop.v`) |
| C108 | A finished node has sent every message its local party produced | refuted | `C108_done_means_all_sent_refuted`, `C108_in_order`, `C108_sent_when_time_passes`, `C108_after_the_end` (`P_Loop.v`, `P_LoopOrder.v`) |
| C109 | When keygen succeeds | proved | `C109_when_keygen_succeeds` (`P_Keygen.v`) |
| C110 | When keygen returns an error | proved | `C110_keygen_errors` (`P_Keygen.v`) |
| C111 | Who is blamed when the keygen party does not form | proved | `C111_blame_when_no_party` (`P_Keygen.v`) |
| C112 | Only absent nodes are blamed when the keygen party does not form | refuted | `C112_only_absent_blamed_refuted` (`P_Keygen.v`) |
| C113 | A long private key input is decoded exactly | proved | `C113_long_key_input`, `C113_raw_bytes` (`P_Key.v`) |
| C114 | HTTP answers state the response of the server | proved | `C114_keygen_answer`, `C114_keysign_answer` (`P_Http.v`) |
| C115 | Only complete JSON requests reach the server | refuted | `C115_only_requests_reach_the_server_refuted`, `C115_fields_must_be_given_refuted` (`P_Http.v`) |
| C116 | The server gets the request the client wrote | proved | `C116_request_is_text`, `C116_keygen_request`, `C116_keysign_request` (`P_Http.v`) |
| C117 | HTTP status codes | proved | `C117_keysign_status`, `C117_keygen_status`, `C117_other_requests` (`P_Http.v`) |
| C118 | What the recovery tool uses and when it crashes | proved | `C118_only_the_first_three_files`, `C118_when_it_crashes` (`P_Recovery.v`) |
| C119 | Fewer shares than the threshold plus one say nothing | proved | `C119_fewer_shares_say_nothing` (`P_Recovery.v`) |
| C120 | The recovered key belongs to the group key in the files | refuted | `C120_key_of_the_group_refuted` (`P_Recovery.v`) |
| C121 | The recovery tool announces only files it wrote | refuted | `C121_announced_is_written_refuted` (`P_Recovery.v`) |
| C122 | A completely written export opens | refuted | `C122_written_file_opens_refuted` (`P_Recovery.v`) |
| C123 | The recovery tool reads its command line | proved | `C123_command_line` (`P_Recovery.v`) |
| C124 | Ids of requests of the usual form are different | proved | `C124_keygen_id_injective`, `C124_keysign_id_injective` (`P_Conv.v`) |
| C125 | A finished leaderless join is forgotten | proved | `C125_leaderless_join_is_forgotten` (`P_JoinRef.v`) |
| C126 | The only cause of a crash at a keygen timeout | proved | `C126_keygen_timeout_crash_cause` (`P_Blame.v`) |
| C127 | A peer id leads back to the node key | proved | `C127_peer_to_key`, `C127_every_point`, `C127_lists` (`P_Keys.v`) |
| C128 | Different node keys have different peers | proved | `C128_same_peer_same_key` (`P_Keys.v`) |
| C129 | Different key texts name different peers | refuted | `C129_texts_differ_peers_differ_refuted` (`P_Keys.v`) |
| C130 | A key passes the curve check exactly when it is a point | proved | `C130_exactly_points`, `C130_never_false` (`P_Keys.v`) |
| C131 | A mistyped key is refused | proved | `C131_mistyped_keys_refused` (`P_Keys.v`) |
| C132 | A key that parses is a file name | proved | `C132_key_is_a_file_name`, `C132_state_laws` (`P_Keys.v`) |
| C133 | Parties stand for the peers and keys of the participants | proved | `C133_parties_stand_for_participants` (`P_Keys.v`) |
| C134 | The state of a key is found for every text of the key | refuted | `C134_state_of_every_text_refuted` (`P_Keys.v`) |
| C135 | Signature notifications survive the wire | proved | `C135_notification_round_trip`, `C135_signature_round_trip`, `C135_missing_signature`, `C135_injective` (`P_Proto.v`) |
| C136 | Join-party messages survive the wire | proved | `C136_leaderless_request`, `C136_request_to_leader`, `C136_response`, `C136_response_targets` (`P_Proto.v`) |
| C137 | Decoders accept only text as ids and ignore unknown fields | proved | `C137_only_text_is_sent`, `C137_only_text_joins`, `C137_only_text_is_read`, `C137_new_fields_are_ignored` (`P_Proto.v`) |
| C138 | Leader and members agree on the party | proved | `C138_party_agreement`, `C138_party_formed` (`P_Proto.v`) |
| C139 | Ceremony messages survive the wire | proved | `C139_share_received`, `C139_confirmation_received`, `C139_task_done_received`, `C139_control_received`, `C139_bulk_read_back` (`P_Wire.v`) |
| C140 | A signed share is bound to its request | proved | `C140_signed_bytes`, `C140_no_replay` (`P_Wire.v`) |
| C141 | What an honest node sends is applied by its receiver | proved | `C141_delivered`, `C141_unicast_applied`, `C141_broadcast_applied` (`P_Wire.v`) |
| C142 | A message goes only to the peers it names, at most once each | proved | `C142_addressed_only`, `C142_at_most_once` (`P_Broadcast.v`) |
| C143 | A peer that cannot be reached holds up nobody else | proved | `C143_others_served` (`P_Broadcast.v`) |
| C144 | Stop waits for the sending goroutines, and nothing is sent after it | proved | `C144_stop_waits`, `C144_stop_returns`, `C144_only_second_stop_crashes` (`P_Broadcast.v`) |
| C145 | Stop may be called twice | refuted | `C145_stop_twice_refuted` (`P_Broadcast.v`) |
| C146 | No accepted message is lost by Stop | refuted | `C146_accepted_lost_refuted`, `C146_sender_blocked_refuted` (`P_Broadcast.v`) |
| C147 | Messages to one peer arrive in the order they were sent | refuted | `C147_order_refuted` (`P_Broadcast.v`) |
| C148 | Every stream the node opens is accounted for | proved | `C148_streams_recorded`, `C148_release_resets` (`P_Broadcast.v`) |
| C149 | Releasing a request resets all its streams | refuted | `C149_stream_left_refuted` (`P_Broadcast.v`) |
| C150 | The pool key text names the generated point | proved | `C150_pool_key_names_the_point`, `C150_only_the_curve`, `C150_different_keys_different_texts`, `C150_answer_is_the_saved_key` (`P_Ids.v`) |
| C151 | A ceremony talks to the peers of exactly its participants | proved | `C151_peers_of_a_ceremony`, `C151_complete_or_error`, `C151_empty_map_panics` (`P_Ids.v`) |
| C152 | A node that starts has reached the network | proved | `C152_started_node_reached_the_network`, `C152_when_a_node_starts` (`P_Start.v`) |
| C153 | One reachable bootstrap peer is enough | refuted | `C153_one_reachable_peer_suffices_refuted` (`P_Start.v`) |
| C154 | The pre-parameters in use are valid | proved | `C154_valid_parameters` (`P_Start.v`) |
| C155 | A failed start leaves nothing open | refuted | `C155_failed_start_leaves_nothing_refuted` (`P_Start.v`) |
| C156 | Several nodes can run in one process | refuted | `C156_first_node_does_not_panic`, `C156_two_nodes_in_a_process_refuted` (`P_Start.v`) |
| C157 | A node's key and peer id belong together | proved | `C157_key_and_peer_agree`, `C157_addresses` (`P_Start.v`) |
| C158 | The command line means what it says | proved | `C158_settings`, `C158_stray_word_ends_the_settings` (`P_Start.v`) |
| C159 | Handling a message leaves nothing running | refuted | `C159_no_goroutine_left_refuted`, `C159_only_refused_messages_leak`, `C159_they_never_end` (`P_Workers.v`) |
| C160 | A message is worked off completely, each share once | proved | `C160_every_share_once`, `C160_no_share_twice`, `C160_queueing_never_waits`, `C160_work_is_bounded`, `C160_no_deadlock` (`P_Workers.v`) |
| C161 | What a peer can make a node store is bounded | refuted | `C161_memory_per_peer_refuted`, `C161_entries_are_asked_for`, `C161_an_entry_per_message` (`P_Memory.v`, `P_MemoryBound.v`) |
| C162 | An agreed broadcast is applied whatever else is going on | proved | `C162_agreed_broadcast_applied_in_any_traffic` (`P_Agree.v`) |
| C163 | Key generations take turns | proved | `C163_one_at_a_time`, `C163_nothing_else_waits` (`P_Turns.v`) |
| C164 | Sending out shares does not panic | proved | `C164_sending_panics_exactly` (`P_OutCh.v`) |
| C165 | What is left out of a message has a fixed meaning | proved | `C165_frame_without_a_field`, `C165_share_without_a_field`, `C165_others_without_a_field`, `C165_type_out_of_range`, `C165_request_without_a_field` (`P_Defaults.v`) |
| C166 | Files are written only in the node's folder | proved | `C166_written_in_the_folder`, `C166_nothing_else_changes` (`P_Files.v`) |
| C167 | In an honest ceremony every share arrives, once | proved | `C167_every_share_arrives_once` (`P_Honest.v`) |
| C168 | In an honest ceremony nobody is blamed | proved | `C168_nobody_blamed` (`P_Honest.v`) |
| C169 | A node takes the ceremony for complete when all others are done | proved | `C169_complete_when_all_are_done` (`P_Honest.v`) |
| C170 | The traffic of an honest ceremony ends | proved | `C170_traffic_ends` (`P_Honest.v`) |
| C171 | Which signing requests are taken on | proved | `C171_accepted_iff`, `C171_refusal_answer` (`P_Accept.v`) |
| C172 | A signing party is large enough | proved | `C172_party_is_large_enough` (`P_Accept.v`) |
| C173 | Every share of a local party reaches the local parties it is meant for | proved | `C173_shares_reach_the_local_parties`, `C173_nothing_stays_under_way` (`P_Ceremony.v`) |
| C174 | Local parties are only given what local parties emitted for them | proved | `C174_only_what_was_emitted` (`P_Ceremony.v`) |
| C175 | Who is blamed when a ceremony times out | proved | `C175_the_late_are_blamed` (`P_Timeout.v`) |
| C176 | Missing shares decide when nobody is found late | proved | `C176_else_missing_shares_decide` (`P_Timeout.v`) |
| C177 | One leader for each signing request | proved | `C177_role`, `C177_one_leader` (`P_Role.v`) |
| C178 | No party forms once the node was told of a signature | proved | `C178_no_party_after_a_signature`, `C178_signature_only_when_told`, `C178_models_agree` (`P_Role.v`) |
| C179 | Every signature answered was produced by a ceremony of the same request | proved | `C179_signatures_come_from_some_node` (`P_Pool.v`) |
| C180 | When nothing goes wrong the whole pool answers with the signatures | proved | `C180_right_answers`, `C180_never_stuck`, `C180_always_finishes`, `C180_same_answer`, `C180_readable_on_the_wire` (`P_Pool.v`) |
| C181 | Exactly the readable base64 texts are messages | proved | `C181_decodes_exactly`, `C181_answer_stands_for_the_same` (`P_Base64.v`) |
| C182 | The id of a signing request follows the spelling of its messages | proved | `C182_canonical_same_id`, `C182_spelling_changes_the_id` (`P_Base64.v`) |
| C183 | Whoever the library finds guilty of a bad share is blamed and then ignored | proved | `C183_culprits_are_blamed`, `C183_unicast_flag`, `C183_unknown_culprit`, `C183_culprit_is_ignored` (`P_Culprit.v`) |
| C184 | The blame for a bad share shows the message that carried it | refuted | `C184_no_evidence_without_broadcast`, `C184_bad_share_is_shown_refuted` (`P_Culprit.v`) |
| C185 | The field is_broadcast of an answer says whether the bad share was a broadcast | refuted | `C185_is_broadcast_field_refuted` (`P_Culprit.v`) |
| C186 | Exactly the JSON texts of the right shape are read | proved | `C186_one_value`, `C186_messages_are_json`, `C186_depth_is_limited`, `C186_topics_are_json`, `C186_states_are_json` (`P_Json.v`) |
| C187 | A saved state is read back whatever strings it has | refuted | `C187_any_state_survives_refuted`, `C187_http_states_survive` (`P_Json.v`) |
| C188 | The shares counted are those the library took, each at its own round | proved | `C188_counted_shares` (`P_Counted.v`) |
| C189 | Exactly the well-formed payloads are read | proved | `C189_payloads_are_json`, `C189_lists_are_json` (`P_Json2.v`) |
| C190 | Stopping leaves running requests ten seconds | proved | `C190_ten_seconds`, `C190_no_more_requests` (`P_Shutdown.v`) |
| C191 | A clean stop means that every request was answered | proved | `C191_report` (`P_Shutdown.v`) |
| C192 | After a signal the program ends | proved | `C192_program_ends` (`P_Shutdown.v`) |
| C193 | A program that cannot serve its API ends | refuted | `C193_cannot_listen_refuted` (`P_Shutdown.v`) |
| C194 | Every request that was taken is answered | refuted | `C194_cut_off_refuted` (`P_Shutdown.v`) |
| C195 | What is read is what the JSON says | proved | `C195_messages_say`, `C195_requests_say`, `C195_structures_say` (`P_Fields.v`) |
| C196 | Which bytes are a public key, and of which point | proved | `C196_key_bytes`, `C196_peer_of_text` (`P_KeyForms.v`) |
| C197 | tss-benchgen changes nothing that was there | proved | `C197_nothing_overwritten`, `C197_folder_refused` (`P_Bench.v`) |
| C198 | When tss-benchgen ends well all shares are written | proved | `C198_shares_written` (`P_Bench.v`) |
| C199 | The benchmark programs hand every message to the parties it is for | proved | `C199_given`, `C199_panics` (`P_Bench.v`) |
| C200 | What tss-benchsign measures, and what it refuses | refuted | `C200_table`, `C200_panics`, `C200_small_quorum_refused_refuted` (`P_Bench.v`) |
| C201 | Every party of tss-benchsign signs with its own share | proved | `C201_first_files`, `C201_own_data_iff`, `C201_generated` (`P_Bench.v`) |
| C202 | No goroutine waits for a lock for ever | proved | `C202_no_deadlock`, `C202_all_end` (`P_Locks.v`) |
| C203 | What has a lock is never raced for | proved | `C203_no_race` (`P_Locks.v`) |
| C204 | Nothing shared is raced for | refuted | `C204_no_race_anywhere_refuted` (`P_Locks.v`) |
| C205 | A release resets all streams recorded when it begins | refuted | `C205_found_is_reset`, `C205_any_history_refuted`, `C205_unknown_is_reset` (`P_Slices.v`, `P_SlicesUnknown.v`) |
| C206 | Sharing arrays loses no stream | proved | `C206_no_stream_lost` (`P_Slices.v`) |
| C207 | Blame is given with its reason and not taken back | proved | `C207_after_a_timeout`, `C207_a_step_and_the_blame`, `C207_blamed_with_a_reason`, `C207_the_blamed_stay` (`P_BlameEnds.v`, `P_BlameGrows.v`) |

