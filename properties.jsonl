{"id": "C01", "title": "Threshold arithmetic is exact", "statement": "GetThreshold(n) returns exactly ceil(2n/3)-1 for every n that a party can have (0 <= n <= 2^50), despite being computed in float64; it returns an error for every negative n. Consequently for n >= 1 the threshold t satisfies 0 <= t < n, and t+1 parties are always at least two thirds of n while t parties are always fewer than two thirds of n.", "quantifier": "every integer n", "why_tests_cant": "the result goes through float64 multiplication, division and Ceil: a rounding error would show at some n no table of cases contains", "anchors": ["conversion/conversion.go: GetThreshold"]}
{"id": "C02", "title": "All nodes elect the same leader", "statement": "For one message id and block height, two nodes holding the same set of participants in any order (and with any repetitions) get the same leader from LeaderNode, the leader is one of the participants, and it is the one whose hash is smallest; provided no two distinct participants collide under SHA-256.", "quantifier": "every message id, height, participant list and every reordering or repetition of it", "why_tests_cant": "n! orderings; agreement is a statement about pairs of runs on different machines", "anchors": ["p2p/leader_provider.go: LeaderNode"]}
{"id": "C03", "title": "Leader election rejects exactly the invalid inputs", "statement": "LeaderNode fails exactly when the participant list is empty, the message id is empty or the block height is 0; in every other case it succeeds.", "quantifier": "every input", "why_tests_cant": "the rejected set must be exact over an infinite input space", "anchors": ["p2p/leader_provider.go: LeaderNode"]}
{"id": "C04", "title": "The request id does not depend on the order of keys or messages", "statement": "Two keygen requests whose key lists are permutations of each other, or two keysign requests whose message lists and signer lists are permutations of each other, get the same message id on every node, so the nodes find each other; an error is returned exactly when the material to hash is empty.", "quantifier": "every pair of requests that are permutations of each other", "why_tests_cant": "all permutations of unbounded lists", "anchors": ["tss/tss.go: requestToMsgId", "common/tss_helper.go: MsgToHashString"]}
{"id": "C05", "title": "Different requests get different ids", "statement": "Two requests that ask for different things (different pool key, different message set, different participants) get different message ids, so that their traffic cannot be mixed. (The code violates this: the pool key is not hashed and the fields are concatenated without separators.)", "quantifier": "every pair of requests", "why_tests_cant": "injectivity over an infinite domain", "anchors": ["tss/tss.go: requestToMsgId"]}
{"id": "C06", "title": "All nodes build the same party table", "statement": "GetParties called with any permutation of the same key list gives every node the same party list; the ids are exactly the decimal indices 0..n-1 of the keys in sorted order, each party carries the public key of its position, the list is ordered by key, and the local party returned is the entry of the local key. It fails exactly when a key is malformed or the local key is absent.", "quantifier": "every key list, permutation and local key", "why_tests_cant": "agreement between machines over all permutations", "anchors": ["conversion/conversion.go: GetParties, SetupPartyIDMap"]}
{"id": "C07", "title": "The integer that is signed is the first 32 bytes of the payload", "statement": "MsgToHashInt(m) is the big-endian integer of the first 32 bytes of m (all of m if shorter), it is below 2^256, and no bit shift ever happens; two payloads get the same integer iff their first 32 bytes, leading zeros aside, denote the same integer.", "quantifier": "every byte string", "why_tests_cant": "unbounded inputs; truncation boundary", "anchors": ["common/tss_helper.go: MsgToHashInt, hashToInt"]}
{"id": "C08", "title": "Signatures are returned next to the message they sign", "statement": "Whatever the order in which the messages were listed in the request and the order in which the signing sessions complete, the k-th signature of a generated keysign response is a signature over the integer of the k-th message of the response, and every message of the request appears exactly once.", "quantifier": "every message list (duplicates included), every completion order", "why_tests_cant": "the comparator passed to the sort is not a strict order, so the sort library gives no guarantee; all completion orders", "anchors": ["tss/keysign.go: KeySign, batchSignatures", "keysign/tss_keysign.go: SignMessage"]}
{"id": "C09", "title": "All nodes number the batch messages identically", "statement": "Nodes that receive the same keysign messages in any order give each message the same session identifier (value:index), and distinct positions get distinct identifiers, so that shares of different messages are never mixed.", "quantifier": "every message list and permutation", "why_tests_cant": "agreement across machines over all permutations, duplicates included", "anchors": ["tss/keysign.go: KeySign", "keysign/tss_keysign.go: SignMessage", "tss/tss.go: requestToMsgId"]}
{"id": "C10", "title": "Version gate", "statement": "A request version selects the leaderless join party exactly when it is a semantic version strictly lower than 0.14.0 (pre-releases of 0.14.0 included), the leader-based one when it is a semantic version not lower; any other string makes the request fail. The comparison is a total order on versions.", "quantifier": "every version string", "why_tests_cant": "infinite strings", "anchors": ["conversion/tss_helper.go: VersionLTCheck", "tss/tss.go: joinParty"]}
{"id": "C11", "title": "Stream framing round-trip", "statement": "For every payload of at most 20,000,000 bytes, what WriteStreamWithBuffer puts on a stream is read back by ReadStreamWithBuffer as exactly that payload, however the transport fragments the bytes and whatever follows them.", "quantifier": "every payload, every fragmentation, every suffix", "why_tests_cant": "all payloads and all fragmentations", "anchors": ["p2p/stream_helper.go: WriteStreamWithBuffer, ReadStreamWithBuffer"]}
{"id": "C12", "title": "Oversized frames are refused before being read", "statement": "ReadStreamWithBuffer never returns a payload longer than 20,000,000 bytes, never allocates a larger payload buffer, and takes off the stream at most 4 bytes, its 4096-byte read-ahead and the payload buffer. A frame announcing more is an error whatever its content, with nothing allocated for it and at most 4 + 4096 bytes taken off the stream.", "quantifier": "every byte stream", "why_tests_cant": "adversarial streams are unbounded", "anchors": ["p2p/stream_helper.go: ReadStreamWithBuffer"]}
{"id": "C13", "title": "A truncated frame is never taken for a message", "statement": "If the stream ends anywhere before the last byte of a frame, ReadStreamWithBuffer returns an error; a read that succeeds returns exactly the announced number of bytes, the ones following the header.", "quantifier": "every stream and every cut point", "why_tests_cant": "every cut point of every stream", "anchors": ["p2p/stream_helper.go: ReadStreamWithBuffer"]}
{"id": "C14", "title": "Whatever is written can be read back", "statement": "Every payload WriteStreamWithBuffer accepts without error can be read back by the peer. (Violated: the writer has no length check, the reader refuses more than 20,000,000 bytes, and the length field wraps at 2^32.)", "quantifier": "every payload", "why_tests_cant": "boundary beyond any test size", "anchors": ["p2p/stream_helper.go: WriteStreamWithBuffer"]}
{"id": "C15", "title": "Subscriptions are a map from (type, message id) to a channel", "statement": "After any sequence of SetSubscribe and CancelSubscribe, an incoming message of type T and id M is delivered to the channel most recently subscribed for exactly (T, M) and not cancelled since, and dropped if there is none; operations on other pairs have no influence.", "quantifier": "every sequence of subscriptions, cancellations and deliveries", "why_tests_cant": "all operation histories", "anchors": ["p2p/communication.go: SetSubscribe, CancelSubscribe, getSubscriber, readFromStream", "p2p/message_id_subscriber.go"]}
{"id": "C16", "title": "Finished requests leave no subscription and affect no other", "statement": "Once every keygen or keysign with a given message id has ended, no subscription for that id remains, and when no request is active the subscription table is empty. While a request is at work it is subscribed for the four message types of its kind, whatever requests with other ids start, run or end meanwhile (provided no two requests with its id are active together; see C74).", "quantifier": "every interleaving of any number of requests and of message handlers", "why_tests_cant": "all interleavings of requests", "anchors": ["tss/keygen.go: Keygen", "tss/keysign.go: KeySign", "p2p/communication.go"]}
{"id": "C17", "title": "Releasing a request resets its streams and leaves the others alone", "statement": "After any history of AddStream and ReleaseStream, ReleaseStream(id) resets exactly the streams recorded under id since its last release, in order, followed by those recorded under UNKNOWN; it forgets those of id, and a later release of another id still resets that id's streams. (Calls one after the other; for concurrent calls see C18 and C72.)", "quantifier": "every sequence of AddStream and ReleaseStream", "why_tests_cant": "all histories", "anchors": ["p2p/stream_helper.go: StreamMgr"]}
{"id": "C18", "title": "No recorded stream is lost", "statement": "Every stream passed to AddStream is either still recorded or has been reset, in every interleaving of AddStream and ReleaseStream. (Violated: ReleaseStream drops its lock between reading and deleting the entry.)", "quantifier": "every interleaving", "why_tests_cant": "a race window of a few instructions", "anchors": ["p2p/stream_helper.go: ReleaseStream"]}
{"id": "C72", "title": "No stream is lost unless it is added during the release of its own id", "statement": "In every interleaving of any number of concurrent AddStream and ReleaseStream calls in which no stream is added under an id while a release of that id is in progress, every stream added is still recorded, has been reset, or is on the list of a release in progress.", "quantifier": "every interleaving of calls, of locks and of individual resets", "why_tests_cant": "all interleavings", "anchors": ["p2p/stream_helper.go: AddStream, ReleaseStream"]}
{"id": "C73", "title": "A stream is reset at most once", "statement": "A stream that was recorded once is reset by at most one ReleaseStream. (Violated: streams recorded under UNKNOWN are never forgotten and are reset by every later release.)", "quantifier": "every history", "why_tests_cant": "long histories", "anchors": ["p2p/stream_helper.go: ReleaseStream"]}
{"id": "C74", "title": "Overlapping requests with the same id do not disturb each other", "statement": "A keysign at work keeps its subscriptions until it ends, also when another keysign with the same message id ends before it. (Violated: the first one to end cancels the subscriptions of the other, which then receives nothing.)", "quantifier": "every interleaving", "why_tests_cant": "two identical requests must overlap", "anchors": ["tss/keysign.go: KeySign", "p2p/communication.go: CancelSubscribe"]}
{"id": "C75", "title": "The handler of an incoming message always ends", "statement": "The goroutine that handles an incoming stream ends, whatever the state of the request the message is for. (Violated: it sends on the bounded channel of the request without a way out; when the request ends first, the goroutine waits for ever.)", "quantifier": "every interleaving", "why_tests_cant": "needs a message arriving just before the end of a request; a leak, not a failure", "anchors": ["p2p/communication.go: readFromStream", "common/tss.go: NewTssCommon"]}
{"id": "C19", "title": "Only expected peers are ever counted as online", "statement": "In every history of join-party requests, a peer reported online by the coordinator is one of the participants the group was created with, is not the node itself, sent at least one request, and appears once; a request from any other peer changes nothing and is an error.", "quantifier": "every participant list and every sequence of requests", "why_tests_cant": "all histories, adversarial senders", "anchors": ["p2p/peer_status.go: NewPeerStatus, updatePeer, getPeersStatus"]}
{"id": "C20", "title": "The leader counts at most threshold peers and signals formation once", "statement": "With a leader, the number of online peers equals the number of accepted requests and never exceeds the threshold; the party-formed signal is raised exactly once, at the threshold-th distinct participant, and never before; further requests are ignored.", "quantifier": "every sequence of requests, every threshold", "why_tests_cant": "all histories", "anchors": ["p2p/peer_status.go: updatePeer"]}
{"id": "C21", "title": "A formed party has enough distinct participants, leader included", "statement": "When the leader's JoinPartyWithLeader succeeds, the returned peers are distinct participants, include the leader, number exactly threshold+1 (for 0 < threshold <= number of other participants), and every non-leader among them sent a request; when it reports a timeout the returned peers are exactly the leader and those who did ask, and they are fewer than threshold+1.", "quantifier": "every schedule of requests, timeout and signature notifications", "why_tests_cant": "all schedules", "anchors": ["p2p/party_coordinator.go: joinPartyLeader, processReqMsg"]}
{"id": "C22", "title": "A member takes its party only from the elected leader", "statement": "A non-leader returns a party from JoinPartyWithLeader only if the elected leader itself sent, during this call, a response for this very message id with exactly this list; success is reported only if the list has at least threshold entries and the leader itself sent a response for this id that says Success.", "quantifier": "every sequence of incoming messages from arbitrary peers", "why_tests_cant": "adversarial histories", "anchors": ["p2p/party_coordinator.go: joinPartyMember, processRespMsg"]}
{"id": "C23", "title": "A member never joins an undersized or foreign party", "statement": "A member that returns success from JoinPartyWithLeader got a list of at least threshold+1 distinct peers, all participants of the request. (Violated: only len >= threshold is checked, with no membership or distinctness check.)", "quantifier": "every leader response", "why_tests_cant": "adversarial leader", "anchors": ["p2p/party_coordinator.go: joinPartyMember"]}
{"id": "C24", "title": "Leaderless join succeeds exactly when everybody showed up", "statement": "JoinPartyWithRetry returns without error exactly when every other participant sent a request before the deadline (participants distinct and including the node); the returned list is the node itself plus exactly the participants that sent one.", "quantifier": "every participant list and every history of requests", "why_tests_cant": "all histories", "anchors": ["p2p/party_coordinator.go: JoinPartyWithRetry, HandleStream"]}
{"id": "C25", "title": "Leaderless join returns as soon as everybody showed up", "statement": "JoinPartyWithRetry stops waiting once the last participant has sent its request. (Violated: the handler signals newFound, the waiter listens on notify, so the full timeout always elapses.)", "quantifier": "every history of requests", "why_tests_cant": "timing over all histories", "anchors": ["p2p/party_coordinator.go: JoinPartyWithRetry, HandleStream"]}
{"id": "C26", "title": "A leader reports ErrSignReceived exactly when it was told of the signature", "statement": "A leader's JoinPartyWithLeader returns ErrSignReceived, with no party, if and only if it was told about the received signature while it was waiting.", "quantifier": "every schedule", "why_tests_cant": "race between three event sources", "anchors": ["p2p/party_coordinator.go: joinPartyMember, joinPartyLeader", "tss/keysign.go: generateSignature"]}
{"id": "C27", "title": "Join-party handlers of a leader or a leaderless node never block", "statement": "On a leader, or in the leaderless protocol, handling an incoming join-party message never blocks on a full notification channel, whatever peers send and have sent before.", "quantifier": "every sequence of messages from arbitrary peers", "why_tests_cant": "needs a bound on channel occupancy over all histories", "anchors": ["p2p/party_coordinator.go: processRespMsg, processReqMsg, HandleStream", "p2p/peer_status.go"]}
{"id": "C28", "title": "Only authentic shares reach the local party", "statement": "Every share handed to the local keygen/keysign party was contained in a message received earlier whose signature verifies, for this request's id, under the public key of the party named as its sender, and that sender belongs to the party.", "quantifier": "every history of inbound messages from arbitrary peers and every worker schedule", "why_tests_cant": "adversarial histories", "anchors": ["common/tss.go: ProcessOneMessage, processTSSMsg, updateLocal, doTssJob", "common/tss_helper.go: verifySignature"]}
{"id": "C29", "title": "A share is attributed to the party that signed it", "statement": "A share handed to the local party as coming from party P was signed by P. (Violated: the inner routing of a bulk message is not compared with the verified sender.)", "quantifier": "every history", "why_tests_cant": "adversarial member", "anchors": ["common/tss.go: updateLocal"]}
{"id": "C30", "title": "Broadcast shares are applied only with a quorum of matching confirmations", "statement": "A message processed as broadcast is handed to the local party only when at least threshold peers (the node included) have reported a hash for it, none of them the sender, and at least threshold-1 of them, counted once each, reported exactly the hash of that message, no other hash being more frequent.", "quantifier": "every history of messages and confirmations, every map iteration order", "why_tests_cant": "all histories and iteration orders", "anchors": ["common/tss.go: hashCheck, getMsgHash, applyShare", "common/tss_helper.go: getHighestFreq"]}
{"id": "C31", "title": "Two nodes never apply different broadcasts of one sender and round", "statement": "No two honest nodes of a ceremony hand different broadcast messages of the same sender and round to their local parties. (Violated, for example with 4 parties and one malicious sender; what holds is a quorum-intersection bound.)", "quantifier": "every schedule, every number of parties", "why_tests_cant": "distributed agreement", "anchors": ["common/tss.go: hashCheck, processVerMsg, receiverBroadcastHashToPeers"]}
{"id": "C32", "title": "One confirmation per peer, tied to the transport identity", "statement": "For a pending broadcast, a peer's first reported hash is the one that counts until the entry is decided or the peer is the sender; later reports of the same peer are ignored, and the identity written inside the confirmation is ignored in favour of the transport's.", "quantifier": "every history", "why_tests_cant": "adversarial peers", "anchors": ["common/tss.go: checkDupAndUpdateVerMsg, processVerMsg", "common/local_cache_item.go"]}
{"id": "C33", "title": "Only party members can confirm a broadcast or announce completion", "statement": "Confirmations and task-done notifications from peers outside the ceremony have no effect. (Violated: membership of the sending peer is never checked.)", "quantifier": "every history", "why_tests_cant": "adversarial outsiders", "anchors": ["common/tss.go: ProcessOneMessage"]}
{"id": "C34", "title": "A share is applied at most once per round, session and party", "statement": "Across any history in which messages are handled one after the other with all jobs of one finished before the next starts, no two shares of the same round, session and party are both accepted from different messages. (Within one bulk message the duplicate check races with the workers.)", "quantifier": "every history and worker schedule", "why_tests_cant": "all histories", "anchors": ["common/tss.go: updateLocal, doTssJob", "blame/manager.go: CheckMsgDuplication, UpdateAcceptShare"]}
{"id": "C35", "title": "Task completion is signalled exactly once", "statement": "The completion channel is closed exactly when the (n-1)-th distinct peer announces completion and never twice, whatever duplicates arrive; a duplicate announcement is reported as an error.", "quantifier": "every history", "why_tests_cant": "double close panics the process; all histories", "anchors": ["common/tss.go: ProcessOneMessage"]}
{"id": "C36", "title": "Blame evidence is genuine", "statement": "Whenever a blame entry produced while processing messages carries evidence, the evidence is a message with a signature that verifies, for this request's id, under the key of the blamed party.", "quantifier": "every history", "why_tests_cant": "a fabricated accusation slashes a bond; all histories", "anchors": ["common/tss.go: applyShare, processInvalidMsgBlame", "blame/policy.go: TssWrongShareBlame"]}
{"id": "C37", "title": "A node never blames itself for a timeout", "statement": "Broadcast, unicast and missing-share blame never name the node's own key, nor do the drivers add it when a ceremony times out.", "quantifier": "every state of the blame manager", "why_tests_cant": "all states", "anchors": ["blame/policy.go: GetBroadcastBlame, GetUnicastBlame, TssMissingShareBlame", "blame/policy_helper.go"]}
{"id": "C38", "title": "Broadcast-timeout blame names exactly the silent parties", "statement": "If at least one party's broadcast of the round was stored, the blame is exactly the other parties, the node itself excluded, whose broadcast of that round was not; if none was stored nobody is blamed.", "quantifier": "every set of stored messages and parties", "why_tests_cant": "all subsets", "anchors": ["blame/policy.go: GetBroadcastBlame, tssTimeoutBlame", "blame/round_mgr.go: GetByRound"]}
{"id": "C39", "title": "Unicast-timeout blame names exactly the parties that sent nothing", "statement": "For a round of which at least one unicast was seen, the blame is exactly the other parties, the node itself excluded, from which no unicast of that round was seen; with no unicast seen at all nobody is blamed; with unicasts only of other rounds an error is returned.", "quantifier": "every history of unicasts", "why_tests_cant": "all histories", "anchors": ["blame/policy.go: GetUnicastBlame", "blame/manager.go: SetLastUnicastPeer"]}
{"id": "C40", "title": "Missing-share blame names exactly the parties whose share of the first incomplete round is missing", "statement": "For a single-message ceremony, TssMissingShareBlame names exactly the parties, the node itself excluded, with no accepted share in the first round where not everybody's share was accepted, and the unicast flag follows the documented round ranges. (Batches: C83, C84.)", "quantifier": "every set of accepted shares", "why_tests_cant": "all subsets, map iteration orders", "anchors": ["blame/policy.go: TssMissingShareBlame"]}
{"id": "C41", "title": "Outgoing shares are batched without loss, duplication or mixing", "statement": "Every message the local parties emit is sent in exactly one bulk message, in emission order, together with the messages of the same type and destination, as soon as there are as many of them as messages to sign, and never before.", "quantifier": "every sequence of emitted messages", "why_tests_cant": "all interleavings of sessions", "anchors": ["common/tss.go: ProcessOutCh, sendBulkMsg"]}
{"id": "C42", "title": "Processing an inbound message never crashes the node", "statement": "No inbound message, whatever its content, makes the process panic. (Violated: a bulk entry without routing dereferences nil.)", "quantifier": "every message (strings are valid UTF-8 text)", "why_tests_cant": "adversarial inputs", "anchors": ["common/tss.go: updateLocal, processTSSMsg"]}
{"id": "C43", "title": "Unsolicited shares are ignored", "statement": "As long as the control messages received name a share type, a control message carrying a share has an effect only if this node sent a request for that hash before, and a second one with the same hash only if a further request was sent in between.", "quantifier": "every history", "why_tests_cant": "all histories", "anchors": ["common/tss.go: ProcessOneMessage, requestShareFromPeer", "blame/share_mgr.go"]}
{"id": "C44", "title": "Every broadcast-round share goes through the confirmation quorum", "statement": "A share of a broadcast round reaches the local party only through the hash check. (Violated: the IsBroadcast flag of the outer routing is not signed and decides the path.)", "quantifier": "every history", "why_tests_cant": "adversarial member", "anchors": ["common/tss.go: processTSSMsg, updateLocal"]}
{"id": "C45", "title": "A waited-for signature is valid", "statement": "WaitForSignature returns only signatures of which the i-th verifies, under the pool key, for the i-th message of the request, whatever peers send.", "quantifier": "every history of notifications from arbitrary peers", "why_tests_cant": "adversarial peers", "anchors": ["keysign/notifier.go: ProcessSignature, verifySignature", "keysign/signature_notifier.go: handleStream, WaitForSignature"]}
{"id": "C46", "title": "A waited-for signature set is complete", "statement": "WaitForSignature returns one signature per message. (Violated: any non-empty valid prefix is accepted; and a longer list panics.)", "quantifier": "every notification", "why_tests_cant": "adversarial peers", "anchors": ["keysign/notifier.go: ProcessSignature"]}
{"id": "C47", "title": "A notifier delivers at most once and never blocks", "statement": "For one WaitForSignature call at most one signature list is delivered, the handler never blocks on the response channel while holding the notifier lock, and notifications for other message ids, failed ones and invalid ones change nothing.", "quantifier": "every history", "why_tests_cant": "all histories", "anchors": ["keysign/signature_notifier.go: handleStream", "keysign/notifier.go"]}
{"id": "C48", "title": "KeySign always ends and never blocks on its internal channel", "statement": "In every interleaving of the waiting and the signing goroutine, neither sends on a full or closed signal channel, both end provided their bounded waits end, and the channel is closed only after both ended.", "quantifier": "every interleaving", "why_tests_cant": "all interleavings", "anchors": ["tss/keysign.go: KeySign, waitForSignatures, generateSignature", "keysign/signature_notifier.go: WaitForSignature", "p2p/party_coordinator.go"]}
{"id": "C49", "title": "KeySign reports success only with signatures, failure otherwise", "statement": "When KeySign returns no error its response is either Success with a signature per message or Fail. (Violated: a non-signer whose wait times out returns an empty response with status NA and no error.)", "quantifier": "every interleaving and outcome", "why_tests_cant": "all combinations", "anchors": ["tss/keysign.go: KeySign"]}
{"id": "C50", "title": "A successful keygen is durable", "statement": "If Keygen returns Success with public key K, the local share for K has been saved, with the participants of the request and the node's own key, before the call returned, and reading it back gives the saved share.", "quantifier": "every outcome of every step (strings are valid UTF-8 text)", "why_tests_cant": "all failure points", "anchors": ["keygen/tss_keygen.go: processKeyGen", "tss/keygen.go: Keygen", "storage/localstate_mgr.go"]}
{"id": "C51", "title": "Completion is announced only after the share is durable", "statement": "A node announces keygen completion to its peers only after its own share is saved. (Violated: the announcement precedes the save, so a crash in between loses the share silently.)", "quantifier": "every crash point", "why_tests_cant": "crash points", "anchors": ["keygen/tss_keygen.go: processKeyGen"]}
{"id": "C52", "title": "Saved state round-trip and isolation", "statement": "GetLocalState(K) returns the state last saved for K, saving for one key never changes what is read for another, and neither touches the address book; invalid keys are refused and write nothing.", "quantifier": "every sequence of saves and reads (strings are valid UTF-8 text)", "why_tests_cant": "all histories", "anchors": ["storage/localstate_mgr.go: SaveLocalState, GetLocalState, getFilePathName"]}
{"id": "C53", "title": "A crash during a save never destroys saved state", "statement": "If the process dies at any point while saving, reading returns either the old or the new state. (Violated: the file is truncated in place.) What holds: a half-written file is reported as an error, never as a wrong state, and other keys are intact.", "quantifier": "every crash point", "why_tests_cant": "crash points", "anchors": ["storage/localstate_mgr.go: SaveLocalState"]}
{"id": "C54", "title": "Address book round-trip", "statement": "RetrieveP2PAddresses after SaveAddressBook returns exactly the saved non-loopback addresses, each suffixed with its peer, in the order written; nothing is returned when the folder is unset; one malformed line makes the whole retrieval fail.", "quantifier": "every address book", "why_tests_cant": "all books and iteration orders", "anchors": ["storage/localstate_mgr.go: SaveAddressBook, RetrieveP2PAddresses"]}
{"id": "C55", "title": "Keygen gives up after a bounded time of silence", "statement": "Keygen stops within its timeout. (Violated: the timer restarts at each emitted message; what holds is a bound of (k+1) times the timeout after k messages.)", "quantifier": "every arrival schedule", "why_tests_cant": "time", "anchors": ["keygen/tss_keygen.go: processKeyGen", "keysign/tss_keysign.go: processKeySign"]}
{"id": "C56", "title": "A keysign timeout never crashes the node", "statement": "When keysign times out the process reports blame and returns an error. (Violated when no message was emitted yet: lastMsg is nil.)", "quantifier": "every schedule", "why_tests_cant": "race", "anchors": ["keysign/tss_keysign.go: processKeySign"]}
{"id": "C57", "title": "HTTP status reflects the outcome", "statement": "The keysign endpoint answers 500 exactly when signing returned an error, 400 exactly when the body does not decode. (For keygen an error is answered with 200: violated.)", "quantifier": "every request and outcome", "why_tests_cant": "all outcomes", "anchors": ["cmd/tss/tss_http.go: keygenHandler, keySignHandler"]}
{"id": "C58", "title": "Every request is counted exactly once in the metrics", "statement": "Each Keygen call that gets a message id increments exactly one of the two keygen counters and exactly one keygen join-party counter; each KeySign call that reaches the signing stage increments exactly one keysign counter.", "quantifier": "every outcome", "why_tests_cant": "all paths", "anchors": ["monitor/metric.go", "tss/keygen.go", "tss/keysign.go"]}
{"id": "C59", "title": "Shares recover the private key", "statement": "Any set of at least degree+1 distinct correct shares fed to the recovery tool's reconstruction yields the group private key.", "quantifier": "every polynomial, every choice of shares", "why_tests_cant": "algebra over a 256-bit field", "anchors": ["cmd/tss-recovery/tss-recovery.go: main"]}
{"id": "C60", "title": "The recovery tool honours -n", "statement": "The number of shares used is the one given by -n. (Violated: the flag is dereferenced before parsing, 3 is always used.)", "quantifier": "every command line", "why_tests_cant": "logic", "anchors": ["cmd/tss-recovery/tss-recovery.go: main"]}
{"id": "C61", "title": "An exported key file decrypts to the recovered key", "statement": "Decrypting the exported cipher text with the key derived from the password, the stored salt and IV gives back the private key bytes, and the MAC is the one of that cipher text; no file is written when the password is shorter than 8 bytes.", "quantifier": "every key and password (strings are valid UTF-8 text)", "why_tests_cant": "all inputs", "anchors": ["cmd/tss-recovery/key.go: exportKeyStore", "cmd/tss-recovery/tool.go: aesCTRXOR"]}
{"id": "C62", "title": "Node key input decoding", "statement": "An input that spells fewer than 32 bytes is refused, and no input crashes the program. (Violated: the slice is cut to 32 by its capacity, so a short key is filled up with leftover characters of the text, or the program panics.)", "quantifier": "every input string", "why_tests_cant": "all strings", "anchors": ["conversion/key_provider.go: GetPriKey, GetPriKeyRawBytes"]}
{"id": "C63", "title": "Base64 of messages round-trips", "statement": "The signed_msg strings of a keysign response decode to exactly the payloads that were signed, and equal the request strings whenever these were canonical base64.", "quantifier": "every message", "why_tests_cant": "all byte strings", "anchors": ["tss/keysign.go: KeySign, batchSignatures"]}
{"id": "C64", "title": "Adding blame never duplicates or drops", "statement": "AddBlameNodes keeps every node already blamed, in order, adds every new node once, and never creates a second entry with the same key and signature; SetBlame keeps all previous nodes.", "quantifier": "every sequence of calls", "why_tests_cant": "all histories", "anchors": ["blame/blame.go: AddBlameNodes, SetBlame"]}
{"id": "C65", "title": "Node-sync blame names exactly the absent parties", "statement": "NodeSyncBlame names exactly the keys whose peer is not among the online peers, in order, and fails only on a malformed key.", "quantifier": "every key list and online list", "why_tests_cant": "all subsets", "anchors": ["blame/policy.go: NodeSyncBlame"]}
{"id": "C66", "title": "Honest senders are not blamed by a hash check", "statement": "A sender that sent one and the same message to everybody and confirmed nothing is never blamed with a hash check failure. (Violated: three disagreeing confirmations, from outsiders even, are enough.)", "quantifier": "every history", "why_tests_cant": "adversarial confirmations", "anchors": ["common/tss.go: applyShare, hashCheck"]}
{"id": "C67", "title": "An agreed broadcast is applied", "statement": "Once a node has received a member's broadcast and threshold-1 other peers (none of them the sender) have confirmed its hash, the message's shares are handed to the local parties, in whatever order the broadcast and the confirmations arrived.", "quantifier": "every arrival order, every set of confirming peers, every party size", "why_tests_cant": "all interleavings of unboundedly many messages", "anchors": ["common/tss.go: processVerMsg, processTSSMsg, applyShare, hashCheck"]}
{"id": "C69", "title": "Nodes that apply different broadcasts expose double reporters", "statement": "If two nodes of one ceremony of n members with threshold t apply different broadcasts of one sender and round, and only members report hashes, then at least 2(t-1)-(n-1) members reported a different hash to each of the two nodes; so with fewer equivocating members the nodes agree.", "quantifier": "every pair of histories of two nodes", "why_tests_cant": "a relation between two executions under adversarial senders", "anchors": ["common/tss.go: hashCheck, getMsgHash", "common/tss_helper.go: getHighestFreq"]}
{"id": "C70", "title": "Messages that name their senders cannot crash a node", "statement": "If the outer routing and every routing in the signed body of each handled message names a sender, no history of messages, worker results and map iteration orders makes a node panic while it processes messages.", "quantifier": "every history", "why_tests_cant": "all histories", "anchors": ["common/tss.go: ProcessOneMessage, processTSSMsg, updateLocal"]}
{"id": "C71", "title": "Hash-check blame has grounds", "statement": "Handling a message changes the blame only when an authentic broadcast of the blamed round was received and either the sender's own peer reported a hash for it, or two different peers reported hashes different from the received one.", "quantifier": "every history", "why_tests_cant": "adversarial confirmations in any order", "anchors": ["common/tss.go: applyShare, hashCheck", "blame/policy_helper.go"]}
{"id": "C76", "title": "A member reports a received signature", "statement": "A member that is told about the received signature while it waits reports ErrSignReceived. (Violated: without a leader response it reports ErrLeaderNotReady, so the leader is blamed and a failure is broadcast though the signature is there.)", "quantifier": "every schedule", "why_tests_cant": "race between three event sources", "anchors": ["p2p/party_coordinator.go: joinPartyMember", "tss/keysign.go: generateSignature"]}
{"id": "C77", "title": "A received signature ends the leader's wait", "statement": "A leader that is told about the received signature returns without waiting any longer. (Violated: it keeps waiting for the timeout.)", "quantifier": "every continuation of the execution", "why_tests_cant": "liveness over all continuations", "anchors": ["p2p/party_coordinator.go: joinPartyLeader"]}
{"id": "C78", "title": "Join-party handlers of a member end", "statement": "On a member, the handler of every incoming join-party message ends. (Violated: the third response of a leader is stuck for ever at a channel of capacity one, and its stream with it.)", "quantifier": "every continuation of the execution", "why_tests_cant": "liveness over all continuations", "anchors": ["p2p/party_coordinator.go: processRespMsg", "p2p/peer_status.go: NewPeerStatus"]}
{"id": "C79", "title": "A leader returns once enough peers have asked", "statement": "A leader returns as soon as threshold participants have asked to join, without waiting for its timeout. (Violated when the last request comes over the old protocol: it is counted but signalled on a channel nobody reads.)", "quantifier": "every continuation of the execution", "why_tests_cant": "liveness over all continuations, mix of protocol versions", "anchors": ["p2p/party_coordinator.go: HandleStream, joinPartyLeader", "p2p/peer_status.go: updatePeer"]}
{"id": "C80", "title": "A member's result is one response of its leader", "statement": "When a member succeeds, one single response of its leader says Success and carries the returned list. (Violated: the response is read twice, and may be replaced in between.)", "quantifier": "every interleaving of handlers and the call", "why_tests_cant": "race between two reads", "anchors": ["p2p/party_coordinator.go: joinPartyMember, processRespMsg", "p2p/peer_status.go: getLeaderResponse"]}
{"id": "C81", "title": "Overlapping joins with one id do not disturb each other", "statement": "If two calls with the same message id overlap, the end of one does not prevent the other from succeeding. (Violated: the first to end removes the other's group.)", "quantifier": "every continuation of the execution", "why_tests_cant": "all interleavings of overlapping calls", "anchors": ["p2p/party_coordinator.go: createJoinPartyGroups, removePeerGroup, JoinPartyWithRetry"]}
{"id": "C82", "title": "A finished join is forgotten", "statement": "After a join call has returned, the coordinator keeps nothing for its id. (Violated for JoinPartyWithLeader, leader and member: the group stays in the table until the process ends; holds for the leaderless protocol.)", "quantifier": "every continuation of the execution", "why_tests_cant": "leak over unbounded executions", "anchors": ["p2p/party_coordinator.go: joinPartyLeader, joinPartyMember, JoinPartyWithRetry, removePeerGroup"]}
{"id": "C83", "title": "Missing-share blame of a batch names every party with a missing share", "statement": "With several messages, every party whose share of the first incomplete round of some message is missing is blamed, whatever the iteration order. (Violated: the peers exonerated by one message stay exonerated for the next; which of two culprits is named depends on the map iteration order.)", "quantifier": "every set of accepted shares of a batch, every iteration order", "why_tests_cant": "all subsets, map iteration orders", "anchors": ["blame/policy.go: TssMissingShareBlame"]}
{"id": "C84", "title": "Missing-share blame of a batch is sound", "statement": "If every message of a batch lacks some share, whoever is blamed missed a share of the first incomplete round of some message, whoever missed it in every message is blamed, and the unicast flag is set exactly if some message stopped in a unicast round.", "quantifier": "every set of accepted shares of a batch, every iteration order", "why_tests_cant": "all subsets, map iteration orders", "anchors": ["blame/policy.go: TssMissingShareBlame"]}
{"id": "C85", "title": "Nobody is blamed when no share is missing", "statement": "If every share of every round was accepted, a timeout blames nobody for missing shares. (Violated: the exoneration list stays empty and everybody else is named; with two parties the driver reports it.)", "quantifier": "every complete set of accepted shares", "why_tests_cant": "all sets", "anchors": ["blame/policy.go: TssMissingShareBlame", "keygen/tss_keygen.go: processKeyGen"]}
{"id": "C86", "title": "A keygen timeout never crashes the node", "statement": "Whatever messages were received, a keygen timeout ends with an error. (Violated: a share of a signing round that tss-lib ignores counts as accepted and its round index exceeds the table.)", "quantifier": "every history of messages, malicious ones included", "why_tests_cant": "adversarial messages", "anchors": ["blame/policy.go: TssMissingShareBlame", "keygen/tss_keygen.go: processKeyGen", "common/tss_helper.go: GetMsgRound"]}
{"id": "C87", "title": "After its first message a keysign timeout never crashes the node", "statement": "Once the local party has produced a message, a keysign timeout ends with a report and an error whatever messages were received.", "quantifier": "every history of messages, malicious ones included", "why_tests_cant": "adversarial messages", "anchors": ["blame/policy.go", "keysign/tss_keysign.go: processKeySign"]}
{"id": "C88", "title": "A valid notification reaches the waiting call", "statement": "When a call to WaitForSignature is waiting, is the only one made with its message id and has received nothing yet, any notification for its id whose signatures verify for its messages makes it return exactly these signatures.", "quantifier": "every history of calls and notifications", "why_tests_cant": "all histories", "anchors": ["keysign/signature_notifier.go: WaitForSignature, handleStream, addToNotifiers, removeNotifier"]}
{"id": "C89", "title": "Concurrent waits for the same message id do not disturb each other", "statement": "When two calls to WaitForSignature for the same message id overlap, each of them still receives a valid notification that arrives while it waits. (Violated: the call that ends first unregisters the other one, which then can only time out.)", "quantifier": "every interleaving of two calls", "why_tests_cant": "interleavings", "anchors": ["keysign/signature_notifier.go: WaitForSignature, removeNotifier"]}
{"id": "C90", "title": "A signature notification never crashes the node", "statement": "Whatever a peer sends to the signature notifier, the process goes on. (Violated: a list with more signatures than there are messages, valid as far as it goes, is indexed out of range.)", "quantifier": "every notification", "why_tests_cant": "adversarial peers", "anchors": ["keysign/notifier.go: ProcessSignature"]}
{"id": "C91", "title": "Only a holder of valid signatures can crash the signature notifier", "statement": "If a history of notifications crashes the node, one of them carried a valid signature for every message of a request the node was waiting for; outsiders without these signatures cannot cause it.", "quantifier": "every history of calls and notifications", "why_tests_cant": "adversarial peers", "anchors": ["keysign/notifier.go: ProcessSignature", "keysign/signature_notifier.go: handleStream"]}
{"id": "C92", "title": "What a signer broadcasts is what the others return", "statement": "BroadcastSignature sends the notification to every listed peer but the node itself, once per listing, and to nobody else; a peer waiting for the same id, messages and pool returns exactly the broadcast signatures if they verify; BroadcastFailed, and a broadcast without signatures, do not change anything at the receivers.", "quantifier": "every peer list, signature list and receiver state", "why_tests_cant": "two nodes and all states", "anchors": ["keysign/signature_notifier.go: BroadcastSignature, BroadcastFailed, broadcastCommon, sendOneMsgToPeer"]}
{"id": "C93", "title": "A timeout blames a minority unless broadcasts decide", "statement": "When no broadcast of the round the node was in has been confirmed, the list reported after a keygen or keysign timeout (unicasts and missing shares) names fewer than two thirds of the party.", "quantifier": "every history of messages, every map iteration order", "why_tests_cant": "all histories", "anchors": ["keygen/tss_keygen.go: processKeyGen", "keysign/tss_keysign.go: processKeySign"]}
{"id": "C94", "title": "A timeout report that blames somebody has a reason", "statement": "After a timeout the blame in the response has a non-empty fail reason whenever it names nodes. (Violated: the reason is only set together with unicast blame. What holds: a reason given before is kept, and an empty one becomes the timeout exactly if the private shares name somebody, and not too many.)", "quantifier": "every history", "why_tests_cant": "all histories", "anchors": ["keygen/tss_keygen.go: processKeyGen", "keysign/tss_keysign.go: processKeySign"]}
{"id": "C95", "title": "An honest batch is accepted by every waiting node", "statement": "The list of signatures a node broadcasts after signing a batch passes the verification of every node that waits for the same messages, in whatever order that node got them, in whatever order the sessions ended, and whichever base64 forms were used.", "quantifier": "every message list, order of the request, completion order", "why_tests_cant": "two nodes, all permutations; the comparator is not a strict order", "anchors": ["tss/keysign.go: KeySign", "keysign/tss_keysign.go: SignMessage", "keysign/notifier.go: ProcessSignature"]}
{"id": "C96", "title": "Signing nodes answer the same", "statement": "Two nodes whose sessions produced the same signatures for messages with distinct integers return the same list of signed messages and signatures, whatever the order of the messages in their requests and of the ends of their sessions.", "quantifier": "every message list and order", "why_tests_cant": "agreement across machines", "anchors": ["tss/keysign.go: KeySign, batchSignatures", "keysign/tss_keysign.go: SignMessage"]}
{"id": "C97", "title": "Building the keysign answer crashes only on excess signatures", "statement": "The answer of a keysign is built without an index out of range exactly when there are at most as many signatures as messages.", "quantifier": "every list of signatures and messages", "why_tests_cant": "all lengths", "anchors": ["tss/keysign.go: batchSignatures"]}
{"id": "C68", "title": "No signing request can crash the node", "statement": "Whatever a client puts in a signing request, the process survives it. (False: a request that names signers but carries no message passes the checks; when the party forms, the blame manager calls a method of a party that does not exist and the process panics. With at least one message no step of the call panics.)", "quantifier": "all requests, environments and interleavings of the two goroutines", "why_tests_cant": "The crash needs an empty message list together with a formed party; its absence otherwise is about every interleaving.", "anchors": ["tss/keysign.go:KeySign", "keysign/tss_keysign.go:SignMessage", "blame/manager.go:SetPartyInfo"]}
{"id": "C98", "title": "A signature from the others always wins", "statement": "If a list of signatures that verifies reaches a signing call before it gives up waiting, the call answers with this list and no error, whatever the own attempt came to; and the own attempt is abandoned for \"signature received\" only when there is such a list, so it never turns into an empty answer. The two goroutines never read each other's signal for their own.", "quantifier": "all environments, requests and interleavings", "why_tests_cant": "The two goroutines share one buffered channel in both directions; whether a signal can be read by its own sender, or lost, depends on the schedule.", "anchors": ["tss/keysign.go:KeySign", "tss/keysign.go:waitForSignatures", "tss/keysign.go:generateSignature", "p2p/party_coordinator.go:joinPartyMember"]}
{"id": "C99", "title": "What a signing call can answer", "statement": "A signing call without error answers exactly one of: verified signatures received from others; its own signatures, one for each message of the request; a failure without signatures; the empty answer, only when the node is not an active signer and nothing was received; success without signatures, only when a peer of the party has a key of another kind. Every signature answered is for a message of the request.", "quantifier": "all environments, requests and interleavings", "why_tests_cant": "An exhaustive classification over every schedule and every failure of the parts.", "anchors": ["tss/keysign.go:KeySign", "tss/keysign.go:batchSignatures"]}
{"id": "C100", "title": "Errors of a signing call come from its checks", "statement": "A signing call returns an error only for a request that the checks refuse, and then it answers no signature and not success; once the checks passed it never returns an error: failures are reported in the status.", "quantifier": "all environments, requests and interleavings", "why_tests_cant": "A claim about every path through two concurrent goroutines.", "anchors": ["tss/keysign.go:KeySign"]}
{"id": "C101", "title": "A signing call broadcasts its own result, once, to the whole pool", "statement": "A signing call broadcasts at most once. What it sends goes to the peers of all members of the pool, in order, not only to the signers; it is either the signatures of its own attempt, one per message, which the ceremony produced, or a failure when its attempt ended without signatures.", "quantifier": "all environments, requests and interleavings", "why_tests_cant": "Whether a second broadcast can follow the first, or another list than the one answered be sent, is about every run.", "anchors": ["tss/keysign.go:generateSignature", "tss/keysign.go:broadcastKeysignFailure", "keysign/signature_notifier.go:BroadcastSignature"]}
{"id": "C102", "title": "Who is blamed when no signing party forms", "statement": "When the party of a signing call does not form and no signature arrives, the answer is a failure that blames, in the leaderless mode, exactly the signers of the request whose peers were not online (an internal error when not even the attempt could start), and in leader mode the leader alone.", "quantifier": "all environments in which no peer id is the marker text \"NONE\", requests and interleavings", "why_tests_cant": "The modes share one code path distinguished by a marker string; which nodes end up blamed depends on who was online.", "anchors": ["tss/keysign.go:generateSignature", "blame/policy.go:NodeSyncBlame", "tss/tss.go:joinParty"]}
{"id": "C103", "title": "A node signs only where it belongs", "statement": "A node broadcasts signatures of its own only when a party formed that contains it and, before version 0.14.0, when the request names it as a signer; it takes itself for inactive (and then only waits for the others) only when the request does not name it or a party formed without it.", "quantifier": "all environments, requests and interleavings", "why_tests_cant": "A claim about every path by which a ceremony can be started or skipped.", "anchors": ["tss/keysign.go:generateSignature", "tss/keysign.go:isPartOfKeysignParty"]}
{"id": "C104", "title": "A half-written share is an error, never a wrong share", "statement": "If a save stops after any number of bytes (a full disk or a crash), reading that key gives an error, or the new state when all bytes had been written; never an older, mixed or invented state. Every other key and the address book read as before.", "quantifier": "all states, all cut points, all contents of the disk (strings are valid UTF-8 text)", "why_tests_cant": "Every byte position of every file is a possible crash point.", "anchors": ["storage/localstate_mgr.go:SaveLocalState", "storage/localstate_mgr.go:GetLocalState"]}
{"id": "C105", "title": "A half-written address book is noticed", "statement": "If saving the address book stops half-way, retrieving it reports an error. (Violated: a file cut between two lines is read as a shorter book, and one cut within a line as the book with the beginning of that line, if this is an address. What holds: exactly the lines written, and what was written of the last, are read.)", "quantifier": "all books and cut points", "why_tests_cant": "Needs a crash at a chosen byte.", "anchors": ["storage/localstate_mgr.go:SaveAddressBook", "storage/localstate_mgr.go:RetrieveP2PAddresses"]}
{"id": "C106", "title": "Loopback addresses are left out of the address book, and only those", "statement": "The saved book holds no loopback address and every address that is not one. (Violated: the test looks for the text 127.0.0.1, so /ip6/::1 and /ip4/127.0.0.2 are saved and a DNS name containing that text is dropped.)", "quantifier": "all address books", "why_tests_cant": "A claim about every address.", "anchors": ["storage/localstate_mgr.go:SaveAddressBook"]}
{"id": "C107", "title": "The wait for the local party ends after silence, and within a bound given by its progress", "statement": "While a keygen or keysign waits for its local party, it gives up exactly when nothing was produced for the whole timeout; the time spent is at most the timeout times one more than the number of messages and results handled; it can always be left without the local party doing anything more; and when it ends well it holds exactly the results it waited for, in the order the party produced them. It ends as failed, stopped or unsent only after the local party failed, a stop was requested or a message could not be sent, and a failure or stop that came is there to be taken until it ends.", "quantifier": "every order and timing of messages, results, failures and stop requests", "why_tests_cant": "Timing and select order are chosen by the runtime.", "anchors": ["keygen/tss_keygen.go:processKeyGen", "keysign/tss_keysign.go:processKeySign"]}
{"id": "C108", "title": "A finished node has sent every message its local party produced", "statement": "When the wait ends with a result, every message the local party produced before it has been sent. (Violated: if a message and the result are both ready, the select may take the result; the message is never sent.)", "quantifier": "every order of the ready cases", "why_tests_cant": "The choice among ready select cases is random.", "anchors": ["keygen/tss_keygen.go:processKeyGen", "keysign/tss_keysign.go:processKeySign"]}
{"id": "C109", "title": "When keygen succeeds", "statement": "Keygen answers Success exactly when the request has an id, the party formed, this node is among the keys and has pre-parameters, its local party ended with a share whose public key is valid and on the curve, and the share was written; the answer then holds that key and its address, with no error.", "quantifier": "all requests, all outcomes of each step", "why_tests_cant": "The combinations of outcomes of all steps.", "anchors": ["tss/keygen.go:Keygen", "keygen/tss_keygen.go:GenerateNewKey"]}
{"id": "C110", "title": "When keygen returns an error", "statement": "Keygen returns an error exactly when the request has no id, or the party formed and no key came out of it. If the party does not form (also for a version that does not parse) the answer is Fail without an error, and nothing was sent, saved or announced. Without Success the answer holds no key and no address.", "quantifier": "all requests, all outcomes of each step", "why_tests_cant": "The combinations of outcomes of all steps.", "anchors": ["tss/keygen.go:Keygen"]}
{"id": "C111", "title": "Who is blamed when the keygen party does not form", "statement": "Without a leader exactly the keys of the request whose peer is not in the list of online peers, nobody (an internal error) without such a list. With a leader those and the leader; the leader alone if the list is empty. Nobody if no join party was started.", "quantifier": "all requests, all outcomes of the join party", "why_tests_cant": "A claim about every subset of peers.", "anchors": ["tss/keygen.go:Keygen", "blame/policy.go:NodeSyncBlame", "blame/blame.go:AddBlameNodes"]}
{"id": "C112", "title": "Only absent nodes are blamed when the keygen party does not form", "statement": "A node that is in the list of online peers is not blamed for a keygen party that did not form. (Violated: the leader is always blamed.)", "quantifier": "all requests, all outcomes of the join party", "why_tests_cant": "A claim about every subset of peers.", "anchors": ["tss/keygen.go:Keygen"]}
{"id": "C113", "title": "A long private key input is decoded exactly", "statement": "GetPriKey gives the first 32 bytes spelled by the hexadecimal text inside the base64 input when it spells at least 32, and an error exactly when the input is not base64 of hexadecimal text. A key it gives has 32 bytes and is what is handed to libp2p.", "quantifier": "all input strings, all capacities the runtime may give a slice", "why_tests_cant": "All strings.", "anchors": ["conversion/key_provider.go:GetPriKey", "conversion/key_provider.go:GetPriKeyRawBytes"]}
{"id": "C114", "title": "HTTP answers state the response of the server", "statement": "The body of a 200 answer of the keygen and keysign endpoints is a JSON text in which a client reading the documented fields finds the response of the server, its signatures, status and blame included, and cannot read any other response.", "quantifier": "all responses, all strings and byte strings in them (strings are valid UTF-8 text)", "why_tests_cant": "All contents, including quotes, empty lists and binary blame data.", "anchors": ["cmd/tss/tss_http.go:keygenHandler", "cmd/tss/tss_http.go:keySignHandler", "keygen/response.go:Response", "keysign/response.go:Response", "blame/types.go:Blame"]}
{"id": "C115", "title": "Only complete JSON requests reach the server", "statement": "A body that is not one JSON text, or that lacks the messages to sign, is refused. (Violated: text after the first value is ignored, and fields not given are empty.)", "quantifier": "all bodies", "why_tests_cant": "All byte strings.", "anchors": ["cmd/tss/tss_http.go:keySignHandler"]}
{"id": "C116", "title": "The server gets the request the client wrote", "statement": "A client that writes the fields of a keygen or keysign request as JSON, compact or indented, in any order and perhaps among fields of other names, has exactly that request passed to the server.", "quantifier": "all field values with a height in int64, all orders, all other fields", "why_tests_cant": "All contents and orders.", "anchors": ["cmd/tss/tss_http.go:keygenHandler", "cmd/tss/tss_http.go:keySignHandler", "keygen/request.go:Request", "keysign/request.go:Request"]}
{"id": "C117", "title": "HTTP status codes", "statement": "A POST to keysign is answered 400 exactly when the body does not hold a value of the types of a request, 500 exactly when signing returned an error, 200 exactly when it did not; a POST to keygen 400 likewise and 200 otherwise. An answer other than 200 has no body. Only POSTs to these two paths reach the server: other methods get 405, unknown paths 404.", "quantifier": "all requests, all outcomes", "why_tests_cant": "All bodies and outcomes.", "anchors": ["cmd/tss/tss_http.go:tssNewHandler", "cmd/tss/tss_http.go:keygenHandler", "cmd/tss/tss_http.go:keySignHandler"]}
{"id": "C118", "title": "What the recovery tool uses and when it crashes", "statement": "The outcome depends on the first three files only, whatever -n and the further files are; the tool crashes exactly when fewer than three files are named, or one of the first three cannot be read or holds no share, or two of them hold shares of one number.", "quantifier": "every command line and every content of the files", "why_tests_cant": "all inputs; the crash condition is an equivalence", "anchors": ["cmd/tss-recovery/tss-recovery.go: main", "cmd/tss-recovery/tool.go: getTssSecretFile"]}
{"id": "C119", "title": "Fewer shares than the threshold plus one say nothing", "statement": "For any t shares with distinct nonzero numbers and any private key there is a dealing of degree at most t with those shares and that key.", "quantifier": "every set of shares and every key", "why_tests_cant": "information-theoretic statement over a 256-bit field", "anchors": ["cmd/tss-recovery/tss-recovery.go: main"]}
{"id": "C120", "title": "The recovered key belongs to the group key in the files", "statement": "When the tool prints a key, some given file names the group key of it. (Violated: the stored group key is never compared, files of two keygens give a key of neither.)", "quantifier": "every set of files", "why_tests_cant": "all inputs", "anchors": ["cmd/tss-recovery/tss-recovery.go: main"]}
{"id": "C121", "title": "The recovery tool announces only files it wrote", "statement": "When \"wrote to\" is printed the file is there. (Violated: it is printed after a failed write too.)", "quantifier": "every command line and outcome of the write", "why_tests_cant": "needs a failing file system", "anchors": ["cmd/tss-recovery/tss-recovery.go: main"]}
{"id": "C122", "title": "A completely written export opens", "statement": "A file the recovery tool wrote in full is a key file that opens with the password. (Violated: when the export fails, for want of random bytes, the text null is written.)", "quantifier": "every environment", "why_tests_cant": "needs a failing random source", "anchors": ["cmd/tss-recovery/tss-recovery.go: main", "cmd/tss-recovery/key.go: exportKeyStore"]}
{"id": "C123", "title": "The recovery tool reads its command line", "statement": "Options written -x v, --x v, -x=v or --x=v, in any order and number, followed by file names (after -- or not looking like options), set n, export and password to the values of the last option of each name, and the files are exactly the names.", "quantifier": "every command line of that form", "why_tests_cant": "all inputs; repeated options and values with dashes and equals signs", "anchors": ["cmd/tss-recovery/tss-recovery.go: main"]}
{"id": "C124", "title": "Ids of requests of the usual form are different", "statement": "Without a hash collision, two keygens with participant keys of one length have the same id only if they have the same participants, and two keysigns with comma-free messages and as many signer keys of one length only if they have the same messages and signers.", "quantifier": "every two requests of that form", "why_tests_cant": "all pairs of requests", "anchors": ["tss/tss.go: requestToMsgId", "common/tss_helper.go: MsgToHashString"]}
{"id": "C125", "title": "A finished leaderless join is forgotten", "statement": "After a leaderless join has returned, nothing is kept under its message id.", "quantifier": "every history in which the call returns", "why_tests_cant": "all interleavings", "anchors": ["p2p/party_coordinator.go: JoinPartyWithRetry, removePeerGroup"]}
{"id": "C126", "title": "The only cause of a crash at a keygen timeout", "statement": "If handling a keygen timeout panics, a share was accepted before under a round number of four or more (a share of a signing round).", "quantifier": "every history of messages", "why_tests_cant": "all histories", "anchors": ["blame/policy.go: TssMissingShareBlame", "keygen/tss_keygen.go: processKeyGen"]}
{"id": "C127", "title": "A peer id leads back to the node key", "statement": "For every node key that has a peer id, the key recovered from the id has the same peer id, and is the same text in small letters; every point of the curve, written as a key, comes back exactly. Lists keep their order and length.", "quantifier": "every key text, every curve point, every list", "why_tests_cant": "the key space cannot be enumerated", "anchors": ["conversion/key_provider.go: GetPeerIDFromPubKey, GetPubKeyFromPeerID, GetPeerIDs, GetPubKeysFromPeerIDs"]}
{"id": "C128", "title": "Different node keys have different peers", "statement": "Two keys with one peer id are the same curve point, and the same text up to capital letters.", "quantifier": "every two key texts", "why_tests_cant": "all pairs of keys", "anchors": ["conversion/key_provider.go: GetPeerIDFromPubKey"]}
{"id": "C129", "title": "Different key texts name different peers", "statement": "Two different texts that are accepted as node keys have different peer ids.", "quantifier": "every two key texts", "why_tests_cant": "all pairs of texts", "anchors": ["conversion/key_provider.go: GetPeerIDFromPubKey"]}
{"id": "C130", "title": "A key passes the curve check exactly when it is a point", "statement": "A key of 33 bytes passes exactly when it encodes a point of secp256k1; the answer is never \"false\" without an error; the keys that pass are those that have a peer.", "quantifier": "every key", "why_tests_cant": "the key space cannot be enumerated", "anchors": ["conversion/key_provider.go: CheckKeyOnCurve"]}
{"id": "C131", "title": "A mistyped key is refused", "statement": "A text that differs from the text of a key in one to four characters is refused by every function that takes a node key.", "quantifier": "every key and every such change", "why_tests_cant": "all keys and all changes", "anchors": ["conversion/key_provider.go: CheckKeyOnCurve, GetPeerIDFromPubKey", "conversion/bech32.go: SetupBech32Prefix"]}
{"id": "C132", "title": "A key that parses is a file name", "statement": "A text that parses as a key is not empty and has no slash, so the state file made from it stays in its folder.", "quantifier": "every text", "why_tests_cant": "all texts", "anchors": ["conversion/key_provider.go: CheckKeyOnCurve", "storage/localstate_mgr.go: getFilePathName"]}
{"id": "C133", "title": "Parties stand for the peers and keys of the participants", "statement": "Every party made for a request maps to the peer id of a participant and back to the key of that participant, and the local party to the local key.", "quantifier": "every list of participant keys", "why_tests_cant": "all lists of keys", "anchors": ["conversion/conversion.go: GetParties, GetPeerIDFromPartyID, PartyIDtoPubKey, SetupIDMaps"]}
{"id": "C134", "title": "The state of a key is found for every text of the key", "statement": "A state saved under one text of a key is found under every other accepted text of that key.", "quantifier": "every two texts of one key", "why_tests_cant": "all texts of a key", "anchors": ["storage/localstate_mgr.go: SaveLocalState, GetLocalState", "conversion/key_provider.go: CheckKeyOnCurve"]}
{"id": "C135", "title": "Signature notifications survive the wire", "statement": "A notification that announces signatures (or a failure) is read by its receiver exactly as it was sent: the same id, the same list of signatures in the same order with the same five fields each, the same status; different notifications have different texts.", "quantifier": "every id that is text, every list of signatures", "why_tests_cant": "all inputs of an encoder and a decoder", "anchors": ["messages/signature_notifier.proto: KeysignSignature", "keysign/signature_notifier.go: sendOneMsgToPeer, handleStream", "messages/signature_notifier.pb.go: KeysignSignature"]}
{"id": "C136", "title": "Join-party messages survive the wire", "statement": "A request to join a party (with or without a leader) and the leader's response, written to a stream and read in whatever pieces they arrive, are acted upon by the receiver as the same message: id, kind, result and list of peers. The response goes to every listed peer except the leader itself.", "quantifier": "every id, every list of peers, every fragmentation of the stream", "why_tests_cant": "all inputs and all fragmentations", "anchors": ["messages/join_party.proto: JoinPartyRequest, JoinPartyLeaderComm", "p2p/party_coordinator.go: HandleStream, HandleStreamWithLeader, sendResponseToAll, sendRequestToLeader, JoinPartyWithRetry", "p2p/stream_helper.go: ReadStreamWithBuffer, WriteStreamWithBuffer"]}
{"id": "C137", "title": "Decoders accept only text as ids and ignore unknown fields", "statement": "A notification whose id is not UTF-8 text cannot be sent; whatever bytes a peer sends, an id, kind or peer id that a node acts upon is UTF-8 text; and fields unknown to this version that are appended to a message change nothing.", "quantifier": "every payload from an arbitrary peer", "why_tests_cant": "all byte strings", "anchors": ["p2p/party_coordinator.go: HandleStream, HandleStreamWithLeader", "keysign/signature_notifier.go: handleStream", "messages/join_party.pb.go: JoinPartyLeaderComm"]}
{"id": "C138", "title": "Leader and members agree on the party", "statement": "If the leader of a join and a member of it both return a party for the same id, and every response the member had from the leader came out of the stream the leader wrote it to, the two parties are the same list, and the member reports success only if the leader did. A member that waits, and to which the leader's success response arrives, returns success with exactly the leader's party.", "quantifier": "every history of the leader and of the member", "why_tests_cant": "histories of two nodes together", "anchors": ["p2p/party_coordinator.go: JoinPartyWithLeader, joinPartyMember, joinPartyLeader, HandleStreamWithLeader, processRespMsg", "p2p/stream_helper.go: ReadStreamWithBuffer"]}
{"id": "C139", "title": "Ceremony messages survive the wire", "statement": "The bytes a node sends for a share, a confirmation, a request for a share (or the answer to one) or a task-done message are taken by the receiver to be that very message: of the same type, for the same request, and with the same content (sender, destinations, broadcast flag, round, body, signature, hash and key). Every share of a bulk message is read back with its session and its routing.", "quantifier": "every message of each type, every request id, every bulk list (strings are valid UTF-8 text)", "why_tests_cant": "all inputs of an encoder and a decoder", "anchors": ["messages/p2p_message.go: WrappedMessage, WireMessage, BroadcastConfirmMessage, TssControl, TssTaskNotifier", "common/tss.go: BulkWireMsg, sendBulkMsg, ProcessOneMessage, ProcessInboundMessages, requestShareFromPeer", "common/tss_helper.go: NotifyTaskDone", "p2p/communication.go: readFromStream, Broadcast"]}
{"id": "C140", "title": "A signed share is bound to its request", "statement": "What a sender signs (the bulk message followed by the request id) determines both: no other split of the same bytes into a readable bulk message and a request id exists. So a share handed to the local party under a sender's name was sent by that sender for this very request; a share signed for one request cannot be replayed in another.", "quantifier": "every execution of the receiver, every message from any peer, every set of requests the sender takes part in", "why_tests_cant": "a statement about all forged and replayed messages", "anchors": ["common/tss.go: sendBulkMsg, updateLocal, processTSSMsg", "common/tss_helper.go: generateSignature, verifySignature"]}
{"id": "C141", "title": "What an honest node sends is applied by its receiver", "statement": "A share that an honest node's local party emitted, sent as one frame, reaches the channel of the addressed request on the receiver, and is handed to the receiver's local party with the same body, session and sender: at once when it is for one party, and after the confirmations of enough peers when it is a broadcast, in whatever order the confirmations and the share arrive.", "quantifier": "every emission of the sender, every fragmentation of the stream, every order of arrival (strings are valid UTF-8 text)", "why_tests_cant": "end-to-end over two nodes and all orders of arrival", "anchors": ["common/tss.go: ProcessOutCh, sendBulkMsg, ProcessInboundMessages, processTSSMsg, updateLocal", "p2p/communication.go: readFromStream", "p2p/stream_helper.go: ReadStreamWithBuffer"]}
{"id": "C142", "title": "A message goes only to the peers it names, at most once each", "statement": "Whatever the node writes to a stream belongs to a message some ceremony asked to send, goes to a peer named with that message and never to the node itself, is the frame of that message or a beginning of it, and no peer is sent the message more often than it is named.", "quantifier": "every sequence of events: messages queued, goroutines scheduled in any order, connections failing, streams accepting any number of bytes, Stop and releases at any point", "why_tests_cant": "The goroutines interleave in unboundedly many ways; a test sees a few.", "anchors": ["p2p/communication.go: Broadcast, broadcastToPeers, writeToStream, ProcessBroadcast"]}
{"id": "C143", "title": "A peer that cannot be reached holds up nobody else", "statement": "While the node is running, whichever sending goroutines hang for ever, the remaining ones can always go on without them until every message accepted so far has reached, as one whole frame, every named peer whose goroutine does not hang.", "quantifier": "every reachable state, every set of hanging goroutines", "why_tests_cant": "A test cannot make every subset of connections hang at every point.", "anchors": ["p2p/communication.go: Broadcast, broadcastToPeers, writeToStream, ProcessBroadcast"]}
{"id": "C144", "title": "Stop waits for the sending goroutines, and nothing is sent after it", "statement": "When Stop has returned, every goroutine that was started has ended and, whatever happens later, no stream is opened and nothing is written. A call of Stop that waits can always be completed by the goroutines themselves, the wait group's counter is never negative, and only a second call of Stop can panic.", "quantifier": "every sequence of events, every continuation", "why_tests_cant": "That nothing happens later is a statement about all continuations.", "anchors": ["p2p/communication.go: Stop, ProcessBroadcast, Broadcast"]}
{"id": "C145", "title": "Stop may be called twice", "statement": "Calling Stop on a node that was stopped does nothing. (Refuted: the second call closes a closed channel and panics.)", "quantifier": "every reachable state after a first call of Stop", "why_tests_cant": "Whether the second call panics in every state is not visible from one run.", "anchors": ["p2p/communication.go: Stop"]}
{"id": "C146", "title": "No accepted message is lost by Stop", "statement": "Every message a ceremony handed over before Stop is written before Stop returns, and a ceremony that hands over a message after Stop is not held up. (Refuted: pending messages are dropped for ever, and once the queue is full the ceremony waits for ever.)", "quantifier": "every message; every continuation after Stop", "why_tests_cant": "Loss depends on a race between the loop and Stop, and waiting for ever cannot be observed.", "anchors": ["p2p/communication.go: Stop, ProcessBroadcast, Broadcast"]}
{"id": "C147", "title": "Messages to one peer arrive in the order they were sent", "statement": "If one message was handed over before another to the same peer, it is written first. (Refuted: each message has its own goroutine and stream; either order is possible.)", "quantifier": "every pair of messages to the same peer", "why_tests_cant": "The order depends on the scheduler.", "anchors": ["p2p/communication.go: Broadcast, broadcastToPeers, writeToStream, ProcessBroadcast"]}
{"id": "C148", "title": "Every stream the node opens is accounted for", "statement": "Every stream opened for a message is in use by a goroutine that has not ended, or recorded under the id of its message, or was reset; after Stop none is in use; and releasing an id resets every stream recorded under it.", "quantifier": "every sequence of events", "why_tests_cant": "A leaked stream shows only after a particular interleaving.", "anchors": ["p2p/communication.go: writeToStream, ReleaseStream", "p2p/stream_helper.go: StreamMgr"]}
{"id": "C149", "title": "Releasing a request resets all its streams", "statement": "After the streams of a request are released, every stream opened for it before is reset. (Refuted: a sender still writing at that moment records its stream afterwards, and it is never reset unless the same id is released again.)", "quantifier": "every message with one peer; every continuation in which the id is not released again", "why_tests_cant": "The race needs a slow sender, and that the stream is never reset is about all continuations.", "anchors": ["p2p/communication.go: writeToStream", "p2p/stream_helper.go: ReleaseStream"]}
{"id": "C150", "title": "The pool key text names the generated point", "statement": "For a point of the curve, the key text and the compressed key lead back to exactly that point, are accepted wherever the service takes keys, and differ for different points; nil and off-curve points are refused. The text in a successful Keygen response is the text of the public point in the share saved on disk.", "quantifier": "every point of secp256k1; every successful Keygen (strings are valid UTF-8 text)", "why_tests_cant": "The curve has about 2^256 points; a test encodes a few.", "anchors": ["conversion/conversion.go: GetTssPubKey", "keygen/tss_keygen.go: processKeyGen"]}
{"id": "C151", "title": "A ceremony talks to the peers of exactly its participants", "statement": "When the participants' keys are valid, in whatever order Go iterates its maps, each party is mapped to the peer id of its participant's key, and the peers addressed are those of all participants except the node itself, each once.", "quantifier": "every list of keys, every iteration order of both maps", "why_tests_cant": "Map iteration order is random; a test sees a few orders of a few keys.", "anchors": ["conversion/conversion.go: SetupIDMaps, SetupPartyIDMap", "conversion/conversion.go: GetParties, GetPeersID"]}
{"id": "C152", "title": "A node that starts has reached the network", "statement": "If starting the node succeeds and it has bootstrap peers (those of the saved address book, when readable, followed by those of the command line), one of them took a connection in one of five rounds and one answered a ping. When all addresses name a peer, these two are also enough, as is having no bootstrap peer.", "quantifier": "every network behaviour, address book, command line", "why_tests_cant": "Which peers answer in which round has unboundedly many patterns; tests use a working local network.", "anchors": ["tss/tss.go: NewTss", "p2p/communication.go: Start, startChannel, connectToBootstrapPeers, bootStrapConnectivityCheck"]}
{"id": "C153", "title": "One reachable bootstrap peer is enough", "statement": "A node starts when one of its bootstrap peers takes the connection and answers. (Refuted: one bootstrap address that cannot be read as a peer makes every round fail, and the node gives up after waiting five times.)", "quantifier": "every environment with such an address", "why_tests_cant": "The flag accepts such addresses; only a run with one shows it, and the claim is about every environment.", "anchors": ["tss/tss.go: NewTss", "p2p/communication.go: Start, startChannel, connectToBootstrapPeers, bootStrapConnectivityCheck"]}
{"id": "C154", "title": "The pre-parameters in use are valid", "statement": "A started node uses the given pre-parameters when they are valid, without making any, and otherwise newly made valid ones.", "quantifier": "every validity predicate, given and generated parameters", "why_tests_cant": "Making parameters takes minutes, and invalid ones are hard to come by.", "anchors": ["tss/tss.go: NewTss"]}
{"id": "C155", "title": "A failed start leaves nothing open", "statement": "When starting fails, the node's host is closed. (Refuted: whenever the bootstrap peers cannot be reached, the host stays open and keeps listening.)", "quantifier": "every environment in which no bootstrap peer can be reached", "why_tests_cant": "The leak shows in no return value.", "anchors": ["tss/tss.go: NewTss", "p2p/communication.go: Start, startChannel, connectToBootstrapPeers, bootStrapConnectivityCheck"]}
{"id": "C156", "title": "Several nodes can run in one process", "statement": "Starting a node never panics. (Refuted for the second node with monitoring in a process, which panics when it registers the same metrics; the first never panics.)", "quantifier": "every pair of environments and configurations", "why_tests_cant": "Tests start with monitoring off or one node per process.", "anchors": ["tss/tss.go: NewTss", "monitor/metric.go: Enable"]}
{"id": "C157", "title": "A node's key and peer id belong together", "statement": "For a key the program can load, the public key the node answers for and the id of its network host determine each other with the conversions other nodes use.", "quantifier": "every loadable key, every point of the curve", "why_tests_cant": "Any of about 2^256 keys may be used.", "anchors": ["tss/tss.go: NewTss", "conversion/key_provider.go: GetPriKey, GetPriKeyRawBytes, GetPeerIDFromPubKey, GetPubKeyFromPeerID"]}
{"id": "C158", "title": "The command line means what it says", "statement": "A command line of settings, in any of the accepted spellings, is taken exactly when every value is acceptable; then all -peer values are the bootstrap list in order, and every other flag has the last value given or its documented default. Whatever follows the first stray word is ignored.", "quantifier": "every command line", "why_tests_cant": "There are unboundedly many command lines; main has no tests.", "anchors": ["cmd/tss/main.go: parseFlags", "p2p/types.go: Set"]}
{"id": "C159", "title": "Handling a message leaves nothing running", "statement": "When a ceremony message has been handled, the goroutines started for it have ended. (Refuted: a message with an unusable entry, for instance an unknown session id, leaves one goroutine per CPU behind for ever, so any number of them can be built up; exactly the refused messages do this.)", "quantifier": "every number of CPUs, every number of messages, every interleaving afterwards", "why_tests_cant": "A leaked goroutine shows in no result, and interleavings are unbounded.", "anchors": ["common/tss.go: updateLocal, doTssJob"]}
{"id": "C160", "title": "A message is worked off completely, each share once", "statement": "Under every schedule the handling of a message comes to an end, queueing a share never waits for a worker, no share is applied twice, and when the message was not refused each queued share was applied exactly once and no goroutine is left.", "quantifier": "every number of CPUs, every message size, every interleaving of the workers", "why_tests_cant": "Schedules of the worker goroutines are unbounded; the race is invisible in a test.", "anchors": ["common/tss.go: updateLocal, doTssJob"]}
{"id": "C161", "title": "What a peer can make a node store is bounded", "statement": "A ceremony stores a bounded amount on behalf of a peer. (Refuted: any peer can, with N confirmations of made-up keys, make the node hold N entries that stay until the ceremony is over.)", "quantifier": "every ceremony, every moment between messages, every peer, every N, every continuation", "why_tests_cant": "Growth is unbounded; tests stop after a few messages.", "anchors": ["common/tss.go: processVerMsg, checkDupAndUpdateVerMsg, ProcessOneMessage", "common/tss.go: TryGetLocalCacheItem, updateLocalUnconfirmedMessages, removeKey"]}
{"id": "C162", "title": "An agreed broadcast is applied whatever else is going on", "statement": "If a node received a member's broadcast and confirmations of its hash from threshold-1 other peers, and nobody contradicted it, then the node began to apply it, whatever other messages arrived and whatever its workers did in between, and in whatever order all of it came.", "quantifier": "every ceremony, every broadcast, every interleaving with other traffic and with the workers", "why_tests_cant": "Interleavings with other traffic are unbounded; tests fix one order.", "anchors": ["common/tss.go: ProcessOneMessage, processTSSMsg, processVerMsg, applyShare, checkDupAndUpdateVerMsg", "common/tss.go: getMsgHash, hashCheck"]}
{"id": "C163", "title": "Key generations take turns", "statement": "At most one request for a new key is under way at a node at any moment, and nothing else keeps a request waiting: it begins as soon as no other request for a key is under way, and a request for a signature begins at once.", "quantifier": "every number of requests, every interleaving of requests and incoming streams", "why_tests_cant": "Two concurrent ceremonies show only under schedules a test does not control.", "anchors": ["tss/keygen.go: Keygen", "tss/keysign.go: KeySign"]}
{"id": "C164", "title": "Sending out shares does not panic", "statement": "The loop that sends out shares panics exactly when the signing library hands it a share that is neither a broadcast nor has a destination; no other sequence of shares, whatever the order of the pending batches, makes it panic.", "quantifier": "every sequence of shares, every order of the pending batches", "why_tests_cant": "Sequences are unbounded; an index panic shows only on the one that triggers it.", "anchors": ["common/tss.go: ProcessOutCh, sendBulkMsg"]}
{"id": "C165", "title": "What is left out of a message has a fixed meaning", "statement": "A field that a message or an HTTP request leaves out counts as empty, zero or false, whatever else the message contains and in whatever order: a frame without a type is a keygen share for the empty id, a routing that does not say broadcast is a unicast, a share without a routing has no sender; a type that is not a number from 0 to 255 makes the whole message unreadable.", "quantifier": "every message and every order of its fields", "why_tests_cant": "The space of messages is unbounded; tests send complete ones.", "anchors": ["common/tss.go: ProcessOneMessage", "messages/p2p_message.go: WrappedMessage, WireMessage, BroadcastConfirmMessage, TssControl, TssTaskNotifier", "p2p/communication.go: readFromStream", "cmd/tss/tss_http.go: keygenHandler, keySignHandler"]}
{"id": "C166", "title": "Files are written only in the node's folder", "statement": "Saving a key share or the address book, however it ends, changes at most one file: the one named localstate-<key>.json, or address_book.seed, in the configured folder (in the current directory for a share when no folder is set), whatever dots and slashes the folder's path has. Over any history of saves no other file on the disk changes.", "quantifier": "all folders, working directories, keys, books and ways a write can end", "why_tests_cant": "The keys and folders that could lead outside are unbounded.", "anchors": ["storage/localstate_mgr.go:getFilePathName", "storage/localstate_mgr.go:SaveLocalState", "storage/localstate_mgr.go:SaveAddressBook"]}
{"id": "C167", "title": "In an honest ceremony every share arrives, once", "statement": "Any number of members run this code with local parties that sign their messages and use each slot of a round once. The network delivers in any order and may repeat messages, but loses none. Whenever no message is in the air and no node is busy, each share a local party addressed to a member (to all of them, for a broadcast) has been handed to that member's local party exactly once.", "quantifier": "all numbers of members, all messages of their local parties, all orders of delivery and repetitions, all interleavings of the work inside the nodes", "why_tests_cant": "The orders of delivery and the interleavings are unbounded in number.", "anchors": ["common/tss.go:ProcessOneMessage", "common/tss.go:processTSSMsg", "common/tss.go:processVerMsg", "common/tss.go:updateLocal", "common/tss.go:receiverBroadcastHashToPeers"]}
{"id": "C168", "title": "In an honest ceremony nobody is blamed", "statement": "In such a ceremony, at any moment: no node has crashed, no node lists a culprit or holds a reason for blame, and every share a node handed to its local party is an entry of a message which the party named as its sender did send to that node.", "quantifier": "all numbers of members, all messages of their local parties, all orders of delivery and repetitions, all interleavings, all moments", "why_tests_cant": "The orders of delivery and the interleavings are unbounded in number.", "anchors": ["common/tss.go:processTSSMsg", "common/tss.go:hashCheck", "common/tss.go:applyShare", "common/tss_helper.go:processRequestMsgFromPeer", "blame/blame.go:SetBlame"]}
{"id": "C169", "title": "A node takes the ceremony for complete when all others are done", "statement": "In an honest ceremony of two or more members, a node signals completion only when the local party of every other member is done; and once they all are and no message is in the air, it has signalled it, exactly once.", "quantifier": "all numbers of members, all orders of delivery and repetitions, all moments", "why_tests_cant": "The orders in which the announcements arrive are unbounded in number.", "anchors": ["common/tss.go:ProcessOneMessage", "common/tss_helper.go:NotifyTaskDone"]}
{"id": "C170", "title": "The traffic of an honest ceremony ends", "statement": "From any moment of an honest ceremony, deliveries (including the confirmations, requests and answers they cause) and the work of the nodes cannot go on for ever if no local party sends more and the network repeats nothing, whatever their order; and when no more is possible, no message is in the air and no node is busy.", "quantifier": "all numbers of members, all moments, all orders of the remaining deliveries", "why_tests_cant": "Termination is about all infinite schedules.", "anchors": ["common/tss.go:ProcessOneMessage", "common/tss.go:processVerMsg", "common/tss_helper.go:processRequestMsgFromPeer", "common/tss.go:requestShareFromPeer"]}
{"id": "C171", "title": "Which signing requests are taken on", "statement": "A signing request is refused with an error exactly when it has nothing to make an id from, the node has no saved state for the pool, a message is not base64, the version is not a version, or the version is before 0.14.0 and the signers named are fewer than two thirds of the pool (or none). A refusal carries no signatures and blames nobody; its status is Fail only for an unreadable version.", "quantifier": "all requests, all saved states", "why_tests_cant": "The requests are unbounded: texts of messages, keys and versions, sizes of pools.", "anchors": ["tss/keysign.go:KeySign", "tss/tss.go:requestToMsgId", "conversion/tss_helper.go:VersionLTCheck"]}
{"id": "C172", "title": "A signing party is large enough", "statement": "For a request that was taken on: without a leader (before 0.14.0) a party that forms has exactly as many different members as the request names signers, and these are at least two thirds of the pool; with a leader, the party the leader forms has the smallest number of different members that is at least two thirds of the pool. A signer named twice in the request therefore prevents a party, it never shrinks it.", "quantifier": "all requests, all pools, all histories of the join party with any number of peers and messages", "why_tests_cant": "Histories of the join party are unbounded.", "anchors": ["tss/keysign.go:KeySign", "tss/tss.go:joinParty", "p2p/party_coordinator.go:JoinPartyWithRetry", "p2p/party_coordinator.go:joinPartyLeader"]}
{"id": "C173", "title": "Every share of a local party reaches the local parties it is meant for", "statement": "In a ceremony of honest nodes over a network that delays, reorders and repeats messages but loses none: when all sessions of a member have emitted their message of a round for a destination and nothing is under way any more, the share of each session has been handed to the local party of that session at every member it is meant for, unchanged, naming its sender, and exactly once. And such a moment comes, in whatever order messages are delivered.", "quantifier": "all parties, sessions, emissions, orders of delivery, map orders and interleavings", "why_tests_cant": "A test runs a few ceremonies with the order the scheduler happens to choose; the path from one library instance to another crosses batching, JSON, signatures, confirmations and duplicate checks, and a share lost in one rare order stalls the ceremony.", "anchors": ["common/tss.go:ProcessOutCh", "common/tss.go:sendBulkMsg", "common/tss.go:ProcessOneMessage", "common/tss.go:processTSSMsg", "common/tss.go:updateLocal", "common/tss.go:applyShare", "common/tss_helper.go:GetMsgRound", "messages/p2p_message.go:WireMessage"]}
{"id": "C174", "title": "Local parties are only given what local parties emitted for them", "statement": "In a ceremony of honest nodes, at any moment and in every order of delivery: no node has panicked, nobody is blamed, and every share handed to a local party was emitted for this member, in the same session and with the same bytes, by the local party of the member it names as its sender.", "quantifier": "all parties, sessions, emissions, orders of delivery, map orders and interleavings", "why_tests_cant": "A share given to the wrong session or the wrong party shows only when several sessions and rounds are interleaved in a particular way.", "anchors": ["common/tss.go:ProcessOutCh", "common/tss.go:sendBulkMsg", "common/tss.go:ProcessOneMessage", "common/tss.go:updateLocal", "common/tss_helper.go:GetMsgRound"]}
{"id": "C175", "title": "Who is blamed when a ceremony times out", "statement": "When a key generation or a signing times out at a node that blamed nobody so far, and somebody is late, exactly the late are blamed, each once: members that owe a private share of the round the local party waits for, if some such share came and fewer than two thirds of the nodes owe one; and members whose broadcast of the last round of the local party is missing, if some such broadcast came. Owed private shares set the flag for private shares, and the reason \"Tss timeout\" unless there is a reason already.", "quantifier": "all parties, executions before the timeout, last messages, sets of late members and map orders", "why_tests_cant": "Blame decides who is slashed. The outcome depends on which of many messages came before the timeout, on two thresholds and on the iteration order of maps; tests stage a handful of combinations.", "anchors": ["keysign/tss_keysign.go:processKeySign", "keygen/tss_keygen.go:processKeyGen", "blame/policy.go:GetUnicastBlame", "blame/policy.go:GetBroadcastBlame", "conversion/conversion.go:GetPreviousKeySignUicast"]}
{"id": "C176", "title": "Missing shares decide when nobody is found late", "statement": "When a ceremony times out at a node that blamed nobody so far, and nobody is late with a private share or broadcast that counts, the nodes with missing shares of the first incomplete round are blamed if they are fewer than two thirds of the nodes; otherwise nobody is blamed. The reason is left as it was.", "quantifier": "all parties, executions before the timeout, last messages and map orders", "why_tests_cant": "The fallback runs only after two other searches found nothing, which needs a particular set of messages to have arrived.", "anchors": ["keysign/tss_keysign.go:processKeySign", "keygen/tss_keygen.go:processKeyGen", "blame/policy.go:TssMissingShareBlame"]}
{"id": "C177", "title": "One leader for each signing request", "statement": "A node that has taken on a signing request forms its party in a role that follows from the request. Before version 0.14.0 there is no leader and the party is to consist of the signers named in the request. From 0.14.0 on the member of the pool with the smallest hash of request id, block height and peer id leads, and every other node follows this one. Two nodes with the same request, its lists in any order, and the same members of the pool agree on the leader, so that never two of them lead and nobody follows a node that does not lead.", "quantifier": "all requests, pools, orders of the lists, hash functions without collision between members, and interleavings", "why_tests_cant": "Tests check the election of the leader by itself with fixed lists; whether the request wires the right list, id and height into it on every node is seen only when nodes disagree, and then the ceremony just times out.", "anchors": ["tss/keysign.go:KeySign", "tss/keysign.go:generateSignature", "tss/tss.go:joinParty", "p2p/party_coordinator.go:JoinPartyWithLeader", "p2p/leader_provider.go:LeaderNode"]}
{"id": "C178", "title": "No party forms once the node was told of a signature", "statement": "A join party that is told of a received signature while it waits never returns a party: as a leader it returns the error that the signature was received, as a member that error or the error that the leader is not ready. Conversely this error is returned only after the node was told of a signature while it waited, and never by the join party without a leader.", "quantifier": "all executions of the party coordinator, any number of calls, messages and interleavings", "why_tests_cant": "It is a race between the signature of the others, the answer of the leader and the timeout; a test exercises one order.", "anchors": ["p2p/party_coordinator.go:joinPartyMember", "p2p/party_coordinator.go:joinPartyLeader", "p2p/party_coordinator.go:JoinPartyWithRetry"]}
{"id": "C179", "title": "Every signature answered was produced by a ceremony of the same request", "statement": "When the nodes of a pool sign, the signatures a node answers are ones that the signing ceremony of some node produced for the request with the same id: its own ceremony, or that of a node of which it is a pool member and which told it. This holds whatever notifications are delayed or lost, whichever nodes time out and whichever ceremonies fail, as long as notifications only come from the nodes and are read as they were written.", "quantifier": "all pools, requests, interleavings of all nodes, losses and delays of notifications", "why_tests_cant": "It is a statement about all the nodes and all the notifications between them at once; a test runs a handful of nodes in one order.", "anchors": ["tss/keysign.go:KeySign", "tss/keysign.go:waitForSignatures", "tss/keysign.go:generateSignature", "keysign/signature_notifier.go:BroadcastSignature", "keysign/signature_notifier.go:WaitForSignature", "keysign/notifier.go:ProcessSignature"]}
{"id": "C180", "title": "When nothing goes wrong the whole pool answers with the signatures", "statement": "Let all the nodes of a pool get the same request, its party form and the members' ceremonies produce valid signatures, with no wait timing out and no notification arriving at a node before it waits. Then every node that answers, in the party or not, answers Success with exactly one entry for each message of the request, which carries a signature over this message that verifies under the pool key. No interleaving leaves the pool stuck: from every point all the nodes can still come to answer. If the messages are different integers all the nodes give the same answer.", "quantifier": "all pools, parties, requests, signatures, interleavings of all nodes and orders in which sessions end and notifications arrive", "why_tests_cant": "Which goroutine of which node is fastest differs in every run: a node may sign, be told while it signs, be told while it forms the party, or only wait.", "anchors": ["tss/keysign.go:KeySign", "tss/keysign.go:waitForSignatures", "tss/keysign.go:generateSignature", "tss/keysign.go:batchSignatures", "keysign/tss_keysign.go:SignMessage", "keysign/signature_notifier.go:broadcastCommon", "keysign/signature_notifier.go:handleStream", "keysign/notifier.go:ProcessSignature"]}
{"id": "C181", "title": "Exactly the readable base64 texts are messages", "statement": "A message string of a signing request is accepted exactly when, without its CR and LF characters, it consists of characters of the standard alphabet followed by at most two '=', a multiple of four in all. The payload signed is then the bits of these characters cut into bytes, left-over bits ignored. The string in the answer stands for the same payload, and no string stands for two.", "quantifier": "all strings and all payloads", "why_tests_cant": "Tests decode a few well formed strings; which malformed ones get through is a statement about all strings.", "anchors": ["tss/keysign.go:KeySign", "tss/keysign.go:batchSignatures"]}
{"id": "C182", "title": "The id of a signing request follows the spelling of its messages", "statement": "Two signing requests with the same signers and the same payloads, in any order, have the same id if all their messages are canonical base64. Two different spellings of one payload make the nodes sign the same bytes under two different ids (unless the hash collides), so that nodes given different spellings never meet.", "quantifier": "all requests, payloads, spellings and hash functions", "why_tests_cant": "It compares requests made to different nodes, over all ways to write a payload.", "anchors": ["tss/tss.go:requestToMsgId", "tss/keysign.go:KeySign"]}
{"id": "C183", "title": "Whoever the library finds guilty of a bad share is blamed and then ignored", "statement": "When the library rejects a share and names guilty parties that are in the party, the blame gets the reason for a broken share and, after what it held before, one entry for each of them in order with the party's key. The evidence of an entry is a broadcast of the round that this party signed and the node received, or nothing, and there is evidence if the share came in such a broadcast of the guilty party. The unicast flag is set for the kinds of shares of the second round of key generation and of the first four rounds of signing, and no others. If a guilty party is not in the party, nobody is added. From then on no share in the name of a guilty party is handed to the library but those already waiting.", "quantifier": "all parties, histories of messages, worker schedules, rejected shares and lists of guilty parties", "why_tests_cant": "A bad share has to be made on purpose with the library's own keys; which shares wait when it is found depends on the schedule.", "anchors": ["common/tss.go:processInvalidMsgBlame", "common/tss.go:doTssJob", "common/tss.go:updateLocal", "common/tss_helper.go:checkUnicast", "blame/blame.go:SetBlame"]}
{"id": "C184", "title": "The blame for a bad share shows the message that carried it", "statement": "The entry for a guilty party carries the message with the bad share and the party's signature over it. (Violated: only broadcasts are kept; for a share sent to one party the entry is empty although the node holds the signed message. Without a broadcast of the round the entries are always empty.)", "quantifier": "all parties, histories and kinds of shares", "why_tests_cant": "A bad share sent to one party has to be made on purpose.", "anchors": ["common/tss.go:processInvalidMsgBlame", "common/tss.go:applyShare", "common/tss.go:processTSSMsg"]}
{"id": "C185", "title": "The field is_broadcast of an answer says whether the bad share was a broadcast", "statement": "In the answer after a bad share the field is_broadcast is true exactly if shares of this kind go to everybody. (Violated: the field holds the unicast flag; it is false for a bad broadcast of the first round of key generation and true for a bad share sent to one party.)", "quantifier": "all kinds of shares", "why_tests_cant": "A bad share has to be made on purpose, and the answer to be compared with what it was.", "anchors": ["blame/types.go:Blame", "common/tss.go:processInvalidMsgBlame", "common/tss_helper.go:checkUnicast"]}
{"id": "C186", "title": "Exactly the JSON texts of the right shape are read", "statement": "Bytes received for a message are accepted exactly when they are one JSON text (RFC 8259, not nested deeper than 10000) of null or of an object in which every field of the message, whatever the case of its letters, has a value of its type; a saved state is read exactly when its file is such a text of null or of an object with the fields of a state. A JSON text states one value only, so two readers cannot disagree about it.", "quantifier": "all byte strings; all files; every reading of the saved data by the library", "why_tests_cant": "The set of accepted byte strings is infinite; tests show a few accepted and rejected texts, not that the grammar is met exactly.", "anchors": ["messages/p2p_message.go:WrappedMessage", "common/tss.go:ProcessInboundMessages", "p2p/communication.go:readFromStream", "storage/localstate_mgr.go:GetLocalState"]}
{"id": "C187", "title": "A saved state is read back whatever strings it has", "statement": "Every state that is saved without an error is read back as it was saved. (Refuted for states with strings that are not UTF-8: they come back changed. It holds for the states of key generations requested over HTTP, since no string of such a request can be anything but UTF-8 text.)", "quantifier": "all states and all bodies of requests", "why_tests_cant": "Tests save states with readable keys; a string that is not UTF-8 is replaced silently when it is written.", "anchors": ["storage/localstate_mgr.go:SaveLocalState", "storage/localstate_mgr.go:GetLocalState", "cmd/tss/tss_http.go:keygenHandler"]}
{"id": "C188", "title": "The shares counted are those the library took, each at its own round", "statement": "A share is counted only under the round of its kind, the session it names and the party it is attributed to, and only if the threshold library took it. Once no worker is about to count one, every share that the library took is counted.", "quantifier": "for all environments, parties, message histories, schedules of the workers and answers of the library", "why_tests_cant": "The counting is done by concurrent workers after the library answered; tests count shares by hand. An off-by-one in the table of rounds shows only when a timeout blames the wrong node.", "anchors": ["common/tss_helper.go:GetMsgRound", "common/tss.go:doTssJob", "blame/manager.go:UpdateAcceptShare"]}
{"id": "C189", "title": "Exactly the well-formed payloads are read", "statement": "The payload of a share, a confirmation, a control message or a done notice is read exactly if it is one JSON text of an object (or null) whose known fields, under any spelling Go accepts, have values of the right type, down to the routing and the parties in it; the same holds for the list of bulk shares inside a share.", "quantifier": "for all payload bytes and message types", "why_tests_cant": "The set of byte strings is infinite and attacker-chosen; tests feed payloads the program wrote itself.", "anchors": ["messages/p2p_message.go:WireMessage", "messages/p2p_message.go:BroadcastConfirmMessage", "messages/p2p_message.go:TssControl", "messages/p2p_message.go:TssTaskNotifier", "common/tss.go:ProcessOneMessage", "common/tss.go:BulkWireMsg"]}
{"id": "C190", "title": "Stopping leaves running requests ten seconds", "statement": "After the signal no further requests are taken, and a request being served is neither told to give up nor robbed of its network nor cut off until it is answered or ten seconds have passed since the stopping began. Nothing stops without a signal.", "quantifier": "for all interleavings of requests, signal, clock, HTTP server, main goroutine and sending goroutines", "why_tests_cant": "Shutdown races with any number of requests; tests stop an idle server.", "anchors": ["cmd/tss/main.go:main", "cmd/tss/tss_http.go:Stop", "tss/tss.go:Stop"]}
{"id": "C191", "title": "A clean stop means that every request was answered", "statement": "When the program reports no error at its end, every request it had taken was answered with its own result. It reports an error only when a listener could not be closed, all requests being answered, or after ten seconds.", "quantifier": "for all interleavings of requests, signal, clock, HTTP server, main goroutine and sending goroutines", "why_tests_cant": "The report depends on the order of events over ten seconds of real time.", "anchors": ["cmd/tss/main.go:main", "cmd/tss/tss_http.go:Stop"]}
{"id": "C192", "title": "After a signal the program ends", "statement": "From every state after the signal, whatever requests are running and whatever other nodes do, there is a way to the end of the program in which no request finishes and in which at most ten seconds pass besides the closing of the network.", "quantifier": "for all states reachable after a signal", "why_tests_cant": "A deadlock would need a particular state of several goroutines; tests see a few.", "anchors": ["cmd/tss/main.go:main", "cmd/tss/tss_http.go:Stop", "tss/tss.go:Stop", "p2p/communication.go:Stop"]}
{"id": "C193", "title": "A program that cannot serve its API ends", "statement": "If the HTTP server cannot listen, the program ends. (Refuted: it prints the error and waits for a signal, taking part in no request.)", "quantifier": "for all errors and continuations without a signal", "why_tests_cant": "Needs the whole program with an occupied port.", "anchors": ["cmd/tss/main.go:main", "cmd/tss/tss_http.go:Start"]}
{"id": "C194", "title": "Every request that was taken is answered", "statement": "A request the program has begun to serve is answered before the program ends. (Refuted: a request still running ten seconds after the stopping began is cut off, though ceremonies may take longer than that.)", "quantifier": "for all requests", "why_tests_cant": "Needs a signal during a long ceremony.", "anchors": ["cmd/tss/main.go:main", "cmd/tss/tss_http.go:Stop"]}
{"id": "C195", "title": "What is read is what the JSON says", "statement": "In a ceremony message or a request that could be read, every text, number, truth value, byte string and list of texts is what the last field with its name says, whatever the spelling of the name; a null says nothing about a text or a number and empties a list; a field that is missing is empty or zero. A structure within (the routing of a share, its sender, the share in a control message) is missing exactly if the last field with its name is a null or there is none, and otherwise says what the objects given since the last null say together. (A list whose name stands more than once is looked at only if its arrays have no nulls, since encoding/json then mixes the two.)", "quantifier": "for all bytes that can be read as a frame, share, confirmation, control message, notice, or as the body of a keygen or keysign request", "why_tests_cant": "JSON objects may repeat a name in several spellings; tests use the encoder of the program, which never does.", "anchors": ["messages/p2p_message.go:WrappedMessage", "messages/p2p_message.go:WireMessage", "keygen/request.go:Request", "keysign/request.go:Request", "cmd/tss/tss_http.go:keygenHandler"]}
{"id": "C196", "title": "Which bytes are a public key, and of which point", "statement": "The bytes of a public key text name a point exactly when they are the 33 bytes of a point of secp256k1 (parity and x) or its 65 bytes (x and y in full, after a first byte 4 or 5, or 6 or 7 by the parity of y). The peer of the text is then the peer of that point, whichever form the bytes have.", "quantifier": "for all bytes, all coordinates and all texts", "why_tests_cant": "There are 2^264 keys of the short form alone; tests try a few keys.", "anchors": ["conversion/conversion.go:GetPeerIDFromPubKey", "conversion/conversion.go:CheckKeyOnCurve"]}
{"id": "C197", "title": "tss-benchgen changes nothing that was there", "statement": "A run of tss-benchgen, however it ends, leaves every file and folder that was there as it was, and makes only the folder named on the command line and in it files for the indices its parties ended with. If the folder is there the program ends with code 1 and writes nothing.", "quantifier": "for all command lines, all contents of the disk and all orders of the messages, errors and results of the parties", "why_tests_cant": "Tests do not run the tool, let alone with failing writes and every order of events.", "anchors": ["cmd/tss-benchgen/main.go:main", "cmd/tss-benchgen/main.go:tryWriteKeyGenDataFile"]}
{"id": "C198", "title": "When tss-benchgen ends well all shares are written", "statement": "If tss-benchgen ends with code 0, then the quorum was at least two and at most the number of parties, every party ended with a result, and, the indices being different, the file of each index holds exactly the data of the result with this index.", "quantifier": "for all command lines, all contents of the disk without files in missing folders, and all orders of events", "why_tests_cant": "Orders of the results of the parties and failing writes.", "anchors": ["cmd/tss-benchgen/main.go:runKeyGen", "cmd/tss-benchgen/main.go:tryWriteKeyGenDataFile"]}
{"id": "C199", "title": "The benchmark programs hand every message to the parties it is for", "statement": "While the loop of a benchmark program runs, each party has been given, in order and once each, the messages of the other parties that name no receiver and those that name it as the first receiver, and nothing else. The loop panics only because a party reported an error, a message named an empty list, its own sender or a party that does not exist, or a result could not be kept or checked.", "quantifier": "for all numbers of parties and all orders of events", "why_tests_cant": "All interleavings of the parties.", "anchors": ["cmd/tss-benchgen/main.go:runKeyGen", "cmd/tss-benchsign/main.go:runSign"]}
{"id": "C200", "title": "What tss-benchsign measures, and what it refuses", "statement": "The table has one row for each quorum from q to n, in this order; a row has one time for each run, which is the time of the ceremony of that run with that quorum, and the mean is their sum divided by the number of runs and rounded down. The program panics only if data cannot be loaded or a ceremony panics, never while it prints. A quorum q below two is refused, as its message says. (The last sentence is refuted: only n is compared with one, so q = 0 is run.)", "quantifier": "for all command lines, all contents of the folder and all outcomes of the ceremonies", "why_tests_cant": "Tests do not run the tool.", "anchors": ["cmd/tss-benchsign/main.go:main", "cmd/tss-benchsign/main.go:printSummary"]}
{"id": "C201", "title": "Every party of tss-benchsign signs with its own share", "statement": "With quorum q the parties are given the data in the first q files. Each is given the data of its own share id exactly when the share ids grow with the numbers of the files, and this is so for the files tss-benchgen wrote.", "quantifier": "for all contents of the folder with different share ids and all quorums", "why_tests_cant": "The ids are sorted and the data are not; whether they match depends on the data.", "anchors": ["cmd/tss-benchsign/main.go:loadKeyGenData", "cmd/tss-benchsign/main.go:runSign"]}
{"id": "C202", "title": "No goroutine waits for a lock for ever", "statement": "However the calls that take locks are interleaved (by requests, stream handlers, the goroutines of a ceremony and of a join, and signature notices), the goroutines never all wait for locks that others of them hold, no lock is released by a goroutine that does not hold it, and once nothing can go on every call has ended and every lock is free.", "quantifier": "for all numbers of goroutines, all sequences of the calls of each with all outcomes of their tests, all reader and writer locks with waiting writers preferred, and all interleavings", "why_tests_cant": "Deadlocks show only in rare interleavings of several goroutines.", "anchors": ["common/tss.go:ProcessOneMessage", "common/local_cache_item.go:LocalCacheItem", "p2p/communication.go:Communication", "p2p/party_coordinator.go:PartyCoordinator", "p2p/stream_helper.go:StreamMgr", "tss/tss.go:TssServer", "blame/manager.go:Manager", "keysign/signature_notifier.go:SignatureNotifier"]}
{"id": "C203", "title": "What has a lock is never raced for", "statement": "Of the tables that have a lock (the subscribers of topics and of request ids, the recorded streams, the address book, the groups of joins and their responses, the unconfirmed messages, peers and culprits of a ceremony, what its blame manager has stored, requested, accepted and seen last, and the signature notifiers), no two goroutines ever are about to access the same one at the same time with one of them writing.", "quantifier": "for all numbers of goroutines, all sequences of calls and all interleavings", "why_tests_cant": "The race detector sees only the interleavings that happen in a test.", "anchors": ["p2p/communication.go:Communication", "p2p/party_coordinator.go:PartyCoordinator", "p2p/stream_helper.go:StreamMgr", "common/tss.go:TssCommon", "blame/manager.go:Manager", "blame/policy.go:Manager"]}
{"id": "C204", "title": "Nothing shared is raced for", "statement": "No two goroutines ever are about to access the same field, table or array at the same time with one of them writing.", "quantifier": "for all numbers of goroutines, all sequences of calls and all interleavings", "why_tests_cant": "The race detector sees only the interleavings that happen in a test.", "anchors": ["blame/types.go:Blame", "p2p/party_coordinator.go:joinPartyMember", "p2p/party_coordinator.go:processRespMsg", "blame/policy.go:TssMissingShareBlame", "p2p/stream_helper.go:ReleaseStream"]}
{"id": "C205", "title": "A release resets all streams recorded when it begins", "statement": "When a release of the streams of an id has ended, every stream that was recorded under the id, or under no known id, when the release began has been reset, although the lists of streams share arrays with the lists that releases in progress work on.", "quantifier": "for all histories of adding and releasing streams, step by step, with any growth of the arrays; proved for histories in which no stream is added under an id while a release of that id is in progress, and refuted for others (the word for no known id is taken never to be released itself)", "why_tests_cant": "Needs two releases and an addition interleaved within a few instructions, and an array with room to spare.", "anchors": ["p2p/stream_helper.go:ReleaseStream", "p2p/stream_helper.go:AddStream"]}
{"id": "C206", "title": "Sharing arrays loses no stream", "statement": "If no stream is added under an id while a release of that id is in progress, then at every moment each stream that was added is recorded under its id, or has been reset, or is in the list of a release in progress.", "quantifier": "for all such histories, step by step, with any growth of the arrays", "why_tests_cant": "Needs releases interleaved within a few instructions.", "anchors": ["p2p/stream_helper.go:ReleaseStream", "p2p/stream_helper.go:AddStream"]}
{"id": "C207", "title": "Blame is given with its reason and not taken back", "statement": "While messages are handled, each step leaves the blame as it is, or appends to the nodes blamed and gives the reason for what the step did: the failed hash check of a message, naming at most one node, or a share rejected by the library, naming nobody or as many as it found guilty. So before a timeout whoever is blamed is blamed with one of these two reasons, and nobody blamed is taken off the list. A timeout keeps the nodes blamed before it and the reason they were blamed with.", "quantifier": "for all environments, configurations, histories of steps and iteration orders", "why_tests_cant": "Tests look at the blame at the end of a few chosen failures.", "anchors": ["blame/blame.go:SetBlame", "blame/types.go:HashCheckFail", "common/tss.go:applyShare", "common/tss.go:processInvalidMsgBlame"]}
