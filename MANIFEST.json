{
 "claims": [
  {
   "property": "C01",
   "status": "proved",
   "theorems": [
    "C01_threshold_exact",
    "C01_threshold_unique"
   ],
   "note": "float64 semantics through Flocq; depends on the standard library's real-number axioms"
  },
  {
   "property": "C02",
   "status": "proved",
   "theorems": [
    "C02_leader_agreement"
   ],
   "note": ""
  },
  {
   "property": "C03",
   "status": "proved",
   "theorems": [
    "C03_leader_rejects_exactly_invalid"
   ],
   "note": ""
  },
  {
   "property": "C04",
   "status": "proved",
   "theorems": [
    "C04_request_id_order_independent",
    "C04_request_id_error"
   ],
   "note": ""
  },
  {
   "property": "C05",
   "status": "partial",
   "theorems": [
    "C05_request_id_injective_refuted",
    "C05_message_or_signer_refuted"
   ],
   "note": "the claim is false of the code (refuted with witnesses); what holds is C124"
  },
  {
   "property": "C06",
   "status": "proved",
   "theorems": [
    "C06_parties_order_independent",
    "C06_party_table",
    "C06_parties_error"
   ],
   "note": ""
  },
  {
   "property": "C07",
   "status": "proved",
   "theorems": [
    "C07_hash_int",
    "C07_hash_int_same"
   ],
   "note": ""
  },
  {
   "property": "C08",
   "status": "proved",
   "theorems": [
    "C08_signatures_next_to_their_messages"
   ],
   "note": ""
  },
  {
   "property": "C09",
   "status": "proved",
   "theorems": [
    "C09_same_identifiers",
    "C09_same_identifiers_by_value",
    "C09_identifiers_are_not_shared",
    "C09_one_session_per_message"
   ],
   "note": ""
  },
  {
   "property": "C10",
   "status": "proved",
   "theorems": [
    "C10_version_gate",
    "C10_check_is_semver_order",
    "C10_version_unique",
    "C10_total_order",
    "C10_join_party"
   ],
   "note": ""
  },
  {
   "property": "C11",
   "status": "proved",
   "theorems": [
    "C11_write_puts_a_frame",
    "C11_read_back",
    "C11_round_trip",
    "C11_failed_write_is_prefix"
   ],
   "note": ""
  },
  {
   "property": "C12",
   "status": "proved",
   "theorems": [
    "C12_limit",
    "C12_oversized_refused"
   ],
   "note": ""
  },
  {
   "property": "C13",
   "status": "proved",
   "theorems": [
    "C13_truncated_refused",
    "C13_read_is_a_frame"
   ],
   "note": ""
  },
  {
   "property": "C14",
   "status": "partial",
   "theorems": [
    "C14_written_but_unreadable_refuted"
   ],
   "note": "the claim is false of the code: a payload of 20,000,001 bytes is written and cannot be read, one of 2^32+k bytes is read as its first k bytes; below the limit C11 holds"
  },
  {
   "property": "C15",
   "status": "proved",
   "theorems": [
    "C15_subscriptions_are_a_map",
    "C15_delivery",
    "C15_nothing_else_delivered",
    "C15_request_gets_only_its_messages"
   ],
   "note": ""
  },
  {
   "property": "C16",
   "status": "proved",
   "theorems": [
    "C16_finished_leave_nothing",
    "C16_all_finished_table_empty",
    "C16_others_do_not_interfere"
   ],
   "note": ""
  },
  {
   "property": "C17",
   "status": "proved",
   "theorems": [
    "C17_release",
    "C17_forgotten",
    "C17_others_kept"
   ],
   "note": ""
  },
  {
   "property": "C18",
   "status": "partial",
   "theorems": [
    "C18_stream_lost_refuted"
   ],
   "note": "the claim is false of the code: refuted by a run in which AddStream falls between the two critical sections of ReleaseStream; what holds is C72"
  },
  {
   "property": "C72",
   "status": "proved",
   "theorems": [
    "C72_no_stream_lost"
   ],
   "note": ""
  },
  {
   "property": "C73",
   "status": "partial",
   "theorems": [
    "C73_reset_once_refuted",
    "C73_reset_once"
   ],
   "note": "the claim is false of the code: refuted with a history (streams recorded under UNKNOWN). C73_reset_once shows it for a stream recorded once under another id, as long as two releases of that id do not overlap."
  },
  {
   "property": "C74",
   "status": "partial",
   "theorems": [
    "C74_same_id_disturbs_refuted"
   ],
   "note": "the claim is false of the code: refuted with a run of two keysigns with the same id; what holds is C16"
  },
  {
   "property": "C75",
   "status": "partial",
   "theorems": [
    "C75_handler_never_ends_refuted",
    "C75_when_the_handler_can_end"
   ],
   "note": "the claim is false of the code: refuted with a run after which, whatever follows, the handler is still waiting. C75_when_the_handler_can_end says exactly when it can still end."
  },
  {
   "property": "C19",
   "status": "proved",
   "theorems": [
    "C19_online_peers_are_participants_that_asked",
    "C19_others_are_ignored"
   ],
   "note": ""
  },
  {
   "property": "C20",
   "status": "proved",
   "theorems": [
    "C20_online_are_the_first_to_ask",
    "C20_signal_once"
   ],
   "note": ""
  },
  {
   "property": "C21",
   "status": "proved",
   "theorems": [
    "C21_leader_success",
    "C21_leader_timeout",
    "C21_leader_timeout_reports_all"
   ],
   "note": ""
  },
  {
   "property": "C22",
   "status": "proved",
   "theorems": [
    "C22_member_follows_its_leader"
   ],
   "note": ""
  },
  {
   "property": "C23",
   "status": "partial",
   "theorems": [
    "C23_member_checks_the_list_refuted"
   ],
   "note": "the claim is false of the code: refuted with lists that are too short, foreign, or repeat one peer; what holds is C22"
  },
  {
   "property": "C24",
   "status": "proved",
   "theorems": [
    "C24_leaderless_outcome",
    "C24_leaderless_exact"
   ],
   "note": ""
  },
  {
   "property": "C25",
   "status": "partial",
   "theorems": [
    "C25_only_the_timeout_ends_the_wait",
    "C25_leaderless_returns_when_complete_refuted"
   ],
   "note": "the claim is false of the code: proved that only the timeout ends the wait unless messages of the other protocol come in"
  },
  {
   "property": "C26",
   "status": "proved",
   "theorems": [
    "C26_leader_reports_signature"
   ],
   "note": ""
  },
  {
   "property": "C27",
   "status": "proved",
   "theorems": [
    "C27_handlers_never_block"
   ],
   "note": ""
  },
  {
   "property": "C28",
   "status": "proved",
   "theorems": [
    "C28_only_authentic_shares"
   ],
   "note": ""
  },
  {
   "property": "C29",
   "status": "partial",
   "theorems": [
    "C29_attribution_refuted"
   ],
   "note": "the claim is false of the code: refuted by a run in which a share attributed to party 3 is applied though only party 1 signed anything"
  },
  {
   "property": "C30",
   "status": "proved",
   "theorems": [
    "C30_broadcast_quorum"
   ],
   "note": ""
  },
  {
   "property": "C31",
   "status": "partial",
   "theorems": [
    "C31_agreement_refuted"
   ],
   "note": "the claim is false of the code: refuted by a run of a four-party network; what holds is C69"
  },
  {
   "property": "C32",
   "status": "proved",
   "theorems": [
    "C32_later_report_ignored",
    "C32_first_report_stays",
    "C32_transport_identity"
   ],
   "note": ""
  },
  {
   "property": "C33",
   "status": "partial",
   "theorems": [
    "C33_outsiders_refuted"
   ],
   "note": "the claim is false of the code: outsiders' confirmations and completion notices are counted (refuted with runs)"
  },
  {
   "property": "C34",
   "status": "proved",
   "theorems": [
    "C34_accepted_once"
   ],
   "note": "for histories in which messages are handled one after the other; examples show the two limits (duplicates inside one message; jobs left behind by an error)"
  },
  {
   "property": "C35",
   "status": "proved",
   "theorems": [
    "C35_completion_signal",
    "C35_duplicate_reported",
    "C35_never_closed_twice"
   ],
   "note": ""
  },
  {
   "property": "C36",
   "status": "proved",
   "theorems": [
    "C36_blame_evidence",
    "C36_party_ids_have_no_dash"
   ],
   "note": ""
  },
  {
   "property": "C37",
   "status": "proved",
   "theorems": [
    "C37_no_self_blame",
    "C37_own_key_not_named",
    "C37_timeout_no_self_blame"
   ],
   "note": ""
  },
  {
   "property": "C38",
   "status": "proved",
   "theorems": [
    "C38_broadcast_blame_exact",
    "C38_confirmed_was_sent",
    "C38_applied_not_blamed"
   ],
   "note": ""
  },
  {
   "property": "C39",
   "status": "proved",
   "theorems": [
    "C39_unicast_blame_exact",
    "C39_seen_was_sent",
    "C39_sent_is_seen"
   ],
   "note": ""
  },
  {
   "property": "C40",
   "status": "proved",
   "theorems": [
    "C40_missing_share_blame_exact",
    "C40_no_shares_no_blame"
   ],
   "note": "for ceremonies of one message, the accepted shares being those of the ceremony's own rounds"
  },
  {
   "property": "C41",
   "status": "proved",
   "theorems": [
    "C41_batching",
    "C41_nothing_invented"
   ],
   "note": ""
  },
  {
   "property": "C42",
   "status": "partial",
   "theorems": [
    "C42_never_crashes_refuted",
    "C42_one_frame_refuted"
   ],
   "note": "the claim is false of the code: refuted with two messages, and with the bytes of one frame; what holds is C70"
  },
  {
   "property": "C43",
   "status": "proved",
   "theorems": [
    "C43_unsolicited_ignored",
    "C43_answered_once"
   ],
   "note": ""
  },
  {
   "property": "C44",
   "status": "partial",
   "theorems": [
    "C44_hash_check_bypass_refuted"
   ],
   "note": "the claim is false of the code: the unsigned outer flag decides (refuted with a run)"
  },
  {
   "property": "C45",
   "status": "proved",
   "theorems": [
    "C45_waited_signature_valid",
    "C45_waited_signature_length"
   ],
   "note": ""
  },
  {
   "property": "C46",
   "status": "partial",
   "theorems": [
    "C46_prefix_returned",
    "C46_waited_set_complete_refuted"
   ],
   "note": "the claim is false of the code: a non-empty valid prefix is accepted (refuted with a notification); proved that what is returned is a prefix with every signature valid"
  },
  {
   "property": "C47",
   "status": "proved",
   "theorems": [
    "C47_at_most_one_delivery",
    "C47_failed_ignored",
    "C47_invalid_ignored",
    "C47_other_ids_untouched",
    "C47_other_status_ignored"
   ],
   "note": ""
  },
  {
   "property": "C48",
   "status": "proved",
   "theorems": [
    "C48_sends_never_block",
    "C48_never_wait_for_each_other",
    "C48_bounded",
    "C48_always_ends",
    "C48_closed_after_both"
   ],
   "note": ""
  },
  {
   "property": "C49",
   "status": "partial",
   "theorems": [
    "C49_no_status_refuted",
    "C49_missing_signature_refuted",
    "C49_no_signature_refuted"
   ],
   "note": "the claim is false of the code: refuted with runs that return without status, without one of the signatures, and without any"
  },
  {
   "property": "C50",
   "status": "proved",
   "theorems": [
    "C50_success_is_durable"
   ],
   "note": ""
  },
  {
   "property": "C51",
   "status": "partial",
   "theorems": [
    "C51_announced_after_saved_refuted",
    "C51_announced_only_if_saved_refuted"
   ],
   "note": "the claim is false of the code: refuted with a run stopped between announcement and save, and with a run whose save fails"
  },
  {
   "property": "C52",
   "status": "proved",
   "theorems": [
    "C52_reads_last_saved",
    "C52_isolation",
    "C52_invalid_refused"
   ],
   "note": ""
  },
  {
   "property": "C53",
   "status": "partial",
   "theorems": [
    "C53_crash_keeps_old_or_new_refuted"
   ],
   "note": "the claim is false of the code: a crash during a save loses both states (refuted); what holds is C104"
  },
  {
   "property": "C54",
   "status": "proved",
   "theorems": [
    "C54_round_trip",
    "C54_lines_exist",
    "C54_no_book"
   ],
   "note": ""
  },
  {
   "property": "C55",
   "status": "partial",
   "theorems": [
    "C55_total_time_bounded_refuted"
   ],
   "note": "the claim is false of the code: the timer restarts at each message (refuted); what holds is C107"
  },
  {
   "property": "C56",
   "status": "partial",
   "theorems": [
    "C56_keysign_timeout_never_crashes_refuted"
   ],
   "note": "the claim is false of the code: refuted with a timeout before the first message; what holds is C87"
  },
  {
   "property": "C57",
   "status": "partial",
   "theorems": [
    "C57_keygen_errors_refuted"
   ],
   "note": "the claim is false of the code: an error of Keygen is answered 200 (refuted with witness); what holds is C117"
  },
  {
   "property": "C58",
   "status": "proved",
   "theorems": [
    "C58_keysign_counters",
    "C58_join_counter",
    "C58_keygen_counted_once"
   ],
   "note": ""
  },
  {
   "property": "C59",
   "status": "proved",
   "theorems": [
    "C59_shares_give_the_key",
    "C59_shares_determine_the_key",
    "C59_tool_prints_the_key"
   ],
   "note": ""
  },
  {
   "property": "C60",
   "status": "partial",
   "theorems": [
    "C60_only_three",
    "C60_honours_n_refuted"
   ],
   "note": "Refuted: the flag is read before the command line is parsed. C60_only_three shows that the tool honours -n exactly for n = 3."
  },
  {
   "property": "C61",
   "status": "proved",
   "theorems": [
    "C61_written_iff",
    "C61_exported_file_opens"
   ],
   "note": ""
  },
  {
   "property": "C62",
   "status": "partial",
   "theorems": [
    "C62_short_keys_refused_refuted",
    "C62_never_crashes_refuted"
   ],
   "note": "the claim is false of the code: short keys are completed with leftover text characters or crash (refuted with witnesses); what holds is C113"
  },
  {
   "property": "C63",
   "status": "proved",
   "theorems": [
    "C63_payload_round_trip",
    "C63_string_round_trip",
    "C63_canonical_is_decodable",
    "C63_strings_are_not_shared"
   ],
   "note": ""
  },
  {
   "property": "C64",
   "status": "proved",
   "theorems": [
    "C64_add_blame_nodes",
    "C64_no_duplicates_created",
    "C64_set_blame_keeps"
   ],
   "note": ""
  },
  {
   "property": "C65",
   "status": "proved",
   "theorems": [
    "C65_node_sync_blame_exact"
   ],
   "note": ""
  },
  {
   "property": "C66",
   "status": "partial",
   "theorems": [
    "C66_honest_sender_blamed_refuted"
   ],
   "note": "the claim is false of the code: refuted with a run; what holds is C71"
  },
  {
   "property": "C67",
   "status": "proved",
   "theorems": [
    "C67_agreed_broadcast_applied"
   ],
   "note": ""
  },
  {
   "property": "C69",
   "status": "proved",
   "theorems": [
    "C69_disagreement_exposed"
   ],
   "note": ""
  },
  {
   "property": "C70",
   "status": "proved",
   "theorems": [
    "C70_named_senders_no_crash"
   ],
   "note": ""
  },
  {
   "property": "C71",
   "status": "proved",
   "theorems": [
    "C71_hash_check_grounds"
   ],
   "note": ""
  },
  {
   "property": "C76",
   "status": "partial",
   "theorems": [
    "C76_member_reports_signature_refuted"
   ],
   "note": "the claim is false of the code: refuted with a run; the leader's side is C26"
  },
  {
   "property": "C77",
   "status": "partial",
   "theorems": [
    "C77_leader_stops_on_signature_refuted"
   ],
   "note": "the claim is false of the code: refuted for every continuation without a timeout or a message"
  },
  {
   "property": "C78",
   "status": "partial",
   "theorems": [
    "C78_member_handlers_end_refuted"
   ],
   "note": "the claim is false of the code: refuted, for every continuation; leader and leaderless side is C27"
  },
  {
   "property": "C79",
   "status": "partial",
   "theorems": [
    "C79_leader_returns_when_complete_refuted"
   ],
   "note": "the claim is false of the code: refuted for every continuation without a timeout"
  },
  {
   "property": "C80",
   "status": "partial",
   "theorems": [
    "C80_one_response_decides_refuted"
   ],
   "note": "the claim is false of the code: refuted with a run; what holds is C22"
  },
  {
   "property": "C81",
   "status": "partial",
   "theorems": [
    "C81_overlapping_joins_are_independent_refuted"
   ],
   "note": "the claim is false of the code: refuted for every continuation"
  },
  {
   "property": "C82",
   "status": "partial",
   "theorems": [
    "C82_join_is_forgotten_refuted"
   ],
   "note": "the claim is false of the code for leader and member (refuted for every continuation without a new call of that id); the leaderless protocol is C125"
  },
  {
   "property": "C83",
   "status": "partial",
   "theorems": [
    "C83_batch_blames_all_missing_refuted",
    "C83_blame_depends_on_iteration_order_refuted"
   ],
   "note": "the claim is false of the code: refuted with a batch of two messages; what holds is C84"
  },
  {
   "property": "C84",
   "status": "proved",
   "theorems": [
    "C84_batch_blame_sound"
   ],
   "note": ""
  },
  {
   "property": "C85",
   "status": "partial",
   "theorems": [
    "C85_complete_ceremony_blames_everybody",
    "C85_nobody_blamed_if_nothing_missing_refuted"
   ],
   "note": "the claim is false of the code: refuted with a complete keygen of two parties; C85_complete_ceremony_blames_everybody says what the code does"
  },
  {
   "property": "C86",
   "status": "partial",
   "theorems": [
    "C86_keygen_timeout_never_crashes_refuted"
   ],
   "note": "the claim is false of the code, given a tss-lib that ignores a foreign message without error (the model leaves its answer free); the only cause of a crash is C126"
  },
  {
   "property": "C87",
   "status": "proved",
   "theorems": [
    "C87_keysign_timeout_no_crash_after_first_message"
   ],
   "note": ""
  },
  {
   "property": "C88",
   "status": "proved",
   "theorems": [
    "C88_valid_notification_delivered"
   ],
   "note": ""
  },
  {
   "property": "C89",
   "status": "partial",
   "theorems": [
    "C89_same_id_independent_refuted"
   ],
   "note": "the claim is false of the code: refuted with a run of two overlapping calls"
  },
  {
   "property": "C90",
   "status": "partial",
   "theorems": [
    "C90_notification_no_crash_refuted",
    "C90_one_signature_too_many_refuted"
   ],
   "note": "the claim is false of the code: refuted with a list longer than the messages"
  },
  {
   "property": "C91",
   "status": "proved",
   "theorems": [
    "C91_crash_needs_valid_signatures"
   ],
   "note": ""
  },
  {
   "property": "C92",
   "status": "proved",
   "theorems": [
    "C92_broadcast_targets",
    "C92_broadcast_received",
    "C92_failure_not_propagated"
   ],
   "note": ""
  },
  {
   "property": "C93",
   "status": "proved",
   "theorems": [
    "C93_timeout_blames_a_minority"
   ],
   "note": ""
  },
  {
   "property": "C94",
   "status": "partial",
   "theorems": [
    "C94_timeout_report_has_reason_refuted",
    "C94_reason_after"
   ],
   "note": "the claim is false of the code: refuted with a history in which nodes are blamed without a reason; C94_reason_after says exactly when a timeout gives a reason"
  },
  {
   "property": "C95",
   "status": "proved",
   "theorems": [
    "C95_honest_batch_is_accepted"
   ],
   "note": ""
  },
  {
   "property": "C96",
   "status": "proved",
   "theorems": [
    "C96_nodes_answer_the_same"
   ],
   "note": ""
  },
  {
   "property": "C97",
   "status": "proved",
   "theorems": [
    "C97_answer_panics_exactly_on_excess"
   ],
   "note": ""
  },
  {
   "property": "C68",
   "status": "partial",
   "theorems": [
    "C68_no_crash",
    "C68_no_messages_refuted"
   ],
   "note": "the claim is false of the code for a request without messages (refuted); with at least one message no step panics (C68_no_crash)"
  },
  {
   "property": "C98",
   "status": "proved",
   "theorems": [
    "C98_received_signature_wins",
    "C98_abandoned_only_for_a_signature",
    "C98_signals_reach_the_other_goroutine"
   ],
   "note": ""
  },
  {
   "property": "C99",
   "status": "proved",
   "theorems": [
    "C99_answers",
    "C99_keysign_returns",
    "C99_answers_the_request"
   ],
   "note": ""
  },
  {
   "property": "C100",
   "status": "proved",
   "theorems": [
    "C100_errors_come_from_the_checks"
   ],
   "note": ""
  },
  {
   "property": "C101",
   "status": "proved",
   "theorems": [
    "C101_broadcasts",
    "C101_signatures_come_from_the_ceremony"
   ],
   "note": ""
  },
  {
   "property": "C102",
   "status": "proved",
   "theorems": [
    "C102_join_failure_blame"
   ],
   "note": ""
  },
  {
   "property": "C103",
   "status": "proved",
   "theorems": [
    "C103_signs_only_as_member",
    "C103_inactive_only_as_outsider"
   ],
   "note": ""
  },
  {
   "property": "C104",
   "status": "proved",
   "theorems": [
    "C104_cut_save_is_an_error"
   ],
   "note": ""
  },
  {
   "property": "C105",
   "status": "partial",
   "theorems": [
    "C105_cut_book",
    "C105_only_saved_addresses_refuted",
    "C105_cut_book_is_an_error_refuted"
   ],
   "note": "the claim is false of the code: a book cut between two lines is read as a shorter one, and one cut within a line may be read with an address nobody saved (refuted); C105_cut_book says exactly what is read"
  },
  {
   "property": "C106",
   "status": "partial",
   "theorems": [
    "C106_what_is_saved",
    "C106_loopback_dropped_refuted"
   ],
   "note": "the claim is false of the code: refuted with a loopback address that is saved and another address that is dropped. C106_what_is_saved says exactly which addresses are saved."
  },
  {
   "property": "C107",
   "status": "proved",
   "theorems": [
    "C107_time_bound",
    "C107_silence",
    "C107_always_ends",
    "C107_done",
    "C107_endings"
   ],
   "note": ""
  },
  {
   "property": "C108",
   "status": "partial",
   "theorems": [
    "C108_done_means_all_sent_refuted",
    "C108_in_order",
    "C108_sent_when_time_passes",
    "C108_after_the_end"
   ],
   "note": "the claim is false of the code: refuted with a run whose message stays in the channel for ever. C108_in_order, C108_sent_when_time_passes and C108_after_the_end say what is sent."
  },
  {
   "property": "C109",
   "status": "proved",
   "theorems": [
    "C109_when_keygen_succeeds"
   ],
   "note": ""
  },
  {
   "property": "C110",
   "status": "proved",
   "theorems": [
    "C110_keygen_errors"
   ],
   "note": ""
  },
  {
   "property": "C111",
   "status": "proved",
   "theorems": [
    "C111_blame_when_no_party"
   ],
   "note": ""
  },
  {
   "property": "C112",
   "status": "partial",
   "theorems": [
    "C112_only_absent_blamed_refuted"
   ],
   "note": "the claim is false of the code: refuted with a run; what holds is C111"
  },
  {
   "property": "C113",
   "status": "proved",
   "theorems": [
    "C113_long_key_input",
    "C113_raw_bytes"
   ],
   "note": ""
  },
  {
   "property": "C114",
   "status": "proved",
   "theorems": [
    "C114_keygen_answer",
    "C114_keysign_answer"
   ],
   "note": ""
  },
  {
   "property": "C115",
   "status": "partial",
   "theorems": [
    "C115_only_requests_reach_the_server_refuted",
    "C115_fields_must_be_given_refuted"
   ],
   "note": "the claim is false of the code: refuted with bodies `{}]` and `{}`"
  },
  {
   "property": "C116",
   "status": "proved",
   "theorems": [
    "C116_request_is_text",
    "C116_keygen_request",
    "C116_keysign_request"
   ],
   "note": ""
  },
  {
   "property": "C117",
   "status": "proved",
   "theorems": [
    "C117_keysign_status",
    "C117_keygen_status",
    "C117_other_requests"
   ],
   "note": ""
  },
  {
   "property": "C118",
   "status": "proved",
   "theorems": [
    "C118_only_the_first_three_files",
    "C118_when_it_crashes"
   ],
   "note": ""
  },
  {
   "property": "C119",
   "status": "proved",
   "theorems": [
    "C119_fewer_shares_say_nothing"
   ],
   "note": ""
  },
  {
   "property": "C120",
   "status": "partial",
   "theorems": [
    "C120_key_of_the_group_refuted"
   ],
   "note": "Refuted: shares of two keygens give a key that is neither's."
  },
  {
   "property": "C121",
   "status": "partial",
   "theorems": [
    "C121_announced_is_written_refuted"
   ],
   "note": "Refuted: the message is printed though the file could not be opened."
  },
  {
   "property": "C122",
   "status": "partial",
   "theorems": [
    "C122_written_file_opens_refuted"
   ],
   "note": "Refuted: when no identifier can be drawn, the file holds the text null. C61_exported_file_opens proves it when the random source works."
  },
  {
   "property": "C123",
   "status": "proved",
   "theorems": [
    "C123_command_line"
   ],
   "note": ""
  },
  {
   "property": "C124",
   "status": "proved",
   "theorems": [
    "C124_keygen_id_injective",
    "C124_keysign_id_injective"
   ],
   "note": ""
  },
  {
   "property": "C125",
   "status": "proved",
   "theorems": [
    "C125_leaderless_join_is_forgotten"
   ],
   "note": ""
  },
  {
   "property": "C126",
   "status": "proved",
   "theorems": [
    "C126_keygen_timeout_crash_cause"
   ],
   "note": ""
  },
  {
   "property": "C127",
   "status": "proved",
   "theorems": [
    "C127_peer_to_key",
    "C127_every_point",
    "C127_lists"
   ],
   "note": ""
  },
  {
   "property": "C128",
   "status": "proved",
   "theorems": [
    "C128_same_peer_same_key"
   ],
   "note": ""
  },
  {
   "property": "C129",
   "status": "partial",
   "theorems": [
    "C129_texts_differ_peers_differ_refuted"
   ],
   "note": "Refuted: the same key in capital letters is accepted and has the same peer. C128 is what holds: texts with the same peer differ only in the case of their letters."
  },
  {
   "property": "C130",
   "status": "proved",
   "theorems": [
    "C130_exactly_points",
    "C130_never_false"
   ],
   "note": ""
  },
  {
   "property": "C131",
   "status": "proved",
   "theorems": [
    "C131_mistyped_keys_refused"
   ],
   "note": ""
  },
  {
   "property": "C132",
   "status": "proved",
   "theorems": [
    "C132_key_is_a_file_name",
    "C132_state_laws"
   ],
   "note": ""
  },
  {
   "property": "C133",
   "status": "proved",
   "theorems": [
    "C133_parties_stand_for_participants"
   ],
   "note": ""
  },
  {
   "property": "C134",
   "status": "partial",
   "theorems": [
    "C134_state_of_every_text_refuted"
   ],
   "note": "Refuted: the file is named after the text, so the text in capital letters finds nothing."
  },
  {
   "property": "C135",
   "status": "proved",
   "theorems": [
    "C135_notification_round_trip",
    "C135_signature_round_trip",
    "C135_missing_signature",
    "C135_injective"
   ],
   "note": ""
  },
  {
   "property": "C136",
   "status": "proved",
   "theorems": [
    "C136_leaderless_request",
    "C136_request_to_leader",
    "C136_response",
    "C136_response_targets"
   ],
   "note": ""
  },
  {
   "property": "C137",
   "status": "proved",
   "theorems": [
    "C137_only_text_is_sent",
    "C137_only_text_joins",
    "C137_only_text_is_read",
    "C137_new_fields_are_ignored"
   ],
   "note": ""
  },
  {
   "property": "C138",
   "status": "proved",
   "theorems": [
    "C138_party_agreement",
    "C138_party_formed"
   ],
   "note": ""
  },
  {
   "property": "C139",
   "status": "proved",
   "theorems": [
    "C139_share_received",
    "C139_confirmation_received",
    "C139_task_done_received",
    "C139_control_received",
    "C139_bulk_read_back"
   ],
   "note": ""
  },
  {
   "property": "C140",
   "status": "proved",
   "theorems": [
    "C140_signed_bytes",
    "C140_no_replay"
   ],
   "note": ""
  },
  {
   "property": "C141",
   "status": "proved",
   "theorems": [
    "C141_delivered",
    "C141_unicast_applied",
    "C141_broadcast_applied"
   ],
   "note": ""
  },
  {
   "property": "C142",
   "status": "proved",
   "theorems": [
    "C142_addressed_only",
    "C142_at_most_once"
   ],
   "note": ""
  },
  {
   "property": "C143",
   "status": "proved",
   "theorems": [
    "C143_others_served"
   ],
   "note": ""
  },
  {
   "property": "C144",
   "status": "proved",
   "theorems": [
    "C144_stop_waits",
    "C144_stop_returns",
    "C144_only_second_stop_crashes"
   ],
   "note": ""
  },
  {
   "property": "C145",
   "status": "partial",
   "theorems": [
    "C145_stop_twice_refuted"
   ],
   "note": "Refuted: a second call of Stop always panics. C144 is what holds."
  },
  {
   "property": "C146",
   "status": "partial",
   "theorems": [
    "C146_accepted_lost_refuted",
    "C146_sender_blocked_refuted"
   ],
   "note": "Refuted: a pending message is dropped by Stop, and a sender waits for ever once the queue is full. C143 holds while the node runs."
  },
  {
   "property": "C147",
   "status": "partial",
   "theorems": [
    "C147_order_refuted"
   ],
   "note": "Refuted: two messages to one peer can be written in either order."
  },
  {
   "property": "C148",
   "status": "proved",
   "theorems": [
    "C148_streams_recorded",
    "C148_release_resets"
   ],
   "note": ""
  },
  {
   "property": "C149",
   "status": "partial",
   "theorems": [
    "C149_stream_left_refuted"
   ],
   "note": "Refuted: a sender that ends after the release leaves a stream that is never reset. C148 is what holds."
  },
  {
   "property": "C150",
   "status": "proved",
   "theorems": [
    "C150_pool_key_names_the_point",
    "C150_only_the_curve",
    "C150_different_keys_different_texts",
    "C150_answer_is_the_saved_key"
   ],
   "note": ""
  },
  {
   "property": "C151",
   "status": "proved",
   "theorems": [
    "C151_peers_of_a_ceremony",
    "C151_complete_or_error",
    "C151_empty_map_panics"
   ],
   "note": ""
  },
  {
   "property": "C152",
   "status": "proved",
   "theorems": [
    "C152_started_node_reached_the_network",
    "C152_when_a_node_starts"
   ],
   "note": ""
  },
  {
   "property": "C153",
   "status": "partial",
   "theorems": [
    "C153_one_reachable_peer_suffices_refuted"
   ],
   "note": "Refuted: one address that names no peer keeps the node from starting, whoever else can be reached. C152 is what holds when every address can be read."
  },
  {
   "property": "C154",
   "status": "proved",
   "theorems": [
    "C154_valid_parameters"
   ],
   "note": ""
  },
  {
   "property": "C155",
   "status": "partial",
   "theorems": [
    "C155_failed_start_leaves_nothing_refuted"
   ],
   "note": "Refuted: after a start that failed for want of bootstrap peers the host is still open and the caller has no handle to close it."
  },
  {
   "property": "C156",
   "status": "partial",
   "theorems": [
    "C156_first_node_does_not_panic",
    "C156_two_nodes_in_a_process_refuted"
   ],
   "note": "Refuted for the second monitored node of a process, which panics; proved that the first never does."
  },
  {
   "property": "C157",
   "status": "proved",
   "theorems": [
    "C157_key_and_peer_agree",
    "C157_addresses"
   ],
   "note": ""
  },
  {
   "property": "C158",
   "status": "proved",
   "theorems": [
    "C158_settings",
    "C158_stray_word_ends_the_settings"
   ],
   "note": ""
  },
  {
   "property": "C159",
   "status": "partial",
   "theorems": [
    "C159_no_goroutine_left_refuted",
    "C159_only_refused_messages_leak",
    "C159_they_never_end"
   ],
   "note": "Refuted: every refused message leaves NumCPU goroutines waiting for ever on a channel nobody closes. Proved that no other message leaves any."
  },
  {
   "property": "C160",
   "status": "proved",
   "theorems": [
    "C160_every_share_once",
    "C160_no_share_twice",
    "C160_queueing_never_waits",
    "C160_work_is_bounded",
    "C160_no_deadlock"
   ],
   "note": ""
  },
  {
   "property": "C161",
   "status": "partial",
   "theorems": [
    "C161_memory_per_peer_refuted",
    "C161_entries_are_asked_for",
    "C161_an_entry_per_message"
   ],
   "note": "Refuted: one peer can make the cache of unconfirmed messages hold any number of entries, and none of them is removed before the ceremony ends. C161_entries_are_asked_for and C161_an_entry_per_message bound the cache by the confirmations and signed broadcasts received."
  },
  {
   "property": "C162",
   "status": "proved",
   "theorems": [
    "C162_agreed_broadcast_applied_in_any_traffic"
   ],
   "note": ""
  },
  {
   "property": "C163",
   "status": "proved",
   "theorems": [
    "C163_one_at_a_time",
    "C163_nothing_else_waits"
   ],
   "note": ""
  },
  {
   "property": "C164",
   "status": "proved",
   "theorems": [
    "C164_sending_panics_exactly"
   ],
   "note": ""
  },
  {
   "property": "C165",
   "status": "proved",
   "theorems": [
    "C165_frame_without_a_field",
    "C165_share_without_a_field",
    "C165_others_without_a_field",
    "C165_type_out_of_range",
    "C165_request_without_a_field"
   ],
   "note": ""
  },
  {
   "property": "C166",
   "status": "proved",
   "theorems": [
    "C166_written_in_the_folder",
    "C166_nothing_else_changes"
   ],
   "note": ""
  },
  {
   "property": "C167",
   "status": "proved",
   "theorems": [
    "C167_every_share_arrives_once"
   ],
   "note": ""
  },
  {
   "property": "C168",
   "status": "proved",
   "theorems": [
    "C168_nobody_blamed"
   ],
   "note": ""
  },
  {
   "property": "C169",
   "status": "proved",
   "theorems": [
    "C169_complete_when_all_are_done"
   ],
   "note": ""
  },
  {
   "property": "C170",
   "status": "proved",
   "theorems": [
    "C170_traffic_ends"
   ],
   "note": ""
  },
  {
   "property": "C171",
   "status": "proved",
   "theorems": [
    "C171_accepted_iff",
    "C171_refusal_answer"
   ],
   "note": ""
  },
  {
   "property": "C172",
   "status": "proved",
   "theorems": [
    "C172_party_is_large_enough"
   ],
   "note": ""
  },
  {
   "property": "C173",
   "status": "proved",
   "theorems": [
    "C173_shares_reach_the_local_parties",
    "C173_nothing_stays_under_way"
   ],
   "note": ""
  },
  {
   "property": "C174",
   "status": "proved",
   "theorems": [
    "C174_only_what_was_emitted"
   ],
   "note": ""
  },
  {
   "property": "C175",
   "status": "proved",
   "theorems": [
    "C175_the_late_are_blamed"
   ],
   "note": ""
  },
  {
   "property": "C176",
   "status": "proved",
   "theorems": [
    "C176_else_missing_shares_decide"
   ],
   "note": ""
  },
  {
   "property": "C177",
   "status": "proved",
   "theorems": [
    "C177_role",
    "C177_one_leader"
   ],
   "note": ""
  },
  {
   "property": "C178",
   "status": "proved",
   "theorems": [
    "C178_no_party_after_a_signature",
    "C178_signature_only_when_told",
    "C178_models_agree"
   ],
   "note": ""
  },
  {
   "property": "C179",
   "status": "proved",
   "theorems": [
    "C179_signatures_come_from_some_node"
   ],
   "note": ""
  },
  {
   "property": "C180",
   "status": "proved",
   "theorems": [
    "C180_right_answers",
    "C180_never_stuck",
    "C180_always_finishes",
    "C180_same_answer",
    "C180_readable_on_the_wire"
   ],
   "note": ""
  },
  {
   "property": "C181",
   "status": "proved",
   "theorems": [
    "C181_decodes_exactly",
    "C181_answer_stands_for_the_same"
   ],
   "note": ""
  },
  {
   "property": "C182",
   "status": "proved",
   "theorems": [
    "C182_canonical_same_id",
    "C182_spelling_changes_the_id"
   ],
   "note": ""
  },
  {
   "property": "C183",
   "status": "proved",
   "theorems": [
    "C183_culprits_are_blamed",
    "C183_unicast_flag",
    "C183_unknown_culprit",
    "C183_culprit_is_ignored"
   ],
   "note": ""
  },
  {
   "property": "C184",
   "status": "partial",
   "theorems": [
    "C184_no_evidence_without_broadcast",
    "C184_bad_share_is_shown_refuted"
   ],
   "note": "Refuted: C184_bad_share_is_shown_refuted; C184_no_evidence_without_broadcast states when entries are empty."
  },
  {
   "property": "C185",
   "status": "partial",
   "theorems": [
    "C185_is_broadcast_field_refuted"
   ],
   "note": "Refuted: C185_is_broadcast_field_refuted. C183_unicast_flag says exactly when the field is true."
  },
  {
   "property": "C186",
   "status": "proved",
   "theorems": [
    "C186_one_value",
    "C186_messages_are_json",
    "C186_depth_is_limited",
    "C186_topics_are_json",
    "C186_states_are_json"
   ],
   "note": ""
  },
  {
   "property": "C187",
   "status": "partial",
   "theorems": [
    "C187_any_state_survives_refuted",
    "C187_http_states_survive"
   ],
   "note": "the claim is false of the code for strings that are not UTF-8 (refuted with a witness); C187_http_states_survive shows it for the key generations requested over HTTP"
  },
  {
   "property": "C188",
   "status": "proved",
   "theorems": [
    "C188_counted_shares"
   ],
   "note": ""
  },
  {
   "property": "C189",
   "status": "proved",
   "theorems": [
    "C189_payloads_are_json",
    "C189_lists_are_json"
   ],
   "note": ""
  },
  {
   "property": "C190",
   "status": "proved",
   "theorems": [
    "C190_ten_seconds",
    "C190_no_more_requests"
   ],
   "note": ""
  },
  {
   "property": "C191",
   "status": "proved",
   "theorems": [
    "C191_report"
   ],
   "note": ""
  },
  {
   "property": "C192",
   "status": "proved",
   "theorems": [
    "C192_program_ends"
   ],
   "note": ""
  },
  {
   "property": "C193",
   "status": "partial",
   "theorems": [
    "C193_cannot_listen_refuted"
   ],
   "note": "Refuted: C193_cannot_listen_refuted shows that the program then waits for a signal."
  },
  {
   "property": "C194",
   "status": "partial",
   "theorems": [
    "C194_cut_off_refuted"
   ],
   "note": "Refuted: C194_cut_off_refuted; C190 and C191 state what does hold."
  },
  {
   "property": "C195",
   "status": "proved",
   "theorems": [
    "C195_messages_say",
    "C195_requests_say",
    "C195_structures_say"
   ],
   "note": ""
  },
  {
   "property": "C196",
   "status": "proved",
   "theorems": [
    "C196_key_bytes",
    "C196_peer_of_text"
   ],
   "note": ""
  },
  {
   "property": "C197",
   "status": "proved",
   "theorems": [
    "C197_nothing_overwritten",
    "C197_folder_refused"
   ],
   "note": ""
  },
  {
   "property": "C198",
   "status": "proved",
   "theorems": [
    "C198_shares_written"
   ],
   "note": ""
  },
  {
   "property": "C199",
   "status": "proved",
   "theorems": [
    "C199_given",
    "C199_panics"
   ],
   "note": ""
  },
  {
   "property": "C200",
   "status": "partial",
   "theorems": [
    "C200_table",
    "C200_panics",
    "C200_small_quorum_refused_refuted"
   ],
   "note": "C200_table and C200_panics are proved; the last sentence is refuted by C200_small_quorum_refused_refuted: a start quorum of 0 is not refused."
  },
  {
   "property": "C201",
   "status": "proved",
   "theorems": [
    "C201_first_files",
    "C201_own_data_iff",
    "C201_generated"
   ],
   "note": ""
  },
  {
   "property": "C202",
   "status": "proved",
   "theorems": [
    "C202_no_deadlock",
    "C202_all_end"
   ],
   "note": ""
  },
  {
   "property": "C203",
   "status": "proved",
   "theorems": [
    "C203_no_race"
   ],
   "note": ""
  },
  {
   "property": "C204",
   "status": "partial",
   "theorems": [
    "C204_no_race_anywhere_refuted"
   ],
   "note": "Refuted by C204_no_race_anywhere_refuted: the fail reason of a blame is read at a timeout while a share is refused; the leader of a joined party is written without the lock while a response is processed; the policy check appends outside the lock to the array behind the accepted shares, and ReleaseStream to the array behind the recorded streams. C203 is the positive part."
  },
  {
   "property": "C205",
   "status": "partial",
   "theorems": [
    "C205_found_is_reset",
    "C205_any_history_refuted",
    "C205_unknown_is_reset"
   ],
   "note": "C205_found_is_reset is proved for histories in which no stream is added under an id while a release of that id is in progress; C205_any_history_refuted is a history without this in which two releases end and a stream recorded before the second is neither reset nor recorded any more, because the first wrote over it in the shared array."
  },
  {
   "property": "C206",
   "status": "proved",
   "theorems": [
    "C206_no_stream_lost"
   ],
   "note": ""
  },
  {
   "property": "C207",
   "status": "proved",
   "theorems": [
    "C207_after_a_timeout",
    "C207_a_step_and_the_blame",
    "C207_blamed_with_a_reason",
    "C207_the_blamed_stay"
   ],
   "note": ""
  }
 ]
}