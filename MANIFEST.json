{
 "claims": [
  {
   "property": "C01",
   "status": "proved",
   "theorems": [
    "C01_call",
    "C01_result",
    "C01_error",
    "C01_any_call",
    "C01_any_error",
    "C01_nil_result_refuted"
   ],
   "note": ""
  },
  {
   "property": "C02",
   "status": "proved",
   "theorems": [
    "C02_read_any_text",
    "C02_no_crash_refuted"
   ],
   "note": ""
  },
  {
   "property": "C03",
   "status": "proved",
   "theorems": [
    "C03_unknown_type"
   ],
   "note": ""
  },
  {
   "property": "C04",
   "status": "proved",
   "theorems": [
    "C04_normalise"
   ],
   "note": ""
  },
  {
   "property": "C05",
   "status": "proved",
   "theorems": [
    "C05_call_shape",
    "C05_result_shape",
    "C05_error_shape",
    "C05_valid_untouched",
    "C05_request_strings",
    "C05_response_strings"
   ],
   "note": ""
  },
  {
   "property": "C06",
   "status": "proved",
   "theorems": [
    "C06_request_ints",
    "C06_response_ints",
    "C06_beyond_refuted"
   ],
   "note": ""
  },
  {
   "property": "C07",
   "status": "proved",
   "theorems": [
    "C07_request_floats",
    "C07_response_floats",
    "C07_nonfinite_fails"
   ],
   "note": ""
  },
  {
   "property": "C08",
   "status": "proved",
   "theorems": [
    "C08_request_times",
    "C08_response_times",
    "C08_trunc",
    "C08_exact_refuted"
   ],
   "note": ""
  },
  {
   "property": "C09",
   "status": "proved",
   "theorems": [
    "C09_request",
    "C09_response",
    "C09_only_local_list",
    "C09_norm_id"
   ],
   "note": ""
  },
  {
   "property": "C10",
   "status": "proved",
   "theorems": [
    "C10_total",
    "C10_no_crash",
    "C10_keys"
   ],
   "note": ""
  },
  {
   "property": "C11",
   "status": "proved",
   "theorems": [
    "C11_unknown_rejected",
    "C11_schemas_closed",
    "C11_unknown_ignored",
    "C11_lenient_types"
   ],
   "note": ""
  },
  {
   "property": "C12",
   "status": "proved",
   "theorems": [
    "C12_accepted_shape",
    "C12_required",
    "C12_reflective_refuted",
    "C12_null_refuted"
   ],
   "note": ""
  },
  {
   "property": "C13",
   "status": "proved",
   "theorems": [
    "C13_any_order"
   ],
   "note": ""
  },
  {
   "property": "C14",
   "status": "proved",
   "theorems": [
    "C14_request",
    "C14_lost",
    "C14_no_crash_refuted",
    "C14_only_crash"
   ],
   "note": ""
  },
  {
   "property": "C15",
   "status": "proved",
   "theorems": [
    "C15_fitting_accepted",
    "C15_accepted_shape",
    "C15_every_type",
    "C15_kinds",
    "C15_named"
   ],
   "note": ""
  },
  {
   "property": "C16",
   "status": "proved",
   "theorems": [
    "C16_sent_shape",
    "C16_valid_refuted"
   ],
   "note": ""
  },
  {
   "property": "C17",
   "status": "proved",
   "theorems": [
    "C17_action_names",
    "C17_action_found",
    "C17_action_unknown",
    "C17_datatransfer_refuted",
    "C17_requests_have_actions"
   ],
   "note": ""
  },
  {
   "property": "C18",
   "status": "proved",
   "theorems": [
    "C18_response_types",
    "C18_directions"
   ],
   "note": ""
  },
  {
   "property": "C19",
   "status": "proved",
   "theorems": [
    "C19_response_type",
    "C19_direction"
   ],
   "note": ""
  },
  {
   "property": "C20",
   "status": "proved",
   "theorems": [
    "C20_correlated",
    "C20_request_was_written",
    "C20_answer_delivered"
   ],
   "note": ""
  },
  {
   "property": "C21",
   "status": "proved",
   "theorems": [
    "C21_call_returns_once",
    "C21_completions"
   ],
   "note": ""
  },
  {
   "property": "C22",
   "status": "proved",
   "theorems": [
    "C22_unsolicited",
    "C22_any_schedule"
   ],
   "note": ""
  },
  {
   "property": "C23",
   "status": "proved",
   "theorems": [
    "C23_in_order",
    "C23_served"
   ],
   "note": ""
  },
  {
   "property": "C24",
   "status": "proved",
   "theorems": [
    "C24_one_reader"
   ],
   "note": ""
  },
  {
   "property": "C25",
   "status": "proved",
   "theorems": [
    "C25_one_reply_each",
    "C25_reply_content",
    "C25_not_encoded"
   ],
   "note": ""
  },
  {
   "property": "C26",
   "status": "proved",
   "theorems": [
    "C26_unsupported",
    "C26_data_transfer",
    "C26_replies",
    "C26_not_handled",
    "C26_connection_stays"
   ],
   "note": ""
  },
  {
   "property": "C27",
   "status": "proved",
   "theorems": [
    "C27_malformed",
    "C27_only_two_codes"
   ],
   "note": ""
  },
  {
   "property": "C28",
   "status": "proved",
   "theorems": [
    "C28_bad_frame"
   ],
   "note": ""
  },
  {
   "property": "C29",
   "status": "proved",
   "theorems": [
    "C29_no_crash",
    "C29_data_transfer_crash"
   ],
   "note": ""
  },
  {
   "property": "C30",
   "status": "proved",
   "theorems": [
    "C30_late_response",
    "C30_no_answer_after"
   ],
   "note": ""
  },
  {
   "property": "C31",
   "status": "proved",
   "theorems": [
    "C31_handler_cannot_send",
    "C31_no_read_while_handling"
   ],
   "note": ""
  },
  {
   "property": "C32",
   "status": "proved",
   "theorems": [
    "C32_whole_messages",
    "C32_each_is_a_frame",
    "C32_who_wrote",
    "C32_sender_text"
   ],
   "note": ""
  },
  {
   "property": "C33",
   "status": "proved",
   "theorems": [
    "C33_after_return",
    "C33_while_waiting",
    "C33_only_sent",
    "C33_bounded_table_refuted"
   ],
   "note": ""
  },
  {
   "property": "C34",
   "status": "proved",
   "theorems": [
    "C34_goroutines",
    "C34_after_the_loop",
    "C34_never_end"
   ],
   "note": ""
  },
  {
   "property": "C35",
   "status": "proved",
   "theorems": [
    "C35_write_race_refuted",
    "C35_needs_two_callers",
    "C35_race_needs_a_caller",
    "C35_single_caller_race_refuted"
   ],
   "note": ""
  },
  {
   "property": "C36",
   "status": "proved",
   "theorems": [
    "C36_signalled_why",
    "C36_stays_signalled",
    "C36_after_read_error"
   ],
   "note": ""
  },
  {
   "property": "C37",
   "status": "proved",
   "theorems": [
    "C37_registered",
    "C37_cleaned_were_registered"
   ],
   "note": ""
  },
  {
   "property": "C38",
   "status": "proved",
   "theorems": [
    "C38_wait_connect",
    "C38_never_twice",
    "C38_own_channel"
   ],
   "note": ""
  },
  {
   "property": "C39",
   "status": "proved",
   "theorems": [
    "C39_v16",
    "C39_v15",
    "C39_other",
    "C39_dead_service_refuted"
   ],
   "note": ""
  },
  {
   "property": "C40",
   "status": "proved",
   "theorems": [
    "C40_service",
    "C40_wait_disconnect",
    "C40_wait_connect"
   ],
   "note": ""
  },
  {
   "property": "C41",
   "status": "proved",
   "theorems": [
    "C41_life",
    "C41_not_before_close",
    "C41_not_outnumbered",
    "C41_calls",
    "C41_function",
    "C41_function_set",
    "C41_order_refuted",
    "C41_failed_handshake"
   ],
   "note": ""
  },
  {
   "property": "C42",
   "status": "proved",
   "theorems": [
    "C42_wait_disconnect",
    "C42_fires",
    "C42_closed_before_cleanup",
    "C42_connections"
   ],
   "note": ""
  },
  {
   "property": "C43",
   "status": "proved",
   "theorems": [
    "C43_identity",
    "C43_path_prefix",
    "C43_told_apart",
    "C43_any_identity_refuted"
   ],
   "note": ""
  },
  {
   "property": "C44",
   "status": "proved",
   "theorems": [
    "C44_handled",
    "C44_answered",
    "C44_every_call_answered_refuted",
    "C44_never_nil_refuted"
   ],
   "note": ""
  },
  {
   "property": "C45",
   "status": "proved",
   "theorems": [
    "C45_dispatch",
    "C45_always_accepted",
    "C45_page",
    "C45_identity"
   ],
   "note": ""
  },
  {
   "property": "C46",
   "status": "proved",
   "theorems": [
    "C46_one_connection",
    "C46_in_turn",
    "C46_dialled_first",
    "C46_lost_only_when_closed",
    "C46_wait_connect",
    "C46_never_twice",
    "C46_keeps_dialling",
    "C46_send_newest",
    "C46_wait_disconnect_newest",
    "C46_each_connection",
    "C46_send_on_closed_refuted"
   ],
   "note": ""
  },
  {
   "property": "C47",
   "status": "proved",
   "theorems": [
    "C47_can_stop",
    "C47_stop_only_cancelled",
    "C47_stopped_for_good",
    "C47_redialling_does_not_stop",
    "C47_cancel_stops_refuted"
   ],
   "note": ""
  },
  {
   "property": "C48",
   "status": "proved",
   "theorems": [
    "C48_json",
    "C48_soap",
    "C48_usable",
    "C48_unknown_transport_refuted",
    "C48_new_outcome"
   ],
   "note": ""
  },
  {
   "property": "C49",
   "status": "proved",
   "theorems": [
    "C49_offers_own",
    "C49_not_negotiated_refuted",
    "C49_mismatch",
    "C49_v15_disagrees"
   ],
   "note": ""
  },
  {
   "property": "C50",
   "status": "proved",
   "theorems": [
    "C50_accepted",
    "C50_last_wins",
    "C50_fault",
    "C50_fault_text",
    "C50_typed",
    "C50_rejected"
   ],
   "note": ""
  },
  {
   "property": "C51",
   "status": "proved",
   "theorems": [
    "C51_wrong_namespace",
    "C51_no_data_transfer",
    "C51_not_received"
   ],
   "note": ""
  },
  {
   "property": "C52",
   "status": "proved",
   "theorems": [
    "C52_round_trip",
    "C52_element",
    "C52_unchanged",
    "C52_stop_answer_refuted"
   ],
   "note": ""
  },
  {
   "property": "C53",
   "status": "proved",
   "theorems": [
    "C53_called_with",
    "C53_at_most_once",
    "C53_reached",
    "C53_panic"
   ],
   "note": ""
  },
  {
   "property": "C54",
   "status": "proved",
   "theorems": [
    "C54_fault_written",
    "C54_always_written",
    "C54_client_error",
    "C54_client_text",
    "C54_text_lost_refuted"
   ],
   "note": ""
  },
  {
   "property": "C55",
   "status": "proved",
   "theorems": [
    "C55_result",
    "C55_panic"
   ],
   "note": ""
  },
  {
   "property": "C56",
   "status": "proved",
   "theorems": [
    "C56_not_reached",
    "C56_undecodable",
    "C56_answer"
   ],
   "note": ""
  },
  {
   "property": "C57",
   "status": "proved",
   "theorems": [
    "C57_response",
    "C57_same_values",
    "C57_error",
    "C57_undecodable",
    "C57_agree",
    "C57_nil_never_answers"
   ],
   "note": ""
  },
  {
   "property": "C58",
   "status": "proved",
   "theorems": [
    "C58_sent",
    "C58_once",
    "C58_fifo",
    "C58_sequential"
   ],
   "note": ""
  },
  {
   "property": "C59",
   "status": "proved",
   "theorems": [
    "C59_writers_exclusive",
    "C59_api_waits",
    "C59_api_otherwise",
    "C59_map_race",
    "C59_page_race"
   ],
   "note": ""
  },
  {
   "property": "C60",
   "status": "proved",
   "theorems": [
    "C60_frozen",
    "C60_still_served"
   ],
   "note": ""
  },
  {
   "property": "C61",
   "status": "proved",
   "theorems": [
    "C61_cleanup",
    "C61_lock_free"
   ],
   "note": ""
  },
  {
   "property": "C62",
   "status": "proved",
   "theorems": [
    "C62_cancel_does_not_stop_serving",
    "C62_cancelled_and_serving",
    "C62_leak",
    "C62_error_only_if_ended",
    "C62_ended_for_good"
   ],
   "note": ""
  },
  {
   "property": "C63",
   "status": "proved",
   "theorems": [
    "C63_handler_called",
    "C63_answered",
    "C63_response",
    "C63_error",
    "C63_nothing_panics",
    "C63_no_panic_at_server"
   ],
   "note": ""
  },
  {
   "property": "C64",
   "status": "proved",
   "theorems": [
    "C64_completes"
   ],
   "note": ""
  },
  {
   "property": "C65",
   "status": "proved",
   "theorems": [
    "C65_written_is_sent",
    "C65_read_is_sent"
   ],
   "note": ""
  },
  {
   "property": "C66",
   "status": "proved",
   "theorems": [
    "C66_envelope",
    "C66_action_exact",
    "C66_posted",
    "C66_same_whatever_answered",
    "C66_identity_namespace_refuted"
   ],
   "note": ""
  },
  {
   "property": "C67",
   "status": "proved",
   "theorems": [
    "C67_request_text",
    "C67_reply_text",
    "C67_strings"
   ],
   "note": ""
  },
  {
   "property": "C68",
   "status": "proved",
   "theorems": [
    "C68_covered",
    "C68_read",
    "C68_any_order",
    "C68_agrees",
    "C68_delivered",
    "C68_local_list_refuted",
    "C68_readings_refuted",
    "C68_time_rejected"
   ],
   "note": ""
  },
  {
   "property": "C69",
   "status": "proved",
   "theorems": [
    "C69_sent",
    "C69_present",
    "C69_transfer_refuted",
    "C69_order_refuted",
    "C69_large_refuted"
   ],
   "note": ""
  },
  {
   "property": "C70",
   "status": "proved",
   "theorems": [
    "C70_calendar",
    "C70_accepted_iff",
    "C70_rfc3339_accepted",
    "C70_only_rfc3339_refuted",
    "C70_written",
    "C70_written_beyond_refuted",
    "C70_request_times",
    "C70_response_times",
    "C70_soap_times"
   ],
   "note": ""
  },
  {
   "property": "C71",
   "status": "proved",
   "theorems": [
    "C71_response",
    "C71_error",
    "C71_handled"
   ],
   "note": ""
  },
  {
   "property": "C72",
   "status": "proved",
   "theorems": [
    "C72_response",
    "C72_handled",
    "C72_reads"
   ],
   "note": ""
  },
  {
   "property": "C73",
   "status": "proved",
   "theorems": [
    "C73_in_place",
    "C73_pairs",
    "C73_handshake",
    "C73_accepted",
    "C73_new_is_early_refuted",
    "C73_ghost_refuted",
    "C73_impostor_refuted"
   ],
   "note": ""
  },
  {
   "property": "C74",
   "status": "proved",
   "theorems": [
    "C74_reconnects",
    "C74_connects",
    "C74_calls",
    "C74_serves"
   ],
   "note": ""
  },
  {
   "property": "C75",
   "status": "proved",
   "theorems": [
    "C75_connection",
    "C75_cleaned_up",
    "C75_others",
    "C75_charge_point"
   ],
   "note": ""
  },
  {
   "property": "C76",
   "status": "proved",
   "theorems": [
    "C76_call_returns",
    "C76_lock_free",
    "C76_loop_returns"
   ],
   "note": ""
  },
  {
   "property": "C77",
   "status": "proved",
   "theorems": [
    "C77_cleaned_up"
   ],
   "note": ""
  },
  {
   "property": "C78",
   "status": "proved",
   "theorems": [
    "C78_stops",
    "C78_reconnects"
   ],
   "note": ""
  },
  {
   "property": "C79",
   "status": "proved",
   "theorems": [
    "C79_comes_to_rest",
    "C79_no_endless_schedule"
   ],
   "note": ""
  },
  {
   "property": "C80",
   "status": "proved",
   "theorems": [
    "C80_comes_to_rest",
    "C80_no_endless_schedule"
   ],
   "note": ""
  },
  {
   "property": "C81",
   "status": "proved",
   "theorems": [
    "C81_comes_to_rest",
    "C81_no_endless_schedule"
   ],
   "note": ""
  },
  {
   "property": "C82",
   "status": "proved",
   "theorems": [
    "C82_every_call_answered",
    "C82_no_endless_schedule"
   ],
   "note": ""
  },
  {
   "property": "C83",
   "status": "proved",
   "theorems": [
    "C83_answered_once",
    "C83_answers_a_request"
   ],
   "note": ""
  },
  {
   "property": "C84",
   "status": "proved",
   "theorems": [
    "C84_crash_is_home_made"
   ],
   "note": ""
  },
  {
   "property": "C85",
   "status": "proved",
   "theorems": [
    "C85_document",
    "C85_server",
    "C85_spelling",
    "C85_client"
   ],
   "note": ""
  },
  {
   "property": "C86",
   "status": "proved",
   "theorems": [
    "C86_request_cut",
    "C86_reply_cut"
   ],
   "note": ""
  },
  {
   "property": "C87",
   "status": "proved",
   "theorems": [
    "C87_request",
    "C87_reply",
    "C87_own_request_cut",
    "C87_own_reply_cut"
   ],
   "note": ""
  },
  {
   "property": "C88",
   "status": "proved",
   "theorems": [
    "C88_same",
    "C88_handler_called",
    "C88_response",
    "C88_error",
    "C88_disturbed"
   ],
   "note": ""
  },
  {
   "property": "C89",
   "status": "proved",
   "theorems": [
    "C89_prefix_taken_refuted",
    "C89_otherwise"
   ],
   "note": ""
  },
  {
   "property": "C90",
   "status": "proved",
   "theorems": [
    "C90_server",
    "C90_client",
    "C90_declaration_server",
    "C90_declaration_client"
   ],
   "note": ""
  },
  {
   "property": "C91",
   "status": "proved",
   "theorems": [
    "C91_signalled_between",
    "C91_can_leave",
    "C91_bounded_refuted"
   ],
   "note": ""
  },
  {
   "property": "C92",
   "status": "proved",
   "theorems": [
    "C92_run_panics",
    "C92_retry_refuted",
    "C92_first_serves",
    "C92_who_serves",
    "C92_one_serves",
    "C92_points",
    "C92_point_served",
    "C92_silent_refuted"
   ],
   "note": ""
  },
  {
   "property": "C93",
   "status": "proved",
   "theorems": [
    "C93_everything_settles",
    "C93_no_endless_schedule",
    "C93_all_connect"
   ],
   "note": ""
  },
  {
   "property": "C94",
   "status": "proved",
   "theorems": [
    "C94_grammar",
    "C94_unambiguous",
    "C94_received",
    "C94_read",
    "C94_json_as_is",
    "C94_spelling"
   ],
   "note": ""
  },
  {
   "property": "C95",
   "status": "proved",
   "theorems": [
    "C95_tight",
    "C95_call",
    "C95_result",
    "C95_error",
    "C95_no_control",
    "C95_verbatim"
   ],
   "note": ""
  },
  {
   "property": "C96",
   "status": "proved",
   "theorems": [
    "C96_decoded",
    "C96_request",
    "C96_response",
    "C96_fitting",
    "C96_field",
    "C96_exact_names",
    "C96_integers"
   ],
   "note": ""
  },
  {
   "property": "C97",
   "status": "proved",
   "theorems": [
    "C97_request",
    "C97_response",
    "C97_field",
    "C97_null"
   ],
   "note": ""
  },
  {
   "property": "C98",
   "status": "proved",
   "theorems": [
    "C98_element",
    "C98_certain",
    "C98_called",
    "C98_response",
    "C98_field"
   ],
   "note": ""
  },
  {
   "property": "C99",
   "status": "proved",
   "theorems": [
    "C99_denotes",
    "C99_nearest",
    "C99_refused",
    "C99_one",
    "C99_document",
    "C99_request",
    "C99_response",
    "C99_frame_refused"
   ],
   "note": ""
  },
  {
   "property": "C100",
   "status": "proved",
   "theorems": [
    "C100_json",
    "C100_soap",
    "C100_distinct",
    "C100_request",
    "C100_error",
    "C100_response",
    "C100_back"
   ],
   "note": ""
  },
  {
   "property": "C101",
   "status": "proved",
   "theorems": [
    "C101_certain",
    "C101_interval",
    "C101_result"
   ],
   "note": ""
  },
  {
   "property": "C102",
   "status": "proved",
   "theorems": [
    "C102_request_if",
    "C102_request",
    "C102_response",
    "C102_certain",
    "C102_refused",
    "C102_otherwise",
    "C102_no_response"
   ],
   "note": ""
  },
  {
   "property": "C103",
   "status": "proved",
   "theorems": [
    "C103_request",
    "C103_response",
    "C103_delivered",
    "C103_answered",
    "C103_certain",
    "C103_integers",
    "C103_integer",
    "C103_handled",
    "C103_returned",
    "C103_refused",
    "C103_point_handled",
    "C103_central_handled",
    "C103_central_returned",
    "C103_point_returned"
   ],
   "note": ""
  },
  {
   "property": "C104",
   "status": "proved",
   "theorems": [
    "C104_calm",
    "C104_dropped",
    "C104_reply",
    "C104_not_deflate_refuted",
    "C104_posted",
    "C104_headers_ignored",
    "C104_panic",
    "C104_served",
    "C104_once"
   ],
   "note": ""
  },
  {
   "property": "C105",
   "status": "proved",
   "theorems": [
    "C105_history",
    "C105_calls",
    "C105_panic_ends",
    "C105_holds_nobody_up",
    "C105_may_call",
    "C105_contained_refuted"
   ],
   "note": ""
  },
  {
   "property": "C106",
   "status": "proved",
   "theorems": [
    "C106_central",
    "C106_point",
    "C106_wire",
    "C106_one_at_a_time",
    "C106_cleaned_up",
    "C106_panic",
    "C106_stops"
   ],
   "note": ""
  },
  {
   "property": "C107",
   "status": "proved",
   "theorems": [
    "C107_comes_to_rest",
    "C107_calls_return",
    "C107_no_endless_schedule"
   ],
   "note": ""
  }
 ]
}