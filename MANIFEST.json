{
 "claims": [
  {
   "property": "C01",
   "status": "proved",
   "theorems": [
    "C01_make_take"
   ],
   "note": ""
  },
  {
   "property": "C02",
   "status": "proved",
   "theorems": [
    "C02_take_exact",
    "C02_take_only_frames"
   ],
   "note": ""
  },
  {
   "property": "C03",
   "status": "proved",
   "theorems": [
    "C03_take_messages",
    "C03_take_messages_total"
   ],
   "note": ""
  },
  {
   "property": "C04",
   "status": "proved",
   "theorems": [
    "C04_chunking"
   ],
   "note": ""
  },
  {
   "property": "C05",
   "status": "proved",
   "theorems": [
    "C05_reassembly",
    "C05_decomposition"
   ],
   "note": ""
  },
  {
   "property": "C06",
   "status": "proved",
   "theorems": [
    "C06_string_round_trip"
   ],
   "note": ""
  },
  {
   "property": "C07",
   "status": "proved",
   "theorems": [
    "C07_string_field"
   ],
   "note": ""
  },
  {
   "property": "C08",
   "status": "proved",
   "theorems": [
    "C08_time"
   ],
   "note": ""
  },
  {
   "property": "C09",
   "status": "proved",
   "theorems": [
    "C09_array",
    "C09_array_truncated",
    "C09_array_no_count"
   ],
   "note": ""
  },
  {
   "property": "C10",
   "status": "proved",
   "theorems": [
    "C10_field_reads"
   ],
   "note": ""
  },
  {
   "property": "C11",
   "status": "proved",
   "theorems": [
    "C11_only_matching_answer"
   ],
   "note": ""
  },
  {
   "property": "C12",
   "status": "proved",
   "theorems": [
    "C12_bounded_retries",
    "C12_all_attempts_used"
   ],
   "note": ""
  },
  {
   "property": "C13",
   "status": "proved",
   "theorems": [
    "C13_login_rejected"
   ],
   "note": ""
  },
  {
   "property": "C14",
   "status": "proved",
   "theorems": [
    "C14_last_failure",
    "C14_error_of_last",
    "C14_success_wins"
   ],
   "note": ""
  },
  {
   "property": "C15",
   "status": "proved",
   "theorems": [
    "C15_down_at_start",
    "C15_lost_between"
   ],
   "note": ""
  },
  {
   "property": "C16",
   "status": "partial",
   "theorems": [
    "C16_cancel_swallowed_refuted",
    "C16_cancel_in_pause_partial",
    "C16_no_result_means_cancelled_partial"
   ],
   "note": "Refuted as stated: C16_cancel_swallowed_refuted shows a cancellation while waiting for the reply is swallowed (None returned on a live connection). Proved: cancellation in a retry pause propagates; a result-less return means cancelled or closing."
  },
  {
   "property": "C17",
   "status": "proved",
   "theorems": [
    "C17_message_ids",
    "C17_id_on_wire"
   ],
   "note": ""
  },
  {
   "property": "C18",
   "status": "proved",
   "theorems": [
    "C18_only_own_reply",
    "C18_outcome_final",
    "C18_one_effect",
    "C18_reply_completes"
   ],
   "note": "Completion needs that the request's id was not handed out again (32767 later requests while it is still pending); such an orphaned request is never completed by a wrong message either."
  },
  {
   "property": "C19",
   "status": "proved",
   "theorems": [
    "C19_adapter_messages",
    "C19_to_handler"
   ],
   "note": ""
  },
  {
   "property": "C20",
   "status": "proved",
   "theorems": [
    "C20_dispatch",
    "C20_non_reply"
   ],
   "note": ""
  },
  {
   "property": "C21",
   "status": "proved",
   "theorems": [
    "C21_closing"
   ],
   "note": "Calls of protocol.send_message by the application itself are excluded: the library only sends through requests."
  },
  {
   "property": "C22",
   "status": "proved",
   "theorems": [
    "C22_force_close"
   ],
   "note": "Requests whose id was handed out again are not in the table any more and are not cancelled; the statement excludes them."
  },
  {
   "property": "C23",
   "status": "partial",
   "theorems": [
    "C23_refuted_reply_lost",
    "C23_refuted_no_wait",
    "C23_graceful_close_partial"
   ],
   "note": "False of the code, both halves: while closing, replies are discarded (C23_refuted_reply_lost), and one cancelled (timed-out) request in the table ends the wait at once (C23_refuted_no_wait). Proved: the wait ends only when all outstanding requests are cancelled or some older one is a cancelled one."
  },
  {
   "property": "C24",
   "status": "proved",
   "theorems": [
    "C24_lost",
    "C24_callback"
   ],
   "note": ""
  },
  {
   "property": "C25",
   "status": "proved",
   "theorems": [
    "C25_keepalive",
    "C25_keepalive_history"
   ],
   "note": ""
  },
  {
   "property": "C26",
   "status": "proved",
   "theorems": [
    "C26_last_handler"
   ],
   "note": ""
  },
  {
   "property": "C27",
   "status": "proved",
   "theorems": [
    "C27_status"
   ],
   "note": "Bodies: at most two (a count above two is clamped to two by the code and the rest misread). The set point limits stored earlier must be complete or absent for pool and spa (C42 shows how they can be incomplete)."
  },
  {
   "property": "C28",
   "status": "proved",
   "theorems": [
    "C28_chemistry"
   ],
   "note": ""
  },
  {
   "property": "C29",
   "status": "proved",
   "theorems": [
    "C29_config"
   ],
   "note": ""
  },
  {
   "property": "C30",
   "status": "proved",
   "theorems": [
    "C30_pump"
   ],
   "note": ""
  },
  {
   "property": "C31",
   "status": "proved",
   "theorems": [
    "C31_scg"
   ],
   "note": ""
  },
  {
   "property": "C32",
   "status": "proved",
   "theorems": [
    "C32_version",
    "C32_too_few_words",
    "C32_words_total"
   ],
   "note": ""
  },
  {
   "property": "C33",
   "status": "proved",
   "theorems": [
    "C33_date_time",
    "C33_impossible"
   ],
   "note": ""
  },
  {
   "property": "C34",
   "status": "proved",
   "theorems": [
    "C34_color"
   ],
   "note": ""
  },
  {
   "property": "C35",
   "status": "proved",
   "theorems": [
    "C35_equipment"
   ],
   "note": ""
  },
  {
   "property": "C36",
   "status": "proved",
   "theorems": [
    "C36_only_own_section"
   ],
   "note": ""
  },
  {
   "property": "C37",
   "status": "proved",
   "theorems": [
    "C37_status_truncated",
    "C37_config_truncated",
    "C37_color_truncated",
    "C37_version_truncated",
    "C37_equipment_truncated",
    "C37_chemistry_truncated",
    "C37_pump_truncated",
    "C37_scg_truncated",
    "C37_date_time_truncated",
    "C37_prefix_agrees"
   ],
   "note": ""
  },
  {
   "property": "C38",
   "status": "partial",
   "theorems": [
    "C38_atomic_refuted",
    "C38_atomic_partial"
   ],
   "note": "False of the code: a message that ends early is applied up to where it ends (C38_atomic_refuted). Proved: a failed decode leaves all other sections untouched and the data well shaped."
  },
  {
   "property": "C39",
   "status": "proved",
   "theorems": [
    "C39_idempotent"
   ],
   "note": ""
  },
  {
   "property": "C40",
   "status": "proved",
   "theorems": [
    "C40_wild_state_ignored",
    "C40_other_state_stored"
   ],
   "note": ""
  },
  {
   "property": "C41",
   "status": "proved",
   "theorems": [
    "C41_equipment_flags"
   ],
   "note": ""
  },
  {
   "property": "C42",
   "status": "partial",
   "theorems": [
    "C42_not_wedged_partial",
    "C42_pump_wedged_refuted",
    "C42_status_wedged_refuted"
   ],
   "note": "False for pump messages after a status that mentions an undescribed circuit, and for status messages after a configuration cut between a minimum and a maximum set point (refuted theorems). Proved: the other seven kinds are decoded after every history, and any configuration message makes status messages decodable again."
  },
  {
   "property": "C43",
   "status": "proved",
   "theorems": [
    "C43_get_data",
    "C43_get_data_all",
    "C43_compose",
    "C43_functional"
   ],
   "note": ""
  },
  {
   "property": "C44",
   "status": "proved",
   "theorems": [
    "C44_get_value",
    "C44_get_name"
   ],
   "note": ""
  },
  {
   "property": "C45",
   "status": "proved",
   "theorems": [
    "C45_strict_raises",
    "C45_strict_same"
   ],
   "note": ""
  },
  {
   "property": "C46",
   "status": "proved",
   "theorems": [
    "C46_only_valid",
    "C46_invalid_rejected",
    "C46_valid_sent"
   ],
   "note": ""
  },
  {
   "property": "C47",
   "status": "proved",
   "theorems": [
    "C47_within_limits",
    "C47_invalid_rejected",
    "C47_valid_sent"
   ],
   "note": ""
  },
  {
   "property": "C48",
   "status": "proved",
   "theorems": [
    "C48_only_valid",
    "C48_invalid_rejected",
    "C48_valid_sent"
   ],
   "note": ""
  },
  {
   "property": "C49",
   "status": "proved",
   "theorems": [
    "C49_only_valid",
    "C49_invalid_rejected",
    "C49_valid_sent"
   ],
   "note": ""
  },
  {
   "property": "C50",
   "status": "proved",
   "theorems": [
    "C50_only_in_range",
    "C50_out_of_range_rejected",
    "C50_valid_sent"
   ],
   "note": ""
  },
  {
   "property": "C51",
   "status": "proved",
   "theorems": [
    "C51_only_in_range",
    "C51_out_of_range_rejected",
    "C51_valid_sent"
   ],
   "note": ""
  },
  {
   "property": "C52",
   "status": "proved",
   "theorems": [
    "C52_ph_round_trip",
    "C52_ph_in_range",
    "C52_decoded_setpoint_kept"
   ],
   "note": ""
  },
  {
   "property": "C53",
   "status": "partial",
   "theorems": [
    "C53_invalid_rejected_refuted",
    "C53_wire_value_partial"
   ],
   "note": "False of the code: any integer other than 1 (and unknown names) is silently sent as Off (C53_invalid_rejected_refuted). Proved: what goes on the wire is always 0 or 1, and valid values go unchanged."
  },
  {
   "property": "C54",
   "status": "proved",
   "theorems": [
    "C54_payload",
    "C54_sent",
    "C54_neither_rejected"
   ],
   "note": ""
  },
  {
   "property": "C55",
   "status": "partial",
   "theorems": [
    "C55_clock_kept_refuted",
    "C55_clock_kept_utc_partial"
   ],
   "note": "False of the code in every host time zone but UTC (C55_clock_kept_refuted: host at UTC+1 moves the controller clock by one hour). Proved for hosts in UTC, all valid times 1970..2105."
  },
  {
   "property": "C56",
   "status": "proved",
   "theorems": [
    "C56_initial",
    "C56_call",
    "C56_history",
    "C56_overlapping"
   ],
   "note": ""
  },
  {
   "property": "C57",
   "status": "proved",
   "theorems": [
    "C57_two_rounds",
    "C57_other_errors"
   ],
   "note": "Requests whose code is one of the codes of connecting (only reachable through async_send_message) are excluded, since connecting sends them too."
  },
  {
   "property": "C58",
   "status": "proved",
   "theorems": [
    "C58_idempotent"
   ],
   "note": ""
  },
  {
   "property": "C59",
   "status": "proved",
   "theorems": [
    "C59_no_address"
   ],
   "note": ""
  },
  {
   "property": "C60",
   "status": "partial",
   "theorems": [
    "C60_reuse_partial",
    "C60_arguments_partial",
    "C60_callback_refuted"
   ],
   "note": "False for the connection-closed callback (C60_callback_refuted): a parameterless connect and every automatic reconnect reset it to None. Proved for address, port, type, subtype and name over all histories."
  },
  {
   "property": "C61",
   "status": "partial",
   "theorems": [
    "C61_leak_refuted",
    "C61_bounded_partial"
   ],
   "note": "False of the code: when the login dialogue fails after the connection was accepted, the transport stays open and is not referenced any more (C61_leak_refuted). Proved: at most one open transport per granted connection, none if none was granted."
  },
  {
   "property": "C62",
   "status": "partial",
   "theorems": [
    "C62_attribute_error_refuted",
    "C62_unreachable_partial"
   ],
   "note": "False of the code: before the first successful connect the reconnect logic raises AttributeError (C62_attribute_error_refuted). Proved for every gateway that once had a connection."
  },
  {
   "property": "C63",
   "status": "partial",
   "theorems": [
    "C63_unbounded_refuted",
    "C63_depth_partial",
    "C63_ends_partial",
    "C63_fuel_partial"
   ],
   "note": "False of the code: async_connect recurses through async_get_config and attach, so an adapter that drops the connection at that point keeps one call connecting for ever (C63_unbounded_refuted, for every k). Proved: depth bounded by the number of granted connections, termination for every finite script, fuel irrelevance."
  },
  {
   "property": "C64",
   "status": "proved",
   "theorems": [
    "C64_turns",
    "C64_order",
    "C64_exactly",
    "C64_no_flags"
   ],
   "note": "The 'exactly' direction assumes the connection stays up and no push changes the flags during the call; C64_turns covers all executions."
  },
  {
   "property": "C65",
   "status": "proved",
   "theorems": [
    "C65_no_data",
    "C65_one_by_one",
    "C65_messages",
    "C65_complete"
   ],
   "note": ""
  },
  {
   "property": "C66",
   "status": "partial",
   "theorems": [
    "C66_poll",
    "C66_others",
    "C66_history",
    "C66_pumps",
    "C66_config_latest",
    "C66_config_history",
    "C66_version_refuted"
   ],
   "note": "Proved for status, chemistry, chlorinator, date/time, pumps and the configuration (also when a reconnect inside another call reads it). The version entry violates the rule (C66_version_refuted)."
  },
  {
   "property": "C67",
   "status": "proved",
   "theorems": [
    "C67_one_exchange"
   ],
   "note": ""
  },
  {
   "property": "C68",
   "status": "partial",
   "theorems": [
    "C68_refuted",
    "C68_partial",
    "C68_lock_free_partial"
   ],
   "note": "False of the code: when the add-client request fails, the gateway reconnects while the client manager's lock is held, and the reconnect waits for that lock (C68_refuted: a reachable state and an adapter that ignores two messages make the call hang for ever). Proved: without a reconnect the call only waits for its environment; the lock is free after every call that ended."
  },
  {
   "property": "C69",
   "status": "proved",
   "theorems": [
    "C69_nothing_else",
    "C69_removes_it",
    "C69_idempotent",
    "C69_same_callback_shares"
   ],
   "note": "Proved for every history. Set objects are identified by callback and code: the theorem C69_same_callback_shares shows the one case in which an old unsubscribe function is not inert, namely when the same callback is subscribed to the same code again while others listen."
  },
  {
   "property": "C70",
   "status": "proved",
   "theorems": [
    "C70_routed",
    "C70_everyone_once",
    "C70_never_otherwise"
   ],
   "note": "Proved for every history and every order of the set. C70_never_otherwise holds for all callbacks; that everybody is called needs callbacks that return normally (C74, C89 are the exceptions)."
  },
  {
   "property": "C71",
   "status": "partial",
   "theorems": [
    "C71_served_refuted",
    "C71_registered",
    "C71_served_partial"
   ],
   "note": "False of the code (C71_served_refuted): subscribing between the last unsubscribe and the start of the task it creates ends, without any failure, with a listener on a live connection that is not registered and has no handler. Proved for tidy histories (C71_served_partial). Missing here: failed exchanges, cancelled tasks, disconnect by the user, reconnects during other calls; for those C127 shows that the handler is in place on every live connection on which the client was not signed off."
  },
  {
   "property": "C72",
   "status": "proved",
   "theorems": [
    "C72_reconnect"
   ],
   "note": "Stated for a connect that returned True and whose connection is still up. Outside: when the add-client request of the reconnect itself fails, see C68."
  },
  {
   "property": "C73",
   "status": "proved",
   "theorems": [
    "C73_no_effect"
   ],
   "note": ""
  },
  {
   "property": "C74",
   "status": "partial",
   "theorems": [
    "C74_self_unsubscribe_refuted",
    "C74_other_codes_partial"
   ],
   "note": "False of the code (C74_self_unsubscribe_refuted): RuntimeError, the remaining listeners are not called. Proved: callbacks may unsubscribe listeners of other codes."
  },
  {
   "property": "C75",
   "status": "partial",
   "theorems": [
    "C75_responses_partial",
    "C75_pumps_partial",
    "C75_pump_index_refuted"
   ],
   "note": "False of the code: pump responses come back numbered from 0, so those of pumps 1 and 3 return as 0 and 1 (C75_pump_index_refuted); an empty response comes back as None. Proved: never fails, every non-empty response is returned, pump responses keep their order (and their keys when these are 0..n-1)."
  },
  {
   "property": "C76",
   "status": "partial",
   "theorems": [
    "C76_round_trip",
    "C76_decoded_partial",
    "C76_negative_circuit_refuted"
   ],
   "note": "False of the code: a negative circuit id, which a configuration message can carry, becomes a text key (C76_negative_circuit_refuted). Proved for every exportable collection, and for every collection built after any history of messages as long as no dictionary has a negative key. JSON text itself is CPython's and not modelled."
  },
  {
   "property": "C77",
   "status": "proved",
   "theorems": [
    "C77_bytes",
    "C77_encoder",
    "C77_ascii"
   ],
   "note": ""
  },
  {
   "property": "C78",
   "status": "proved",
   "theorems": [
    "C78_decodes",
    "C78_only",
    "C78_check_word",
    "C78_short",
    "C78_bad_name",
    "C78_exceptions"
   ],
   "note": ""
  },
  {
   "property": "C79",
   "status": "proved",
   "theorems": [
    "C79_hosts",
    "C79_discover",
    "C79_total"
   ],
   "note": ""
  },
  {
   "property": "C80",
   "status": "proved",
   "theorems": [
    "C80_named",
    "C80_number",
    "C80_advertised",
    "C80_all_advertised",
    "C80_unnamed",
    "C80_unknown_number"
   ],
   "note": ""
  },
  {
   "property": "C81",
   "status": "proved",
   "theorems": [
    "C81_check",
    "C81_nan",
    "C81_not_a_number",
    "C81_parse_check"
   ],
   "note": ""
  },
  {
   "property": "C82",
   "status": "proved",
   "theorems": [
    "C82_model",
    "C82_known"
   ],
   "note": ""
  },
  {
   "property": "C83",
   "status": "proved",
   "theorems": [
    "C83_classified",
    "C83_unique",
    "C83_nan",
    "C83_hundredths"
   ],
   "note": ""
  },
  {
   "property": "C84",
   "status": "proved",
   "theorems": [
    "C84_login_message",
    "C84_login_message_decodes"
   ],
   "note": ""
  },
  {
   "property": "C85",
   "status": "partial",
   "theorems": [
    "C85_dashboard_refuted",
    "C85_dashboard_partial",
    "C85_get_partial",
    "C85_get_refuted"
   ],
   "note": "False of the code: the dashboard uses the names of the heat modes (heated by the heater is shown as Solar Preferred, by both as Heater), and 'get heat-state' reads the state as off/on and raises ValueError for 2 and 3. Proved: states 0 and 1 are named right on the dashboard; what 'get heat-state' shows when it exits with 0."
  },
  {
   "property": "C86",
   "status": "partial",
   "theorems": [
    "C86_auto_dst_refuted"
   ],
   "note": "False of the code for every value: the option's text goes to the encoder as it is, which raises struct.error; nothing is ever sent."
  },
  {
   "property": "C87",
   "status": "partial",
   "theorems": [
    "C87_closed_callback_partial",
    "C87_refuted"
   ],
   "note": "Fails in one corner (C87_refuted): cancelling the task that awaits async_close/async_disconnect makes connection_lost raise InvalidStateError before the callback. Proved: at most once always, exactly once if no such task is cancelled."
  },
  {
   "property": "C88",
   "status": "proved",
   "theorems": [
    "C88_socket"
   ],
   "note": ""
  },
  {
   "property": "C89",
   "status": "partial",
   "theorems": [
    "C89_raising_callback_refuted",
    "C89_before_it_partial"
   ],
   "note": "False of the code: the exception ends the loop over the listeners. Proved: those reached before it were called, and nothing but the data, the log and the queue changed, so the next message reaches everybody."
  },
  {
   "property": "C90",
   "status": "partial",
   "theorems": [
    "C90_failed_subscription_refuted",
    "C90_others_untouched_partial",
    "C90_failure_changes_nothing_partial",
    "C90_mended_partial"
   ],
   "note": "False of the code: the callback is added before the add-client request and stays when that fails; the function to remove it is never returned. Proved: nobody else's subscription changes, and subscribing again gives a function that removes it."
  },
  {
   "property": "C91",
   "status": "proved",
   "theorems": [
    "C91_calls"
   ],
   "note": "argparse's own checking of the words is an input of the model ([accepted]). 'set date-time --auto-dst' is C86, 'discover' is C96. Dates that argparse let through but datetime.fromisoformat rejects are N_bad_date."
  },
  {
   "property": "C92",
   "status": "proved",
   "theorems": [
    "C92_zero",
    "C92_positive",
    "C92_codes"
   ],
   "note": "As C91. -1 is every ScreenLogic error, which may come after the setting was acknowledged."
  },
  {
   "property": "C93",
   "status": "proved",
   "theorems": [
    "C93_reading"
   ],
   "note": ""
  },
  {
   "property": "C94",
   "status": "proved",
   "theorems": [
    "C94_as_typed"
   ],
   "note": ""
  },
  {
   "property": "C95",
   "status": "partial",
   "theorems": [
    "C95_closed_partial",
    "C95_export_refuted",
    "C95_error_refuted"
   ],
   "note": "False of the code for 'export' (exits with 0, connection open), for errors that are not ScreenLogic's (ValueError of an out-of-range value) and for exit codes 1 (no controller data) and -1. Proved for all other commands and the exit codes 0, 4, 65, 129."
  },
  {
   "property": "C96",
   "status": "partial",
   "theorems": [
    "C96_lists_partial",
    "C96_with_address_refuted"
   ],
   "note": "False of the code with --ip: it connects and then fails with AttributeError, leaving the connection open. Proved without an address."
  },
  {
   "property": "C97",
   "status": "proved",
   "theorems": [
    "C97_answers"
   ],
   "note": "'get heat-state' is C85; the confirmations of color-lights, chlorinator and chemistry commands are not covered."
  },
  {
   "property": "C98",
   "status": "proved",
   "theorems": [
    "C98_dashboard"
   ],
   "note": "The heat state is C85."
  },
  {
   "property": "C99",
   "status": "proved",
   "theorems": [
    "C99_counted",
    "C99_exact"
   ],
   "note": "As C100. Calls whose message is also one of the connection dialogue (async_get_config, raw messages with such a code) are not covered."
  },
  {
   "property": "C100",
   "status": "proved",
   "theorems": [
    "C100_messages"
   ],
   "note": "Schedules of Pool.v: the lock may go to any waiter and any answer may come at any time; which request an answer belongs to is C06-C09."
  },
  {
   "property": "C101",
   "status": "proved",
   "theorems": [
    "C101_login_first",
    "C101_greeting",
    "C101_greeting_first",
    "C101_greeted"
   ],
   "note": "As C100."
  },
  {
   "property": "C102",
   "status": "proved",
   "theorems": [
    "C102_quiet",
    "C102_nothing_taken"
   ],
   "note": "As C100."
  },
  {
   "property": "C103",
   "status": "proved",
   "theorems": [
    "C103_data"
   ],
   "note": "As C100. Answers to messages of async_send_message are not decoded."
  },
  {
   "property": "C104",
   "status": "partial",
   "theorems": [
    "C104_none_left_open_refuted",
    "C104_closes_it_partial",
    "C104_disconnected_partial"
   ],
   "note": "False of the code: two overlapping calls on a disconnected gateway both log in; the first connection is forgotten and stays open for good. Proved: a disconnect that returned has closed the connection that was the gateway's, for good, and with no other call running is_connected is False."
  },
  {
   "property": "C105",
   "status": "proved",
   "theorems": [
    "C105_acknowledged"
   ],
   "note": "As C100."
  },
  {
   "property": "C106",
   "status": "proved",
   "theorems": [
    "C106_one_exchange"
   ],
   "note": "As C100. Messages of async_send_message with the two codes are the caller's own business and excluded."
  },
  {
   "property": "C107",
   "status": "proved",
   "theorems": [
    "C107_lock_free"
   ],
   "note": "As C100. A call that hangs for ever (C68) has not ended."
  },
  {
   "property": "C108",
   "status": "proved",
   "theorems": [
    "C108_only_asks",
    "C108_mac"
   ],
   "note": "login.py async_get_mac_address. That an error leaves the connection open is a finding, not part of the claim."
  },
  {
   "property": "C109",
   "status": "proved",
   "theorems": [
    "C109_ping"
   ],
   "note": "client.py _async_ping alone; when it is sent is C64 and the event machine of Client.v."
  },
  {
   "property": "C110",
   "status": "proved",
   "theorems": [
    "C110_kept_alive",
    "C110_given_up",
    "C110_lost"
   ],
   "note": "Event machine of Client.v; the timer of a connection is a flag set by enable_keepalive, cleared by disable_keepalive and connection_lost (its firing and re-arming are C64). Attaching a new connection drops the registration without touching the old connection: excluded in C110_given_up."
  },
  {
   "property": "C111",
   "status": "proved",
   "theorems": [
    "C111_shared"
   ],
   "note": "As C100 for the model. A proper answer has the code of the request plus one, and is empty for the nine commands and registrations, which is what the code takes for an acknowledgement. Needs fuel >= 1. A call may still fail for reasons of its own: ValueError for a bad argument, an answer that cannot be decoded. Calls that wait for the lock may be cancelled."
  },
  {
   "property": "C112",
   "status": "proved",
   "theorems": [
    "C112_calls",
    "C112_exchange",
    "C112_bytes",
    "C112_once"
   ],
   "note": "Net.v composes Pool.v (the calls) with Protocol.v (a protocol object per connection): the answers of Pool.v are no longer free, they come out of the futures of Protocol.v. C112_calls: every run of Net.v is a run of Pool.v, so C99-C107 and C111 hold of it. Bytes are 0..255 (octets)."
  },
  {
   "property": "C113",
   "status": "proved",
   "theorems": [
    "C113_at_once",
    "C113_numbered"
   ],
   "note": "As C112. Keepalive pings and the greeting CONNECTSERVERHOST (C101) are written outside these frames; pings are in Client.v and Protocol.v (C25)."
  },
  {
   "property": "C114",
   "status": "proved",
   "theorems": [
    "C114_settings"
   ],
   "note": "As C112, with C105."
  },
  {
   "property": "C115",
   "status": "proved",
   "theorems": [
    "C115_released"
   ],
   "note": "As C112. The cleanup task is the event NLostTask, the release the event NResume. The bound of 32767 messages: an id that is handed out again overwrites the entry of the older future (C10), which no cleanup then reaches."
  },
  {
   "property": "C116",
   "status": "proved",
   "theorems": [
    "C116_came",
    "C116_all",
    "C116_subscribed",
    "C116_data"
   ],
   "note": "As C112. The handlers that count are those of the client manager (Pool.v): when the handlers run and what they do is C125, C126 and C103; only codes 12500, 12504, 12505 change data."
  },
  {
   "property": "C117",
   "status": "proved",
   "theorems": [
    "C117_stream"
   ],
   "note": "As C113, with C101_greeting_first and C101_greeted. Keepalive pings are in Client.v and Protocol.v (C25, C64), not in this stream."
  },
  {
   "property": "C118",
   "status": "proved",
   "theorems": [
    "C118_forced"
   ],
   "note": "As C115."
  },
  {
   "property": "C119",
   "status": "proved",
   "theorems": [
    "C119_timer"
   ],
   "note": "As C112; the timer is the event NTimeout; that asyncio fires it is trusted."
  },
  {
   "property": "C120",
   "status": "proved",
   "theorems": [
    "C120_each",
    "C120_ends",
    "C120_all"
   ],
   "note": "Schedules are functions from time to events; waits_end and lock_fair are the fairness hypotheses (SpecTerm.v); calls may be cancelled at any await, while they wait for the lock too (cancels_end: not for ever, which is needed because the proof is constructive; C120_each does not need it). The bound on opened connections is the fuel of the reconnect recursion: any finite number. C120_each is about one call and allows infinitely many others (lock_served: first come, first served). The exception is the deadlock of C68; C120_lock_nonvacuous exhibits it."
  },
  {
   "property": "C121",
   "status": "proved",
   "theorems": [
    "C121_each",
    "C121_ends"
   ],
   "note": "As C120; C121_each is about one call and allows infinitely many others. With a reconnect the claim is false (C68, C120_lock_nonvacuous)."
  },
  {
   "property": "C122",
   "status": "proved",
   "theorems": [
    "C122_sends",
    "C122_result",
    "C122_pump_index"
   ],
   "note": ""
  },
  {
   "property": "C123",
   "status": "proved",
   "theorems": [
    "C123_ping",
    "C123_unregister",
    "C123_unsubscribe"
   ],
   "note": "Ping and Unregister may start at any moment of Pool.v, also when the program would not start them; the theorems ask that the client manager was attached once (the program starts them only then) and, for the removal, that the client id fits the message."
  },
  {
   "property": "C124",
   "status": "proved",
   "theorems": [
    "C124_time",
    "C124_always"
   ],
   "note": "The sum of the timers started; a timer that is still running counts in full. Time in the event loop itself, closing the transport and waiting for the lock have no timer in the code and are not counted."
  },
  {
   "property": "C125",
   "status": "proved",
   "theorems": [
    "C125_in_turn",
    "C125_served",
    "C125_wire"
   ],
   "note": "The tasks data_received makes for the handlers run in the order they were made (asyncio), each to its end at once, at any later moment."
  },
  {
   "property": "C126",
   "status": "proved",
   "theorems": [
    "C126_told"
   ],
   "note": "Callbacks that return normally and subscribe or unsubscribe nobody (others: Client.v, C74, C89). The function that ends a subscription is identified with its (callback, code); C69 has the sets themselves."
  },
  {
   "property": "C127",
   "status": "proved",
   "theorems": [
    "C127_handed",
    "C127_told"
   ],
   "note": "As C100 and C126 for the model. The client id must fit in 32 bits (the random ones do); otherwise remove-client cannot be packed. The exception 'no remove-client sent on it' is the race of C71; 'being closed' covers disconnects. Whether the adapter sends anything is C110's registration, not this property's."
  },
  {
   "property": "C128",
   "status": "proved",
   "theorems": [
    "C128_handed",
    "C128_told"
   ],
   "note": "As C116 and C127 for the model and the exceptions. A message whose id is that of a waiting request is taken as its answer and not handed over; that is what answers no request excludes."
  },
  {
   "property": "C129",
   "status": "partial",
   "theorems": [
    "C129_once",
    "C129_kept_partial",
    "C129_refuted"
   ],
   "note": "Half is proved for every run: C129_once, the arriving bytes make exactly the handlers registered at that moment run, once per message, in order. The other half, that the handler stays, holds when nobody subscribes (C129_kept_partial, all calls but Subscribe) and is false otherwise (C129_refuted): async_unsubscribe_gateway, started when the last subscription of another code ends, calls remove_all_async_message_callbacks, which takes off the handlers of the user as well (client.py:214, protocol.py:192); a lost connection also loses them, which the claim allows. A message whose id is that of a waiting request is taken as its answer."
  },
  {
   "property": "C130",
   "status": "proved",
   "theorems": [
    "C130_answered"
   ],
   "note": "As C112; the wait of the call is the slot of Net.v (the future of await_send_message), its wake-up the event NResume."
  },
  {
   "property": "C131",
   "status": "proved",
   "theorems": [
    "C131_setting",
    "C131_message",
    "C131_query"
   ],
   "note": "As C130. For a query the theorem has the hypothesis that the decoder accepts the answer; C75 and C76 are about answers it rejects. The codes 14, 27, 8120, 12522, 12524 and 12532, with which connecting is done, are left out for async_send_message."
  },
  {
   "property": "C132",
   "status": "proved",
   "theorems": [
    "C132_goodbye",
    "C132_first"
   ],
   "note": "A message sent on a connection whose transport is already closing is not written (SpecKeep.v). The client id must fit a 32-bit number, as the packing of the message demands."
  },
  {
   "property": "C133",
   "status": "proved",
   "theorems": [
    "C133_place",
    "C133_fresh",
    "C133_dialled",
    "C133_mac",
    "C133_no_mac"
   ],
   "note": "The argument connection_closed_callback is not part of this (C60, C87). The name given with an argument that is the empty string replaces the name, an empty ip makes the connect fail (C59)."
  },
  {
   "property": "C134",
   "status": "proved",
   "theorems": [
    "C134_connects"
   ],
   "note": "The datagrams are byte strings; the sockets of discovery are a list of datagrams received in the one second it listens. A host is the dict as returned; async_connect(**host) is modelled by reading the five keys (Cli.args_of_host) - the theorem shows that they are all there and of the right type."
  },
  {
   "property": "C135",
   "status": "proved",
   "theorems": [
    "C135_late_answers"
   ],
   "note": "One task at a time; failed tries in which nothing else happens (no connection lost, no data pushed meanwhile): with such events the state of course differs by them. The answers themselves may come with any events. A run that has failed tries of its own is not a run this speaks of, C12-C14 and C57 do. A message 16 or 12524 sent through async_send_message is, like the ping and the removal, taken as answered at once, though it could be late too."
  },
  {
   "property": "C136",
   "status": "proved",
   "theorems": [
    "C136_same_output"
   ],
   "note": "The restrictions of C135 apply. The host's clock is read where the command line reads it and is the one of the last answer, the same in both runs."
  },
  {
   "property": "C137",
   "status": "proved",
   "theorems": [
    "C137_any_setting",
    "C137_no_matter"
   ],
   "note": "The client manager keeps a copy of the setting from when it was attached (client.py:76), which nothing reads; it may differ in the two final states (j in the statement). As in C135 the call runs alone. set_max_retries itself is excluded: it replaces the setting."
  },
  {
   "property": "C138",
   "status": "proved",
   "theorems": [
    "C138_any_time",
    "C138_same_data"
   ],
   "note": "The moment given to async_synchronize_date_time (datetime.now() in the code) is an argument of the modelled call, so it is the same in both runs. Timeouts and pauses run on the event loop's monotonic clock, which the host's clock does not set; the model has durations for them and no clock. The keepalive reads time.monotonic (protocol.py:71) and is in Protocol.v, not here. The two final states are compared after one call; data that already differ in the host time are not a starting point."
  },
  {
   "property": "C139",
   "status": "proved",
   "theorems": [
    "C139_any_id"
   ],
   "note": "That the subscription messages do carry the id is not said here but by the properties of subscribing; a payload the caller passes to async_send_message is his own and stays as it is. Ids outside 0..2^32-1, which cannot be packed, are excluded."
  }
 ]
}