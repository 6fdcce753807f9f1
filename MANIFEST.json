{
 "claims": [
  {
   "property": "C01",
   "status": "proved",
   "theorems": [
    "C01_view_is_sliced_list",
    "C01_view_zero_step",
    "C01_spec_full_slice",
    "C01_index_error_iff"
   ],
   "note": ""
  },
  {
   "property": "C02",
   "status": "proved",
   "theorems": [
    "C02_nested_views"
   ],
   "note": ""
  },
  {
   "property": "C03",
   "status": "proved",
   "theorems": [
    "C03_init_binds",
    "C03_init_rejects"
   ],
   "note": ""
  },
  {
   "property": "C04",
   "status": "proved",
   "theorems": [
    "C04_record_with_names",
    "C04_record_defaults_only",
    "C04_record_nothing",
    "C04_record_two_positionals",
    "C04_names_are_words"
   ],
   "note": ""
  },
  {
   "property": "C05",
   "status": "proved",
   "theorems": [
    "C05_repr_terminates",
    "C05_renders_functional"
   ],
   "note": ""
  },
  {
   "property": "C06",
   "status": "proved",
   "theorems": [
    "C06_guard_restored"
   ],
   "note": ""
  },
  {
   "property": "C07",
   "status": "proved",
   "theorems": [
    "C07_delivery"
   ],
   "note": ""
  },
  {
   "property": "C08",
   "status": "proved",
   "theorems": [
    "C08_identifiers_distinct"
   ],
   "note": ""
  },
  {
   "property": "C09",
   "status": "partial",
   "theorems": [
    "C09_identifier_fresh_refuted",
    "C09_identifier_fresh_partial",
    "C09_chosen_partial"
   ],
   "note": "False as documented: an identifier may equal an explicitly bound name (refuted with a witness). Proved for callers who never bind a decimal numeral explicitly. C09_chosen_partial: in every history the only identifiers it can collide with are names a caller bound explicitly."
  },
  {
   "property": "C10",
   "status": "proved",
   "theorems": [
    "C10_start_count",
    "C10_at_most_once",
    "C10_only_when_connected_and_running",
    "C10_right_receiver"
   ],
   "note": ""
  },
  {
   "property": "C11",
   "status": "proved",
   "theorems": [
    "C11_stop"
   ],
   "note": ""
  },
  {
   "property": "C12",
   "status": "proved",
   "theorems": [
    "C12_send",
    "C12_errors"
   ],
   "note": ""
  },
  {
   "property": "C13",
   "status": "proved",
   "theorems": [
    "C13_multiplex"
   ],
   "note": ""
  },
  {
   "property": "C14",
   "status": "proved",
   "theorems": [
    "C14_correct_response_accepted",
    "C14_response_always_computed",
    "C14_exchange"
   ],
   "note": ""
  },
  {
   "property": "C15",
   "status": "proved",
   "theorems": [
    "C15_response_binds",
    "C15_unconstrained_nonce_fails"
   ],
   "note": ""
  },
  {
   "property": "C16",
   "status": "proved",
   "theorems": [
    "C16_each_attempt",
    "C16_at_most_once",
    "C16_other_pads"
   ],
   "note": ""
  },
  {
   "property": "C17",
   "status": "partial",
   "theorems": [
    "C17_logged_out_refuted",
    "C17_logouts_partial",
    "C17_single_login_partial",
    "C17_no_spurious_logout_partial"
   ],
   "note": "False as stated: of two logins started before either completes only the later one is logged out, and a login completing after the connection ended never is (refuted with witnesses). Proved for every history: exactly which logouts are called, and when."
  },
  {
   "property": "C18",
   "status": "proved",
   "theorems": [
    "C18_receiver_provenance",
    "C18_receiver_current",
    "C18_failed_login"
   ],
   "note": ""
  },
  {
   "property": "C19",
   "status": "proved",
   "theorems": [
    "C19_credentials",
    "C19_response_without_challenge"
   ],
   "note": ""
  },
  {
   "property": "C20",
   "status": "proved",
   "theorems": [
    "C20_get_sound",
    "C20_get_errors",
    "C20_get_absent"
   ],
   "note": ""
  },
  {
   "property": "C21",
   "status": "partial",
   "theorems": [
    "C21_complete_refuted",
    "C21_complete_partial",
    "C21_first"
   ],
   "note": "False as stated: the search stops at the first exposed function it meets and gives up if that one is overridden (refuted). Proved for hierarchies that override no function exposed under the key."
  },
  {
   "property": "C22",
   "status": "proved",
   "theorems": [
    "C22_independent",
    "C22_own_calls",
    "C22_decorator_result"
   ],
   "note": ""
  },
  {
   "property": "C23",
   "status": "proved",
   "theorems": [
    "C23_comparisons",
    "C23_trichotomy",
    "C23_derived",
    "C23_lt_transitive",
    "C23_eq_equivalence",
    "C23_hash",
    "C23_made"
   ],
   "note": ""
  },
  {
   "property": "C24",
   "status": "partial",
   "theorems": [
    "C24_plain_hash_refuted",
    "C24_plain_hash_partial",
    "C24_exact_partial"
   ],
   "note": "False as stated: a Caseless equals a plain string with capitals but its hash is that of the lower-case form (refuted for every hash that separates the two). Proved for lower-case plain strings. C24_exact_partial: exactly when they agree."
  },
  {
   "property": "C25",
   "status": "proved",
   "theorems": [
    "C25_find",
    "C25_rfind",
    "C25_startswith",
    "C25_endswith",
    "C25_contains",
    "C25_count",
    "C25_case_invariant",
    "C25_needs_charwise"
   ],
   "note": ""
  },
  {
   "property": "C26",
   "status": "partial",
   "theorems": [
    "C26_inherited_modes_refuted",
    "C26_dispatch_partial",
    "C26_no_mode",
    "C26_instances"
   ],
   "note": "False as stated: a subclass whose modes define a method hides its implementations in the inherited modes (refuted). Proved: exactly which implementation is found."
  },
  {
   "property": "C27",
   "status": "proved",
   "theorems": [
    "C27_alternation"
   ],
   "note": ""
  },
  {
   "property": "C28",
   "status": "partial",
   "theorems": [
    "C28_atomic_refuted",
    "C28_exit_failure_partial",
    "C28_enter_missing_partial"
   ],
   "note": "False as stated: a transition to a mode that does not exist raises and leaves the instance in it (refuted). Proved: what each failing transition leaves behind."
  },
  {
   "property": "C29",
   "status": "proved",
   "theorems": [
    "C29_required_attribute",
    "C29_isolated"
   ],
   "note": ""
  },
  {
   "property": "C30",
   "status": "partial",
   "theorems": [
    "C30_once_refuted",
    "C30_once_partial",
    "C30_exact_partial",
    "C30_first_access"
   ],
   "note": "False as stated: None is not remembered, and two functions of the same name share one value (refuted). Proved for distinct names and values other than None, over any history; and exactly, with no condition on names and values: every access gives the first value other than None given on the instance for a function of that name, or calls the function."
  },
  {
   "property": "C31",
   "status": "proved",
   "theorems": [
    "C31_at_most_once",
    "C31_first_result",
    "C31_fired_when_called",
    "C31_all_fire",
    "C31_in_order",
    "C31_numbered_in_order"
   ],
   "note": ""
  },
  {
   "property": "C32",
   "status": "proved",
   "theorems": [
    "C32_installed_once",
    "C32_recorded_not_started",
    "C32_recorded",
    "C32_unknown",
    "C32_known",
    "C32_only_known"
   ],
   "note": ""
  },
  {
   "property": "C33",
   "status": "partial",
   "theorems": [
    "C33_stopped_twice_refuted",
    "C33_stop_count_partial",
    "C33_stop_justified_partial",
    "C33_stop_accepted_partial",
    "C33_not_before_partial",
    "C33_shutdown_follows_partial"
   ],
   "note": "False as stated: between another stop and the shutdown event react stops the reactor again, which raises (refuted). Proved: the count, cause and order of react's stops in every execution, and that they are accepted if no other code stops the reactor."
  },
  {
   "property": "C34",
   "status": "proved",
   "theorems": [
    "C34_lines",
    "C34_total",
    "C34_line_content"
   ],
   "note": ""
  },
  {
   "property": "C35",
   "status": "proved",
   "theorems": [
    "C35_conserved",
    "C35_raw_rest",
    "C35_bytewise",
    "C35_chunking"
   ],
   "note": ""
  },
  {
   "property": "C36",
   "status": "proved",
   "theorems": [
    "C36_nothing_after"
   ],
   "note": ""
  },
  {
   "property": "C37",
   "status": "proved",
   "theorems": [
    "C37_roundtrip",
    "C37_only_encodable",
    "C37_refused"
   ],
   "note": ""
  },
  {
   "property": "C38",
   "status": "partial",
   "theorems": [
    "C38_body_refuted",
    "C38_body_partial",
    "C38_exact_partial"
   ],
   "note": "False as stated: lengths count characters, and an empty body is not received (refuted). Proved: exactly the non-empty ASCII bodies arrive (C38_exact_partial)."
  },
  {
   "property": "C39",
   "status": "proved",
   "theorems": [
    "C39_stream",
    "C39_prefix",
    "C39_same_items"
   ],
   "note": ""
  },
  {
   "property": "C40",
   "status": "proved",
   "theorems": [
    "C40_chunking",
    "C40_total"
   ],
   "note": ""
  },
  {
   "property": "C41",
   "status": "proved",
   "theorems": [
    "C41_keys",
    "C41_normal"
   ],
   "note": ""
  },
  {
   "property": "C42",
   "status": "partial",
   "theorems": [
    "C42_codecs_refuted",
    "C42_codecs_partial",
    "C42_delimiters",
    "C42_time_refuted",
    "C42_time_partial",
    "C42_time_exact_partial",
    "C42_times_partial"
   ],
   "note": "False as stated: an empty ListOf and some delimiters do not survive (refuted). Proved for all other values at any nesting depth; the delimiters that work are characterised exactly. Times: those which are the start of the period of their resolution arrive as equal times, and no others (C42_time_partial, C42_time_exact_partial, C42_time_refuted)."
  },
  {
   "property": "C43",
   "status": "proved",
   "theorems": [
    "C43_dictionary",
    "C43_wire",
    "C43_missing"
   ],
   "note": ""
  },
  {
   "property": "C44",
   "status": "proved",
   "theorems": [
    "C44_forgotten"
   ],
   "note": ""
  },
  {
   "property": "C45",
   "status": "proved",
   "theorems": [
    "C45_tags",
    "C45_carried"
   ],
   "note": ""
  },
  {
   "property": "C46",
   "status": "proved",
   "theorems": [
    "C46_answer",
    "C46_error",
    "C46_only",
    "C46_once"
   ],
   "note": ""
  },
  {
   "property": "C47",
   "status": "partial",
   "theorems": [
    "C47_loss_refuted",
    "C47_settled_partial",
    "C47_all",
    "C47_loop",
    "C47_refused"
   ],
   "note": "False as stated: an error box without a description loses the Deferred it answers (refuted). Proved otherwise; the loop over the outstanding requests always ends."
  },
  {
   "property": "C48",
   "status": "proved",
   "theorems": [
    "C48_reply",
    "C48_settle",
    "C48_started"
   ],
   "note": ""
  },
  {
   "property": "C49",
   "status": "partial",
   "theorems": [
    "C49_reserved_key_refuted",
    "C49_right_partial"
   ],
   "note": "False as stated: a command with an argument called _answer fires a request of the receiving side that its peer never ran (refuted with a witness). Proved for every schedule and chunking when the applications send text, or bytes that are UTF-8, under keys that are not reserved and do not switch protocols; TLS is taken to carry the same bytes."
  },
  {
   "property": "C50",
   "status": "partial",
   "theorems": [
    "C50_errors_refuted",
    "C50_translated_partial",
    "C50_unhandled"
   ],
   "note": "False as stated: no declared error is ever fatal, and a class of commands does not know the errors its base declares (refuted for all). Proved: a class's own errors reach the caller as the declared exception, everything else as UNHANDLED with the connection dropped."
  },
  {
   "property": "C51",
   "status": "partial",
   "theorems": [
    "C51_dispatch_refuted",
    "C51_runs_partial",
    "C51_namespace",
    "C51_remote",
    "C51_switch_refuted",
    "C51_received_partial"
   ],
   "note": "False as stated: an unknown command in a namespace is an AssertionError (refuted). Proved: what is run, for all names, namespaces and attributes. C51_switch_refuted: ProtocolSwitchCommand.do drops the namespace."
  },
  {
   "property": "C52",
   "status": "partial",
   "theorems": [
    "C52_flush_refuted",
    "C52_kept_partial",
    "C52_lost",
    "C52_held",
    "C52_flushed",
    "C52_once"
   ],
   "note": "False as stated: preparing TLS twice forgets held-back packets, and a packet that cannot be serialized takes those behind it away (refuted). Proved: these are the only losses, and the order."
  },
  {
   "property": "C53",
   "status": "proved",
   "theorems": [
    "C53_locked",
    "C53_once",
    "C53_bytes",
    "C53_divided",
    "C53_between",
    "C53_after",
    "C53_boxes_first"
   ],
   "note": ""
  },
  {
   "property": "C54",
   "status": "proved",
   "theorems": [
    "C54_chosen",
    "C54_refused",
    "C54_agree",
    "C54_offer"
   ],
   "note": ""
  },
  {
   "property": "C55",
   "status": "proved",
   "theorems": [
    "C55_read_back",
    "C55_order",
    "C55_every_time",
    "C55_days"
   ],
   "note": ""
  },
  {
   "property": "C56",
   "status": "proved",
   "theorems": [
    "C56_round",
    "C56_defined",
    "C56_same_instant"
   ],
   "note": ""
  },
  {
   "property": "C57",
   "status": "partial",
   "theorems": [
    "C57_round_refuted",
    "C57_round_partial",
    "C57_start_partial",
    "C57_exact_partial",
    "C57_zone_partial",
    "C57_zone_exact_partial",
    "C57_west_refuted"
   ],
   "note": "False as stated: half a second, half-hour offsets west, periods of hours in a zone, year 9999 (refuted; times in a zone west with minutes never come back, C57_west_refuted). Proved: what comes back is the start of the period written, for all times, zones and formats (C57_zone_partial), and so exactly which times come back (C57_exact_partial, C57_zone_exact_partial)."
  },
  {
   "property": "C58",
   "status": "partial",
   "theorems": [
    "C58_round_refuted",
    "C58_round_partial",
    "C58_century",
    "C58_day",
    "C58_day_century"
   ],
   "note": "False as stated: years before 100 are read as this or the last century; whole days are written without converting them to the zone (refuted). Proved from the year 100 on below a day; what comes back in all other cases is proved too (C58_century, C58_day, C58_day_century)."
  },
  {
   "property": "C59",
   "status": "partial",
   "theorems": [
    "C59_round_refuted",
    "C59_round_partial",
    "C59_seconds_partial",
    "C59_close_partial",
    "C59_reads",
    "C59_reads_int"
   ],
   "note": "False as stated: far from 1970 a float does not hold microseconds (refuted). Proved: exact within 2^33 s of 1970 and for whole seconds, and within 15 microseconds everywhere else."
  },
  {
   "property": "C60",
   "status": "partial",
   "theorems": [
    "C60_sign_refuted",
    "C60_offset_partial",
    "C60_west",
    "C60_override_partial"
   ],
   "note": "False as stated: minutes of a western offset are added instead of subtracted (refuted). Proved for every other offset."
  },
  {
   "property": "C61",
   "status": "partial",
   "theorems": [
    "C61_ranges_refuted",
    "C61_fields_partial",
    "C61_one_reading",
    "C61_form",
    "C61_rejects_partial",
    "C61_accepts_partial"
   ],
   "note": "False as stated: minutes of an offset are not checked; 9999-366 raises OverflowError (refuted). Proved otherwise."
  },
  {
   "property": "C62",
   "status": "proved",
   "theorems": [
    "C62_right_day",
    "C62_every_day",
    "C62_no_such_day",
    "C62_week_53"
   ],
   "note": ""
  },
  {
   "property": "C63",
   "status": "partial",
   "theorems": [
    "C63_valid_refuted",
    "C63_closest_partial",
    "C63_unchanged_partial",
    "C63_valid_partial"
   ],
   "note": "False as stated: February 30 stays (refuted). Proved: the closest value of each field; the result exists unless its month is too short."
  },
  {
   "property": "C64",
   "status": "partial",
   "theorems": [
    "C64_last_day_refuted",
    "C64_period_partial",
    "C64_ends_partial",
    "C64_answer_partial",
    "C64_order_partial"
   ],
   "note": "False as stated: a period that ends with the calendar raises OverflowError (refuted). Proved: every answer is right, and when there is one."
  },
  {
   "property": "C65",
   "status": "proved",
   "theorems": [
    "C65_add",
    "C65_subtract",
    "C65_difference",
    "C65_overflow"
   ],
   "note": ""
  },
  {
   "property": "C66",
   "status": "partial",
   "theorems": [
    "C66_python3_refuted",
    "C66_python2_partial",
    "C66_tight_partial"
   ],
   "note": "False under Python 3, where Times have no order and getBounds never returns (refuted). Proved where < uses __cmp__."
  },
  {
   "property": "C67",
   "status": "partial",
   "theorems": [
    "C67_next_refuted",
    "C67_next_partial",
    "C67_noon_refused"
   ],
   "note": "False as stated: 12:xx pm cannot be typed (refuted). Proved for all other clock times; the excluded ones are all refused."
  },
  {
   "property": "C68",
   "status": "proved",
   "theorems": [
    "C68_weekday"
   ],
   "note": ""
  },
  {
   "property": "C69",
   "status": "partial",
   "theorems": [
    "C69_last_day_refuted",
    "C69_midnight_partial",
    "C69_contains_partial"
   ],
   "note": "False as stated for the last day of the calendar (refuted). Proved for all others."
  },
  {
   "property": "C70",
   "status": "proved",
   "theorems": [
    "C70_history",
    "C70_in_time",
    "C70_raise_nothing"
   ],
   "note": ""
  },
  {
   "property": "C71",
   "status": "proved",
   "theorems": [
    "C71_one_timeout",
    "C71_errors"
   ],
   "note": ""
  },
  {
   "property": "C72",
   "status": "proved",
   "theorems": [
    "C72_own_call",
    "C72_pending",
    "C72_sorted",
    "C72_order"
   ],
   "note": ""
  },
  {
   "property": "C73",
   "status": "proved",
   "theorems": [
    "C73_child",
    "C73_target",
    "C73_names"
   ],
   "note": ""
  },
  {
   "property": "C74",
   "status": "partial",
   "theorems": [
    "C74_preauth_refuted",
    "C74_preauth_partial",
    "C74_refuses_partial",
    "C74_down_partial"
   ],
   "note": "False as stated: preauthChild('../foobar') of '/foo' returns '/foobar' (text prefix test), and '//x' is accepted from '/'. Proved: exactly what is accepted and what is refused; relative paths without '..' stay below."
  },
  {
   "property": "C75",
   "status": "partial",
   "theorems": [
    "C75_copy_refuted",
    "C75_outside",
    "C75_copy_partial",
    "C75_exact_partial",
    "C75_works_partial",
    "C75_refuses_partial",
    "C75_self"
   ],
   "note": "False as stated: a file or a tree copied onto itself loses the content of every file, whatever it is (C75_self), and an empty directory copied onto a file does nothing (refuted with witnesses). Proved: exact copies when source and destination are apart, the frame always, whatever fails or stops; success when nothing fails. Symbolic links are in C127-C130. A destination strictly above or below the source is C166."
  },
  {
   "property": "C76",
   "status": "proved",
   "theorems": [
    "C76_crash",
    "C76_done",
    "C76_works"
   ],
   "note": ""
  },
  {
   "property": "C77",
   "status": "partial",
   "theorems": [
    "C77_lost_refuted",
    "C77_once_partial",
    "C77_returned_partial",
    "C77_exact_partial",
    "C77_never",
    "C77_resumed",
    "C77_results"
   ],
   "note": "False as stated: a generator which yields a Deferred after it was resumed asynchronously leaves its Deferred unfired for ever and the TypeError is lost (refuted with a witness execution; C77_exact_partial: exactly these are lost). Proved: the order of events, firing exactly once with the right outcome when the generator ends, no missed resumption, results of getResult; TypeError when it yields a Deferred before its call has returned."
  },
  {
   "property": "C78",
   "status": "proved",
   "theorems": [
    "C78_restored",
    "C78_verdict",
    "C78_private",
    "C78_after"
   ],
   "note": ""
  },
  {
   "property": "C79",
   "status": "proved",
   "theorems": [
    "C79_once",
    "C79_kills",
    "C79_dead",
    "C79_raises"
   ],
   "note": ""
  },
  {
   "property": "C80",
   "status": "partial",
   "theorems": [
    "C80_textual_refuted",
    "C80_deepest_partial",
    "C80_unique",
    "C80_always_partial"
   ],
   "note": "False as stated: mount points are compared as text (refuted). Proved: exactly which device is found, for all tables; the deepest when no mount point merely looks like one above."
  },
  {
   "property": "C81",
   "status": "proved",
   "theorems": [
    "C81_disk",
    "C81_partition",
    "C81_other",
    "C81_capture"
   ],
   "note": ""
  },
  {
   "property": "C82",
   "status": "partial",
   "theorems": [
    "C82_foreign_refuted",
    "C82_restored_partial",
    "C82_foreign",
    "C82_set"
   ],
   "note": "False as stated: a handler not set from Python (None) cannot be restored and stops the loop (refuted). Proved when the handlers replaced were set from Python, also when startService raised half way. C82_foreign says exactly what stopService does when a handler was not set from Python."
  },
  {
   "property": "C83",
   "status": "partial",
   "theorems": [
    "C83_root_refuted",
    "C83_twice_refuted",
    "C83_found_partial",
    "C83_once_partial",
    "C83_given"
   ],
   "note": "False as stated: the root directory, and directories with a dot in the name (refuted). Proved otherwise."
  },
  {
   "property": "C84",
   "status": "partial",
   "theorems": [
    "C84_callers",
    "C84_unset_refuted",
    "C84_library_refuted",
    "C84_path_partial",
    "C84_python_partial",
    "C84_missing"
   ],
   "note": "False as stated: without PYTHONPATH the child gets an empty entry; directories whose name begins like the library's are left out (refuted). Proved otherwise."
  },
  {
   "property": "C85",
   "status": "partial",
   "theorems": [
    "C85_other_partial",
    "C85_initial_mode_refuted",
    "C85_initial_mode_partial"
   ],
   "note": "False as stated for another mode attribute than 'mode' (refuted). Proved for 'mode'; C85_other_partial: with any other attribute nobody sets, no instance has a mode or any method of the modes."
  },
  {
   "property": "C86",
   "status": "partial",
   "theorems": [
    "C86_unicode_refuted",
    "C86_sent_partial"
   ],
   "note": "False: no Unicode argument survives under Python 3 (refuted for all texts). What is sent is proved right: the UTF-8 of the text (C86_sent_partial)."
  },
  {
   "property": "C87",
   "status": "partial",
   "theorems": [
    "C87_connected_once_refuted",
    "C87_connected_partial"
   ],
   "note": "False as stated: a switch caused by a box with a body connects the inner protocol twice (refuted). Proved: never before the switch, exactly once without such a box."
  },
  {
   "property": "C88",
   "status": "proved",
   "theorems": [
    "C88_utc",
    "C88_zone",
    "C88_invalid"
   ],
   "note": ""
  },
  {
   "property": "C89",
   "status": "partial",
   "theorems": [
    "C89_python3_refuted",
    "C89_python2_partial",
    "C89_cmp_partial"
   ],
   "note": "False under Python 3: Times have no < (refuted). Proved for __cmp__, ==, and for < where it uses __cmp__."
  },
  {
   "property": "C90",
   "status": "proved",
   "theorems": [
    "C90_precision",
    "C90_next_month",
    "C90_next_year"
   ],
   "note": ""
  },
  {
   "property": "C91",
   "status": "proved",
   "theorems": [
    "C91_order",
    "C91_distinct"
   ],
   "note": ""
  },
  {
   "property": "C92",
   "status": "partial",
   "theorems": [
    "C92_second_refuted",
    "C92_second_partial",
    "C92_far_partial"
   ],
   "note": "False as stated: the seconds go through a float (refuted). Proved within 2^33 s of 1970 and for whole seconds. For every time: its second is written, or the next one if it is at most 15 microseconds away; only the last 15 microseconds of the calendar can raise."
  },
  {
   "property": "C93",
   "status": "proved",
   "theorems": [
    "C93_reads"
   ],
   "note": ""
  },
  {
   "property": "C94",
   "status": "partial",
   "theorems": [
    "C94_errors_refuted",
    "C94_errors_partial"
   ],
   "note": "False as stated: OverflowError for zones leading out of the calendar (refuted). Proved: no third kind of exception."
  },
  {
   "property": "C95",
   "status": "partial",
   "theorems": [
    "C95_errors_refuted",
    "C95_errors_partial",
    "C95_exact_partial"
   ],
   "note": "False as stated: AssertionError for letters that only case-fold to ASCII, OverflowError at the end of the calendar (refuted). Proved: no other exception; exact for ASCII away from the ends."
  },
  {
   "property": "C96",
   "status": "proved",
   "theorems": [
    "C96_days"
   ],
   "note": ""
  },
  {
   "property": "C97",
   "status": "partial",
   "theorems": [
    "C97_next_refuted",
    "C97_next_partial",
    "C97_now"
   ],
   "note": "False as stated: at 12:30 noon is half an hour ago (refuted). Proved: the first from the start of the current local hour on."
  },
  {
   "property": "C98",
   "status": "proved",
   "theorems": [
    "C98_case",
    "C98_space"
   ],
   "note": ""
  },
  {
   "property": "C99",
   "status": "proved",
   "theorems": [
    "C99_distinct"
   ],
   "note": ""
  },
  {
   "property": "C100",
   "status": "partial",
   "theorems": [
    "C100_round_refuted",
    "C100_round_partial",
    "C100_earlier",
    "C100_noon_refused"
   ],
   "note": "False as stated: what is written in the hour after noon cannot be read (refuted). Proved for all other times."
  },
  {
   "property": "C101",
   "status": "partial",
   "theorems": [
    "C101_due_refuted",
    "C101_due_partial",
    "C101_exact_partial",
    "C101_none"
   ],
   "note": "False as stated: nothing sorts the queue after a call is put off (refuted). Proved while no call's time is changed; and for all histories exactly which call is run (C101_exact_partial): the first in the order of the times at the last callLater, if it is due."
  },
  {
   "property": "C102",
   "status": "proved",
   "theorems": [
    "C102_parent",
    "C102_root",
    "C102_sibling"
   ],
   "note": ""
  },
  {
   "property": "C103",
   "status": "proved",
   "theorems": [
    "C103_outside",
    "C103_gone",
    "C103_works"
   ],
   "note": ""
  },
  {
   "property": "C104",
   "status": "proved",
   "theorems": [
    "C104_walk"
   ],
   "note": ""
  },
  {
   "property": "C105",
   "status": "partial",
   "theorems": [
    "C105_other_device_refuted",
    "C105_move_partial",
    "C105_works_partial"
   ],
   "note": "False as stated: between file systems moveTo raises AttributeError (secureSibling does not exist). Proved on one file system."
  },
  {
   "property": "C106",
   "status": "partial",
   "theorems": [
    "C106_full_disk_refuted",
    "C106_failures_partial"
   ],
   "note": "False as stated: what is still buffered when write returns is written as the file object is dropped, where errors are ignored, so the rename installs a truncated file. Proved when write hands everything over."
  },
  {
   "property": "C107",
   "status": "partial",
   "theorems": [
    "C107_timings",
    "C107_timing_refuted",
    "C107_quit_partial",
    "C107_output"
   ],
   "note": "False under Python 3: every byte kills the child (refuted). Proved for the other bytes and all other output."
  },
  {
   "property": "C108",
   "status": "partial",
   "theorems": [
    "C108_unreported_refuted",
    "C108_reported_partial",
    "C108_measured",
    "C108_unfinished"
   ],
   "note": "False as stated: nothing is reported of runs that timed out or died (refuted); a run that ends by itself has its overall report but not the one of the timed part, since under Python 3 no byte starts the timing (C107); and if no snapshot can be taken at the end the run is never finished (C108_unfinished). Proved: the overall report of every run that ended by itself, over all histories."
  },
  {
   "property": "C109",
   "status": "partial",
   "theorems": [
    "C109_threads_refuted",
    "C109_toggle_partial"
   ],
   "note": "False as stated: other threads keep tracing (refuted). Proved for this thread."
  },
  {
   "property": "C110",
   "status": "partial",
   "theorems": [
    "C110_python3_refuted",
    "C110_exception_refuted",
    "C110_depth_partial",
    "C110_exact_partial"
   ],
   "note": "False as stated: under Python 3 the first call raises AttributeError, which ends tracing before anything is printed (proved for all programs); under Python 2 an exception is counted like a return (refuted). Proved for Python 2 programs which meet no exception; and for all Python 2 programs the exact indentation (C110_exact_partial)."
  },
  {
   "property": "C111",
   "status": "partial",
   "theorems": [
    "C111_keyword_refuted",
    "C111_parameters_partial",
    "C111_exact_partial",
    "C111_given"
   ],
   "note": "False as stated for keyword-only parameters (refuted). Proved for all others. C111_exact_partial: it holds of exactly the functions without keyword-only parameters; C111_given says what is given for the others."
  },
  {
   "property": "C112",
   "status": "proved",
   "theorems": [
    "C112_never_confused",
    "C112_stays_up",
    "C112_in_order"
   ],
   "note": "Values are text, or bytes that are UTF-8, under keys that are not reserved; no protocol switch; TLS is taken to carry the same bytes. C112_stays_up: nothing but an error counted by the history ends the connection."
  },
  {
   "property": "C113",
   "status": "proved",
   "theorems": [
    "C113_answered"
   ],
   "note": "Values are text, or bytes that are UTF-8, under keys that are not reserved; no protocol switch."
  },
  {
   "property": "C114",
   "status": "partial",
   "theorems": [
    "C114_current_refuted",
    "C114_past_partial",
    "C114_raises"
   ],
   "note": "False as stated: stat results are remembered until restat (a removed file still exists, a new one does not), and islink is never True because stat follows links (refuted with witnesses). Proved: every answer was right at one moment since the last refresh, for every history; OSError is always current."
  },
  {
   "property": "C115",
   "status": "proved",
   "theorems": [
    "C115_exclusive",
    "C115_one",
    "C115_works"
   ],
   "note": ""
  },
  {
   "property": "C116",
   "status": "partial",
   "theorems": [
    "C116_star_refuted",
    "C116_sibling_partial",
    "C116_child",
    "C116_exists"
   ],
   "note": "False as stated: with the extension '*' and no parent directory siblingExtensionSearch raises OSError (refuted with a witness). Proved otherwise. Symbolic links are not modelled."
  },
  {
   "property": "C117",
   "status": "proved",
   "theorems": [
    "C117_get",
    "C117_set",
    "C117_delete",
    "C117_class",
    "C117_required"
   ],
   "note": ""
  },
  {
   "property": "C118",
   "status": "proved",
   "theorems": [
    "C118_in_order",
    "C118_write_calls_nobody",
    "C118_not_reentered",
    "C118_fires_once",
    "C118_nothing_stuck",
    "C118_lost"
   ],
   "note": ""
  },
  {
   "property": "C119",
   "status": "partial",
   "theorems": [
    "C119_told_refuted",
    "C119_once",
    "C119_fired",
    "C119_told_partial",
    "C119_next",
    "C119_only_answer",
    "C119_answer",
    "C119_failure",
    "C119_silent",
    "C119_lost",
    "C119_lost_once",
    "C119_connection"
   ],
   "note": "The full statement is false: a factory whose buildProtocol fails is asked for a protocol but not told of the failure (C119_told_refuted), and an error answer without code or description loses the Deferred (excluded by `forgot = []` in C119_told_partial). Everything else is proved without restriction."
  },
  {
   "property": "C120",
   "status": "proved",
   "theorems": [
    "C120_report",
    "C120_incomparable",
    "C120_captured"
   ],
   "note": "Floats and their text are parameters; getSize is a parameter of `take`."
  },
  {
   "property": "C121",
   "status": "proved",
   "theorems": [
    "C121_file"
   ],
   "note": ""
  },
  {
   "property": "C122",
   "status": "partial",
   "theorems": [
    "C122_disk_refuted",
    "C122_disk_partial",
    "C122_always_partial"
   ],
   "note": "False for disks whose names end in a digit (nvme0n1: refuted). Proved for all others, and what is taken in every case."
  },
  {
   "property": "C123",
   "status": "proved",
   "theorems": [
    "C123_call",
    "C123_once",
    "C123_returns",
    "C123_accepted"
   ],
   "note": "Commands that are not protocol switches; TLS is taken to carry the same bytes. fromTransport of the extra arguments is a parameter that does not raise."
  },
  {
   "property": "C124",
   "status": "proved",
   "theorems": [
    "C124_order",
    "C124_contents",
    "C124_stray",
    "C124_all"
   ],
   "note": "file and byte strings as in Python 2: under Python 3 every header raises NameError, for want of file."
  },
  {
   "property": "C125",
   "status": "proved",
   "theorems": [
    "C125_paths",
    "C125_parts",
    "C125_inside"
   ],
   "note": "Names without a slash. os.path.exists is a parameter that may answer differently for different spellings of a path."
  },
  {
   "property": "C126",
   "status": "partial",
   "theorems": [
    "C126_never_refuted",
    "C126_left_out_partial",
    "C126_bytes_partial"
   ],
   "note": "False of every value: what arrives is text, which has no decode under Python 3, and base64 is not a text encoding. True: such an argument arrives only as None, when it is optional and left out. What is written for such an argument is proved too (C126_bytes_partial)."
  },
  {
   "property": "C127",
   "status": "partial",
   "theorems": [
    "C127_link_refuted",
    "C127_remove_partial",
    "C127_reach_partial"
   ],
   "note": "False: remove follows a link to a directory, removes everything in that directory, fails, and leaves the link (proved of every such link, C127_link_refuted). Proved where no link at or below the path leads to a directory, with links to files and dangling links. With any links, all that is removed is what paths at or below the one removed name (C127_reach_partial)."
  },
  {
   "property": "C128",
   "status": "partial",
   "theorems": [
    "C128_through_link_refuted",
    "C128_copy_partial",
    "C128_reach_partial"
   ],
   "note": "False: a copy onto a link writes to what the link leads to (refuted). Proved for any links in the source, when there is none at, above or below the destination. With any links, only what paths at or below the destination lead to changes, and nothing is removed and no link or directory changed (C128_reach_partial)."
  },
  {
   "property": "C129",
   "status": "partial",
   "theorems": [
    "C129_loop_refuted",
    "C129_walk_partial",
    "C129_links_partial"
   ],
   "note": "False: a directory that is linked to from below is yielded again and again, until the limit of the operating system on links (proved for every limit, C129_loop_refuted). Proved where no link at or below the path leads to a directory. With any links, it ends and yields every existing path below exactly once (C129_links_partial); paths, not places, since two paths may lead to one place."
  },
  {
   "property": "C130",
   "status": "proved",
   "theorems": [
    "C130_copy",
    "C130_any"
   ],
   "note": ""
  },
  {
   "property": "C131",
   "status": "partial",
   "theorems": [
    "C131_later_refuted",
    "C131_told_partial",
    "C131_any"
   ],
   "note": "False as stated: None, and so skip, is ignored by the interpreter after the call event: a skip from trace_LINE, trace_EXCEPTION or trace_RETURN changes nothing (refuted). Proved: exactly who is told of what, and for arbitrary tracers that nothing else is told, that all calls are, and that only an exception ends it."
  },
  {
   "property": "C132",
   "status": "proved",
   "theorems": [
    "C132_made",
    "C132_works",
    "C132_refuses",
    "C132_one"
   ],
   "note": ""
  },
  {
   "property": "C133",
   "status": "proved",
   "theorems": [
    "C133_touched",
    "C133_works",
    "C133_must_create"
   ],
   "note": ""
  },
  {
   "property": "C134",
   "status": "partial",
   "theorems": [
    "C134_must_create_refuted",
    "C134_content_partial",
    "C134_works_partial",
    "C134_after_set"
   ],
   "note": "False of a path that is to be created always (C134_must_create_refuted): reading it makes an empty file there and returns the empty content. Otherwise proved (C134_content_partial, C134_works_partial, C134_after_set)."
  },
  {
   "property": "C135",
   "status": "partial",
   "theorems": [
    "C135_glob_refuted",
    "C135_dots_refuted",
    "C135_glob_partial",
    "C135_segments",
    "C135_plain",
    "C135_star",
    "C135_any"
   ],
   "note": "False where the directory's own path has '*', '?' or '[' in it, which glob takes for a pattern (C135_glob_refuted: children of another directory are given), and for the patterns '.' and '..' (C135_dots_refuted). Otherwise proved (C135_glob_partial); what matching means is proved for plain patterns, '*' and '?' (C135_plain, C135_star, C135_any); what a bracket stands for is a parameter. C135_segments gives exactly what is in the result for every path and patterns of several names."
  },
  {
   "property": "C136",
   "status": "partial",
   "theorems": [
    "C136_python3_refuted",
    "C136_order_partial",
    "C136_measured_partial"
   ],
   "note": "False under Python 3: START and STOP are texts, and os.write raises TypeError in every call (C136_python3_refuted). True under Python 2."
  },
  {
   "property": "C137",
   "status": "partial",
   "theorems": [
    "C137_argless_refuted",
    "C137_close_refuted",
    "C137_modules_partial"
   ],
   "note": "False for a ValueError raised without arguments, which ends it with IndexError (C137_argless_refuted), and when it is closed early: the bare except catches GeneratorExit and the names that follow are looked up; close raises RuntimeError if one can be imported (C137_close_refuted). Otherwise proved."
  },
  {
   "property": "C138",
   "status": "proved",
   "theorems": [
    "C138_regenerated"
   ],
   "note": ""
  },
  {
   "property": "C139",
   "status": "proved",
   "theorems": [
    "C139_certificate",
    "C139_bad"
   ],
   "note": ""
  },
  {
   "property": "C140",
   "status": "partial",
   "theorems": [
    "C140_whole_refuted",
    "C140_file_partial",
    "C140_usage_partial",
    "C140_works_partial"
   ],
   "note": "False: the file is emptied before the certificate is dumped (C140_whole_refuted). Proved: nothing changes until there is a certificate; then the file holds a prefix of the PEM, all of it on return; nothing else changes."
  },
  {
   "property": "C141",
   "status": "partial",
   "theorems": [
    "C141_python3_refuted",
    "C141_module_refuted",
    "C141_imported_refuted",
    "C141_seen_partial",
    "C141_attribute_partial",
    "C141_bound_partial",
    "C141_else"
   ],
   "note": "False under Python 3, where four of the installs raise and change nothing (C141_python3_refuted); of TimeoutMixin's module (C141_module_refuted: 'module' is set for '__module__'); of functions imported before (C141_imported_refuted). Otherwise proved; nothing else changes (C141_else)."
  },
  {
   "property": "C142",
   "status": "partial",
   "theorems": [
    "C142_kept_refuted",
    "C142_undone_partial",
    "C142_transparent"
   ],
   "note": "False of responders found by their command: an error they raise is caught inside the transaction, so what they did before is kept; the same if the answer cannot be encoded (C142_kept_refuted). Proved of juice_ methods and of boxes that cannot be decoded; wrapping changes no answer (C142_transparent)."
  },
  {
   "property": "C143",
   "status": "partial",
   "theorems": [
    "C143_relative_refuted",
    "C143_script_partial"
   ],
   "note": "False of relative names: the child is started in the new temporary directory (C143_relative_refuted). Proved for absolute names and for names written '../rel'; program, arguments and descriptors for all."
  },
  {
   "property": "C144",
   "status": "proved",
   "theorems": [
    "C144_outside",
    "C144_works",
    "C144_nameless"
   ],
   "note": ""
  },
  {
   "property": "C145",
   "status": "partial",
   "theorems": [
    "C145_links_refuted",
    "C145_size_partial",
    "C145_any_partial"
   ],
   "note": "False in the presence of links that lead somewhere: they count for what they lead to, and a directory linking to itself makes getSize raise (C145_links_refuted). Proved exactly for every tree from which links lead only to files or nowhere. With any links: the sizes seen at all existing paths below are added up (C145_any_partial)."
  },
  {
   "property": "C146",
   "status": "partial",
   "theorems": [
    "C146_refuted",
    "C146_equal_partial"
   ],
   "note": "False under Python 3 (identity; < raises), for '//a' against '/a', and of hashes under Python 2 (C146_refuted). Proved under Python 2: equal exactly if the texts lead to the same place with as many leading slashes; a total order."
  },
  {
   "property": "C147",
   "status": "partial",
   "theorems": [
    "C147_writes_partial",
    "C147_python3_refuted"
   ],
   "note": "False under Python 3, where every call raises NameError (C147_python3_refuted). Proved for every history under Python 2."
  },
  {
   "property": "C148",
   "status": "partial",
   "theorems": [
    "C148_short_refuted",
    "C148_three_partial",
    "C148_written_partial"
   ],
   "note": "False of versions of fewer than three numbers, which raise (C148_short_refuted). Proved exactly: a version is given just for texts that begin with three numbers (C148_three_partial)."
  },
  {
   "property": "C149",
   "status": "partial",
   "theorems": [
    "C149_text_refuted",
    "C149_text_partial",
    "C149_cancelled_partial"
   ],
   "note": "False after delay, when the seconds shown are those of before, and under Python 3 for calls with keyword arguments, whose text (and cancel, with debugging) raises AttributeError (C149_text_refuted). Otherwise proved, with the delay that is not activated yet subtracted."
  },
  {
   "property": "C150",
   "status": "partial",
   "theorems": [
    "C150_order_refuted",
    "C150_order_partial"
   ],
   "note": "False under Python 3 (no __lt__) and of calls that were delayed (C150_order_refuted). Proved: the order is that of the times the reactor looks at the calls, none later than the time of the call."
  },
  {
   "property": "C151",
   "status": "partial",
   "theorems": [
    "C151_refuted",
    "C151_unbind_when_stopped",
    "C151_stop_partial",
    "C151_bound_irrelevant",
    "C151_silent"
   ],
   "note": "False: a receiver that unbinds its route when it is stopped makes stopReceivingBoxes raise RuntimeError, the others are never stopped (C151_refuted, C151_unbind_when_stopped). Proved for receivers that bind and unbind nothing and start or stop no router, at any depth of calling back. The depth is bounded by a parameter that is shown to have no influence."
  },
  {
   "property": "C152",
   "status": "partial",
   "theorems": [
    "C152_refuted",
    "C152_bind_when_started",
    "C152_start_partial"
   ],
   "note": "False: connecting another route while the router starts starts that one twice; binding one raises RuntimeError and leaves a router that has its sender but does not run (C152_refuted, C152_bind_when_started). Proved for receivers that bind, unbind and connect nothing and start or stop no router."
  },
  {
   "property": "C153",
   "status": "partial",
   "theorems": [
    "C153_refuted",
    "C153_box_partial",
    "C153_sent",
    "C153_calls"
   ],
   "note": "False: the name stays in the caller's box (C153_refuted). Proved instead what exactly the box holds after any calls, and so what is sent."
  },
  {
   "property": "C154",
   "status": "partial",
   "theorems": [
    "C154_refuted",
    "C154_outcome_partial",
    "C154_succeeds_partial",
    "C154_failed",
    "C154_success",
    "C154_sent",
    "C154_decided",
    "C154_foreign"
   ],
   "note": "False for logins started while another one on the connection is not decided: the server keeps one user and challenge only, so the right password is rejected (C154_refuted). Proved for clients that wait, for every schedule; the provenance of a success, what is sent, the reasons of failures and that all logins are decided hold without that condition."
  },
  {
   "property": "C155",
   "status": "partial",
   "theorems": [
    "C155_refuted",
    "C155_answered_partial",
    "C155_once",
    "C155_told",
    "C155_receiver",
    "C155_stopped",
    "C155_logout_partial",
    "C155_order",
    "C155_plain"
   ],
   "note": "False of avatars that raise when started (the peer is told of an error, yet its boxes go to the avatar) and when stopped (never logged out). Proved whatever raises: one answer per decided login, with success exactly if the avatar started; the current receiver is told once of the end; logged out exactly once unless stopping raised."
  },
  {
   "property": "C156",
   "status": "partial",
   "theorems": [
    "C156_period_refuted",
    "C156_evaluates_partial",
    "C156_exact_partial",
    "C156_same"
   ],
   "note": "False as stated of periods: the resolution is not in the text, so a day and its first microsecond have the same repr (refuted). Proved: the expression is unique, evaluates to an equal Time with the finest resolution, and two reprs are the same exactly if the times compare equal; C156_exact_partial says which times come back as they were. datetime.fold is taken as 0."
  },
  {
   "property": "C157",
   "status": "partial",
   "theorems": [
    "C157_plain_refuted",
    "C157_get_partial",
    "C157_items_partial"
   ],
   "note": "False as stated for plain strings with capitals: they compare equal to the key but are not found (refuted, from C24). Proved for Caseless keys and plain strings in lower case, for every history and every hash."
  },
  {
   "property": "C158",
   "status": "partial",
   "theorems": [
    "C158_round_refuted",
    "C158_exact_partial",
    "C158_any_partial",
    "C158_struct_partial",
    "C158_fixed"
   ],
   "note": "False in the last hour of summer (refuted with the rule of New York in 2005): the time is shown, and read back, an hour late. Proved exactly when it comes back, for every rule of summer and, in terms of the offset of the local time, for any tzinfo. Modelled with the fromutc of datetime.tzinfo; tzinfos with their own fromutc and fold are not modelled."
  },
  {
   "property": "C159",
   "status": "partial",
   "theorems": [
    "C159_texts_refuted",
    "C159_iso_partial",
    "C159_rfc_partial"
   ],
   "note": "False in the last hour of summer (refuted). Proved what is read back at every time, for every rule of summer."
  },
  {
   "property": "C160",
   "status": "partial",
   "theorems": [
    "C160_clock_refuted",
    "C160_exact_partial"
   ],
   "note": "False in the hour before the clock is put forward (refuted: at 1:50 the time 2:30 is taken to be 1:30, in the past). Proved exactly which time results, when it is shown as typed and when it is in the past."
  },
  {
   "property": "C161",
   "status": "partial",
   "theorems": [
    "C161_calls_refuted",
    "C161_stranded_partial",
    "C161_once_partial",
    "C161_answers_partial",
    "C161_all_partial"
   ],
   "note": "False (C161_calls_refuted, all three parts): a login makes the avatar the receiver of boxes, so the answer to a call made before fires a call of the avatar with the same number, or breaks the connection, and a call open at the login never fires. C161_stranded_partial says exactly which calls a login strands; C161_once_partial holds in every history; C161_answers_partial and C161_all_partial give the full claim when logins succeed only while no call is open and only the current receiver calls. The dispatchers are Twisted's (assumed text in AuthCalls.v)."
  },
  {
   "property": "C162",
   "status": "partial",
   "theorems": [
    "C162_docstring_refuted",
    "C162_kept_partial",
    "C162_replaced_partial"
   ],
   "note": "False of every modal class that defines a mode: Python binds __doc__ in every mode class, so the docstring of the modal class is replaced by a modal method and reading it raises (C162_docstring_refuted, for all such classes). C162_kept_partial and C162_replaced_partial: kept is exactly what no mode binds."
  },
  {
   "property": "C163",
   "status": "partial",
   "theorems": [
    "C163_used_up_refuted",
    "C163_exact_partial",
    "C163_left_partial"
   ],
   "note": "False for every pad (C163_used_up_refuted): the checker removes the pad before the realm is asked, so a login that fails there, or as the avatar starts, uses it up. C163_exact_partial gives the outcome of every attempt in every history; C163_left_partial the pads that remain."
  },
  {
   "property": "C164",
   "status": "partial",
   "theorems": [
    "C164_refuted",
    "C164_send_partial",
    "C164_receive_partial",
    "C164_unnamed_partial"
   ],
   "note": "False (C164_refuted): the router's key and names are text, the connection's keys and values bytes. C164_send_partial: every send through a route with a name raises TypeError and writes nothing. C164_receive_partial: every box off the connection goes to the receiver bound under None. C164_unnamed_partial: unnamed routes work end to end. Twisted's AmpBox.serialize and its parser are assumed, as documented."
  },
  {
   "property": "C165",
   "status": "partial",
   "theorems": [
    "C165_missed_refuted",
    "C165_sound_partial",
    "C165_fixed_partial",
    "C165_fault"
   ],
   "note": "False for faults other than the one it was written for (C165_missed_refuted). Proved: no false alarm (C165_sound_partial); the known fault is found and fixed (C165_fixed_partial); exactly when that fault shows, in every history (C165_fault)."
  },
  {
   "property": "C166",
   "status": "partial",
   "theorems": [
    "C166_refuted",
    "C166_below",
    "C166_above_partial",
    "C166_works_partial"
   ],
   "note": "False: copied to a place in it, a directory makes directory in directory for ever, and a copy to a place above may overwrite what is still to be copied (C166_refuted). Proved: a copy to a place below never ends normally, whatever there is and whatever fails (C166_below); a copy to a place above is exact, leaves the source, and works when nothing fails, unless the source has an entry of the name leading back to it (C166_above_partial, C166_works_partial)."
  },
  {
   "property": "C167",
   "status": "partial",
   "theorems": [
    "C167_midnight_refuted",
    "C167_exact_partial",
    "C167_any_partial"
   ],
   "note": "False where the clock is put forward at midnight (refuted: in the evening before, midnight is taken to be 23:00). Proved exactly which time results, when it is shown as typed and when it is before the current hour; for any tzinfo, which local time is read."
  },
  {
   "property": "C168",
   "status": "partial",
   "theorems": [
    "C168_bounds_refuted",
    "C168_steady_partial",
    "C168_any_partial"
   ],
   "note": "False: in Python 3 getBounds always raises TypeError, as Times have no order; with the order of Python 2, the bounds of the last day before summer end an hour before the day where the clock is put forward at midnight (C168_bounds_refuted). Proved with the order of Python 2: holds if the clock is not changed around the start and the end of the period, and for any tzinfo what the bounds are."
  },
  {
   "property": "C169",
   "status": "partial",
   "theorems": [
    "C169_none_refuted",
    "C169_equal_partial",
    "C169_order_partial",
    "C169_list_partial",
    "C169_contains_partial",
    "C169_tuple_partial",
    "C169_text"
   ],
   "note": "False of objects without a lower method, such as None (refuted for every Caseless). Proved exactly when ==, !=, <, in a list, in a Caseless and startswith of a tuple raise and what they answer otherwise, for text, bytes and other objects on either side."
  },
  {
   "property": "C170",
   "status": "proved",
   "theorems": [
    "C170_sorted",
    "C170_case",
    "C170_again"
   ],
   "note": ""
  },
  {
   "property": "C171",
   "status": "partial",
   "theorems": [
    "C171_same_refuted",
    "C171_exact_partial"
   ],
   "note": "False around the end of summer (refuted: half past six and half past seven UTC are both 02:30:00 am in New York). Proved exactly when the texts are the same."
  },
  {
   "property": "C172",
   "status": "partial",
   "theorems": [
    "C172_typed_refuted",
    "C172_exact_partial"
   ],
   "note": "False in the last hour of summer (refuted). Proved: the minute of the Time, later by the saving exactly in that hour. Which texts fromHumanly takes for a clock time is C67 and C100 (not those of the hour after noon)."
  },
  {
   "property": "C173",
   "status": "partial",
   "theorems": [
    "C173_zone_refuted",
    "C173_words_partial",
    "C173_weekday_partial",
    "C173_shown_partial"
   ],
   "note": "False as stated: the tzinfo is not looked at for day words, the date is UTC's (refuted: on the evening of the sixth in New York 'today' is the seventh and 'tuesday' is eight days ahead). Proved exactly: the words miss by the number of days UTC's date is ahead, at most one; a weekday is wrong in two cases only; 'today' is shown as today iff the dates agree."
  },
  {
   "property": "C174",
   "status": "proved",
   "theorems": [
    "C174_made"
   ],
   "note": "Values other than strings for the two attributes are outside the model, hence the hypothesis."
  },
  {
   "property": "C175",
   "status": "partial",
   "theorems": [
    "C175_diamond_refuted",
    "C175_attribute_partial",
    "C175_own_partial",
    "C175_initial_partial",
    "C175_mro_partial"
   ],
   "note": "False when an ancestor is reached in two ways: the library's depth-first search and Python's MRO differ (refuted with the usual diamond: the methods look at 'x' while the class says 'y'). Proved: the mode attribute when the hierarchy is a tree or the body names it; the initial mode always (it is copied into the class). The MRO is the C3 linearization, modelled in ModalMro.v."
  },
  {
   "property": "C176",
   "status": "partial",
   "theorems": [
    "C176_early_refuted",
    "C176_others_refuted",
    "C176_unbind_partial",
    "C176_receive_partial"
   ],
   "note": "False as stated: before the start of the router TypeError is raised, and the name is unbound even if it belongs to a newer route (both refuted). Proved: the exact outcome in every state, and which boxes are then refused or treated as before."
  },
  {
   "property": "C177",
   "status": "partial",
   "theorems": [
    "C177_lost_refuted",
    "C177_carried_partial",
    "C177_order_partial"
   ],
   "note": "False as stated: an exception of one end (or the TypeError which debug mode raises under Python 3) loses what had been read for both (refuted). Proved: exact while no pump raises; in any case nothing is repeated, reordered or invented. Writes of text, which FileWrapper ignores, do not count as written."
  },
  {
   "property": "C178",
   "status": "partial",
   "theorems": [
    "C178_flush_refuted",
    "C178_rounds_partial",
    "C178_returns_partial"
   ],
   "note": "False as stated: what a streaming producer writes when resumed is left, and a thousand rounds are too many even if they were the last (refuted). Proved: the exact number of rounds, what the result says, that both ends are told of a loss, and that nothing is left without producers."
  },
  {
   "property": "C179",
   "status": "partial",
   "theorems": [
    "C179_late_refuted",
    "C179_once_partial",
    "C179_after_partial"
   ],
   "note": "False as stated: the end that closes is told last, and what it writes meanwhile is delivered (refuted). Proved: told at most once, always; all that was written before has been received, and afterwards exactly what is written afterwards arrives (no producers, no exceptions)."
  },
  {
   "property": "C180",
   "status": "partial",
   "theorems": [
    "C180_already_refuted",
    "C180_later_partial",
    "C180_exact_partial"
   ],
   "note": "False for a Deferred that already has its result: the reactor is stopped before it runs, which fails, and then runs for ever (refuted). Proved for results that come while the reactor runs, as those of BenchmarkProcess do."
  },
  {
   "property": "C181",
   "status": "partial",
   "theorems": [
    "C181_new_refuted",
    "C181_full_refuted",
    "C181_apart_partial",
    "C181_read_partial",
    "C181_bytes_partial"
   ],
   "note": "False when two processes give the same extension, as they do by default ('.new'): the call of one returns and the file then holds a mix of both contents, and the other call fails (refuted). Proved for different non-empty extensions (variable, readers, order, nothing else changed), and for any extensions where each byte can come from. Hard links, directories and failing system calls are not in this model."
  },
  {
   "property": "C182",
   "status": "proved",
   "theorems": [
    "C182_responder",
    "C182_answer",
    "C182_ignored",
    "C182_called"
   ],
   "note": "Proved for all declarations, transports and boxes. The Q2Q address is any object with a domain and a resource; methods of the transport may raise."
  },
  {
   "property": "C183",
   "status": "partial",
   "theorems": [
    "C183_limit_refuted",
    "C183_declared_refuted",
    "C183_line_partial",
    "C183_box_partial"
   ],
   "note": "False: MAX_LINE_LENGTH and MAX_LENGTH are declared and never used; any amount is buffered and a line of any length delivered (refuted for every size and every plain receiver). Proved: a LineReceiver buffers just the end of the stream that was not delivered, without a complete line, and nothing in raw mode; a Juice connection holds no more than what came since the last box was delivered (one byte more after a negative length), exactly that outside bodies. Counted are the bytes of lines and body, not the parsed headers of a box whose body is awaited."
  },
  {
   "property": "C184",
   "status": "partial",
   "theorems": [
    "C184_threads_refuted",
    "C184_full_refuted",
    "C184_lost_refuted",
    "C184_alone_partial",
    "C184_made_partial",
    "C184_calls_partial",
    "C184_last_partial",
    "C184_settled_partial"
   ],
   "note": "Refuted: two threads that both find nothing both call the function, a third thread sees the value change, and a value already returned can be replaced by None (C184_lost_refuted). Proved: if no access begins while another is making the value, all values returned are the same; under every interleaving what is returned came from a call of the function, the function (never returning None) is not called once a value was returned, an access that does not call it returns what was returned last, and once nobody is making a value the last one stays for good."
  },
  {
   "property": "C185",
   "status": "partial",
   "theorems": [
    "C185_alone_partial",
    "C185_race_refuted",
    "C185_full_refuted",
    "C185_once_partial",
    "C185_there_partial",
    "C185_changes_partial",
    "C185_works_partial",
    "C185_one_partial"
   ],
   "note": "Refuted: of two processes that make one path the second gets FileExistsError, and so does one whose directory another process made on the way to a path below. Proved for every interleaving, all failures and all kills: at most one call ends normally per path; after a normal end or FileExistsError the path is there for good; only directories leading to the asked paths are new; on a clear way a makedirs that is not killed and whose calls do not fail by themselves ends within 2n+1 system calls, never otherwise than normally or with FileExistsError, and its path is a directory then; if all ask for one path, exactly one of those that ended was first. C185_alone_partial ties this model to the one of C132: a process alone ends as makedirs there does and leaves the same tree."
  }
 ]
}