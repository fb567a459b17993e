{
 "claims": [
  {
   "property": "C01",
   "status": "proved",
   "theorems": [
    "C01_int_to_text_to_int",
    "C01_text_to_int_to_text",
    "C01_decode_ignores_case",
    "C01_decode_succeeds_iff",
    "C01_decode_rejects",
    "C01_nonpositive_is_empty"
   ],
   "note": "Characters are 8-bit; encode/decode proved mutually inverse on canonical numerals, KeyError exactly on non-digits."
  },
  {
   "property": "C02",
   "status": "proved",
   "theorems": [
    "C02_hex_to_base32_same_number",
    "C02_digests_never_collide",
    "C02_zero_digest_is_empty_text"
   ],
   "note": "Finding: convert_base16_to_base32('0...0') is '' while '' gives '0'; both denote 0 (C02_zero_digest_is_empty_text). Proved for strings of hex digits; the sign/0x/underscore forms also accepted by Python's int(.,16) are not modelled."
  },
  {
   "property": "C03",
   "status": "proved",
   "theorems": [
    "C03_random_signature_shape",
    "C03_hash_signature_is_signature_of_number",
    "C03_signature_equality"
   ],
   "note": "The digest itself (joblib/sha256) and uuid4 are parameters."
  },
  {
   "property": "C04",
   "status": "proved",
   "theorems": [
    "C04_address_text_determines_parts",
    "C04_address_text_total"
   ],
   "note": "Dimensions/lengths are non-negative integers. Finding: 0-d shapes get the descriptor 'sha_' (still unambiguous)."
  },
  {
   "property": "C05",
   "status": "proved",
   "theorems": [
    "C05_with_blocks_restore_stack"
   ],
   "note": "Programs: with-blocks on existing/new/best portals, raise, try, sequencing. Resets inside a with-block are not block-structured and excluded."
  },
  {
   "property": "C06",
   "status": "proved",
   "theorems": [
    "C06_current_is_innermost",
    "C06_exit_succeeds_iff_current",
    "C06_k_enters_need_k_exits"
   ],
   "note": ""
  },
  {
   "property": "C07",
   "status": "proved",
   "theorems": [
    "C07_out_of_order_exit_rejected",
    "C07_exit_all_empties_stack"
   ],
   "note": ""
  },
  {
   "property": "C08",
   "status": "proved",
   "theorems": [
    "C08_entered_portals_exact",
    "C08_first_occurrences_nodup",
    "C08_first_occurrences_members"
   ],
   "note": "The per-event consequence is proved in the logging model (C53, C54)."
  },
  {
   "property": "C09",
   "status": "proved",
   "theorems": [
    "C09_noncurrent_portals_exact",
    "C09_known_portals_nodup"
   ],
   "note": ""
  },
  {
   "property": "C10",
   "status": "partial",
   "theorems": [
    "C10_portal_selection_priority",
    "C10_default_becomes_known_partial"
   ],
   "note": "Priority proved for all histories; that the default portal becomes known needs the C12 side condition (resets through DefaultLocalPortal), refuted otherwise (C12_default_portal_after_reset_refuted)."
  },
  {
   "property": "C11",
   "status": "partial",
   "theorems": [
    "C11_new_object",
    "C11_copy_uses_current_portal",
    "C11_bound_for_life",
    "C11_restored_object_uses_current_portal",
    "C11_late_binding",
    "C11_value_address_never_rebinds_refuted"
   ],
   "note": "Proved for the generic portal-aware protocol; false for ValueAddr, which overrides `portal` (value_addresses.py:72-74) and never captures a portal later."
  },
  {
   "property": "C12",
   "status": "partial",
   "theorems": [
    "C12_default_portal_usable_partial",
    "C12_default_portal_after_reset_refuted"
   ],
   "note": "False after a reset through a base class, e.g. pth.initialize (C12_default_portal_after_reset_refuted); proved when all resets go through DefaultLocalPortal."
  },
  {
   "property": "C13",
   "status": "proved",
   "theorems": [
    "C13_first_value_wins",
    "C13_reads"
   ],
   "note": "Sequential use; each assignment may meet one transient backend error (before or after taking effect)."
  },
  {
   "property": "C14",
   "status": "proved",
   "theorems": [
    "C14_reassignment_check_exact",
    "C14_first_assignment_succeeds",
    "C14_no_checks",
    "C14_always_checks",
    "C14_counters"
   ],
   "note": "DeepDiff is an arbitrary reflexive comparison; draws are arbitrary rationals."
  },
  {
   "property": "C15",
   "status": "proved",
   "theorems": [
    "C15_first_write_wins",
    "C15_at_most_one_write",
    "C15_append_only",
    "C15_no_failure_from_races",
    "C15_outcomes_stay",
    "C15_wait_free"
   ],
   "note": "Any number of processes, any interleaving of single backend operations, processes may be killed anywhere; also wait-freedom."
  },
  {
   "property": "C16",
   "status": "proved",
   "theorems": [
    "C16_content_addressed_safe",
    "C16_content_addressed_stable",
    "C16_content_addressed_no_failure",
    "C16_arbitrary_keys_refuted"
   ],
   "note": "Both backends; for arbitrary keys first-writer-wins is refuted over a check-then-write backend (C16_arbitrary_keys_refuted), as the statement says."
  },
  {
   "property": "C17",
   "status": "partial",
   "theorems": [
    "C17_store_get_round_trip",
    "C17_where_a_value_goes",
    "C17_store_never_fails",
    "C17_derived_addresses_partial",
    "C17_restored_address_fails_refuted",
    "C17_restored_outside_with_fails_refuted"
   ],
   "note": "Round trip through the address object and its copies proved for every later history; restored pickles and rebuilt addresses proved when the storing portal is the address's own portal or not current; refuted otherwise (get ignores the current portal; unpickling outside any with leaves no portal)."
  },
  {
   "property": "C18",
   "status": "proved",
   "theorems": [
    "C18_content_addressed_append_only"
   ],
   "note": ""
  },
  {
   "property": "C19",
   "status": "proved",
   "theorems": [
    "C19_cross_portal_copy"
   ],
   "note": ""
  },
  {
   "property": "C20",
   "status": "partial",
   "theorems": [
    "C20_ready_implies_gettable_partial",
    "C20_ready_but_not_gettable_refuted",
    "C20_asserted_readiness_checked"
   ],
   "note": "Proved when ValueAddr(address) is only applied to addresses whose value is present; refuted otherwise (constructor sets ready without checking)."
  },
  {
   "property": "C21",
   "status": "partial",
   "theorems": [
    "C21_get_finds_value_partial",
    "C21_get_error_exact",
    "C21_ready_exact_partial",
    "C21_value_of_current_portal_not_found_refuted"
   ],
   "note": "Exact characterisation proved; refuted when only the current portal holds the value and the address is bound to another one."
  },
  {
   "property": "C22",
   "status": "proved",
   "theorems": [
    "C22_equal_iff_same_kind_and_text",
    "C22_equivalence",
    "C22_independent_of_portal_and_cache"
   ],
   "note": ""
  },
  {
   "property": "C23",
   "status": "proved",
   "theorems": [
    "C23_argument_order_irrelevant",
    "C23_sorted_by_name"
   ],
   "note": ""
  },
  {
   "property": "C24",
   "status": "proved",
   "theorems": [
    "C24_pack_unpack_round_trip",
    "C24_pack_idempotent",
    "C24_value_or_address",
    "C24_pack_injective",
    "C24_result_address_packs_as_signature"
   ],
   "note": "under the stated hypotheses (ideal hash for injectivity); also the finding that a RESULT address passed as an argument packs as its call signature"
  },
  {
   "property": "C25",
   "status": "proved",
   "theorems": [
    "C25_all_routes_agree",
    "C25_addresses_distinguish_calls"
   ],
   "note": "injectivity modulo hash collisions (stated as a hypothesis, shown satisfiable)"
  },
  {
   "property": "C26",
   "status": "proved",
   "theorems": [
    "C26_name_found",
    "C26_no_function",
    "C26_lines"
   ],
   "note": ""
  },
  {
   "property": "C27",
   "status": "partial",
   "theorems": [
    "C27_normal_form_stable_partial",
    "C27_idempotent_partial",
    "C27_two_strings_refuted"
   ],
   "note": "Proved for functions in which no body begins with two string statements, assuming the printer and parser round-trip on the normal form; refuted for two leading strings."
  },
  {
   "property": "C28",
   "status": "proved",
   "theorems": [
    "C28_exactly_same_code",
    "C28_texts"
   ],
   "note": "Exact characterisation on syntax trees; on texts assuming ast.unparse/autopep8/ast.parse read back the printed normal form."
  },
  {
   "property": "C29",
   "status": "partial",
   "theorems": [
    "C29_accepted_partial",
    "C29_annotated_variable_refuted",
    "C29_safe_decorator_refuted"
   ],
   "note": "Proved for functions without annotated variables and with one of the four listed decorators; refuted: annotated local variables make normalisation fail, @pth.safe() functions are refused."
  },
  {
   "property": "C30",
   "status": "partial",
   "theorems": [
    "C30_only_blank_lines_and_indent",
    "C30_succeeds",
    "C30_clean_code_kept",
    "C30_string_loses_blank_line_refuted",
    "C30_string_loses_indent_refuted",
    "C30_left_margin_rejected_refuted"
   ],
   "note": "First part proved for all plain-whitespace sources; the last part (string literals keep their value) is refuted: blank lines and indents inside multi-line strings are changed, and indented functions with a string or comment at the left margin are rejected."
  },
  {
   "property": "C31",
   "status": "proved",
   "theorems": [
    "C31_only_header_renamed",
    "C31_names_distinct",
    "C31_recursion_uses_wrapper",
    "C31_dependencies_use_island",
    "C31_function_named_pth_refuted"
   ],
   "note": ""
  },
  {
   "property": "C32",
   "status": "partial",
   "theorems": [
    "C32_outside_names_reported_partial",
    "C32_passing_means_autonomous_partial",
    "C32_misses_refuted"
   ],
   "note": "Proved for all trees: every name Python looks up outside is reported or has an inner scope of its own (comprehension variable, class body, async def, lambda, header of a nested function). The full claim is false: eight functions with an outside name that pass."
  },
  {
   "property": "C33",
   "status": "partial",
   "theorems": [
    "C33_reported_names_partial",
    "C33_accepted_partial",
    "C33_rejects_refuted"
   ],
   "note": "Proved: reported names are exactly those whose first occurrence is a read; functions that bind names before reading are accepted. The full claim is false: nine self-contained functions that are rejected."
  },
  {
   "property": "C34",
   "status": "partial",
   "theorems": [
    "C34_yield_rejected",
    "C34_unbound_nonlocal_rejected",
    "C34_missed_refuted"
   ],
   "note": "Proved, except for yield in the header of a nested function and nonlocal names equal to a decorator name, for which the claim is refuted; that nothing is registered is part of C37."
  },
  {
   "property": "C35",
   "status": "proved",
   "theorems": [
    "C35_dependencies_are_closure"
   ],
   "note": "Name sets per function are inputs here; how they are computed is C32-C34."
  },
  {
   "property": "C36",
   "status": "proved",
   "theorems": [
    "C36_direct_dependencies_exact"
   ],
   "note": ""
  },
  {
   "property": "C37",
   "status": "proved",
   "theorems": [
    "C37_definition",
    "C37_never_replaced",
    "C37_islands_apart"
   ],
   "note": "definition, never replaced, islands apart: over all reachable sessions (definitions, wrapping, calls, pickling, unpickling, failed or not)"
  },
  {
   "property": "C38",
   "status": "partial",
   "theorems": [
    "C38_redecorate_partial",
    "C38_refuted"
   ],
   "note": "refuted as stated (C38_refuted: four witnesses); proved when the decorator and guards are those the function has now and it was not completed through another object"
  },
  {
   "property": "C39",
   "status": "partial",
   "theorems": [
    "C39_contents_partial",
    "C39_stable_partial",
    "C39_same_code_partial",
    "C39_refuted"
   ],
   "note": "refuted as stated (C39_refuted: depends on earlier calls of helpers and on when helpers are defined); proved: contents at first use, stability ever after, equality for equal code across sessions"
  },
  {
   "property": "C40",
   "status": "partial",
   "theorems": [
    "C40_restore_partial",
    "C40_refuted_guard_after",
    "C40_refuted_guarded_helper",
    "C40_refuted_guard_helper",
    "C40_refuted_other_state",
    "C40_restores_iff_guards_first",
    "C40_guards_first_by_name"
   ],
   "note": "refuted as stated (four C40_refuted_* witnesses); proved exactly when a state is restored where its island is unknown: when every guard precedes its user in the state (C40_restores_iff_guards_first), for normalised sources and the computed strictness flag"
  },
  {
   "property": "C41",
   "status": "proved",
   "theorems": [
    "C41_stored_result_is_returned",
    "C41_success_is_stored"
   ],
   "note": "without consistency checks, after any crash-prone history"
  },
  {
   "property": "C42",
   "status": "partial",
   "theorems": [
    "C42_caching_is_transparent_partial",
    "C42_evaluation_is_unique",
    "C42_caching_of_addresses_refuted"
   ],
   "note": "proved for functions that return values and call each other with values; refuted for functions returning addresses (C42_caching_of_addresses_refuted)"
  },
  {
   "property": "C43",
   "status": "proved",
   "theorems": [
    "C43_failed_call_stores_no_result",
    "C43_failed_call_never_stored"
   ],
   "note": ""
  },
  {
   "property": "C44",
   "status": "partial",
   "theorems": [
    "C44_nothing_is_lost",
    "C44_stores_stay_sound_partial",
    "C44_nothing_is_lost_partial",
    "C44_dangling_result_refuted"
   ],
   "note": "That nothing is lost is proved for arbitrary functions (C44_nothing_is_lost); that results resolve is proved for functions returning values and refuted when a body returns an unstored address (C44_dangling_result_refuted)"
  },
  {
   "property": "C45",
   "status": "partial",
   "theorems": [
    "C45_execution_requested",
    "C45_request_execution",
    "C45_other_requests_unchanged",
    "C45_request_idempotent",
    "C45_drop_execution_request",
    "C45_executed_call_leaves_no_request_partial",
    "C45_request_left_behind_refuted"
   ],
   "note": "all parts proved; 'a successful call leaves no request' proved for executed calls, refuted for calls answered from another portal (C45_request_left_behind_refuted)"
  },
  {
   "property": "C46",
   "status": "partial",
   "theorems": [
    "C46_rejected_call_is_not_executed_partial",
    "C46_all_routes_agree_partial",
    "C46_guards_depend_on_route_refuted"
   ],
   "note": "proved for guards that treat a value and its address alike; refuted for argument-inspecting guards (C46_guards_depend_on_route_refuted)"
  },
  {
   "property": "C47",
   "status": "proved",
   "theorems": [
    "C47_not_checked",
    "C47_checked",
    "C47_check_of_deterministic_function_succeeds"
   ],
   "note": ""
  },
  {
   "property": "C48",
   "status": "proved",
   "theorems": [
    "C48_swarm_list",
    "C48_run_list",
    "C48_run_list_exception"
   ],
   "note": ""
  },
  {
   "property": "C49",
   "status": "proved",
   "theorems": [
    "C49_get_ends_in_time",
    "C49_no_timeout_waits",
    "C49_no_timeout_never_raises",
    "C49_stored_but_timeout"
   ],
   "note": "Rational clock; ready-ness, lateness of sleeps and jitter are arbitrary. Finding: no look after the last sleep (C49_stored_but_timeout)."
  },
  {
   "property": "C50",
   "status": "proved",
   "theorems": [
    "C50_retry_policy",
    "C50_six_attempts_never_again"
   ],
   "note": ""
  },
  {
   "property": "C51",
   "status": "partial",
   "theorems": [
    "C51_eventual_execution_refuted",
    "C51_queue_drained_partial",
    "C51_five_failures_survived_partial",
    "C51_at_most_six_starts"
   ],
   "note": "False: after six killed attempts a call is never executed again (C51_eventual_execution_refuted). Proved: queue drained when executions finish; up to five killed attempts are survived. Endless new requests: C125 (under fairness)."
  },
  {
   "property": "C52",
   "status": "proved",
   "theorems": [
    "C52_concurrent_execution",
    "C52_no_request_lost"
   ],
   "note": ""
  },
  {
   "property": "C53",
   "status": "partial",
   "theorems": [
    "C53_logs_stay_ok",
    "C53_at_most_once",
    "C53_first_boundary_partial",
    "C53_function_boundary_partial",
    "C53_autonomous_function_partial",
    "C53_never_again",
    "C53_nested_portals",
    "C53_run_history_partial",
    "C53_marked_outside_portals_refuted",
    "C53_shared_place_refuted"
   ],
   "note": "Proved when entered portals have separate root directories and the exception first reaches a portal or function boundary with a portal entered; refuted for shared directories (finding 27) and for functions run outside any entered portal (the exception is marked but recorded nowhere)."
  },
  {
   "property": "C54",
   "status": "proved",
   "theorems": [
    "C54_user_data_kept",
    "C54_name_is_found",
    "C54_event_reaches_every_entered_portal"
   ],
   "note": ""
  },
  {
   "property": "C55",
   "status": "partial",
   "theorems": [
    "C55_logging_events_partial",
    "C55_same_id_twice_refuted"
   ],
   "note": "Proved for automatically chosen ids and for distinct ids; refuted: the same event_id twice on the same day raises."
  },
  {
   "property": "C56",
   "status": "partial",
   "theorems": [
    "C56_no_crash_records_partial",
    "C56_successful_get_refuted",
    "C56_handler_refuted"
   ],
   "note": "Proved for programs that handle no exceptions inside; refuted: fetching a value from another portal records a KeyError crash; a portal entered inside an exception handler records the handled exception."
  },
  {
   "property": "C57",
   "status": "proved",
   "theorems": [
    "C57_reachable_states",
    "C57_everything_captured",
    "C57_streams_restored",
    "C57_output_still_printed",
    "C57_handler_added_inside_refuted"
   ],
   "note": "For programs that install no logging handlers inside the capturer (shown necessary: C57_handler_added_inside_refuted)."
  },
  {
   "property": "C58",
   "status": "partial",
   "theorems": [
    "C58_same_logging_partial",
    "C58_levels_ignored_refuted",
    "C58_default_warnings_lost_refuted",
    "C58_added_handler_dropped_refuted"
   ],
   "note": "Proved when a handler is configured and all handlers accept the logged records; refuted: levels and filters of the configured handlers are ignored, default (unconfigured) warnings are lost, handlers installed inside are dropped."
  },
  {
   "property": "C59",
   "status": "partial",
   "theorems": [
    "C59_live_until_record_changes_partial",
    "C59_live_only_if_newest",
    "C59_clearing_old_portal_kills_new_refuted"
   ],
   "note": "False as stated: clearing an older portal (or the exit of a process holding one) over the same location deletes the newest portal's record. Exact conditions proved."
  },
  {
   "property": "C60",
   "status": "proved",
   "theorems": [
    "C60_only_eligible_requests",
    "C60_stops_without_parent",
    "C60_progress"
   ],
   "note": "Everything the worker reads may change between passes; eligibility is as seen in the pass that found the call."
  },
  {
   "property": "C61",
   "status": "partial",
   "theorems": [
    "C61_one_record_per_run",
    "C61_records_show_own_run_partial",
    "C61_record_mixup_refuted"
   ],
   "note": "Proved when session ids have one length and do not occur in exception names; refuted for ids of different lengths (one id part of another): a record of a killed run then shows another run's output and result."
  },
  {
   "property": "C62",
   "status": "proved",
   "theorems": [
    "C62_dict_round_trip",
    "C62_keywords_meaning",
    "C62_literals",
    "C62_non_literal_rejected"
   ],
   "note": "values are constants (what ast.Str accepts); literal_eval modelled for constants, tuples and lists"
  },
  {
   "property": "C63",
   "status": "proved",
   "theorems": [
    "C63_part_parameters",
    "C63_parts_are_the_given_names"
   ],
   "note": ""
  },
  {
   "property": "C64",
   "status": "partial",
   "theorems": [
    "C64_uncaught_through_with_partial",
    "C64_hook_records_nothing_refuted"
   ],
   "note": "Proved for exceptions that leave a 'with' block; refuted: the installed hook itself records nothing (it reads sys.exc_info(), which is empty in the hook)."
  },
  {
   "property": "C65",
   "status": "partial",
   "theorems": [
    "C65_hook_installed_partial",
    "C65_hook_not_restored_refuted"
   ],
   "note": "The hook is installed while a portal exists; refuted: the previous hook is never restored (a missing global declaration)."
  },
  {
   "property": "C66",
   "status": "proved",
   "theorems": [
    "C66_suppressed",
    "C66_silence",
    "C66_handler_added_inside_refuted"
   ],
   "note": "For programs that install no logging handlers inside the suppressor (shown necessary: C66_handler_added_inside_refuted)."
  },
  {
   "property": "C67",
   "status": "partial",
   "theorems": [
    "C67_early_call_partial",
    "C67_used_call_partial",
    "C67_refuted"
   ],
   "note": "refuted as stated (C67_refuted); proved: the exact trace of an early call, and that calling a used function changes nothing"
  },
  {
   "property": "C68",
   "status": "partial",
   "theorems": [
    "C68_wrapping_partial",
    "C68_refuted"
   ],
   "note": "refuted as stated (C68_refuted); proved: wrapping itself changes no existing object and no registration"
  },
  {
   "property": "C69",
   "status": "partial",
   "theorems": [
    "C69_call_sees_registered_partial",
    "C69_refuted"
   ],
   "note": "refuted for AutonomousFn objects made from a function of another portal (C69_refuted); proved over all sessions without such wrapping (plainly_reachable)"
  },
  {
   "property": "C70",
   "status": "partial",
   "theorems": [
    "C70_failed_construction_refuted",
    "C70_other_portals_must_be_capable",
    "C70_other_portals_are_asked",
    "C70_no_trace_iff_partial",
    "C70_others_untouched"
   ],
   "note": "Refuted: half-built portals stay registered; exact characterisation of when no trace is left, frame theorem."
  },
  {
   "property": "C71",
   "status": "partial",
   "theorems": [
    "C71_reset_refuted",
    "C71_reset_fails_iff",
    "C71_reset_works_partial",
    "C71_default_portal_after_its_reset"
   ],
   "note": "Refuted: one failed SwarmingPortal construction blocks all later resets; exact condition, and resets work when no construction failed."
  },
  {
   "property": "C72",
   "status": "partial",
   "theorems": [
    "C72_constructor_accepts_exactly",
    "C72_constructed_is_complete_partial",
    "C72_what_each_class_has_partial",
    "C72_default_portal_refuted"
   ],
   "note": "Exact acceptance and completeness for every class; refuted for the default portal after a failed first construction."
  },
  {
   "property": "C73",
   "status": "proved",
   "theorems": [
    "C73_exactly_the_requested_workers",
    "C73_workers_are_passive",
    "C73_worker_portal_shares_the_runtime"
   ],
   "note": "Over all histories of the parent; class SwarmingPortal (how parameterizable rebuilds a DefaultLocalPortal is outside the repository)."
  },
  {
   "property": "C74",
   "status": "proved",
   "theorems": [
    "C74_initialize",
    "C74_initialize_returns_partial"
   ],
   "note": "When it returns, over all histories; also returns whenever no construction failed."
  },
  {
   "property": "C75",
   "status": "partial",
   "theorems": [
    "C75_describe_partial",
    "C75_describe_without_portals_refuted"
   ],
   "note": "Holds with at least one portal and no failed construction; refuted for zero portals (ValueError)."
  },
  {
   "property": "C76",
   "status": "partial",
   "theorems": [
    "C76_session_restored_partial",
    "C76_streams_restored_partial",
    "C76_attempt_failure_leaks_refuted",
    "C76_output_failure_leaks_refuted",
    "C76_crash_failure_leaks_refuted",
    "C76_crash_failure_in_a_call_leaks_refuted",
    "C76_wrong_exit_is_noticed",
    "C76_no_failure_is_lost",
    "C76_exceptions_get_out"
   ],
   "note": "Restored for all programs and all failures except those of the library's own attempt, output and crash records; for each of these three a leak is exhibited."
  },
  {
   "property": "C77",
   "status": "partial",
   "theorems": [
    "C77_function_objects_checked_partial",
    "C77_plain_functions_accepted",
    "C77_rejected_early",
    "C77_strings_unchecked_refuted",
    "C77_extra_statements_refuted",
    "C77_methods_accepted_refuted"
   ],
   "note": "Exact for function objects; refuted for source strings (star-args, extra statements) and methods taken from a class."
  },
  {
   "property": "C78",
   "status": "partial",
   "theorems": [
    "C78_positional_refused",
    "C78_keyword_call_exact",
    "C78_all_values_can_be_passed_partial",
    "C78_positional_only_refuted"
   ],
   "note": "Calls characterised exactly for every signature; refuted for positional-only parameters (accepted, but never callable)."
  },
  {
   "property": "C79",
   "status": "partial",
   "theorems": [
    "C79_order_irrelevant_partial",
    "C79_pure_order_irrelevant",
    "C79_pure_keywords_in_name_order",
    "C79_order_visible_refuted"
   ],
   "note": "Proved for functions without a ** parameter and for all pure functions; refuted for ordinary/autonomous functions with a ** parameter."
  },
  {
   "property": "C80",
   "status": "partial",
   "theorems": [
    "C80_ready_then_get",
    "C80_get_then_ready",
    "C80_executed_then_ready",
    "C80_ready_exactly",
    "C80_get_exactly",
    "C80_get_returns_stored_value",
    "C80_no_portal",
    "C80_get_implies_ready_refuted"
   ],
   "note": "Refuted as stated in one direction (C80_get_implies_ready_refuted): ready does not look into the current portal unless it is the address's own, get does.  Everything else is proved: ready True or a returned value makes both succeed for ever, and exactly when ready is True and get returns (C80_ready_exactly, C80_get_exactly)."
  },
  {
   "property": "C81",
   "status": "partial",
   "theorems": [
    "C81_stored_answer_forever",
    "C81_not_executed_answer_forever",
    "C81_new_objects_answer_stored",
    "C81_deterministic_answers",
    "C81_lost_race_refuted"
   ],
   "note": "Refuted for nondeterministic functions (C81_lost_race_refuted): an execution that loses a race returns and remembers its own value, while the store keeps the other one.  Proved: answers that are stored, answers of objects never executed, and answers of deterministic functions never change."
  },
  {
   "property": "C82",
   "status": "proved",
   "theorems": [
    "C82_caches_invisible",
    "C82_invalidation_invisible",
    "C82_nondeterministic_refuted"
   ],
   "note": "Simulation between the session with and without caches.  Determinism is needed (C82_nondeterministic_refuted).  Justifies leaving these caches out of the model of execution (PureExec)."
  },
  {
   "property": "C83",
   "status": "proved",
   "theorems": [
    "C83_combinations",
    "C83_swarm_grid",
    "C83_run_grid",
    "C83_nothing_else_nothing_missing",
    "C83_parameter_order_irrelevant",
    "C83_refused",
    "C83_values"
   ],
   "note": "The product and the checks of sklearn.ParameterGrid are modelled as documented (sklearn is not part of the repository)."
  },
  {
   "property": "C84",
   "status": "proved",
   "theorems": [
    "C84_results_agree_everywhere",
    "C84_one_pass_completes",
    "C84_queue_completed",
    "C84_swarm_work_get"
   ],
   "note": "For functions returning values (returning addresses: C42, C44 refutations). One undisturbed pass: fairness of the random choice among requests is not modelled."
  },
  {
   "property": "C85",
   "status": "proved",
   "theorems": [
    "C85_address_leads_back"
   ],
   "note": "address objects with empty caches; arguments read back as given when they are plain values"
  },
  {
   "property": "C86",
   "status": "partial",
   "theorems": [
    "C86_same_address_iff_same_view",
    "C86_same_values_share_partial",
    "C86_second_call_is_not_run",
    "C86_explicit_default_refuted"
   ],
   "note": "proved exactly for what the body sees (given values, the fact of defaulting, the rest) and for functions without default values; refuted with default values: giving a default explicitly is another call and runs the body again"
  },
  {
   "property": "C87",
   "status": "partial",
   "theorems": [
    "C87_install_exact",
    "C87_uninstall_exact",
    "C87_failed_install_installs_refuted",
    "C87_uninstalled_still_imports_refuted",
    "C87_upgrade_keeps_old_code_refuted"
   ],
   "note": "exact behaviour proved (pip and importlib modelled without dependencies of packages); refuted: a package whose module has another name is installed although install_package raises; a module that is already loaded can still be imported after uninstall_package, and stays the old one after an upgrade"
  },
  {
   "property": "C88",
   "status": "proved",
   "theorems": [
    "C88_stable_exactly",
    "C88_repeating_settles"
   ],
   "note": "on syntax trees"
  },
  {
   "property": "C89",
   "status": "proved",
   "theorems": [
    "C89_accepted_exactly"
   ],
   "note": "on syntax trees as ast.parse builds them"
  },
  {
   "property": "C90",
   "status": "proved",
   "theorems": [
    "C90_default_portal_exactly",
    "C90_selected_portal_exactly"
   ],
   "note": ""
  },
  {
   "property": "C91",
   "status": "proved",
   "theorems": [
    "C91_logging_fails_exactly"
   ],
   "note": "Events with a record that can be built (add_summary succeeds); portals keep their own files (separate), C92 drops that."
  },
  {
   "property": "C92",
   "status": "proved",
   "theorems": [
    "C92_logs_only_grow"
   ],
   "note": ""
  },
  {
   "property": "C93",
   "status": "proved",
   "theorems": [
    "C93_last_is_the_latest",
    "C93_any_clock",
    "C93_same_tick_refuted",
    "C93_records_are_final",
    "C93_one_record_per_name"
   ],
   "note": "With a clock that moves on; for any other clock C93_any_clock, and C93_same_tick_refuted for equal times."
  },
  {
   "property": "C94",
   "status": "proved",
   "theorems": [
    "C94_live_exactly",
    "C94_at_most_one_live"
   ],
   "note": "Only existing portals are cleared (sensible)."
  },
  {
   "property": "C95",
   "status": "proved",
   "theorems": [
    "C95_five_kills_survived",
    "C95_six_kills_are_too_many"
   ],
   "note": "One worker, no new requests while the queue is worked off."
  },
  {
   "property": "C96",
   "status": "proved",
   "theorems": [
    "C96_restarts_bounded",
    "C96_bound_is_reached"
   ],
   "note": "C51_at_most_six_starts is the case of one worker."
  },
  {
   "property": "C97",
   "status": "proved",
   "theorems": [
    "C97_given_up_only_after_six",
    "C97_six_failures_give_up"
   ],
   "note": "One location, no consistency checks."
  },
  {
   "property": "C98",
   "status": "proved",
   "theorems": [
    "C98_overlap_exactly",
    "C98_running_call_is_left_alone",
    "C98_working_on_it_refuted"
   ],
   "note": "The docstring of needs_execution (False while another process works on the call) is refuted in two ways: C98_working_on_it_refuted."
  },
  {
   "property": "C99",
   "status": "proved",
   "theorems": [
    "C99_constructor_exactly"
   ],
   "note": "Exactly when every constructor returns and everything it changes."
  },
  {
   "property": "C100",
   "status": "proved",
   "theorems": [
    "C100_entered_portals_exactly",
    "C100_reset_exactly"
   ],
   "note": "Exactly what every call does to the entered portals, and exactly when a reset succeeds."
  },
  {
   "property": "C101",
   "status": "proved",
   "theorems": [
    "C101_get_exactly",
    "C101_get_for_ever",
    "C101_ready_exactly",
    "C101_made_from_address_always_ready",
    "C101_gettable_is_ready"
   ],
   "note": "Equivalences for get and ready over all histories; answers never change."
  },
  {
   "property": "C102",
   "status": "proved",
   "theorems": [
    "C102_definition_accepted_iff"
   ],
   "note": "iff, for every reachable session"
  },
  {
   "property": "C103",
   "status": "proved",
   "theorems": [
    "C103_first_call_iff",
    "C103_first_pickle_iff"
   ],
   "note": "iff for calls and for picklings, sessions without irregular wrapping (the wrapping exclusion is part of the statement; C69_refuted shows why)"
  },
  {
   "property": "C104",
   "status": "proved",
   "theorems": [
    "C104_callable_for_good",
    "C104_call_iff_pickle"
   ],
   "note": "all later histories"
  },
  {
   "property": "C105",
   "status": "proved",
   "theorems": [
    "C105_describe_truthful",
    "C105_only_grows",
    "C105_use_changes_nothing",
    "C105_accepted_definition",
    "C105_refused_definition"
   ],
   "note": "Rows, listing and every operation's effect on it; the rows of the base classes and pandas are not modelled."
  },
  {
   "property": "C106",
   "status": "proved",
   "theorems": [
    "C106_new_definition",
    "C106_after_first_call",
    "C106_answers_final",
    "C106_kind_final",
    "C106_limits"
   ],
   "note": "Exact for objects used first; C106_limits shows the answers before the first call, after a call that came too early (finding 28) and for second objects of one function."
  },
  {
   "property": "C107",
   "status": "proved",
   "theorems": [
    "C107_reports",
    "C107_records_agree",
    "C107_run_history_agrees"
   ],
   "note": "Crash histories are proved to be sequences of reports, one per exception (C107_reports), from which the agreement follows; for portals with separate files (shared files: finding 27)."
  },
  {
   "property": "C108",
   "status": "proved",
   "theorems": [
    "C108_counters",
    "C108_counting",
    "C108_total_never_falls",
    "C108_new_day"
   ],
   "note": "Exact counts; for portals with separate files."
  },
  {
   "property": "C109",
   "status": "proved",
   "theorems": [
    "C109_shown_outside",
    "C109_invisible_exactly",
    "C109_invisible_cases"
   ],
   "note": "Exact for all programs that install no handlers inside (those: C57_handler_added_inside_refuted, C58_added_handler_dropped_refuted)."
  },
  {
   "property": "C110",
   "status": "proved",
   "theorems": [
    "C110_reported_exactly",
    "C110_every_name_listed",
    "C110_decoration_exactly",
    "C110_accepted_exactly"
   ],
   "note": "Spec/NameUses.v lists what a function does with a name in text order; iff characterisation of what is reported, of acceptance at decoration and at completion."
  },
  {
   "property": "C111",
   "status": "proved",
   "theorems": [
    "C111_isinstance_is_subclass",
    "C111_class_for_life",
    "C111_current_of_class",
    "C111_lists_of_class"
   ],
   "note": "Class hierarchy stated from the class statements; classes of portals constant over all histories; the three questions answered exactly."
  },
  {
   "property": "C112",
   "status": "proved",
   "theorems": [
    "C112_restored_is_pickled",
    "C112_restored_autonomous",
    "C112_no_two_versions"
   ],
   "note": "for every session; restored_is_pickled leaves open only the strictness flag, which is found out again"
  },
  {
   "property": "C113",
   "status": "proved",
   "theorems": [
    "C113_reads_back",
    "C113_text_tells",
    "C113_decorator_tells",
    "C113_island_names_mean_literals",
    "C113_refuted_in_general"
   ],
   "note": "the condition is part of the property; C113_refuted_in_general shows that it is needed"
  },
  {
   "property": "C114",
   "status": "proved",
   "theorems": [
    "C114_call_effects",
    "C114_answered",
    "C114_executed",
    "C114_nothing_is_lost"
   ],
   "note": "exact companion of C45, without any restriction on functions"
  },
  {
   "property": "C115",
   "status": "proved",
   "theorems": [
    "C115_stored_result",
    "C115_later_answers",
    "C115_answer_is_final",
    "C115_inner_call_wins"
   ],
   "note": "exact companion of C42 and C44 for functions returning addresses; C115_inner_call_wins shows the exception is real"
  },
  {
   "property": "C116",
   "status": "proved",
   "theorems": [
    "C116_settings",
    "C116_own_files",
    "C116_file_name",
    "C116_one_item_at_a_time",
    "C116_inside_directory",
    "C116_set",
    "C116_second_assignment",
    "C116_delete",
    "C116_same_directory",
    "C116_separate_directories",
    "C116_final",
    "C116_nested_directories_needed",
    "C116_class_of_values_inherited"
   ],
   "note": "settings, own files, frame and finality proved for all roots and histories; the class restriction of a given dictionary is inherited (C116_class_of_values_inherited), nested directories are excluded (C116_nested_directories_needed)"
  },
  {
   "property": "C117",
   "status": "partial",
   "theorems": [
    "C117_rebuilt",
    "C117_given_arguments_count",
    "C117_worker",
    "C117_default_portal_refuted"
   ],
   "note": "proved for all classes but DefaultLocalPortal; refuted for it (C117_default_portal_refuted): its constructor takes no parameters, so its background workers cannot build their portal"
  },
  {
   "property": "C118",
   "status": "proved",
   "theorems": [
    "C118_counts_items",
    "C118_counts_change",
    "C118_nested_directories_needed"
   ],
   "note": "exact counts for every content; nested directories are counted twice (C118_nested_directories_needed)"
  },
  {
   "property": "C119",
   "status": "proved",
   "theorems": [
    "C119_hook_outside_notebooks",
    "C119_never_restored",
    "C119_uncaught_outside_notebooks",
    "C119_handler_in_notebook",
    "C119_any_history",
    "C119_the_answer",
    "C119_decided_once",
    "C119_uncaught_in_notebook"
   ],
   "note": "exact companion of C64 and C65, notebooks included"
  },
  {
   "property": "C120",
   "status": "proved",
   "theorems": [
    "C120_file_names",
    "C120_one_process",
    "C120_many_processes",
    "C120_nothing_else",
    "C120_answered_from_files",
    "C120_first_call"
   ],
   "note": "Refinement of the whole execution model (sequential and concurrent) to files placed as in C116; run names are assumed distinct for distinct runs"
  },
  {
   "property": "C121",
   "status": "proved",
   "theorems": [
    "C121_stores_stay_consistent",
    "C121_finished_operations",
    "C121_no_invented_answers",
    "C121_answers_can_change"
   ],
   "note": "Rely/guarantee invariant over all schedules, for unrestricted bodies and guards; digests are assumed collision-free"
  },
  {
   "property": "C122",
   "status": "proved",
   "theorems": [
    "C122_disk_in_order",
    "C122_nothing_is_lost",
    "C122_requests_can_be_resumed"
   ],
   "note": "for all schedules, kill points and functions; file writes are atomic, as in the model of the file system (OnFiles.v)"
  },
  {
   "property": "C123",
   "status": "proved",
   "theorems": [
    "C123_calendar",
    "C123_dates",
    "C123_events"
   ],
   "note": "Years of four digits. The calendar is proved right (every valid date from 1970 on is the date of exactly one day, later days later dates)."
  },
  {
   "property": "C124",
   "status": "partial",
   "theorems": [
    "C124_folders_partial",
    "C124_refuted"
   ],
   "note": "Proved except that functions whose islands have underscores in their names can share a folder (C124_refuted, finding 55)."
  },
  {
   "property": "C125",
   "status": "proved",
   "theorems": [
    "C125_served",
    "C125_cycle",
    "C125_starvation"
   ],
   "note": "Under the stated fairness conditions; C125_starvation shows that the listing condition is needed."
  },
  {
   "property": "C126",
   "status": "partial",
   "theorems": [
    "C126_exact",
    "C126_accepted_functions_find_their_names_partial",
    "C126_same_helpers_same_meaning",
    "C126_decorator_names_refuted"
   ],
   "note": "Proved for the names the analyser does not miss (C32) that are not names of decorators; the namespace itself is characterised exactly (C126_exact). Refuted for names of decorators: accepted, then NameError (finding 56)."
  },
  {
   "property": "C127",
   "status": "partial",
   "theorems": [
    "C127_crash_keys",
    "C127_event_keys",
    "C127_addresses",
    "C127_names_are_not_cleaned_refuted",
    "C127_class_names_are_not_cleaned_refuted"
   ],
   "note": "Proved for any set of allowed characters that contains letters, digits and the underscore: which crash records, events and addresses have acceptable keys (exactly those with acceptable names). Refuted as stated: island names, event identifiers and class names are not cleaned (C127_*_refuted)."
  },
  {
   "property": "C128",
   "status": "partial",
   "theorems": [
    "C128_same_signature_exactly",
    "C128_mac_addresses_separate",
    "C128_single_difference_partial",
    "C128_other_signatures_do_not_matter",
    "C128_same_signature_disturbs",
    "C128_same_signature_clears",
    "C128_signatures_collide_refuted"
   ],
   "note": "Exactly when two computers have the same signature; different MAC addresses and single differences separate; other signatures never disturb a runtime, equal ones do. Refuted: two differences can cancel out because the facts are concatenated without separators (C128_signatures_collide_refuted)."
  },
  {
   "property": "C129",
   "status": "partial",
   "theorems": [
    "C129_stores_never_change",
    "C129_content_addressed_partial",
    "C129_fresh_addresses_return_the_snapshot_partial",
    "C129_kept_objects_are_shared",
    "C129_retrieved_values_change_refuted",
    "C129_changed_contents_stored_under_old_text_refuted"
   ],
   "note": "False as stated: a ValueAddr keeps the caller's object, so later changes show in addr.get() (C129_retrieved_values_change_refuted), and taking the address to another portal stores the changed contents under the old text (C129_changed_contents_stored_under_old_text_refuted). Proved: stores never change in any program; in programs that do not take changed addresses to other portals everything is stored under its own text and every address that keeps no object returns the contents that were stored."
  },
  {
   "property": "C130",
   "status": "partial",
   "theorems": [
    "C130_answers_partial",
    "C130_objects_after_a_call_exactly",
    "C130_protected_calls",
    "C130_well_behaved_functions_partial",
    "C130_retrieving_answers_exactly",
    "C130_first_call_changes_its_argument_refuted",
    "C130_answers_change_refuted"
   ],
   "note": "False as stated: the first call with an object hands that object to the body (C130_first_call_changes_its_argument_refuted), and result addresses keep and share the answer (C130_answers_change_refuted). Proved: what a call does to the objects of the caller exactly, that calls with addresses, run and get_address never change them, that answers are right although objects change, and what result addresses return exactly."
  },
  {
   "property": "C131",
   "status": "proved",
   "theorems": [
    "C131_output_exactly",
    "C131_result_exactly",
    "C131_context_exactly",
    "C131_crashes_exactly",
    "C131_own_data_exactly"
   ],
   "note": "for the storage model of C61 (Records.v): any storage order, sessions finished or killed"
  },
  {
   "property": "C132",
   "status": "partial",
   "theorems": [
    "C132_first_call_exactly",
    "C132_first_answer_decides",
    "C132_run_separates",
    "C132_answers_by_contents_partial",
    "C132_answers_depend_on_sharing_refuted"
   ],
   "note": "False as stated (C132_answers_depend_on_sharing_refuted: one object given for two parameters). Proved: a first call exactly (what the body sees, what happens to the caller's objects, what is recorded), that the first answer decides for good, that run and workers separate arguments, and that answers are a function of contents if no object was given twice or the function is indifferent to it."
  },
  {
   "property": "C133",
   "status": "partial",
   "theorems": [
    "C133_globals_untouched",
    "C133_calls_in_progress_untouched",
    "C133_what_an_answer_depends_on",
    "C133_same_answer_after_any_history_partial",
    "C133_same_as_undecorated",
    "C133_self_refuted"
   ],
   "note": "Proved without exception: no globals change (C133_globals_untouched, C133_calls_in_progress_untouched) and answers depend only on the library's globals and on attributes of lasting objects (C133_what_an_answer_depends_on). False as stated: through self a function can keep state between calls (C133_self_refuted); with no attributes set the answer is the same after any history."
  },
  {
   "property": "C134",
   "status": "partial",
   "theorems": [
    "C134_checked_calls_are_right_partial",
    "C134_answers_stay_right_partial",
    "C134_workers_execute_the_right_call_partial",
    "C134_stored_values_are_right_partial",
    "C134_refused_exactly",
    "C134_nothing_refused_without_coincidences",
    "C134_refuted",
    "C134_comparing_later_refuted"
   ],
   "note": "Proved for every text function when the comparisons of stored with new values are made (certain with p_consistency_checks = 1): answers are right and stay right, workers execute the right call, refusals are characterised exactly. Refuted for the default p_consistency_checks = 0 (C134_refuted) and for comparisons that are switched on later (C134_comparing_later_refuted). One store."
  },
  {
   "property": "C135",
   "status": "proved",
   "theorems": [
    "C135_same_state_same_code",
    "C135_edit_changes_state",
    "C135_same_address_same_code"
   ],
   "note": "for functions at their first use (C39_stable: the state does not change afterwards) in sessions without the wrapping of pure functions in autonomous ones; hash collision-free; island and guard names and sources readable (C113)"
  },
  {
   "property": "C136",
   "status": "proved",
   "theorems": [
    "C136_same_step",
    "C136_same_session",
    "C136_same_outcomes",
    "C136_same_addresses",
    "C136_other_code"
   ],
   "note": "parser and printer arbitrary; for the converse the printer and parser must read a normal form back, and functions are taken at their first use (as in C135)"
  },
  {
   "property": "C137",
   "status": "proved",
   "theorems": [
    "C137_same_state_iff",
    "C137_same_address_iff"
   ],
   "note": "at first use of objects not tried before in vain (a failed early call changes the strictness flag, C67), in plainly reachable sessions, with readable names and sources (C113)"
  },
  {
   "property": "C138",
   "status": "proved",
   "theorems": [
    "C138_addresses_shared_for_good"
   ],
   "note": "in plainly reachable sessions, for normalised sources, the computed strictness flag and guards that come first (the exact condition for restoring, C40_restores_iff_guards_first)"
  }
 ]
}