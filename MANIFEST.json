{
 "claims": [
  {
   "property": "C01",
   "status": "proved",
   "theorems": [
    "C01_use_resolves_iff_undeleted",
    "C01_undeleted_proxy_resolves_to_its_object"
   ],
   "note": "Reference table of the server with heap addresses re-used freely; all histories."
  },
  {
   "property": "C02",
   "status": "proved",
   "theorems": [
    "C02_retained_iff_undeleted_proxy",
    "C02_object_of_undeleted_proxy_is_alive",
    "C02_keyerror_for_ever_after_last_delete"
   ],
   "note": "All histories; release is permanent."
  },
  {
   "property": "C03",
   "status": "proved",
   "theorems": [
    "C03_same_id_same_object",
    "C03_same_object_same_id",
    "C03_undeleted_proxies_of_one_object_share_the_id"
   ],
   "note": "All histories including failing get_proxy calls."
  },
  {
   "property": "C04",
   "status": "proved",
   "theorems": [
    "C04_reference_ids_unique"
   ],
   "note": "All histories."
  },
  {
   "property": "C05",
   "status": "proved",
   "theorems": [
    "C05_delete_undeleted_succeeds",
    "C05_delete_other_is_keyerror_and_changes_nothing",
    "C05_delete_leaves_other_proxies"
   ],
   "note": "All histories and all integer pairs."
  },
  {
   "property": "C06",
   "status": "partial",
   "theorems": [
    "C06_deleted_proxy_unusable_refuted",
    "C06_deleted_proxy_usable_iff_another_undeleted_partial"
   ],
   "note": "REFUTED: unwrap_proxy ignores the reference ID; exact characterisation of when a deleted proxy still works is proved."
  },
  {
   "property": "C07",
   "status": "proved",
   "theorems": [
    "C07_chain_is_attribute_access",
    "C07_get_obj_on_chain",
    "C07_meaning_unique"
   ],
   "note": "getattr is a pure partial function of object and name (side effects of attribute access are not modelled)."
  },
  {
   "property": "C08",
   "status": "proved",
   "theorems": [
    "C08_msgpack_roundtrip",
    "C08_deeper_values_are_refused"
   ],
   "note": "Wire values are trees (msgpack's byte layer is not modelled); pickle and numpy dtype lookup are an environment assumed to round-trip what is sent."
  },
  {
   "property": "C09",
   "status": "proved",
   "theorems": [
    "C09_json_normal_form",
    "C09_json_normal_values_unchanged"
   ],
   "note": "JSON text layer not modelled (trees); recursion limit is a parameter."
  },
  {
   "property": "C10",
   "status": "proved",
   "theorems": [
    "C10_naive_datetime_roundtrip_iff",
    "C10_date_roundtrip_iff"
   ],
   "note": "glibc strftime/strptime on character strings; iff characterisation."
  },
  {
   "property": "C11",
   "status": "proved",
   "theorems": [
    "C11_msgpack_array_roundtrip",
    "C11_json_array_roundtrip",
    "C11_base64_roundtrip"
   ],
   "note": "Strided views over byte memory, base64 at bit level."
  },
  {
   "property": "C12",
   "status": "proved",
   "theorems": [
    "C12_dicts_arrive"
   ],
   "note": "The reserved key itself is property C61."
  },
  {
   "property": "C13",
   "status": "proved",
   "theorems": [
    "C13_objects_arrive_as_proxies",
    "C13_proxies_come_home_as_objects",
    "C13_json_objects_arrive_as_proxies",
    "C13_json_proxies_come_home_as_objects"
   ],
   "note": "Both directions, msgpack and JSON, with the reference table model of C01-C06."
  },
  {
   "property": "C14",
   "status": "proved",
   "theorems": [
    "C14_unserializable_argument_rejected"
   ],
   "note": "Both serializers, any nesting; the request counter may advance."
  },
  {
   "property": "C15",
   "status": "proved",
   "theorems": [
    "C15_proxy_requested_or_needed",
    "C15_value_otherwise"
   ],
   "note": "Both serializers; 'value' with an unserializable result is C64."
  },
  {
   "property": "C16",
   "status": "proved",
   "theorems": [
    "C16_reply_matches_request"
   ],
   "note": "Any number of clients with distinct identities, FIFO network per client with loss at the high-water mark; results that come back as proxies are pinned down by C15/C13."
  },
  {
   "property": "C17",
   "status": "proved",
   "theorems": [
    "C17_executed_in_order_once"
   ],
   "note": "Prefix of the sent sequence; all schedules including reentrant processing."
  },
  {
   "property": "C18",
   "status": "proved",
   "theorems": [
    "C18_answered_requests_complete",
    "C18_everything_can_be_finished",
    "C18_at_most_one_reply",
    "C18_no_reply_to_off"
   ],
   "note": "Also: no reply is ever sent for sync='off'."
  },
  {
   "property": "C19",
   "status": "partial",
   "theorems": [
    "C19_failure_is_reported",
    "C19_failed_action_changes_nothing",
    "C19_only_close_stops_the_server"
   ],
   "note": "Proved for clients using a serializer the server has (otherwise C20) and for exceptions whose text can be encoded, which the model of the network takes for granted; REFUTED for messages with surrogates, which end the server (C142_surrogate_ends_server_refuted)."
  },
  {
   "property": "C20",
   "status": "partial",
   "theorems": [
    "C20_unsupported_serializer_kills_server_refuted",
    "C20_unsupported_serializer_partial"
   ],
   "note": "REFUTED: the error reply itself needs the unknown serializer, the KeyError ends run_forever; what does hold is proved."
  },
  {
   "property": "C21",
   "status": "proved",
   "theorems": [
    "C21_outcome_is_final",
    "C21_completed_is_not_pending",
    "C21_stray_reply_ignored",
    "C21_stray_result_ignored"
   ],
   "note": "Arbitrary incoming data."
  },
  {
   "property": "C22",
   "status": "proved",
   "theorems": [
    "C22_closing_tells_every_client_once"
   ],
   "note": "Close requests as close_server() sends them (no options)."
  },
  {
   "property": "C23",
   "status": "proved",
   "theorems": [
    "C23_disconnect_fails_everything",
    "C23_notice_fails_everything"
   ],
   "note": "Every client state, every later sequence of operations."
  },
  {
   "property": "C24",
   "status": "partial",
   "theorems": [
    "C24_closer_never_learns_refuted",
    "C24_closer_learns_partial",
    "C24_disconnected_only_after_close_partial"
   ],
   "note": "REFUTED for sync='off' (no reply, no notice); proved for requests that keep their future."
  },
  {
   "property": "C25",
   "status": "proved",
   "theorems": [
    "C25_timeout_window",
    "C25_call_does_not_outlast_timeout",
    "C25_never_stuck",
    "C25_no_timeout_without_limit",
    "C25_returns_the_outcome",
    "C25_completed_future_returned",
    "C25_next_reply_returned"
   ],
   "note": "Timed model; poll wakes up at a message or at its timeout; bounds on computing time are parameters; float rounding not modelled."
  },
  {
   "property": "C26",
   "status": "proved",
   "theorems": [
    "C26_name_is_latest_assignment",
    "C26_reading_gives_latest",
    "C26_setitem_arrives",
    "C26_getitem_arrives"
   ],
   "note": "Assignments by any client or by the server's process, all schedules."
  },
  {
   "property": "C27",
   "status": "proved",
   "theorems": [
    "C27_never_deadlocks",
    "C27_every_schedule_ends",
    "C27_right_results",
    "C27_replies_once_and_right"
   ],
   "note": "Unbounded threads, callers and call patterns incl. async, 'off' and data-dependent ones; unlimited timeouts; a thread serves when it waits or has nothing to do."
  },
  {
   "property": "C28",
   "status": "proved",
   "theorems": [
    "C28_get_client",
    "C28_create",
    "C28_construction_ends",
    "C28_close_possible",
    "C28_same_client",
    "C28_no_trace"
   ],
   "note": "All interleavings at the granularity of the lock, including nested ones in one thread; thread idents may be reused (see C66)."
  },
  {
   "property": "C29",
   "status": "partial",
   "theorems": [
    "C29_get_server",
    "C29_never_replaced",
    "C29_second_server_refused",
    "C29_second_thread_refused",
    "C29_unregister_exact",
    "C29_one_thread_partial",
    "C29_one_thread_refuted"
   ],
   "note": "REFUTED for overlapping registrations of one server (tested outside the lock); everything else proved for all interleavings."
  },
  {
   "property": "C30",
   "status": "proved",
   "theorems": [
    "C30_framing_lossless",
    "C30_message_carries_request",
    "C30_request_arrives"
   ],
   "note": "Python's int() modelled on strings including signs, white space and underscores."
  },
  {
   "property": "C31",
   "status": "partial",
   "theorems": [
    "C31_same_named_children_collide_refuted",
    "C31_default_names_unique_partial",
    "C31_distinct_names_unique_partial"
   ],
   "note": "REFUTED: two children with the same name have equal identities; default names and separator-free names proved injective."
  },
  {
   "property": "C32",
   "status": "partial",
   "theorems": [
    "C32_undecodable_reply_leaves_request_pending_refuted",
    "C32_undecodable_reply_changes_nothing_partial"
   ],
   "note": "REFUTED: the request an undecodable reply answers stays pending for ever; nothing else is affected (proved)."
  },
  {
   "property": "C33",
   "status": "partial",
   "theorems": [
    "C33_equal_proxies_partial",
    "C33_same_object_is_equal",
    "C33_never_unequal_locally",
    "C33_attribute_equals_owner_refuted"
   ],
   "note": "REFUTED for attribute proxies: == ignores the attributes, the hash does not; proved for the others."
  },
  {
   "property": "C34",
   "status": "partial",
   "theorems": [
    "C34_operator_calls_method_partial",
    "C34_reflected_xor_refuted"
   ],
   "note": "REFUTED for __rxor__ (calls __ror__); proved for the other 46, end to end."
  },
  {
   "property": "C35",
   "status": "proved",
   "theorems": [
    "C35_unknown_option_changes_nothing",
    "C35_known_options_are_set",
    "C35_attributes_inherit_options",
    "C35_options_do_not_change_the_object"
   ],
   "note": "For all proxies that programs can make."
  },
  {
   "property": "C36",
   "status": "partial",
   "theorems": [
    "C36_released_only_when_gone_partial",
    "C36_collected_means_released",
    "C36_forgotten_means_collected",
    "C36_collected_iff_unreachable",
    "C36_attribute_releases_owner_refuted"
   ],
   "note": "REFUTED: attribute proxies inherit auto_delete and release their owner's reference; proved while no attribute proxy has it. Immediate collection as in CPython, no cycles."
  },
  {
   "property": "C37",
   "status": "partial",
   "theorems": [
    "C37_copy_sends_nothing_partial",
    "C37_copy_of_attribute_has_effects_refuted"
   ],
   "note": "REFUTED for attribute proxies (two remote calls); proved for the others."
  },
  {
   "property": "C38",
   "status": "partial",
   "theorems": [
    "C38_calls_are_spaced_partial",
    "C38_every_call_is_decided",
    "C38_calls_can_coincide_refuted"
   ],
   "note": "REFUTED when the thread is held up between noting the time and calling; proved relative to the noted time, for any number of calls later. Integer time; perf_counter and sleep on one clock."
  },
  {
   "property": "C39",
   "status": "proved",
   "theorems": [
    "C39_at_most_limit"
   ],
   "note": "All interleavings of callers, thread and clock."
  },
  {
   "property": "C40",
   "status": "partial",
   "theorems": [
    "C40_at_most_one_call_after_stop_partial",
    "C40_no_call_after_stop_partial",
    "C40_started_timer_calls_partial",
    "C40_gets_there",
    "C40_call_after_stop_refuted",
    "C40_start_without_effect_refuted"
   ],
   "note": "REFUTED: one call may begin after stop() returned; start() may return just before the thread ends. Proved: at most one, and start() works while the thread waits."
  },
  {
   "property": "C41",
   "status": "proved",
   "theorems": [
    "C41_sorted_by_creation",
    "C41_old_records_get_written",
    "C41_ties_in_order"
   ],
   "note": "Integer time that does not go back; writing one record is atomic."
  },
  {
   "property": "C42",
   "status": "partial",
   "theorems": [
    "C42_every_record_once",
    "C42_all_written_at_exit_partial",
    "C42_lost_at_exit_refuted"
   ],
   "note": "REFUTED at exit: records taken by the polling thread but not yet written are lost. Proved at any other moment."
  },
  {
   "property": "C43",
   "status": "partial",
   "theorems": [
    "C43_sent_in_order",
    "C43_none_missing_partial",
    "C43_all_sent_partial",
    "C43_bad_record_stops_forwarding_refuted",
    "C43_close_drops_records_refuted"
   ],
   "note": "REFUTED: a record that cannot be encoded (bad format, exc_info) stops forwarding for ever, and close() drops queued records. Order proved always; no loss proved while connected with encodable records."
  },
  {
   "property": "C44",
   "status": "partial",
   "theorems": [
    "C44_level_filter",
    "C44_end_to_end",
    "C44_bad_message_stops_server_refuted"
   ],
   "note": "Proved for well-formed messages, also end to end; a malformed message stops the server (refuted)."
  },
  {
   "property": "C45",
   "status": "partial",
   "theorems": [
    "C45_lines_become_messages_partial",
    "C45_lines_first",
    "C45_last_character_lost_refuted"
   ],
   "note": "REFUTED for a last line without newline: its last character is dropped. Proved for lines ended by a newline."
  },
  {
   "property": "C46",
   "status": "partial",
   "theorems": [
    "C46_config_recovered_partial",
    "C46_level_dropped_refuted"
   ],
   "note": "REFUTED for the log level: without a log address it is not passed on. Proved otherwise for names without a leading dash, str addresses, bytes log addresses and levels >= 0 (see C97, C98 for the rest)."
  },
  {
   "property": "C47",
   "status": "partial",
   "theorems": [
    "C47_no_child_left_partial",
    "C47_error_not_reported_refuted"
   ],
   "note": "REFUTED: always a TimeoutError, because the error message of the child has a field that does not exist. Proved: an exception is raised and no child is left."
  },
  {
   "property": "C48",
   "status": "proved",
   "theorems": [
    "C48_shared_elements",
    "C48_new_arrays_are_shared"
   ],
   "note": "Data at the start of its block; other offsets are property C60."
  },
  {
   "property": "C49",
   "status": "partial",
   "theorems": [
    "C49_close_all_partial",
    "C49_close_flag_ignored_refuted"
   ],
   "note": "REFUTED: the close flag is never looked at, memory wrapped with close=False is unlinked too. Proved: memory wrapped here is closed and unlinked, memory never wrapped here is untouched."
  },
  {
   "property": "C50",
   "status": "partial",
   "theorems": [
    "C50_kills_only_prefixed_partial",
    "C50_search_ignored_refuted"
   ],
   "note": "REFUTED: the search argument is ignored. Proved: only processes whose command contains the global prefix are killed."
  },
  {
   "property": "C51",
   "status": "proved",
   "theorems": [
    "C51_clock_offset",
    "C51_bound_is_reached"
   ],
   "note": "Over the rationals, not floating point."
  },
  {
   "property": "C52",
   "status": "proved",
   "theorems": [
    "C52_order_and_no_loss",
    "C52_progress"
   ],
   "note": "While the process runs and requests are well formed; see C93, C94 for the rest."
  },
  {
   "property": "C53",
   "status": "partial",
   "theorems": [
    "C53_never_stops_refuted"
   ],
   "note": "REFUTED: the thread never stops."
  },
  {
   "property": "C54",
   "status": "proved",
   "theorems": [
    "C54_uses_imported_before",
    "C54_uses_imported",
    "C54_first_importable",
    "C54_none_importable",
    "C54_same_ever_after"
   ],
   "note": "The QtCore, QtGui and QtWidgets modules only; see C95, C96 for calls after a failure."
  },
  {
   "property": "C55",
   "status": "proved",
   "theorems": [
    "C55_import_dotted_name"
   ],
   "note": "builtins.__import__ and getattr are environment functions; fromlist is not used by the client."
  },
  {
   "property": "C56",
   "status": "proved",
   "theorems": [
    "C56_reports_alive",
    "C56_reports_iff_alive",
    "C56_none_left",
    "C56_exception_passed_on"
   ],
   "note": "pids distinct for exact names; a process that cannot be killed counts as not ours; zombies count as alive."
  },
  {
   "property": "C57",
   "status": "partial",
   "theorems": [
    "C57_complex_scalar_refuted",
    "C57_real_scalars_arrive_partial"
   ],
   "note": "REFUTED for complex scalars (TypeError); all others proved to arrive."
  },
  {
   "property": "C58",
   "status": "partial",
   "theorems": [
    "C58_tuple_subclass_loses_type_refuted",
    "C58_pickled_subclasses_keep_type_partial"
   ],
   "note": "REFUTED for tuple subclasses (arrive as plain tuples); pickled classes proved to keep their type."
  },
  {
   "property": "C59",
   "status": "partial",
   "theorems": [
    "C59_early_years_refuted",
    "C59_aware_datetime_loses_offset_refuted"
   ],
   "note": "REFUTED: years before 1000 raise ValueError at the receiver, aware datetimes lose their offset."
  },
  {
   "property": "C60",
   "status": "partial",
   "theorems": [
    "C60_offset_not_sent_refuted",
    "C60_reloaded_array_starts_at_block_start_partial"
   ],
   "note": "REFUTED: the offset is not transmitted; what the receiver gets instead is characterised."
  },
  {
   "property": "C61",
   "status": "partial",
   "theorems": [
    "C61_reserved_key_refuted",
    "C61_reserved_key_never_arrives_partial",
    "C61_reserved_key_runs_pickle_refuted"
   ],
   "note": "REFUTED: such dicts are never delivered, and marker 'pickle' makes the receiver unpickle the given bytes."
  },
  {
   "property": "C62",
   "status": "partial",
   "theorems": [
    "C62_default_arguments_fail_refuted"
   ],
   "note": "REFUTED: the defaults None make len(kwargs) raise TypeError at the server, always."
  },
  {
   "property": "C63",
   "status": "proved",
   "theorems": [
    "C63_call_invokes_object_with_arguments"
   ],
   "note": "From ObjectProxy.__call__ to the call at the server, both serializers; dict arguments need distinct string keys for keyword arguments."
  },
  {
   "property": "C64",
   "status": "partial",
   "theorems": [
    "C64_value_of_unserializable_is_proxy_refuted"
   ],
   "note": "REFUTED: always a proxy, for every unserializable object and both serializers."
  },
  {
   "property": "C65",
   "status": "partial",
   "theorems": [
    "C65_zero_timeout_ignores_waiting_result_refuted"
   ],
   "note": "REFUTED: with timeout=0 the socket is never looked at."
  },
  {
   "property": "C66",
   "status": "partial",
   "theorems": [
    "C66_own_client_partial",
    "C66_own_client_refuted"
   ],
   "note": "REFUTED: idents of finished threads are reused and their clients stay registered; proved while no ident is used twice."
  },
  {
   "property": "C67",
   "status": "partial",
   "theorems": [
    "C67_constructor_failure_leaves_server_refuted"
   ],
   "note": "REFUTED: the local server is started before the checks."
  },
  {
   "property": "C68",
   "status": "partial",
   "theorems": [
    "C68_none_is_not_default_refuted"
   ],
   "note": "REFUTED: None fails, for sync after the request was sent."
  },
  {
   "property": "C69",
   "status": "partial",
   "theorems": [
    "C69_documented_option_refused_refuted"
   ],
   "note": "REFUTED: auto_proxy is refused."
  },
  {
   "property": "C70",
   "status": "proved",
   "theorems": [
    "C70_call_options"
   ],
   "note": ""
  },
  {
   "property": "C71",
   "status": "partial",
   "theorems": [
    "C71_iteration_does_not_end_refuted"
   ],
   "note": "REFUTED for every sequence: ends with RemoteCallException."
  },
  {
   "property": "C72",
   "status": "partial",
   "theorems": [
    "C72_not_implemented_is_a_result_refuted"
   ],
   "note": "REFUTED: NotImplemented arrives as a proxy."
  },
  {
   "property": "C73",
   "status": "partial",
   "theorems": [
    "C73_truth_of_proxy_refuted"
   ],
   "note": "REFUTED: AttributeError of the remote object for objects without __len__."
  },
  {
   "property": "C74",
   "status": "partial",
   "theorems": [
    "C74_limit_zero_calls_refuted"
   ],
   "note": "REFUTED: the limit is tested after the call."
  },
  {
   "property": "C75",
   "status": "proved",
   "theorems": [
    "C75_exactly_limit_calls",
    "C75_exactly_limit_calls_again"
   ],
   "note": ""
  },
  {
   "property": "C76",
   "status": "partial",
   "theorems": [
    "C76_start_ends_running_timer_refuted"
   ],
   "note": "REFUTED: TypeError in the thread when start() falls between two reads."
  },
  {
   "property": "C77",
   "status": "partial",
   "theorems": [
    "C77_no_restart_refuted"
   ],
   "note": "REFUTED: RuntimeError."
  },
  {
   "property": "C78",
   "status": "partial",
   "theorems": [
    "C78_level_not_written_refuted"
   ],
   "note": "REFUTED with colorama: levels >= 60 or < 0."
  },
  {
   "property": "C79",
   "status": "partial",
   "theorems": [
    "C79_unsorted_at_exit_refuted"
   ],
   "note": "REFUTED."
  },
  {
   "property": "C80",
   "status": "partial",
   "theorems": [
    "C80_reconnect_can_kill_refuted",
    "C80_reconnect_between_records_partial"
   ],
   "note": "REFUTED: connecting while a record is being sent kills the sender thread. Partial: nothing is lost if connect() is only called while the thread waits for a record."
  },
  {
   "property": "C81",
   "status": "proved",
   "theorems": [
    "C81_text_survives"
   ],
   "note": "msg % args is abstract."
  },
  {
   "property": "C82",
   "status": "partial",
   "theorems": [
    "C82_process_and_thread_partial",
    "C82_host_shown_is_local_refuted"
   ],
   "note": "REFUTED for the host: sent as host_name, read as hostname. Proved for process and (named) thread."
  },
  {
   "property": "C83",
   "status": "partial",
   "theorems": [
    "C83_second_hop_renames_refuted"
   ],
   "note": "REFUTED."
  },
  {
   "property": "C84",
   "status": "partial",
   "theorems": [
    "C84_bad_bytes_end_capture_refuted"
   ],
   "note": "REFUTED."
  },
  {
   "property": "C85",
   "status": "proved",
   "theorems": [
    "C85_levels",
    "C85_stdout_dropped"
   ],
   "note": ""
  },
  {
   "property": "C86",
   "status": "partial",
   "theorems": [
    "C86_receiver_destroys_refuted"
   ],
   "note": "REFUTED."
  },
  {
   "property": "C87",
   "status": "partial",
   "theorems": [
    "C87_pickle_same_array_partial",
    "C87_made_here_start_at_0",
    "C87_offset_lost_refuted"
   ],
   "note": "REFUTED for views that do not start at the beginning of the memory. Proved for those that do."
  },
  {
   "property": "C88",
   "status": "proved",
   "theorems": [
    "C88_copy_contents",
    "C88_zeros_contents"
   ],
   "note": ""
  },
  {
   "property": "C89",
   "status": "partial",
   "theorems": [
    "C89_shapes_that_work_partial",
    "C89_scalar_and_empty_refuted"
   ],
   "note": "REFUTED for scalars and empty arrays. Proved for the other shapes."
  },
  {
   "property": "C90",
   "status": "partial",
   "theorems": [
    "C90_default_prefix_fails_refuted"
   ],
   "note": "REFUTED: always fails."
  },
  {
   "property": "C91",
   "status": "partial",
   "theorems": [
    "C91_find_exact_partial",
    "C91_header_breaks_refuted"
   ],
   "note": "REFUTED if the search text occurs in the header line. Proved otherwise."
  },
  {
   "property": "C92",
   "status": "partial",
   "theorems": [
    "C92_netstat_linux_fails_refuted"
   ],
   "note": "REFUTED as soon as one port is open."
  },
  {
   "property": "C93",
   "status": "partial",
   "theorems": [
    "C93_reply_lost_at_exit_refuted"
   ],
   "note": "REFUTED."
  },
  {
   "property": "C94",
   "status": "partial",
   "theorems": [
    "C94_malformed_message_stops_server_refuted"
   ],
   "note": "REFUTED."
  },
  {
   "property": "C95",
   "status": "partial",
   "theorems": [
    "C95_import_after_failure_ignored_refuted"
   ],
   "note": "REFUTED."
  },
  {
   "property": "C96",
   "status": "partial",
   "theorems": [
    "C96_incomplete_namespace_refuted"
   ],
   "note": "REFUTED."
  },
  {
   "property": "C97",
   "status": "partial",
   "theorems": [
    "C97_dash_name_refuted"
   ],
   "note": "REFUTED for names with a leading dash (see C46, C100 for the others)."
  },
  {
   "property": "C98",
   "status": "partial",
   "theorems": [
    "C98_str_log_address_refuted",
    "C98_bytes_address_refuted"
   ],
   "note": "REFUTED: str log addresses fail, bytes listening addresses are changed."
  },
  {
   "property": "C99",
   "status": "partial",
   "theorems": [
    "C99_child_left_running_refuted"
   ],
   "note": "REFUTED: slow children and failed connections."
  },
  {
   "property": "C100",
   "status": "proved",
   "theorems": [
    "C100_started"
   ],
   "note": "argparse of CPython 3.11 is modelled; processes, sockets and time are results given from outside."
  },
  {
   "property": "C101",
   "status": "partial",
   "theorems": [
    "C101_shell_partial",
    "C101_shell_blank_refuted"
   ],
   "note": "REFUTED for names with blanks. Proved for arguments that are not empty and have no blanks or other special characters."
  },
  {
   "property": "C102",
   "status": "proved",
   "theorems": [
    "C102_released_only_on_request",
    "C102_proxies_last_until_deleted",
    "C102_result_proxy_lasts_until_deleted",
    "C102_delete_request_releases"
   ],
   "note": "Assumes what Python guarantees: objects in a result exist when the reply is made. Clients that are not in a process with a server of the same address (there the proxy is replaced by the object)."
  },
  {
   "property": "C103",
   "status": "partial",
   "theorems": [
    "C103_deferred_access",
    "C103_immediate_access_partial",
    "C103_options_not_applied_refuted"
   ],
   "note": "REFUTED for the options: return_type and timeout of the proxy are not applied (always auto and 10 s). Proved: what is sent and what the lookup gives."
  },
  {
   "property": "C104",
   "status": "proved",
   "theorems": [
    "C104_true_only_if_closed",
    "C104_running_server_false",
    "C104_goodbye_noticed",
    "C104_false_delivers_replies",
    "C104_true_for_ever",
    "C104_asking_only_delivers"
   ],
   "note": "An open client socket; messages that decode (C32 is about the rest)."
  },
  {
   "property": "C105",
   "status": "partial",
   "theorems": [
    "C105_without_asking_only_if_closed_partial",
    "C105_asks_the_server",
    "C105_known_to_have_closed",
    "C105_answer_true_means_closed_partial",
    "C105_closed_client_refuted"
   ],
   "note": "REFUTED for a client that has been closed: its close_server() returns True without sending anything while the server runs on (C105_closed_client_refuted). Proved for clients whose socket is open: True without asking only if the server has closed, otherwise one close request is sent, and an answer True to it means that the server has closed."
  },
  {
   "property": "C106",
   "status": "partial",
   "theorems": [
    "C106_never_done_refuted",
    "C106_done_when_delivered_partial",
    "C106_done_after_disconnected_partial"
   ],
   "note": "REFUTED: done() reads nothing from the socket; a program that polls it never sees the reply that has arrived (C106_never_done_refuted, for any number of polls). Proved: done() is True exactly when the reply has been delivered to the future, and after disconnected() all replies that had arrived are done."
  },
  {
   "property": "C107",
   "status": "partial",
   "theorems": [
    "C107_timeout_respected",
    "C107_quick_server_connects_partial",
    "C107_slow_server_refuted",
    "C107_late_answers_never_count"
   ],
   "note": "REFUTED: each ping is only waited for 0.1 s and an answer that comes later is not recognised, so a server that answers every ping after 150 ms is never connected to (C107_slow_server_refuted; C107_late_answers_never_count for all runs and timeouts). Proved: the bounds on the time, that only an answered ping connects, and that a server answering the first ping within 99 ms is connected to with a single ping."
  },
  {
   "property": "C108",
   "status": "partial",
   "theorems": [
    "C108_closed_client_refuted",
    "C108_disconnected_client_refuted",
    "C108_not_closed_partial"
   ],
   "note": "REFUTED: a client closed in another thread than its own stays registered, and so does one that knows its server has closed; proved that registered clients are open if clients are closed only by the threads that made them."
  },
  {
   "property": "C109",
   "status": "partial",
   "theorems": [
    "C109_other_client_forgotten_refuted",
    "C109_close_own_partial"
   ],
   "note": "REFUTED: forget_client removes whatever client the current thread has for the address, so closing an old or foreign client makes get_client forget the current one; proved for closing the client that get_client finds."
  },
  {
   "property": "C110",
   "status": "partial",
   "theorems": [
    "C110_wait_tells_the_truth_partial",
    "C110_gives_up_on_running_processes_only",
    "C110_ends_in_time",
    "C110_returns_after_the_exit",
    "C110_open_pipe_refuted",
    "C110_hangs_refuted"
   ],
   "note": "REFUTED with captured output (log_stdio): wait uses communicate(), which waits for the end of the output, so a process that inherited stdout makes wait time out although the child has exited (C110_open_pipe_refuted), and if PipePoller reads the bytes between select and read, wait hangs past its timeout until more is written (C110_hangs_refuted). Proved: a returned code is the exit code, TimeoutError comes only after the timeout, without captured output only if the process runs, kill gives up after ten seconds at the earliest, once the child has exited and its pipes are hung up wait reads what is left and returns the code at once, and where no PipePoller reads, every call ends within the timeout plus 100 ms and seven bounds on computing."
  },
  {
   "property": "C111",
   "status": "partial",
   "theorems": [
    "C111_polled_while_running_partial",
    "C111_waited_output_lost_refuted"
   ],
   "note": "REFUTED: communicate() in wait() reads the same pipe as PipePoller and drops what it reads; for every output found there by wait, in every continuation, less is logged than was written. Proved: without such calls PipePoller reads everything in order (C45 says how it is logged)."
  },
  {
   "property": "C112",
   "status": "partial",
   "theorems": [
    "C112_stopped_means_exited",
    "C112_takes_twice_as_long_refuted"
   ],
   "note": "REFUTED for the time: the timeout is applied to close_server and again to wait, so stop(timeout) may take twice as long (C112_takes_twice_as_long_refuted, for every number of milliseconds); bounded by that (C110_ends_in_time). Proved: after a normal return the process has exited, with the code returned."
  },
  {
   "property": "C113",
   "status": "partial",
   "theorems": [
    "C113_child_kills_its_own_partial",
    "C113_child_is_killed_partial",
    "C113_daemon_kills_whatever_refuted"
   ],
   "note": "REFUTED for DaemonProcess: it keeps only the number, and kills any process that has the number now. Proved for ChildProcess: the number is not free until the exit code has been asked for, and then nothing is signalled; and after kill() the child does not run, while every other process does."
  },
  {
   "property": "C114",
   "status": "partial",
   "theorems": [
    "C114_like_local_partial",
    "C114_handlers_passed_over_refuted",
    "C114_own_level_counts_refuted"
   ],
   "note": "REFUTED in general: the server hands every record to the logger teleprox.log.remote, so handlers attached to the logger named in the record never get it, and a level set on 'teleprox' suppresses all forwarded records. Proved: exact equality with local logging while only the root logger is configured."
  },
  {
   "property": "C115",
   "status": "partial",
   "theorems": [
    "C115_written_once_partial",
    "C115_written_again_refuted"
   ],
   "note": "REFUTED: each call adds another console handler to the root logger, even a call that raises because a log server exists; messages are then written once per call. Proved: exactly once after exactly one call."
  },
  {
   "property": "C116",
   "status": "partial",
   "theorems": [
    "C116_reported_once_partial",
    "C116_vanishes_refuted",
    "C116_exit_reported_refuted"
   ],
   "note": "REFUTED twice: with a root level above WARNING the exception vanishes without any trace although the interpreter alone would have printed it; sys.exit() in a thread is logged as unhandled exception although the interpreter ignores it. Proved: at root level WARNING or below, once per handler of the root, however often log_exceptions was called."
  },
  {
   "property": "C117",
   "status": "partial",
   "theorems": [
    "C117_sent_once_partial",
    "C117_raises_refuted"
   ],
   "note": "REFUTED: LogSender.__init__ attaches itself to the logger before it has a queue, so a logging call of another thread raises AttributeError meanwhile. Proved: forwarded exactly once without exception once set_logger_address has returned."
  },
  {
   "property": "C118",
   "status": "partial",
   "theorems": [
    "C118_waiting_client_serves_partial",
    "C118_later_server_refuted"
   ],
   "note": "REFUTED: the poller is made once and kept; after the server of the thread was closed and another one took its place, the client never lets the new one answer. Proved: the request is processed for every history in which the thread has had one server only."
  },
  {
   "property": "C119",
   "status": "partial",
   "theorems": [
    "C119_close_closes_partial",
    "C119_never_run_refuted",
    "C119_again_refuted"
   ],
   "note": "REFUTED twice: a server that was created but never run cannot be closed (TimeoutError after the ping, the server stays open; also in _atexit); closing a closed RPCServer from a thread without a client raises ConnectionRefusedError. Proved: if close() returns the server is closed, and it returns whenever another thread runs the server's loop or the calling thread has had this server only."
  },
  {
   "property": "C120",
   "status": "partial",
   "theorems": [
    "C120_close_is_told_partial",
    "C120_goes_on_refuted",
    "C120_told_again_refuted"
   ],
   "note": "REFUTED: _final_close only sleeps, so with quit_on_close=False (or until the application has quit) every later request is executed and answered exactly as before closing; a second close request fails with KeyError after sending all disconnect messages once more. Proved: the first close request tells all other known clients, returns True and unregisters."
  },
  {
   "property": "C121",
   "status": "partial",
   "theorems": [
    "C121_reports_partial",
    "C121_no_address_partial",
    "C121_client_refused_partial",
    "C121_big_port_refuted",
    "C121_unknown_host_refuted"
   ],
   "note": "REFUTED for invalid addresses: a port above 65535 makes check_address and RPCClient() raise OverflowError, and a host that does not exist counts as 'closed', both documented as None. Proved: the report is right for every well-formed address with a possible port and a known host, and None for every string of another form."
  },
  {
   "property": "C122",
   "status": "partial",
   "theorems": [
    "C122_kills_all_partial",
    "C122_rest_left_alive_refuted"
   ],
   "note": "REFUTED: the first process that has exited meanwhile or may not be killed makes kill_procs raise OSError, and all processes after it are left alive, for every such table. Proved: if each found process may be killed, all are dead afterwards and exactly they are returned."
  },
  {
   "property": "C123",
   "status": "proved",
   "theorems": [
    "C123_dead_or_reported"
   ],
   "note": "Processes of other users are passed over, as the exception handler says."
  },
  {
   "property": "C124",
   "status": "proved",
   "theorems": [
    "C124_no_call_after_exception",
    "C124_exception_ends_thread",
    "C124_ended_is_not_running"
   ],
   "note": "An exception while the callback proxy is copied, or in the computation of the waiting time (see C76), counts too. start() during this time returns normally although nothing will be called (C40), and raises later (C77)."
  },
  {
   "property": "C125",
   "status": "partial",
   "theorems": [
    "C125_refused_not_sent_partial",
    "C125_refused_after_sending_refuted"
   ],
   "note": "REFUTED for invalid values of sync: the request is sent exactly as with a valid value, and ValueError is raised afterwards. Proved for 'sync', 'async' and 'off', with every value of the other options and every state of the client."
  },
  {
   "property": "C126",
   "status": "partial",
   "theorems": [
    "C126_received_once_partial",
    "C126_forwarding_ends_partial",
    "C126_passed_on",
    "C126_passed_on_again",
    "C126_own_server_loops_refuted"
   ],
   "note": "REFUTED: a process that sets its logger address to its own log server (set_logger_address(get_logger_address())) receives each message again and again without end; nothing prevents it. Proved when every process uses the address that get_logger_address() returns in the process that started it: received at most once, never by its origin, forwarding ends. Proved always: a message that passes the levels is on its way or was received."
  },
  {
   "property": "C127",
   "status": "partial",
   "theorems": [
    "C127_server_of_the_thread_partial",
    "C127_start_refused_partial",
    "C127_closed_server_refuted"
   ],
   "note": "REFUTED for closed servers: run_lazy() of a server that was started in this thread and has been closed returns normally, but nothing happens and get_server() does not return it (register_server compares _thread only, which closing does not reset). Proved for everything else, with the exceptions KeyError (thread has a server) and AssertionError (server belongs to another thread)."
  },
  {
   "property": "C128",
   "status": "partial",
   "theorems": [
    "C128_executed_in_order",
    "C128_one_after_another",
    "C128_spaced_partial",
    "C128_executions_coincide_refuted",
    "C128_over_for_good",
    "C128_busy_server_ends_it_refuted",
    "C128_given_up_late_partial",
    "C128_limit",
    "C128_never_more",
    "C128_failing_callback_ends_it"
   ],
   "note": "REFUTED in two points: (1) if the server is busy with other requests for the interval, two executions begin at the same time (the interval is counted from the sending of the request); (2) if it is busy for the timeout of the callback's proxy (10 s), the timer's thread ends with TimeoutError, for good, although the invocation is still executed. Proved: order, no repetition, one after the other, spacing counted from the sending, that nothing but an exception of the callback or such a timeout ends the timer before the limit, and that the limit gives exactly max(1, limit) executions."
  },
  {
   "property": "C129",
   "status": "partial",
   "theorems": [
    "C129_text_keys_partial",
    "C129_other_keys_refuted",
    "C129_result_lost_refuted"
   ],
   "note": "REFUTED: a key that is neither str nor bytes is accepted by the sender without complaint, but the receiver raises ValueError for the whole message (msgpack's strict_map_key is not switched off). If a remote function returns such a value, the caller gets ValueError from the wait and the request stays pending. Proved: with str and bytes keys the dict arrives, and these are the only ones."
  },
  {
   "property": "C130",
   "status": "partial",
   "theorems": [
    "C130_received_options_partial",
    "C130_own_object_partial",
    "C130_unknown_default_refuted",
    "C130_options_lost_refuted"
   ],
   "note": "REFUTED: no option of a proxy is sent with it (the update in __getstate__ is commented out), so it arrives with the receiver's defaults; an unknown name in default_proxy_options is accepted, and from then on every message with a proxy in it, even for an own object, raises KeyError. Proved: the object is the one meant; known default options apply, the documented defaults otherwise."
  },
  {
   "property": "C131",
   "status": "partial",
   "theorems": [
    "C131_own_client_partial",
    "C131_operators_own_client",
    "C131_operators_find_open_client",
    "C131_foreign_client_refuted",
    "C131_closed_client_refuted"
   ],
   "note": "REFUTED: a proxy keeps the client of its first use, so a second thread sends through the client (and socket) of the first thread, and after that client was closed requests with the proxy fail although operators on it, which use a proxy of their own, work. Proved: requests go through a client of their thread when every proxy object is used in one thread; operators and attributes used at once always do, and find an open client when clients are closed in their own threads."
  },
  {
   "property": "C132",
   "status": "partial",
   "theorems": [
    "C132_like_object_partial",
    "C132_modulo_partial",
    "C132_becomes_copy_refuted",
    "C132_no_fallback_refuted",
    "C132_not_implemented_refuted",
    "C132_modulo_refuted"
   ],
   "note": "REFUTED: with default options the name becomes a copy if the object is of a type that is sent by value, so the next p += w changes nothing remotely; if the class of the object has no in-place method AttributeError is raised instead of using the ordinary one; if it returns NotImplemented, p becomes a proxy to NotImplemented; p %= v never changes the object. Proved: like the object when its class has the in-place method and the result is not sent by value or return_type is 'proxy'; %= when the class has only the ordinary method."
  },
  {
   "property": "C133",
   "status": "partial",
   "theorems": [
    "C133_condition_partial",
    "C133_length_partial",
    "C133_always_true_refuted",
    "C133_always_false_refuted",
    "C133_condition_by_proxy_refuted",
    "C133_no_length_refuted",
    "C133_endless_loop_refuted"
   ],
   "note": "REFUTED: with sync='async' every comparison is true (a Future) and with 'off' false (None), a loop over the proxy never ends; with return_type='proxy' conditions raise AttributeError; with all three len() raises TypeError. Proved: with sync='sync' and return_type 'auto' or 'value' conditions and lengths are those of the object, exceptions arrive as RemoteCallException."
  },
  {
   "property": "C134",
   "status": "partial",
   "theorems": [
    "C134_callback_called_partial",
    "C134_callback_not_more",
    "C134_callback_sees_outcome",
    "C134_callback_lost_refuted",
    "C134_exception_done_partial",
    "C134_exception_waits_for_ever_refuted"
   ],
   "note": "REFUTED: exception() of a pending future never reads the socket, so without a timeout it never returns (in the only thread that may read) even if the reply is there and result() would return it; the callbacks of a future that the program does not keep are never called, because the client's dictionary of futures is weak. Proved: exception() agrees with result() once there is an outcome; callbacks of kept futures are called as often as added, with the outcome; no callback is called more often than it was added, or before the outcome."
  },
  {
   "property": "C135",
   "status": "partial",
   "theorems": [
    "C135_same_method_partial",
    "C135_missing_partial",
    "C135_own_attribute_refuted",
    "C135_getattr_asked_refuted"
   ],
   "note": "REFUTED: an attribute of the instance with the name of a special method is called instead, without the object; for a proxy of a class the method of its instances is called without the object (so str(p), p == v, p < v of a class fail or do something else); __getattr__ is asked. Proved: the same call exactly if the object has no attribute of its own of that name; RemoteCallException (AttributeError) if there is nothing to find. __rxor__ is apart (C34)."
  },
  {
   "property": "C136",
   "status": "partial",
   "theorems": [
    "C136_contacts_nobody",
    "C136_safe_same_text",
    "C136_text_identifies",
    "C136_unsafe_str_partial",
    "C136_unsafe_repr_partial",
    "C136_unsafe_str_refuted",
    "C136_unsafe_repr_refuted"
   ],
   "note": "REFUTED for sync='async' and 'off' with safe_print not True: str(p) raises TypeError and repr(p) shows a Future or None in place of the object's text. Proved: nobody is contacted exactly if safe_print is True; then both texts are equal and determine the address, the object ID and (for names without a dot) the attributes; with sync='sync' str and repr as documented, whatever return_type."
  },
  {
   "property": "C137",
   "status": "partial",
   "theorems": [
    "C137_says_what_was_logged_partial",
    "C137_shows_later_value_refuted"
   ],
   "note": "REFUTED: from every history, an object that is changed right after it was logged is shown with the later value, because both handlers format in another thread. Proved: if no object is changed after it was logged, every line shows the value at the time of the call."
  },
  {
   "property": "C138",
   "status": "partial",
   "theorems": [
    "C138_own_name_partial",
    "C138_name_of_ended_thread_refuted",
    "C138_later_name_refuted"
   ],
   "note": "REFUTED: names are never forgotten, so a new thread that gets the ident of an ended one is shown with that one's name; the name is looked up when the line is written, so a thread that takes another name right after logging is shown with the later one. Proved: the right name if no ident is used for two threads and threads name themselves before they log."
  },
  {
   "property": "C139",
   "status": "partial",
   "theorems": [
    "C139_obeyed_partial",
    "C139_none_missed_partial",
    "C139_levels_partial",
    "C139_filters_ignored_refuted"
   ],
   "note": "REFUTED: LogSender and QtLogHandler replace Handler.handle and never ask their filters: whatever a filter refuses is sent all the same. Proved: without filters on these two, exactly the handlers that want a record pass it on, in the logging process and behind a LogServer; with any, nobody misses a record they want, and levels and the logger's filters are always obeyed."
  },
  {
   "property": "C140",
   "status": "partial",
   "theorems": [
    "C140_short_names_partial",
    "C140_long_names_refuted",
    "C140_generations_refuted"
   ],
   "note": "REFUTED: the names and the address become the identity of a zmq socket, which has at most 255 bytes; with more than 252 bytes of names and address the constructor raises ZMQError. The names chosen by start_process get at least six bytes longer with each generation, so from the 43rd on no process can make a client. Proved: the identity is as documented if the names and the address have at most 252 bytes."
  },
  {
   "property": "C141",
   "status": "partial",
   "theorems": [
    "C141_conflicts_refused_partial",
    "C141_as_asked_partial",
    "C141_daemon_1_refuted",
    "C141_log_stdio_1_refuted",
    "C141_stdin_0_refuted"
   ],
   "note": "REFUTED: daemon=1 and log_stdio=1 pass the checks (1 in (True, False)) and are then not treated as True: the process is no daemon, nothing is logged; stdin=0 is treated like None. Proved for bools and None and other streams: conflicts are refused with AssertionError, everything else is done as documented."
  },
  {
   "property": "C142",
   "status": "partial",
   "theorems": [
    "C142_text_says_it",
    "C142_text_keeps_all",
    "C142_type_str",
    "C142_answered_partial",
    "C142_surrogate_ends_server_refuted"
   ],
   "note": "REFUTED: if the message of the exception has a surrogate (as names of files can), msgpack cannot encode the reply; _send_error is not guarded, so the exception ends run_forever: neither this client nor any other is answered any more (C19 takes texts as encodable). Proved: whatever is delivered says class and message of the first exception and all texts on the way; type_str is the class raised in the server; with encodable texts or JSON every failing request is answered once, in order."
  },
  {
   "property": "C143",
   "status": "partial",
   "theorems": [
    "C143_all_asked",
    "C143_latest_first",
    "C143_cooperative_ended_partial",
    "C143_left_running_refuted"
   ],
   "note": "REFUTED: a child that does not answer, refuses, or closes its server without exiting is left running: stop raises and nothing kills the process. Proved: exactly the running children that are no daemons are asked, the latest first, each once, also if others fail; those that do as asked have ended."
  },
  {
   "property": "C144",
   "status": "partial",
   "theorems": [
    "C144_own_address",
    "C144_set_address",
    "C144_no_address",
    "C144_sent_to_last_partial",
    "C144_nothing_before_partial",
    "C144_failed_attempt_refuted",
    "C144_kept_for_ever_refuted"
   ],
   "note": "REFUTED: LogSender.connect replaces the socket before it connects: after a set_logger_address that raised, get_logger_address still gives the old address but nothing is sent there any more; if it raises on the first call, the new LogSender is already attached to the root logger and keeps every later record in its queue for ever. Proved: get_logger_address as documented, also with failures; without failures each record is sent once to the address set last."
  },
  {
   "property": "C145",
   "status": "partial",
   "theorems": [
    "C145_in_order",
    "C145_all_passed_partial",
    "C145_at_most_one_more",
    "C145_finishes_partial",
    "C145_waiting_dropped_refuted",
    "C145_junk_ends_it_refuted"
   ],
   "note": "REFUTED: what has arrived but was not read when stop() is called is dropped; a message that is not JSON raises in the thread, which ends: nothing is passed on any more and the socket is never closed, also not by stop(). Proved: in order, once each, by level, at all times; all of them if the server is not stopped and gets only records; at most one more after stop(); then the socket is closed."
  },
  {
   "property": "C146",
   "status": "partial",
   "theorems": [
    "C146_ended_partial",
    "C146_poll_partial",
    "C146_stop_partial",
    "C146_conda_survives_refuted"
   ],
   "note": "REFUTED: with conda_env the process that Popen knows is `conda run`; kill() ends that one only. The server goes on, poll() reports -9 and later calls of stop() and kill() do nothing. Proved: without conda_env both end the server and poll() tells the truth and the code; stop() ends the server in both cases if kill() was not called before."
  }
 ]
}