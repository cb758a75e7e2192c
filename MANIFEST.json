{
 "claims": [
  {
   "property": "C01",
   "status": "proved",
   "theorems": [
    "C01_tables_sorted",
    "C01_failed_creation_no_effect"
   ],
   "note": "For every comparison function that is a total preorder and every history of creations, deletions (by key, by ID) and lookups over any number of tables."
  },
  {
   "property": "C02",
   "status": "proved",
   "theorems": [
    "C02_tables_are_maps",
    "C02_change_counters"
   ],
   "note": "Every history refines the finite-map specification of TableSpec.v; entry counters exact."
  },
  {
   "property": "C03",
   "status": "proved",
   "theorems": [
    "C03_pointers_safe",
    "C03_iteration_reversible"
   ],
   "note": "No history reaches UB or divergence; backward iteration is the reverse of forward iteration."
  },
  {
   "property": "C04",
   "status": "proved",
   "theorems": [
    "C04_ids_unique"
   ],
   "note": "Both the built-in counter (with reclamation) and an ID callback (given by its answers); INVALID_ARG for exhaustion only after 2^32-1 creations."
  },
  {
   "property": "C05",
   "status": "partial",
   "theorems": [
    "C05_list_history_refuted",
    "C05_insert_after_tail_refuted",
    "C05_list_history_partial",
    "C05_prepend",
    "C05_append",
    "C05_delete",
    "C05_insert_before_partial",
    "C05_insert_after_partial"
   ],
   "note": "Prepend, append and delete are proved in full. The full history claim is refuted (insert-before at the head keeps a stale prev, insert-after at the tail keeps a stale next): C05_list_history_refuted, C05_insert_after_tail_refuted; the partial theorems need cleared links of the inserted element."
  },
  {
   "property": "C06",
   "status": "proved",
   "theorems": [
    "C06_dictionary_order",
    "C06_strict_total_order",
    "C06_table_orders"
   ],
   "note": "memcmp magnitude abstracted to its sign; out-of-bounds reads shown impossible."
  },
  {
   "property": "C07",
   "status": "proved",
   "theorems": [
    "C07_zero_iff_same_key",
    "C07_antisymmetric_transitive",
    "C07_route_table_order",
    "C07_init_well_formed",
    "C07_wildcarded_values_irrelevant",
    "C07_route_table_sorted"
   ],
   "note": "Over all well-formed routes (route_ok, shown to hold of every initialised route). Event identity is label plus priority."
  },
  {
   "property": "C08",
   "status": "partial",
   "theorems": [
    "C08_prefix_match_exact",
    "C08_prefix_match_partial",
    "C08_prefix_match_refuted"
   ],
   "note": "Exact behaviour characterised for all prefix lengths; the English claim holds for lengths that are multiples of 4 and is refuted otherwise (partial last byte shifted by n mod 8 instead of 8 - n mod 8)."
  },
  {
   "property": "C09",
   "status": "proved",
   "theorems": [
    "C09_bitmask_match",
    "C09_bitmask_normalised"
   ],
   "note": "For addresses and masks of the same byte-aligned width as the compared address."
  },
  {
   "property": "C10",
   "status": "partial",
   "theorems": [
    "C10_found_route_applies_partial",
    "C10_penalty_box_exclusion_refuted"
   ],
   "note": "Agreement in every field, direction and filter proved for every reachable table; penalty-box exclusion refuted for a route whose key equals the target's (exact-match shortcut)."
  },
  {
   "property": "C11",
   "status": "partial",
   "theorems": [
    "C11_no_miss_partial",
    "C11_no_miss_bitmask_family_partial",
    "C11_found_partial",
    "C11_never_misses_refuted"
   ],
   "note": "No miss for same-family routes less specific than the traffic, and for all routes of bitmask-matched families; refuted in general."
  },
  {
   "property": "C12",
   "status": "partial",
   "theorems": [
    "C12_fewest_ignored_fields_partial",
    "C12_longest_prefix_refuted",
    "C12_bitmask_ties_partial",
    "C12_longest_mask_refuted"
   ],
   "note": "Priority and number of ignored fields proved optimal; tie-breaking among bitmask routes characterised exactly (number of zero bits of the stored address, independent of the traffic). Refuted: longer prefix wins, more specific mask wins."
  },
  {
   "property": "C13",
   "status": "partial",
   "theorems": [
    "C13_terminates_partial",
    "C13_terminates_family_wild_partial",
    "C13_terminates_refuted",
    "C13_clone_terminates_refuted"
   ],
   "note": "Terminates within the table size when the wildcard-family pointer is at the front (histories front_ok) or the target leaves the family open; refuted for other histories and for clones."
  },
  {
   "property": "C14",
   "status": "proved",
   "theorems": [
    "C14_boxed_rejected",
    "C14_greenlisted_accepted",
    "C14_threshold_beats_greenlist",
    "C14_not_both",
    "C14_boxed_plain",
    "C14_greenlisted_plain"
   ],
   "note": "Boxed routes reject, unboxed greenlisted routes accept within limits, never both chosen; C14_threshold_beats_greenlist shows the limits are needed. Assumes update and decision actions do not touch the verdict bits; post and match actions are arbitrary."
  },
  {
   "property": "C15",
   "status": "partial",
   "theorems": [
    "C15_connection_count_partial",
    "C15_all_histories_partial",
    "C15_zero_is_unlimited_refuted",
    "C15_no_wrap_refuted",
    "C15_rejected_not_counted_refuted"
   ],
   "note": "The count is exact and within the limit for limits 1..65535 over all histories of dispatches. Refuted: limit 0 rejects everything although documented as unlimited; a limit above 65535 lets the 16-bit counter wrap; a connect rejected by the penalty box is counted."
  },
  {
   "property": "C16",
   "status": "proved",
   "theorems": [
    "C16_threshold",
    "C16_plain"
   ],
   "note": "Exact characterisation of boxing by threshold, with saturating counts and both balance modes. Connect attempts over the limit are covered by C15."
  },
  {
   "property": "C17",
   "status": "partial",
   "theorems": [
    "C17_box_expires",
    "C17_unlimited_box",
    "C17_box_expires_refuted",
    "C17_plain"
   ],
   "note": "The box lasts exactly to the end of the interval, unlimited with duration 0. Refuted for routes boxed at insertion: they carry no time stamp and never expire."
  },
  {
   "property": "C18",
   "status": "proved",
   "theorems": [
    "C18_no_route",
    "C18_undecided_route",
    "C18_decided_keeps",
    "C18_plain"
   ],
   "note": "No route found, or found but undecided: default policy bits and FALLTHROUGH; decided results are kept."
  },
  {
   "property": "C19",
   "status": "proved",
   "theorems": [
    "C19_update_flags",
    "C19_refusals"
   ],
   "note": "update_flags changes exactly the requested bits and refuses exactly the forbidden requests."
  },
  {
   "property": "C20",
   "status": "proved",
   "theorems": [
    "C20_actions_at_most_once",
    "C20_delete_actions_exactly_once",
    "C20_insert_actions_run"
   ],
   "note": "For every history of the calls modelled (insertion, deletion, hits, purges, flush, bulk actions, references), in whatever state the purge list is. An explicit reset of the insert-action status (wolfsentry_route_bulk_clear_insert_action_status) allows one more run each. C20_delete_actions_exactly_once: with non-empty delete lists they run exactly once for each route that leaves; C20_insert_actions_run: they do run. Limits: action handlers do not call back into the route functions; a freed address is not used again."
  },
  {
   "property": "C21",
   "status": "partial",
   "theorems": [
    "C21_delete_deferred_partial",
    "C21_reinsertion_revives_partial",
    "C21_removed_with_last_connection_refuted"
   ],
   "note": "Deferral and immediate removal proved for the states of calm histories (PurgeSpec.v: usage that keeps the purge list intact); re-insertion revives. The part 'removed as soon as its last connection closes' is false: C21_removed_with_last_connection_refuted (it stays, pending, until 60 s after the last hit)."
  },
  {
   "property": "C22",
   "status": "partial",
   "theorems": [
    "C22_purges_only_expired",
    "C22_purge_exact_partial",
    "C22_full_purge_complete_partial",
    "C22_plain_full_purge_partial",
    "C22_connected_never_purged_refuted",
    "C22_nothing_expired_left_refuted"
   ],
   "note": "Soundness for every state (C22_purges_only_expired); completeness for calm and neat histories, and for plain histories without further conditions. 'Never one with live connections' and 'leaves none behind' are false of the code: C22_connected_never_purged_refuted, C22_nothing_expired_left_refuted."
  },
  {
   "property": "C23",
   "status": "partial",
   "theorems": [
    "C23_calm_histories_return_partial",
    "C23_plain_histories_return_partial",
    "C23_blocked_purge_hangs",
    "C23_purge_returns_refuted",
    "C23_no_use_after_free_refuted"
   ],
   "note": "Calm and plain histories always return without undefined behaviour. In general false: C23_purge_returns_refuted (a connected expired route at the tail makes every dispatch hang; hits and insertions alone make the list circular), C23_no_use_after_free_refuted."
  },
  {
   "property": "C24",
   "status": "partial",
   "theorems": [
    "C24_insert_within_limit_partial",
    "C24_limit_kept_partial",
    "C24_plain_limit_partial",
    "C24_limit_enforced_refuted",
    "C24_refused_insertion_purges_nothing_refuted"
   ],
   "note": "For calm histories an insertion keeps within the limit or the previous count, thrifty and plain histories keep within the limit. Not enforced when the limit is set from none, by deferred deletions or by setting purge times: C24_limit_enforced_refuted; a refused insertion still purges: C24_refused_insertion_purges_nothing_refuted."
  },
  {
   "property": "C25",
   "status": "proved",
   "theorems": [
    "C25_linearizable",
    "C25_counters_exact",
    "C25_reports",
    "C25_no_blocking"
   ],
   "note": "Every interleaving of any number of threads over the atomic operations and CAS retry loops refines a sequential execution; overflow/underflow reported."
  },
  {
   "property": "C26",
   "status": "partial",
   "theorems": [
    "C26_alive_iff_referenced_partial",
    "C26_drop_frees_last_partial",
    "C26_overflow_refused",
    "C26_underflow_refused",
    "C26_use_after_free_refuted",
    "C26_cycle_leak_refuted"
   ],
   "note": "Proved for every history of creations, checkouts, drops, list and aux changes in which an event with its own configuration is never dropped for good; refuted otherwise (use after free of the parent event's configuration in route deallocation). Cyclic aux events leak (refuted)."
  },
  {
   "property": "C27",
   "status": "partial",
   "theorems": [
    "C27_mutual_exclusion_partial",
    "C27_timed_refuted"
   ],
   "note": "Proved for any number of threads and every schedule of calls without a time limit (waiting for ever or try). Refuted with time limits: a writer whose wait times out leads to a surplus reader wakeup, and later a reader enters beside a writer."
  },
  {
   "property": "C28",
   "status": "partial",
   "theorems": [
    "C28_unlock_succeeds_partial",
    "C28_answers_truthful_partial",
    "C28_destroy_partial",
    "C28_timed_refuted",
    "C28_destroy_timed_refuted"
   ],
   "note": "Without time limits: unlock by a holder always succeeds within two of its own steps, have_* answers and thread destruction tell exactly what is held, an unused lock can be destroyed. Refuted with time limits: a mutex granted at the instant of the timeout cannot be unlocked; a timed-out promotion makes the idle lock indestructible."
  },
  {
   "property": "C29",
   "status": "partial",
   "theorems": [
    "C29_no_deadlock_partial",
    "C29_readers_wait_for_writers_partial",
    "C29_timed_refuted"
   ],
   "note": "Without time limits: deadlock freedom, readers wait only for writers. Refuted with time limits: a timed-out writer leaves readers asleep while only readers hold the lock."
  },
  {
   "property": "C30",
   "status": "partial",
   "theorems": [
    "C30_reservation_exclusive_partial",
    "C30_redeem_outcome_partial",
    "C30_promotion_waits_only_for_readers_partial",
    "C30_try_redeem_partial",
    "C30_timed_refuted"
   ],
   "note": "Without time limits: reservation exclusive, redeem gets the mutex (try may say BUSY only if other readers are there), waits only for readers. Refuted with time limits: a redemption granted at the timeout leaves the reservation recorded for ever."
  },
  {
   "property": "C31",
   "status": "partial",
   "theorems": [
    "C31_in_order",
    "C31_exactly_the_enabled",
    "C31_at_most_once",
    "C31_inhibited",
    "C31_refused",
    "C31_insert_actions_once",
    "C31_hits",
    "C31_error_bit_refuted"
   ],
   "note": "Every list, every callback: enabled actions in list order, each once, each given what the previous left, up to and including the first failure or STOP; nothing when inhibited or stopped; insert/delete lists once per route; hit counters. The clause 'errors are reported with the ERROR bit' is false of the code (refuted). Not modelled: callbacks that edit the list being walked."
  },
  {
   "property": "C32",
   "status": "partial",
   "theorems": [
    "C32_lists_partial",
    "C32_removed",
    "C32_insert_after_last_refuted",
    "C32_label_twice_refuted"
   ],
   "note": "Every history over any number of lists at pointer level with reference counts, except (a) insertion after the last entry with a stale next in malloc's block and (b) registering an action under a label still on a list; both are refuted with concrete histories."
  },
  {
   "property": "C33",
   "status": "partial",
   "theorems": [
    "C33_typed_map_partial",
    "C33_store_then_get_partial",
    "C33_overwrite_failure_refuted",
    "C33_negative_zero_refuted"
   ],
   "note": "Every history of calls refines a typed map with read-only marks. Refuted: an overwriting store whose ID allocation fails loses the old value; storing -0.0 over 0.0 is dropped."
  },
  {
   "property": "C34",
   "status": "partial",
   "theorems": [
    "C34_json_get_refuted",
    "C34_string_as_json_refuted",
    "C34_json_stored_partial"
   ],
   "note": "Refuted: the JSON getter asks for a string, so it refuses JSON values and hands out strings as JSON objects. Proved: JSON values are stored and reported with their type."
  },
  {
   "property": "C35",
   "status": "partial",
   "theorems": [
    "C35_history",
    "C35_inverse_partial",
    "C35_held_family_alive",
    "C35_builtin_partial",
    "C35_builtin_refuted",
    "C35_install_allocation_failure_refuted",
    "C35_builtin_names",
    "C35_widths_partial",
    "C35_widths_refuted"
   ],
   "note": "C35_history, C35_inverse_partial and C35_held_family_alive settle user-installed families for every history (lookups inverse, failed installs change nothing, references keep a family readable), for names without a NUL inside. C35_builtin_partial settles the round trip of any resolvable name, with three exceptions shown real by C35_builtin_refuted: LINK64 has no name back, a user family may hide the built-in name of another number, and 0 has a name no lookup accepts; C35_install_allocation_failure_refuted: a failing second malloc reads an uninitialised ID. Not modelled: the ID table (C03), cloning (C36)."
  },
  {
   "property": "C36",
   "status": "partial",
   "theorems": [
    "C36_clone_behaves_as_original",
    "C36_clone_error_reported",
    "C36_success_is_complete",
    "C36_family_clone_refuted",
    "C36_route_clone_behaves_as_original_partial",
    "C36_route_clone_refuted",
    "C36_route_header_cloned",
    "C36_idle_time_refuted"
   ],
   "note": "Tables and by-ID index over explicit memory: the clone has the same keys, IDs and order and answers every later history as the original, including the IDs handed out (C36_clone_behaves_as_original). Route lookups: same for tables without wildcard-family routes; the header's fields but one. False of the code: the coupled clone of the address families lacks the backward links (C36_family_clone_refuted), with wildcard-family routes a lookup that ends on the original hangs on the clone (C36_route_clone_refuted), the idle time is not copied (C36_idle_time_refuted). Not modelled: the action lists of cloned events, wolfsentry_route_clone's private data."
  },
  {
   "property": "C37",
   "status": "partial",
   "theorems": [
    "C37_exchange_swaps",
    "C37_metadata_carried_over_partial",
    "C37_exchange_twice_partial",
    "C37_metadata_unrelated_refuted",
    "C37_hit_counts_refuted"
   ],
   "note": "Swap of tables, configuration and ID state with lock and hooks in place, and no effect on failure: for all contexts. Metadata and exchange-twice: for tables in which no ID stands for two keys (C37_..._partial). False in general: contexts cloned from one another hand out the same IDs to different routes, whose flags and counts the exchange then mixes up (C37_metadata_unrelated_refuted); hit counts are never carried over (C37_hit_counts_refuted). Simplified: two distinct contexts, one thread, the mutexes as hold counts with oracle answers."
  },
  {
   "property": "C38",
   "status": "partial",
   "theorems": [
    "C38_decode_memory_safe",
    "C38_decode_within_space",
    "C38_decode_encode_padded",
    "C38_decode_encode_unpadded",
    "C38_bufspc_exact",
    "C38_junk_ignored",
    "C38_malformed_rejected_refuted",
    "C38_strict_partial"
   ],
   "note": "Memory safety, space bound and inversion of encoding proved for all inputs. 'Malformed input is rejected' is false of the code (C38_malformed_rejected_refuted); C38_strict_partial says what is accepted."
  },
  {
   "property": "C39",
   "status": "proved",
   "theorems": [
    "C39_itoa_exact",
    "C39_decimal_unique"
   ],
   "note": "Exact digits, bounded writes, and uniqueness of the decimal representation."
  },
  {
   "property": "C40",
   "status": "partial",
   "theorems": [
    "C40_time_roundtrip",
    "C40_time_overflow_refused_refuted",
    "C40_from_epoch_partial",
    "C40_add_diff"
   ],
   "note": "Round trip proved; the overflow refusal is false of the code (C40_time_overflow_refused_refuted); C40_from_epoch_partial gives the range where it is right."
  },
  {
   "property": "C41",
   "status": "partial",
   "theorems": [
    "C41_check_partial",
    "C41_contradictions_refused",
    "C41_size_overflow_refuted",
    "C41_load_get",
    "C41_update_get_partial",
    "C41_update_refused",
    "C41_update_private_data_refuted",
    "C41_init_partial",
    "C41_init_padding_refuted",
    "C41_event_update_null_refuted",
    "C41_event_update_get"
   ],
   "note": "Acceptance characterised exactly (for sizes whose sum does not wrap), accepted configurations of contexts and events are returned unchanged. Refuted: sizes near SIZE_MAX are accepted by wraparound; updates of the default configuration drop the private-data layout silently; initialising from a padded context configuration grows the size; updating an event with NULL leaves an unwritten configuration."
  },
  {
   "property": "C42",
   "status": "partial",
   "theorems": [
    "C42_lifo_history",
    "C42_registering_handlers",
    "C42_all_exactly_once",
    "C42_popping_handler_refuted",
    "C42_reregistering_refuted"
   ],
   "note": "Exact stack behaviour for every history with handlers that make no cleanup calls, and LIFO, exactly-once, memory-safe for handlers that register further hooks. Refuted for handlers that pop hooks (use after free) and for a handler that registers itself again (told ALREADY_OK, yet not registered)."
  },
  {
   "property": "C43",
   "status": "proved",
   "theorems": [
    "C43_errcode_roundtrip",
    "C43_errcode_recode",
    "C43_errcode_any_value"
   ],
   "note": ""
  },
  {
   "property": "C44",
   "status": "partial",
   "theorems": [
    "C44_bitmask_families_exact_partial",
    "C44_bitmask_families_exact_refuted"
   ],
   "note": "Exact for all histories with succeeding insert actions; refuted for failing ones."
  },
  {
   "property": "C45",
   "status": "partial",
   "theorems": [
    "C45_export_rebuilds_partial",
    "C45_private_data_partial",
    "C45_export_inserts_partial",
    "C45_hits_and_times_refuted",
    "C45_private_data_refuted",
    "C45_import_crash_refuted",
    "C45_forced_bitmask_refuted",
    "C45_flag_updates_as_C19"
   ],
   "note": "For every route of a table, through any history of insertions, re-insertions, counts, private data and mutable flags, under configurations that neither force the bitmask flags nor take away a direction: the export gives a route with the same key, non-internal flags, purge time and counts, and unpadded private data; inserted again it is refused where the route is stored and accepted elsewhere. False of the code: times and hit count are not carried (C45_hits_and_times_refuted), aligned private data comes back displaced (C45_private_data_refuted), an export without direction crashes the insertion (C45_import_crash_refuted), forced bitmask routes cannot be re-inserted (C45_forced_bitmask_refuted)."
  },
  {
   "property": "C46",
   "status": "partial",
   "theorems": [
    "C46_balanced_calls_partial",
    "C46_flawed_calls_partial",
    "C46_clone_partial",
    "C46_json_init_partial",
    "C46_json_fini_partial",
    "C46_shutdown_partial",
    "C46_event_get_config_refuted",
    "C46_event_update_config_refuted",
    "C46_event_set_aux_event_refuted",
    "C46_dispatch_by_id_refuted",
    "C46_event_action_list_start_refuted",
    "C46_release_not_taken_refuted",
    "C46_shutdown_refuted",
    "C46_action_list_clone_refuted"
   ],
   "note": "Statement-by-statement lock skeletons of about ninety functions, every condition and call result left open: sixty-two calls give both locks back on every path (C46_balanced_calls_partial), eleven do so except on the named failures (C46_flawed_calls_partial), and for each of those failures a run that loses or leaks a hold is exhibited (C46_*_refuted). Also the calls that hand a hold over: clone, json init and fini, shutdown. Partial because the property as stated is false of the code, the bodies of the internal helpers that never touch the lock are not modelled, and neither are the skeletons of wolfsentry_init_ex (see C79) and of the lwIP and time glue."
  },
  {
   "property": "C47",
   "status": "partial",
   "theorems": [
    "C47_flag_round_trip",
    "C47_name_round_trip",
    "C47_flag_names",
    "C47_embedded_nul_refuted",
    "C47_res_round_trip",
    "C47_res_name_round_trip",
    "C47_res_names"
   ],
   "note": "Exact round trips for route flags and action results, for every flag, bit and every name without NUL. Refuted for names given by length that contain a NUL: the flag lookup then reads past its table entry."
  },
  {
   "property": "C48",
   "status": "partial",
   "theorems": [
    "C48_prefix_cmp_safe",
    "C48_bitmask_cmp_safe_partial",
    "C48_prefix_score_safe",
    "C48_bitmask_score_safe_partial",
    "C48_bitmask_score_refuted"
   ],
   "note": "Comparisons and prefix scoring safe; bitmask scoring refuted for short addresses against long masks, safe otherwise."
  },
  {
   "property": "C49",
   "status": "partial",
   "theorems": [
    "C49_refused_insert_changes_nothing_partial",
    "C49_failed_actions_remove_route_partial",
    "C49_failed_insert_leaves_no_trace_refuted"
   ],
   "note": "Refusals leave the table unchanged; failing insert actions remove the route but leave a dangling wildcard-family pointer (refuted)."
  },
  {
   "property": "C50",
   "status": "partial",
   "theorems": [
    "C50_auto_downgrade_refuted",
    "C50_unlock_keeps_mutex_partial"
   ],
   "note": "Refuted: the flag is never looked at where it matters; what unlock does instead (keep the mutex) is proved."
  },
  {
   "property": "C51",
   "status": "partial",
   "theorems": [
    "C51_private_data_partial",
    "C51_private_data_after_update_refuted"
   ],
   "note": "Proved while the configuration under which the route was created stays in force; refuted after an update of the event's configuration."
  },
  {
   "property": "C52",
   "status": "proved",
   "theorems": [
    "C52_chunking_irrelevant",
    "C52_too_long_refused"
   ],
   "note": "The whole SAX parser (json_init, json_feed, json_fini and all automata) and the calls wolfsentry_config_json_feed/fini make to it, for arbitrary callbacks and configurations. Simplified: allocations succeed; offsets and the value counter do not wrap around 2^64."
  },
  {
   "property": "C53",
   "status": "partial",
   "theorems": [
    "C53_wellformed_accepted",
    "C53_wellformed_pieces_accepted",
    "C53_accepted_is_beginning",
    "C53_accepted_is_wellformed_partial",
    "C53_accepted_iff_partial"
   ],
   "note": "Completeness is proved in full. Soundness is proved for documents not ending in a letter or digit (and with the flags that let ill-formed UTF-8 through off); for the others an accepted document is proved to be a beginning of a JSON text lacking only the rest of its last literal and closing brackets, and the full claim is refuted: the end of the input in a number or literal is accepted whatever is still open."
  },
  {
   "property": "C54",
   "status": "partial",
   "theorems": [
    "C54_position_partial",
    "C54_located",
    "C54_callback_located_refuted",
    "C54_columns_refuted",
    "C54_value_position_refuted",
    "C54_too_long_refuted"
   ],
   "note": "Proved for every document within the length limit (and shorter than 2^64-2 bytes): C54_position_partial, and C54_located for every way to cut it when the callback never fails. False of the code: refusals by the callback, i.e. every mistake in the content of a wolfSentry configuration, are reported at offset 0, line 0, column 0 (C54_callback_located_refuted); columns count from 1 on the first line and from 0 on the others (C54_columns_refuted); a superfluous array or object is reported at the token before it; the line of a too long document may be one too many."
  },
  {
   "property": "C55",
   "status": "partial",
   "theorems": [
    "C55_limits_hold",
    "C55_wolfsentry",
    "C55_nesting_stack",
    "C55_fix_flag_refuted"
   ],
   "note": "Proved for every configuration without the flags that replace ill-formed UTF-8 (C55_limits_hold; wolfSentry's own configuration in plain numbers: C55_wolfsentry; the nesting stack: C55_nesting_stack). With those flags it is false: C55_fix_flag_refuted (two bad bytes become a key of six with a limit of four). Simplified as in C52."
  },
  {
   "property": "C56",
   "status": "partial",
   "theorems": [
    "C56_integers_exact_partial",
    "C56_uint64_naturals_partial",
    "C56_uint64_refuted",
    "C56_strings_partial",
    "C56_safe_partial",
    "C56_strings_refuted",
    "C56_duration_sound_partial",
    "C56_duration_partial",
    "C56_duration_refuted"
   ],
   "note": "Proved in full for JSON numbers in 8-, 16-, 32-bit unsigned and 64-bit signed fields (C56_integers_exact_partial), for naturals in 64-bit unsigned fields (C56_uint64_naturals_partial; negative ones wrap around: C56_uint64_refuted), for strings as C numerals within the buffer (C56_strings_partial, with C56_strings_refuted: the empty string is 0, 0xff is refused for 8 bits), and for durations when the byte behind the text is neutral (C56_duration_partial, sound always: C56_duration_sound_partial). C56_duration_refuted: the unterminated text is read past its end, and days or negative seconds overflow. strtol and its relatives are modelled after C11 7.22.1.4 for LP64; doubles are not modelled."
  },
  {
   "property": "C57",
   "status": "partial",
   "theorems": [
    "C57_effect_partial",
    "C57_histories_partial",
    "C57_both_observations_refuted",
    "C57_refused_target",
    "C57_clock_failure",
    "C57_fallthrough_partial",
    "C57_fallthrough_flags_refuted"
   ],
   "note": "Every member and every result bit, for events without actions (C57_effect_partial, C57_histories_partial with the hits), limits up to 65535; with post actions the fallthrough route (C57_fallthrough_partial). False of the code: an event reported as both derogatory and commendable counts as neither (C57_both_observations_refuted: the pair is a private signal), and after falling through the flags of the discarded route decide, not those of the fallthrough route (C57_fallthrough_flags_refuted). Dispatches with actions: C14, C16, C17, C18, C31. Purge times are in C21-C24."
  },
  {
   "property": "C58",
   "status": "partial",
   "theorems": [
    "C58_integers_printed",
    "C58_numbers_classified",
    "C58_integers_read",
    "C58_integers_back",
    "C58_strings_printed",
    "C58_strings_back",
    "C58_strings_only_utf8",
    "C58_render_partial",
    "C58_render_refuted"
   ],
   "note": "Integers and strings in full (C58_integers_*, C58_numbers_classified, C58_strings_*); the rendering of user values for everything but strings with characters that need escaping (C58_render_partial), of which the claim is false: kv.c 437 tests HAVE_JSON_DOM, which nothing defines, so strings are rendered unescaped (C58_render_refuted). Floating point numbers are not modelled."
  },
  {
   "property": "C59",
   "status": "proved",
   "theorems": [
    "C59_map",
    "C59_walks",
    "C59_default_order",
    "C59_add_used_refuted",
    "C59_walk_nonzero_refuted",
    "C59_too_many_refuted"
   ],
   "note": "Dict.v is centijson_value.c 105-144 and 1056-1821 over explicit memory; C59_map, C59_walks and C59_default_order are for every history.  What the header says beyond that and the code does not do is refuted: json_value_dict_add on a used key whose value is still new (C59_add_used_refuted), a walk aborted by a positive answer (C59_walk_nonzero_refuted); and the limit of items is real (C59_too_many_refuted: undefined behaviour with 2^32-1 items).  The two allocations of get_or_add are one in the model; destroying a value is not modelled."
  },
  {
   "property": "C60",
   "status": "partial",
   "theorems": [
    "C60_read_partial",
    "C60_refused",
    "C60_only_json_partial",
    "C60_written_partial",
    "C60_back_partial",
    "C60_same_back_partial",
    "C60_use_first_refuted",
    "C60_long_number_refuted",
    "C60_indent_refuted",
    "C60_infinite_refuted"
   ],
   "note": "Reading: C60_read_partial, C60_refused, C60_only_json_partial. Writing and reading back: C60_written_partial, C60_back_partial, C60_same_back_partial (end to end). False of the code: with DUPKEY_USEFIRST a repeated member with an object or array is not skipped, which replaces the whole value or stores outside of the path (C60_use_first_refuted); doubles of 63 and more characters are refused as out of memory (C60_long_number_refuted); an indentation of 2^32-1 spaces never ends (C60_indent_refuted); infinite doubles are written as inf.0 (C60_infinite_refuted). Not modelled: failing allocations, the digits snprintf gives for doubles."
  },
  {
   "property": "C61",
   "status": "partial",
   "theorems": [
    "C61_list_partial",
    "C61_memory_partial",
    "C61_remove_only_refuted",
    "C61_remove_range_refuted"
   ],
   "note": "C61_list_partial and C61_memory_partial, for every history in which no removal takes the last item and no sum of index and count overflows. False of the code otherwise: emptying an array of one cell calls realloc with 0 bytes, which frees the memory (glibc) that the array goes on using (C61_remove_only_refuted: append, remove, append writes freed memory); an overflowing range is not refused and makes the array longer or writes behind its memory (C61_remove_range_refuted). Destroying the values themselves is not modelled."
  },
  {
   "property": "C62",
   "status": "partial",
   "theorems": [
    "C62_dry_run",
    "C62_commit_success",
    "C62_commit_failure_partial",
    "C62_in_place",
    "C62_document",
    "C62_pieces",
    "C62_after_failure",
    "C62_feed_answers",
    "C62_release_partial",
    "C62_commit_refuted",
    "C62_inhibited_refuted",
    "C62_release_refuted"
   ],
   "note": "Dry run, success of a commit, loading in place, pieces, refusal after a failure: in full, for arbitrary contents and outcomes of the calls (C62_dry_run, C62_commit_success, C62_in_place, C62_document, C62_pieces, C62_after_failure). Failure of a commit: unchanged unless one of the last steps fails (C62_commit_failure_partial); then the documentation is wrong, the new configuration stays in force (C62_commit_refuted), possibly with its actions inhibited (C62_inhibited_refuted). Release: C62_release_partial; init leaks on a refused lock and on a failing wolfsentry_defaultconfig_get (C62_release_refuted)."
  },
  {
   "property": "C63",
   "status": "partial",
   "theorems": [
    "C63_meaning",
    "C63_loaded_partial",
    "C63_version_first",
    "C63_only_values",
    "C63_safe_partial",
    "C63_undefined_refuted",
    "C63_config_update_lists_refuted",
    "C63_truncated_refuted"
   ],
   "note": "C63_meaning: for every document, cutting, context and outcome of the calls the loader (Loader.v, load_config.c 56-1695) does what LoaderSpec.document_meaning says; C63_loaded_partial the converse for texts that do not end in a letter or digit (C63_truncated_refuted: a text cut off in a number is loaded and answered with success); C63_version_first; C63_only_values. No undefined behaviour under the conditions of C63_safe_partial; otherwise there is: names of protocols and services that do not exist, and a bitmask after a prefix (C63_undefined_refuted; left Unspecified in the meaning). Lists of flags in config-update are documented but refused (C63_config_update_lists_refuted). Address parsing, name lookups, durations and doubles are arbitrary functions here; error codes and positions are not modelled."
  },
  {
   "property": "C64",
   "status": "partial",
   "theorems": [
    "C64_mac_only",
    "C64_mac_partial",
    "C64_can",
    "C64_accepted",
    "C64_fits",
    "C64_mac_refuted",
    "C64_can_empty_refuted"
   ],
   "note": "Nothing but well-formed addresses is taken, and as what it says (C64_mac_only, C64_can, C64_accepted; C64_fits). Every well-formed CAN address is taken (C64_can); every MAC address whose last octet has two digits, or that is followed in the buffer by something other than a hexadecimal digit (C64_mac_partial). False otherwise: convert_hex_byte reads the byte behind the text, so a MAC address that ends in a single digit is refused, or memory beyond the buffer read, depending on remains of earlier strings (C64_mac_refuted). An empty text is CAN address 0 (C64_can_empty_refuted). inet_pton and installed parsers are arbitrary functions."
  },
  {
   "property": "C65",
   "status": "partial",
   "theorems": [
    "C65_stored_target",
    "C65_tracks_partial",
    "C65_added",
    "C65_deleted_event_refuted",
    "C65_observation_counted_refuted"
   ],
   "note": "Proved for all traffic, tables, configurations and insert actions, if the tracking event is registered and the lock obtained (C65_stored_target, C65_tracks_partial, C65_added). Missing: the limit on purgeable routes and stored routes waiting for deletion (these are in the model of C20-C24), routes with address masks in C65_added. False: safety when the aux event has been deleted from the context (C65_deleted_event_refuted), and that the observation that caused the tracking is counted on some route (C65_observation_counted_refuted)."
  },
  {
   "property": "C66",
   "status": "partial",
   "theorems": [
    "C66_committed",
    "C66_refused",
    "C66_dry_run",
    "C66_in_place",
    "C66_defined",
    "C66_only_documents_partial",
    "C66_truncated_refuted"
   ],
   "note": "Composition of the session (C62), the parser (C52, C53) and json_process (C63). Proved: committed, refused, dry run and in place for every well-formed document in any pieces, and the converse for texts that do not end in a letter or digit. Refuted: a file cut off inside a number is committed (C66_truncated_refuted). Missing: documents whose meaning is not specified or whose reading is undefined behaviour (C63_undefined_refuted); the calls on the context are arbitrary functions here."
  },
  {
   "property": "C67",
   "status": "partial",
   "theorems": [
    "C67_dump_partial",
    "C67_roundtrip_partial",
    "C67_addresses_partial",
    "C67_too_small_is_undone",
    "C67_in_the_buffer",
    "C67_overrun_refuted",
    "C67_too_small_refuted",
    "C67_long_address_refuted",
    "C67_protocol_refuted",
    "C67_changed_refuted",
    "C67_link64_refuted"
   ],
   "note": "RouteJson.v is routes.c 3693-3780 and 3878-4201. For routes that are loadable (RouteJsonSpec.v: labels without quotes, names that mean their numbers, addresses that are read back): C67_dump_partial (one text, exact space, JSON within the limits of the loader) and C67_roundtrip_partial (composition with the parser and the loader of C53 and C63, for every context, cutting and outcome of the insertions); C67_addresses_partial: MAC, IPv4, IPv6, CAN addresses are of this kind. For all routes: C67_too_small_is_undone, C67_in_the_buffer. False of the code: some buffers that are too small are overrun (C67_overrun_refuted), or get SYS_OP_FAILED with half a route left in the buffer (C67_too_small_refuted); IPv4 addresses of more than 32 bits overflow a stack buffer (C67_long_address_refuted); unnamed protocols are undefined behaviour (C67_protocol_refuted); quotes in labels, MAC prefixes, CAN addresses of 29 bits, the parent event's wildcard and TCP routes without their flag are not loaded back (C67_changed_refuted); 64-bit MAC addresses cannot be dumped (C67_link64_refuted)."
  },
  {
   "property": "C68",
   "status": "partial",
   "theorems": [
    "C68_once",
    "C68_verdict",
    "C68_unasked",
    "C68_fail_open_refuted",
    "C68_boxed",
    "C68_connection_limit",
    "C68_room",
    "C68_stray_segments_refuted",
    "C68_boxed_attempt_refuted",
    "C68_install",
    "C68_install_failure",
    "C68_install_succeeds",
    "C68_mutex_partial",
    "C68_cleanup",
    "C68_mutex_refuted",
    "C68_other_context_refuted"
   ],
   "note": "Lwip.v is all of src/lwip/packet_filter_glue.c with the dispatchers of lwip/LWIP_PACKET_FILTER_API.patch. C68_once and C68_verdict: over any state of the library, each possible event is dispatched exactly once with a request that describes it (LwipSpec.v), and passes exactly if not refused; C68_boxed composes this with the dispatch model; C68_connection_limit and C68_room: over every history of attempts and endings the count is the number of open connections and at most the limit. C68_install*, C68_cleanup: what installation does in every build under every pattern of failures. Partial because the code does not keep the rest: the filters fail open (C68_fail_open_refuted); lwIP asks about every segment for a listening port, so stray ACKs exhaust the connection limit for good (C68_stray_segments_refuted), as do attempts refused by the penalty box (C68_boxed_attempt_refuted); a failed registration of the ICMP or TCP cleanup leaves the mutex locked (C68_mutex_refuted; otherwise C68_mutex_partial); one context's shutdown switches off another's filters (C68_other_context_refuted)."
  },
  {
   "property": "C69",
   "status": "partial",
   "theorems": [
    "C69_new",
    "C69_new_refines",
    "C69_read",
    "C69_target",
    "C69_clone",
    "C69_clone_target",
    "C69_clamp",
    "C69_wildcard_partial",
    "C69_wildcard_in_table",
    "C69_wildcard_refuted",
    "C69_wildcard_example_refuted",
    "C69_private",
    "C69_free",
    "C69_exports",
    "C69_default_event_refuted",
    "C69_clone_other_refuted",
    "C69_clone_widened_refuted"
   ],
   "note": "RouteMem.v: routes as blocks of bytes, out-of-bounds access is UB. Creation, the target of a dispatch, import, reading, copying under the same configuration, copying of dispatch targets, clamping, private data and freeing in full, for every content of fresh memory (C69_new, C69_new_refines: the layout-free model of Export.v is sound, C69_read, C69_target, C69_clone, C69_clone_target, C69_clamp, C69_private, C69_free, C69_exports). Widening: C69_wildcard_partial, except that wildcarding the remote address of a route with a local one turns the local address into bytes of the remote one (C69_wildcard_refuted). Also false of the code: a dispatch without event makes a route under the default configuration and then gives it the default event, whose private data may lie on the addresses or beyond the block (C69_default_event_refuted); copies under another configuration than that of creation take private data for addresses (C69_clone_other_refuted), or write past the block (C69_clone_widened_refuted)."
  },
  {
   "property": "C70",
   "status": "partial",
   "theorems": [
    "C70_ids_partial",
    "C70_nested",
    "C70_nested_no_drift",
    "C70_ids_refuted",
    "C70_wind_back_refuted",
    "C70_busy",
    "C70_destroyed",
    "C70_others",
    "C70_deadline_relative",
    "C70_deadline_absolute",
    "C70_deadline_clear",
    "C70_deadline_before_epoch_refuted",
    "C70_initialised",
    "C70_starts_again",
    "C70_readonly",
    "C70_readwrite"
   ],
   "note": "Thread.v: contexts and the shared counter, each access of the counter a step of its own. Identities: C70_initialised, C70_starts_again; C70_ids_partial (fewer than 2^24 - 1 fallback initialisations, any order and interleaving), C70_nested (any number, when contexts nest like interrupt handlers), C70_nested_no_drift. False without these: C70_ids_refuted (with at most five contexts at a time the numbers come round to that of one alive since the start), C70_wind_back_refuted (an initialisation between the two accesses leaves the reserved range). In full: C70_busy, C70_destroyed, C70_others, C70_deadline_relative (clock not before 1970; C70_deadline_before_epoch_refuted), C70_deadline_absolute, C70_deadline_clear, C70_readonly, C70_readwrite."
  },
  {
   "property": "C71",
   "status": "partial",
   "theorems": [
    "C71_aligned_partial",
    "C71_null",
    "C71_large_refuted",
    "C71_not_power_refuted",
    "C71_huge_refuted",
    "C71_room_refuted"
   ],
   "note": "Align.v: the arithmetic of both hand-made memalign functions on 64-bit words. C71_aligned_partial: powers of two up to 2^15 and sizes that leave room in the address space, every address of the block; C71_null. False of the code: alignments from 2^16 on, another address is freed (C71_large_refuted); other than powers of two (C71_not_power_refuted); the sum of size and header wraps (C71_huge_refuted); FreeRTOS keeps the header size in 32 bits (C71_room_refuted)."
  },
  {
   "property": "C72",
   "status": "partial",
   "theorems": [
    "C72_not_early_partial",
    "C72_not_late_partial",
    "C72_taken_partial",
    "C72_try",
    "C72_invalid",
    "C72_far_refuted",
    "C72_forever_refuted",
    "C72_overflow_refuted",
    "C72_late_refuted"
   ],
   "note": "Ticks.v: timespec arithmetic, conversion to 32-bit ticks, the wait. For deadlines less than 2^32 - 1 ticks away (seconds rounded up): C72_not_early_partial (every tick rate up to 10^9; the wait ends and reports a time-out), C72_not_late_partial (tick rates dividing 10^9), C72_taken_partial. In full: C72_try, C72_invalid. False of the code: farther deadlines are neither refused nor waited for, but cut to 32 bits (C72_far_refuted), one 2^32 - 1 ticks away waits for ever (C72_forever_refuted), signed overflow (C72_overflow_refuted); other tick rates wait too long (C72_late_refuted)."
  },
  {
   "property": "C73",
   "status": "partial",
   "theorems": [
    "C73_counters_partial",
    "C73_zero_refuted",
    "C73_min_refuted"
   ],
   "note": "Reputation.v on top of Atomic.v: C73_counters_partial, any threads, programs and schedule, for counts to add other than 0 and INT_MIN. False for these: adding 0 to a full counter reports OVERFLOW_AVERTED (C73_zero_refuted), negating INT_MIN is undefined (C73_min_refuted)."
  },
  {
   "property": "C74",
   "status": "proved",
   "theorems": [
    "C74_string",
    "C74_string_memory",
    "C74_integer",
    "C74_bool",
    "C74_null",
    "C74_wrong_type"
   ],
   "note": "Scalar.v: values as 16 bytes and a block of memory, every access checked. C74_string, C74_string_memory, C74_integer, C74_bool, C74_null, C74_wrong_type. Values of types FLOAT and DOUBLE are not modelled (and not claimed)."
  },
  {
   "property": "C75",
   "status": "partial",
   "theorems": [
    "C75_path_partial",
    "C75_safe",
    "C75_adjacent_refuted",
    "C75_negative_refuted",
    "C75_wraps_refuted",
    "C75_trailing_refuted"
   ],
   "note": "JsonPath.v over the values of Dom.v. C75_path_partial: keys and indices (below 2^64) separated by slashes, empty parts and leading zeros allowed. C75_safe in full. False of the code: an index right after a key is taken as part of the key (C75_adjacent_refuted), negative indices lead nowhere (C75_negative_refuted), indices are read modulo 2^64 (C75_wraps_refuted), and what follows a number inside of the brackets is not looked at (C75_trailing_refuted)."
  },
  {
   "property": "C76",
   "status": "partial",
   "theorems": [
    "C76_copy_partial",
    "C76_success_partial",
    "C76_lost_refuted",
    "C76_garbage_refuted",
    "C76_destroys_garbage_refuted",
    "C76_empty_refuted"
   ],
   "note": "JsonClone.v. C76_copy_partial: the same value whenever the allocator has memory. C76_success_partial: for values without order-keeping dictionaries, under any refusals, the same value or an error. False of the code with order-keeping dictionaries, since each member's result replaces the one before: success with a lost string (C76_lost_refuted), success with uninitialised elements (C76_garbage_refuted), a failure whose cleaning up destroys uninitialised memory (C76_destroys_garbage_refuted); and empty arrays and dictionaries are not copied under allocators that answer NULL to zero bytes (C76_empty_refuted)."
  },
  {
   "property": "C77",
   "status": "partial",
   "theorems": [
    "C77_register",
    "C77_error_partial",
    "C77_success_partial",
    "C77_success_refuted",
    "C77_source",
    "C77_library",
    "C77_library_sources",
    "C77_safe"
   ],
   "note": "Strings.v, with the library's texts taken over. C77_register, C77_source, C77_library, C77_library_sources and C77_safe in full; C77_error_partial for errors, C77_success_partial for successes without a text. False of the code: a registered success is never rendered as its text but as that of the error of the same size or as a null pointer (C77_success_refuted: line 227 returns an entry of the wrong table)."
  },
  {
   "property": "C78",
   "status": "partial",
   "theorems": [
    "C78_clone_partial",
    "C78_deleted_refuted",
    "C78_replaced_refuted",
    "C78_names",
    "C78_deleted",
    "C78_success"
   ],
   "note": "EventClone.v. C78_clone_partial: for contexts whose events refer only to objects that are in the tables. Without that: a context can be cloned exactly if every name its events use is that of an object in its tables (C78_success), a failure is ITEM_NOT_FOUND, and in a clone every event names the same actions and auxiliary event, all of them the clone's own (C78_names, C78_deleted). But wolfsentry_action_delete takes an action that is still in use out of the table, and then the context cannot be cloned (C78_deleted_refuted), or, when the label is used again, the clone's events call another handler than the original's (C78_replaced_refuted)."
  },
  {
   "property": "C79",
   "status": "partial",
   "theorems": [
    "C79_settings",
    "C79_refused",
    "C79_started_partial",
    "C79_configuration_partial",
    "C79_failed_partial",
    "C79_abandoned",
    "C79_leak_refuted",
    "C79_big_area_refuted",
    "C79_cut_area_refuted",
    "C79_duration_refuted"
   ],
   "note": "Init.v. C79_settings, C79_refused; C79_started_partial for private areas below 4 GiB; C79_configuration_partial for durations that can be expressed; C79_failed_partial for libraries without threads. False otherwise: in a thread-safe library every failure after the first allocation leaves the half-made context allocated and in the caller's variable, since the cleanup wants the mutex, which nobody holds (C79_abandoned, C79_leak_refuted); a private area above 65535 bytes passes the check of the configuration when it has no alignment and then makes the call fail (C79_big_area_refuted), or is cut to 32 bits (C79_cut_area_refuted); a duration too long for the clock is left as a number of seconds (C79_duration_refuted)."
  },
  {
   "property": "C80",
   "status": "partial",
   "theorems": [
    "C80_init",
    "C80_init_failed_partial",
    "C80_init_leaks",
    "C80_init_refuted",
    "C80_alloc",
    "C80_free",
    "C80_destroyed",
    "C80_in_use",
    "C80_unmade",
    "C80_left_over_refuted"
   ],
   "note": "Sems.v. C80_init, C80_alloc, C80_free, C80_destroyed, C80_in_use, C80_unmade; C80_init_failed_partial for calls that fail on the flags or on the first semaphore. False for every later failure: the code that should destroy the semaphores made so far initialises them again, so they stay, and the lock cannot be destroyed since it counts as not initialised (C80_init_leaks, C80_init_refuted). A lock that cannot be destroyed because a count is left on a waiters' semaphore is not as before: its own semaphore stays taken (C80_left_over_refuted)."
  },
  {
   "property": "C81",
   "status": "proved",
   "theorems": [
    "C81_routes",
    "C81_success"
   ],
   "note": "RouteRefs.v. C81_routes, C81_success; with memory granted and reference counts without an upper bound, as in C78."
  }
 ]
}