def c(pid,st,note):
    status[pid]=st; notes[pid]=note
c("C05","partial","Prepend, append and delete are proved in full. The full history claim is refuted (insert-before at the head keeps a stale prev, insert-after at the tail keeps a stale next): C05_list_history_refuted, C05_insert_after_tail_refuted; the partial theorems need cleared links of the inserted element.")
c("C38","partial","Memory safety, space bound and inversion of encoding proved for all inputs. 'Malformed input is rejected' is false of the code (C38_malformed_rejected_refuted); C38_strict_partial says what is accepted.")
c("C39","proved","Exact digits, bounded writes, and uniqueness of the decimal representation.")
c("C40","partial","Round trip proved; the overflow refusal is false of the code (C40_time_overflow_refused_refuted); C40_from_epoch_partial gives the range where it is right.")
c("C43","proved","")
c("C01","proved","For every comparison function that is a total preorder and every history of creations, deletions (by key, by ID) and lookups over any number of tables.")
c("C02","proved","Every history refines the finite-map specification of TableSpec.v; entry counters exact.")
c("C03","proved","No history reaches UB or divergence; backward iteration is the reverse of forward iteration.")
c("C04","proved","Both the built-in counter (with reclamation) and an ID callback (given by its answers); INVALID_ARG for exhaustion only after 2^32-1 creations.")
c("C06","proved","memcmp magnitude abstracted to its sign; out-of-bounds reads shown impossible.")
c("C07","proved","Over all well-formed routes (route_ok, shown to hold of every initialised route). Event identity is label plus priority.")
c("C08","partial","Exact behaviour characterised for all prefix lengths; the English claim holds for lengths that are multiples of 4 and is refuted otherwise (partial last byte shifted by n mod 8 instead of 8 - n mod 8).")
c("C09","proved","For addresses and masks of the same byte-aligned width as the compared address.")
c("C48","partial","Comparisons and prefix scoring safe; bitmask scoring refuted for short addresses against long masks, safe otherwise.")
c("C10","partial","Agreement in every field, direction and filter proved for every reachable table; penalty-box exclusion refuted for a route whose key equals the target's (exact-match shortcut).")
c("C11","partial","No miss for same-family routes less specific than the traffic, and for all routes of bitmask-matched families; refuted in general.")
c("C12","partial","Priority and number of ignored fields proved optimal; tie-breaking among bitmask routes characterised exactly (number of zero bits of the stored address, independent of the traffic). Refuted: longer prefix wins, more specific mask wins.")
c("C13","partial","Terminates within the table size when the wildcard-family pointer is at the front (histories front_ok) or the target leaves the family open; refuted for other histories and for clones.")
c("C44","partial","Exact for all histories with succeeding insert actions; refuted for failing ones.")
c("C49","partial","Refusals leave the table unchanged; failing insert actions remove the route but leave a dangling wildcard-family pointer (refuted).")
c("C14","proved","Boxed routes reject, unboxed greenlisted routes accept within limits, never both chosen; C14_threshold_beats_greenlist shows the limits are needed. Assumes update and decision actions do not touch the verdict bits; post and match actions are arbitrary.")
c("C15","partial","The count is exact and within the limit for limits 1..65535 over all histories of dispatches. Refuted: limit 0 rejects everything although documented as unlimited; a limit above 65535 lets the 16-bit counter wrap; a connect rejected by the penalty box is counted.")
c("C16","proved","Exact characterisation of boxing by threshold, with saturating counts and both balance modes. Connect attempts over the limit are covered by C15.")
c("C17","partial","The box lasts exactly to the end of the interval, unlimited with duration 0. Refuted for routes boxed at insertion: they carry no time stamp and never expire.")
c("C18","proved","No route found, or found but undecided: default policy bits and FALLTHROUGH; decided results are kept.")
c("C19","proved","update_flags changes exactly the requested bits and refuses exactly the forbidden requests.")
c("C25","proved","Every interleaving of any number of threads over the atomic operations and CAS retry loops refines a sequential execution; overflow/underflow reported.")
c("C26","partial","Proved for every history of creations, checkouts, drops, list and aux changes in which an event with its own configuration is never dropped for good; refuted otherwise (use after free of the parent event's configuration in route deallocation). Cyclic aux events leak (refuted).")
c("C27","partial","Proved for any number of threads and every schedule of calls without a time limit (waiting for ever or try). Refuted with time limits: a writer whose wait times out leads to a surplus reader wakeup, and later a reader enters beside a writer.")
c("C28","partial","Without time limits: unlock by a holder always succeeds within two of its own steps, have_* answers and thread destruction tell exactly what is held, an unused lock can be destroyed. Refuted with time limits: a mutex granted at the instant of the timeout cannot be unlocked; a timed-out promotion makes the idle lock indestructible.")
c("C29","partial","Without time limits: deadlock freedom, readers wait only for writers. Refuted with time limits: a timed-out writer leaves readers asleep while only readers hold the lock.")
c("C30","partial","Without time limits: reservation exclusive, redeem gets the mutex (try may say BUSY only if other readers are there), waits only for readers. Refuted with time limits: a redemption granted at the timeout leaves the reservation recorded for ever.")
c("C50","partial","Refuted: the flag is never looked at where it matters; what unlock does instead (keep the mutex) is proved.")
c("C47","partial","Exact round trips for route flags and action results, for every flag, bit and every name without NUL. Refuted for names given by length that contain a NUL: the flag lookup then reads past its table entry.")
c("C42","partial","Exact stack behaviour for every history with handlers that make no cleanup calls, and LIFO, exactly-once, memory-safe for handlers that register further hooks. Refuted for handlers that pop hooks (use after free) and for a handler that registers itself again (told ALREADY_OK, yet not registered).")
c("C41","partial","Acceptance characterised exactly (for sizes whose sum does not wrap), accepted configurations of contexts and events are returned unchanged. Refuted: sizes near SIZE_MAX are accepted by wraparound; updates of the default configuration drop the private-data layout silently; initialising from a padded context configuration grows the size; updating an event with NULL leaves an unwritten configuration.")
c("C51","partial","Proved while the configuration under which the route was created stays in force; refuted after an update of the event's configuration.")
c("C33","partial","Every history of calls refines a typed map with read-only marks. Refuted: an overwriting store whose ID allocation fails loses the old value; storing -0.0 over 0.0 is dropped.")
c("C34","partial","Refuted: the JSON getter asks for a string, so it refuses JSON values and hands out strings as JSON objects. Proved: JSON values are stored and reported with their type.")
c("C31","partial","Every list, every callback: enabled actions in list order, each once, each given what the previous left, up to and including the first failure or STOP; nothing when inhibited or stopped; insert/delete lists once per route; hit counters. The clause 'errors are reported with the ERROR bit' is false of the code (refuted). Not modelled: callbacks that edit the list being walked.")
c("C32","partial","Every history over any number of lists at pointer level with reference counts, except (a) insertion after the last entry with a stale next in malloc's block and (b) registering an action under a label still on a list; both are refuted with concrete histories.")
c("C35","partial","C35_history, C35_inverse_partial and C35_held_family_alive settle user-installed families for every history (lookups inverse, failed installs change nothing, references keep a family readable), for names without a NUL inside. C35_builtin_partial settles the round trip of any resolvable name, with three exceptions shown real by C35_builtin_refuted: LINK64 has no name back, a user family may hide the built-in name of another number, and 0 has a name no lookup accepts; C35_install_allocation_failure_refuted: a failing second malloc reads an uninitialised ID. Not modelled: the ID table (C03), cloning (C36).")
c("C20","proved","For every history of the calls modelled (insertion, deletion, hits, purges, flush, bulk actions, references), in whatever state the purge list is. An explicit reset of the insert-action status (wolfsentry_route_bulk_clear_insert_action_status) allows one more run each. C20_delete_actions_exactly_once: with non-empty delete lists they run exactly once for each route that leaves; C20_insert_actions_run: they do run. Limits: action handlers do not call back into the route functions; a freed address is not used again.")
c("C21","partial","Deferral and immediate removal proved for the states of calm histories (PurgeSpec.v: usage that keeps the purge list intact); re-insertion revives. The part 'removed as soon as its last connection closes' is false: C21_removed_with_last_connection_refuted (it stays, pending, until 60 s after the last hit).")
c("C22","partial","Soundness for every state (C22_purges_only_expired); completeness for calm and neat histories, and for plain histories without further conditions. 'Never one with live connections' and 'leaves none behind' are false of the code: C22_connected_never_purged_refuted, C22_nothing_expired_left_refuted.")
c("C23","partial","Calm and plain histories always return without undefined behaviour. In general false: C23_purge_returns_refuted (a connected expired route at the tail makes every dispatch hang; hits and insertions alone make the list circular), C23_no_use_after_free_refuted.")
c("C24","partial","For calm histories an insertion keeps within the limit or the previous count, thrifty and plain histories keep within the limit. Not enforced when the limit is set from none, by deferred deletions or by setting purge times: C24_limit_enforced_refuted; a refused insertion still purges: C24_refused_insertion_purges_nothing_refuted.")
c("C36","partial","Tables and by-ID index over explicit memory: the clone has the same keys, IDs and order and answers every later history as the original, including the IDs handed out (C36_clone_behaves_as_original). Route lookups: same for tables without wildcard-family routes; the header's fields but one. False of the code: the coupled clone of the address families lacks the backward links (C36_family_clone_refuted), with wildcard-family routes a lookup that ends on the original hangs on the clone (C36_route_clone_refuted), the idle time is not copied (C36_idle_time_refuted). Not modelled: the action lists of cloned events, wolfsentry_route_clone's private data.")
c("C37","partial","Swap of tables, configuration and ID state with lock and hooks in place, and no effect on failure: for all contexts. Metadata and exchange-twice: for tables in which no ID stands for two keys (C37_..._partial). False in general: contexts cloned from one another hand out the same IDs to different routes, whose flags and counts the exchange then mixes up (C37_metadata_unrelated_refuted); hit counts are never carried over (C37_hit_counts_refuted). Simplified: two distinct contexts, one thread, the mutexes as hold counts with oracle answers.")
c("C45","partial","For every route of a table, through any history of insertions, re-insertions, counts, private data and mutable flags, under configurations that neither force the bitmask flags nor take away a direction: the export gives a route with the same key, non-internal flags, purge time and counts, and unpadded private data; inserted again it is refused where the route is stored and accepted elsewhere. False of the code: times and hit count are not carried (C45_hits_and_times_refuted), aligned private data comes back displaced (C45_private_data_refuted), an export without direction crashes the insertion (C45_import_crash_refuted), forced bitmask routes cannot be re-inserted (C45_forced_bitmask_refuted).")
c("C46","partial","Statement-by-statement lock skeletons of about ninety functions, every condition and call result left open: sixty-two calls give both locks back on every path (C46_balanced_calls_partial), eleven do so except on the named failures (C46_flawed_calls_partial), and for each of those failures a run that loses or leaks a hold is exhibited (C46_*_refuted). Also the calls that hand a hold over: clone, json init and fini, shutdown. Partial because the property as stated is false of the code, the bodies of the internal helpers that never touch the lock are not modelled, and neither are the skeletons of wolfsentry_init_ex (see C79) and of the lwIP and time glue.")
c("C52","proved","The whole SAX parser (json_init, json_feed, json_fini and all automata) and the calls wolfsentry_config_json_feed/fini make to it, for arbitrary callbacks and configurations. Simplified: allocations succeed; offsets and the value counter do not wrap around 2^64.")
c("C53","partial","Completeness is proved in full. Soundness is proved for documents not ending in a letter or digit (and with the flags that let ill-formed UTF-8 through off); for the others an accepted document is proved to be a beginning of a JSON text lacking only the rest of its last literal and closing brackets, and the full claim is refuted: the end of the input in a number or literal is accepted whatever is still open.")
c("C54","partial","Proved for every document within the length limit (and shorter than 2^64-2 bytes): C54_position_partial, and C54_located for every way to cut it when the callback never fails. False of the code: refusals by the callback, i.e. every mistake in the content of a wolfSentry configuration, are reported at offset 0, line 0, column 0 (C54_callback_located_refuted); columns count from 1 on the first line and from 0 on the others (C54_columns_refuted); a superfluous array or object is reported at the token before it; the line of a too long document may be one too many.")
c("C55","partial","Proved for every configuration without the flags that replace ill-formed UTF-8 (C55_limits_hold; wolfSentry's own configuration in plain numbers: C55_wolfsentry; the nesting stack: C55_nesting_stack). With those flags it is false: C55_fix_flag_refuted (two bad bytes become a key of six with a limit of four). Simplified as in C52.")
c("C56","partial","Proved in full for JSON numbers in 8-, 16-, 32-bit unsigned and 64-bit signed fields (C56_integers_exact_partial), for naturals in 64-bit unsigned fields (C56_uint64_naturals_partial; negative ones wrap around: C56_uint64_refuted), for strings as C numerals within the buffer (C56_strings_partial, with C56_strings_refuted: the empty string is 0, 0xff is refused for 8 bits), and for durations when the byte behind the text is neutral (C56_duration_partial, sound always: C56_duration_sound_partial). C56_duration_refuted: the unterminated text is read past its end, and days or negative seconds overflow. strtol and its relatives are modelled after C11 7.22.1.4 for LP64; doubles are not modelled.")
c("C57","partial","Every member and every result bit, for events without actions (C57_effect_partial, C57_histories_partial with the hits), limits up to 65535; with post actions the fallthrough route (C57_fallthrough_partial). False of the code: an event reported as both derogatory and commendable counts as neither (C57_both_observations_refuted: the pair is a private signal), and after falling through the flags of the discarded route decide, not those of the fallthrough route (C57_fallthrough_flags_refuted). Dispatches with actions: C14, C16, C17, C18, C31. Purge times are in C21-C24.")
c("C58","partial","Integers and strings in full (C58_integers_*, C58_numbers_classified, C58_strings_*); the rendering of user values for everything but strings with characters that need escaping (C58_render_partial), of which the claim is false: kv.c 437 tests HAVE_JSON_DOM, which nothing defines, so strings are rendered unescaped (C58_render_refuted). Floating point numbers are not modelled.")
c("C59","proved","Dict.v is centijson_value.c 105-144 and 1056-1821 over explicit memory; C59_map, C59_walks and C59_default_order are for every history.  What the header says beyond that and the code does not do is refuted: json_value_dict_add on a used key whose value is still new (C59_add_used_refuted), a walk aborted by a positive answer (C59_walk_nonzero_refuted); and the limit of items is real (C59_too_many_refuted: undefined behaviour with 2^32-1 items).  The two allocations of get_or_add are one in the model; destroying a value is not modelled.")
c("C60","partial","Reading: C60_read_partial, C60_refused, C60_only_json_partial. Writing and reading back: C60_written_partial, C60_back_partial, C60_same_back_partial (end to end). False of the code: with DUPKEY_USEFIRST a repeated member with an object or array is not skipped, which replaces the whole value or stores outside of the path (C60_use_first_refuted); doubles of 63 and more characters are refused as out of memory (C60_long_number_refuted); an indentation of 2^32-1 spaces never ends (C60_indent_refuted); infinite doubles are written as inf.0 (C60_infinite_refuted). Not modelled: failing allocations, the digits snprintf gives for doubles.")
c("C61","partial","C61_list_partial and C61_memory_partial, for every history in which no removal takes the last item and no sum of index and count overflows. False of the code otherwise: emptying an array of one cell calls realloc with 0 bytes, which frees the memory (glibc) that the array goes on using (C61_remove_only_refuted: append, remove, append writes freed memory); an overflowing range is not refused and makes the array longer or writes behind its memory (C61_remove_range_refuted). Destroying the values themselves is not modelled.")
c("C62","partial","Dry run, success of a commit, loading in place, pieces, refusal after a failure: in full, for arbitrary contents and outcomes of the calls (C62_dry_run, C62_commit_success, C62_in_place, C62_document, C62_pieces, C62_after_failure). Failure of a commit: unchanged unless one of the last steps fails (C62_commit_failure_partial); then the documentation is wrong, the new configuration stays in force (C62_commit_refuted), possibly with its actions inhibited (C62_inhibited_refuted). Release: C62_release_partial; init leaks on a refused lock and on a failing wolfsentry_defaultconfig_get (C62_release_refuted).")
c("C63","partial","C63_meaning: for every document, cutting, context and outcome of the calls the loader (Loader.v, load_config.c 56-1695) does what LoaderSpec.document_meaning says; C63_loaded_partial the converse for texts that do not end in a letter or digit (C63_truncated_refuted: a text cut off in a number is loaded and answered with success); C63_version_first; C63_only_values. No undefined behaviour under the conditions of C63_safe_partial; otherwise there is: names of protocols and services that do not exist, and a bitmask after a prefix (C63_undefined_refuted; left Unspecified in the meaning). Lists of flags in config-update are documented but refused (C63_config_update_lists_refuted). Address parsing, name lookups, durations and doubles are arbitrary functions here; error codes and positions are not modelled.")
c("C64","partial","Nothing but well-formed addresses is taken, and as what it says (C64_mac_only, C64_can, C64_accepted; C64_fits). Every well-formed CAN address is taken (C64_can); every MAC address whose last octet has two digits, or that is followed in the buffer by something other than a hexadecimal digit (C64_mac_partial). False otherwise: convert_hex_byte reads the byte behind the text, so a MAC address that ends in a single digit is refused, or memory beyond the buffer read, depending on remains of earlier strings (C64_mac_refuted). An empty text is CAN address 0 (C64_can_empty_refuted). inet_pton and installed parsers are arbitrary functions.")
c("C65","partial","Proved for all traffic, tables, configurations and insert actions, if the tracking event is registered and the lock obtained (C65_stored_target, C65_tracks_partial, C65_added). Missing: the limit on purgeable routes and stored routes waiting for deletion (these are in the model of C20-C24), routes with address masks in C65_added. False: safety when the aux event has been deleted from the context (C65_deleted_event_refuted), and that the observation that caused the tracking is counted on some route (C65_observation_counted_refuted).")
c("C66","partial","Composition of the session (C62), the parser (C52, C53) and json_process (C63). Proved: committed, refused, dry run and in place for every well-formed document in any pieces, and the converse for texts that do not end in a letter or digit. Refuted: a file cut off inside a number is committed (C66_truncated_refuted). Missing: documents whose meaning is not specified or whose reading is undefined behaviour (C63_undefined_refuted); the calls on the context are arbitrary functions here.")
c("C67","partial","RouteJson.v is routes.c 3693-3780 and 3878-4201. For routes that are loadable (RouteJsonSpec.v: labels without quotes, names that mean their numbers, addresses that are read back): C67_dump_partial (one text, exact space, JSON within the limits of the loader) and C67_roundtrip_partial (composition with the parser and the loader of C53 and C63, for every context, cutting and outcome of the insertions); C67_addresses_partial: MAC, IPv4, IPv6, CAN addresses are of this kind. For all routes: C67_too_small_is_undone, C67_in_the_buffer. False of the code: some buffers that are too small are overrun (C67_overrun_refuted), or get SYS_OP_FAILED with half a route left in the buffer (C67_too_small_refuted); IPv4 addresses of more than 32 bits overflow a stack buffer (C67_long_address_refuted); unnamed protocols are undefined behaviour (C67_protocol_refuted); quotes in labels, MAC prefixes, CAN addresses of 29 bits, the parent event's wildcard and TCP routes without their flag are not loaded back (C67_changed_refuted); 64-bit MAC addresses cannot be dumped (C67_link64_refuted).")
c("C68","partial","Lwip.v is all of src/lwip/packet_filter_glue.c with the dispatchers of lwip/LWIP_PACKET_FILTER_API.patch. C68_once and C68_verdict: over any state of the library, each possible event is dispatched exactly once with a request that describes it (LwipSpec.v), and passes exactly if not refused; C68_boxed composes this with the dispatch model; C68_connection_limit and C68_room: over every history of attempts and endings the count is the number of open connections and at most the limit. C68_install*, C68_cleanup: what installation does in every build under every pattern of failures. Partial because the code does not keep the rest: the filters fail open (C68_fail_open_refuted); lwIP asks about every segment for a listening port, so stray ACKs exhaust the connection limit for good (C68_stray_segments_refuted), as do attempts refused by the penalty box (C68_boxed_attempt_refuted); a failed registration of the ICMP or TCP cleanup leaves the mutex locked (C68_mutex_refuted; otherwise C68_mutex_partial); one context's shutdown switches off another's filters (C68_other_context_refuted).")
c("C69","partial","RouteMem.v: routes as blocks of bytes, out-of-bounds access is UB. Creation, the target of a dispatch, import, reading, copying under the same configuration, copying of dispatch targets, clamping, private data and freeing in full, for every content of fresh memory (C69_new, C69_new_refines: the layout-free model of Export.v is sound, C69_read, C69_target, C69_clone, C69_clone_target, C69_clamp, C69_private, C69_free, C69_exports). Widening: C69_wildcard_partial, except that wildcarding the remote address of a route with a local one turns the local address into bytes of the remote one (C69_wildcard_refuted). Also false of the code: a dispatch without event makes a route under the default configuration and then gives it the default event, whose private data may lie on the addresses or beyond the block (C69_default_event_refuted); copies under another configuration than that of creation take private data for addresses (C69_clone_other_refuted), or write past the block (C69_clone_widened_refuted).")
c("C70","partial","Thread.v: contexts and the shared counter, each access of the counter a step of its own. Identities: C70_initialised, C70_starts_again; C70_ids_partial (fewer than 2^24 - 1 fallback initialisations, any order and interleaving), C70_nested (any number, when contexts nest like interrupt handlers), C70_nested_no_drift. False without these: C70_ids_refuted (with at most five contexts at a time the numbers come round to that of one alive since the start), C70_wind_back_refuted (an initialisation between the two accesses leaves the reserved range). In full: C70_busy, C70_destroyed, C70_others, C70_deadline_relative (clock not before 1970; C70_deadline_before_epoch_refuted), C70_deadline_absolute, C70_deadline_clear, C70_readonly, C70_readwrite.")
c("C71","partial","Align.v: the arithmetic of both hand-made memalign functions on 64-bit words. C71_aligned_partial: powers of two up to 2^15 and sizes that leave room in the address space, every address of the block; C71_null. False of the code: alignments from 2^16 on, another address is freed (C71_large_refuted); other than powers of two (C71_not_power_refuted); the sum of size and header wraps (C71_huge_refuted); FreeRTOS keeps the header size in 32 bits (C71_room_refuted).")
c("C72","partial","Ticks.v: timespec arithmetic, conversion to 32-bit ticks, the wait. For deadlines less than 2^32 - 1 ticks away (seconds rounded up): C72_not_early_partial (every tick rate up to 10^9; the wait ends and reports a time-out), C72_not_late_partial (tick rates dividing 10^9), C72_taken_partial. In full: C72_try, C72_invalid. False of the code: farther deadlines are neither refused nor waited for, but cut to 32 bits (C72_far_refuted), one 2^32 - 1 ticks away waits for ever (C72_forever_refuted), signed overflow (C72_overflow_refuted); other tick rates wait too long (C72_late_refuted).")
c("C73","partial","Reputation.v on top of Atomic.v: C73_counters_partial, any threads, programs and schedule, for counts to add other than 0 and INT_MIN. False for these: adding 0 to a full counter reports OVERFLOW_AVERTED (C73_zero_refuted), negating INT_MIN is undefined (C73_min_refuted).")
c("C74","proved","Scalar.v: values as 16 bytes and a block of memory, every access checked. C74_string, C74_string_memory, C74_integer, C74_bool, C74_null, C74_wrong_type. Values of types FLOAT and DOUBLE are not modelled (and not claimed).")
c("C75","partial","JsonPath.v over the values of Dom.v. C75_path_partial: keys and indices (below 2^64) separated by slashes, empty parts and leading zeros allowed. C75_safe in full. False of the code: an index right after a key is taken as part of the key (C75_adjacent_refuted), negative indices lead nowhere (C75_negative_refuted), indices are read modulo 2^64 (C75_wraps_refuted), and what follows a number inside of the brackets is not looked at (C75_trailing_refuted).")
c("C76","partial","JsonClone.v. C76_copy_partial: the same value whenever the allocator has memory. C76_success_partial: for values without order-keeping dictionaries, under any refusals, the same value or an error. False of the code with order-keeping dictionaries, since each member's result replaces the one before: success with a lost string (C76_lost_refuted), success with uninitialised elements (C76_garbage_refuted), a failure whose cleaning up destroys uninitialised memory (C76_destroys_garbage_refuted); and empty arrays and dictionaries are not copied under allocators that answer NULL to zero bytes (C76_empty_refuted).")
c("C77","partial","Strings.v, with the library's texts taken over. C77_register, C77_source, C77_library, C77_library_sources and C77_safe in full; C77_error_partial for errors, C77_success_partial for successes without a text. False of the code: a registered success is never rendered as its text but as that of the error of the same size or as a null pointer (C77_success_refuted: line 227 returns an entry of the wrong table).")
c("C78","partial","EventClone.v. C78_clone_partial: for contexts whose events refer only to objects that are in the tables. Without that: a context can be cloned exactly if every name its events use is that of an object in its tables (C78_success), a failure is ITEM_NOT_FOUND, and in a clone every event names the same actions and auxiliary event, all of them the clone's own (C78_names, C78_deleted). But wolfsentry_action_delete takes an action that is still in use out of the table, and then the context cannot be cloned (C78_deleted_refuted), or, when the label is used again, the clone's events call another handler than the original's (C78_replaced_refuted).")
c("C79","partial","Init.v. C79_settings, C79_refused; C79_started_partial for private areas below 4 GiB; C79_configuration_partial for durations that can be expressed; C79_failed_partial for libraries without threads. False otherwise: in a thread-safe library every failure after the first allocation leaves the half-made context allocated and in the caller's variable, since the cleanup wants the mutex, which nobody holds (C79_abandoned, C79_leak_refuted); a private area above 65535 bytes passes the check of the configuration when it has no alignment and then makes the call fail (C79_big_area_refuted), or is cut to 32 bits (C79_cut_area_refuted); a duration too long for the clock is left as a number of seconds (C79_duration_refuted).")
c("C80","partial","Sems.v. C80_init, C80_alloc, C80_free, C80_destroyed, C80_in_use, C80_unmade; C80_init_failed_partial for calls that fail on the flags or on the first semaphore. False for every later failure: the code that should destroy the semaphores made so far initialises them again, so they stay, and the lock cannot be destroyed since it counts as not initialised (C80_init_leaks, C80_init_refuted). A lock that cannot be destroyed because a count is left on a waiters' semaphore is not as before: its own semaphore stays taken (C80_left_over_refuted).")
c("C81","proved","RouteRefs.v. C81_routes, C81_success; with memory granted and reference counts without an upper bound, as in C78.")
