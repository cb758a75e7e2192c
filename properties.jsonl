{"id": "C01", "title": "Tables stay sorted and duplicate-free", "statement": "After any sequence of insertions and deletions, iterating any wolfSentry table (actions, events, routes, user values, address families) from head to tail yields entries in strictly increasing key order, so no key ever appears twice; an insertion that reports ITEM_ALREADY_PRESENT leaves the sequence of entries unchanged.", "quantifier": "every table, every comparison function that is a total order, every finite history of insert/delete calls", "why_tests_cant": "the number of histories and keys is unbounded; a unit test sees a handful of tables", "anchors": ["src/wolfsentry_internal.c:wolfsentry_table_ent_insert", "src/wolfsentry_internal.c:wolfsentry_table_ent_delete_1"]}
{"id": "C02", "title": "A table is a finite map from keys to entries", "statement": "Looking up a key returns the entry that was inserted with that key and not deleted since, and ITEM_NOT_FOUND if there is none; deleting a key removes that entry and no other; the entry count equals the number of live keys.", "quantifier": "every key and every history of operations", "why_tests_cant": "needs an induction over arbitrary histories; tests only sample some", "anchors": ["src/wolfsentry_internal.c:wolfsentry_table_ent_get", "src/wolfsentry_internal.c:wolfsentry_table_ent_delete", "src/wolfsentry_internal.c:wolfsentry_table_ent_insert"]}
{"id": "C03", "title": "Pointer surgery of tables is memory safe and refines sequences", "statement": "The doubly linked structure (head, tail, prev, next, prev_by_id, next_by_id) of a table always represents one finite sequence: insert and delete never follow a dangling pointer, never lose an entry, never create a cycle, and reverse iteration yields exactly the reverse of forward iteration.", "quantifier": "every heap shape reachable by any history of inserts and deletes, any number of entries", "why_tests_cant": "pointer corruption only shows in particular histories; tests cannot enumerate heap shapes", "anchors": ["src/wolfsentry_internal.c:wolfsentry_table_ent_insert", "src/wolfsentry_internal.c:wolfsentry_table_ent_delete_1", "src/wolfsentry_internal.c:wolfsentry_table_ent_insert_by_id", "src/wolfsentry_internal.c:wolfsentry_table_ent_delete_by_id_1"]}
{"id": "C04", "title": "Object IDs are unique, nonzero and resolve to their object", "statement": "Every object inserted in a context has a nonzero ID that no other live object of that context has; looking an ID up returns precisely that object while it is live and ITEM_NOT_FOUND afterwards; this survives ID reclamation on deletion and failed insertions.", "quantifier": "every history of object creations, failed creations and deletions, with the built-in counter or a user ID callback", "why_tests_cant": "depends on the interaction of counter reclamation with arbitrary delete orders", "anchors": ["src/wolfsentry_internal.c:wolfsentry_id_allocate", "src/wolfsentry_internal.c:wolfsentry_table_ent_insert_by_id", "src/wolfsentry_internal.c:wolfsentry_table_ent_get_by_id", "src/wolfsentry_internal.c:wolfsentry_table_ent_delete_by_id_1"]}
{"id": "C05", "title": "Generic list operations preserve list structure", "statement": "Prepending, appending, inserting before/after an element and deleting from action lists, cleanup-hook lists and the purge list each perform exactly the corresponding operation on the sequence of elements and leave a well-formed doubly linked list.", "quantifier": "every list, every element position, any content of the link fields of the element being inserted", "why_tests_cant": "the outcome depends on stale or uninitialised link fields that a test allocator usually zeroes", "anchors": ["src/wolfsentry_ll.h:wolfsentry_list_ent_insert_before", "src/wolfsentry_ll.h:wolfsentry_list_ent_insert_after", "src/wolfsentry_ll.h:wolfsentry_list_ent_prepend", "src/wolfsentry_ll.h:wolfsentry_list_ent_append", "src/wolfsentry_ll.h:wolfsentry_list_ent_delete"]}
{"id": "C06", "title": "Label and key comparisons are total orders", "statement": "The comparison used for action labels, event labels, user-value keys and family names is a strict total order on byte strings that identifies exactly equal strings, in agreement with dictionary order.", "quantifier": "all pairs and triples of byte strings", "why_tests_cant": "transitivity and antisymmetry quantify over all triples of keys", "anchors": ["src/kv.c:wolfsentry_kv_key_cmp_1", "src/actions.c:wolfsentry_action_key_cmp_1", "src/events.c:wolfsentry_event_key_cmp_1", "src/addr_families.c:wolfsentry_addr_family_byname_key_cmp_1"]}
{"id": "C07", "title": "Route keys are totally ordered and identify a route", "statement": "The exact-match route comparison is antisymmetric and transitive and returns 0 only for routes with the same address family, protocol, addresses, ports, interfaces, matching-relevant flags and parent event, so two routes a user regards as different can coexist and equal ones cannot.", "quantifier": "all pairs/triples of routes", "why_tests_cant": "quantifies over all triples of multi-field keys", "anchors": ["src/routes.c:wolfsentry_route_key_cmp_1", "src/routes.c:cmp_addrs_prefixful", "src/routes.c:cmp_addrs_bitmaskful"]}
{"id": "C08", "title": "Prefix routes match exactly the addresses in the prefix", "statement": "A route given with an n-bit address prefix matches a full-length address if and only if the first n bits of both agree.", "quantifier": "all addresses, all prefix lengths 0..max", "why_tests_cant": "there are 2^128 addresses times 129 prefix lengths", "anchors": ["src/routes.c:cmp_addrs_prefixful", "src/routes.c:wolfsentry_route_init"]}
{"id": "C09", "title": "Bitmask routes match exactly the masked addresses", "statement": "A route given with an address/bitmask pair matches an address if and only if address AND mask equals the route's address.", "quantifier": "all addresses and masks", "why_tests_cant": "2^256 combinations", "anchors": ["src/routes.c:cmp_addrs_bitmaskful"]}
{"id": "C10", "title": "A lookup only returns routes that match the event", "statement": "Whatever is in the table, a route selected by a non-exact lookup/dispatch agrees with the traffic in direction and in every field not wildcarded by the route or the target, and is not excluded by the caller's filters (penalty-boxed or port-reset exclusion).", "quantifier": "every route table and every target", "why_tests_cant": "soundness over all tables and targets", "anchors": ["src/routes.c:wolfsentry_route_lookup_0", "src/routes.c:wolfsentry_route_key_cmp_1"]}
{"id": "C11", "title": "A lookup never misses a matching route", "statement": "If some route in the table matches the traffic, dispatch does not report that none was found.", "quantifier": "every route table and target", "why_tests_cant": "absence of misses is a universal claim over tables", "anchors": ["src/routes.c:wolfsentry_route_lookup_0"]}
{"id": "C12", "title": "The most specific matching route wins", "statement": "Among the matching routes of equal priority, the route selected is at least as specific as every other, in particular a longer remote-address prefix beats a shorter one.", "quantifier": "every route table and target", "why_tests_cant": "universal over tables; tests cover a few overlapping routes", "anchors": ["src/routes.c:wolfsentry_route_lookup_0", "src/routes.c:compare_match_exactness"]}
{"id": "C13", "title": "Lookups terminate", "statement": "Every lookup/dispatch on every reachable route table returns.", "quantifier": "every reachable table and target", "why_tests_cant": "non-termination depends on the history of insertions/deletions/clones", "anchors": ["src/routes.c:wolfsentry_route_lookup_0"]}
{"id": "C14", "title": "Penalty-boxed traffic is rejected, green-listed traffic accepted", "statement": "A dispatch that matches a route whose penalty box is in force results in REJECT, never ACCEPT; one that matches a green-listed route that is not penalty-boxed and within its connection limit and derogatory threshold results in ACCEPT; the result never has ACCEPT and REJECT chosen simultaneously by the route decision.", "quantifier": "every route state, event config, clock value and initial action-result bits", "why_tests_cant": "combinatorial state space of flags, counters, times and callbacks", "anchors": ["src/routes.c:wolfsentry_route_event_dispatch_0"]}
{"id": "C15", "title": "Connection limits hold and connection counts neither wrap nor underflow", "statement": "The number of tracked concurrent connections on a route never exceeds the configured nonzero maximum, an attempt beyond it is rejected, and no sequence of connects and disconnects makes the counter wrap around or go below zero.", "quantifier": "every history of CONNECT/DISCONNECT dispatches and every concurrent interleaving of counter updates", "why_tests_cant": "histories and schedules are unbounded", "anchors": ["src/routes.c:wolfsentry_route_event_dispatch_0", "wolfsentry/wolfsentry_util.h:WOLFSENTRY_ATOMIC_INCREMENT_UNSIGNED_SAFELY", "wolfsentry/wolfsentry_util.h:WOLFSENTRY_ATOMIC_DECREMENT_UNSIGNED_SAFELY"]}
{"id": "C16", "title": "Reaching the derogatory threshold penalty-boxes the route", "statement": "When derogatory observations on a route reach the configured nonzero threshold, the route is put in the penalty box by that dispatch and that traffic is rejected; below the threshold it is not.", "quantifier": "every counter state and configuration", "why_tests_cant": "all counter/config combinations including saturation", "anchors": ["src/routes.c:wolfsentry_route_event_dispatch_0"]}
{"id": "C17", "title": "Penalty boxing expires exactly after its configured duration", "statement": "With a nonzero penalty-box duration the route stays boxed at every time up to the end of the interval and is released by the first dispatch after it; with a zero duration it never expires.", "quantifier": "every time value and duration", "why_tests_cant": "all 64-bit times, including boundary instants", "anchors": ["src/routes.c:wolfsentry_route_event_dispatch_0"]}
{"id": "C18", "title": "Unmatched traffic gets the default policy", "statement": "When no route matches, or the matching route decides nothing, the result's ACCEPT/REJECT bits are those of the configured default policy, and FALLTHROUGH is reported.", "quantifier": "every table, target and policy", "why_tests_cant": "universal over tables", "anchors": ["src/routes.c:wolfsentry_route_event_dispatch_0", "src/routes.c:wolfsentry_route_event_dispatch_1", "src/routes.c:wolfsentry_route_table_default_policy_set"]}
{"id": "C19", "title": "Flag updates respect immutability", "statement": "After insertion no flag update can change any match-relevant flag, IN_TABLE or PENDING_DELETE; an update that would is refused and leaves the flags unchanged; a permitted update clears and sets exactly the requested bits.", "quantifier": "every flag word and every pair of set/clear masks, under every interleaving of concurrent updates", "why_tests_cant": "2^96 combinations and all schedules", "anchors": ["src/routes.c:wolfsentry_route_update_flags_1", "wolfsentry/wolfsentry_util.h:WOLFSENTRY_ATOMIC_UPDATE_FLAGS"]}
{"id": "C20", "title": "Insert and delete actions run at most once per route", "statement": "In any history the insert-action list of a route's parent event is dispatched at most once per insertion and the delete-action list at most once.", "quantifier": "every history of insert, bulk insert-action, delete, pending delete, purge", "why_tests_cant": "histories are unbounded", "anchors": ["src/routes.c:wolfsentry_route_insert_1", "src/routes.c:wolfsentry_route_delete_0", "src/routes.c:wolfsentry_route_bulk_insert_actions", "src/routes.c:wolfsentry_route_call_delete_action"]}
{"id": "C21", "title": "Deleting a route with live connections is deferred", "statement": "Deleting a route that still has tracked connections leaves it in the table, marked pending-delete, and it is removed as soon as its last connection closes; a route without connections is removed at once.", "quantifier": "every connection count and history", "why_tests_cant": "histories of connects/disconnects/deletes are unbounded", "anchors": ["src/routes.c:wolfsentry_route_delete_0", "src/routes.c:wolfsentry_route_event_dispatch_0"]}
{"id": "C22", "title": "Purging removes only what has expired", "statement": "A stale-route purge at time t removes only routes whose purge time has passed (or that are pending delete without connections) and never one with live connections; a full stale purge leaves no such expired route behind.", "quantifier": "every table, purge list order and clock", "why_tests_cant": "quantifies over all tables and times", "anchors": ["src/routes.c:wolfsentry_route_stale_purge_1", "src/routes.c:wolfsentry_route_purge_list_insert"]}
{"id": "C23", "title": "Purging terminates", "statement": "Every purge (also the opportunistic one done by each dispatch) returns.", "quantifier": "every reachable purge list", "why_tests_cant": "non-termination needs a particular combination of tail route state", "anchors": ["src/routes.c:wolfsentry_route_stale_purge_1"]}
{"id": "C24", "title": "The purgeable-route limit is enforced", "statement": "After any insertion the number of purgeable routes does not exceed the configured nonzero maximum.", "quantifier": "every history of insertions and limit changes", "why_tests_cant": "histories are unbounded", "anchors": ["src/routes.c:wolfsentry_route_insert_1", "src/routes.c:wolfsentry_route_table_max_purgeable_routes_set"]}
{"id": "C25", "title": "Shared counters are exact under every interleaving", "statement": "Concurrent safe increments and decrements of counters/refcounts behave as if executed one at a time in some order: no update is lost, overflow and underflow are reported instead of wrapping.", "quantifier": "any number of threads, any number of operations, any interleaving of the loads and compare-and-swaps", "why_tests_cant": "schedules cannot be enumerated by tests", "anchors": ["wolfsentry/wolfsentry_util.h:WOLFSENTRY_ATOMIC_INCREMENT_UNSIGNED_SAFELY", "wolfsentry/wolfsentry_util.h:WOLFSENTRY_ATOMIC_DECREMENT_UNSIGNED_SAFELY", "wolfsentry/wolfsentry_util.h:WOLFSENTRY_ATOMIC_UPDATE_FLAGS"]}
{"id": "C26", "title": "Reference counts free an object exactly once", "statement": "An object is deallocated exactly when its last reference is dropped; dropping below zero and overflowing are refused; an object with outstanding references is never freed by deletion from its table.", "quantifier": "every history of checkouts, releases and deletions", "why_tests_cant": "histories are unbounded", "anchors": ["src/routes.c:wolfsentry_route_drop_reference_1", "src/actions.c:wolfsentry_action_drop_reference", "src/events.c:wolfsentry_event_drop_reference", "src/kv.c:wolfsentry_kv_drop_reference", "src/wolfsentry_util.c:wolfsentry_object_checkout"]}
{"id": "C27", "title": "Read/write lock mutual exclusion", "statement": "No thread ever holds the lock in shared mode while another holds it as mutex, and two threads never hold it as mutex simultaneously.", "quantifier": "any number of threads and every interleaving of lock, unlock, promote, reserve, demote and timeout", "why_tests_cant": "schedules are unbounded", "anchors": ["src/wolfsentry_util.c:wolfsentry_lock_shared_abstimed", "src/wolfsentry_util.c:wolfsentry_lock_mutex_abstimed", "src/wolfsentry_util.c:wolfsentry_lock_shared2mutex_abstimed", "src/wolfsentry_util.c:wolfsentry_lock_mutex2shared", "src/wolfsentry_util.c:wolfsentry_lock_unlock"]}
{"id": "C28", "title": "A granted lock can be released", "statement": "A thread whose lock call returned success can unlock successfully, as many times as it locked, after which it holds nothing.", "quantifier": "every schedule, including waits that time out at the instant of the grant", "why_tests_cant": "the failing schedule is a race between a timeout and a grant", "anchors": ["src/wolfsentry_util.c:wolfsentry_lock_mutex_abstimed", "src/wolfsentry_util.c:wolfsentry_lock_shared_abstimed", "src/wolfsentry_util.c:wolfsentry_lock_unlock"]}
{"id": "C29", "title": "No waiter is left behind", "statement": "Whenever the lock is free, nobody is waiting for it; whenever it is held shared with no writer waiting, no reader waits.", "quantifier": "any number of threads, any schedule", "why_tests_cant": "lost wakeups depend on the schedule", "anchors": ["src/wolfsentry_util.c:wolfsentry_lock_unlock", "src/wolfsentry_util.c:wolfsentry_lock_mutex2shared"]}
{"id": "C30", "title": "A promotion reservation is exclusive and guarantees promotion", "statement": "At most one thread holds the shared-to-mutex reservation; as long as it is held no other thread becomes a writer, and redeeming it succeeds once the other readers have left.", "quantifier": "any number of threads, any schedule", "why_tests_cant": "schedules are unbounded", "anchors": ["src/wolfsentry_util.c:wolfsentry_lock_shared2mutex_reserve", "src/wolfsentry_util.c:wolfsentry_lock_shared2mutex_redeem_abstimed", "src/wolfsentry_util.c:wolfsentry_lock_shared2mutex_abandon"]}
{"id": "C31", "title": "Action lists run in order and stop when told", "statement": "Dispatching an event calls the callbacks of its enabled actions in list order, each exactly once, up to and including the first that sets STOP or fails; disabled or inhibited actions are never called; errors are reported with the ERROR bit.", "quantifier": "every action list and every callback behaviour", "why_tests_cant": "all lists and all behaviours of user callbacks", "anchors": ["src/actions.c:wolfsentry_action_list_dispatch"]}
{"id": "C32", "title": "Action lists behave as ordered sets of labels", "statement": "Appending, prepending, inserting after a label and deleting a label change the list of actions of an event exactly so; deleting an absent label and inserting after an absent label are refused.", "quantifier": "every list and history", "why_tests_cant": "histories are unbounded", "anchors": ["src/actions.c:wolfsentry_action_list_append_1", "src/actions.c:wolfsentry_action_list_prepend_1", "src/actions.c:wolfsentry_action_list_insert_after_1", "src/actions.c:wolfsentry_action_list_delete_1"]}
{"id": "C33", "title": "User values behave as a typed map with read-only entries", "statement": "store then get returns the stored value under the same type; a non-overwriting store of an existing key, and any store to or deletion of a read-only key, fail and change nothing; a getter of the wrong type is refused; other keys are unaffected.", "quantifier": "every key, value and history", "why_tests_cant": "histories and values are unbounded", "anchors": ["src/kv.c:wolfsentry_kv_set", "src/kv.c:wolfsentry_kv_insert", "src/kv.c:wolfsentry_kv_get_1", "src/kv.c:wolfsentry_kv_delete", "src/kv.c:wolfsentry_kv_set_mutability"]}
{"id": "C34", "title": "JSON user values can be read back", "statement": "A value stored as JSON is returned by the JSON getter, and the JSON getter refuses values of other types.", "quantifier": "every key and value", "why_tests_cant": "type confusion is a universal claim", "anchors": ["src/kv.c:wolfsentry_user_value_get_json", "src/kv.c:wolfsentry_user_value_store_json"]}
{"id": "C35", "title": "Address-family names and numbers form a bijection", "statement": "For user-installed families, name-to-number and number-to-name lookups are inverse to each other after any history of installs and removals, and a failed install changes nothing; for built-in families a name maps to a number whose name maps back to the same number.", "quantifier": "every history; every built-in family", "why_tests_cant": "histories are unbounded", "anchors": ["src/addr_families.c:wolfsentry_addr_family_insert", "src/addr_families.c:wolfsentry_addr_family_pton", "src/addr_families.c:wolfsentry_addr_family_ntop"]}
{"id": "C36", "title": "A context clone preserves tables and stays usable", "statement": "Cloning yields tables with the same entries, IDs and order, and every later operation on the clone behaves as on the original.", "quantifier": "every table and later history", "why_tests_cant": "depends on link fields used only by later operations", "anchors": ["src/wolfsentry_internal.c:wolfsentry_table_clone", "src/wolfsentry_internal.c:wolfsentry_coupled_table_clone", "src/wolfsentry_util.c:wolfsentry_context_clone", "src/routes.c:wolfsentry_route_clone"]}
{"id": "C37", "title": "Context exchange swaps configuration atomically", "statement": "Exchanging two contexts swaps their tables, configuration and ID state and keeps locks and cleanup hooks in place; exchanging twice restores the tables; live connection and hit metadata of routes present in both is carried over.", "quantifier": "every pair of contexts", "why_tests_cant": "universal over states", "anchors": ["src/wolfsentry_util.c:wolfsentry_context_exchange", "src/routes.c:wolfsentry_route_copy_metadata"]}
{"id": "C38", "title": "Base64 decoding is memory safe and inverts encoding", "statement": "Decoding never writes past the supplied buffer, whatever the input; decoding the standard base64 encoding of any byte string (with or without padding) returns that byte string; malformed input is rejected.", "quantifier": "all byte strings", "why_tests_cant": "unbounded inputs", "anchors": ["src/wolfsentry_util.c:wolfsentry_base64_decode"]}
{"id": "C39", "title": "Integer formatting is exact and bounded", "statement": "The integer formatter writes the decimal digits of the number and never writes outside the space given, reporting a needed-space error otherwise.", "quantifier": "all integers and buffer sizes", "why_tests_cant": "all integers times all buffer sizes", "anchors": ["src/routes.c:ws_itoa"]}
{"id": "C40", "title": "Time conversions are inverse and range checked", "statement": "Converting a time to seconds/nanoseconds and back gives the original time; a conversion that would overflow is refused.", "quantifier": "all 64-bit times", "why_tests_cant": "2^64 values", "anchors": ["src/wolfsentry_util.c:wolfsentry_builtin_to_epoch_time", "src/wolfsentry_util.c:wolfsentry_builtin_from_epoch_time"]}
{"id": "C41", "title": "Event configuration is validated and round-trips", "statement": "Contradictory event configurations (bits both set and cleared, bad alignment, threshold out of range) are refused; an accepted configuration is returned unchanged by the getter.", "quantifier": "all configurations", "why_tests_cant": "all configuration words", "anchors": ["src/wolfsentry_util.c:wolfsentry_eventconfig_check", "src/wolfsentry_util.c:wolfsentry_eventconfig_load", "src/wolfsentry_util.c:wolfsentry_eventconfig_get_1"]}
{"id": "C42", "title": "Cleanup hooks run exactly once in LIFO order", "statement": "At shutdown every registered cleanup hook runs exactly once, most recently registered first; registering the same hook twice has no effect.", "quantifier": "every history of pushes and pops", "why_tests_cant": "histories are unbounded", "anchors": ["src/wolfsentry_util.c:wolfsentry_cleanup_push", "src/wolfsentry_util.c:wolfsentry_cleanup_pop", "src/wolfsentry_util.c:wolfsentry_cleanup_all"]}
{"id": "C43", "title": "Error codes encode and decode losslessly", "statement": "Decoding an encoded result yields the original code, source ID and line, with failure exactly for negative codes, and recoding preserves the code.", "quantifier": "all codes, source IDs and lines in range", "why_tests_cant": "all combinations", "anchors": ["wolfsentry/wolfsentry_errcodes.h:WOLFSENTRY_ERROR_ENCODE_0"]}
{"id": "C44", "title": "Bitmask-family reference counting is exact", "statement": "The set of address families for which bitmask comparison is enabled is exactly the set of families having at least one bitmask route, after any history of insertions and deletions.", "quantifier": "every history", "why_tests_cant": "histories are unbounded", "anchors": ["src/routes.c:wolfsentry_bitmask_matching_upref", "src/routes.c:wolfsentry_bitmask_matching_downref", "src/routes.c:wolfsentry_bitmask_matching_is_enabled"]}
{"id": "C45", "title": "Exported routes can be re-inserted", "statement": "Exporting a route and building a route from the export gives a route with the same key and attributes.", "quantifier": "every route", "why_tests_cant": "all routes", "anchors": ["src/routes.c:wolfsentry_route_export", "src/routes.c:wolfsentry_route_init_by_exports"]}
{"id": "C46", "title": "API calls release the locks they take", "statement": "Every API call returns with the context lock held exactly as often as on entry, on success and on every error path.", "quantifier": "every call, argument and error path", "why_tests_cant": "error paths are rarely exercised by tests", "anchors": ["src/events.c:wolfsentry_event_get_config", "src/events.c:wolfsentry_event_update_config", "src/events.c:wolfsentry_event_set_aux_event", "src/routes.c:wolfsentry_route_event_dispatch_by_id_1", "src/actions.c:wolfsentry_action_list_insert_after"]}
{"id": "C47", "title": "The route-flag and action-result name tables round-trip", "statement": "Translating a flag to its name and back yields the same flag, for every flag with a name.", "quantifier": "all flags", "why_tests_cant": "finite but claimed of each entry and of unknown names", "anchors": ["src/routes.c:wolfsentry_route_flag_assoc_by_name", "src/routes.c:wolfsentry_route_flag_assoc_by_flag"]}
{"id": "C48", "title": "Matching and scoring never read outside the addresses", "statement": "Comparing an event with a route and scoring how exactly a route matches never reads a byte outside the two addresses, whatever their lengths.", "quantifier": "every pair of well-formed routes/addresses of any lengths", "why_tests_cant": "an out-of-bounds read needs a particular combination of lengths and is silent without instrumentation", "anchors": ["src/routes.c:cmp_addrs_prefixful", "src/routes.c:cmp_addrs_bitmaskful", "src/routes.c:addr_bitmask_match_size", "src/routes.c:addr_prefix_match_size"]}
{"id": "C49", "title": "A failed insertion leaves the table as it was", "statement": "If inserting a route fails for any reason (bad flags, duplicate, no room for another bitmask family, failing insert action), the table and everything later operations depend on is as if the insertion had not been attempted; in particular nothing refers to the rejected route.", "quantifier": "every table, route and insert-action outcome", "why_tests_cant": "failure paths combine with every table state", "anchors": ["src/routes.c:wolfsentry_route_insert_1", "src/routes.c:wolfsentry_route_insert_2"]}
{"id": "C50", "title": "Automatic downgrade at unlock", "statement": "Unlocking with AUTO_DOWNGRADE a mutex that was gotten by promotion, when the release restores the recursion depth of the promotion, leaves the thread holding the lock in shared mode.", "quantifier": "every nesting of shared and mutex locks and every schedule", "why_tests_cant": "depends on the nesting history of the lock", "anchors": ["src/wolfsentry_util.c:wolfsentry_lock_unlock"]}
{"id": "C51", "title": "Private data accessors stay inside the route", "statement": "The private-data pointer and size a route reports describe memory that was allocated for that route, of the configured size and alignment, as long as the route lives.", "quantifier": "every configuration, and every history of configuration changes", "why_tests_cant": "sizes and histories are unbounded; out-of-bounds memory is silent", "anchors": ["src/routes.c:wolfsentry_route_get_private_data", "src/routes.c:wolfsentry_route_new", "src/wolfsentry_util.c:wolfsentry_eventconfig_load", "src/events.c:wolfsentry_event_update_config"]}
{"id": "C52", "title": "Feeding configuration in pieces is immaterial", "statement": "A JSON configuration fed piece by piece gives the same callbacks with the same data, the same result code and the same reported position as the same bytes in one piece, however they are cut; parsing always terminates, and a document over the total length limit is always refused.", "quantifier": "every document, every way to cut it into pieces, every callback behaviour and every configuration of limits and flags", "why_tests_cant": "documents and cuts are unbounded, and the cut can fall inside any escape, number or multi-byte character", "anchors": ["src/json/centijson_sax.c:json_feed", "src/json/centijson_sax.c:json_fini", "src/json/centijson_sax.c:json_string_automaton", "src/json/centijson_sax.c:json_number_automaton", "src/json/load_config.c:wolfsentry_config_json_feed"]}
{"id": "C53", "title": "Exactly the JSON texts within the limits are accepted", "statement": "Every JSON text (RFC 8259, strings in UTF-8) within the configured limits is accepted and makes exactly the callbacks its structure calls for, in order, with the decoded strings, up to the first callback that refuses; and every accepted document is such a text.", "quantifier": "every document, callback behaviour and configuration of limits", "why_tests_cant": "documents are unbounded and the automata have many paths per byte", "anchors": ["src/json/centijson_sax.c:json_feed", "src/json/centijson_sax.c:json_fini", "src/json/centijson_sax.c:json_string_automaton", "src/json/centijson_sax.c:json_number_automaton", "src/json/centijson_sax.c:json_literal_automaton"]}
{"id": "C54", "title": "Reported positions point at the mistake", "statement": "The position reported with the result of loading a JSON document is its end if it is accepted; for a refused document it is a place in it (byte offset, line counting LF, CR and CR LF as one line end each, column) such that everything before it is acceptable and the longest acceptable beginning of the document starts there or goes on from there.", "quantifier": "every document, every way to cut it into pieces, every callback behaviour and configuration", "why_tests_cant": "documents are unbounded, and line ends, multi-byte characters and cuts combine arbitrarily", "anchors": ["src/json/centijson_sax.c:json_feed", "src/json/centijson_sax.c:json_handle_new_line", "src/json/centijson_sax.c:json_raise_", "src/json/centijson_sax.c:json_process", "src/json/load_config.c:wolfsentry_config_json_feed"]}
{"id": "C55", "title": "Configuration callbacks stay within the limits", "statement": "Whatever the document and however it is cut, no callback is ever given a key, string or number longer than the configured maximum, a value beyond the maximum number of values, or a container beyond the maximum nesting, even if the document is refused later; every container end follows a matching begin; and the stack of open containers is never read while empty.", "quantifier": "every document, every way to cut it into pieces, every callback behaviour and configuration", "why_tests_cant": "documents are unbounded; escapes, surrogates and cuts change lengths in ways no finite set of tests covers", "anchors": ["src/json/centijson_sax.c:json_string_automaton", "src/json/centijson_sax.c:json_number_automaton", "src/json/centijson_sax.c:json_process", "src/json/centijson_sax.c:json_feed", "src/json/load_config.c:wolfsentry_config_json_init_ex"]}
{"id": "C56", "title": "Numbers and durations in configurations are stored exactly or refused", "statement": "A number in a JSON configuration is either stored in the configured field with exactly its value or refused with an error: an integer outside the field's range, a fraction, an exponent or any other JSON type is never stored as something else, a duration is its numeral times its unit, and no text makes the conversion read outside the text or overflow.", "quantifier": "all JSON number texts of any length, all strings, all JSON types, all field widths, and for durations all contents of memory behind the text", "why_tests_cant": "The texts are unbounded; the errors sit at single values (a wrap around, a length limit of the conversion buffer) and in the bytes behind the text, which a test does not control.", "anchors": ["src/json/load_config.c:convert_uint64", "src/json/load_config.c:convert_sint64", "src/json/load_config.c:convert_uint32", "src/json/load_config.c:convert_uint16", "src/json/load_config.c:convert_uint8", "src/json/load_config.c:convert_wolfsentry_duration"]}
{"id": "C57", "title": "A dispatch changes exactly what it should and nothing else", "statement": "A dispatch that matches a route counts the hit (up to the maximum), records its time, counts the connection and the observations, enters or leaves the penalty box, and sets the result bits exactly as the event's configuration, the route's marks, its counters and the default policy call for; every other member and flag of the route and every other result bit stays as it was (after the configured bits are added and then cleared), through any sequence of dispatches. Errors (refused targets, failing clocks) are reported with ERROR, and unmatched traffic is counted on the fallthrough route only.", "quantifier": "all routes, counter values, flags, configurations, policies, clocks and caller-supplied result bits, and all finite sequences of dispatches", "why_tests_cant": "The outcome depends on some twenty independent bits and on counters at their limits; a test samples a few combinations and does not look at what must stay unchanged.", "anchors": ["src/routes.c:wolfsentry_route_event_dispatch_0", "src/routes.c:wolfsentry_route_event_dispatch_1", "src/routes.c:wolfsentry_route_increment_hitcount", "src/routes.c:wolfsentry_route_update_flags"]}
{"id": "C58", "title": "What is printed as JSON is read back as it was", "statement": "Every 64-bit integer is printed as the JSON number that denotes it; of every JSON number, of any length, json_analyze_number tells exactly which integer types can hold it, and the conversions then give exactly that integer. Every UTF-8 string, whatever its characters, is printed as a valid JSON string that the parser reads back unchanged, and bytes that are not UTF-8 are never accepted back. wolfsentry_kv_render_value writes the JSON text of the value if the buffer can hold it and a terminating 0, and otherwise says BUFFER_TOO_SMALL.", "quantifier": "all integers, all byte strings, all numbers of the grammar, all buffer sizes, all parser configurations that set no limit in the way", "why_tests_cant": "The comparisons against the limits are of digit strings of any length, and the escapes interact with every UTF-8 sequence; tests sample a few numbers near the limits and a few escapes.", "anchors": ["src/json/centijson_sax.c:json_analyze_number", "src/json/centijson_sax.c:json_number_to_int64", "src/json/centijson_sax.c:json_number_to_uint64", "src/json/centijson_sax.c:json_dump_int64", "src/json/centijson_sax.c:json_dump_uint64", "src/json/centijson_sax.c:json_dump_string", "src/kv.c:wolfsentry_kv_render_value"]}
{"id": "C59", "title": "A JSON dictionary is a map that also remembers the order of addition", "statement": "Starting from an empty dictionary, any sequence of json_value_dict_get, get_or_add, add, remove, clean, size, keys_sorted and keys_ordered calls (and of storing values through the returned pointers) behaves as an association list with distinct keys: get gives the item of the key or NULL; get_or_add gives the existing item or a new one at the end of the order, or NULL only if memory cannot be had; add gives NULL for a key whose value has been initialised; remove takes out exactly the item of the key and gives 0, or changes nothing and gives -1; keys_sorted gives the items in the order of the comparison, keys_ordered in the order of addition, at most as many as the buffer holds; walks visit each item once in these orders until the callback gives a negative number; clean leaves an empty dictionary and frees everything, or changes nothing if it gets no memory. No call reads or writes memory that is not the dictionary's, overruns its path array or fails to end, and exactly the present items' memory is in use. The default comparison orders keys bytewise, and only identical keys are the same.", "quantifier": "every comparison that is a total preorder, with and without MAINTAINORDER, LOG2_32 and alloca, every sequence of calls, every key, every outcome of the allocations, every walk callback; up to 2^32-2 items (2^63-1 without LOG2_32)", "why_tests_cant": "the balancing cases of a red-black tree depend on the whole history of insertions and removals, and the fixed size of the path array on a logarithmic bound of its height; tests see a few shapes", "anchors": ["src/json/centijson_value.c: json_value_dict_get_, json_value_dict_get_or_add_, json_value_dict_add_, json_value_dict_remove_, json_value_dict_fix_after_insert, json_value_dict_fix_after_remove, json_value_dict_keys_sorted, json_value_dict_keys_ordered, json_value_dict_walk_sorted, json_value_dict_walk_ordered, json_value_dict_clean, rbtree_stack_size_needed", "wolfsentry/centijson_value.h"]}
{"id": "C60", "title": "Documents are read as the values they say, and values written as documents that say them", "statement": "json_dom_parse gives, for every JSON document within the limits of the configuration, exactly the value it stands for: numbers in the first of the integer types that holds them or as doubles, strings unescaped, arrays in order, dictionaries with each key once, in the order of its first occurrence if MAINTAINDICTORDER is set, and with the first, the last or (DUPKEY_ABORT) no repeated member allowed, as the flags ask; a refused document gives no value. Nothing but JSON documents is accepted. json_dom_dump writes, for every value and every layout, a JSON document of that value, with members in the order of addition or of their keys as asked; reading it gives an equal value, and the very same one if the value was read with the order kept and is written in that order.", "quantifier": "all JSON documents of any size and nesting, all flags and configurations, all values, all layouts (indentation widths, line ends, minimised or not)", "why_tests_cant": "documents and values are unbounded trees; what goes wrong depends on combinations such as a repeated key whose second value is a container, and on overflow of the width of the indentation", "anchors": ["src/json/centijson_dom.c:json_dom_process", "src/json/centijson_dom.c:init_number", "src/json/centijson_dom.c:json_dom_parse", "src/json/centijson_dom.c:json_dom_dump", "src/json/centijson_dom.c:json_dom_dump_helper", "src/json/centijson_dom.c:json_dom_dump_indent", "wolfsentry/centijson_dom.h"]}
{"id": "C61", "title": "A JSON array is a list", "statement": "Starting from an empty array, any sequence of json_value_array_get, size, append, insert, remove, remove_range and clean calls, and of reading and writing through the returned pointers, behaves as a list: get gives the item at the index or NULL; insert and append put a new null at the index and shift the rest, or give NULL and change nothing if the index is beyond the end or there is no memory; remove and remove_range take out exactly the given items and give 0, or change nothing and give -1 if the range is not within the array; clean empties the array and frees its memory. No call touches memory that is not the array's.", "quantifier": "every sequence of calls, every index and count (all of size_t), every outcome of the allocations", "why_tests_cant": "growing, shrinking and moving of the memory depends on the whole history of sizes; the failures are at single states (one item, one cell) and at sums that wrap around", "anchors": ["src/json/centijson_value.c:json_value_array_get", "src/json/centijson_value.c:json_value_array_insert", "src/json/centijson_value.c:json_value_array_append", "src/json/centijson_value.c:json_value_array_remove_range", "src/json/centijson_value.c:json_value_array_realloc", "src/json/centijson_value.c:json_value_array_clean"]}
{"id": "C62", "title": "A configuration is loaded entirely or not at all", "statement": "With LOAD_THEN_COMMIT, wolfsentry_config_json_init/feed/fini (or oneshot) install the new configuration only if the whole document was read without error; on any error the running configuration is unchanged. With DRY_RUN the running configuration is unchanged whatever happens. Without either, the running configuration is flushed (unless NO_FLUSH) and becomes what the document, as far as it was read, makes of it, and the result tells whether all was read. The way the document is cut into pieces does not matter; after a failed feed further feeds are refused without effect. At the end of a session the context is unlocked and all memory of the session released.", "quantifier": "every document, every cutting into feeds, all load flags, every outcome of every call made on the way (locks, allocation, clone, exchange, actions)", "why_tests_cant": "the guarantee is about every point at which something can fail, for every content of the context; tests exercise a few broken documents and no failing commit", "anchors": ["src/json/load_config.c:wolfsentry_config_json_init_ex", "src/json/load_config.c:wolfsentry_config_json_feed", "src/json/load_config.c:wolfsentry_config_json_fini", "src/json/load_config.c:wolfsentry_config_json_oneshot_ex", "doc/json_configuration.md"]}
{"id": "C63", "title": "A configuration document does what it says, and only that", "statement": "A JSON configuration is applied to the context as a sequence of calls on it that follows from the document member by member, in order: the version must come first and be 1; \"config-update\" changes the defaults; each event is inserted with its label, priority and configuration (its own, starting from the defaults, or none) and its actions are appended in order to the right lists; each route is inserted with exactly the addresses, families, ports, protocols, interfaces, wildcards and flags it names, wildcards being what it does not name; default policy and default event and user values are set with the values as converted. Anything else (unknown or misplaced members, values of the wrong type or range, a failing call) is refused with an error. With NO_ROUTES_OR_EVENTS no event, action, route or default event is touched. Loading has no undefined behaviour.", "quantifier": "every document of any size within the parser's limits, in every cutting into pieces, all flags, every content of the context and every outcome of the calls made on it", "why_tests_cant": "the loader is a state machine over tokens with a dozen interacting fields; which token is taken for what depends on the whole prefix of the document, and tests load a handful of documents", "anchors": ["src/json/load_config.c:json_process", "src/json/load_config.c:handle_eventconfig_clause", "src/json/load_config.c:handle_defaultpolicy_clause", "src/json/load_config.c:handle_route_clause", "src/json/load_config.c:handle_route_endpoint_clause", "src/json/load_config.c:handle_route_family_clause", "src/json/load_config.c:handle_route_protocol_clause", "src/json/load_config.c:handle_event_clause", "src/json/load_config.c:handle_user_value_clause", "doc/json_configuration.md"]}
{"id": "C64", "title": "Addresses in configurations are what their text says", "statement": "In a configuration, the text of an address of a link-layer family is taken exactly if it is six or eight octets of one or two hexadecimal digits separated by colons, as these octets (and the family becomes the one of that length); that of a CAN address exactly if it is a number in C notation (decimal, octal or hexadecimal, as a string or a JSON number) from 0 to 2^32-1, as its four bytes in network order; IPv4 and IPv6 addresses as inet_pton reads them, other families as the parser installed for them does. The address length is that of the address unless one was given before. Nothing but the text itself is read, and no more than the 16 bytes of the address are written.", "quantifier": "all texts, all families, all previous contents of the parser's buffer", "why_tests_cant": "the text is not terminated and lies in a buffer with remains of earlier strings, so the outcome for the same text depends on the history of the document; tests see one history", "anchors": ["src/json/load_config.c:convert_hex_digit", "src/json/load_config.c:convert_hex_byte", "src/json/load_config.c:convert_sockaddr_address"]}
{"id": "C65", "title": "Tracking a peer adds exactly one route for the traffic, of the right event, or nothing", "statement": "The built-in action %track-peer-v1 succeeds whatever the outcome. For traffic whose route is already stored or waits for deletion it does nothing. Otherwise it adds either nothing (the stored routes stay as they are) or exactly one route: the addresses, ports, protocol, family, interfaces and flags of the traffic, with the flags added and removed that the configuration of its event says and the wildcarded fields zeroed; its event is the aux event of the rule's event, or the rule's event if that has none; it has no hits, counts or private data, and a purge time only if the configuration has one. It is added whenever the flags make sense, no stored route has that key, no address mask is involved and the insert actions of the event succeed. The action results keep everything they had. Known limits: if the aux event was deleted, or the lock cannot be obtained, an uninitialised value is mixed into the results; and the observation that caused the tracking is counted on no route at all.", "quantifier": "all traffic, rules, events and configurations, all reachable tables, all insert actions, all results and times", "why_tests_cant": "the action runs inside any dispatch, on any table and any configuration of the event", "anchors": ["src/action_builtins.c: wolfsentry_builtin_action_track_peer", "src/routes.c: wolfsentry_route_insert_by_exports_into_table, wolfsentry_route_insert_by_exports_2, wolfsentry_route_insert_1, wolfsentry_route_reset_metadata_exports"]}
{"id": "C66", "title": "A configuration document, end to end", "statement": "Give the library a JSON document, in any pieces. With load-then-commit: if the document means something when applied to what the new configuration starts from (a copy of the running one, that copy without its routes, or a fresh one, as the flags say), the answer is success and exactly that is running afterwards, with its insert actions run; if the document is refused there, the answer is an error and the running configuration is unchanged. A dry run gives the same verdict and changes nothing. Loading in place turns the running configuration into what the document means. Nothing but a JSON document is ever committed.", "quantifier": "all documents, all ways to cut them into pieces, all flags, all contents of the context, all outcomes of the calls made on it", "why_tests_cant": "the verdict depends on the whole document, its split into chunks, the flags and the failures of every call; tests load a handful of files", "anchors": ["src/json/load_config.c:wolfsentry_config_json_init_ex", "src/json/load_config.c:wolfsentry_config_json_feed", "src/json/load_config.c:wolfsentry_config_json_fini", "src/json/load_config.c:json_process", "src/json/centijson_sax.c:json_feed"]}
{"id": "C67", "title": "A route table dumped as JSON loads back", "statement": "Dump a table of routes as JSON (start, next for each route, end): the text is a JSON document the library's own loader accepts, and loading it, in any pieces, into any context inserts the same routes in the same order, each with its address family, protocol, addresses with prefix length or mask, ports, interfaces, settings and parent event; if one of the insertions fails the document is refused. The text does not depend on the size of the buffer: a buffer that is large enough receives all of it, one that is not never yields success, nothing is written outside of it, and a call answered with 'buffer too small' leaves buffer and cursor as they were, so that it can be repeated.", "quantifier": "all routes and tables, buffer sizes, numeric and symbolic names, ways to cut the text into pieces, contexts to load it into", "why_tests_cant": "two independent programs, a printer and a parser, must agree on every combination of wildcards, masks, families, names and buffer sizes; tests dump one table into a large buffer", "anchors": ["src/routes.c:wolfsentry_route_format_json", "src/routes.c:wolfsentry_route_format_address", "src/routes.c:wolfsentry_route_table_dump_json_start", "src/routes.c:wolfsentry_route_table_dump_json_next", "src/routes.c:wolfsentry_route_table_dump_json_end", "src/json/load_config.c:json_process"]}
{"id": "C68", "title": "Traffic through lwIP passes only if wolfSentry does not refuse it, and connections are counted", "statement": "With the filters installed, every event of a network layer that lwIP reports is put to the library exactly once, with the addresses, ports, protocol, interface, direction and kind of event as they are; the traffic passes exactly if the library does not refuse it; what matches a penalty-boxed route never passes. A route's connection count is the number of connections open, which never exceeds its limit. Installing the filters either watches exactly the events asked for, or switches everything off and leaves the mutex free; the shutdown of a context removes its filters and no others.", "quantifier": "every layer, event, address, interface and build; every state of the library; every history of attempts and endings of connections; every pattern of failing locks and registrations", "why_tests_cant": "the product of layers, events, builds and failures is never enumerated by the tests, and the count depends on whole histories of connections", "anchors": ["src/lwip/packet_filter_glue.c:ethernet_filter_with_wolfsentry", "src/lwip/packet_filter_glue.c:tcp_filter_with_wolfsentry", "src/lwip/packet_filter_glue.c:udp_filter_with_wolfsentry", "src/lwip/packet_filter_glue.c:wolfsentry_install_lwip_filter_callbacks", "lwip/LWIP_PACKET_FILTER_API.patch:tcp_listen_input"]}
{"id": "C69", "title": "A route's block of memory holds the route and its private data, apart from each other", "statement": "Whatever bytes the allocator hands out, a new route's block contains exactly the addresses asked for (reduced to the bits that count) and zeroed private data, side by side, with no access outside of the block; readers of the route see these addresses. Copying a route, clamping its wildcarded fields, widening it with wildcards and writing its private data change what they name and nothing else, and every block returns to the allocator function it came from.", "quantifier": "all addresses, lengths, flags, configurations, contents of fresh memory, and sequences of creation, copying, clamping, widening and private-data writes", "why_tests_cant": "the layout depends on the lengths of both addresses, the private-data size, alignment and padding, and on stale memory; a test sees one layout and one content of fresh memory", "anchors": ["src/routes.c:wolfsentry_route_init", "src/routes.c:wolfsentry_route_new", "src/routes.c:wolfsentry_route_clone", "src/routes.c:clamp_wildcard_fields_to_zero", "src/routes.c:wolfsentry_route_set_wildcard", "src/routes.c:wolfsentry_route_get_private_data", "src/routes.c:wolfsentry_route_free_1", "src/wolfsentry_internal.h:WOLFSENTRY_ROUTE_LOCAL_ADDR"]}
{"id": "C70", "title": "Live thread contexts have identities of their own, keep their locks, and tell back their deadline", "statement": "As long as the host's thread identities stay out of the highest 2^24 - 1 words, a thread context that the library had to number itself shares its identity with no other live context. A context that holds a lock cannot be destroyed; a destroyed one is refused by every call. The deadline read from a context is the moment that was set last: so many microseconds from now, the given time, now, or never. Read-only mode is refused to the holder of a mutex. No call changes another context.", "quantifier": "all histories and interleavings of context calls by any number of threads and interrupt handlers, all identities given by the host, all times and intervals", "why_tests_cant": "identities come from a shared counter that is decremented, handed back and wound back by separate accesses; trouble needs particular interleavings or some 2^24 calls", "anchors": ["src/wolfsentry_util.c:wolfsentry_init_thread_context", "src/wolfsentry_util.c:wolfsentry_destroy_thread_context", "src/wolfsentry_util.c:wolfsentry_set_deadline_rel_usecs", "src/wolfsentry_util.c:wolfsentry_set_deadline_abs", "src/wolfsentry_util.c:wolfsentry_clear_deadline", "src/wolfsentry_util.c:wolfsentry_get_thread_deadline", "src/wolfsentry_util.c:wolfsentry_set_thread_readonly", "src/wolfsentry_util.c:wolfsentry_set_thread_readwrite"]}
{"id": "C71", "title": "Aligned memory from the built-in allocators is aligned, lies in its block, and is handed back whole", "statement": "On ports without posix_memalign, memory asked for with an alignment has that alignment, lies within the block obtained from the underlying allocator and apart from the header kept before it, and freeing it returns that very block to the underlying allocator.", "quantifier": "all alignments, sizes, and addresses at which the underlying allocator puts the block", "why_tests_cant": "a test sees the addresses its allocator happens to give, the arithmetic must hold for each of them", "anchors": ["src/wolfsentry_util.c:wolfsentry_builtin_memalign", "src/wolfsentry_util.c:wolfsentry_builtin_free_aligned"]}
{"id": "C72", "title": "A timed wait on FreeRTOS ends at its deadline, not before, and always", "statement": "On FreeRTOS, a wait on a lock's semaphore with a deadline gives up at the first tick that is not before the deadline: never earlier, on any tick rate, and no later where a tick is a whole number of nanoseconds. A semaphore available in time is taken, at once also when the deadline has passed; trying never blocks; impossible deadlines are errors, without a wait.", "quantifier": "all tick rates up to 10^9, tick counts, deadlines, and times at which the semaphore becomes available", "why_tests_cant": "the arithmetic of ticks, seconds and nanoseconds rounds, borrows and overflows at particular values only; tests do not wait for days, nor change the tick rate", "anchors": ["src/wolfsentry_util.c:freertos_now", "src/wolfsentry_util.c:UTILS_TimespecSubtract", "src/wolfsentry_util.c:UTILS_TimespecToTicks", "src/wolfsentry_util.c:UTILS_AbsoluteTimespecToDeltaTicks", "src/wolfsentry_util.c:freertos_sem_timedwait", "src/wolfsentry_util.c:freertos_sem_trywait"]}
{"id": "C73", "title": "Concurrent calls on a route's reputation counters act one after the other", "statement": "Any number of threads may add to, subtract from and reset a route's derogatory or commendable count through the API: the outcome, and every count or error that the calls report, is that of the same calls made one after the other, in an order that respects the order of calls that do not overlap; a change that would leave the range 0 to 65535 is refused and changes nothing.", "quantifier": "all programs of any number of threads, initial counts and schedules", "why_tests_cant": "lost or doubled updates depend on the interleaving of loads and compare-and-swaps", "anchors": ["src/routes.c:wolfsentry_route_increment_derogatory_count", "src/routes.c:wolfsentry_route_increment_commendable_count", "src/routes.c:wolfsentry_route_reset_derogatory_count", "src/routes.c:wolfsentry_route_reset_commendable_count"]}
{"id": "C74", "title": "JSON strings, integers and booleans are read back as they were stored", "statement": "A JSON value that was set to a string gives back that string, of any length and with any bytes, ended by a zero byte, also while it is the key of a dictionary; one that was set to an integer gives back that integer, and converted to another integer type the number that differs by a multiple of the type's range; json_value_is_compatible says yes for integer types exactly if the conversion keeps the number. Nothing outside of the value and its memory is touched; short strings, integers and booleans need no memory; a refused allocation leaves a null; getters asked for another kind of value answer with their error value.", "quantifier": "all strings shorter than 2^63 bytes, all 32- and 64-bit integers, all previous contents of the value and of fresh memory, all answers of the allocator", "why_tests_cant": "the length of a string is a variable-length number in front of it and short values are kept elsewhere than long ones, so that behaviour changes at 14, 128, 2^14, 2^21 ... bytes; tests have a few strings", "anchors": ["src/json/centijson_value.c:json_value_init_string_", "src/json/centijson_value.c:json_value_string", "src/json/centijson_value.c:json_value_string_length", "src/json/centijson_value.c:json_value_init_int32", "src/json/centijson_value.c:json_value_int32", "src/json/centijson_value.c:json_value_is_compatible", "src/json/centijson_value.c:json_value_bool"]}
{"id": "C75", "title": "A path leads to the value it names", "statement": "json_value_path gives the value that a path of keys and bracketed indices names, or NULL if there is none; keys and indices may be joined with or without a slash, negative indices count from the end. Whatever the text, nothing behind its end is read, the call returns, and what it returns is a value of the document.", "quantifier": "all documents, all paths as zero-terminated byte strings, anything behind the zero byte", "why_tests_cant": "paths and documents are unbounded; tests have a handful", "anchors": ["src/json/centijson_value.c:json_value_path", "src/json/centijson_value.c:json_value_array_get", "src/json/centijson_value.c:json_value_dict_get_", "wolfsentry/centijson_value.h:json_value_path"]}
{"id": "C76", "title": "A copy of a JSON value is the same value, or the copying fails", "statement": "Cloning a JSON value gives a value equal to it at every depth, in the same order, or it returns an error; whatever requests the allocator refuses, success is not reported for anything less than the whole value and nothing uninitialised is read on the way.", "quantifier": "all JSON values of any depth, all patterns of refusals by the allocator", "why_tests_cant": "documents and refusal patterns are unbounded; a test refuses nothing", "anchors": ["src/json/centijson_value.c:json_value_clone", "src/json/centijson_value.c:json_value_dict_get_or_add_", "src/json/centijson_value.c:json_value_fini", "src/kv.c:wolfsentry_kv_clone"]}
{"id": "C77", "title": "A result code is rendered as the text registered for it", "statement": "After any registrations of texts for the application's error codes, success codes and source files, rendering a result gives the text first registered for its code and for its source, or says that there is none; the codes and sources of the library itself keep their own, distinct texts; registering outside of the application's range or twice is refused; no array is left and no null pointer returned.", "quantifier": "all histories of registrations, all 32-bit results", "why_tests_cant": "histories and results are too many to try; the table that a success is looked up in is only wrong for registered ones", "anchors": ["src/wolfsentry_util.c:wolfsentry_user_source_string_set", "src/wolfsentry_util.c:wolfsentry_user_error_string_set", "src/wolfsentry_util.c:wolfsentry_errcode_source_string", "src/wolfsentry_util.c:wolfsentry_errcode_error_string", "src/wolfsentry_util.c:wolfsentry_errcode_error_name", "wolfsentry/wolfsentry_errcodes.h:wolfsentry_error_id"]}
{"id": "C78", "title": "The events of a clone refer to the clone's own objects", "statement": "Cloning a context succeeds and gives events with the same action lists (the same labels and handlers, in the same order) and the same auxiliary events; every one of these references leads to an object of the clone, the original and its reference counts are untouched, and each reference count in the clone is the number of references to the object.", "quantifier": "all contexts: any actions, events, action lists and auxiliary events", "why_tests_cant": "the graphs of references are unbounded; a wrong reference shows only when the original is freed", "anchors": ["src/events.c:wolfsentry_event_clone_bare", "src/events.c:wolfsentry_event_clone_resolve", "src/actions.c:wolfsentry_action_list_clone", "src/actions.c:wolfsentry_action_clone", "src/actions.c:wolfsentry_action_delete", "src/wolfsentry_internal.c:wolfsentry_table_clone", "src/wolfsentry_internal.c:wolfsentry_table_clone_map", "src/wolfsentry_util.c:wolfsentry_context_clone"]}
{"id": "C79", "title": "Starting a context", "statement": "wolfsentry_init gives a context exactly if the caller's build is compatible with the library's (same version, no unknown flags, the same flags for everything that changes structure layouts), the platform's settings are absent or the caller's, the configuration is consistent, allocator and clock are complete, all memory asked for is granted and the lock can be made. Arguments that do not fit are refused before anything is allocated and without touching the caller's variable; a call that fails later leaves nothing allocated and no context in the variable. The new context has the given configuration, with durations converted from seconds.", "quantifier": "all pairs of build settings, platform interfaces with any functions missing, configurations, and all patterns of granted and refused allocations", "why_tests_cant": "there are 2^28 pairs of flags, and a failure can come at every allocation", "anchors": ["src/wolfsentry_util.c:wolfsentry_build_settings_compatible", "src/wolfsentry_util.c:wolfsentry_init_ex", "src/wolfsentry_util.c:wolfsentry_init", "src/wolfsentry_util.c:wolfsentry_context_alloc_1", "src/wolfsentry_util.c:wolfsentry_context_free_1", "src/wolfsentry_util.c:wolfsentry_context_init_1", "src/routes.c:wolfsentry_route_table_fallthrough_route_alloc", "src/action_builtins.c:wolfsentry_action_insert_builtins", "wolfsentry/wolfsentry_settings.h:wolfsentry_build_settings"]}
{"id": "C80", "title": "Making and destroying locks", "statement": "wolfsentry_lock_init and wolfsentry_lock_alloc give a lock that can be used at once exactly if the flags are flags of locks and the platform grants the memory and the semaphores; a call that fails leaves nothing behind. wolfsentry_lock_destroy and wolfsentry_lock_free succeed on every lock nobody uses, and then nothing of it is left; a lock in use is refused and is as before.", "quantifier": "all flags, all patterns of platform calls that succeed or fail, and all states of a lock", "why_tests_cant": "the platform can fail at each of the calls, and semaphores left behind are not observable", "anchors": ["src/wolfsentry_util.c:wolfsentry_lock_init", "src/wolfsentry_util.c:wolfsentry_lock_alloc", "src/wolfsentry_util.c:wolfsentry_lock_destroy", "src/wolfsentry_util.c:wolfsentry_lock_free", "wolfsentry/wolfsentry.h:wolfsentry_lock_flags_t"]}
{"id": "C81", "title": "The routes of a clone refer to the clone's own events", "statement": "When a context is cloned with its routes, each route of the clone has a parent event exactly if the original route has one; it has the same label and is one of the clone's events, never one of the original's, and each route counts as one reference to it. With memory granted, cloning succeeds exactly if everything that events and routes refer to can be found by its label in the context's tables, and otherwise fails with ITEM_NOT_FOUND.", "quantifier": "all contexts, including those whose events or actions were deleted while in use, and all routes", "why_tests_cant": "a reference into the wrong context shows only when the original is freed", "anchors": ["src/routes.c:wolfsentry_route_clone", "src/wolfsentry_internal.c:wolfsentry_table_clone", "src/wolfsentry_util.c:wolfsentry_context_clone"]}
