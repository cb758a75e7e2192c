# wolfSentry in Rocq: design

Generated by `tools/design.py` (plan and lists below are written by hand there; the inventory of section 4 is copied from the
header comments of the model files, so that it cannot differ from them).

## 1. Layout
* `properties.jsonl`: the English properties (from `tools/props.py`).
* `rocq/theories/<Area>.v`: executable Gallina model of the code, no proofs; each definition cites the file and lines of `/repo`
  it models and names its simplifications.
* `rocq/theories/<Area>Spec.v`: the vocabulary the theorems are stated in, independent of the model's helpers.
* `rocq/theories/<Area>Proofs.v` and the files called lemmas in section 4: proofs.
* `rocq/theories/<Area>Props.v`: only the property theorems, `Print Assumptions` for each, and `Example`s: concrete, non-trivial
  cases that meet the hypotheses.
* `MANIFEST.json`: property -> theorems, with what is proved, what is missing and what is false (from `tools/claims.py`).
* `seeded/LOG.jsonl`: wrong programs tried against the theorems.

Naming of theorems: `Cnn_..._refuted`: that part of the English statement is false of the model and, by reading the cited lines,
of the code; the theorem exhibits a reachable witness. `Cnn_..._partial`: weaker than the English statement; the comment above it
and the note in MANIFEST.json say what is missing. All other theorems `Cnn_...` state (a part of) the property in full.
A property is `proved` only if no part of it is missing or false.

## 2. Plan per property

| | Property | Modelled code | Method | Theorems in |
|---|---|---|---|---|
| C01 (proved) | Tables stay sorted and duplicate-free | table insert/get/delete and cursors (wolfsentry_internal.c) over explicit memory | tables parametrised by a total preorder; every history of calls refines a finite map (TableSpec.v), by induction over the history | `TableProps.v` |
| C02 (proved) | A table is a finite map from keys to entries | table insert/get/delete and cursors (wolfsentry_internal.c) over explicit memory | tables parametrised by a total preorder; every history of calls refines a finite map (TableSpec.v), by induction over the history | `TableProps.v` |
| C03 (proved) | Pointer surgery of tables is memory safe and refines sequences | the same functions; NULL and dangling pointers are the outcome UB | representation invariant (both link pairs spell the sequence); every step keeps it, so no history reaches UB | `TableProps.v` |
| C04 (proved) | Object IDs are unique, nonzero and resolve to their object | wolfsentry_id_allocate, insert_by_id, get_by_id, delete_by_id_1 | invariant over histories, with the counter modulo 2^32 and with an arbitrary ID callback | `TableProps.v` |
| C05 (partial) | Generic list operations preserve list structure | the list macros and functions of wolfsentry_ll.h | refinement to list operations; witnesses for the head and tail links that are not reset | `LLProps.v` |
| C06 (proved) | Label and key comparisons are total orders | the four label/key comparison functions | total order laws against lexicographic order; reads are bounds-checked | `LabelsProps.v` |
| C07 (proved) | Route keys are totally ordered and identify a route | wolfsentry_route_key_cmp_1 | order laws over all routes that initialisation can make | `RouteKeyProps.v` `RouteTableProps.v` |
| C08 (partial) | Prefix routes match exactly the addresses in the prefix | cmp_addrs_prefixful, cmp_addrs_bitmaskful | bit-level specification; exact characterisation of what the code computes; witnesses where that differs from the claim | `AddrProps.v` |
| C09 (proved) | Bitmask routes match exactly the masked addresses | cmp_addrs_prefixful, cmp_addrs_bitmaskful | bit-level specification; exact characterisation of what the code computes; witnesses where that differs from the claim | `AddrProps.v` |
| C10 (partial) | A lookup only returns routes that match the event | wolfsentry_route_lookup_0/_1, compare_match_exactness, with the auxiliary fields of the table | loop invariant of the scan, history invariants of the table; the parts that are false by concrete reachable tables | `LookupProps.v` |
| C11 (partial) | A lookup never misses a matching route | wolfsentry_route_lookup_0/_1, compare_match_exactness, with the auxiliary fields of the table | loop invariant of the scan, history invariants of the table; the parts that are false by concrete reachable tables | `LookupProps.v` |
| C12 (partial) | The most specific matching route wins | wolfsentry_route_lookup_0/_1, compare_match_exactness, with the auxiliary fields of the table | loop invariant of the scan, history invariants of the table; the parts that are false by concrete reachable tables | `LookupProps.v` |
| C13 (partial) | Lookups terminate | wolfsentry_route_lookup_0/_1, compare_match_exactness, with the auxiliary fields of the table | loop invariant of the scan, history invariants of the table; the parts that are false by concrete reachable tables | `LookupProps.v` |
| C14 (proved) | Penalty-boxed traffic is rejected, green-listed traffic accepted | wolfsentry_route_event_dispatch_0/_1 | case analysis over all inputs with arbitrary action callbacks; C15 and C17 by induction over histories of dispatches | `DispatchProps.v` `DispatchEffectProps.v` |
| C15 (partial) | Connection limits hold and connection counts neither wrap nor underflow | wolfsentry_route_event_dispatch_0/_1 | case analysis over all inputs with arbitrary action callbacks; C15 and C17 by induction over histories of dispatches | `DispatchProps.v` |
| C16 (proved) | Reaching the derogatory threshold penalty-boxes the route | wolfsentry_route_event_dispatch_0/_1 | case analysis over all inputs with arbitrary action callbacks; C15 and C17 by induction over histories of dispatches | `DispatchProps.v` `DispatchEffectProps.v` |
| C17 (partial) | Penalty boxing expires exactly after its configured duration | wolfsentry_route_event_dispatch_0/_1 | case analysis over all inputs with arbitrary action callbacks; C15 and C17 by induction over histories of dispatches | `DispatchProps.v` `DispatchEffectProps.v` |
| C18 (proved) | Unmatched traffic gets the default policy | wolfsentry_route_event_dispatch_0/_1 | case analysis over all inputs with arbitrary action callbacks; C15 and C17 by induction over histories of dispatches | `DispatchProps.v` `DispatchEffectProps.v` |
| C19 (proved) | Flag updates respect immutability | wolfsentry_route_update_flags_1 | bitwise | `DispatchProps.v` |
| C20 (proved) | Insert and delete actions run at most once per route | insert_1, delete_0, stale_purge_1, purge_list_insert, flush and bulk calls; the purge list at pointer level | invariants over histories (PurgeSpec.v defines the calm, neat, plain and thrifty ones); what fails outside them by witnesses | `PurgeProps.v` |
| C21 (partial) | Deleting a route with live connections is deferred | insert_1, delete_0, stale_purge_1, purge_list_insert, flush and bulk calls; the purge list at pointer level | invariants over histories (PurgeSpec.v defines the calm, neat, plain and thrifty ones); what fails outside them by witnesses | `PurgeProps.v` |
| C22 (partial) | Purging removes only what has expired | insert_1, delete_0, stale_purge_1, purge_list_insert, flush and bulk calls; the purge list at pointer level | invariants over histories (PurgeSpec.v defines the calm, neat, plain and thrifty ones); what fails outside them by witnesses | `PurgeProps.v` |
| C23 (partial) | Purging terminates | insert_1, delete_0, stale_purge_1, purge_list_insert, flush and bulk calls; the purge list at pointer level | invariants over histories (PurgeSpec.v defines the calm, neat, plain and thrifty ones); what fails outside them by witnesses | `PurgeProps.v` |
| C24 (partial) | The purgeable-route limit is enforced | insert_1, delete_0, stale_purge_1, purge_list_insert, flush and bulk calls; the purge list at pointer level | invariants over histories (PurgeSpec.v defines the calm, neat, plain and thrifty ones); what fails outside them by witnesses | `PurgeProps.v` |
| C25 (proved) | Shared counters are exact under every interleaving | the WOLFSENTRY_ATOMIC_* compare-and-swap loops | interleaving semantics for any number of threads; every execution refines a sequential one | `AtomicProps.v` |
| C26 (partial) | Reference counts free an object exactly once | checkout and drop of actions, events, routes, values, families | history invariant: count = number of holders | `RefsProps.v` |
| C27 (partial) | Read/write lock mutual exclusion | wolfsentry_lock_* (wolfsentry_util.c 1477-3036) | transition system with any number of threads, one step per critical section; one inductive invariant (RwLockInv.v); timed waits refuted by traces | `RwLockProps.v` |
| C28 (partial) | A granted lock can be released | wolfsentry_lock_* (wolfsentry_util.c 1477-3036) | transition system with any number of threads, one step per critical section; one inductive invariant (RwLockInv.v); timed waits refuted by traces | `RwLockProps.v` |
| C29 (partial) | No waiter is left behind | wolfsentry_lock_* (wolfsentry_util.c 1477-3036) | transition system with any number of threads, one step per critical section; one inductive invariant (RwLockInv.v); timed waits refuted by traces | `RwLockProps.v` |
| C30 (partial) | A promotion reservation is exclusive and guarantees promotion | wolfsentry_lock_* (wolfsentry_util.c 1477-3036) | transition system with any number of threads, one step per critical section; one inductive invariant (RwLockInv.v); timed waits refuted by traces | `RwLockProps.v` |
| C31 (partial) | Action lists run in order and stop when told | wolfsentry_action_list_dispatch | induction over the list, arbitrary handlers | `ActionsProps.v` |
| C32 (partial) | Action lists behave as ordered sets of labels | wolfsentry_action_list_* and wolfsentry_event_action_* | pointer level with reference counts, refinement to ordered sets over histories | `ActionListProps.v` |
| C33 (partial) | User values behave as a typed map with read-only entries | kv.c | refinement to a typed map over histories; C34 by witness | `KvProps.v` |
| C34 (partial) | JSON user values can be read back | kv.c | refinement to a typed map over histories; C34 by witness | `KvProps.v` |
| C35 (partial) | Address-family names and numbers form a bijection | addr_families.c | refinement to a pair of inverse maps over histories; built-in names by a sweep of the finite table lifted to all names | `AddrFamiliesProps.v` |
| C36 (partial) | A context clone preserves tables and stays usable | table_clone, coupled_table_clone, route table header | the clone simulates the original for every later history (CloneSim.v) | `CloneProps.v` `CloneRouteProps.v` |
| C37 (partial) | Context exchange swaps configuration atomically | wolfsentry_context_exchange, copy_metadata | functional, arbitrary contexts | `ExchangeProps.v` |
| C38 (partial) | Base64 decoding is memory safe and inverts encoding | wolfsentry_base64_decode | induction over the loop; memory as bounded arrays | `Base64Props.v` |
| C39 (proved) | Integer formatting is exact and bounded | ws_itoa | induction over the digits | `ItoaProps.v` |
| C40 (partial) | Time conversions are inverse and range checked | the built-in time conversions | arithmetic with overflow as an outcome | `TimeConvProps.v` |
| C41 (partial) | Event configuration is validated and round-trips | eventconfig_check/load/return, private data accessors | case analysis, 64-bit arithmetic with wraparound | `EventConfigProps.v` |
| C42 (partial) | Cleanup hooks run exactly once in LIFO order | cleanup hook calls | explicit memory, induction over histories; handlers described by the calls they make | `CleanupProps.v` |
| C43 (proved) | Error codes encode and decode losslessly | the error code macros | arithmetic over all fields | `ErrcodeProps.v` |
| C44 (partial) | Bitmask-family reference counting is exact | insertion and deletion with the auxiliary fields of the route table | history invariants | `RouteTableProps.v` |
| C45 (partial) | Exported routes can be re-inserted | route_export, init_by_exports, insert_by_exports | round trip for every route reachable in a table | `ExportProps.v` |
| C46 (partial) | API calls release the locks they take | lock/unlock skeletons of about ninety functions | a small language of lock effects with nondeterministic conditions; a checker for balance proved sound over all paths, run on every skeleton | `LockBalanceProps.v` |
| C47 (partial) | The route-flag and action-result name tables round-trip | flag and result name tables | sweep of the finite tables lifted to all 32-bit words and all names | `NamesProps.v` |
| C48 (partial) | Matching and scoring never read outside the addresses | comparison and scoring of addresses | bounds-checked reads | `AddrProps.v` |
| C49 (partial) | A failed insertion leaves the table as it was | insertion and deletion with the auxiliary fields of the route table | history invariants | `RouteTableProps.v` |
| C50 (partial) | Automatic downgrade at unlock | wolfsentry_lock_* (wolfsentry_util.c 1477-3036) | transition system with any number of threads, one step per critical section; one inductive invariant (RwLockInv.v); timed waits refuted by traces | `RwLockProps.v` |
| C51 (partial) | Private data accessors stay inside the route | eventconfig_check/load/return, private data accessors | case analysis, 64-bit arithmetic with wraparound | `EventConfigProps.v` |
| C52 (proved) | Feeding configuration in pieces is immaterial | the SAX parser, centijson_sax.c | feeding is a fold over bytes: any two ways to cut a document give the same callbacks and result | `JsonProps.v` |
| C53 (partial) | Exactly the JSON texts within the limits are accepted | the same | grammar as an inductive definition (JsonSpec.v); completeness by induction over derivations, soundness by an invariant that relates automaton states to the rest of a derivation | `JsonGrammarProps.v` |
| C54 (partial) | Reported positions point at the mistake | the same | invariants over all bytes: position counters, buffer and nesting limits, for arbitrary callbacks | `JsonPosProps.v` |
| C55 (partial) | Configuration callbacks stay within the limits | the same | invariants over all bytes: position counters, buffer and nesting limits, for arbitrary callbacks | `JsonLimitProps.v` |
| C56 (partial) | Numbers and durations in configurations are stored exactly or refused | number and duration conversion of load_config.c with strtoul & co. spelled out | arithmetic, induction over digits | `ConvertProps.v` |
| C57 (partial) | A dispatch changes exactly what it should and nothing else | a whole dispatch (lookup, counters, flags, results) | exact state transformer (DispatchSpec), by cases; histories by induction | `DispatchEffectProps.v` |
| C58 (partial) | What is printed as JSON is read back as it was | json_dump_*, json_number_to_*, kv rendering | induction over digits and characters; reading back composed with the parser's automata | `JsonDumpProps.v` |
| C59 (proved) | A JSON dictionary is a map that also remembers the order of addition | centijson_value.c dictionaries over explicit memory | representation of red-black trees by zippers; every operation refines an association list; colours and balance as invariants | `DictProps.v` |
| C60 (partial) | Documents are read as the values they say, and values written as documents that say them | centijson_dom.c | meaning of a document as a tree (DomSpec.v); the callback fold computes it; dump then parse is the identity | `DomProps.v` |
| C61 (partial) | A JSON array is a list | centijson_value.c arrays over explicit memory | refinement to lists over histories | `ArraysProps.v` |
| C62 (partial) | A configuration is loaded entirely or not at all | wolfsentry_config_json_init_ex/feed/fini/oneshot_ex | functional over arbitrary contents and outcomes of the calls made | `SessionProps.v` |
| C63 (partial) | A configuration document does what it says, and only that | json_process and its handlers in load_config.c | the fold over tokens equals a denotational meaning of the document (LoaderSpec.v) | `LoaderProps.v` |
| C64 (partial) | Addresses in configurations are what their text says | convert_sockaddr_address | grammar of addresses; bounds-checked reads | `AddrTextProps.v` |
| C65 (partial) | Tracking a peer adds exactly one route for the traffic, of the right event, or nothing | %track-peer-v1 with insertion by exports | functional composition with the route table model | `TrackPeerProps.v` |
| C66 (partial) | A configuration document, end to end | composition of Session, Json, Loader | from the theorems of C52, C53, C62, C63 | `ConfigProps.v` |
| C67 (partial) | A route table dumped as JSON loads back | route_format_json, route_table_dump_json_* | exact text and space; composition with the parser and C63 for the way back | `RouteJsonProps.v` |
| C68 (partial) | Traffic through lwIP passes only if wolfSentry does not refuse it, and connections are counted | lwip/packet_filter_glue.c and the dispatchers of the lwIP patch | case analysis per layer and reason; histories of connections by induction; composition with C14 | `LwipProps.v` `LwipInstallProps.v` |
| C69 (partial) | A route's block of memory holds the route and its private data, apart from each other | routes as blocks of bytes | bounds-checked bytes; refinement to the layout-free model | `RouteMemProps.v` |
| C70 (partial) | Live thread contexts have identities of their own, keep their locks, and tell back their deadline | thread contexts and the fallback ID counter | interleavings of any number of threads as histories of atomic accesses; invariant over histories | `ThreadProps.v` |
| C71 (partial) | Aligned memory from the built-in allocators is aligned, lies in its block, and is handed back whole | the two hand-made memalign functions | 64-bit arithmetic with wraparound, all sizes and addresses | `AlignProps.v` |
| C72 (partial) | A timed wait on FreeRTOS ends at its deadline, not before, and always | sem_timedwait shim for FreeRTOS, timespec arithmetic | arithmetic with overflow as an outcome; the wait as a relation between deadline and tick count | `TicksProps.v` |
| C73 (partial) | Concurrent calls on a route's reputation counters act one after the other | increment/reset of derogatory and commendable counts | invariant over interleavings on top of Atomic.v | `ReputationProps.v` |
| C74 (proved) | JSON strings, integers and booleans are read back as they were stored | json_value_init_*, getters and json_value_is_compatible for values without members | bytes with checked access; induction over the variable-length length; arithmetic modulo 2^32 and 2^64 | `ScalarProps.v` |
| C75 (partial) | A path leads to the value it names | json_value_path | induction over the parts of a path; induction over the text for safety | `JsonPathProps.v` |
| C76 (partial) | A copy of a JSON value is the same value, or the copying fails | json_value_clone with its allocations, json_value_fini on failure | nested induction over values with an arbitrary allocator | `JsonCloneProps.v` |
| C77 (partial) | A result code is rendered as the text registered for it | registration and lookup of the texts for result codes | invariant over histories of registrations: each table entry is the first text given | `StringsProps.v` |
| C78 (partial) | The events of a clone refer to the clone's own objects | cloning of actions, events, action lists and auxiliary events in a store of objects with reference counts | induction over tables and lists; lookups by label in sorted tables | `EventCloneProps.v` `EventCloneNamesProps.v` |
| C79 (partial) | Starting a context | the comparison of build settings bit by bit, wolfsentry_init with an allocator that grants or refuses each request, the blocks alive and the caller's variable afterwards | bits of N; case analysis over the sequence of requests | `InitProps.v` |
| C80 (partial) | Making and destroying locks | the four semaphores of a lock, existing or not, with their counts; a platform whose n-th call succeeds or fails; wolfsentry_lock_init, _alloc, _destroy and _free as sequences of these calls | case analysis over the sequence of calls | `SemsProps.v` |
| C81 (proved) | The routes of a clone refer to the clone's own events | the parent events of routes, cloned after the events in the store of C78 | induction over the routes; the theorems of C78 | `RouteRefsProps.v` |

## 3. Trusted base
* Coq 8.16.1's kernel, including its virtual machine (`vm_compute` in some examples, witnesses and finite sweeps). No OCaml plugins,
  no kernel checks switched off, no functors or module types.
* `Print Assumptions` answers "Closed under the global context" for each of the 463 theorems of MANIFEST.json (section 7 lists them):
  no axioms at all, neither of ours nor of the standard library. (Some files load libraries that contain axioms; no theorem uses them.)
* The reading of the C code: that each definition says what the cited lines do. Nothing checks this but the reader; the citations,
  and the mutations of `seeded/LOG.jsonl`, are there to make it checkable.
* Throughout: an LP64 machine with two's complement and 8-bit bytes, the C library as described by its standard (strtoul, memcmp,
  inet_pton as a function ...), a compiler that does what the standard says, and sequentially consistent memory for the concurrent
  parts (C25, C27-C30, C50, C70, C73). Undefined behaviour is an explicit outcome where the model file says so (memory errors, signed
  overflow); where unbounded integers replace machine words, the header of the file says so.
* The build modelled is the default one: WOLFSENTRY_THREADSAFE, HAVE_JSON with the DOM, PROTOCOL_NAMES, GETPROTOBY, IPv6, address
  bitmask matching; for C68, C71 and C72 the lwIP and FreeRTOS parts.

## 4. What is modelled, and the simplifications of each file

* **Base.v**: Common vocabulary of the wolfSentry model.
* **Errcode.v**: Structured result codes: wolfsentry/wolfsentry_errcodes.h 40-132.
* **TimeConv.v**: Built-in time conversions: src/wolfsentry_util.c 3130-3200. wolfsentry_time_t, time_t and long are taken as 64-bit signed (LP64). Signed overflow is the outcome [TUB], not a wrapped value.
* **Itoa.v**: Integer formatting: src/routes.c 3842-3880 (ws_itoa).
* **Base64.v**: Base64 decoding: src/wolfsentry_util.c 4059-4146, wolfsentry/wolfsentry.h 3334-3338. Bytes are [Z]; size_t wrap-around of src_len+3 is not modelled (a buffer of that size cannot exist).
* **Links.v**: Pointer-level doubly linked lists. An address space of nodes with a prev and a next field; an unallocated (or freed) address is [None] and touching it is undefined behaviour, as is following NULL: every function returns [None] then. The tables of wolfsentry_internal.c keep two such link pairs per object (prev/next and prev_by_id/next_by_id); each pair is modelled as a separate [lheap] over the same addresses, which is sound because the C fields are disjoint.
* **Table.v**: Object tables and the by-ID index: src/wolfsentry_internal.c 27-73 and 305-520, over explicit memory. One context: any number of tables (indexed by a kind number, standing for actions, events, routes, user values, address families ...), each with its own comparison function, and the by-ID list that links the objects of all tables. WOLFSENTRY_HAVE_MUTEX/LOCK checks are not modelled here (see RwLock.v).
* **Labels.v**: Label and key comparison. The same function body appears four times: src/actions.c 27-41 (wolfsentry_action_key_cmp_1), src/events.c 27-41 (wolfsentry_event_key_cmp_1), src/kv.c 31-45 (wolfsentry_kv_key_cmp_1) and src/addr_families.c 33-47 (wolfsentry_addr_family_byname_key_cmp_1).
* **Addr.v**: Address comparison: src/routes.c 43-136 and 192-323, and the clearing of ignored address bits done when a route is initialised, routes.c 716-751 (wolfsentry_route_init) and 886-922 (wolfsentry_route_init_by_exports). An address is the list of its bytes together with a length in bits. [None] is a read outside the bytes.
* **RouteFlags.v**: wolfsentry/wolfsentry.h 1003-1082: bit numbers of the route flags, and the masks.
* **RouteKey.v**: Routes as seen by matching, and their comparison: src/routes.c 325-574.
* **RouteTable.v**: The route table as a sorted sequence of routes with its auxiliary fields: last_af_wildcard_route, highest_priority_route_in_table and the bitmask-matched families (src/wolfsentry_internal.h 402-425). The sequence stands for the doubly linked list of Table.v; C01-C03 with C07_route_table_order justify that.
* **Lookup.v**: Route lookup: src/routes.c 1624-1890 (wolfsentry_route_lookup_0) and 1917-1963 (wolfsentry_route_lookup_1).
* **Dispatch.v**: Event dispatch on a matched route: src/routes.c 2350-2650 (wolfsentry_route_event_dispatch_0), with wolfsentry_route_update_flags (3293-3332) and wolfsentry_route_increment_hitcount (1601-1623). One dispatch runs to completion without interference by other threads; concurrent counter updates are in Atomic.v. Purging (2403-2421) is in Purge.v.
* **Atomic.v**: Shared counters and flag words of the thread-safe build: compare-and-swap loops, any number of threads.
* **Refs.v**: Reference-counted objects: actions, events, routes, user values, address families.
* **RwLock.v**: The read/write lock with promotion reservations (src/wolfsentry_util.c 1477-3036), used by any number of threads. Granularity: each critical section under [lock->sem] is one step ([sem] is a correct POSIX semaphore used as a mutex); each wait on one of the three waiter semaphores, each access made after waking up, and each lock-free part before a critical section is a step of its own. (The lock-free parts read [state] and then compare [write_lock_holder] or [read2write_reservation_holder] with the caller's own ID only; no other thread can make these comparisons come true or false, so reading both in one step loses nothing.) Not modelled: several locks per thread (tracked_shared_lock is this lock or NULL), calls with a NULL thread, WOLFSENTRY_LOCK_FLAG_RETAIN_SEMAPHORE, uninitialised locks, failing semaphore calls, int overflow of the counters.
* **Names.v**: Names of route flags and of action results: src/routes.c 3784-3834, src/wolfsentry_util.c 357-428.
* **Cleanup.v**: Cleanup hooks: src/wolfsentry_util.c 3728-3787, over explicit memory (Links.v). Locking (WOLFSENTRY_MUTEX_OR_RETURN is recursive) is in RwLock.v; a hook's handler is described by the cleanup calls it makes.
* **EventConfig.v**: Event configurations: src/wolfsentry_util.c 3318-3465, src/events.c 66-79, 343-380, and the use of the private-data fields in src/routes.c 947-1000, 3269-3283. size_t has 64 bits, pointers 8 bytes; [off] is offsetof(struct wolfsentry_route, data).
* **Keyed.v**: Tables at the level of sequences: the loops of wolfsentry_table_ent_get / _insert / _delete (src/wolfsentry_internal.c 27-73, 463-510) over the sequence of entries that the pointers represent (Table.v and C01-C03 justify this view for every history).
* **Kv.v**: User values: src/kv.c 55-82, 118-346, 530-592, 694-1086; wolfsentry/wolfsentry.h 3015-3090. The table is the sequence of its records in key order (Keyed.v); reference counts are left to C26's technique: a record's content is never written after it entered the table, except for its read-only bit, so a getter's pointer is modelled by the bytes it points to at the time of the call. Locks are left out (C46).
* **Actions.v**: Running an action list: src/actions.c 545-643 (wolfsentry_action_list_dispatch). A handler is any function of its arguments: it may change the rule route, the action results, the application's memory, and disable or enable actions (wolfsentry_action_update_flags). Handlers that edit the very list being walked are outside this model (the list is fixed during the walk); the caller holds a lock (WOLFSENTRY_HAVE_A_LOCK_OR_RETURN).
* **ActionList.v**: The action lists of events: src/actions.c 223-543 with src/events.c 462-523 (wolfsentry_event_action_change_1), over explicit memory: list entries with links (Links.v), action objects with label and reference count, the table of registered actions. Simplifications: the table is searched by label from the front (its order and its search are Table.v and C10-C13); identifiers (C12) and locks (C26-C30) are left out; an event and an action type together are one number (the list asked for exists).
* **AddrFamilies.v**: Address families: src/addr_families.c. The two coupled tables are sequences of their entries in key order (Keyed.v; C01-C03 and C06 justify this view). A family is one object: the pair of a by-number and a by-name entry, which point to each other and are allocated and freed together; its contents are never written after it entered the tables, so the pointers returned by ntop are modelled by the object itself, and [refs] holds the one mutable field, the reference count (None: freed; touching a freed object is UB). Left out: the table of IDs (C03), locks other than the failure of the mutex (C46), cloning (C36).
* **Purge.v**: Life cycle of the routes of a table: insertion, (deferred) deletion, purging. src/routes.c 1202-1402 (route_insert_1, _insert_2), 2049-2069 (max_purgeable_routes_set), 2071-2089 (max_purgeable_idle_time_set), 2120-2222 (route_delete_0), 2224-2348 (delete by key and by id), 2395-2421 and 2487-2510 (the purging and the connection counting of event_dispatch_0), 2992-3118 (purge list, purge_time_set, stale_purge_1), 3119-3267 (the purge, flush and bulk-action entry points); src/wolfsentry_ll.h 39-113; src/actions.c 557-610 (once-flags of the insert and delete action lists). Modelled at pointer level: the purge list (links, head, tail, length) and the lifetime of the route objects. Simplified: keys are numbers (the order of real keys is in RouteKey.v, and the table itself at pointer level in Table.v: here it is the sorted sequence those files prove it represents); times are unbounded integers (the C code would have undefined behaviour on overflow); the length of the purge list is an unbounded integer (uint32_t in the code); a freed address is not used again; action handlers do not call back into the route functions; bit mask statistics, wildcards and priorities are in RouteTable.v; allocation of the route and of its ID does not fail (see RouteKey.v, Table.v). One call at a time; locks are in RwLock.v.
* **Clone.v**: Cloning the tables of a context: src/wolfsentry_internal.c 103-312 and the table part of wolfsentry_context_clone (src/wolfsentry_util.c 3881-3972), over the explicit memory of Table.v. The clone is a context of its own with its own address space (its objects are fresh allocations; a cloned header refers to no object of the original, WOLFSENTRY_TABLE_ENT_HEADER_RESET, wolfsentry_internal.h 215-220). What an object's own clone function may answer (no memory ...) is the parameter [cf]. The table headers' own fields (default policy, default event ...) are in CloneRoute.v; the references between cloned objects (an event's actions) are not modelled.
* **CloneRoute.v**: The clone of a route table: lemmas for C36. And the fields of the route table's header: src/routes.c 4612-4668 (wolfsentry_route_table_clone_header).
* **Exchange.v**: Exchanging two contexts: src/wolfsentry_util.c 3967-4051 (wolfsentry_context_exchange) and src/routes.c 4688-4726 (wolfsentry_route_copy_metadata).
* **Export.v**: Exporting a route and making a route from an export: src/routes.c 784-945, 947-1062, 1202-1240, 3269-3332, 3460-3478, 3557-3605. A route's bytes are its data area up to the addresses ([f_data], data_addr_offset bytes) and the two addresses. Pointers to the bytes of a route are copied by value: the route must not change while its export is in use (the code's comment at 3557 says so). Private data of 2^32 bytes and more is left out (the cast to unsigned at 796). malloc succeeds; reference counts are in Refs*.v.
* **LockBalance.v**: Which lock operations each API function performs (claim C46) Nearly every function of wolfSentry takes the context lock on entry and gives it back by hand on every path that leaves the function. This file transcribes, function by function, the part of the control flow that matters for the lock: every acquisition, every release, every test of whether the lock is held, every call of a function that itself touches the lock, every loop and every way out. Everything else a function tests (an allocation, a lookup, a parameter, the verdict of a user callback) is a named condition that may come out either way, so an execution is a path together with the outcome of each condition met on it. Simplifications, all of them: - the state is the number of times the calling thread holds the lock of the context ([here]) and of the second context of the functions that have one ([there]); shared and exclusive holds count alike, because wolfsentry_context_unlock releases one hold of either kind (RwLock.v models the lock itself), and promoting a hold keeps the number; - an acquisition may fail (it is labelled ["lock"]); a release fails exactly when the thread holds nothing (wolfsentry_util.c wolfsentry_lock_unlock); semaphore failures are not modelled; - "have the lock" may say no to a thread that holds it (it may hold it shared where exclusive is asked for, or have another lock tracked) but never yes to a thread that holds nothing; - user callbacks (action handlers, validators, parsers, cleanup hooks) leave the lock as they found it.
* **Json.v**: Model of the SAX JSON parser (src/json/centijson_sax.c) [wolfsentry_config_json_feed] hands every piece of a configuration document to this parser, so it decides which documents are loaded and what the configuration code sees of them. Bytes are [Z]. The parser state is [JSON_PARSER] (wolfsentry/centijson_sax.h 183-226); the pointers to buffers are replaced by the bytes they hold: - [p_buf] is the first [buf_used] bytes of [buf]; - [p_nest] is [nesting_stack], innermost closer first, so [nesting_level] is its length. [callbacks.process]/[user_data] are the function [cb] and the value [p_user] it transforms: the function is arbitrary. Simplifications: allocations succeed ([JSON_ERR_OUTOFMEMORY] is never raised); offsets ([size_t]) and the value counter do not wrap around 2^64; line and column numbers ([unsigned]) do wrap around 2^32. The pointer handed to the callback is modelled by the bytes it points to.
* **JsonDump.v**: Printing JSON, and reading numbers back: src/json/centijson_sax.c 1015-1172, 1245-1483; src/kv.c 383-478 Bytes are [Z]. A read outside of the text of a number, a write outside of a buffer and a signed overflow are undefined behaviour: [None]. Doubles are left out (json_number_to_double, json_dump_double). A printing function hands its output piece by piece to a function of the caller; what it hands over does not depend on what that function returns, except that it stops at the first negative code, so a printing function is modelled by the list of its pieces ([emit] hands them over).
* **Convert.v**: Numbers and durations in configurations: src/json/load_config.c 154-326, 366-424 The C library's strtoul/strtoull/strtol/strtoll with base 0 are modelled after C11 7.22.1.4 (and glibc, which leaves errno alone when nothing is converted), for a 64-bit long (LP64). Memory is the list of the bytes that may be read from the pointer on; running off its end is undefined behaviour ([None]).
* **Dict.v**: JSON dictionaries: src/json/centijson_value.c 105-144 and 1056-1821, over explicit memory. A dictionary is a red-black tree of nodes linked by pointers, with (optionally) a doubly linked list of the nodes in the order of their addition. Pointers are [option addr]; dereferencing NULL, freed or never allocated memory, and writing behind the end of a path array, are undefined behaviour ([UB]). The items' values are opaque ([None] is the fresh "new" null of json_value_init_new); destroying keys and values is taken to succeed.
* **Dom.v**: JSON documents as values: src/json/centijson_dom.c 85-690. A JSON_VALUE is a tree; a pointer to a JSON_VALUE inside of the document is the way to it from the root. A dictionary is its items in the order of addition (DictProps.v: the red-black tree of centijson_value.c behaves as such a list) and has the default comparison; an array is the list of its elements. A pointer that leads nowhere, and a read outside of the array of open containers, are undefined behaviour. Left out: failing allocations, json_value_fini (taken to succeed), memory that is not freed, the bits of floating point numbers (a double is the text it was made from).
* **Arrays.v**: JSON arrays: src/json/centijson_value.c 862-1054, over explicit memory. A block of memory is the list of its cells of 16 bytes (a JSON_VALUE); reading a cell that was never written, touching a cell outside of the block or a block that was freed, is undefined behaviour. Sizes and indices are size_t (64 bits, they wrap). Values are opaque ([None] is the "new" null of json_value_init_new); destroying a value is taken to succeed.
* **Session.v**: Loading a configuration: the session around the parser, src/json/load_config.c 1697-2035 wolfsentry_config_json_init_ex, _feed, _fini and _oneshot_ex, with the parser of Json.v. What the calls do to the contents of a context is left open (a record of arbitrary functions, each with its return code), so that every theorem is for every content, every document and every failure of those calls. Return codes are integers, negative for errors (wolfsentry_errcode_t). Simplified: releasing a lock that is held succeeds (C28); clone and original are distinct contexts (they are separate allocations); json_init cannot fail (its configuration has been checked); the error text is not modelled (C54 is about the position); allocations inside the calls are part of those calls.
* **Loader.v**: What a configuration document does: src/json/load_config.c 56-152, 345-364, 407-1695 json_process, the callback the parser calls for every token of a configuration, and its handlers. The contents of the context ([W]) and the calls made on it are left open (a record of arbitrary functions with their return codes, negative for errors), so the theorems are for every content and every failure of those calls; so are the conversions that ask the system or a user-supplied parser ([cv_address], [cv_family_name], ...), JSON values kept whole ([D], [V], Dom.v has the real ones) and floating-point numbers ([F]). Whole numbers are read by Convert.v, names of flags by Names.v. Simplified: all errors are the same ([Err]) and the contents after an error are not described (Session.v: the caller sees them only if the load was in place); error positions are not modelled (C54 has the parser's); the union o_u_c (110-136) is three separate records, which is the same because it is cleared whenever the object it is used for ends (reset_o_u_c); memcpy of 0 bytes from NULL does nothing; WOLFSENTRY_JSON_VALUE_MAX_BYTES is not defined (the default); all keys that depend on build options (JSON DOM, PROTOCOL_NAMES, GETPROTOBY, IPV6, ADDR_BITMASK_MATCHING) are there (the default).
* **AddrText.v**: Addresses in configurations: src/json/load_config.c 575-745 convert_sockaddr_address with convert_hex_digit and convert_hex_byte. The text is [size] bytes at the beginning of [m], which goes on with whatever else is in the parser's buffer; reading beyond the end of [m] is undefined ([Bad]). inet_pton, which gets a terminated copy, is a function of the text up to the first NUL; so is strtoul, which is spelled out (C11 7.22.1.4, base 0, 64-bit unsigned long, the "C" locale). Address parsers installed by the user are arbitrary functions of context, text and capacity in bits. Simplified: all errors are [Err]; inet_pton's -1 is an error as its 0 is.
* **TrackPeer.v**: The built-in action %track-peer-v1: src/action_builtins.c 33-129 (wolfsentry_builtin_action_track_peer), with src/routes.c 1482-1504 (wolfsentry_route_insert_by_exports_into_table), 1403-1450 (wolfsentry_route_insert_by_exports_2), 1202-1344 (wolfsentry_route_insert_1) and 3485-3491 (wolfsentry_route_reset_metadata_exports). Simplified: no limit on purgeable routes and no stored route that waits for deletion (these are in Purge.v), IDs can be allocated, malloc succeeds, the clock can be read. wolfsentry_route_get_flags and wolfsentry_route_get_addrs (65-83) cannot fail and their results are not used, or are overwritten by wolfsentry_route_export (3568-3580).
* **Config.v**: A whole configuration load: the session of Session.v around json_process of Loader.v src/json/load_config.c 1503-2035. [C] are the contents of a context. The calls made on a context by the session (clone, exchange, flush, ...) and by json_process (insert an event, a route, ...) are arbitrary; the parser, json_process and the session are the models. What a call that json_process gives up on leaves behind, and which error code it reports, is arbitrary too.
* **RouteJson.v**: Routes as JSON: src/routes.c 3693-3780, 3878-4201 wolfsentry_route_format_address, wolfsentry_route_format_json and wolfsentry_route_table_dump_json_start/next/end. The output is what has been written since the beginning of the buffer, and the space that is left of it. Writing outside of the buffer, and everything else that is undefined, is [Overrun]. inet_ntop is a function of the bytes; formatters installed by the user are arbitrary functions; ws_itoa is in Itoa.v. Simplified: the buffers are shorter than 2^31 bytes (3993 and others cast to int); dropping the reference to the address family (3935-3939) succeeds; locking and the allocation of the cursor (4137-4141) are left out.
* **Lwip.v**: The packet filters that wolfSentry installs in lwIP: src/lwip/packet_filter_glue.c, all of it, with the dispatchers that lwip/LWIP_PACKET_FILTER_API.patch adds to lwIP. Not modelled: the debugging output, and lwIP itself except for what the patch adds. An address is its bytes.
* **RouteMem.v**: Routes as blocks of memory: src/routes.c 548-569, 571-640, 639-759, 784-929, 947-1000, 1007-1055, 1114-1180, 2732-2743, 3269-3283, 3412-3455 with src/wolfsentry_internal.h 352-402. A route is a struct followed by bytes: private data, remote address, local address. The fields of the struct are a record here and the bytes a list: the bytes from [data] to the end of the allocation. Reading or writing outside of them is UB. [off] is offsetof(struct wolfsentry_route, data), which is sizeof(struct wolfsentry_route) when the array at its end is flexible. Counters, times and list links are left out (they are in the fixed part), and so are extra ports, which no code makes (706, 710). Sizes of private data of 2^31 bytes and more are left out (the cast to int at 991).
* **Thread.v**: Thread contexts: identities, deadlines, read-only mode (src/wolfsentry_util.c 786-971, src/wolfsentry_internal.h 72-97). wolfsentry_thread_id_t is an unsigned 64-bit word (pthread_t on Linux), arithmetic on it is modulo 2^64; the word WOLFSENTRY_THREAD_NO_ID is 0. Callers run concurrently: a call is one step, or two where the code does two accesses of the shared counter. Allocation (wolfsentry_alloc_thread_context, 814-826) is initialisation of a fresh block, and wolfsentry_free_thread_context (894-903) is destruction followed by the release of the block; a failed malloc is not modelled. The lock counts of a context are written by the lock code (RwLock.v); here any values may be put there.
* **Align.v**: Aligned allocation by the library's own allocators: src/wolfsentry_util.c 569-604 (FreeRTOS) and 669-720 with WOLFSENTRY_NO_POSIX_MEMALIGN (hosts without posix_memalign). Addresses and sizes are 64-bit words (uintptr_t, size_t). The underlying allocator answers with the address of a block of as many bytes as it was asked for. WOLFSENTRY_MALLOC_DEBUG is off.
* **Ticks.v**: Timed waits on FreeRTOS: src/wolfsentry_util.c 764-774, 1118-1394. TickType_t is 32 bits wide, time_t 64, [hz] is configTICK_RATE_HZ. Signed overflow is [None]. NULL arguments other than the deadline are not modelled.
* **Reputation.v**: The reputation counters of a route through the API: src/routes.c 3334-3410 (wolfsentry_route_increment_derogatory_count, _increment_commendable_count, _reset_derogatory_count, _reset_commendable_count), in the thread-safe build. The counters are uint16_t; the two pairs of functions differ in the counter only, so one counter is modelled. The compare-and-swap loops are those of Atomic.v.
* **Scalar.v**: JSON values that hold no other values, as bytes: src/json/centijson_value.c 90-95, 162-312, 361-541, 625-766, 822-858, 1061-1065. A JSON_VALUE is 16 bytes: the first one is the type with marks, the others ([v_in]) hold the value, or (the last eight of them) a pointer to a block of memory ([v_block]) that does; the bytes that the pointer overwrites are not kept track of, as they are not read while there is a block. Access outside of the 15 bytes or of the block is undefined ([None]), and so is a shift by 64 or more. Fresh memory holds anything. Numbers are stored little-endian. Sums of sizes do not wrap around 2^64. Values of types FLOAT and DOUBLE are left out, and so are arrays and dictionaries (Arrays.v, Dict.v).
* **JsonPath.v**: Getting at values by their path: src/json/centijson_value.c 315-352 (json_value_path), with 893-902 (json_value_array_get) and 1197-1216 (json_value_dict_get_), over the values of Dom.v (a pointer to a value inside of a document is the way to it). A pointer into the text of the path is the list of the bytes that may be read from it on; running off its end is undefined ([None]). size_t is 64 bits wide. Dictionaries have the default comparison.
* **JsonClone.v**: Copying JSON values: src/json/centijson_value.c 1823-1972 (json_value_clone), with 165-204 (json_value_init_ex), 546-620 (json_value_init_array, json_value_init_dict_ex), 625-662 (json_value_fini), 873-891 (json_value_array_realloc) and 1357-1442 (json_value_dict_get_or_add_), when the allocator may refuse. A value is a tree. The members of a dictionary are in the order of the walk over it: the order of addition if it is kept, the order of the keys otherwise (C59: the red-black tree behaves as such a list, and adding the keys in that order gives the same one; the keys of a dictionary differ, so that each of them is added). A value that is still marked new is a null here, as its copy is. Floating-point numbers are left out. [Uninit] is memory that was never written: looking at it is undefined ([None]).
* **Strings.v**: The texts for result codes: src/wolfsentry_util.c 28-302, with the identifiers of wolfsentry/wolfsentry_errcodes.h 369-384 and 393-449. The three arrays of user texts are the state. [None] stands for an access behind or before the end of an array. A text is the string it points to, and [Null] a null pointer; the caller keeps the strings valid, as the header says.
* **EventClone.v**: The references between the objects of a cloned context: src/wolfsentry_internal.c 71-99 (wolfsentry_table_clone_map), 101-212 (wolfsentry_table_clone, for the tables of actions and events), 459-476 (wolfsentry_table_ent_get), src/events.c 126-166 (wolfsentry_event_clone_bare), 172-259 (wolfsentry_event_clone_resolve), src/actions.c 100-125 (wolfsentry_action_clone), 179-214 (wolfsentry_action_delete), 436-484 (wolfsentry_action_list_clone) and wolfsentry_internal.c 478-527 for the deletion. Objects are addresses in a store; a table is the list of the addresses in it, in order. Of an action, its label and its handler (with its argument); of an event, its label, its six lists of actions and its auxiliary event; of both, the reference count, here without an upper bound. Allocation succeeds; IDs, flags and configurations are the subject of C36; locks that of C46.
* **Init.v**: Starting a context: src/wolfsentry_util.c 431-461 (build settings), 3476-3733 (wolfsentry_init and what it calls), with src/routes.c 639-656, 947-998, 1066-1095 (the fallthrough route), 4671-4686 (wolfsentry_route_table_free), src/action_builtins.c 135-151 and src/actions.c 73-98, 128-165 (the built-in action), src/wolfsentry_util.c 2978-3000 (lock_have_mutex). The build of the library is given by its own settings: bit 2 of the configuration says whether it is thread-safe, bit 3 whether it has a built-in clock, bit 4 a built-in allocator, bit 6 names of protocols. WOLFSENTRY_SHORT_ENUMS is not defined by the user (441-444).
* **Sems.v**: The semaphores of a lock, from its making to its end: src/wolfsentry_util.c 1477-1562 (wolfsentry_lock_init, wolfsentry_lock_alloc), 1591-1672 (wolfsentry_lock_destroy, wolfsentry_lock_free). The other threads are quiet during these calls. sem_trywait is repeated on EINTR (1603-1605) and fails with EAGAIN on zero. The arguments are not NULL and the thread is absent or initialised. What a lock does in between is RwLock.v.
* **EventCloneNames.v**: C78, for contexts whose events may refer to objects that have left the tables: what a successful clone still guarantees.
* **RouteRefs.v**: The references of cloned routes to their parent events: src/routes.c 1114-1188 (wolfsentry_route_clone, 1168-1180), called for each route by src/wolfsentry_internal.c 173-197 (wolfsentry_table_clone) after the events have been cloned (src/wolfsentry_util.c 3881-3966), in the store of EventClone.v. A table of routes is the list of its routes' parent events, in order. Allocation succeeds; what else a route holds is the subject of C36 and C69. After a failure the routes made so far are given back with their table.

Only lemmas (no model of code): `TableHist.v`, `TableCount.v`, `LookupMatch.v`, `LookupStart.v`, `LookupFacts.v`, `LookupBitmask.v`, `RouteTableHist.v`, `DispatchEffect.v`, `RwLockInv.v`, `RwLockTac.v`, `RwLockSteps.v`, `RwLockReach.v`, `RwLockReach2.v`, `RwLockUnl.v`, `PurgeSteps.v`, `PurgeLog.v`, `PurgeUse.v`, `PurgeCheck.v`, `CloneSim.v`, `JsonText.v`, `JsonChunks.v`, `JsonLength.v`, `JsonStrings.v`, `JsonNumbers.v`, `JsonComplete.v`, `JsonGrammar.v`, `JsonStringInv.v`, `JsonTail.v`, `JsonSound.v`, `JsonDumpStrings.v`, `JsonPos.v`, `JsonNest.v`, `JsonLimits.v`, `DictTree.v`, `DictInsert.v`, `DictRemove.v`, `DictSwap.v`, `DictOps.v`, `DictHold.v`, `DictSteps.v`, `DictWalk.v`, `DomMeaning.v`, `DomDump.v`, `DomRound.v`, `LoaderEvents.v`, `LoaderRoutes.v`, `LoaderValues.v`, `LoaderDoc.v`, `LoaderSafe.v`, `RouteJsonAddr.v`, and all `*Proofs*.v`.

## 5. What is not modelled
* `examples/`, `tests/`, `scripts/`, `ports/`, `wolfssl_test.h` and the build system.
* wolfsentry_util.c: call-depth and debugging macros, the malloc wrappers but for the aligned ones (C71), WOLFSENTRY_MALLOC_DEBUG,
  the semaphore shims for Darwin (995-1075) and the FreeRTOS ones other than the timed wait (C72), `posix_memalign`.
* wolfsentry_util.c 3773-3851 (flushing, freeing and shutting down contexts) but for the cleanup hooks, the sessions of `Session.v` and
  the lock skeletons (C46).
* Floating point throughout (json_number_to_double,
  json_dump_double, the bits of doubles in user values but for the comparison in C33).
* Build variants: the single-threaded macros, WOLFSENTRY_SHORT_ENUMS, no C99 flexible arrays, no JSON DOM, no bitmask matching.
* Failing allocations, unless the header of the file says that they are modelled.
* The scheduler, the C library, the compiler and the hardware's memory model.

## 6. Testing the theorems
`seeded/LOG.jsonl` has one line per wrong program: the definition edited, the edit, the claim it breaks, the theorems that then fail,
and those that had to be tightened because they still held. Edits marked harmless do not change any claim.

## 7. Print Assumptions
"Closed under the global context" for all of:

* C01: `C01_tables_sorted`, `C01_failed_creation_no_effect`
* C02: `C02_tables_are_maps`, `C02_change_counters`
* C03: `C03_pointers_safe`, `C03_iteration_reversible`
* C04: `C04_ids_unique`
* C05: `C05_list_history_refuted`, `C05_insert_after_tail_refuted`, `C05_list_history_partial`, `C05_prepend`, `C05_append`, `C05_delete`, `C05_insert_before_partial`, `C05_insert_after_partial`
* C06: `C06_dictionary_order`, `C06_strict_total_order`, `C06_table_orders`
* C07: `C07_zero_iff_same_key`, `C07_antisymmetric_transitive`, `C07_route_table_order`, `C07_init_well_formed`, `C07_wildcarded_values_irrelevant`, `C07_route_table_sorted`
* C08: `C08_prefix_match_exact`, `C08_prefix_match_partial`, `C08_prefix_match_refuted`
* C09: `C09_bitmask_match`, `C09_bitmask_normalised`
* C10: `C10_found_route_applies_partial`, `C10_penalty_box_exclusion_refuted`
* C11: `C11_no_miss_partial`, `C11_no_miss_bitmask_family_partial`, `C11_found_partial`, `C11_never_misses_refuted`
* C12: `C12_fewest_ignored_fields_partial`, `C12_longest_prefix_refuted`, `C12_bitmask_ties_partial`, `C12_longest_mask_refuted`
* C13: `C13_terminates_partial`, `C13_terminates_family_wild_partial`, `C13_terminates_refuted`, `C13_clone_terminates_refuted`
* C14: `C14_boxed_rejected`, `C14_greenlisted_accepted`, `C14_threshold_beats_greenlist`, `C14_not_both`, `C14_boxed_plain`, `C14_greenlisted_plain`
* C15: `C15_connection_count_partial`, `C15_all_histories_partial`, `C15_zero_is_unlimited_refuted`, `C15_no_wrap_refuted`, `C15_rejected_not_counted_refuted`
* C16: `C16_threshold`, `C16_plain`
* C17: `C17_box_expires`, `C17_unlimited_box`, `C17_box_expires_refuted`, `C17_plain`
* C18: `C18_no_route`, `C18_undecided_route`, `C18_decided_keeps`, `C18_plain`
* C19: `C19_update_flags`, `C19_refusals`
* C20: `C20_actions_at_most_once`, `C20_delete_actions_exactly_once`, `C20_insert_actions_run`
* C21: `C21_delete_deferred_partial`, `C21_reinsertion_revives_partial`, `C21_removed_with_last_connection_refuted`
* C22: `C22_purges_only_expired`, `C22_purge_exact_partial`, `C22_full_purge_complete_partial`, `C22_plain_full_purge_partial`, `C22_connected_never_purged_refuted`, `C22_nothing_expired_left_refuted`
* C23: `C23_calm_histories_return_partial`, `C23_plain_histories_return_partial`, `C23_blocked_purge_hangs`, `C23_purge_returns_refuted`, `C23_no_use_after_free_refuted`
* C24: `C24_insert_within_limit_partial`, `C24_limit_kept_partial`, `C24_plain_limit_partial`, `C24_limit_enforced_refuted`, `C24_refused_insertion_purges_nothing_refuted`
* C25: `C25_linearizable`, `C25_counters_exact`, `C25_reports`, `C25_no_blocking`
* C26: `C26_alive_iff_referenced_partial`, `C26_drop_frees_last_partial`, `C26_overflow_refused`, `C26_underflow_refused`, `C26_use_after_free_refuted`, `C26_cycle_leak_refuted`
* C27: `C27_mutual_exclusion_partial`, `C27_timed_refuted`
* C28: `C28_unlock_succeeds_partial`, `C28_answers_truthful_partial`, `C28_destroy_partial`, `C28_timed_refuted`, `C28_destroy_timed_refuted`
* C29: `C29_no_deadlock_partial`, `C29_readers_wait_for_writers_partial`, `C29_timed_refuted`
* C30: `C30_reservation_exclusive_partial`, `C30_redeem_outcome_partial`, `C30_promotion_waits_only_for_readers_partial`, `C30_try_redeem_partial`, `C30_timed_refuted`
* C31: `C31_in_order`, `C31_exactly_the_enabled`, `C31_at_most_once`, `C31_inhibited`, `C31_refused`, `C31_insert_actions_once`, `C31_hits`, `C31_error_bit_refuted`
* C32: `C32_lists_partial`, `C32_removed`, `C32_insert_after_last_refuted`, `C32_label_twice_refuted`
* C33: `C33_typed_map_partial`, `C33_store_then_get_partial`, `C33_overwrite_failure_refuted`, `C33_negative_zero_refuted`
* C34: `C34_json_get_refuted`, `C34_string_as_json_refuted`, `C34_json_stored_partial`
* C35: `C35_history`, `C35_inverse_partial`, `C35_held_family_alive`, `C35_builtin_partial`, `C35_builtin_refuted`, `C35_install_allocation_failure_refuted`, `C35_builtin_names`, `C35_widths_partial`, `C35_widths_refuted`
* C36: `C36_clone_behaves_as_original`, `C36_clone_error_reported`, `C36_success_is_complete`, `C36_family_clone_refuted`, `C36_route_clone_behaves_as_original_partial`, `C36_route_clone_refuted`, `C36_route_header_cloned`, `C36_idle_time_refuted`
* C37: `C37_exchange_swaps`, `C37_metadata_carried_over_partial`, `C37_exchange_twice_partial`, `C37_metadata_unrelated_refuted`, `C37_hit_counts_refuted`
* C38: `C38_decode_memory_safe`, `C38_decode_within_space`, `C38_decode_encode_padded`, `C38_decode_encode_unpadded`, `C38_bufspc_exact`, `C38_junk_ignored`, `C38_malformed_rejected_refuted`, `C38_strict_partial`
* C39: `C39_itoa_exact`, `C39_decimal_unique`
* C40: `C40_time_roundtrip`, `C40_time_overflow_refused_refuted`, `C40_from_epoch_partial`, `C40_add_diff`
* C41: `C41_check_partial`, `C41_contradictions_refused`, `C41_size_overflow_refuted`, `C41_load_get`, `C41_update_get_partial`, `C41_update_refused`, `C41_update_private_data_refuted`, `C41_init_partial`, `C41_init_padding_refuted`, `C41_event_update_null_refuted`, `C41_event_update_get`
* C42: `C42_lifo_history`, `C42_registering_handlers`, `C42_all_exactly_once`, `C42_popping_handler_refuted`, `C42_reregistering_refuted`
* C43: `C43_errcode_roundtrip`, `C43_errcode_recode`, `C43_errcode_any_value`
* C44: `C44_bitmask_families_exact_partial`, `C44_bitmask_families_exact_refuted`
* C45: `C45_export_rebuilds_partial`, `C45_private_data_partial`, `C45_export_inserts_partial`, `C45_hits_and_times_refuted`, `C45_private_data_refuted`, `C45_import_crash_refuted`, `C45_forced_bitmask_refuted`, `C45_flag_updates_as_C19`
* C46: `C46_balanced_calls_partial`, `C46_flawed_calls_partial`, `C46_clone_partial`, `C46_json_init_partial`, `C46_json_fini_partial`, `C46_shutdown_partial`, `C46_event_get_config_refuted`, `C46_event_update_config_refuted`, `C46_event_set_aux_event_refuted`, `C46_dispatch_by_id_refuted`, `C46_event_action_list_start_refuted`, `C46_release_not_taken_refuted`, `C46_shutdown_refuted`, `C46_action_list_clone_refuted`
* C47: `C47_flag_round_trip`, `C47_name_round_trip`, `C47_flag_names`, `C47_embedded_nul_refuted`, `C47_res_round_trip`, `C47_res_name_round_trip`, `C47_res_names`
* C48: `C48_prefix_cmp_safe`, `C48_bitmask_cmp_safe_partial`, `C48_prefix_score_safe`, `C48_bitmask_score_safe_partial`, `C48_bitmask_score_refuted`
* C49: `C49_refused_insert_changes_nothing_partial`, `C49_failed_actions_remove_route_partial`, `C49_failed_insert_leaves_no_trace_refuted`
* C50: `C50_auto_downgrade_refuted`, `C50_unlock_keeps_mutex_partial`
* C51: `C51_private_data_partial`, `C51_private_data_after_update_refuted`
* C52: `C52_chunking_irrelevant`, `C52_too_long_refused`
* C53: `C53_wellformed_accepted`, `C53_wellformed_pieces_accepted`, `C53_accepted_is_beginning`, `C53_accepted_is_wellformed_partial`, `C53_accepted_iff_partial`
* C54: `C54_position_partial`, `C54_located`, `C54_callback_located_refuted`, `C54_columns_refuted`, `C54_value_position_refuted`, `C54_too_long_refuted`
* C55: `C55_limits_hold`, `C55_wolfsentry`, `C55_nesting_stack`, `C55_fix_flag_refuted`
* C56: `C56_integers_exact_partial`, `C56_uint64_naturals_partial`, `C56_uint64_refuted`, `C56_strings_partial`, `C56_safe_partial`, `C56_strings_refuted`, `C56_duration_sound_partial`, `C56_duration_partial`, `C56_duration_refuted`
* C57: `C57_effect_partial`, `C57_histories_partial`, `C57_both_observations_refuted`, `C57_refused_target`, `C57_clock_failure`, `C57_fallthrough_partial`, `C57_fallthrough_flags_refuted`
* C58: `C58_integers_printed`, `C58_numbers_classified`, `C58_integers_read`, `C58_integers_back`, `C58_strings_printed`, `C58_strings_back`, `C58_strings_only_utf8`, `C58_render_partial`, `C58_render_refuted`
* C59: `C59_map`, `C59_walks`, `C59_default_order`, `C59_add_used_refuted`, `C59_walk_nonzero_refuted`, `C59_too_many_refuted`
* C60: `C60_read_partial`, `C60_refused`, `C60_only_json_partial`, `C60_written_partial`, `C60_back_partial`, `C60_same_back_partial`, `C60_use_first_refuted`, `C60_long_number_refuted`, `C60_indent_refuted`, `C60_infinite_refuted`
* C61: `C61_list_partial`, `C61_memory_partial`, `C61_remove_only_refuted`, `C61_remove_range_refuted`
* C62: `C62_dry_run`, `C62_commit_success`, `C62_commit_failure_partial`, `C62_in_place`, `C62_document`, `C62_pieces`, `C62_after_failure`, `C62_feed_answers`, `C62_release_partial`, `C62_commit_refuted`, `C62_inhibited_refuted`, `C62_release_refuted`
* C63: `C63_meaning`, `C63_loaded_partial`, `C63_version_first`, `C63_only_values`, `C63_safe_partial`, `C63_undefined_refuted`, `C63_config_update_lists_refuted`, `C63_truncated_refuted`
* C64: `C64_mac_only`, `C64_mac_partial`, `C64_can`, `C64_accepted`, `C64_fits`, `C64_mac_refuted`, `C64_can_empty_refuted`
* C65: `C65_stored_target`, `C65_tracks_partial`, `C65_added`, `C65_deleted_event_refuted`, `C65_observation_counted_refuted`
* C66: `C66_committed`, `C66_refused`, `C66_dry_run`, `C66_in_place`, `C66_defined`, `C66_only_documents_partial`, `C66_truncated_refuted`
* C67: `C67_dump_partial`, `C67_roundtrip_partial`, `C67_addresses_partial`, `C67_too_small_is_undone`, `C67_in_the_buffer`, `C67_overrun_refuted`, `C67_too_small_refuted`, `C67_long_address_refuted`, `C67_protocol_refuted`, `C67_changed_refuted`, `C67_link64_refuted`
* C68: `C68_once`, `C68_verdict`, `C68_unasked`, `C68_fail_open_refuted`, `C68_boxed`, `C68_connection_limit`, `C68_room`, `C68_stray_segments_refuted`, `C68_boxed_attempt_refuted`, `C68_install`, `C68_install_failure`, `C68_install_succeeds`, `C68_mutex_partial`, `C68_cleanup`, `C68_mutex_refuted`, `C68_other_context_refuted`
* C69: `C69_new`, `C69_new_refines`, `C69_read`, `C69_target`, `C69_clone`, `C69_clone_target`, `C69_clamp`, `C69_wildcard_partial`, `C69_wildcard_in_table`, `C69_wildcard_refuted`, `C69_wildcard_example_refuted`, `C69_private`, `C69_free`, `C69_exports`, `C69_default_event_refuted`, `C69_clone_other_refuted`, `C69_clone_widened_refuted`
* C70: `C70_ids_partial`, `C70_nested`, `C70_nested_no_drift`, `C70_ids_refuted`, `C70_wind_back_refuted`, `C70_busy`, `C70_destroyed`, `C70_others`, `C70_deadline_relative`, `C70_deadline_absolute`, `C70_deadline_clear`, `C70_deadline_before_epoch_refuted`, `C70_initialised`, `C70_starts_again`, `C70_readonly`, `C70_readwrite`
* C71: `C71_aligned_partial`, `C71_null`, `C71_large_refuted`, `C71_not_power_refuted`, `C71_huge_refuted`, `C71_room_refuted`
* C72: `C72_not_early_partial`, `C72_not_late_partial`, `C72_taken_partial`, `C72_try`, `C72_invalid`, `C72_far_refuted`, `C72_forever_refuted`, `C72_overflow_refuted`, `C72_late_refuted`
* C73: `C73_counters_partial`, `C73_zero_refuted`, `C73_min_refuted`
* C74: `C74_string`, `C74_string_memory`, `C74_integer`, `C74_bool`, `C74_null`, `C74_wrong_type`
* C75: `C75_path_partial`, `C75_safe`, `C75_adjacent_refuted`, `C75_negative_refuted`, `C75_wraps_refuted`, `C75_trailing_refuted`
* C76: `C76_copy_partial`, `C76_success_partial`, `C76_lost_refuted`, `C76_garbage_refuted`, `C76_destroys_garbage_refuted`, `C76_empty_refuted`
* C77: `C77_register`, `C77_error_partial`, `C77_success_partial`, `C77_success_refuted`, `C77_source`, `C77_library`, `C77_library_sources`, `C77_safe`
* C78: `C78_clone_partial`, `C78_deleted_refuted`, `C78_replaced_refuted`, `C78_names`, `C78_deleted`, `C78_success`
* C79: `C79_settings`, `C79_refused`, `C79_started_partial`, `C79_configuration_partial`, `C79_failed_partial`, `C79_abandoned`, `C79_leak_refuted`, `C79_big_area_refuted`, `C79_cut_area_refuted`, `C79_duration_refuted`
* C80: `C80_init`, `C80_init_failed_partial`, `C80_init_leaks`, `C80_init_refuted`, `C80_alloc`, `C80_free`, `C80_destroyed`, `C80_in_use`, `C80_unmade`, `C80_left_over_refuted`
* C81: `C81_routes`, `C81_success`
