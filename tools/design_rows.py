r("C74","json_value_init_*, getters and json_value_is_compatible for values without members","bytes with checked access; induction over the variable-length length; arithmetic modulo 2^32 and 2^64")
r("C75","json_value_path","induction over the parts of a path; induction over the text for safety")
r("C76","json_value_clone with its allocations, json_value_fini on failure","nested induction over values with an arbitrary allocator")
r("C77","registration and lookup of the texts for result codes","invariant over histories of registrations: each table entry is the first text given")
r("C78","cloning of actions, events, action lists and auxiliary events in a store of objects with reference counts","induction over tables and lists; lookups by label in sorted tables")
r("C79","the comparison of build settings bit by bit, wolfsentry_init with an allocator that grants or refuses each request, the blocks alive and the caller's variable afterwards","bits of N; case analysis over the sequence of requests")
r("C80","the four semaphores of a lock, existing or not, with their counts; a platform whose n-th call succeeds or fails; wolfsentry_lock_init, _alloc, _destroy and _free as sequences of these calls","case analysis over the sequence of calls")
r("C81","the parent events of routes, cloned after the events in the store of C78","induction over the routes; the theorems of C78")
