#!/usr/bin/env python3
"""Writes DESIGN.md: the hand-written parts below, and the inventory of the model taken from the header comments."""
import json,os,re
root=os.path.dirname(os.path.dirname(os.path.abspath(__file__)))
T=root+'/rocq/theories/'
files=[l.strip().split('/')[-1] for l in open(root+'/rocq/_CoqProject') if l.strip().endswith('.v')]
props={}
for l in open(root+'/properties.jsonl'):
    d=json.loads(l); props[d['id']]=d
man={c['property']:c for c in json.load(open(root+'/MANIFEST.json'))['claims']}
where={}
for f in files:
    if f.endswith('Props.v'):
        for m in re.finditer(r'^\s*(?:Theorem|Corollary)\s+(C\d\d)_\w+',open(T+f).read(),re.M):
            where.setdefault(m.group(1),[])
            if f not in where[m.group(1)]: where[m.group(1)].append(f)
rows={}
def r(ids,code,how):
    for i in ids.split(): rows[i]=(code,how)
r("C01 C02","table insert/get/delete and cursors (wolfsentry_internal.c) over explicit memory","tables parametrised by a total preorder; every history of calls refines a finite map (TableSpec.v), by induction over the history")
r("C03","the same functions; NULL and dangling pointers are the outcome UB","representation invariant (both link pairs spell the sequence); every step keeps it, so no history reaches UB")
r("C04","wolfsentry_id_allocate, insert_by_id, get_by_id, delete_by_id_1","invariant over histories, with the counter modulo 2^32 and with an arbitrary ID callback")
r("C05","the list macros and functions of wolfsentry_ll.h","refinement to list operations; witnesses for the head and tail links that are not reset")
r("C06","the four label/key comparison functions","total order laws against lexicographic order; reads are bounds-checked")
r("C07","wolfsentry_route_key_cmp_1","order laws over all routes that initialisation can make")
r("C08 C09","cmp_addrs_prefixful, cmp_addrs_bitmaskful","bit-level specification; exact characterisation of what the code computes; witnesses where that differs from the claim")
r("C10 C11 C12 C13","wolfsentry_route_lookup_0/_1, compare_match_exactness, with the auxiliary fields of the table","loop invariant of the scan, history invariants of the table; the parts that are false by concrete reachable tables")
r("C14 C15 C16 C17 C18","wolfsentry_route_event_dispatch_0/_1","case analysis over all inputs with arbitrary action callbacks; C15 and C17 by induction over histories of dispatches")
r("C19","wolfsentry_route_update_flags_1","bitwise")
r("C20 C21 C22 C23 C24","insert_1, delete_0, stale_purge_1, purge_list_insert, flush and bulk calls; the purge list at pointer level","invariants over histories (PurgeSpec.v defines the calm, neat, plain and thrifty ones); what fails outside them by witnesses")
r("C25","the WOLFSENTRY_ATOMIC_* compare-and-swap loops","interleaving semantics for any number of threads; every execution refines a sequential one")
r("C26","checkout and drop of actions, events, routes, values, families","history invariant: count = number of holders")
r("C27 C28 C29 C30 C50","wolfsentry_lock_* (wolfsentry_util.c 1477-3036)","transition system with any number of threads, one step per critical section; one inductive invariant (RwLockInv.v); timed waits refuted by traces")
r("C31","wolfsentry_action_list_dispatch","induction over the list, arbitrary handlers")
r("C32","wolfsentry_action_list_* and wolfsentry_event_action_*","pointer level with reference counts, refinement to ordered sets over histories")
r("C33 C34","kv.c","refinement to a typed map over histories; C34 by witness")
r("C35","addr_families.c","refinement to a pair of inverse maps over histories; built-in names by a sweep of the finite table lifted to all names")
r("C36","table_clone, coupled_table_clone, route table header","the clone simulates the original for every later history (CloneSim.v)")
r("C37","wolfsentry_context_exchange, copy_metadata","functional, arbitrary contexts")
r("C38","wolfsentry_base64_decode","induction over the loop; memory as bounded arrays")
r("C39","ws_itoa","induction over the digits")
r("C40","the built-in time conversions","arithmetic with overflow as an outcome")
r("C41 C51","eventconfig_check/load/return, private data accessors","case analysis, 64-bit arithmetic with wraparound")
r("C42","cleanup hook calls","explicit memory, induction over histories; handlers described by the calls they make")
r("C43","the error code macros","arithmetic over all fields")
r("C44 C49","insertion and deletion with the auxiliary fields of the route table","history invariants")
r("C45","route_export, init_by_exports, insert_by_exports","round trip for every route reachable in a table")
r("C46","lock/unlock skeletons of about ninety functions","a small language of lock effects with nondeterministic conditions; a checker for balance proved sound over all paths, run on every skeleton")
r("C47","flag and result name tables","sweep of the finite tables lifted to all 32-bit words and all names")
r("C48","comparison and scoring of addresses","bounds-checked reads")
r("C52","the SAX parser, centijson_sax.c","feeding is a fold over bytes: any two ways to cut a document give the same callbacks and result")
r("C53","the same","grammar as an inductive definition (JsonSpec.v); completeness by induction over derivations, soundness by an invariant that relates automaton states to the rest of a derivation")
r("C54 C55","the same","invariants over all bytes: position counters, buffer and nesting limits, for arbitrary callbacks")
r("C56","number and duration conversion of load_config.c with strtoul & co. spelled out","arithmetic, induction over digits")
r("C57","a whole dispatch (lookup, counters, flags, results)","exact state transformer (DispatchSpec), by cases; histories by induction")
r("C58","json_dump_*, json_number_to_*, kv rendering","induction over digits and characters; reading back composed with the parser's automata")
r("C59","centijson_value.c dictionaries over explicit memory","representation of red-black trees by zippers; every operation refines an association list; colours and balance as invariants")
r("C60","centijson_dom.c","meaning of a document as a tree (DomSpec.v); the callback fold computes it; dump then parse is the identity")
r("C61","centijson_value.c arrays over explicit memory","refinement to lists over histories")
r("C62","wolfsentry_config_json_init_ex/feed/fini/oneshot_ex","functional over arbitrary contents and outcomes of the calls made")
r("C63","json_process and its handlers in load_config.c","the fold over tokens equals a denotational meaning of the document (LoaderSpec.v)")
r("C64","convert_sockaddr_address","grammar of addresses; bounds-checked reads")
r("C65","%track-peer-v1 with insertion by exports","functional composition with the route table model")
r("C66","composition of Session, Json, Loader","from the theorems of C52, C53, C62, C63")
r("C67","route_format_json, route_table_dump_json_*","exact text and space; composition with the parser and C63 for the way back")
r("C68","lwip/packet_filter_glue.c and the dispatchers of the lwIP patch","case analysis per layer and reason; histories of connections by induction; composition with C14")
r("C69","routes as blocks of bytes","bounds-checked bytes; refinement to the layout-free model")
r("C70","thread contexts and the fallback ID counter","interleavings of any number of threads as histories of atomic accesses; invariant over histories")
r("C71","the two hand-made memalign functions","64-bit arithmetic with wraparound, all sizes and addresses")
r("C72","sem_timedwait shim for FreeRTOS, timespec arithmetic","arithmetic with overflow as an outcome; the wait as a relation between deadline and tick count")
r("C73","increment/reset of derogatory and commendable counts","invariant over interleavings on top of Atomic.v")
exec(open(root+'/tools/design_rows.py').read())
out=[]
w=out.append
w("""# wolfSentry in Rocq: design

Generated by `tools/design.py` (plan and lists below are written by hand there; the inventory of section 4 is copied from the
header comments of the model files, so that it cannot differ from them).

## 1. Layout
* `properties.jsonl`: the English properties (from `tools/props.py`).
* `rocq/theories/<Area>.v`: executable Gallina model of the code, no proofs; each definition cites the file and lines of `/repo`
  it models and names its simplifications.
* `rocq/theories/<Area>Spec.v`: the vocabulary the theorems are stated in, independent of the model's helpers.
* `rocq/theories/<Area>Proofs.v` and the files called lemmas in section 4: proofs.
* `rocq/theories/<Area>Props.v`: only the property theorems, `Print Assumptions` for each, and `Example`s: concrete, non-trivial
  cases that meet the hypotheses.
* `MANIFEST.json`: property -> theorems, with what is proved, what is missing and what is false (from `tools/claims.py`).
* `seeded/LOG.jsonl`: wrong programs tried against the theorems.

Naming of theorems: `Cnn_..._refuted`: that part of the English statement is false of the model and, by reading the cited lines,
of the code; the theorem exhibits a reachable witness. `Cnn_..._partial`: weaker than the English statement; the comment above it
and the note in MANIFEST.json say what is missing. All other theorems `Cnn_...` state (a part of) the property in full.
A property is `proved` only if no part of it is missing or false.

## 2. Plan per property

| | Property | Modelled code | Method | Theorems in |
|---|---|---|---|---|""")
for i in sorted(props):
    code,how=rows[i]
    w("| %s (%s) | %s | %s | %s | %s |"%(i,man[i]['status'],props[i]['title'],code,how,' '.join('`%s`'%f for f in where.get(i,[]))))
n=sum(len(c['theorems']) for c in man.values())
w("""
## 3. Trusted base
* Coq 8.16.1's kernel, including its virtual machine (`vm_compute` in some examples, witnesses and finite sweeps). No OCaml plugins,
  no kernel checks switched off, no functors or module types.
* `Print Assumptions` answers "Closed under the global context" for each of the %d theorems of MANIFEST.json (section 7 lists them):
  no axioms at all, neither of ours nor of the standard library. (Some files load libraries that contain axioms; no theorem uses them.)
* The reading of the C code: that each definition says what the cited lines do. Nothing checks this but the reader; the citations,
  and the mutations of `seeded/LOG.jsonl`, are there to make it checkable.
* Throughout: an LP64 machine with two's complement and 8-bit bytes, the C library as described by its standard (strtoul, memcmp,
  inet_pton as a function ...), a compiler that does what the standard says, and sequentially consistent memory for the concurrent
  parts (C25, C27-C30, C50, C70, C73). Undefined behaviour is an explicit outcome where the model file says so (memory errors, signed
  overflow); where unbounded integers replace machine words, the header of the file says so.
* The build modelled is the default one: WOLFSENTRY_THREADSAFE, HAVE_JSON with the DOM, PROTOCOL_NAMES, GETPROTOBY, IPv6, address
  bitmask matching; for C68, C71 and C72 the lwIP and FreeRTOS parts.

## 4. What is modelled, and the simplifications of each file
"""%n)
lemma=re.compile(r'^(Table(Hist|Count)|Lookup(Match|Start|Facts|Bitmask)|RouteTableHist|DispatchEffect|RwLock(Inv|Tac|Steps|Reach2?|Unl)|Purge(Steps|Log|Use|Check)|CloneSim|Json(Text|Chunks|Length|Strings|Numbers|Complete|Grammar|StringInv|Tail|Sound|DumpStrings|Pos|Nest|Limits)|Dict(Tree|Insert|Remove|Swap|Ops|Hold|Steps|Walk)|Dom(Meaning|Dump|Round)|Loader(Events|Routes|Values|Doc|Safe)|RouteJsonAddr)\.v$')
helpers=[]
for f in files:
    if re.search(r'(Proofs?\d*|Props|Spec)\.v$',f): continue
    t=open(T+f).read()
    m=re.match(r'\s*(?:(?:Require|From|Import|Open|Set|Local)[^\n]*\n|\s*\n)*\s*\(\*\*(.*?)\*\)',t,re.S)
    head=' '.join(m.group(1).split()).lstrip('* ') if m else ''
    if lemma.match(f) or not m: helpers.append(f); continue
    w("* **%s**: %s"%(f,head))
w("\nOnly lemmas (no model of code): "+', '.join('`%s`'%f for f in helpers)+", and all `*Proofs*.v`.")
w("""
## 5. What is not modelled
* `examples/`, `tests/`, `scripts/`, `ports/`, `wolfssl_test.h` and the build system.
* wolfsentry_util.c: call-depth and debugging macros, the malloc wrappers but for the aligned ones (C71), WOLFSENTRY_MALLOC_DEBUG,
  the semaphore shims for Darwin (995-1075) and the FreeRTOS ones other than the timed wait (C72), `posix_memalign`.
* wolfsentry_util.c 3773-3851 (flushing, freeing and shutting down contexts) but for the cleanup hooks, the sessions of `Session.v` and
  the lock skeletons (C46).
* Floating point throughout (json_number_to_double,
  json_dump_double, the bits of doubles in user values but for the comparison in C33).
* Build variants: the single-threaded macros, WOLFSENTRY_SHORT_ENUMS, no C99 flexible arrays, no JSON DOM, no bitmask matching.
* Failing allocations, unless the header of the file says that they are modelled.
* The scheduler, the C library, the compiler and the hardware's memory model.

## 6. Testing the theorems
`seeded/LOG.jsonl` has one line per wrong program: the definition edited, the edit, the claim it breaks, the theorems that then fail,
and those that had to be tightened because they still held. Edits marked harmless do not change any claim.

## 7. Print Assumptions
"Closed under the global context" for all of:
""")
for i in sorted(props):
    w("* %s: %s"%(i,', '.join('`%s`'%t for t in man[i]['theorems'])))
open(root+'/DESIGN.md','w').write('\n'.join(out)+'\n')
print('DESIGN.md',len(out),'missing',[i for i in props if i not in rows])
