(** * Which lock operations each API function performs (claim C46)

    Nearly every function of wolfSentry takes the context lock on entry and
    gives it back by hand on every path that leaves the function.  This file
    transcribes, function by function, the part of the control flow that
    matters for the lock: every acquisition, every release, every test of
    whether the lock is held, every call of a function that itself touches
    the lock, every loop and every way out.

    Everything else a function tests (an allocation, a lookup, a parameter,
    the verdict of a user callback) is a named condition that may come out
    either way, so an execution is a path together with the outcome of each
    condition met on it.

    Simplifications, all of them:
    - the state is the number of times the calling thread holds the lock of
      the context ([here]) and of the second context of the functions that
      have one ([there]); shared and exclusive holds count alike, because
      wolfsentry_context_unlock releases one hold of either kind (RwLock.v
      models the lock itself), and promoting a hold keeps the number;
    - an acquisition may fail (it is labelled ["lock"]); a release fails
      exactly when the thread holds nothing (wolfsentry_util.c
      wolfsentry_lock_unlock); semaphore failures are not modelled;
    - "have the lock" may say no to a thread that holds it (it may hold it
      shared where exclusive is asked for, or have another lock tracked) but
      never yes to a thread that holds nothing;
    - user callbacks (action handlers, validators, parsers, cleanup hooks)
      leave the lock as they found it. *)

From Coq Require Import List Bool Arith String.
Import ListNotations.
Open Scope string_scope.

Inductive ctx := Here | There.

(* holds of the calling thread on the two locks *)
Record holds := { here : nat; there : nat }.

Definition get (c : ctx) (s : holds) : nat :=
  match c with Here => here s | There => there s end.
Definition set (c : ctx) (n : nat) (s : holds) : holds :=
  match c with
  | Here => {| here := n; there := there s |}
  | There => {| here := here s; there := n |}
  end.

(** The fragment of C that touches the lock. *)
Inductive stmt :=
| Skip
| Then (a b : stmt)
| If (cond : string) (yes no : stmt)         (* any condition not about the lock *)
| Lock (c : ctx) (failed : stmt)             (* wolfsentry_context_lock_*: fall through, or [failed] *)
| Unlock (c : ctx) (failed : stmt)           (* wolfsentry_context_unlock *)
| Have (c : ctx) (yes no : stmt)             (* wolfsentry_lock_have_* *)
| HeldOnce (c : ctx) (yes no : stmt)         (* lock.holder_count.write == 1 *)
| Call (f : string) (body : stmt) (ok failed : stmt)
| Loop (body : stmt)
| Break
| Return (ok : bool).

Inductive outcome := Falls | Breaks | Returns (ok : bool).

(* the conditions met on the way, in order, with their outcomes *)
Definition trace := list (string * bool).

Inductive runs : stmt -> holds -> trace -> outcome -> holds -> Prop :=
| r_skip : forall s, runs Skip s [] Falls s
| r_break : forall s, runs Break s [] Breaks s
| r_return : forall ok s, runs (Return ok) s [] (Returns ok) s
| r_then : forall a b s t1 s1 t2 o s2,
    runs a s t1 Falls s1 -> runs b s1 t2 o s2 -> runs (Then a b) s (t1 ++ t2)%list o s2
| r_then_out : forall a b s t1 o s1,
    runs a s t1 o s1 -> o <> Falls -> runs (Then a b) s t1 o s1
| r_if_yes : forall c a b s t o s',
    runs a s t o s' -> runs (If c a b) s ((c, true) :: t) o s'
| r_if_no : forall c a b s t o s',
    runs b s t o s' -> runs (If c a b) s ((c, false) :: t) o s'
| r_lock : forall c p s,
    runs (Lock c p) s [("lock", true)] Falls (set c (S (get c s)) s)
| r_lock_failed : forall c p s t o s',
    runs p s t o s' -> runs (Lock c p) s (("lock", false) :: t) o s'
| r_unlock : forall c p s n,
    get c s = S n -> runs (Unlock c p) s [] Falls (set c n s)
| r_unlock_failed : forall c p s t o s',
    get c s = 0 -> runs p s t o s' -> runs (Unlock c p) s t o s'
| r_have : forall c a b s t o s',
    get c s <> 0 -> runs a s t o s' -> runs (Have c a b) s (("have lock", true) :: t) o s'
| r_have_not : forall c a b s t o s',
    runs b s t o s' -> runs (Have c a b) s (("have lock", false) :: t) o s'
| r_once : forall c a b s t o s',
    get c s = 1 -> runs a s t o s' -> runs (HeldOnce c a b) s t o s'
| r_once_not : forall c a b s t o s',
    get c s <> 1 -> runs b s t o s' -> runs (HeldOnce c a b) s t o s'
| r_call : forall f p a b s t1 r s1 t2 o s2,
    runs p s t1 (Returns r) s1 -> runs (if r then a else b) s1 t2 o s2 ->
    runs (Call f p a b) s (t1 ++ (f, r) :: t2)%list o s2
| r_loop_end : forall p s, runs (Loop p) s [] Falls s
| r_loop_again : forall p s t1 s1 t2 o s2,
    runs p s t1 Falls s1 -> runs (Loop p) s1 t2 o s2 -> runs (Loop p) s (t1 ++ t2)%list o s2
| r_loop_break : forall p s t1 s1,
    runs p s t1 Breaks s1 -> runs (Loop p) s t1 Falls s1
| r_loop_return : forall p s t1 r s1,
    runs p s t1 (Returns r) s1 -> runs (Loop p) s t1 (Returns r) s1.

(** ** The macros of wolfsentry_errcodes.h 213-330 *)

Notation "a ;; b" := (Then a b) (at level 60, right associativity).

(* WOLFSENTRY_RETURN_OK / WOLFSENTRY_ERROR_RETURN, _RERETURN of an error *)
Definition OKR := Return true.
Definition ERR := Return false.

(* 243-247, 252-261, 266-275: WOLFSENTRY_MUTEX_OR_RETURN, SHARED_OR_RETURN,
   PROMOTABLE_OR_RETURN: take the lock or return the error *)
Definition lock_or_return := Lock Here ERR.
(* 217-222: WOLFSENTRY_UNLOCK_FOR_RETURN *)
Definition unlock := Unlock Here ERR.
(* 279, 300, 308: ..._UNLOCK_AND_RETURN, _RERETURN with success / an error *)
Definition unlock_ok := unlock ;; OKR.
Definition unlock_err := unlock ;; ERR.
(* a result that may be either: WOLFSENTRY_ERROR_RERETURN(ret) *)
Definition reret (what : string) := If what OKR ERR.
Definition unlock_reret (what : string) := unlock ;; reret what.
(* wolfsentry_util.h: WOLFSENTRY_HAVE_A_LOCK_OR_RETURN, HAVE_MUTEX_OR_RETURN *)
Definition have_or_return := Have Here Skip ERR.
Definition have_there_or_return := Have There Skip ERR.
(* a call whose failure is only reported: WOLFSENTRY_WARN_ON_FAILURE(f()) *)
Definition warn (f : string) (p : stmt) := Call f p Skip Skip.
(* the error is returned as it is: WOLFSENTRY_RERETURN_IF_ERROR(f()) *)
Definition call_or_return (f : string) (p : stmt) := Call f p Skip ERR.
(* WOLFSENTRY_UNLOCK_AND_RERETURN_IF_ERROR(f()) *)
Definition call_or_unlock (f : string) (p : stmt) := Call f p Skip unlock_err.
(* return f() *)
Definition tail (f : string) (p : stmt) := Call f p OKR ERR.
(* ret = f(); unlock; return ret *)
Definition call_then_unlock (f : string) (p : stmt) := Call f p unlock_ok unlock_err.

(** ** wolfsentry_internal.c: the table layer
    27-643; every function checks the lock and never takes it *)
Definition table_op (what : string) : stmt := have_or_return ;; reret what.
(* 27 wolfsentry_table_ent_insert, 414/441 delete_by_id, 478/503 delete,
   393/459 get, 314 id_allocate, 354 insert_by_id, 564 cursor_init *)
Definition table_ent_insert := table_op "entry inserted".
Definition table_ent_get := table_op "entry found".
Definition table_ent_get_by_id := table_op "id found".
Definition table_ent_delete := table_op "entry removed".
Definition id_allocate := table_op "id allocated".
Definition cursor_init := table_op "cursor ready".

(** ** actions.c *)

(* actions.c 128-162 wolfsentry_action_insert_1 *)
Definition action_insert_1 : stmt :=
  lock_or_return ;;
  If "action built"
    (Call "id_allocate" id_allocate
       (Call "table_ent_insert" table_ent_insert unlock_ok unlock_err)
       unlock_err)
    unlock_err.
(* 164-177 wolfsentry_action_insert *)
Definition action_insert : stmt :=
  If "label is builtin" ERR Skip ;; tail "action_insert_1" action_insert_1.
(* 179-214 wolfsentry_action_delete *)
Definition action_delete : stmt :=
  If "bad label" ERR Skip ;; If "template built" Skip ERR ;; lock_or_return ;;
  Call "table_ent_delete" table_ent_delete (unlock_reret "reference dropped") unlock_err.
(* 529-562 wolfsentry_table_free_ents for actions: free_fn takes no lock *)
Definition free_ents_plain : stmt := have_or_return ;; reret "all entries freed".
(* 216-221 wolfsentry_action_flush_all *)
Definition action_flush_all : stmt :=
  lock_or_return ;; call_then_unlock "table_free_ents" free_ents_plain.
(* 223-232 wolfsentry_action_get_reference_1: the lookup, then the count *)
Definition action_get_reference_1 : stmt :=
  call_or_return "table_ent_get" table_ent_get ;; reret "reference counted".
(* 234-251 wolfsentry_action_get_reference *)
Definition action_get_reference : stmt :=
  If "bad label" ERR Skip ;; If "template allocated" Skip ERR ;; lock_or_return ;;
  call_then_unlock "action_get_reference_1" action_get_reference_1.
(* 253-267 wolfsentry_action_drop_reference, 274-291 get_flags, update_flags *)
Definition action_drop_reference : stmt := reret "action reference dropped".
(* 330-350 wolfsentry_action_list_append *)
Definition action_list_append : stmt :=
  lock_or_return ;; call_or_unlock "action_get_reference" action_get_reference ;;
  If "appended" Skip
     (warn "action_drop_reference" action_drop_reference ;; unlock_err) ;;
  unlock_ok.
(* 367-385 wolfsentry_action_list_prepend *)
Definition action_list_prepend : stmt :=
  lock_or_return ;; call_or_unlock "action_get_reference" action_get_reference ;;
  If "prepended" Skip
     (warn "action_drop_reference" action_drop_reference ;; unlock_err) ;;
  unlock_ok.
(* 407-434 wolfsentry_action_list_insert_after; line 428 returns the error of
   dropping the point action without unlocking *)
Definition action_list_insert_after : stmt :=
  lock_or_return ;; call_or_unlock "action_get_reference" action_get_reference ;;
  Call "action_get_reference (point)" action_get_reference Skip
    (warn "action_drop_reference" action_drop_reference ;; unlock_err) ;;
  If "inserted" (call_or_return "action_drop_reference (point)" action_drop_reference ;; unlock_ok)
    (call_or_return "action_drop_reference (point)" action_drop_reference ;;
     warn "action_drop_reference" action_drop_reference ;; unlock_err).
(* 487-520 wolfsentry_action_list_delete *)
Definition action_list_delete : stmt :=
  lock_or_return ;; Loop (If "label matches" Break Skip) ;;
  If "found" (warn "action_drop_reference" action_drop_reference ;; unlock_ok) unlock_err.
(* 522-543 wolfsentry_action_list_delete_all, on either context *)
Definition action_list_delete_all (c : ctx) : stmt :=
  Lock c ERR ;; Loop (warn "action_drop_reference" action_drop_reference) ;;
  Unlock c ERR ;; OKR.
(* 436-485 wolfsentry_action_list_clone; line 473 releases only the source
   context when a reference count is full *)
Definition action_list_clone : stmt :=
  lock_or_return ;;
  Lock There (unlock ;; ERR) ;;
  Loop (Call "table_ent_get" table_ent_get Skip
          (warn "action_list_delete_all" (action_list_delete_all There) ;;
           Unlock There ERR ;; unlock_err) ;;
        If "list entry allocated" Skip
          (warn "action_list_delete_all" (action_list_delete_all There) ;;
           Unlock There ERR ;; unlock_err) ;;
        If "action refcount incremented [clone]" Skip unlock_err) ;;
  Unlock There ERR ;; unlock_ok.
(* 545-643 wolfsentry_action_list_dispatch; handlers leave the lock alone *)
Definition action_list_dispatch : stmt :=
  If "bad arguments" ERR Skip ;; have_or_return ;;
  If "list not dispatched" ERR Skip ;; If "actions inhibited" OKR Skip ;;
  Loop (If "handler failed" ERR (If "stop" OKR Skip)) ;; OKR.

(** ** events.c *)

(* 80-91 wolfsentry_event_free: six lists emptied, failures reported only *)
Definition event_free (c : ctx) : stmt :=
  let one := warn "action_list_delete_all" (action_list_delete_all c) in
  one ;; one ;; one ;; one ;; one ;; one ;; OKR.
(* 406-430 wolfsentry_event_drop_reference: recursion along the chain of aux
   events, each call freeing its own event after the inner call came back;
   written as a loop that may free any number of events *)
Definition event_drop_reference (c : ctx) : stmt :=
  If "bad refcount or table" ERR Skip ;; If "refcount decremented" Skip ERR ;;
  If "references left" OKR Skip ;;
  Loop (If "aux event not dropped" ERR (warn "event_free" (event_free c))) ;;
  OKR.
(* 265-300 wolfsentry_event_insert *)
Definition event_insert : stmt :=
  If "label is builtin" ERR Skip ;; lock_or_return ;;
  If "event built" Skip unlock_err ;;
  Call "id_allocate" id_allocate Skip (warn "event_free" (event_free Here) ;; unlock_err) ;;
  Call "table_ent_insert" table_ent_insert unlock_ok
    (warn "event_drop_reference" (event_drop_reference Here) ;; unlock_err).
(* 317-342 wolfsentry_event_get_1 *)
Definition event_get_1 : stmt :=
  If "bad label" ERR Skip ;; call_or_return "table_ent_get" table_ent_get ;; OKR.
(* wolfsentry_util.c 3429-3444 wolfsentry_eventconfig_get_1 *)
Definition eventconfig_get_1 : stmt :=
  If "no config" ERR Skip ;; If "nowhere to store it" ERR Skip ;; have_or_return ;; OKR.
(* wolfsentry_util.c 3398-3427 wolfsentry_eventconfig_update_1 *)
Definition eventconfig_update_1 : stmt :=
  If "no config" ERR Skip ;; have_or_return ;; reret "config accepted".
(* 344-357 wolfsentry_event_get_config; line 351 returns with the lock held *)
Definition event_get_config : stmt :=
  lock_or_return ;; call_or_return "event_get_1 [get_config]" event_get_1 ;;
  If "event has no config" unlock_err
     (call_then_unlock "eventconfig_get_1" eventconfig_get_1).
(* 359-380 wolfsentry_event_update_config; line 366 returns with the lock held *)
Definition event_update_config : stmt :=
  lock_or_return ;; call_or_return "event_get_1 [update_config]" event_get_1 ;;
  If "event has no config"
     (If "config allocated" (unlock_reret "config loaded") unlock_err)
     (call_then_unlock "eventconfig_update_1" eventconfig_update_1).
(* 382-404 wolfsentry_event_get_reference *)
Definition event_get_reference : stmt :=
  Have Here
    (call_or_return "event_get_1" event_get_1 ;; reret "reference counted")
    (lock_or_return ;; call_or_unlock "event_get_1" event_get_1 ;;
     If "reference counted" Skip unlock_err ;; unlock_ok).
(* 432-451 wolfsentry_event_delete *)
Definition event_delete : stmt :=
  lock_or_return ;; call_or_unlock "event_get_1" event_get_1 ;;
  call_or_unlock "table_ent_delete" table_ent_delete ;;
  call_then_unlock "event_drop_reference" (event_drop_reference Here).
(* wolfsentry_internal.c 529-562 wolfsentry_table_free_ents: has its own
   HAVE_MUTEX check, then drops every entry through the table's free_fn *)
Definition table_free_ents (c : ctx) (f : string) (free : stmt) : stmt :=
  Have c Skip ERR ;; Loop (If "entry removed" Skip ERR ;; call_or_return f free) ;; OKR.
Definition free_events (c : ctx) : stmt :=
  table_free_ents c "event_drop_reference" (event_drop_reference c).
(* 453-458 wolfsentry_event_flush_all *)
Definition event_flush_all : stmt :=
  lock_or_return ;; call_then_unlock "table_free_ents" (free_events Here).
(* 462-523 wolfsentry_event_action_change_1 and its four callers 525-605 *)
Definition event_action_change_1 (f : string) (change : stmt) : stmt :=
  lock_or_return ;; call_or_unlock "event_get_1" event_get_1 ;;
  If "unknown list" unlock_err Skip ;;
  call_then_unlock f change.
Definition event_action_prepend :=
  event_action_change_1 "action_list_prepend" action_list_prepend.
Definition event_action_append :=
  event_action_change_1 "action_list_append" action_list_append.
Definition event_action_insert_after :=
  event_action_change_1 "action_list_insert_after" action_list_insert_after.
Definition event_action_delete :=
  event_action_change_1 "action_list_delete" action_list_delete.
(* 608-657 wolfsentry_event_set_aux_event; line 621 returns with the lock held *)
Definition event_set_aux_event : stmt :=
  let drop := warn "event_drop_reference" (event_drop_reference Here) in
  lock_or_return ;; call_or_return "event_get_reference [set_aux]" event_get_reference ;;
  If "event is a subevent" (drop ;; unlock_err) Skip ;;
  If "aux label given"
    (Call "event_get_reference (aux)" event_get_reference Skip (drop ;; unlock_err) ;;
     If "aux is a parent" (drop ;; drop ;; unlock_err) Skip) Skip ;;
  If "had an aux event" drop Skip ;; drop ;; unlock_ok.
(* 660-706 wolfsentry_event_action_list_start: requires a lock, takes none;
   line 700 releases one all the same *)
Definition event_action_list_start : stmt :=
  have_or_return ;; call_or_return "event_get_1" event_get_1 ;;
  If "unknown list [start]" unlock_err Skip ;; reret "list not empty".
(* 708-734 wolfsentry_event_action_list_next, _done *)
Definition event_action_list_next : stmt := have_or_return ;; reret "more actions".
Definition event_action_list_done : stmt := have_or_return ;; OKR.

(** ** kv.c *)

(* 118-140 wolfsentry_kv_set_mutability *)
Definition kv_set_mutability : stmt :=
  lock_or_return ;; If "writable asked" unlock_ok (If "readonly asked" unlock_ok unlock_err).
(* 155-165, 167-181 wolfsentry_kv_insert *)
Definition kv_insert_1 : stmt :=
  call_or_return "id_allocate" id_allocate ;; tail "table_ent_insert" table_ent_insert.
Definition kv_insert : stmt :=
  If "validator refuses" ERR Skip ;; lock_or_return ;;
  call_then_unlock "kv_insert_1" kv_insert_1.
(* 84-116 wolfsentry_kv_drop_reference takes no lock *)
Definition kv_drop_reference : stmt := reret "value reference dropped".
(* 220-254 wolfsentry_kv_set *)
Definition kv_set : stmt :=
  If "validator refuses" ERR Skip ;; lock_or_return ;;
  Call "table_ent_get" table_ent_get
    (If "old value readonly" unlock_err Skip ;;
     If "same value"
        (call_or_unlock "kv_drop_reference" kv_drop_reference ;; unlock_ok) Skip ;;
     Call "table_ent_delete_1" table_ent_delete Skip unlock_err ;;
     Call "kv_drop_reference" kv_drop_reference Skip unlock_err)
    Skip ;;
  call_then_unlock "kv_insert_1" kv_insert_1.
(* 256-277 wolfsentry_kv_get_1 *)
Definition kv_get_1 : stmt :=
  lock_or_return ;; Call "table_ent_get" table_ent_get Skip unlock_err ;;
  If "wrong type" unlock_err Skip ;; unlock_ok.
(* 279-295 wolfsentry_kv_get_2; 329-346 wolfsentry_kv_get_type *)
Definition kv_get_2 : stmt := If "template built" Skip ERR ;; tail "kv_get_1" kv_get_1.
Definition kv_get_type : stmt :=
  If "template built" Skip ERR ;; call_or_return "kv_get_1" kv_get_1 ;; OKR.
(* 297-308 wolfsentry_kv_get_reference_1; 310-327 wolfsentry_kv_get_reference:
   line 321 unlocks although nothing has been locked *)
Definition kv_get_reference_1 : stmt :=
  call_or_return "kv_get_1" kv_get_1 ;; reret "reference counted".
Definition kv_get_reference : stmt :=
  If "template built [reference]" Skip unlock_err ;; tail "kv_get_reference_1" kv_get_reference_1.
(* 530-553 wolfsentry_kv_delete *)
Definition kv_delete : stmt :=
  If "template built" Skip ERR ;; lock_or_return ;; call_or_unlock "kv_get_1" kv_get_1 ;;
  If "old value readonly" unlock_err Skip ;;
  Call "table_ent_delete_1" table_ent_delete Skip unlock_err ;;
  call_then_unlock "kv_drop_reference" kv_drop_reference.
(* wolfsentry_internal.c 623-643 wolfsentry_table_map, 593-621 table_filter *)
Definition table_map (f : string) (fn : stmt) : stmt :=
  have_or_return ;; Loop (call_or_return f fn) ;; OKR.
Definition table_filter (f : string) (fn : stmt) : stmt :=
  have_or_return ;; Loop (If "selected" (call_or_return f fn) Skip) ;; OKR.
(* 572-592 wolfsentry_kv_set_validator *)
Definition kv_set_validator : stmt :=
  lock_or_return ;;
  If "validator given"
     (call_or_unlock "table_map" (table_map "validator" (reret "value valid"))) Skip ;;
  unlock_ok.
(* 594-602, 1098-1155 export and iteration: require a lock, take none *)
Definition kv_pair_export : stmt := have_or_return ;; OKR.
Definition user_values_iterate (f : string) : stmt := have_or_return ;; reret f.
(* 694-700, 702-713, 715-727, 729-743 *)
Definition user_value_set_validator := tail "kv_set_validator" kv_set_validator.
Definition user_value_set_mutability : stmt :=
  call_or_return "kv_get_2" kv_get_2 ;; tail "kv_set_mutability" kv_set_mutability.
Definition user_value_get_mutability : stmt := call_or_return "kv_get_2" kv_get_2 ;; OKR.
Definition user_value_get_type := tail "kv_get_type" kv_get_type.
Definition user_value_delete := tail "kv_delete" kv_delete.
(* 746-766 store_null, 768-791 bool, 810-831 uint, 847-869 sint, 885-907
   double, 923-952 string, 970-994 bytes, 996-1030 bytes_base64, 1063-1085
   json: build the record, then set or insert, then drop it on failure *)
Definition user_value_store : stmt :=
  If "bad value" ERR Skip ;; If "record built" Skip ERR ;;
  If "base64 invalid" (warn "kv_drop_reference" kv_drop_reference ;; ERR) Skip ;;
  If "overwrite"
     (Call "kv_set" kv_set OKR (warn "kv_drop_reference" kv_drop_reference ;; ERR))
     (Call "kv_insert" kv_insert OKR (warn "kv_drop_reference" kv_drop_reference ;; ERR)).
(* 793-808 get_bool, 833-845 uint, 871-883 sint, 909-921 float *)
Definition user_value_get_scalar : stmt :=
  call_or_return "kv_get_2" kv_get_2 ;; reret "right type".
(* 954-968 get_string, 1032-1046 get_bytes, 1049-1061 get_json *)
Definition user_value_get_record : stmt :=
  call_or_return "kv_get_reference" kv_get_reference ;; OKR.
(* 1088-1096 wolfsentry_user_value_release_record *)
Definition user_value_release_record : stmt := tail "kv_drop_reference" kv_drop_reference.

(** ** addr_families.c *)

(* 186-211 wolfsentry_addr_family_get_bynumber_1, get_byname_1 *)
Definition addr_family_get_1 : stmt :=
  If "bad arguments" ERR Skip ;; tail "table_ent_get" table_ent_get.
(* 73-184 wolfsentry_addr_family_insert: three of the gotos to [out] leave
   before the lock is taken (lines 110, 116, 123) and a failed acquisition
   (146) goes there too, but [out] unlocks (line 183) *)
Definition addr_family_insert : stmt :=
  If "bad arguments" ERR Skip ;;
  If "name too long" unlock_err Skip ;;
  If "out of memory" unlock_err Skip ;;
  Lock Here unlock_err ;;
  Call "id_allocate (number)" id_allocate Skip unlock_err ;;
  Call "id_allocate (name)" id_allocate Skip (warn "table_ent_delete_by_id" table_ent_delete ;; unlock_err) ;;
  Call "table_ent_insert (number)" table_ent_insert Skip unlock_err ;;
  Call "table_ent_insert (name)" table_ent_insert Skip
    (warn "table_ent_delete_1" table_ent_delete ;; unlock_err) ;;
  unlock_ok.
(* 445-455 wolfsentry_addr_family_handler_install *)
Definition addr_family_handler_install := tail "addr_family_insert" addr_family_insert.
(* 214-234 get_parser, 236-256 get_formatter *)
Definition addr_family_get_handler : stmt :=
  If "nowhere to store it" ERR Skip ;; lock_or_return ;;
  Call "addr_family_get_1" addr_family_get_1 Skip unlock_err ;; unlock_ok.
(* 394-418 delete_bynumber, 420-442 delete_byname, 457-473 the API *)
Definition addr_family_handler_remove : stmt :=
  lock_or_return ;; Call "addr_family_get_1" addr_family_get_1 Skip unlock_err ;;
  Call "table_ent_delete_1" table_ent_delete Skip unlock_err ;;
  Call "table_ent_delete_1" table_ent_delete Skip unlock_err ;;
  unlock_reret "family reference dropped".
(* 478-657 wolfsentry_addr_family_pton *)
Definition addr_family_pton : stmt :=
  If "bad arguments" ERR Skip ;;
  If "families installed"
    (lock_or_return ;;
     Call "addr_family_get_1" addr_family_get_1
       (unlock ;; OKR) (unlock ;; If "not found" Skip ERR)) Skip ;;
  reret "builtin name".
(* 801-836 wolfsentry_addr_family_ntop *)
Definition addr_family_ntop : stmt :=
  If "bad arguments" ERR Skip ;;
  If "families installed"
    (lock_or_return ;;
     Call "addr_family_get_1" addr_family_get_1
       (If "reference counted" Skip unlock_err ;; unlock_ok)
       (If "not found" Skip unlock_err ;; unlock)) Skip ;;
  reret "builtin family".
(* 870-893 wolfsentry_addr_family_max_addr_bits *)
Definition addr_family_max_addr_bits : stmt :=
  If "builtin family" OKR Skip ;; lock_or_return ;;
  call_then_unlock "addr_family_get_1" addr_family_get_1.

(** ** routes.c *)

(* 1097-1112 wolfsentry_route_table_fallthrough_route_get *)
Definition fallthrough_route_get : stmt := have_or_return ;; reret "fallthrough route".
(* wolfsentry_util.c 3303-3310 wolfsentry_object_checkout *)
Definition object_checkout : stmt :=
  If "no object" ERR Skip ;; have_or_return ;; reret "reference counted".
(* routes.c wolfsentry_route_drop_reference: drops the parent event too *)
Definition route_drop_reference : stmt :=
  If "refcount decremented" Skip ERR ;; If "references left" OKR Skip ;;
  If "has a parent event"
    (call_or_return "event_drop_reference" (event_drop_reference Here)) Skip ;; OKR.
(* 2120-2222 wolfsentry_route_delete_0 *)
Definition route_delete_0 : stmt :=
  have_or_return ;; If "deferred" OKR Skip ;;
  call_or_return "table_ent_delete_1" table_ent_delete ;;
  If "delete actions" (warn "action_list_dispatch" action_list_dispatch) Skip ;;
  If "was highest priority" (warn "cursor_init" cursor_init ;; Loop Skip) Skip ;;
  warn "route_drop_reference" route_drop_reference ;; OKR.
(* 3018-3120 wolfsentry_route_stale_purge_1.  [after] is what line 3113 and
   the error paths 3091-3094, 3100-3105 do: release only if got_lock *)
Definition purge_loop (give_back : stmt) (promote : bool) : stmt :=
  Loop (If "tail not due" Break Skip ;;
        If "tail in use" Skip
          (* lines 3086-3097: promoting keeps the number of holds *)
          ((if promote then If "promoted" Skip (give_back ;; ERR) else Skip) ;;
           Call "route_delete_0" route_delete_0 Skip (give_back ;; ERR) ;;
           If "one only" Break Skip)) ;;
  give_back ;; reret "purged some".
Definition route_stale_purge_1 : stmt :=
  If "no time" ERR Skip ;;
  If "table given" (have_or_return ;; If "nothing due" ERR Skip) Skip ;;
  Have Here (purge_loop Skip false)          (* 3049, 3067-3068: have_mutex *)
    (If "have reservation"                   (* 3050 *)
       (purge_loop Skip true)
       (lock_or_return ;;                    (* 3051-3064: got_lock *)
        purge_loop unlock true)).
(* 3122-3153 *)
Definition route_stale_purge := tail "route_stale_purge_1" route_stale_purge_1.
(* 1202-1344 wolfsentry_route_insert_1 *)
Definition route_insert_1 : stmt :=
  If "bad flags" ERR Skip ;; If "already in table" ERR Skip ;; If "no time" ERR Skip ;;
  If "purge time past" ERR Skip ;;
  If "purgeable"
    (call_or_return "max_purgeable_routes_get" (have_or_return ;; OKR) ;;
     If "too many purgeable"
        (call_or_return "route_stale_purge_1" route_stale_purge_1) Skip) Skip ;;
  call_or_return "id_allocate" id_allocate ;;
  Call "table_ent_insert" table_ent_insert Skip
    (If "already present"
       (Call "table_ent_get" table_ent_get (reret "revived") ERR) ERR) ;;
  If "bitmask family refused" (warn "table_ent_delete" table_ent_delete ;; ERR) Skip ;;
  If "insert actions"
    (Call "action_list_dispatch" action_list_dispatch Skip
       (warn "table_ent_delete" table_ent_delete ;; ERR)) Skip ;;
  OKR.
(* 1346-1401, 1403-1452 wolfsentry_route_insert_2, insert_by_exports_2 *)
Definition route_insert_2 : stmt :=
  If "bad addresses" ERR Skip ;; If "route built" Skip ERR ;;
  Call "route_insert_1" route_insert_1
    (If "caller wants the route" (warn "object_checkout" object_checkout) Skip ;;
     If "already there" (warn "route_drop_reference" route_drop_reference) Skip ;; OKR)
    (warn "route_drop_reference" route_drop_reference ;; ERR).
(* 1454-1480 insert_into_table, 1482-1504 insert_by_exports_into_table,
   1548-1574 insert_into_table_and_check_out; 1506-1546, 1576-1599 call them *)
Definition with_event (body : string -> stmt) : stmt :=
  If "event label given"
    (Call "event_get_reference" event_get_reference Skip unlock_err ;;
     body "with event") (body "without event").
Definition route_insert_into_table : stmt :=
  lock_or_return ;;
  with_event (fun _ =>
    Call "route_insert_2" route_insert_2
      (If "have event" (warn "event_drop_reference" (event_drop_reference Here)) Skip ;; unlock_ok)
      (If "have event" (warn "event_drop_reference" (event_drop_reference Here)) Skip ;; unlock_err)).
Definition route_insert := tail "route_insert_into_table" route_insert_into_table.
(* 1625-1968 wolfsentry_route_lookup_0, lookup_1: only the cursor checks the lock *)
Definition route_lookup_1 : stmt :=
  If "target built" Skip ERR ;; call_or_return "cursor_init" cursor_init ;; reret "route found".
(* 1971-1979, 2011-2047, 2071-2079, 3611-3627, 3681-3691 *)
Definition route_getter : stmt := have_or_return ;; reret "value".
Definition route_get_main_table : stmt := have_or_return ;; OKR.
(* 1981-1991 wolfsentry_route_table_default_policy_set, 1993-2009 the same
   for the main table *)
Definition table_default_policy_set : stmt :=
  If "bad policy" ERR Skip ;; lock_or_return ;; unlock_ok.
Definition route_default_policy_set : stmt :=
  lock_or_return ;; call_or_unlock "route_get_main_table" route_get_main_table ;;
  call_then_unlock "table_default_policy_set" table_default_policy_set.
(* 2049-2069 max_purgeable_routes_set, 2081-2089 idle_time_set, 3004-3016 purge_time_set *)
Definition max_purgeable_routes_set : stmt :=
  have_or_return ;; If "too many now" (tail "route_stale_purge" route_stale_purge) OKR.
Definition max_purgeable_idle_time_set : stmt := have_or_return ;; OKR.
Definition route_purge_time_set : stmt := have_or_return ;; OKR.
(* 2091-2118 wolfsentry_route_get_reference *)
Definition route_get_reference : stmt :=
  lock_or_return ;;
  with_event (fun _ =>
    Call "route_lookup_1" route_lookup_1
      (If "have event" (warn "event_drop_reference" (event_drop_reference Here)) Skip ;;
       unlock_reret "reference counted")
      (If "have event" (warn "event_drop_reference" (event_drop_reference Here)) Skip ;; unlock_err)).
(* 2224-2247 wolfsentry_route_delete_1 *)
Definition route_delete_1 : stmt :=
  have_or_return ;; call_or_return "route_lookup_1" route_lookup_1 ;;
  tail "route_delete_0" route_delete_0.
(* 2249-2277 delete_from_table, 2279-2302 wolfsentry_route_delete *)
Definition route_delete_from_table : stmt :=
  lock_or_return ;;
  with_event (fun _ =>
    Call "route_delete_1" route_delete_1
      (If "have event" (warn "event_drop_reference" (event_drop_reference Here)) Skip ;; unlock_ok)
      (If "have event" (warn "event_drop_reference" (event_drop_reference Here)) Skip ;; unlock_err)).
(* 2304-2341 wolfsentry_route_delete_by_id *)
Definition route_delete_by_id : stmt :=
  let out := If "have event" (warn "event_drop_reference" (event_drop_reference Here)) Skip in
  lock_or_return ;;
  with_event (fun _ =>
    Call "table_ent_get_by_id" table_ent_get_by_id Skip (out ;; unlock_err) ;;
    If "not a route" (out ;; unlock_err) Skip ;;
    Call "route_delete_0" route_delete_0 (out ;; unlock_ok) (out ;; unlock_err)).
(* 2350-2640 wolfsentry_route_event_dispatch_0: needs a lock, takes none; the
   hits and the promotion at 2407-2410 keep the number of holds *)
Definition route_event_dispatch_0 : stmt :=
  If "bad arguments" ERR Skip ;; have_or_return ;;
  warn "route_stale_purge_1" route_stale_purge_1 ;;
  If "push purge time" (Have Here Skip (If "promoted" Skip Skip)) Skip ;;
  If "post actions" (warn "action_list_dispatch" action_list_dispatch) Skip ;;
  If "fallthrough" (warn "route_drop_reference" route_drop_reference) Skip ;;
  If "match actions" (warn "action_list_dispatch" action_list_dispatch) Skip ;;
  If "update actions" (warn "action_list_dispatch" action_list_dispatch) Skip ;;
  If "decision actions" (warn "action_list_dispatch" action_list_dispatch) Skip ;;
  reret "dispatched".
(* 2642-2773 wolfsentry_route_event_dispatch_1 *)
Definition route_event_dispatch_1 : stmt :=
  let free_resources :=
    If "rule route not in table" (warn "route_drop_reference" route_drop_reference) Skip ;;
    If "target on the heap" (warn "route_drop_reference" route_drop_reference) Skip ;;
    If "have trigger event" (warn "event_drop_reference" (event_drop_reference Here)) Skip in
  let finish (r : stmt) := free_resources ;; If "no rule route" unlock_ok Skip ;; r in
  If "bad addresses" ERR Skip ;; lock_or_return ;;
  If "event label given"
    (Call "event_get_reference" event_get_reference Skip
       (If "event is a wildcard" Skip unlock_err)) Skip ;;
  If "target built" Skip (finish unlock_err) ;;
  Call "route_lookup_0" route_lookup_1 Skip
    (If "fallback possible" Skip (finish unlock_err)) ;;
  If "clone the target"
    (If "cloned" Skip (finish unlock_err) ;;
     If "default event counted" Skip unlock_err) Skip ;;
  Call "route_event_dispatch_0" route_event_dispatch_0
    (finish unlock_ok) (finish unlock_err).
(* 2775-2857 the four entry points *)
Definition route_event_dispatch : stmt :=
  If "bad initial results" ERR Skip ;; tail "route_event_dispatch_1" route_event_dispatch_1.
(* 2859-2899 wolfsentry_route_event_dispatch_by_id_1 (line 2877 returns with
   the lock held), 2901-2926 the entry points *)
Definition route_event_dispatch_by_id : stmt :=
  let out := If "have event" (warn "event_drop_reference" (event_drop_reference Here)) Skip in
  If "bad initial results" ERR Skip ;; lock_or_return ;;
  If "event label given"
    (call_or_return "event_get_reference [dispatch]" event_get_reference) Skip ;;
  Call "table_ent_get_by_id" table_ent_get_by_id Skip (out ;; unlock_err) ;;
  If "not a route" (out ;; unlock_err) Skip ;;
  Call "route_event_dispatch_0" route_event_dispatch_0 (out ;; unlock_ok) (out ;; unlock_err).
(* 2928-2961 wolfsentry_route_event_dispatch_by_route_1 (line 2945), 2963-2988 *)
Definition route_event_dispatch_by_route : stmt :=
  let out := If "have event" (warn "event_drop_reference" (event_drop_reference Here)) Skip in
  If "bad initial results" ERR Skip ;; lock_or_return ;;
  If "event label given"
    (call_or_return "event_get_reference [dispatch]" event_get_reference) Skip ;;
  If "not a route" (out ;; unlock_err) Skip ;;
  Call "route_event_dispatch_0" route_event_dispatch_0 (out ;; unlock_ok) (out ;; unlock_err).
(* 3176-3195 wolfsentry_route_flush_table *)
Definition route_flush_table : stmt :=
  lock_or_return ;; call_then_unlock "table_filter" (table_filter "route_delete_0" route_delete_0).
(* 3209-3221 bulk_clear_insert_action_status, 3253-3267 bulk_insert_actions *)
Definition route_bulk_clear : stmt :=
  lock_or_return ;; call_then_unlock "table_map" (table_map "clear status" OKR).
Definition route_bulk_insert_actions : stmt :=
  lock_or_return ;;
  call_then_unlock "table_map"
    (table_map "call insert action"
       (If "insert actions" (tail "action_list_dispatch" action_list_dispatch) OKR)).
(* 3493-3505 clear_default_event, 3507-3524 set_default_event, 3526-3539 get_default_event *)
Definition clear_default_event : stmt :=
  lock_or_return ;;
  If "has default event"
    (Call "event_drop_reference" (event_drop_reference Here) Skip unlock_err) Skip ;;
  unlock_ok.
Definition set_default_event : stmt :=
  lock_or_return ;; Call "event_get_reference" event_get_reference Skip unlock_err ;;
  Call "clear_default_event" clear_default_event Skip
    (warn "event_drop_reference" (event_drop_reference Here) ;; unlock_err) ;;
  unlock_ok.
Definition get_default_event : stmt :=
  If "no default event" ERR Skip ;; lock_or_return ;;
  If "buffer too small" unlock_err Skip ;; unlock_ok.

(** ** wolfsentry_util.c: the context as a whole *)

(* 3446-3453, 3455-3463 wolfsentry_defaultconfig_get, _update *)
Definition defaultconfig_get : stmt :=
  lock_or_return ;; call_then_unlock "eventconfig_get_1" eventconfig_get_1.
Definition defaultconfig_update : stmt :=
  lock_or_return ;; call_then_unlock "eventconfig_update_1" eventconfig_update_1.
(* 3728-3751 cleanup_push, 3753-3771 cleanup_pop, 3773-3786 cleanup_all *)
Definition cleanup_push : stmt :=
  lock_or_return ;; Loop (If "already there" unlock_ok Skip) ;;
  If "hook allocated" Skip unlock_err ;; unlock_ok.
Definition cleanup_pop (c : ctx) : stmt :=
  Lock c ERR ;; If "no hook" (Unlock c ERR ;; ERR) Skip ;; Unlock c ERR ;; OKR.
Definition cleanup_all (c : ctx) : stmt :=
  Lock c ERR ;; Loop (Call "cleanup_pop" (cleanup_pop c) Skip Break) ;;
  If "no hooks left" (Unlock c ERR ;; OKR) (Unlock c ERR ;; ERR).
(* 3788-3803 wolfsentry_context_flush, on either context *)
Definition flush_table_on (c : ctx) : stmt :=
  (* routes.c 3176-3195 with the context named *)
  Lock c ERR ;;
  Call "table_filter"
    (Have c Skip ERR ;;
     Loop (If "deleted" (warn "event_drop_reference" (event_drop_reference c)) ERR) ;; OKR)
    (Unlock c ERR ;; OKR) (Unlock c ERR ;; ERR).
Definition event_flush_on (c : ctx) : stmt :=
  Lock c ERR ;; Call "table_free_ents" (free_events c) (Unlock c ERR ;; OKR) (Unlock c ERR ;; ERR).
Definition context_flush (c : ctx) : stmt :=
  Lock c ERR ;;
  Call "route_flush_table" (flush_table_on c) Skip (Unlock c ERR ;; ERR) ;;
  Call "event_flush_all" (event_flush_on c) Skip (Unlock c ERR ;; ERR) ;;
  Call "table_free_ents" (table_free_ents c "kv_drop_reference" kv_drop_reference)
    (Unlock c ERR ;; OKR) (Unlock c ERR ;; ERR).
(* 3478-3512 wolfsentry_context_free_1: gives up the hold of its caller *)
Definition context_free_1 (c : ctx) : stmt :=
  Have c Skip ERR ;;
  If "default event" (warn "event_drop_reference" (event_drop_reference c)) Skip ;;
  Unlock c ERR ;; reret "lock destroyed".
(* 3805-3837 wolfsentry_context_free: BUSY gives up the hold of its caller,
   every other error keeps it *)
Definition context_free (c : ctx) : stmt :=
  Have c Skip ERR ;;
  HeldOnce c Skip (Unlock c ERR ;; ERR) ;;
  If "others are waiting" (Unlock c ERR ;; ERR) Skip ;;
  call_or_return "cleanup_all" (cleanup_all c) ;;
  call_or_return "route_flush_table" (flush_table_on c) ;;
  call_or_return "action_flush_all"
    (Lock c ERR ;; If "all actions freed" (Unlock c ERR ;; OKR) (Unlock c ERR ;; ERR)) ;;
  call_or_return "event_flush_all" (event_flush_on c) ;;
  call_or_return "free user values" (table_free_ents c "kv_drop_reference" kv_drop_reference) ;;
  call_or_return "free families" (table_free_ents c "family dropped" (reret "family reference dropped")) ;;
  tail "context_free_1" (context_free_1 c).
(* 3839-3851 wolfsentry_shutdown: BUSY is undone once more *)
Definition shutdown : stmt :=
  lock_or_return ;;
  Call "context_free" (context_free Here) OKR
    (If "the error is BUSY" (Unlock Here Skip) Skip ;; ERR).
(* wolfsentry_internal.c 101-212 wolfsentry_table_clone, 214-303 coupled *)
Definition table_clone (each : stmt) : stmt :=
  have_or_return ;; have_there_or_return ;; If "bad tables" ERR Skip ;;
  If "header cloned" Skip ERR ;; If "no routes wanted" OKR Skip ;;
  Loop (If "entry cloned" Skip ERR) ;; Loop each ;;
  reret "cloned".
(* events.c 172-263 wolfsentry_event_clone_resolve: six lists, then the aux event *)
Definition event_clone_resolve : stmt :=
  let one := call_or_return "action_list_clone" action_list_clone in
  one ;; one ;; one ;; one ;; one ;; one ;;
  If "has aux event"
    (If "aux event cloned" Skip ERR ;; If "aux refcount incremented" Skip ERR) Skip ;; OKR.
Definition table_clone_plain : stmt := table_clone Skip.
Definition table_clone_events : stmt :=
  table_clone (call_or_return "event_clone_resolve" event_clone_resolve).
(* 3881-3967 wolfsentry_context_clone: the clone is fresh (nobody holds its
   lock); on success it is handed over locked *)
Definition context_clone : stmt :=
  let fail := warn "context_free (clone)" (context_free There) ;; unlock_err in
  lock_or_return ;; If "clone allocated" Skip unlock_err ;;
  Lock There fail ;;
  Call "clone actions" table_clone_plain Skip fail ;;
  Call "clone families" table_clone_plain Skip fail ;;
  If "as at creation" unlock_ok Skip ;;
  Call "clone events" table_clone_events Skip fail ;;
  Call "clone routes" table_clone_plain Skip fail ;;
  Call "clone values" table_clone_plain Skip fail ;;
  unlock_ok.
(* 3969-4047 wolfsentry_context_exchange *)
Definition context_exchange : stmt :=
  If "incompatible" ERR Skip ;; lock_or_return ;; Lock There unlock_err ;;
  Call "route_copy_metadata" (have_or_return ;; have_there_or_return ;; OKR) Skip
    (unlock ;; Unlock There ERR ;; ERR) ;;
  unlock ;; Unlock There ERR ;; OKR.

(** ** json/load_config.c: loading a configuration *)

(* 1740-1868 wolfsentry_config_json_init_ex; line 1826 returns with the lock
   held when the default configuration cannot be read *)
Definition json_init : stmt :=
  If "bad flags or no memory" ERR Skip ;;
  lock_or_return ;;
  If "load into a clone"
    (* 1797-1810 *)
    (Call "context_clone" context_clone Skip (unlock_err) ;;
     If "parser ready" Skip
       (unlock ;; warn "context_free" (context_free There) ;; ERR) ;;
     Call "defaultconfig_get [init]"
       (Lock There ERR ;;
        Call "eventconfig_get_1" (Have There Skip ERR ;; OKR)
          (Unlock There ERR ;; OKR) (Unlock There ERR ;; ERR)) Skip ERR ;; OKR)
    (* 1811-1846 *)
    (If "parser ready" Skip unlock_err ;;
     call_or_return "defaultconfig_get [init]" defaultconfig_get ;;
     If "flush"
       (If "only routes"
          (Call "route_get_main_table" route_get_main_table Skip unlock_err ;;
           Call "route_flush_table" route_flush_table Skip unlock_err)
          (Call "context_flush" (context_flush Here) Skip unlock_err)) Skip ;;
     OKR).
(* 1880-1912 wolfsentry_config_json_feed: runs the parser, whose callbacks
   make these calls (load_config.c throughout), any number of times in any
   order; a failing call makes the feed fail *)
Definition json_feed : stmt :=
  If "already finished" ERR Skip ;;
  Loop
   (If "append action" (call_or_return "event_action_append" event_action_append)
   (If "start list" (call_or_return "event_action_list_start" event_action_list_start)
   (If "next in list" (call_or_return "event_action_list_next" event_action_list_next)
   (If "insert event" (call_or_return "event_insert" event_insert)
   (If "set aux event" (call_or_return "event_set_aux_event" event_set_aux_event)
   (If "update event" (call_or_return "event_update_config" event_update_config)
   (If "update defaults" (call_or_return "defaultconfig_update" defaultconfig_update)
   (If "insert route" (call_or_return "route_insert" route_insert)
   (If "get table" (call_or_return "route_get_main_table" route_get_main_table)
   (If "set policy" (call_or_return "table_default_policy_set" table_default_policy_set)
   (If "set idle time" (call_or_return "max_purgeable_idle_time_set" max_purgeable_idle_time_set)
   (If "set purgeable" (call_or_return "max_purgeable_routes_set" max_purgeable_routes_set)
   (If "set default event" (call_or_return "set_default_event" set_default_event)
   (If "look up family" (call_or_return "addr_family_pton" addr_family_pton)
   (If "get parser" (call_or_return "addr_family_get_parser" addr_family_get_handler)
   (If "get family bits" (call_or_return "addr_family_max_addr_bits" addr_family_max_addr_bits)
   (If "store value" (call_or_return "user_value_store" user_value_store)
   (If "syntax error" ERR Skip)))))))))))))))))) ;;
  OKR.
(* 1925-2015 wolfsentry_config_json_fini, loading in place *)
Definition json_fini : stmt :=
  If "parse failed" unlock_err Skip ;; unlock_ok.
(* the same, loading into a clone: [there] is the clone, held once *)
Definition json_fini_clone : stmt :=
  let out (r : bool) :=
    If "clone still there" (warn "context_free (clone)" (context_free There)) Skip ;;
    unlock ;; Return r in
  If "parse failed" (out false) Skip ;; If "dry run" (out true) Skip ;;
  Call "route_get_main_table" route_get_main_table Skip (out false) ;;
  Call "route_get_main_table" route_get_main_table Skip (out false) ;;
  Call "context_exchange" context_exchange Skip (out false) ;;
  If "full cycle"
    (Call "bulk_clear" route_bulk_clear Skip (out false) ;;
     Call "context_flush" (context_flush There) Skip (out false)) Skip ;;
  Call "bulk_insert_actions" route_bulk_insert_actions Skip (out false) ;;
  warn "context_free (clone)" (context_free There) ;;
  out true.
(* 2017-2040 wolfsentry_config_json_oneshot_ex, loading in place *)
Definition json_init_in_place : stmt :=
  If "bad flags or no memory" ERR Skip ;;
  lock_or_return ;;
  If "parser ready" Skip unlock_err ;;
  call_or_return "defaultconfig_get [init]" defaultconfig_get ;;
  If "flush"
    (If "only routes"
       (Call "route_get_main_table" route_get_main_table Skip unlock_err ;;
        Call "route_flush_table" route_flush_table Skip unlock_err)
       (Call "context_flush" (context_flush Here) Skip unlock_err)) Skip ;;
  OKR.
Definition json_oneshot : stmt :=
  call_or_return "json_init" json_init_in_place ;;
  Call "json_feed" json_feed (tail "json_fini" json_fini) (tail "json_fini" json_fini).
