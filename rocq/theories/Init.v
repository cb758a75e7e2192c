(** Starting a context: src/wolfsentry_util.c 431-461 (build settings), 3476-3733 (wolfsentry_init and what it calls), with
    src/routes.c 639-656, 947-998, 1066-1095 (the fallthrough route), 4671-4686 (wolfsentry_route_table_free),
    src/action_builtins.c 135-151 and src/actions.c 73-98, 128-165 (the built-in action), src/wolfsentry_util.c 2978-3000 (lock_have_mutex).
    The build of the library is given by its own settings: bit 2 of the configuration says whether it is thread-safe, bit 3 whether it has a
    built-in clock, bit 4 a built-in allocator, bit 6 names of protocols.  WOLFSENTRY_SHORT_ENUMS is not defined by the user (441-444). *)
From Verif Require Import Base Table RouteKey EventConfig TimeConv.
Open Scope N_scope.

(** wolfsentry_errcodes.h 393-449: the codes of Base and the two more of 432-433 *)
Inductive res := Code (e : err) | LIB_MISMATCH | LIBCONFIG_MISMATCH.
(** wolfsentry_settings.h 757-762 *)
Record settings := mkS { version : N; config : N }.
(** the bits of wolfsentry_settings.h 735-752 *)
Definition USER_DEFINED_TYPES : N := 2. Definition THREADSAFE : N := 4. Definition CLOCK_BUILTINS : N := 8. Definition MALLOC_BUILTINS : N := 16.
Definition PROTOCOL_NAMES : N := 64. Definition HAVE_JSON_DOM : N := 512. Definition SHORT_ENUMS : N := 4096. Definition FLAG_MAX : N := 8192.
(** util.c 447: CHECK_CONFIG_MATCHES *)
Definition config_matches (lib caller : settings) (x : N) : bool := N.land (config caller) x =? N.land (config lib) x.
(** util.c 435-461; [lib] holds WOLFSENTRY_VERSION and the library's own configuration *)
Definition compatible (lib caller : settings) : res :=
  if version caller =? 0 then Code INVALID_ARG
  else if negb (version caller =? version lib) then LIB_MISMATCH
  else if negb (N.land (N.ldiff (szmod - 1) (N.shiftl FLAG_MAX 1 - 1)) (config caller) =? 0) then Code INVALID_ARG
  else if negb (config_matches lib caller USER_DEFINED_TYPES) then LIBCONFIG_MISMATCH
  else if negb (config_matches lib caller THREADSAFE) then LIBCONFIG_MISMATCH
  else if negb (config_matches lib caller PROTOCOL_NAMES) then LIBCONFIG_MISMATCH
  else if negb (config_matches lib caller HAVE_JSON_DOM) then LIBCONFIG_MISMATCH
  else if negb (config_matches lib caller SHORT_ENUMS) then LIBCONFIG_MISMATCH
  else Code OK.

(** wolfsentry.h 133-146 (struct wolfsentry_allocator): which of the functions are there *)
Record allocator := mkAl { a_malloc : bool; a_free : bool; a_realloc : bool; a_memalign : bool; a_free_aligned : bool }.
(** wolfsentry.h 175-190 (struct wolfsentry_timecbs) *)
Record timecbs := mkT { t_get : bool; t_diff : bool; t_add : bool; t_to : bool; t_from : bool; t_ito : bool; t_ifrom : bool }.
(** wolfsentry.h 237-249 *)
Record platform := mkP { p_settings : settings; p_alloc : allocator; p_time : timecbs }.
(** util.c 740-756, 3178-3198: everything is there *)
Definition default_allocator : allocator := mkAl true true true true true.
Definition default_timecbs : timecbs := mkT true true true true true true true.

(** what the call takes from the allocator *)
Inductive blk := Context | Events | Actions | Routes | UserValues | ByNumber | ByName | Fallthrough | TrackPeer.
Definition blk_eqb (a b : blk) : bool :=
  match a, b with
  | Context, Context | Events, Events | Actions, Actions | Routes, Routes | UserValues, UserValues | ByNumber, ByNumber | ByName, ByName
  | Fallthrough, Fallthrough | TrackPeer, TrackPeer => true | _, _ => false end.
Inductive lockstate := Uninited | Unlocked | Exclusive.
(** the caller's variable for the context: as it was before the call, NULL, or the address of the new context *)
Inductive pointer := AsBefore | Null | NewContext.
(** blocks taken and not given back, the number of requests so far, the context's lock, the caller's variable *)
Record world := mkW { live : list blk; asked : nat; lk : lockstate; out : pointer }.
Definition start : world := mkW [] 0 Uninited AsBefore.

Section Call.
  Variable off : N.                 (* offsetof(struct wolfsentry_route, data) *)
  Variable lib caller : settings.
  Variable user_hpi : option platform.
  Variable conf : option econf.
  Variable grants : nat -> bool.    (* whether the allocator grants the n-th request *)
  Variable sems : err.              (* the result of wolfsentry_lock_init: OK, or the code of a semaphore that could not be made *)
  Variable user_from : Z -> option Z.  (* the user's interval_from_seconds; None: it fails and writes nothing *)

  Definition alloc (b : blk) (w : world) : bool * world :=
    if grants (asked w) then (true, mkW (b :: live w) (S (asked w)) (lk w) (out w)) else (false, mkW (live w) (S (asked w)) (lk w) (out w)).
  Definition free (b : blk) (w : world) : world := mkW (filter (fun x => negb (blk_eqb x b)) (live w)) (asked w) (lk w) (out w).
  Definition point (p : pointer) (w : world) : world := mkW (live w) (asked w) (lk w) p.
  Definition set_lock (l : lockstate) (w : world) : world := mkW (live w) (asked w) l (out w).
  Definition threadsafe : bool := N.testbit (config lib) 2.

  (** util.c 2978-3000 (wolfsentry_lock_have_mutex); a held lock is held by this thread *)
  Definition have_mutex (w : world) : bool := match lk w with Exclusive => true | _ => false end.
  (** util.c 3476-3514 (wolfsentry_context_free_1); the tables' entries are not freed *)
  Definition context_free_1 (w : world) : world :=
    if threadsafe && negb (have_mutex w) then w
    else point Null (fold_left (fun w b => free b w) [Fallthrough; Routes; Events; Actions; UserValues; ByNumber; ByName; Context] w).

  (** util.c 3561-3571: one after the other, up to the first that fails *)
  Fixpoint alloc_all (bs : list blk) (w : world) : bool * world :=
    match bs with
    | [] => (true, w)
    | b :: bs => let (g, w) := alloc b w in if g then alloc_all bs w else (false, w)
    end.
  Definition tables : list blk := [Events; Actions; Routes; UserValues; ByNumber] ++ (if N.testbit (config lib) 6 then [ByName] else []).
  (** util.c 3544-3601 (wolfsentry_context_alloc_1), with 3516-3542 (wolfsentry_context_init_1) and 1477-1534 (wolfsentry_lock_init).
      Initialising and pairing new tables cannot fail. *)
  Definition context_alloc_1 (w : world) : err * world :=
    let (g, w) := alloc Context w in
    if negb g then (SYS_RESOURCE_FAILED, point Null w)
    else
      let w := point NewContext w in
      let (g, w) := alloc_all tables w in
      if negb g then (SYS_RESOURCE_FAILED, context_free_1 w)
      else if threadsafe then
        if is_success sems then (OK, set_lock Unlocked w) else (sems, context_free_1 w)
      else (OK, w).

  (** routes.c 1066-1095 with 947-998 (wolfsentry_route_new) and 639-653 (wolfsentry_route_init): no addresses; the size of the private
      area, with its padding, is cast to int *)
  Definition fallthrough (i : iconf) (w : world) : err * world :=
    let size := e_size (ic i) in
    let n := sadd off size in
    let n := if N.odd n then sadd n 1 else n in
    let (g, w) := alloc Fallthrough w in
    if negb g then (SYS_RESOURCE_FAILED, w)
    else if 65535 <? u32 size then (NUMERIC_ARG_TOO_BIG, free Fallthrough w)
    else if n <? sadd off (u32 size) then (BUFFER_TOO_SMALL, free Fallthrough w)
    else (OK, w).
  (** action_builtins.c 135-151, actions.c 73-98, 128-165: the mutex is taken and given back; the label is the first of the table *)
  Definition insert_builtins (w : world) : err * world :=
    let (g, w) := alloc TrackPeer w in if g then (OK, w) else (SYS_RESOURCE_FAILED, w).

  (** util.c 3630-3669: the functions to be used *)
  Definition the_allocator : option allocator :=
    match user_hpi with
    | Some p => if a_malloc (p_alloc p) then Some (p_alloc p) else if N.testbit (config lib) 4 then Some default_allocator else None
    | None => if N.testbit (config lib) 4 then Some default_allocator else None
    end.
  Definition the_timecbs : option (timecbs * (Z -> option Z)) :=
    let builtin := if N.testbit (config lib) 3 then Some (default_timecbs, fun s => match from_epoch_time s 0 with TOk r => Some r | _ => None end) else None in
    match user_hpi with
    | Some p => if t_get (p_time p) then Some (p_time p, user_from) else builtin
    | None => builtin
    end.
  (** util.c 3691-3692: the result of the conversion is not looked at *)
  Definition converted (from : Z -> option Z) (s : Z) : Z := match from s with Some t => t | None => s end.
  Definition with_times (from : Z -> option Z) (i : iconf) : iconf :=
    let c := ic i in
    mkI (mkE (e_size c) (e_align c) (e_max_conns c) (e_threshold c) (converted from (e_box c)) (converted from (e_idle c)) (e_flags c) (e_radd c)
             (e_rclr c) (e_fset c) (e_funset c) (e_badd c) (e_bclr c)) (pad i).

  (** util.c 3673-3713: the second half of wolfsentry_init_ex, when the arguments have been checked; the configuration of the new context *)
  Definition build_context (from : Z -> option Z) (w : world) : res * world * option iconf :=
    let (e, w) := context_alloc_1 w in
    if negb (is_success e) then (Code e, w, None)
    else
      let (e, i) := load off conf (mkI zero_econf 0) in
      if negb (is_success e) then (Code e, context_free_1 w, None)
      else
        let i := with_times from i in
        let (e, w) := fallthrough i w in
        if negb (is_success e) then (Code e, context_free_1 w, None)
        else
          let (e, w) := insert_builtins w in
          if negb (is_success e) then (Code e, context_free_1 w, None) else (Code OK, w, Some i).
  (** util.c 3603-3713 (wolfsentry_init_ex) and 3714-3727 (wolfsentry_init) *)
  Definition init : res * world * option iconf :=
    match compatible lib caller with
    | Code OK =>
      if match user_hpi with
         | Some p => (negb (version (p_settings p) =? 0) || negb (config (p_settings p) =? 0)) &&
                     (negb (version (p_settings p) =? version caller) || negb (config (p_settings p) =? config caller))
         | None => false end then (Code INVALID_ARG, start, None)
      else
        match (match conf with Some c => check_conf off c | None => OK end) with
        | OK =>
          match the_allocator with
          | None => (Code IMPLEMENTATION_MISSING, start, None)
          | Some a =>
            if negb (a_malloc a) || negb (a_free a) || negb (a_realloc a) then (Code INVALID_ARG, start, None)
            else if xorb (negb (a_memalign a)) (negb (a_free_aligned a)) then (Code INVALID_ARG, start, None)
            else
              match the_timecbs with
              | None => (Code IMPLEMENTATION_MISSING, start, None)
              | Some (t, from) =>
                if negb (t_get t) || negb (t_diff t) || negb (t_add t) || negb (t_to t) || negb (t_from t) || negb (t_ito t) || negb (t_ifrom t)
                then (Code INVALID_ARG, start, None)
                else if negb (a_memalign a) && match conf with Some c => 0 <? e_align c | None => false end then (Code INVALID_ARG, start, None)
                else build_context from start
              end
          end
        | e => (Code e, start, None)
        end
    | e => (e, start, None)
    end.
End Call.
