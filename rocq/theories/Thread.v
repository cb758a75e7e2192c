(** Thread contexts: identities, deadlines, read-only mode (src/wolfsentry_util.c 786-971, src/wolfsentry_internal.h 72-97).
    wolfsentry_thread_id_t is an unsigned 64-bit word (pthread_t on Linux), arithmetic on it is modulo 2^64; the word
    WOLFSENTRY_THREAD_NO_ID is 0.  Callers run concurrently: a call is one step, or two where the code does two accesses of the
    shared counter.  Allocation (wolfsentry_alloc_thread_context, 814-826) is initialisation of a fresh block, and
    wolfsentry_free_thread_context (894-903) is destruction followed by the release of the block; a failed malloc is not
    modelled.  The lock counts of a context are written by the lock code (RwLock.v); here any values may be put there. *)
From Verif Require Import Base TimeConv.
Open Scope Z_scope.

Definition word : Z := 2 ^ 64.
Definition no_id : Z := 0.

(** internal.h 72-90 (struct wolfsentry_thread_context), without [cache]; [x_busy] is not memory: it says that the call on this
    context has done its first access of the counter and not the second one. *)
Inductive busy := Settled | Wrapping | Reclaiming.
Record ctx := mkX { x_id : Z; x_user : Z; x_sec : Z; x_nsec : Z; x_flags : N; x_rec : Z; x_tracked : bool;
                    x_shared : Z; x_mutex : Z; x_busy : busy }.
(** 884-885: memset to zero, with the identity WOLFSENTRY_THREAD_NO_ID; also memory never initialised. *)
Definition blank : ctx := mkX no_id 0 0 0 0 0 false 0 0 Settled.

(** [t_counter]: fallback_thread_id_counter (786). *)
Record st := mkT { t_counter : Z; t_ctx : nat -> ctx }.
Definition boot : st := mkT no_id (fun _ => blank).
Definition put (s : st) (c : nat) (x : ctx) : st := mkT (t_counter s) (fun d => if Nat.eqb d c then x else t_ctx s d).
Definition bump (s : st) (k : Z) : st := mkT ((t_counter s + k) mod word) (t_ctx s).

Definition DEADLINE : N := 1.  (* wolfsentry.h 268 *)
Definition READONLY : N := 2.  (* wolfsentry.h 270 *)
Definition NEVER : Z := -1.    (* wolfsentry_settings.h 499 *)
Definition NOW : Z := -2.      (* wolfsentry_settings.h 503 *)
(** 797, 808: the identity at which the counter is wound back, and by how much. *)
Definition wind : Z := 0xffffff.
Definition last_id : Z := (no_id - wind) mod word.

(** Calls and their second halves.  [EInit c host flags user]: [host] is the answer of the host's thread-id function (794). *)
Inductive ev :=
| EInit (c : nat) (host : Z) (fl : N) (user : Z) | EWrap (c : nat)
| EDestroy (c : nat) | EReclaim (c : nat)
| ELocks (c : nat) (shared mutex rec : Z) (tracked : bool)
| ERel (c : nat) (now usecs : Z) | EAbs (c : nat) (secs nsecs : Z) | EClear (c : nat)
| EReadOnly (c : nat) | EReadWrite (c : nat).

(** 788-812 (wolfsentry_init_thread_context): the decrement of the counter is one atomic access; if the identity is the last
    one of the range, the increment is another. *)
Definition fresh (id user : Z) (fl : N) (b : busy) : ctx := mkX id user NEVER NEVER fl 0 false 0 0 b.
Definition init (s : st) (c : nat) (host : Z) (fl : N) (user : Z) : st * option err :=
  if host =? no_id then
    let s1 := bump s (-1) in
    let id := t_counter s1 in
    if id =? last_id then (put s1 c (fresh id user fl Wrapping), None)
    else (put s1 c (fresh id user fl Settled), Some S_USED_FALLBACK)
  else (put s c (fresh host user fl Settled), Some OK).
Definition settle (x : ctx) : ctx :=
  mkX (x_id x) (x_user x) (x_sec x) (x_nsec x) (x_flags x) (x_rec x) (x_tracked x) (x_shared x) (x_mutex x) Settled.
Definition wrap (s : st) (c : nat) : st * option err :=
  (bump (put s c (settle (t_ctx s c))) wind, Some S_USED_FALLBACK).

(** 862-892 (wolfsentry_destroy_thread_context): the tests, the read of the counter (881), the compare-and-swap (882), the
    clearing (884-885).  The read is one step (which clears the context at once if the counter is elsewhere), the
    compare-and-swap with the clearing another. *)
Definition locked (x : ctx) : option err :=
  if 0 <? x_shared x then Some BUSY else if x_shared x <? 0 then Some INTERNAL_CHECK_FATAL else
  if 0 <? x_mutex x then Some BUSY else if x_mutex x <? 0 then Some INTERNAL_CHECK_FATAL else
  if negb (x_rec x =? 0) then Some INTERNAL_CHECK_FATAL else
  if x_tracked x then Some INTERNAL_CHECK_FATAL else None.
Definition mark (x : ctx) : ctx :=
  mkX (x_id x) (x_user x) (x_sec x) (x_nsec x) (x_flags x) (x_rec x) (x_tracked x) (x_shared x) (x_mutex x) Reclaiming.
Definition destroy (s : st) (c : nat) : st * option err :=
  let x := t_ctx s c in
  match locked x with
  | Some e => (s, Some e)
  | None => if x_id x =? t_counter s then (put s c (mark x), None) else (put s c blank, Some OK)
  end.
Definition reclaim (s : st) (c : nat) : st * option err :=
  let x := t_ctx s c in
  let s1 := if t_counter s =? x_id x then mkT ((x_id x + 1) mod word) (t_ctx s) else s in
  (put s1 c blank, Some OK).

(** Updates of the deadline and the flags. *)
Definition with_deadline (x : ctx) (sec nsec : Z) (fl : N) : ctx :=
  mkX (x_id x) (x_user x) sec nsec fl (x_rec x) (x_tracked x) (x_shared x) (x_mutex x) (x_busy x).
Definition with_flags (x : ctx) (fl : N) : ctx := with_deadline x (x_sec x) (x_nsec x) fl.

(** 905-928 (wolfsentry_set_deadline_rel_usecs) with the built-in clock functions (TimeConv.v); [None]: undefined behaviour.
    The function that reads the clock is taken to succeed, with the answer [now]. *)
Definition set_rel (x : ctx) (now usecs : Z) : option (ctx * err) :=
  if usecs <? 0 then Some (x, INVALID_ARG)
  else if 0 <? usecs then
    match add_time now usecs with
    | TOk t => match to_epoch_time t with
               | TOk (sec, nsec) => Some (with_deadline x sec nsec (N.lor (x_flags x) DEADLINE), OK)
               | TErr e => Some (x, e)
               | TUB => None
               end
    | TErr e => Some (x, e)
    | TUB => None
    end
  else Some (with_deadline x NOW NOW (N.lor (x_flags x) DEADLINE), OK).
(** 930-945 (wolfsentry_set_deadline_abs). *)
Definition set_abs (x : ctx) (secs nsecs : Z) : ctx * err :=
  if (nsecs <? 0) || (1000000000 <=? nsecs) then (x, INVALID_ARG)
  else if (secs =? NEVER) || (secs =? NOW) then (x, INVALID_ARG)
  else (with_deadline x secs nsecs (N.lor (x_flags x) DEADLINE), OK).
(** 947-956 (wolfsentry_clear_deadline). *)
Definition clear_deadline (x : ctx) : ctx * err := (with_deadline x NEVER NEVER (N.ldiff (x_flags x) DEADLINE), OK).
(** 958-965 (wolfsentry_set_thread_readonly). *)
Definition set_readonly (x : ctx) : ctx * err :=
  if 0 <? x_mutex x then (x, INCOMPATIBLE_STATE) else (with_flags x (N.lor (x_flags x) READONLY), OK).
(** 967-974 (wolfsentry_set_thread_readwrite). *)
Definition set_readwrite (x : ctx) : ctx * err :=
  if x_rec x <? x_shared x then (x, INCOMPATIBLE_STATE) else (with_flags x (N.ldiff (x_flags x) READONLY), OK).

(** 828-835, 837-845, 847-857, 859-865 (wolfsentry_get_thread_id, _user_context, _deadline, _flags), with places to store to;
    internal.h 94-97: a context without identity is refused. *)
Definition get_id (x : ctx) : Z * err := if x_id x =? no_id then (0, INVALID_ARG) else (x_id x, OK).
Definition get_user (x : ctx) : Z * err :=
  if x_id x =? no_id then (0, INVALID_ARG) else if x_user x =? 0 then (0, INVALID_ARG) else (x_user x, OK).
Definition get_deadline (x : ctx) : (Z * Z) * err :=
  if x_id x =? no_id then ((0, 0), INVALID_ARG)
  else if negb (N.eqb (N.land (x_flags x) DEADLINE) 0) then ((x_sec x, x_nsec x), OK) else ((NEVER, NEVER), OK).
Definition get_flags (x : ctx) : N * err := if x_id x =? no_id then (0%N, INVALID_ARG) else (x_flags x, OK).

(** A call on a context with an identity (WOLFSENTRY_THREAD_ASSERT_INITED). *)
Definition on (s : st) (c : nat) (f : ctx -> option (ctx * err)) : option (st * option err) :=
  let x := t_ctx s c in
  if x_id x =? no_id then Some (s, Some INVALID_ARG)
  else match f x with Some (x', e) => Some (put s c x', Some e) | None => None end.

Definition idle (s : st) (c : nat) : bool := match x_busy (t_ctx s c) with Settled => true | _ => false end.

(** One step; [None]: it cannot happen (a call on a context whose previous call has not returned, a second half without its
    first one, memory of a dead context passed to the lock code) or is undefined.  The answer is [None] while the call has not returned. *)
Definition step (s : st) (e : ev) : option (st * option err) :=
  match e with
  | EInit c host fl user => if idle s c then Some (init s c host fl user) else None
  | EWrap c => match x_busy (t_ctx s c) with Wrapping => Some (wrap s c) | _ => None end
  | EDestroy c => if idle s c then
                    if x_id (t_ctx s c) =? no_id then Some (s, Some INVALID_ARG) else Some (destroy s c)
                  else None
  | EReclaim c => match x_busy (t_ctx s c) with Reclaiming => Some (reclaim s c) | _ => None end
  | ELocks c sh mu re tr =>
      let x := t_ctx s c in
      if idle s c && negb (x_id x =? no_id) then
        Some (put s c (mkX (x_id x) (x_user x) (x_sec x) (x_nsec x) (x_flags x) re tr sh mu Settled), Some OK)
      else None
  | ERel c now u => if idle s c then on s c (fun x => set_rel x now u) else None
  | EAbs c a b => if idle s c then on s c (fun x => Some (set_abs x a b)) else None
  | EClear c => if idle s c then on s c (fun x => Some (clear_deadline x)) else None
  | EReadOnly c => if idle s c then on s c (fun x => Some (set_readonly x)) else None
  | EReadWrite c => if idle s c then on s c (fun x => Some (set_readwrite x)) else None
  end.

(** Histories: the calls in order, with their answers. *)
Inductive runs : st -> list (ev * option err) -> st -> Prop :=
| runs_nil s : runs s [] s
| runs_snoc s tr s1 e r s2 : runs s tr s1 -> step s1 e = Some (s2, r) -> runs s (tr ++ [(e, r)]) s2.
