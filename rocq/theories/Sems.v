(** The semaphores of a lock, from its making to its end: src/wolfsentry_util.c 1477-1562 (wolfsentry_lock_init, wolfsentry_lock_alloc),
    1591-1672 (wolfsentry_lock_destroy, wolfsentry_lock_free).
    The other threads are quiet during these calls.  sem_trywait is repeated on EINTR (1603-1605) and fails with EAGAIN on zero.  The
    arguments are not NULL and the thread is absent or initialised.  What a lock does in between is RwLock.v. *)
From Verif Require Import Base.
Open Scope Z_scope.

(** wolfsentry_internal.h 56-83: lock->sem, sem_read_waiters, sem_write_waiters, sem_read2write_waiters *)
Inductive sem := SLock | SRead | SWrite | SUpgrade.
Definition sem_eqb (a b : sem) : bool := match a, b with SLock, SLock | SRead, SRead | SWrite, SWrite | SUpgrade, SUpgrade => true | _, _ => false end.
(** lock->state, as far as these calls look at it *)
Inductive lstate := UNINITED | FREE | IN_USE.
(** [value]: None for a semaphore that does not exist.  [calls]: the calls to the platform so far.  [twice]: the semaphores that were
    initialised although they existed (undefined for POSIX).  [block]: whether the memory of the lock is allocated (wolfsentry_lock_alloc). *)
Record lk := mkK { value : sem -> option Z; calls : nat; twice : list sem; state : lstate; block : bool }.
Definition set (s : sem) (v : option Z) (k : lk) : lk := mkK (fun x => if sem_eqb x s then v else value k x) (calls k) (twice k) (state k) (block k).
Definition tick (k : lk) : lk := mkK (value k) (S (calls k)) (twice k) (state k) (block k).
Definition with_state (st : lstate) (k : lk) : lk := mkK (value k) (calls k) (twice k) st (block k).
Definition with_block (b : bool) (k : lk) : lk := mkK (value k) (calls k) (twice k) (state k) b.
Definition nothing : lk := mkK (fun _ => None) 0 [] UNINITED false.

Section Platform.
  Variable ok : nat -> bool.   (* whether the n-th call of sem_init, sem_post or sem_destroy succeeds *)
  (** sem_init(3) *)
  Definition sem_init (s : sem) (v : Z) (k : lk) : bool * lk :=
    if ok (calls k) then
      (true, tick (mkK (value (set s (Some v) k)) (calls k) (match value k s with Some _ => s :: twice k | None => twice k end) (state k) (block k)))
    else (false, tick k).
  (** sem_post(3) *)
  Definition sem_post (s : sem) (k : lk) : bool * lk :=
    match value k s with Some v => if ok (calls k) then (true, tick (set s (Some (v + 1)) k)) else (false, tick k) | None => (false, tick k) end.
  (** sem_trywait(3) *)
  Definition sem_trywait (s : sem) (k : lk) : bool * lk :=
    match value k s with Some v => if 0 <? v then (true, set s (Some (v - 1)) k) else (false, k) | None => (false, k) end.
  (** sem_destroy(3) *)
  Definition sem_destroy (s : sem) (k : lk) : bool * lk :=
    match value k s with Some _ => if ok (calls k) then (true, tick (set s None k)) else (false, tick k) | None => (false, tick k) end.

  (** 1485-1488: RETAIN_SEMAPHORE, GET_RESERVATION_TOO, TRY_RESERVATION_TOO, ABANDON_RESERVATION_TOO (wolfsentry.h 355-377) *)
  Definition per_call_flags : N := 16 + 32 + 64 + 256.
  (** 1521-1534: what stands where the semaphores made so far should be given back *)
  Definition free_sem (e : err) (k : lk) : err * lk :=
    let (g, k) := sem_init SLock 1 k in if g then (e, k) else (SYS_RESOURCE_FAILED, k).
  Definition free_read_waiters (e : err) (k : lk) : err * lk :=
    let (g, k) := sem_init SRead 0 k in if g then free_sem e k else (SYS_RESOURCE_FAILED, k).
  Definition free_write_waiters (e : err) (k : lk) : err * lk :=
    let (g, k) := sem_init SWrite 0 k in if g then free_read_waiters e k else (SYS_RESOURCE_FAILED, k).
  (** 1477-1519 *)
  Definition lock_init (flags : N) (k : lk) : err * lk :=
    if negb (N.land flags per_call_flags =? 0)%N then (INVALID_ARG, k)
    else
      let (g, k) := sem_init SLock 0 k in
      if negb g then (SYS_RESOURCE_FAILED, k) else
      let (g, k) := sem_post SLock k in
      if negb g then (SYS_OP_FATAL, k) else
      let (g, k) := sem_init SRead 0 k in
      if negb g then free_sem SYS_RESOURCE_FAILED k else
      let (g, k) := sem_init SWrite 0 k in
      if negb g then free_read_waiters SYS_RESOURCE_FAILED k else
      let (g, k) := sem_init SUpgrade 0 k in
      if negb g then free_write_waiters SYS_RESOURCE_FAILED k else
      (OK, with_state FREE k).
  (** 1540-1562; [room]: malloc succeeds; 1: WOLFSENTRY_LOCK_FLAG_PSHARED *)
  Definition lock_alloc (room : bool) (flags : N) (k : lk) : err * lk :=
    if negb (N.land flags 1 =? 0)%N then (IMPLEMENTATION_MISSING, k)
    else if negb room then (SYS_RESOURCE_FAILED, k)
    else
      let (e, k) := lock_init flags (with_block true k) in
      if is_success e then (e, k) else (e, with_block false k).

  (** 1591-1658; [corrupt]: a holder or a count is left although the state is UNLOCKED (1620-1627) *)
  Definition lock_destroy (corrupt : bool) (k : lk) : err * lk :=
    match state k with
    | UNINITED => (INVALID_ARG, k)
    | _ =>
      let (g, k) := sem_trywait SLock k in
      if negb g then (INCOMPATIBLE_STATE, k) else
      match state k with
      | FREE =>
        if corrupt then let (g, k) := sem_post SLock k in (if g then INTERNAL_CHECK_FATAL else SYS_OP_FATAL, k)
        else
          let (g, k) := sem_trywait SLock k in if g then (INTERNAL_CHECK_FATAL, k) else
          let (g, k) := sem_trywait SRead k in if g then (INTERNAL_CHECK_FATAL, k) else
          let (g, k) := sem_trywait SWrite k in if g then (INTERNAL_CHECK_FATAL, k) else
          let (g, k) := sem_trywait SUpgrade k in if g then (INTERNAL_CHECK_FATAL, k) else
          let (g, k) := sem_destroy SLock k in if negb g then (SYS_OP_FATAL, k) else
          let (g, k) := sem_destroy SRead k in if negb g then (SYS_OP_FATAL, k) else
          let (g, k) := sem_destroy SWrite k in if negb g then (SYS_OP_FATAL, k) else
          let (g, k) := sem_destroy SUpgrade k in if negb g then (SYS_OP_FATAL, k) else
          (OK, with_state UNINITED k)
      | _ => let (g, k) := sem_post SLock k in (if g then INCOMPATIBLE_STATE else SYS_OP_FATAL, k)
      end
    end.
  (** 1660-1672 *)
  Definition lock_free (corrupt : bool) (k : lk) : err * lk :=
    match state k with
    | UNINITED => (OK, with_block false k)
    | _ => let (e, k) := lock_destroy corrupt k in if is_success e then (OK, with_block false k) else (e, k)
    end.
End Platform.
