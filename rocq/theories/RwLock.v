(** The read/write lock with promotion reservations (src/wolfsentry_util.c 1477-3036), used by any number of threads.

    Granularity: each critical section under [lock->sem] is one step ([sem] is a correct POSIX semaphore used as a mutex);
    each wait on one of the three waiter semaphores, each access made after waking up, and each lock-free part before a
    critical section is a step of its own.  (The lock-free parts read [state] and then compare [write_lock_holder] or
    [read2write_reservation_holder] with the caller's own ID only; no other thread can make these comparisons come true or
    false, so reading both in one step loses nothing.)
    Not modelled: several locks per thread (tracked_shared_lock is this lock or NULL), calls with a NULL thread,
    WOLFSENTRY_LOCK_FLAG_RETAIN_SEMAPHORE, uninitialised locks, failing semaphore calls, int overflow of the counters. *)
From Verif Require Import Base.
Open Scope Z_scope.

Definition tid := nat.
Inductive lstate := UNLOCKED | SHARED | EXCLUSIVE.                      (* wolfsentry_internal.h 41-47 *)
(** wolfsentry_internal.h 49-68 *)
Record lock := mkL {
  ls : lstate;
  hc : Z;               (* holder_count, a union: readers or writer recursion *)
  rwc : Z;              (* read_waiter_count *)
  wwc : Z;              (* write_waiter_count *)
  r2wc : Z;             (* read2write_waiter_read_count *)
  wh : option tid;      (* write_lock_holder; None is WOLFSENTRY_THREAD_NO_ID *)
  rh : option tid;      (* read2write_reservation_holder *)
  pac : Z;              (* promoted_at_count *)
  sr : Z;               (* value of sem_read_waiters *)
  sw : Z;               (* value of sem_write_waiters *)
  sp : Z }.             (* value of sem_read2write_waiters *)
Definition lock0 : lock := mkL UNLOCKED 0 0 0 0 None None 0 0 0 0.     (* wolfsentry_lock_init, 1477-1534 *)

(** wolfsentry.h 355-377 *)
Record lflags := mkF { nonrec_mutex : bool; nonrec_shared : bool; get_resv : bool; try_resv : bool; abandon_too : bool; auto_down : bool }.
Definition nofl := mkF false false false false false false.
(** abs_timeout: NULL, &timespec_deadline_now (max_wait 0), or a moment in the future. *)
Inductive wmode := Untimed | Try | Timed.

Inductive call :=
| LockShared (w : wmode) (f : lflags)
| LockMutex (w : wmode) (f : lflags)
| Mutex2Shared (f : lflags)
| Reserve | Redeem (w : wmode) | Abandon
| Shared2Mutex (w : wmode)
| Unlock (f : lflags)
| HaveShared | HaveMutex | HaveEither | HaveResv
| DestroyThread.

(** Critical sections, what to do when one of them returns, and where a thread is. *)
Inductive sect := SShared (w : wmode) (f : lflags) | SMutex (w : wmode) | SM2S (f : lflags) | SReserve | SRedeem (w : wmode)
                | SAbandon | SS2M (w : wmode) | SUnlock (f : lflags).
Inductive cont := KRet            (* return the result *)
                | KIncr           (* inside wolfsentry_lock_mutex_abstimed: count the recursion (1961-1966, 1970-1975) *)
                | KBusy           (* inside wolfsentry_lock_shared_abstimed: release and report BUSY (1820-1826, 1835-1839) *)
                | KResv (f : lflags).  (* inside wolfsentry_lock_shared_abstimed: the reservation asked for (1830-1846) *)
Inductive promo := PRedeem | PS2M.
Inductive pc :=
| Idle
| Pre (c : call)                           (* call entered *)
| Crit (s : sect) (k : cont)               (* about to take lock->sem for a critical section *)
| WaitR (w : wmode) (f : lflags)           (* in sem_(timed)wait(&lock->sem_read_waiters) *)
| GotR (f : lflags)
| WaitW (w : wmode)                        (* ... sem_write_waiters *)
| GotW
| WaitP (p : promo) (w : wmode) (k : cont) (* ... sem_read2write_waiters *)
| GotP (p : promo) (k : cont)
| OutR (e : err)                           (* timed out or interrupted, about to take lock->sem for the recovery *)
| OutW (e : err)
| OutP (p : promo) (e : err) (k : cont).

(** wolfsentry_internal.h 72-89; [ro] is WOLFSENTRY_THREAD_FLAG_READONLY. *)
Record thr := mkT { at_ : pc; rec : Z; trk : bool; sc : Z; mrc : Z; ro : bool; ret : option err }.
Definition thr0 (readonly : bool) : thr := mkT Idle 0 false 0 0 readonly None.

Definition is (o : option tid) (i : tid) : bool := match o with Some j => Nat.eqb j i | None => false end.
Definition none (o : option tid) : bool := match o with Some _ => false | None => true end.
Definition want_resv (f : lflags) : bool := get_resv f || try_resv f.
Definition is_try (w : wmode) : bool := match w with Try => true | _ => false end.

(** Setters. *)
Definition at_set (t : thr) (p : pc) : thr := mkT p (rec t) (trk t) (sc t) (mrc t) (ro t) (ret t).
Definition back (t : thr) (e : err) : thr := mkT Idle (rec t) (trk t) (sc t) (mrc t) (ro t) (Some e).
Definition shared_up (t : thr) : thr :=      (* 1808-1814, 1878-1884 *)
  mkT (at_ t) (if trk t then rec t + 1 else 1) true (sc t + 1) (mrc t) (ro t) (ret t).
Definition mrc_add (t : thr) (d : Z) : thr := mkT (at_ t) (rec t) (trk t) (sc t) (mrc t + d) (ro t) (ret t).
(** promotion, own side: 2627-2635, 2458-2468, 2700-2708, 2725-2733: shared counts become mutex counts; [d] is 0, or -1
    where a reservation had already been counted *)
Definition promote_thr (t : thr) (d : Z) : thr :=
  if trk t then mkT (at_ t) 0 false (sc t - rec t) (mrc t + rec t + d) (ro t) (ret t)
  else mkT (at_ t) (rec t) (trk t) (sc t - 1) (mrc t + 1 + d) (ro t) (ret t).

(** A call or an inner call returns [e].  KIncr: 1961-1966, 1970-1975.  KBusy: 1820-1826, 1835-1839.  KResv: 1830-1846. *)
Definition leave (L : lock) (t : thr) (k : cont) (e : err) : lock * thr :=
  match k with
  | KRet => (L, back t e)
  | KIncr => if is_success e then (mkL (ls L) (hc L + 1) (rwc L) (wwc L) (r2wc L) (wh L) (rh L) (pac L) (sr L) (sw L) (sp L), back (mrc_add t 1) OK) else (L, back t e)
  | KBusy => (L, back t (if is_success e then BUSY else e))
  | KResv f => if is_success e then (L, back t S_LOCK_OK_AND_GOT_RESV)
               else match e with
                    | BUSY => if get_resv f then (L, at_set t (Crit (SUnlock f) KBusy)) else (L, back t OK)
                    | _ => (L, back t e)
                    end
  end.

(** wolfsentry_lock_mutex_abstimed up to its critical section: 1928-1983 *)
Definition pre_mutex (L : lock) (t : thr) (i : tid) (w : wmode) (f : lflags) : lock * thr :=
  if ro t then (L, back t NOT_PERMITTED)
  else match ls L with
       | EXCLUSIVE =>
         if is (wh L) i then
           if negb (nonrec_mutex f) then (mkL (ls L) (hc L + 1) (rwc L) (wwc L) (r2wc L) (wh L) (rh L) (pac L) (sr L) (sw L) (sp L), back (mrc_add t 1) OK)
           else (L, back t ALREADY)
         else (L, at_set t (Crit (SMutex w) KRet))
       | SHARED =>
         if is (rh L) i then
           if nonrec_mutex f then (L, back t INCOMPATIBLE_STATE) else (L, at_set t (Crit (SRedeem w) KIncr))
         else if trk t then (L, at_set t (Crit (SS2M w) KIncr))
         else (L, at_set t (Crit (SMutex w) KRet))
       | UNLOCKED => (L, at_set t (Crit (SMutex w) KRet))
       end.
(** wolfsentry_lock_shared2mutex_reserve up to its critical section: 2238-2253 *)
Definition pre_reserve (L : lock) (t : thr) (i : tid) (k : cont) : lock * thr :=
  if ro t then leave L t k NOT_PERMITTED
  else match ls L with
       | EXCLUSIVE => leave L t k (if is (wh L) i then ALREADY else INCOMPATIBLE_STATE)
       | _ => (L, at_set t (Crit SReserve k))
       end.
(** wolfsentry_lock_have_shared 2941-2976, _have_mutex 2978-3000 *)
Definition have_shared (L : lock) (t : thr) : err :=
  match ls L with
  | SHARED => if trk t then S_HAVE_READ_LOCK else if ro t then (if 0 <? sc t then OK else LACKING_READ_LOCK) else LACKING_READ_LOCK
  | _ => LACKING_READ_LOCK
  end.
Definition have_mutex (L : lock) (i : tid) : err :=
  match ls L with EXCLUSIVE => if is (wh L) i then S_HAVE_MUTEX else NOT_PERMITTED | _ => LACKING_MUTEX end.

(** The lock-free beginning of each call. *)
Definition pre (L : lock) (t : thr) (i : tid) (c : call) : lock * thr :=
  match c with
  | LockShared w f =>                                                     (* 1678-1698 *)
    if is (wh L) i then pre_mutex L t i w f
    else if ro t && get_resv f then (L, back t INCOMPATIBLE_STATE)
    else if nonrec_shared f && trk t then (L, back t ALREADY)
    else (L, at_set t (Crit (SShared w f) KRet))
  | LockMutex w f => pre_mutex L t i w f
  | Mutex2Shared f =>                                                     (* 2140-2149 *)
    match ls L with
    | SHARED => (L, back t ALREADY)
    | _ => if trk t then (L, back t INCOMPATIBLE_STATE) else (L, at_set t (Crit (SM2S f) KRet))
    end
  | Reserve => pre_reserve L t i KRet
  | Redeem w =>                                                           (* 2293-2307 *)
    match ls L with
    | EXCLUSIVE => (L, back t (if is (wh L) i then ALREADY else NOT_PERMITTED))
    | _ => (L, at_set t (Crit (SRedeem w) KRet))
    end
  | Abandon =>                                                            (* 2495-2507 *)
    if negb (is (rh L) i) then (L, back t (if none (rh L) then INCOMPATIBLE_STATE else NOT_PERMITTED))
    else (L, at_set t (Crit SAbandon KRet))
  | Shared2Mutex w =>                                                     (* 2544-2571 *)
    if ro t then (L, back t NOT_PERMITTED)
    else match ls L with
         | EXCLUSIVE => (L, back t (if is (wh L) i then OK else NOT_PERMITTED))
         | SHARED => if is (rh L) i then (L, at_set t (Crit (SRedeem w) KRet)) else (L, at_set t (Crit (SS2M w) KRet))
         | UNLOCKED => (L, back t INCOMPATIBLE_STATE)
         end
  | Unlock f =>                                                           (* 2763-2782 *)
    if is (wh L) i && (1 <? hc L) then
      (mkL (ls L) (hc L - 1) (rwc L) (wwc L) (r2wc L) (wh L) (rh L) (pac L) (sr L) (sw L) (sp L), back (mrc_add t (-1)) OK)
    else (L, at_set t (Crit (SUnlock f) KRet))
  | HaveShared => (L, back t (have_shared L t))
  | HaveMutex => (L, back t (have_mutex L i))
  | HaveEither =>                                                         (* 3002-3016 *)
    (L, back t (match have_shared L t with
                | LACKING_READ_LOCK => match have_mutex L i with S_HAVE_MUTEX => S_HAVE_MUTEX | _ => LACKING_READ_LOCK end
                | e => e end))
  | HaveResv => (L, back t (if is (rh L) i then OK else NOT_OK))          (* 3018-3026 *)
  | DestroyThread =>                                                      (* 864-881, without wiping the context *)
    (L, back t (if 0 <? sc t then BUSY else if sc t <? 0 then INTERNAL_CHECK_FATAL
                else if 0 <? mrc t then BUSY else if mrc t <? 0 then INTERNAL_CHECK_FATAL
                else if negb (rec t =? 0) then INTERNAL_CHECK_FATAL else if trk t then INTERNAL_CHECK_FATAL else OK))
  end.

(** The end of wolfsentry_lock_unlock: wake up waiters, 2911-2932.  The loop posts holder_count.read times. *)
Definition notify (L : lock) : lock :=
  if 0 <? wwc L then
    match ls L with
    | UNLOCKED => mkL EXCLUSIVE 1 (rwc L) (wwc L - 1) (r2wc L) (wh L) (rh L) (pac L) (sr L) (sw L + 1) (sp L)
    | _ => L
    end
  else if 0 <? rwc L then
    mkL SHARED (hc L + rwc L) 0 (wwc L) (r2wc L) (wh L) (rh L) (pac L) (sr L + Z.max 0 (hc L + rwc L)) (sw L) (sp L)
  else L.

(** wolfsentry_lock_unlock, the critical section: 2796-2939 *)
Definition crit_unlock (L : lock) (t : thr) (i : tid) (f : lflags) (k : cont) : lock * thr :=
  match ls L with
  | SHARED =>
    let reserved := negb (none (rh L)) in
    let last := negb (abandon_too f) && reserved && (hc L + wwc L =? 2) in
    if last && negb (is (rh L) i) then leave L t k INTERNAL_CHECK_FATAL
    else
      let ab := (abandon_too f || last) && is (rh L) i in                 (* 2802-2827 *)
      let L1 := if ab then mkL (ls L) (hc L - 1) (rwc L) (wwc L) 0 (wh L) None (pac L) (sr L) (sw L) (sp L) else L in
      let t1 := if ab then mrc_add t (-1) else t in
      let t2 := if trk t1                                                 (* 2829-2834 *)
                then mkT (at_ t1) (rec t1 - 1) (negb (rec t1 - 1 =? 0)) (sc t1 - 1) (mrc t1) (ro t1) (ret t1)
                else mkT (at_ t1) (rec t1) (trk t1) (sc t1 - 1) (mrc t1) (ro t1) (ret t1) in
      let h := hc L1 - 1 in
      if h =? 0 then                                                      (* 2836-2837 *)
        leave (notify (mkL UNLOCKED 0 (rwc L1) (wwc L1) (r2wc L1) (wh L1) (rh L1) (pac L1) (sr L1) (sw L1) (sp L1))) t2 k OK
      else if (h =? r2wc L1) && negb (none (rh L1)) && negb (is (rh L1) i) then   (* 2838-2855 *)
        leave (mkL EXCLUSIVE h (rwc L1) (wwc L1 - 1) 0 (rh L1) (rh L1) h (sr L1) (sw L1) (sp L1 + 1)) t2 k OK
      else                                                                (* 2856-2859 *)
        leave (notify (mkL SHARED h (rwc L1) (wwc L1) (if is (rh L1) i then r2wc L1 - 1 else r2wc L1) (wh L1) (rh L1) (pac L1) (sr L1) (sw L1) (sp L1))) t2 k OK
  | EXCLUSIVE =>
    if negb (is (wh L) i) then leave L t k NOT_PERMITTED
    else
      let h := hc L - 1 in let t1 := mrc_add t (-1) in
      let L1 := mkL (ls L) h (rwc L) (wwc L) (r2wc L) (wh L) (rh L) (pac L) (sr L) (sw L) (sp L) in
      if h <? 0 then leave L1 t1 k INTERNAL_CHECK_FATAL
      else if h =? 0 then                                                 (* 2872-2877 *)
        leave (notify (mkL UNLOCKED 0 (rwc L) (wwc L) (r2wc L) None (rh L) 0 (sr L) (sw L) (sp L))) t1 k OK
      else if pac L =? h then                                             (* 2878-2904 *)
        if auto_down f && negb (trk t1) then
          if want_resv f then
            let L2 := mkL SHARED (h + 1) (rwc L) (wwc L) h (wh L) (Some i) 0 (sr L) (sw L) (sp L) in
            leave (notify L2) (mkT (at_ t1) (h + 1) true (sc t1 + (h + 1)) (mrc t1 - h) (ro t1) (ret t1)) k S_LOCK_OK_AND_GOT_RESV
          else leave (notify (mkL SHARED h (rwc L) (wwc L) (r2wc L) (wh L) (rh L) 0 (sr L) (sw L) (sp L))) t1 k OK
        else leave (mkL (ls L) h (rwc L) (wwc L) (r2wc L) (wh L) (rh L) 0 (sr L) (sw L) (sp L)) t1 k OK
      else leave L1 t1 k OK
  | UNLOCKED => leave L t k INCOMPATIBLE_STATE
  end.

(** wolfsentry_lock_mutex2shared, the critical section: 2163-2229 *)
Definition crit_m2s (L : lock) (t : thr) (i : tid) (f : lflags) : lock * thr :=
  match ls L with
  | EXCLUSIVE =>
    if negb (is (wh L) i) then (L, back t NOT_PERMITTED)
    else if (1 <? hc L) && nonrec_shared f then (L, back t INCOMPATIBLE_STATE)
    else if want_resv f && negb (none (rh L)) then (L, back t INTERNAL_CHECK_FATAL)
    else
      let r := want_resv f in
      let t1 := mkT (at_ t) (hc L) true (sc t + hc L) (mrc t + (if r then 1 else 0) - hc L) (ro t) (ret t) in
      let h := hc L + (if r then 1 else 0) in
      let L1 := mkL SHARED h (rwc L) (wwc L) (if r then hc L else r2wc L) None (if r then wh L else rh L) 0 (sr L) (sw L) (sp L) in
      let L2 := if (wwc L =? 0) && (0 <? rwc L)
                then mkL SHARED (h + rwc L) 0 (wwc L) (r2wc L1) None (rh L1) 0 (sr L + rwc L) (sw L) (sp L) else L1 in
      (L2, back t1 OK)
  | _ => (L, back t INCOMPATIBLE_STATE)
  end.

(** The critical section entered first by each call. *)
Definition crit (L : lock) (t : thr) (i : tid) (s : sect) (k : cont) : lock * thr :=
  match s with
  | SShared w f =>                                                        (* 1746-1760, 1850-1904 *)
    let wait := match ls L with EXCLUSIVE => true | _ => (0 <? wwc L) && negb (trk t) end in
    if wait then
      if is_try w then leave L t k BUSY
      else (mkL (ls L) (hc L) (rwc L + 1) (wwc L) (r2wc L) (wh L) (rh L) (pac L) (sr L) (sw L) (sp L), at_set t (WaitR w f))
    else
      let asked := want_resv f && negb (ro t) in
      if asked && negb (none (rh L)) && negb (is (rh L) i) && get_resv f then leave L t k BUSY
      else
        let store := asked && none (rh L) in
        let t1 := shared_up t in
        if store then
          leave (mkL SHARED (hc L + 2) (rwc L) (wwc L) (rec t1) (wh L) (Some i) (pac L) (sr L) (sw L) (sp L)) (mrc_add t1 1) k S_LOCK_OK_AND_GOT_RESV
        else
          leave (mkL SHARED (hc L + 1) (rwc L) (wwc L) (if is (rh L) i then r2wc L + 1 else r2wc L) (wh L) (rh L) (pac L) (sr L) (sw L) (sp L)) t1 k OK
  | SMutex w =>                                                           (* 2029-2042, 2100-2117 *)
    match ls L with
    | UNLOCKED =>
      if negb (hc L =? 0) then leave (mkL EXCLUSIVE (hc L) (rwc L) (wwc L) (r2wc L) (Some i) (rh L) (pac L) (sr L) (sw L) (sp L)) t k INTERNAL_CHECK_FATAL
      else leave (mkL EXCLUSIVE 1 (rwc L) (wwc L) (r2wc L) (Some i) (rh L) (pac L) (sr L) (sw L) (sp L)) (mrc_add t 1) k OK
    | _ =>
      if is_try w then leave L t k BUSY
      else (mkL (ls L) (hc L) (rwc L) (wwc L + 1) (r2wc L) (wh L) (rh L) (pac L) (sr L) (sw L) (sp L), at_set t (WaitW w))
    end
  | SM2S f => crit_m2s L t i f
  | SReserve =>                                                           (* 2267-2289 *)
    match ls L with
    | SHARED =>
      if negb (none (rh L)) then leave L t k BUSY
      else leave (mkL (ls L) (hc L + 1) (rwc L) (wwc L) (rec t) (wh L) (Some i) (pac L) (sr L) (sw L) (sp L)) (mrc_add t 1) k OK
    | _ => leave L t k INCOMPATIBLE_STATE
    end
  | SRedeem w =>                                                          (* 2339-2402 *)
    match ls L with
    | SHARED =>
      if none (rh L) then leave L t k INCOMPATIBLE_STATE
      else if negb (is (rh L) i) then leave L t k NOT_PERMITTED
      else if hc L <? 2 then leave L t k INCOMPATIBLE_STATE
      else if hc L =? r2wc L + 1 then
        let t1 := mkT (at_ t) (if trk t then 0 else rec t) (if trk t then false else trk t) (sc t - r2wc L) (mrc t + r2wc L - 1) (ro t) (ret t) in
        leave (mkL EXCLUSIVE (hc L - 1) (rwc L) (wwc L) 0 (rh L) None (hc L - 1) (sr L) (sw L) (sp L)) t1 k OK
      else if is_try w then leave L t k BUSY
      else (mkL (ls L) (hc L - 1) (rwc L) (wwc L + 1) (if trk t then rec t else 1) (wh L) (rh L) (pac L) (sr L) (sw L) (sp L), at_set t (WaitP PRedeem w k))
    | _ => leave L t k INCOMPATIBLE_STATE
    end
  | SAbandon =>                                                           (* 2521-2536 *)
    match ls L with
    | SHARED => leave (mkL (ls L) (hc L - 1) (rwc L) (wwc L) 0 (wh L) None (pac L) (sr L) (sw L) (sp L)) (mrc_add t (-1)) k OK
    | _ => leave L t k INCOMPATIBLE_STATE
    end
  | SS2M w =>                                                             (* 2605-2659 *)
    match ls L with
    | SHARED =>
      if negb (none (rh L)) then leave L t k BUSY
      else if (hc L =? 1) || (trk t && (hc L =? rec t)) then
        leave (mkL EXCLUSIVE (hc L) (rwc L) (wwc L) (r2wc L) (Some i) (rh L) (pac L) (sr L) (sw L) (sp L)) (promote_thr t 0) k OK
      else if is_try w then leave L t k BUSY
      else (mkL (ls L) (hc L) (rwc L) (wwc L + 1) (if trk t then rec t else 1) (wh L) (Some i) (pac L) (sr L) (sw L) (sp L),
            at_set (mrc_add t 1) (WaitP PS2M w k))
    | _ => leave L t k INCOMPATIBLE_STATE
    end
  | SUnlock f => crit_unlock L t i f k
  end.

(** What the scheduler and the environment decide. *)
Inductive choice :=
| Do (c : call)   (* an idle thread enters a call *)
| Go              (* the thread goes on *)
| Expire (e : err).  (* a timed wait ends without the semaphore: TIMED_OUT or INTERRUPTED; for sem_trywait on lock->sem: BUSY *)

(** May the wait on lock->sem at the head of this section fail, and with what? 1716-1740, 2003-2026, 2315-2335, 2579-2602 *)
Definition may_fail (s : sect) (e : err) : bool :=
  let m w := match w, e with Try, BUSY => true | Timed, TIMED_OUT => true | Timed, INTERRUPTED => true | _, _ => false end in
  match s with SShared w _ => m w | SMutex w => m w | SRedeem w => m w | SS2M w => m w | _ => false end.
Definition wait_err (w : wmode) (e : err) : bool :=
  match w, e with Timed, TIMED_OUT => true | Timed, INTERRUPTED => true | _, _ => false end.

(** One step of thread [i]; None: not possible now. *)
Definition step (L : lock) (t : thr) (i : tid) (ch : choice) : option (lock * thr) :=
  match ch, at_ t with
  | Do c, Idle => Some (L, mkT (Pre c) (rec t) (trk t) (sc t) (mrc t) (ro t) (ret t))
  | Go, Pre c => Some (pre L t i c)
  | Go, Crit s k => Some (crit L t i s k)
  | Expire e, Crit s k => if may_fail s e then Some (leave L t k e) else None
  | Go, WaitR w f =>                                                      (* 1759-1770, 1808-1814 *)
    if 0 <? sr L then Some (mkL (ls L) (hc L) (rwc L) (wwc L) (r2wc L) (wh L) (rh L) (pac L) (sr L - 1) (sw L) (sp L), at_set (shared_up t) (GotR f)) else None
  | Expire e, WaitR w f => if wait_err w e then Some (L, at_set t (OutR e)) else None
  | Go, GotR f =>                                                         (* 1816-1848 *)
    if want_resv f && negb (ro t) then
      if negb (none (rh L)) then
        if get_resv f then Some (L, at_set t (Crit (SUnlock f) KBusy)) else Some (L, back t OK)
      else Some (pre_reserve L t i (KResv f))
    else Some (L, back t OK)
  | Go, WaitW w =>                                                        (* 2041-2052 *)
    if 0 <? sw L then Some (mkL (ls L) (hc L) (rwc L) (wwc L) (r2wc L) (wh L) (rh L) (pac L) (sr L) (sw L - 1) (sp L), at_set t GotW) else None
  | Expire e, WaitW w => if wait_err w e then Some (L, at_set t (OutW e)) else None
  | Go, GotW =>                                                           (* 2093-2097 *)
    Some (mkL (ls L) (hc L) (rwc L) (wwc L) (r2wc L) (Some i) (rh L) (pac L) (sr L) (sw L) (sp L), back (mrc_add t 1) OK)
  | Go, WaitP p w k =>                                                    (* 2403-2414, 2660-2671 *)
    if 0 <? sp L then Some (mkL (ls L) (hc L) (rwc L) (wwc L) (r2wc L) (wh L) (rh L) (pac L) (sr L) (sw L) (sp L - 1), at_set t (GotP p k)) else None
  | Expire e, WaitP p w k => if wait_err w e then Some (L, at_set t (OutP p e k)) else None
  | Go, GotP p k =>                                                       (* 2454-2470, 2722-2735 *)
    let h := match p with PRedeem => Some i | PS2M => rh L end in
    Some (leave (mkL (ls L) (hc L) (rwc L) (wwc L) (r2wc L) h None (pac L) (sr L) (sw L) (sp L)) (promote_thr t (-1)) k OK)
  | Go, OutR e =>                                                         (* 1779-1805 *)
    if 0 <? sr L then Some (mkL (ls L) (hc L) (rwc L) (wwc L) (r2wc L) (wh L) (rh L) (pac L) (sr L - 1) (sw L) (sp L), back t OK)
    else Some (mkL (ls L) (hc L) (rwc L - 1) (wwc L) (r2wc L) (wh L) (rh L) (pac L) (sr L) (sw L) (sp L), back t e)
  | Go, OutW e =>                                                         (* 2061-2090 *)
    if 0 <? sw L then Some (mkL (ls L) (hc L) (rwc L) (wwc L) (r2wc L) (wh L) (rh L) (pac L) (sr L) (sw L - 1) (sp L), back (mrc_add t 1) OK)
    else Some (mkL (ls L) (hc L) (rwc L) (wwc L - 1) (r2wc L) (wh L) (rh L) (pac L) (sr L) (sw L) (sp L), back t e)
  | Go, OutP p e k =>                                                     (* 2423-2452, 2680-2720 *)
    if 0 <? sp L then
      Some (leave (mkL (ls L) (hc L) (rwc L) (wwc L) (r2wc L) (Some i) (rh L) (pac L) (sr L) (sw L) (sp L - 1))
                  (match p with PRedeem => t | PS2M => promote_thr t (-1) end) k OK)
    else match p with
         | PRedeem => Some (leave (mkL (ls L) (hc L + 1) (rwc L) (wwc L - 1) (r2wc L) (wh L) (rh L) (pac L) (sr L) (sw L) (sp L)) t k e)
         | PS2M => Some (leave (mkL (ls L) (hc L) (rwc L) (wwc L - 1) (r2wc L) (wh L) None (pac L) (sr L) (sw L) (sp L)) (mrc_add t (-1)) k e)
         end
  | _, _ => None
  end.

(** wolfsentry_lock_destroy 1591-1657: the answer of its checks (the semaphores are then destroyed; [holder] says whether some
    thread is inside a critical section at that moment). *)
Definition lock_destroy (L : lock) (holder : bool) : err :=
  if holder then INCOMPATIBLE_STATE
  else match ls L with
       | UNLOCKED =>
         if negb (none (wh L)) || negb (none (rh L)) || negb (hc L =? 0) || negb (rwc L =? 0) || negb (wwc L =? 0) || negb (r2wc L =? 0) || negb (pac L =? 0)
         then INTERNAL_CHECK_FATAL
         else if (0 <? sr L) || (0 <? sw L) || (0 <? sp L) then INTERNAL_CHECK_FATAL else OK
       | _ => INCOMPATIBLE_STATE
       end.
