(** Timed waits on FreeRTOS: src/wolfsentry_util.c 764-774, 1118-1394.  TickType_t is 32 bits wide, time_t 64, [hz] is
    configTICK_RATE_HZ.  Signed overflow is [None].  NULL arguments other than the deadline are not modelled. *)
From Verif Require Import Base TimeConv.
Open Scope Z_scope.

Definition ns_per_s : Z := 1000000000.             (* wolfsentry_settings.h 104 *)
Definition ns_per_tick (hz : Z) : Z := Z.quot ns_per_s hz. (* wolfsentry_settings.h 105 *)
Definition max_delay : Z := 2 ^ 32 - 1.            (* portMAX_DELAY *)
Definition ETIMEDOUT : Z := 110.
Definition EINVAL : Z := 22.
Definition EAGAIN : Z := 11.
Definition ts := (Z * Z)%type.                     (* struct timespec: tv_sec, tv_nsec *)

(** 764-774 (freertos_now): [ticks] is the tick count since boot, with its overflows. *)
Definition freertos_now (hz ticks : Z) : ts := (Z.quot ticks hz, Z.quot (Z.rem ticks hz * ns_per_s) hz).

(** 1118-1162 (UTILS_TimespecCompare). *)
Definition compare (x y : ts) : Z :=
  if fst y <? fst x then 1 else if fst x <? fst y then -1
  else if snd y <? snd x then 1 else if snd x <? snd y then -1 else 0.

(** 1164-1217 (UTILS_TimespecSubtract): status and difference. *)
Definition subtract (x y : ts) : Z * ts :=
  let c := compare x y in
  if c =? -1 then (1, (0, 0)) else if c =? 0 then (0, (0, 0))
  else let s := fst x - fst y in
       let n := snd x - snd y in
       let '(s, n) := if n <? 0 then (s - 1, n + ns_per_s) else (s, n) in
       ((if n <? 0 then -1 else 0), (s, n)).

(** 1219-1234 (UTILS_ValidateTimespec). *)
Definition validate (x : ts) : bool := (0 <=? snd x) && (snd x <? ns_per_s).

(** 1236-1292 (UTILS_TimespecToTicks): status and the ticks, cut to 32 bits even when they do not fit (1289). *)
Definition to_ticks (hz : Z) (d : ts) : option (Z * Z) :=
  if negb (validate d) then Some (EINVAL, max_delay)
  else
    let a := hz * fst d in
    let n := Z.quot (snd d) (ns_per_tick hz) + (if Z.rem (snd d) (ns_per_tick hz) =? 0 then 0 else 1) in
    if in_i64 a && in_i64 (a + n) then
      let total := a + n in
      Some ((if total <? 0 then EINVAL else if max_delay <? total then EINVAL else 0), total mod 2 ^ 32)
    else None.

(** 1294-1330 (UTILS_AbsoluteTimespecToDeltaTicks); the result is as it was (portMAX_DELAY) when it is not written. *)
Definition delta_ticks (hz : Z) (abs now : ts) : option (Z * Z) :=
  let '(st, d) := subtract abs now in
  if st =? 1 then Some (ETIMEDOUT, max_delay) else if st =? -1 then Some (EINVAL, max_delay) else to_ticks hz d.

(** 1332-1362 (freertos_sem_timedwait, first half): status and delay; [None] as a deadline is the null pointer. *)
Definition delay_of (hz ticks : Z) (abs : option ts) : option (Z * Z) :=
  match abs with
  | None => Some (0, max_delay)
  | Some a =>
      if negb (validate a) then Some (EINVAL, 0)
      else match delta_ticks hz a (freertos_now hz ticks) with
           | None => None
           | Some (st, d) => Some (st, if st =? ETIMEDOUT then 0 else d)
           end
  end.

(** xSemaphoreTake: the semaphore becomes available to the caller [avail] ticks from now, if ever; with portMAX_DELAY the wait is
    not bounded (INCLUDE_vTaskSuspend).  Outcomes: taken, or given up with errno, after so many ticks; or no return. *)
Inductive outcome := Taken (after : Z) | Failed (errno after : Z) | Forever.
Definition take (avail : option Z) (delay errno : Z) : outcome :=
  match avail with
  | Some w => if (w <=? delay) || (delay =? max_delay) then Taken w else Failed errno delay
  | None => if delay =? max_delay then Forever else Failed errno delay
  end.
(** 1364-1388 (second half of freertos_sem_timedwait). *)
Definition timedwait (hz ticks : Z) (abs : option ts) (avail : option Z) : option outcome :=
  match delay_of hz ticks abs with
  | None => None
  | Some (st, d) => Some (take avail d (if st =? 0 then ETIMEDOUT else st))
  end.
(** 1394-1397 (freertos_sem_wait), 1401-1418 (freertos_sem_trywait). *)
Definition sem_wait (hz ticks : Z) (avail : option Z) := timedwait hz ticks None avail.
Definition trywait (hz ticks : Z) (avail : option Z) : option outcome :=
  match timedwait hz ticks (Some (0, 0)) avail with
  | Some (Failed e d) => Some (Failed (if e =? ETIMEDOUT then EAGAIN else e) d)
  | o => o
  end.
