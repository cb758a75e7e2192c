(** Built-in time conversions: src/wolfsentry_util.c 3130-3200.
    wolfsentry_time_t, time_t and long are taken as 64-bit signed (LP64).  Signed overflow is the
    outcome [TUB], not a wrapped value. *)
From Verif Require Import Base.
Open Scope Z_scope.

Inductive tout (A : Type) := TOk (a : A) | TErr (e : err) | TUB.
Arguments TOk {A}. Arguments TErr {A}. Arguments TUB {A}.

Definition in_i64 (z : Z) : bool := (i64_min <=? z) && (z <=? i64_max).

(** util.c 3153-3155 (wolfsentry_builtin_diff_time). *)
Definition diff_time (later earlier : Z) : tout Z :=
  if in_i64 (later - earlier) then TOk (later - earlier) else TUB.

(** util.c 3157-3159 (wolfsentry_builtin_add_time). *)
Definition add_time (start interval : Z) : tout Z :=
  if in_i64 (start + interval) then TOk (start + interval) else TUB.

(** util.c 3161-3167 (wolfsentry_builtin_to_epoch_time): C division truncates towards zero. *)
Definition to_epoch_time (when : Z) : tout (Z * Z) :=
  if Z.quot when 1000000 >? i64_max then TErr NUMERIC_ARG_TOO_BIG
  else if in_i64 (Z.rem when 1000000 * 1000)
       then TOk (Z.quot when 1000000, Z.rem when 1000000 * 1000) else TUB.

(** util.c 3169-3174 (wolfsentry_builtin_from_epoch_time). *)
Definition from_epoch_time (secs nsecs : Z) : tout Z :=
  if secs >? Z.quot i64_max 1000000 then TErr NUMERIC_ARG_TOO_BIG
  else if in_i64 (secs * 1000000) && in_i64 (secs * 1000000 + Z.quot nsecs 1000)
       then TOk (secs * 1000000 + Z.quot nsecs 1000) else TUB.
