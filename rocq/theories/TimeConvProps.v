(** C40: time conversions are inverse and range checked. *)
From Verif Require Import Base TimeConv TimeConvProofs.
Open Scope Z_scope.

(** Every representable time converts, without overflow, to seconds and nanoseconds that denote the same
    instant ([t] counts microseconds), and converts back to itself. *)
Theorem C40_time_roundtrip : forall t, i64_min <= t <= i64_max ->
  exists s ns, to_epoch_time t = TOk (s, ns) /\ s * 1000000000 + ns = t * 1000 /\ Z.abs ns < 1000000000
               /\ from_epoch_time s ns = TOk t.
Proof. exact time_roundtrip_lemma. Qed.
Print Assumptions C40_time_roundtrip.
Example C40_time_roundtrip_ex :
  to_epoch_time 1700000000123456 = TOk (1700000000, 123456000) /\
  from_epoch_time 1700000000 123456000 = TOk 1700000000123456.
Proof. vm_compute. split; reflexivity. Qed.

(** Conversions that would overflow are *not* always refused: seconds below the negative limit, and the
    last second before the positive limit, overflow the signed multiplication/addition (undefined
    behaviour) instead of returning an error (wolfsentry_util.c 3170 checks only the upper bound, and
    without the nanoseconds). *)
Theorem C40_time_overflow_refused_refuted :
  exists s ns s', i64_min <= s <= i64_max /\ 0 <= ns < 1000000000 /\ i64_min <= s' <= i64_max /\
    from_epoch_time s ns = TUB /\ from_epoch_time s' 0 = TUB.
Proof. exists 9223372036854, 999999999, (-9223372036855). vm_compute. intuition discriminate. Qed.
Print Assumptions C40_time_overflow_refused_refuted.

(** What does hold for well-formed non-negative times: up to one second below the limit the conversion is
    exact to the microsecond and inverted by [to_epoch_time]; beyond the limit it is refused.  Missing:
    the boundary second and negative seconds (see the refutation). *)
Theorem C40_from_epoch_partial : forall s ns,
  i64_min <= s <= i64_max -> 0 <= s -> 0 <= ns < 1000000000 ->
  (s <= 9223372036853 ->
     exists t, from_epoch_time s ns = TOk t /\ t = s * 1000000 + ns / 1000 /\
               to_epoch_time t = TOk (s, (ns / 1000) * 1000)) /\
  (9223372036854 < s -> from_epoch_time s ns = TErr NUMERIC_ARG_TOO_BIG).
Proof. exact from_epoch_partial_lemma. Qed.
Print Assumptions C40_from_epoch_partial.

(** Adding an interval and taking the difference again returns the interval; the only other outcome is
    the (unchecked) overflow. *)
Theorem C40_add_diff : forall t d, i64_min <= t <= i64_max -> i64_min <= d <= i64_max ->
  match add_time t d with
  | TOk t' => t' = t + d /\ diff_time t' t = TOk d
  | TErr _ => False
  | TUB => t + d < i64_min \/ i64_max < t + d
  end.
Proof. exact add_diff_lemma. Qed.
Print Assumptions C40_add_diff.
