(** What is asked of timed waits (C72). *)
From Verif Require Import Base Ticks.
Open Scope Z_scope.
(** Tick [t] (counted from boot) is at [t / hz] seconds; the deadline is [sec] seconds and [nsec] nanoseconds after boot. *)
Definition reached (hz t : Z) (d : ts) : Prop := (fst d * ns_per_s + snd d) * hz <= t * ns_per_s.
Definition valid (d : ts) : Prop := 0 <= snd d < ns_per_s.
(** Less than 2^32 - 1 ticks from tick [t], seconds rounded up. *)
Definition near (hz t : Z) (d : ts) : Prop := hz * (fst d - t / hz + 2) < 2 ^ 32 - 1.
