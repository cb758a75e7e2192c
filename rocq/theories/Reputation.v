(** The reputation counters of a route through the API: src/routes.c 3334-3410 (wolfsentry_route_increment_derogatory_count,
    _increment_commendable_count, _reset_derogatory_count, _reset_commendable_count), in the thread-safe build.  The counters are
    uint16_t; the two pairs of functions differ in the counter only, so one counter is modelled.  The compare-and-swap loops are
    those of Atomic.v. *)
From Verif Require Import Base Atomic.
Open Scope Z_scope.

(** [count_to_add], an int; or the reset. *)
Inductive call := Add (count_to_add : Z) | Reset.
(** 3344, 3348, 3388: the operation on the counter; [None]: negating INT_MIN is undefined. *)
Definition op_of (c : call) : option op :=
  match c with
  | Add n => if 0 <? n then Some (OInc (Z.to_N n))
             else if n =? - 2 ^ 31 then None else Some (ODec (Z.to_N (- n)))
  | Reset => Some OReset
  end.
(** 3345-3356, 3389-3391: what the caller gets: the error code, and what is stored through the pointer, if anything. *)
Definition answer_of (c : call) (r : outv) : err * option Z :=
  match c, r with
  | Add n, Out v => if 0 <? n then if (v =? 0)%N then (OVERFLOW_AVERTED, None) else (OK, Some (Z.of_N v))
                    else if (v =? 65535)%N then (OVERFLOW_AVERTED, None) else (OK, Some (Z.of_N v))
  | Reset, Pre v => (OK, Some (Z.of_N v))
  | _, _ => (INTERNAL_CHECK_FATAL, None) (* no such outcome *)
  end.
Definition ops (l : list call) : list op := flat_map (fun c => match op_of c with Some o => [o] | None => [] end) l.
(** The answers of a thread that has called [l] and whose operations gave [rs]. *)
Definition answers (l : list call) (rs : list outv) : list (err * option Z) := map (fun '(c, r) => answer_of c r) (combine l rs).
