(** * What "leaves the lock as it found it" means (claim C46) *)

From Coq Require Import List Bool Arith String.
From Verif Require Import LockBalance.
Import ListNotations.

(* every way of running the function ends with the thread holding both locks
   exactly as often as when it was called *)
Definition balanced (f : stmt) : Prop :=
  forall s t r s', runs f s t (Returns r) s' -> s' = s.

(* the same for the runs on which none of the named outcomes occurs *)
Definition balanced_unless (bad : list (string * bool)) (f : stmt) : Prop :=
  forall s t r s', runs f s t (Returns r) s' ->
    (forall e, In e bad -> ~ In e t) -> s' = s.

(* some run started with [s] ends with [s'] and the given result *)
Definition can_end (f : stmt) (s : holds) (t : trace) (r : bool) (s' : holds) : Prop :=
  runs f s t (Returns r) s'.
