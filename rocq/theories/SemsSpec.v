(** Locks that can be used, and locks of which nothing is left. *)
From Verif Require Import Base Sems.
Open Scope Z_scope.

Definition usable (k : lk) : Prop := state k = FREE /\ value k SLock = Some 1 /\ value k SRead = Some 0 /\ value k SWrite = Some 0 /\ value k SUpgrade = Some 0.
Definition gone (k : lk) : Prop := forall s, value k s = None.
(** no flag that belongs to a single call: bits 4, 5, 6 (reservations) and 8 (retain the semaphore) *)
Definition lock_flags (f : N) : Prop := forall i, In i [4; 5; 6; 8]%N -> N.testbit f i = false.
(** the platform does what it is asked, from now on for n calls *)
Definition serves (ok : nat -> bool) (k : lk) (n : nat) : Prop := forall i, (i < n)%nat -> ok (calls k + i)%nat = true.
(** nobody has been here *)
Definition fresh (k : lk) : Prop := gone k /\ state k = UNINITED /\ twice k = [].
