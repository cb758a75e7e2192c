(** What the counter and flag operations mean when executed one at a time. *)
From Verif Require Import Base Atomic.
Open Scope N_scope.

Definition once (max : N) (o : op) (v : N) : N * outv :=
  match o with
  | OInc x => if v + x <=? max then (v + x, Out (v + x)) else (v, Out 0)
  | ODec x => if x <=? v then (v - x, Out (v - x)) else (v, Out max)
  | OFlags set clr => let v' := N.ldiff (N.lor v set) clr in (v', PrePost v v')
  | OReset => (0, Pre v)
  end.
(** A sequence of completed operations, each by a thread with its result, is a legal one-at-a-time execution from [v] to [v']. *)
Fixpoint one_at_a_time (max v : N) (l : list (nat * op * outv)) (v' : N) : Prop :=
  match l with
  | [] => v = v'
  | (_, o, r) :: l => r = snd (once max o v) /\ one_at_a_time max (fst (once max o v)) l v'
  end.
Definition ops_of (i : nat) (l : list (nat * op * outv)) : list op := map (fun e => snd (fst e)) (filter (fun e => Nat.eqb (fst (fst e)) i) l).
Definition outs_of (i : nat) (l : list (nat * op * outv)) : list outv := map snd (filter (fun e => Nat.eqb (fst (fst e)) i) l).
