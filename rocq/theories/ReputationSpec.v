(** The reputation counters, one call at a time (C73). *)
From Verif Require Import Base Reputation.
Open Scope Z_scope.
(** Adding: done if the sum is a 16-bit count, else refused and nothing changes.  Resetting: tells the old count. *)
Definition rep (v : Z) (c : call) : Z * (err * option Z) :=
  match c with
  | Add n => if (0 <=? v + n) && (v + n <=? 65535) then (v + n, (OK, Some (v + n))) else (v, (OVERFLOW_AVERTED, None))
  | Reset => (0, (OK, Some v))
  end.
Fixpoint in_order (v : Z) (l : list (nat * call * (err * option Z))) (v' : Z) : Prop :=
  match l with
  | [] => v = v'
  | (_, c, a) :: l => a = snd (rep v c) /\ in_order (fst (rep v c)) l v'
  end.
Definition calls_by (i : nat) (l : list (nat * call * (err * option Z))) : list call :=
  map (fun e => snd (fst e)) (filter (fun e => Nat.eqb (fst (fst e)) i) l).
Definition answers_to (i : nat) (l : list (nat * call * (err * option Z))) : list (err * option Z) :=
  map snd (filter (fun e => Nat.eqb (fst (fst e)) i) l).
(** An int, not INT_MIN, not zero. *)
Definition proper (c : call) : Prop := match c with Add n => - 2 ^ 31 < n < 2 ^ 31 /\ n <> 0 | Reset => True end.
