(** * Specification: integers as texts, and texts in UTF-8 *)
Require Import ZArith List.
From Verif Require Import JsonSpec.
Import ListNotations.
Open Scope Z_scope.

(** The number a sequence of decimal digits denotes. *)
Definition decimal (l : list Z) : Z := fold_left (fun v c => 10 * v + (c - 48)) l 0.
(** [integer_text l z]: the JSON number [l] has neither fraction nor exponent, and denotes the integer [z]. *)
Inductive integer_text : list Z -> Z -> Prop :=
| integer_plain : forall l, int_part l -> integer_text l (decimal l)
| integer_minus : forall l, int_part l -> integer_text (45 :: l) (- decimal l).
(** Ranges of the integer types. *)
Definition int32 (z : Z) : Prop := - 2 ^ 31 <= z <= 2 ^ 31 - 1.
Definition uint32 (z : Z) : Prop := 0 <= z <= 2 ^ 32 - 1.
Definition int64 (z : Z) : Prop := - 2 ^ 63 <= z <= 2 ^ 63 - 1.
Definition uint64 (z : Z) : Prop := 0 <= z <= 2 ^ 64 - 1.
(** The bytes of a sequence of Unicode scalar values in UTF-8. *)
Definition utf8_text (s : list Z) : Prop := exists cs, Forall scalar cs /\ s = concat (map utf8 cs).
(** Printable ASCII that stands for itself in a JSON string. *)
Definition harmless (c : Z) : Prop := 32 <= c <= 126 /\ c <> 34 /\ c <> 92.
