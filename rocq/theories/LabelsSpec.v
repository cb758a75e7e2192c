(** Dictionary order on byte strings. *)
From Verif Require Import Base.
Inductive lex_lt : list N -> list N -> Prop :=
| lex_prefix b r : lex_lt [] (b :: r)
| lex_head a b l r : (a < b)%N -> lex_lt (a :: l) (b :: r)
| lex_tail a l r : lex_lt l r -> lex_lt (a :: l) (a :: r).
