(** * Writing byte strings as text, for specifications and examples *)
Require Import ZArith List String Ascii.
Import ListNotations.
Open Scope Z_scope.

Fixpoint bytes (s : string) : list Z :=
  match s with
  | EmptyString => []
  | String a s' => Z.of_nat (nat_of_ascii a) :: bytes s'
  end.

(** In the text of an example, ['] stands for a quotation mark. *)
Definition text (s : string) : list Z :=
  map (fun c => if c =? 39 then 34 else c) (bytes s).
