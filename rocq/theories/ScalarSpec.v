(** What it means that a JSON value holds something: the vocabulary of C74. *)
Require Import ZArith List Bool.
From Verif Require Import Scalar.
Import ListNotations.
Open Scope Z_scope.

(** The values of an integer type. *)
Definition in_range (t : vtype) (z : Z) : Prop :=
  match t with
  | TInt32 => - 2 ^ 31 <= z < 2 ^ 31
  | TUint32 => 0 <= z < 2 ^ 32
  | TInt64 => - 2 ^ 63 <= z < 2 ^ 63
  | TUint64 => 0 <= z < 2 ^ 64
  | _ => False
  end.
Definition bits (t : vtype) : Z := match t with TInt32 | TUint32 => 32 | _ => 64 end.

(** A JSON_VALUE variable with anything in it; an allocator that answers with as much memory as it is asked for, holding anything. *)
Definition variable (v : jv) : Prop := length (v_in v) = 15%nat.
Definition allocator (heap : nat -> option (list Z)) : Prop := forall n b, heap n = Some b -> length b = n.

(** The getters of strings: the type, the length, and a pointer to the string followed by a zero byte (so that reading as many
    bytes from the pointer on stays inside). *)
Definition holds_string (v : jv) (s : list Z) : Prop :=
  type_is v TString = true /\ string_length v = Some (Z.of_nat (length s)) /\
  exists o, get_string v = Some (Some o) /\ rds (payload v) o (length s + 1) = Some (s ++ [0]).

(** [v] has type [t] (as json_value_type tells) and no other. *)
Definition has_type (v : jv) (t : vtype) : Prop := forall u, type_is v u = true <-> u = t.
