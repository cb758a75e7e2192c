(** Paths as the header describes them (wolfsentry/centijson_value.h 138-171): names and numbers in brackets, separated by slashes. *)
Require Import ZArith List Bool.
From Verif Require Import Dom.
Import ListNotations.
Open Scope Z_scope.

(** A part of a path: a key, an index written with the given digits, or nothing (two slashes in a row). *)
Inductive part := Key (k : list Z) | Index (digits : list Z) | Nothing.
Definition digit (c : Z) : Prop := 48 <= c <= 57.
Fixpoint value_of (digits : list Z) (acc : Z) : Z := match digits with [] => acc | c :: l => value_of l (acc * 10 + (c - 48)) end.
(** The limits the header states (keys have no zero byte, slash or bracket), and numbers that fit into a size_t. *)
Definition proper (x : part) : Prop :=
  match x with
  | Key k => k <> [] /\ Forall (fun c => c <> 0 /\ c <> 47 /\ c <> 91 /\ c <> 93) k
  | Index d => d <> [] /\ Forall digit d /\ value_of d 0 < 2 ^ 64
  | Nothing => True
  end.
Definition text_of (x : part) : list Z := match x with Key k => k | Index d => [91] ++ d ++ [93] | Nothing => [] end.
Fixpoint join (l : list (list Z)) : list Z := match l with [] => [] | [t] => t | t :: l => t ++ [47] ++ join l end.
Definition path_text (l : list part) : list Z := join (map text_of l).

(** The way a path stands for, and where it leads. *)
Definition way_of (l : list part) : loc :=
  flat_map (fun x => match x with Key k => [SKey k] | Index d => [SIdx (Z.to_nat (value_of d 0))] | Nothing => [] end) l.
Definition leads_to (root : dv) (l : list part) : option loc := match get root (way_of l) with Some _ => Some (way_of l) | None => None end.
