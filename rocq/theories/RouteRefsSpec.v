(** Vocabulary of C81. *)
Require Import ZArith List.
From Verif Require Import EventClone EventCloneSpec.
Import ListNotations.
Open Scope Z_scope.

(** The label of each route's parent event. *)
Definition parents (s : store) (rs : list (option nat)) : list (option (list Z)) := map (option_map (fun e => e_label (evs s e))) rs.
(** How many routes have this parent event. *)
Definition children (rs : list (option nat)) (x : nat) : nat :=
  length (filter (fun o => match o with Some y => Nat.eqb y x | None => false end) rs).
(** The parent events exist, in the table or not. *)
Definition parents_exist (s : store) (rs : list (option nat)) : Prop := forall e, In (Some e) rs -> (e < next s)%nat.
(** Every parent event's label is that of an event in the table. *)
Definition parents_known (s : store) (c : context) (rs : list (option nat)) : Prop :=
  forall e, In (Some e) rs -> exists y, In y (events c) /\ e_label (evs s y) = e_label (evs s e).
