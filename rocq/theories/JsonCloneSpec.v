(** Vocabulary of C76. *)
Require Import ZArith List Bool.
From Verif Require Import JsonClone.
Import ListNotations.

(** A value with nothing uninitialised in it. *)
Inductive whole : cv -> Prop :=
| whole_leaf x : whole (Leaf x)
| whole_arr a l : Forall whole l -> whole (Arr a l)
| whole_obj o m : Forall (fun kx => whole (snd kx)) m -> whole (Obj o m).
(** No dictionary in it keeps the order of addition. *)
Inductive unordered : cv -> Prop :=
| un_leaf x : unordered (Leaf x)
| un_arr a l : Forall unordered l -> unordered (Arr a l)
| un_obj m : Forall (fun kx => unordered (snd kx)) m -> unordered (Obj false m).
