(** Vocabulary of C78. *)
Require Import ZArith List Bool Sorted.
From Verif Require Import EventClone.
Import ListNotations.
Open Scope Z_scope.

(** What is seen of an event: its label, the labels and handlers of the actions in its lists, in order, and the label of its auxiliary
    event.  What is seen of a context: that of its actions and events, in order. *)
Definition seen_event (s : store) (e : nat) : list Z * list (list action) * option (list Z) :=
  (e_label (evs s e), map (map (acts s)) (e_lists (evs s e)), option_map (fun x => e_label (evs s x)) (e_aux (evs s e))).
Definition seen (s : store) (c : context) := (map (acts s) (actions c), map (seen_event s) (events c)).

(** Every object is one that was allocated. *)
Definition allocated (s : store) (c : context) : Prop :=
  (forall a, In a (actions c) -> (a < next s)%nat) /\ (forall e, In e (events c) -> (e < next s)%nat).
(** The tables are in the order of the labels. *)
Definition ordered (s : store) (c : context) : Prop :=
  StronglySorted (fun x y => key_cmp (a_label (acts s x)) (a_label (acts s y)) < 0) (actions c) /\
  StronglySorted (fun x y => key_cmp (e_label (evs s x)) (e_label (evs s y)) < 0) (events c).
(** What an event refers to is in the tables of the same context. *)
Definition closed (s : store) (c : context) : Prop :=
  forall e, In e (events c) -> (forall l a, In l (e_lists (evs s e)) -> In a l -> In a (actions c)) /\ (forall x, e_aux (evs s e) = Some x -> In x (events c)).
(** How often the events of a context refer to an object: as an action, as an auxiliary event. *)
Definition action_uses (s : store) (c : context) (a : nat) : nat :=
  list_sum (map (fun e => count_occ Nat.eq_dec (concat (e_lists (evs s e))) a) (events c)).
Definition aux_uses (s : store) (c : context) (x : nat) : nat :=
  list_sum (map (fun e => match e_aux (evs s e) with Some y => if Nat.eqb y x then 1 else 0 | None => 0 end)%nat (events c)).
(** What an event names: its own label, the labels of its actions, in order, and the label of its auxiliary event. *)
Definition named (s : store) (e : nat) : list Z * list (list (list Z)) * option (list Z) :=
  (e_label (evs s e), map (map (fun a => a_label (acts s a))) (e_lists (evs s e)), option_map (fun x => e_label (evs s x)) (e_aux (evs s e))).
(** The objects the events refer to exist, in the tables or not. *)
Definition existing (s : store) (c : context) : Prop :=
  forall e, In e (events c) -> (forall l a, In l (e_lists (evs s e)) -> In a l -> (a < next s)%nat) /\ (forall x, e_aux (evs s e) = Some x -> (x < next s)%nat).
(** Every name is that of an object in the tables. *)
Definition nameable (s : store) (c : context) : Prop :=
  forall e, In e (events c) -> (forall l a, In l (e_lists (evs s e)) -> In a l -> exists b, In b (actions c) /\ a_label (acts s b) = a_label (acts s a)) /\
    (forall x, e_aux (evs s e) = Some x -> exists y, In y (events c) /\ e_label (evs s y) = e_label (evs s x)).
