(** The references between the objects of a cloned context: src/wolfsentry_internal.c 71-99 (wolfsentry_table_clone_map), 101-212
    (wolfsentry_table_clone, for the tables of actions and events), 459-476 (wolfsentry_table_ent_get), src/events.c 126-166
    (wolfsentry_event_clone_bare), 172-259 (wolfsentry_event_clone_resolve), src/actions.c 100-125 (wolfsentry_action_clone), 179-214
    (wolfsentry_action_delete), 436-484 (wolfsentry_action_list_clone) and wolfsentry_internal.c 478-527 for the deletion.
    Objects are addresses in a store; a table is the list of the addresses in it, in order.  Of an action, its label and its handler (with
    its argument); of an event, its label, its six lists of actions and its auxiliary event; of both, the reference count, here without
    an upper bound.  Allocation succeeds; IDs, flags and configurations are the subject of C36; locks that of C46. *)
Require Import ZArith List Bool PeanoNat.
Import ListNotations.
Open Scope Z_scope.

Record action := Action { a_label : list Z; a_handler : Z }.
Record event := Event { e_label : list Z; e_lists : list (list nat); e_aux : option nat }.
Record store := Store { acts : nat -> action; evs : nat -> event; refs : nat -> Z; next : nat }.
Record context := Context { actions : list nat; events : list nat }.

Definition upd {A} (f : nat -> A) (a : nat) (v : A) : nat -> A := fun x => if Nat.eqb x a then v else f x.

(** src/actions.c 27-42 (wolfsentry_action_key_cmp_1) and src/events.c 27-41 (wolfsentry_event_key_cmp_1): memcmp over the shorter
    length, then the longer label is the greater one. *)
Fixpoint key_cmp (l r : list Z) : Z :=
  match l, r with
  | [], [] => 0
  | [], _ :: _ => -1
  | _ :: _, [] => 1
  | x :: l, y :: r => if x <? y then -1 else if y <? x then 1 else key_cmp l r
  end.

(** src/wolfsentry_internal.c 459-476 (wolfsentry_table_ent_get), with [label] giving an entry's key. *)
Fixpoint table_get (label : nat -> list Z) (table : list nat) (key : list Z) : option nat :=
  match table with
  | [] => None
  | i :: rest => let c := key_cmp (label i) key in
                 if 0 <=? c then if c =? 0 then Some i else None else table_get label rest key
  end.

(** Reference counts: WOLFSENTRY_REFCOUNT_INCREMENT and the decrement of wolfsentry_action_drop_reference. *)
Definition add_ref (s : store) (x : nat) (d : Z) : store := Store (acts s) (evs s) (upd (refs s) x (refs s x + d)) (next s).

(** src/actions.c 100-125 (wolfsentry_action_clone): the header's reset makes the count 1. *)
Definition action_clone (s : store) (a : nat) : store * nat :=
  (Store (upd (acts s) (next s) (acts s a)) (evs s) (upd (refs s) (next s) 1) (S (next s)), next s).
(** src/events.c 126-166 (wolfsentry_event_clone_bare). *)
Definition event_clone_bare (s : store) (e : nat) : store * nat :=
  (Store (acts s) (upd (evs s) (next s) (Event (e_label (evs s e)) (map (fun _ => []) (e_lists (evs s e))) None))
         (upd (refs s) (next s) 1) (S (next s)), next s).
(** src/wolfsentry_internal.c 173-197: one entry after the other. *)
Fixpoint table_clone (clone_fn : store -> nat -> store * nat) (s : store) (table : list nat) : store * list nat :=
  match table with
  | [] => (s, [])
  | x :: rest => let '(s, y) := clone_fn s x in let '(s, ys) := table_clone clone_fn s rest in (s, y :: ys)
  end.

Definition ITEM_NOT_FOUND : Z := -16.
Definition INTERNAL_CHECK_FATAL : Z := -2.

(** src/actions.c 436-484 (wolfsentry_action_list_clone): [done] is the list made so far.  If an action is not found, the list is
    emptied again, which gives its references back. *)
Fixpoint action_list_clone (s : store) (dest_actions : list nat) (l done : list nat) : store * option (list nat) :=
  match l with
  | [] => (s, Some done)
  | a :: l => match table_get (fun x => a_label (acts s x)) dest_actions (a_label (acts s a)) with
              | None => (fold_left (fun s b => add_ref s b (-1)) done s, None)
              | Some b => action_list_clone (add_ref s b 1) dest_actions l (done ++ [b])
              end
  end.
(** src/events.c 186-250: the six lists, each written to the new event when it is done. *)
Fixpoint action_lists_clone (s : store) (dest_actions : list nat) (new : nat) (ls done : list (list nat)) : store * Z :=
  match ls with
  | [] => (s, 0)
  | l :: ls => match action_list_clone s dest_actions l [] with
               | (s, None) => (s, ITEM_NOT_FOUND)
               | (s, Some l') =>
                 action_lists_clone (Store (acts s) (upd (evs s) new (Event (e_label (evs s new)) (done ++ l' :: map (fun _ => []) ls) (e_aux (evs s new)))) (refs s) (next s))
                                    dest_actions new ls (done ++ [l'])
               end
  end.
(** src/events.c 172-259 (wolfsentry_event_clone_resolve). *)
Definition event_clone_resolve (s : store) (dest : context) (src new : nat) : store * Z :=
  let '(s, r) := action_lists_clone s (actions dest) new (e_lists (evs s src)) [] in
  if r <? 0 then (s, r)
  else match e_aux (evs s src) with
       | None => (s, 0)
       | Some x => match table_get (fun y => e_label (evs s y)) (events dest) (e_label (evs s x)) with
                   | None => (s, ITEM_NOT_FOUND)
                   | Some y => (add_ref (Store (acts s) (upd (evs s) new (Event (e_label (evs s new)) (e_lists (evs s new)) (Some y))) (refs s) (next s)) y 1, 0)
                   end
       end.
(** src/wolfsentry_internal.c 71-99 (wolfsentry_table_clone_map). *)
Fixpoint table_clone_map (s : store) (dest : context) (srcs news : list nat) : store * Z :=
  match srcs, news with
  | [], [] => (s, 0)
  | src :: srcs, new :: news => let '(s, r) := event_clone_resolve s dest src new in
                                if r <? 0 then (s, r) else table_clone_map s dest srcs news
  | _, _ => (s, INTERNAL_CHECK_FATAL)
  end.
(** src/wolfsentry_util.c 3881-3966 (wolfsentry_context_clone without the flag AS_AT_CREATION: the actions, then the events) with src/wolfsentry_internal.c 101-212. *)
Definition clone (s : store) (c : context) : store * context * Z :=
  let '(s, new_actions) := table_clone action_clone s (actions c) in
  let '(s, new_events) := table_clone event_clone_bare s (events c) in
  let dest := Context new_actions new_events in
  let '(s, r) := table_clone_map s dest (events c) new_events in
  (s, dest, r).

(** src/actions.c 179-214 (wolfsentry_action_delete): the action leaves the table and loses the table's reference; events keep theirs. *)
Definition action_delete (s : store) (c : context) (label : list Z) : store * context * Z :=
  match table_get (fun x => a_label (acts s x)) (actions c) label with
  | None => (s, c, ITEM_NOT_FOUND)
  | Some a => (add_ref s a (-1), Context (filter (fun x => negb (Nat.eqb x a)) (actions c)) (events c), 0)
  end.
(** src/actions.c 127-177 (wolfsentry_action_insert) with the sorted insertion of src/wolfsentry_internal.c 27-69; a label that is
    present is refused (-17). *)
Fixpoint sorted_insert (label : nat -> list Z) (x : nat) (table : list nat) : option (list nat) :=
  match table with
  | [] => Some [x]
  | i :: rest => let c := key_cmp (label i) (label x) in
                 if 0 <=? c then if c =? 0 then None else Some (x :: i :: rest)
                 else option_map (cons i) (sorted_insert label x rest)
  end.
Definition action_insert (s : store) (c : context) (label : list Z) (handler : Z) : store * context * Z :=
  let s' := Store (upd (acts s) (next s) (Action label handler)) (evs s) (upd (refs s) (next s) 1) (S (next s)) in
  match sorted_insert (fun x => a_label (acts s' x)) (next s) (actions c) with
  | None => (s, c, -17)
  | Some t => (s', Context t (events c), 0)
  end.
