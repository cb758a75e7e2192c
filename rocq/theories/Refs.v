(** Reference-counted objects: actions, events, routes, user values, address families. *)
From Verif Require Import Base Links Table.
Open Scope N_scope.

(** What decides how an object is taken apart.  An event may have a configuration of its own, allocated separately
    (struct wolfsentry_event, wolfsentry_internal.h). *)
Inductive kind := KAction | KEvent (own_config : bool) | KRoute | KValue | KFamily.
(** The counter (uint32_t header.refcount) and the references the object itself holds: [link] is the aux_event of an event
    or the parent_event of a route, [acts] the actions in the six lists of an event (all lists together, in
    no particular order; the lists themselves are modelled in Actions.v). *)
Record obj := mko { refs : N; link : option addr; acts : list addr; okind : kind }.
Definition olist {A} (o : option A) : list A := match o with Some x => [x] | None => [] end.
Definition kids (o : obj) : list addr := olist (link o) ++ acts o.

(** The allocated objects. *)
Definition heap := list (addr * obj).
Fixpoint get (h : heap) (a : addr) : option obj :=
  match h with [] => None | (b, o) :: h => if Pos.eqb b a then Some o else get h a end.
Definition set (h : heap) (a : addr) (o : obj) : heap := map (fun p => if Pos.eqb (fst p) a then (a, o) else p) h.
Definition free (h : heap) (a : addr) : heap := filter (fun p => negb (Pos.eqb (fst p) a)) h.

(** wolfsentry_internal.h 177-185 (WOLFSENTRY_REFCOUNT_INCREMENT); concurrent use is the subject of Atomic.v. *)
Definition checkout (h : heap) (a : addr) : out (heap * err) :=
  let* o := ub_none (get h a) in
  if u32_max - refs o <? 1 then Ret (h, OVERFLOW_AVERTED) else Ret (set h a (mko (refs o + 1) (link o) (acts o) (okind o)), OK).

Definition has_own_config (h : heap) (a : option addr) : bool :=
  match a with Some a => match get h a with Some o => match okind o with KEvent c => c | _ => false end | None => false end | None => false end.

(** actions.c 253-270, events.c 406-429 with event_free 82-93 and action_list_delete_all 522-543, routes.c 594-617 with
    route_free_1 581-592, kv.c 84-118, addr_families.c 365-393: drop a reference and, if it was the last, everything the object
    holds, then the object.  Result: the heap, whether the object was deallocated, the return code.
    The references are taken out of the dying object one by one (the C code empties the lists and resets aux_event as it
    goes).  A route reads config->config.route_private_data_alignment from its parent event's configuration after having
    dropped its reference to that event (599, 612, 586): undefined behaviour if the event is gone.
    Out of fuel means unbounded recursion. *)
Fixpoint drop (fuel : nat) (h : heap) (a : addr) : out (heap * bool * err) :=
  match fuel with
  | O => Diverge
  | S f =>
    let* o := ub_none (get h a) in
    if refs o =? 0 then Ret (h, false, INTERNAL_CHECK_FATAL)
    else if negb (refs o - 1 =? 0) then Ret (set h a (mko (refs o - 1) (link o) (acts o) (okind o)), false, OK)
    else
      let config := has_own_config h (link o) in
      let* (h, e) := match link o with
                      | Some l => let* (h, _, e) := drop f (set h a (mko 0 None (acts o) (okind o))) l in Ret (h, e)
                      | None => Ret (set h a (mko 0 None (acts o) (okind o)), OK)
                      end in
      let is_route := match okind o with KRoute => true | _ => false end in
      if negb is_route && negb (is_success e) then Ret (h, false, e)
      else
        let* h := (fix all (l : list addr) (h : heap) : out heap :=
                     match l with
                     | [] => Ret h
                     | x :: r => let* (h, _, _) := drop f (set h a (mko 0 None r (okind o))) x in all r h
                     end) (acts o) h in
        if is_route && config && match link o with Some l => match get h l with None => true | Some _ => false end | None => false end then UB
        else Ret (free h a, true, OK)
  end.
(** Recursion is bounded by the references held in the heap. *)
Definition held (h : heap) : nat := length (flat_map (fun p => kids (snd p)) h).

(** The calls; [roots] are the references outside the heap: one for each object in a table and one for each the user (or a
    table's default_event) holds. *)
Record st := mkst { hp : heap; roots : list addr; next : addr }.
Inductive call :=
| New (k : kind) (parent : option addr)   (* wolfsentry_action/event/user_value/addr_family insertion; route_new with a parent event 947-1005 *)
| Get (a : addr)                          (* wolfsentry_*_get_reference, wolfsentry_object_checkout *)
| Drop (a : addr)                         (* wolfsentry_*_drop_reference, and deletion from a table *)
| AddAction (e a : addr) (present : bool) (* wolfsentry_event_action_append / prepend / insert_after: actions.c 330-434; [present]: already in that list *)
| RemoveAction (e a : addr)               (* wolfsentry_event_action_delete: actions.c 487-520 *)
| SetAux (e : addr) (x : option addr).    (* wolfsentry_event_set_aux_event: events.c 608-656 *)
Fixpoint remove1 (a : addr) (l : list addr) : list addr := match l with [] => [] | x :: r => if Pos.eqb x a then r else x :: remove1 a r end.
Definition mem (a : addr) (l : list addr) : bool := existsb (Pos.eqb a) l.
Definition set_acts (h : heap) (e : addr) (l : list addr) : out heap :=
  let* o := ub_none (get h e) in Ret (set h e (mko (refs o) (link o) l (okind o))).
Definition set_link (h : heap) (e : addr) (l : option addr) : out heap :=
  let* o := ub_none (get h e) in Ret (set h e (mko (refs o) l (acts o) (okind o))).
Definition drop_ (h : heap) (a : addr) : out (heap * bool * err) := drop (S (held h)) h a.

Definition exec (s : st) (c : call) : out (st * bool * err) :=
  match c with
  | New k parent =>
    let* (h, e) := match parent with Some p => checkout (hp s) p | None => Ret (hp s, OK) end in
    if is_success e then Ret (mkst ((next s, mko 1 parent [] k) :: h) (next s :: roots s) (Pos.succ (next s)), false, OK)
    else Ret (mkst h (roots s) (next s), false, e)   (* the memory of the route is leaked *)
  | Get a =>
    let* (h, e) := checkout (hp s) a in Ret (mkst h (if is_success e then a :: roots s else roots s) (next s), false, e)
  | Drop a =>
    let* (h, freed, e) := drop_ (hp s) a in Ret (mkst h (remove1 a (roots s)) (next s), freed, e)
  | AddAction ev a present =>
    let* (h, e) := checkout (hp s) a in
    if negb (is_success e) then Ret (mkst h (roots s) (next s), false, e) else
    let* o := ub_none (get h ev) in
    if present then                                            (* actions.c 313-314, 348-353 *)
      let* (h, _, e2) := drop_ h a in Ret (mkst h (roots s) (next s), false, if is_success e2 then ITEM_ALREADY_PRESENT else e2)
    else let* h := set_acts h ev (a :: acts o) in Ret (mkst h (roots s) (next s), false, OK)
  | RemoveAction ev a =>
    let* o := ub_none (get (hp s) ev) in
    if mem a (acts o) then
      let* h := set_acts (hp s) ev (remove1 a (acts o)) in
      let* (h, _, _) := drop_ h a in Ret (mkst h (roots s) (next s), false, OK)
    else Ret (s, false, ITEM_NOT_FOUND)
  | SetAux ev x =>
    let* (h, e) := checkout (hp s) ev in
    if negb (is_success e) then Ret (mkst h (roots s) (next s), false, e) else
    let* (h, e) := match x with Some x => checkout h x | None => Ret (h, OK) end in
    if negb (is_success e) then let* (h, _, _) := drop_ h ev in Ret (mkst h (roots s) (next s), false, e)
    else
      let* o := ub_none (get h ev) in
      let* h := set_link h ev None in
      let* h := match link o with Some l => let* (h, _, _) := drop_ h l in Ret h | None => Ret h end in
      let* h := set_link h ev x in
      let* (h, _, _) := drop_ h ev in Ret (mkst h (roots s) (next s), false, OK)
  end.
