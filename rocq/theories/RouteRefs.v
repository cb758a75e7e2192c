(** The references of cloned routes to their parent events: src/routes.c 1114-1188 (wolfsentry_route_clone, 1168-1180), called for each route
    by src/wolfsentry_internal.c 173-197 (wolfsentry_table_clone) after the events have been cloned (src/wolfsentry_util.c 3881-3966), in
    the store of EventClone.v.  A table of routes is the list of its routes' parent events, in order.  Allocation succeeds; what else a
    route holds is the subject of C36 and C69.  After a failure the routes made so far are given back with their table. *)
Require Import ZArith List Bool.
From Verif Require Import EventClone.
Import ListNotations.
Open Scope Z_scope.

Fixpoint routes_clone (s : store) (dest_events : list nat) (rs : list (option nat)) : store * list (option nat) * Z :=
  match rs with
  | [] => (s, [], 0)
  | None :: rest => let '(s, out, r) := routes_clone s dest_events rest in (s, None :: out, r)
  | Some e :: rest =>
    match table_get (fun y => e_label (evs s y)) dest_events (e_label (evs s e)) with
    | None => (s, [], ITEM_NOT_FOUND)
    | Some y => let '(s, out, r) := routes_clone (add_ref s y 1) dest_events rest in (s, Some y :: out, r)
    end
  end.
(** wolfsentry_context_clone: actions, events, routes; the first error ends it *)
Definition clone_with_routes (s : store) (c : context) (rs : list (option nat)) : store * context * list (option nat) * Z :=
  let '(s, d, r) := clone s c in
  if r <? 0 then (s, d, [], r)
  else let '(s, out, r) := routes_clone s (events d) rs in (s, d, out, r).
