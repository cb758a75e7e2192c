(** The route table as a sorted sequence of routes with its auxiliary fields: last_af_wildcard_route,
    highest_priority_route_in_table and the bitmask-matched families (src/wolfsentry_internal.h 402-425).
    The sequence stands for the doubly linked list of Table.v; C01-C03 with C07_route_table_order justify that. *)
From Verif Require Import Base Addr RouteFlags RouteKey.
Open Scope N_scope.

(** A pointer to a route: null, the route at a position of the table, or a route that has been freed. *)
Inductive rptr := PNull | PAt (i : nat) | PDangling.

Record rtable := mkT {
  t_routes : list route;
  t_last_af : rptr;            (* last_af_wildcard_route *)
  t_highest : N;               (* highest_priority_route_in_table *)
  t_bm : list (N * N) }.       (* bitmask_matching_afs[0 .. n_bitmask_matching_afs-1]: (af, refcount) *)

(** routes.c 4596-4608 (wolfsentry_route_table_init); the rest of the zeroed allocation. *)
Definition t_init : rtable := mkT [] PNull u16_max [].

(** wolfsentry_internal.c 577-591 (wolfsentry_table_cursor_seek): position and comparison result; position
    = length with -1 stands for "point = tail, position -1". *)
Fixpoint seek (l : list route) (r : route) : nat * Z :=
  match l with
  | [] => (O, (-1)%Z)
  | x :: t => let c := route_key_cmp x r in
              if (c >=? 0)%Z then (O, c) else let '(i, c') := seek t r in (S i, c')
  end.

(** wolfsentry/wolfsentry_settings.h 257-259. *)
Definition max_bitmask_afs : nat := 4.

(** routes.c 149-166 (wolfsentry_bitmask_matching_upref); uint16_t refcounts (no WIDE_REFCOUNT). *)
Fixpoint bm_incr (bm : list (N * N)) (af : N) : option (err * list (N * N)) :=
  match bm with
  | [] => None
  | (a, n) :: t =>
    if a =? af then Some (if n =? u16_max then (OVERFLOW_AVERTED, bm) else (OK, (a, n + 1) :: t))
    else match bm_incr t af with Some (e, t') => Some (e, (a, n) :: t') | None => None end
  end.
Definition bm_upref (bm : list (N * N)) (af : N) : err * list (N * N) :=
  match bm_incr bm af with
  | Some x => x
  | None => if (max_bitmask_afs <=? length bm)%nat then (BUFFER_TOO_SMALL, bm) else (OK, bm ++ [(af, 1)])
  end.
(** routes.c 168-182 (wolfsentry_bitmask_matching_downref): the last entry is moved into the hole. *)
Fixpoint bm_decr (bm : list (N * N)) (af : N) (i : nat) : option (nat * N) :=
  match bm with
  | [] => None
  | (a, n) :: t => if a =? af then Some (i, n) else bm_decr t af (S i)
  end.
Fixpoint set_nth {A} (l : list A) (i : nat) (v : A) : list A :=
  match l, i with [], _ => [] | _ :: t, O => v :: t | h :: t, S k => h :: set_nth t k v end.
Definition bm_downref (bm : list (N * N)) (af : N) : err * list (N * N) :=
  match bm_decr bm af O with
  | None => (ITEM_NOT_FOUND, bm)
  | Some (i, n) =>
    if n - 1 =? 0 then
      let m := (length bm - 1)%nat in
      (OK, if (i <? m)%nat then firstn m (set_nth bm i (nth m bm (0, 0))) else firstn m bm)
    else (OK, set_nth bm i (af, n - 1))
  end.
(** routes.c 139-147 (is_bitmask_matching). *)
Definition is_bitmask_matching (bm : list (N * N)) (af : N) : bool := existsb (fun x => fst x =? af) bm.

Definition has_bitmask (r : route) : bool := has (r_flags r) RF_RADDR_BITMASK || has (r_flags r) RF_LADDR_BITMASK.
Definition with_flags (r : route) (f : N) : route :=
  {| r_family := r_family r; r_proto := r_proto r; r_raddr := r_raddr r; r_rlen := r_rlen r; r_rport := r_rport r;
     r_riface := r_riface r; r_laddr := r_laddr r; r_llen := r_llen r; r_lport := r_lport r; r_liface := r_liface r;
     r_flags := f; r_event := r_event r |}.

(** The pointer follows its target when an entry is inserted before it. *)
Definition ptr_shift_insert (p : nat) (q : rptr) : rptr := match q with PAt i => if (p <=? i)%nat then PAt (S i) else PAt i | _ => q end.
Definition ptr_shift_delete (p : nat) (q : rptr) : rptr :=
  match q with PAt i => if (i =? p)%nat then PDangling else if (p <? i)%nat then PAt (pred i) else PAt i | _ => q end.

(** routes.c 1202-1344 (wolfsentry_route_insert_1), as far as the key sequence and the auxiliary fields are
    concerned: counters, purge list and clock are in Purge.v; [actions_ok] says whether the insert actions of the
    parent event succeed (routes.c 1303-1318).  The flags that the event configuration adds and clears
    (1216-1220) are taken as already applied.  A route that fails its insert actions is removed from the table and
    freed by the caller (1395-1396), but the fields set at 1327-1341 and the bitmask reference (1293) stay. *)
Definition rt_insert (t : rtable) (r0 : route) (actions_ok : bool) : err * rtable :=
  if negb (flags_sensical (r_flags r0)) then (INVALID_ARG, t)
  else if has (r_flags r0) RF_IN_TABLE then (ITEM_ALREADY_PRESENT, t)
  else
    let r := with_flags (clamp_wildcard_fields r0) (N.setbit (r_flags r0) RF_IN_TABLE) in
    let '(p, c) := seek (t_routes t) r in
    if (c =? 0)%Z then (ITEM_ALREADY_PRESENT, t)
    else
      let '(e, bm) := if has_bitmask r then bm_upref (t_bm t) (r_family r) else (OK, t_bm t) in
      if negb (is_success e) then (e, t)
      else
        let last0 := ptr_shift_insert p (t_last_af t) in
        let routes := firstn p (t_routes t) ++ r :: skipn p (t_routes t) in
        let last :=
          if has (r_flags r) RF_FAMILY_WILD then
            match last0 with
            | PNull => PAt p
            | PAt i => match nth_error routes i with
                       | Some x => if (route_key_cmp r x <? 0)%Z then PAt p else last0
                       | None => last0
                       end
            | PDangling => PDangling    (* the comparison at 1329 reads a freed route *)
            end
          else last0 in
        let highest := N.min (eff_prio (r_event r)) (t_highest t) in
        if actions_ok then (OK, mkT routes last highest bm)
        else (CALLBACK_ERROR 0, mkT (t_routes t) (ptr_shift_delete p last) highest bm).

(** routes.c 2200-2213: the minimum over the remaining routes, stopping at the first that is not above the old one. *)
Fixpoint rescan (l : list route) (old new : N) : N :=
  match l with
  | [] => new
  | r :: t => let q := eff_prio (r_event r) in
              if q <? new then (if q <=? old then q else rescan t old q) else rescan t old new
  end.
(** routes.c 2146-2220 (wolfsentry_route_delete_0 past the deferral test) on the route at position [p].
    wolfsentry_table_ent_delete_1 has already nulled header.prev (wolfsentry_internal.c 490) when 2190 reads it. *)
Definition rt_delete_at (t : rtable) (p : nat) : rtable :=
  match nth_error (t_routes t) p with
  | None => t
  | Some r =>
    let routes := firstn p (t_routes t) ++ skipn (S p) (t_routes t) in
    let bm := if has_bitmask r then snd (bm_downref (t_bm t) (r_family r)) else t_bm t in
    let last := match t_last_af t with PAt i => if (i =? p)%nat then PNull else ptr_shift_delete p (PAt i) | q => q end in
    let highest := if eff_prio (r_event r) =? t_highest t then rescan routes (t_highest t) u16_max else t_highest t in
    mkT routes last highest bm
  end.
(** routes.c 2223-2248 (wolfsentry_route_delete_1): an exact lookup of an already initialised target, whose
    wildcarded fields are clamped (routes.c 1955). *)
Definition rt_delete (t : rtable) (r0 : route) : err * rtable :=
  let '(p, c) := seek (t_routes t) (clamp_wildcard_fields r0) in
  if (c =? 0)%Z then (OK, rt_delete_at t p) else (ITEM_NOT_FOUND, t).

(** wolfsentry_internal.c 168-194, for routes: the clone's last_af_wildcard_route is the last wildcard-family
    route, its bitmask references are rebuilt in table order. *)
Fixpoint last_wild (l : list route) (i : nat) (acc : rptr) : rptr :=
  match l with [] => acc | r :: t => last_wild t (S i) (if has (r_flags r) RF_FAMILY_WILD then PAt i else acc) end.
Definition rebuild_bm (l : list route) : list (N * N) :=
  fold_left (fun bm r => if has_bitmask r then snd (bm_upref bm (r_family r)) else bm) l [].
Definition rt_clone (t : rtable) : rtable := mkT (t_routes t) (last_wild (t_routes t) O PNull) (t_highest t) (rebuild_bm (t_routes t)).

Inductive rop := RInsert (r : route) (actions_ok : bool) | RDelete (r : route) | RClone.
Definition rt_step (t : rtable) (o : rop) : err * rtable :=
  match o with RInsert r a => rt_insert t r a | RDelete r => rt_delete t r | RClone => (OK, rt_clone t) end.
Fixpoint rt_run (t : rtable) (ops : list rop) : list err * rtable :=
  match ops with [] => ([], t) | o :: os => let '(e, t1) := rt_step t o in let '(es, t2) := rt_run t1 os in (e :: es, t2) end.
