(** Life cycle of the routes of a table: insertion, (deferred) deletion, purging.
    src/routes.c 1202-1402 (route_insert_1, _insert_2), 2049-2069 (max_purgeable_routes_set), 2071-2089 (max_purgeable_idle_time_set),
    2120-2222 (route_delete_0), 2224-2348 (delete by key and by id), 2395-2421 and 2487-2510 (the purging and the connection counting of
    event_dispatch_0), 2992-3118 (purge list, purge_time_set, stale_purge_1), 3119-3267 (the purge, flush and bulk-action entry points);
    src/wolfsentry_ll.h 39-113; src/actions.c 557-610 (once-flags of the insert and delete action lists).

    Modelled at pointer level: the purge list (links, head, tail, length) and the lifetime of the route objects.
    Simplified: keys are numbers (the order of real keys is in RouteKey.v, and the table itself at pointer level in Table.v: here it is the
    sorted sequence those files prove it represents); times are unbounded integers (the C code would have undefined behaviour on overflow);
    the length of the purge list is an unbounded integer (uint32_t in the code); a freed address is not used again;
    action handlers do not call back into the route functions; bit mask statistics, wildcards and priorities are in RouteTable.v;
    allocation of the route and of its ID does not fail (see RouteKey.v, Table.v).  One call at a time; locks are in RwLock.v. *)
From Verif Require Import Base Links Table Keyed.
Open Scope Z_scope.

(** What route_insert_1 and route_delete_0 read of a route's parent event: 1213/2384 route_idle_time_for_purge of its config (or of the
    default one), 1293 and 2162: whether the insert and delete action lists are non-empty. *)
Record pev := mkev { e_idle : Z; e_ins : bool; e_del : bool }.
(** wolfsentry_internal.h 362-402: struct wolfsentry_route, the members concerned.  [r_in]: header.parent_table != NULL (and flag IN_TABLE);
    [r_ic], [r_dc]: flags INSERT_ACTIONS_CALLED and DELETE_ACTIONS_CALLED. *)
Record robj := mkr { r_key : N; r_ev : N; r_in : bool; r_pend : bool; r_ic : bool; r_dc : bool;
                     r_conns : N; r_purge : Z; r_hit : Z; r_refs : N }.
(** What an observer sees happen to a route object: its insert actions are run, its delete actions are run, it leaves the table. *)
Inductive happening := Inserted (a : addr) | Deleted (a : addr) | Gone (a : addr).
(** wolfsentry_internal.h 404-420: struct wolfsentry_route_table (purge_list, max_purgeable_routes, max_purgeable_idle_time), the route
    objects and their purge_links. *)
Record pst := mkp {
  ob : addr -> option robj; lk : lheap; hd : lhdr; len : Z;
  tb : list (N * addr); maxp : Z; maxidle : Z; evs : N -> pev; brk : addr; log : list happening }.

Definition set_obj (s : pst) (a : addr) (r : option robj) : pst :=
  mkp (upd (ob s) a r) (lk s) (hd s) (len s) (tb s) (maxp s) (maxidle s) (evs s) (brk s) (log s).
Definition set_list (s : pst) (h : lheap) (hdr : lhdr) (n : Z) : pst :=
  mkp (ob s) h hdr n (tb s) (maxp s) (maxidle s) (evs s) (brk s) (log s).
Definition set_tb (s : pst) (t : list (N * addr)) : pst :=
  mkp (ob s) (lk s) (hd s) (len s) t (maxp s) (maxidle s) (evs s) (brk s) (log s).
Definition set_max (s : pst) (v : Z) : pst :=
  mkp (ob s) (lk s) (hd s) (len s) (tb s) v (maxidle s) (evs s) (brk s) (log s).
Definition set_maxidle (s : pst) (v : Z) : pst :=
  mkp (ob s) (lk s) (hd s) (len s) (tb s) (maxp s) v (evs s) (brk s) (log s).
Definition set_evs (s : pst) (v : N -> pev) : pst :=
  mkp (ob s) (lk s) (hd s) (len s) (tb s) (maxp s) (maxidle s) v (brk s) (log s).
Definition say (s : pst) (h : happening) : pst :=
  mkp (ob s) (lk s) (hd s) (len s) (tb s) (maxp s) (maxidle s) (evs s) (brk s) (log s ++ [h]).
(** Allocation of a route; route_init resets purge_links (699, 845). *)
Definition alloc (s : pst) (r : robj) : addr * pst :=
  (brk s, mkp (upd (ob s) (brk s) (Some r)) (upd (lk s) (brk s) (Some (mklnk None None))) (hd s) (len s) (tb s) (maxp s) (maxidle s)
              (evs s) (Pos.succ (brk s)) (log s)).
Definition free (s : pst) (a : addr) : pst :=
  mkp (upd (ob s) a None) (upd (lk s) a None) (hd s) (len s) (tb s) (maxp s) (maxidle s) (evs s) (brk s) (log s).

Definition with_purge (r : robj) (t : Z) := mkr (r_key r) (r_ev r) (r_in r) (r_pend r) (r_ic r) (r_dc r) (r_conns r) t (r_hit r) (r_refs r).
Definition with_pend (r : robj) (p : bool) := mkr (r_key r) (r_ev r) (r_in r) p (r_ic r) (r_dc r) (r_conns r) (r_purge r) (r_hit r) (r_refs r).
Definition with_in (r : robj) (p : bool) := mkr (r_key r) (r_ev r) p (r_pend r) (r_ic r) (r_dc r) (r_conns r) (r_purge r) (r_hit r) (r_refs r).
Definition with_ic (r : robj) (p : bool) := mkr (r_key r) (r_ev r) (r_in r) (r_pend r) p (r_dc r) (r_conns r) (r_purge r) (r_hit r) (r_refs r).
Definition with_dc (r : robj) (p : bool) := mkr (r_key r) (r_ev r) (r_in r) (r_pend r) (r_ic r) p (r_conns r) (r_purge r) (r_hit r) (r_refs r).
Definition with_conns (r : robj) (n : N) := mkr (r_key r) (r_ev r) (r_in r) (r_pend r) (r_ic r) (r_dc r) n (r_purge r) (r_hit r) (r_refs r).
Definition with_hit (r : robj) (t : Z) := mkr (r_key r) (r_ev r) (r_in r) (r_pend r) (r_ic r) (r_dc r) (r_conns r) (r_purge r) t (r_refs r).
Definition with_refs (r : robj) (n : N) := mkr (r_key r) (r_ev r) (r_in r) (r_pend r) (r_ic r) (r_dc r) (r_conns r) (r_purge r) (r_hit r) n.

(** 2137 and wolfsentry_internal.h 371: both are 60 s; the time unit is the microsecond (util.c 3207). *)
Definition FIN_TIMEOUT : Z := 60000000.
Definition PURGE_MARGIN : Z := 60000000.

(** An access to a route object; touching a freed one is undefined behaviour. *)
Definition deref (s : pst) (a : addr) : out robj := ub_none (ob s a).
(** A walk over the purge list changes nothing, so when it takes more steps than there have ever been routes it has met some route twice
    and goes on forever. *)
Definition fuel_of (s : pst) : nat := Pos.to_nat (brk s).

(** 2995-2999: the loop of wolfsentry_route_purge_list_insert. *)
Fixpoint pl_seek (fuel : nat) (s : pst) (t : Z) (i : option addr) : out (option addr) :=
  match i with
  | None => Ret None
  | Some p =>
    match fuel with
    | O => Diverge
    | S fuel =>
      let* r := deref s p in
      if r_purge r <? t then Ret (Some p)
      else let* n := ub_none (get_nxt (lk s) p) in pl_seek fuel s t n
    end
  end.
(** 2992-3002: wolfsentry_route_purge_list_insert. *)
Definition pl_insert (s : pst) (a : addr) : out pst :=
  let* r := deref s a in
  let* point := pl_seek (fuel_of s) s (r_purge r) (lhead (hd s)) in
  let* (h, hdr) := ub_none (ll_insert_before (lk s) (hd s) point a) in
  Ret (set_list s h hdr (len s + 1)).
(** wolfsentry_ll.h 98-113 on the purge list. *)
Definition pl_delete (s : pst) (a : addr) : out pst :=
  let* (h, hdr) := ub_none (ll_delete (lk s) (hd s) a) in
  Ret (set_list s h hdr (len s - 1)).

(** Unlink from the purge list if listed, write the new purge time, link if nonzero: 3013-3017, 1269-1273. *)
Definition retime (s : pst) (a : addr) (t : Z) : out pst :=
  let* r := deref s a in
  let* s := if r_purge r =? 0 then Ret s else pl_delete s a in
  let s := set_obj s a (Some (with_purge r t)) in
  if t =? 0 then Ret s else pl_insert s a.

(** 594-619: wolfsentry_route_drop_reference_1 (result ignored by the callers here). *)
Definition drop_ref (s : pst) (a : addr) : out pst :=
  let* r := deref s a in
  if (r_refs r =? 0)%N then Ret s
  else if (r_refs r =? 1)%N then Ret (free s a)
  else Ret (set_obj s a (Some (with_refs r (r_refs r - 1)))).

Definition rkey (x : N * addr) : N := fst x.
Definition kcmp (a b : N) : Z := Z.of_N a - Z.of_N b.
Definition untable (t : list (N * addr)) (a : addr) : list (N * addr) := filter (fun x => negb (Pos.eqb (snd x) a)) t.

(** 2130-2152: the deferred branch of wolfsentry_route_delete_0. *)
Definition defer_delete (s : pst) (a : addr) (r : robj) : out (err * pst) :=
  let r := with_pend r true in
  let s := set_obj s a (Some r) in
  let t := r_hit r + FIN_TIMEOUT in
  if r_purge r <? t then
    let* s := if r_purge r =? 0 then Ret s else pl_delete s a in
    let s := set_obj s a (Some (with_purge r t)) in
    let* s := pl_insert s a in
    Ret (S_DEFERRED, s)
  else Ret (S_DEFERRED, s).

(** 2160-2176 with actions.c 589-604: the delete actions, their result is ignored. *)
Definition run_delete_actions (s : pst) (a : addr) : out pst :=
  let* r := deref s a in
  if e_del (evs s (r_ev r)) && negb (r_dc r)
  then Ret (say (set_obj s a (Some (with_dc r true))) (Deleted a)) else Ret s.

(** 2120-2222: wolfsentry_route_delete_0.  [INVALID_ARG]: table_ent_delete_1 (internal.c 481) on an entry without parent table; flag IN_TABLE
    is then set again, as before. *)
Definition delete_0 (s : pst) (a : addr) (defer_p : bool) : out (err * pst) :=
  let* r := deref s a in
  if defer_p && (0 <? r_conns r)%N then defer_delete s a r
  else if negb (r_in r) then Ret (INVALID_ARG, s)
  else
    let s := set_obj s a (Some (with_in r false)) in
    let s := say (set_tb s (untable (tb s) a)) (Gone a) in
    let* s := if r_purge r =? 0 then Ret s else pl_delete s a in
    let* s := run_delete_actions s a in
    let* s := drop_ref s a in
    Ret (OK, s).

(** 3075-3103: the loop of wolfsentry_route_stale_purge_1.  A `continue` leaves everything as it was: the loop never ends. *)
Fixpoint purge_loop (fuel : nat) (s : pst) (mode : N) (now : Z) (n : Z) : out (err * pst) :=
  match fuel with
  | O => Diverge
  | S fuel =>
    match ltail (hd s) with
    | None => Ret (if n >? 0 then OK else ALREADY, s)
    | Some a =>
      let* r := deref s a in
      if negb (mode =? 3)%N && (r_purge r >? now) then Ret (if n >? 0 then OK else ALREADY, s)
      else if negb (mode =? 3)%N && ((0 <? r_conns r)%N && negb (r_pend r) && ((maxidle s =? 0) || (now - r_hit r >? maxidle s))) then Diverge
      else
        let* (e, s) := delete_0 s a false in
        if negb (is_success e) then Ret (e, s)
        else if (1 <=? mode)%N then Ret (OK, s)
        else purge_loop fuel s mode now (n + 1)
    end
  end.
(** 3020-3118: wolfsentry_route_stale_purge_1 with a table; [clock] is the reading if the clock is asked, [None]: it fails with
    SYS_OP_FAILED. *)
Definition stale_purge (s : pst) (mode : N) (now : Z) (clock : option Z) : out (err * pst) :=
  match (if negb (mode =? 3)%N && (now =? 0) then clock else Some now) with
  | None => Ret (SYS_OP_FAILED, s)
  | Some now =>
    match ltail (hd s) with
    | None => Ret (ALREADY, s)
    | Some a =>
      let* r := deref s a in
      if negb (mode =? 3)%N && (r_purge r >? now) then Ret (ALREADY, s)
      else purge_loop (S (fuel_of s)) s mode now 0
    end
  end.

(** 1292-1313 with actions.c 557-588: the insert actions.  [stop]: RES_STOP is set in the caller's results; [hres]: result of the handlers. *)
Definition run_insert_actions (s : pst) (a : addr) (stop : bool) (hres : err) : out (err * pst) :=
  let* r := deref s a in
  if negb (e_ins (evs s (r_ev r))) then Ret (OK, s)
  else if stop then Ret (ALREADY_STOPPED, s)
  else if r_ic r then Ret (ALREADY, s)
  else Ret (hres, say (set_obj s a (Some (with_ic r true))) (Inserted a)).

(** 1202-1402: wolfsentry_route_insert_2 and _insert_1, for a route with key [k], parent event [ev] and purge time [t] (from the exports, or
    0); [conn]: RES_CONNECT is set in the caller's results and connections are counted.  The second result is the route already there, if
    any. *)
Definition insert_1 (s : pst) (a : addr) (conn : bool) (clock : option Z) (stop : bool) (hres : err) : out (err * option addr * pst) :=
  let* r := deref s a in
  match clock with
  | None => Ret (SYS_OP_FAILED, None, s)                                                             (* 1228 *)
  | Some now =>
    if negb (r_purge r =? 0) && (r_purge r <=? now) then Ret (INVALID_ARG, None, s)                    (* 1231 *)
    else
      let r := if conn then with_conns r (r_conns r + 1) else r in                                    (* 1243 *)
      let i := e_idle (evs s (r_ev r)) in
      let r := if (0 <? i) && (r_purge r =? 0) then with_purge r (now + i) else r in                   (* 1246 *)
      let s := set_obj s a (Some r) in
      let* (e, s) := if negb (r_purge r =? 0) && (0 <? maxp s) && (maxp s <=? len s)                   (* 1249-1261 *)
                      then stale_purge s 3 0 None else Ret (OK, s) in
      if negb (is_success e) then Ret (e, None, s)
      else
        match kinsert rkey kcmp (tb s) (r_key r, a) with
        | None =>                                                                                     (* 1268-1288 *)
          match kfind rkey kcmp (tb s) (r_key r) with
          | None => Ret (ITEM_NOT_FOUND, None, s)
          | Some (_, b) =>
            let* rb := deref s b in
            if r_pend rb then
              let s := set_obj s b (Some (with_pend rb false)) in
              let* s := retime s b (r_purge r) in
              Ret (S_ALREADY_OK, Some b, s)
            else Ret (ITEM_ALREADY_PRESENT, Some b, s)
          end
        | Some t =>
          let s := set_obj (set_tb s t) a (Some (with_in r true)) in
          let* (e, s) := run_insert_actions s a stop hres in                                         (* 1292-1313 *)
          let* r := deref s a in
          let s := if is_success e then s else set_obj (set_tb s (untable (tb s) a)) a (Some (with_in r false)) in
          let* s := if r_purge r =? 0 then Ret s else pl_insert s a in                               (* 1315 *)
          Ret (e, None, s)
        end
  end.
Definition insert_2 (s : pst) (k ev : N) (t : Z) (conn : bool) (clock : option Z) (stop : bool) (hres : err) : out (err * pst) :=
  let (a, s) := alloc s (mkr k ev false false false false 0 t 0 1) in
  let* (e, there, s) := insert_1 s a conn clock stop hres in
  let* s := match there, is_success e with None, true => Ret s | _, _ => drop_ref s a end in           (* 1397 *)
  Ret (e, s).

(** 2395-2421 of wolfsentry_route_event_dispatch_0 for a rule route in the table, then 2487-2510 as an arbitrary effect on the connection count
    (Dispatch.v says which).  [idle]: route_idle_time_for_purge of the config in force. *)
Definition refresh (s : pst) (a : addr) (idle : Z) (clock : option Z) : out pst :=
  let* r := deref s a in
  let r := match clock with Some t => with_hit r t | None => r end in
  let s := set_obj s a (Some r) in
  if r_purge r =? 0 then Ret s
  else
    let t := r_hit r + idle + PURGE_MARGIN in
    if t - r_purge r >=? PURGE_MARGIN then
      let s := set_obj s a (Some (with_purge r t)) in
      if eqo a (ltail (hd s)) then Ret s
      else let* s := pl_delete s a in pl_insert s a
    else Ret s.
Definition dispatch_hit (s : pst) (a : addr) (conns : N -> N) (clock clock2 : option Z) : out (err * pst) :=
  let* r := deref s a in
  let* s := refresh s a (e_idle (evs s (r_ev r))) clock in
  let* (_, s) := stale_purge s 2 (match clock with Some t => t | None => 0 end) clock2 in
  let* r := deref s a in
  Ret (OK, set_obj s a (Some (with_conns r (conns (r_conns r))))).

(** 3142-3190 and internal.c 636-660: wolfsentry_route_flush_table maps delete_0 without deferral over the table. *)
Fixpoint flush_loop (l : list (N * addr)) (s : pst) : out (err * pst) :=
  match l with
  | [] => Ret (OK, s)
  | (_, a) :: l =>
    let* (e, s) := delete_0 s a false in
    if is_success e then flush_loop l s else Ret (e, s)
  end.

(** 3227-3267: wolfsentry_route_bulk_insert_actions; [h] gives the result of the handlers for each route and whether they set RES_STOP. *)
Fixpoint bulk_loop (l : list (N * addr)) (h : N -> err * bool) (stop : bool) (s : pst) : out (err * pst) :=
  match l with
  | [] => Ret (OK, s)
  | (k, a) :: l =>
    let* r := deref s a in
    let called := e_ins (evs s (r_ev r)) && negb stop && negb (r_ic r) in
    let* (e, s) := run_insert_actions s a stop (fst (h k)) in
    if is_success e || match e with ALREADY => true | _ => false end
    then bulk_loop l h (stop || (called && snd (h k))) s else Ret (e, s)
  end.
(** 3192-3225: wolfsentry_route_bulk_clear_insert_action_status. *)
Fixpoint clear_loop (l : list (N * addr)) (s : pst) : out pst :=
  match l with
  | [] => Ret s
  | (_, a) :: l => let* r := deref s a in clear_loop l (set_obj s a (Some (with_ic r false)))
  end.

(** The calls. *)
Inductive op :=
  | Insert (k ev : N) (t : Z) (conn : bool) (clock : option Z) (stop : bool) (hres : err)
  | Delete (k : N)                                        (* by key or by ID: wolfsentry_route_delete, _delete_by_id *)
  | Hit (k : N) (conns : N -> N) (clock clock2 : option Z)  (* a dispatch that matches the route with key k *)
  | Miss (now : Z) (clock2 : option Z)                    (* a dispatch that matches no route of the table *)
  | PurgeTimeSet (a : addr) (t : Z)                        (* wolfsentry_route_purge_time_set on a route held by the caller *)
  | StalePurge (clock : option Z) | StalePurgeOne (clock : option Z) | StalePurgeOneOpp (clock : option Z)
  | SetMax (n : Z) (clock : option Z) | SetMaxIdle (t : Z)
  | Flush | BulkInsertActions (h : N -> err * bool) | BulkClear
  | Hold (k : N) | Drop (a : addr)                        (* wolfsentry_route_get_reference, _drop_reference *)
  | SetEvent (e : N) (v : pev).

Definition step (s : pst) (o : op) : out (err * pst) :=
  match o with
  | Insert k ev t conn clock stop hres => insert_2 s k ev t conn clock stop hres
  | Delete k =>                                            (* 2224-2248, 2302-2345 *)
    match kfind rkey kcmp (tb s) k with None => Ret (ITEM_NOT_FOUND, s) | Some (_, a) => delete_0 s a true end
  | Hit k conns clock clock2 =>
    match kfind rkey kcmp (tb s) k with None => Ret (ITEM_NOT_FOUND, s) | Some (_, a) => dispatch_hit s a conns clock clock2 end
  | Miss now clock2 => let* (_, s) := stale_purge s 2 now clock2 in Ret (OK, s)
  | PurgeTimeSet a t =>                                     (* 3006-3018; parent_table is NULL in a route that is not in a table *)
    let* r := deref s a in
    if r_in r || ((r_purge r =? 0) && (t =? 0)) then let* s := retime s a t in Ret (OK, s) else UB
  | StalePurge clock => stale_purge s 0 0 clock               (* 3120-3126 *)
  | StalePurgeOne clock => stale_purge s 1 0 clock            (* 3128-3134 *)
  | StalePurgeOneOpp clock => stale_purge s 2 0 clock         (* 3136-3143 *)
  | SetMax n clock =>                                       (* 2049-2069 *)
    let now := (maxp s >? n) && (len s >? n) in
    let s := set_max s n in
    if now then stale_purge s 0 0 clock else Ret (OK, s)
  | SetMaxIdle t => Ret (OK, set_maxidle s t)                 (* 2080-2089 *)
  | Flush => flush_loop (tb s) s
  | BulkInsertActions h => bulk_loop (tb s) h false s
  | BulkClear => let* s := clear_loop (tb s) s in Ret (OK, s)
  | Hold k =>                                              (* 2091-2118 *)
    match kfind rkey kcmp (tb s) k with
    | None => Ret (ITEM_NOT_FOUND, s)
    | Some (_, a) => let* r := deref s a in Ret (OK, set_obj s a (Some (with_refs r (r_refs r + 1))))
    end
  | Drop a => let* s := drop_ref s a in Ret (OK, s)
  | SetEvent e v => Ret (OK, set_evs s (fun x => if N.eqb x e then v else evs s x))
  end.
Fixpoint run (s : pst) (os : list op) : out (list err * pst) :=
  match os with
  | [] => Ret ([], s)
  | o :: os => let* (e, s) := step s o in let* (es, s) := run s os in Ret (e :: es, s)
  end.
(** 4590-4608: an empty table. *)
Definition pinit (evs : N -> pev) : pst := mkp (fun _ => None) (fun _ => None) (mklhdr None None) 0 [] 0 0 evs 1%positive [].
