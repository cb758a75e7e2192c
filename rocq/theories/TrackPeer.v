(** The built-in action %track-peer-v1: src/action_builtins.c 33-129 (wolfsentry_builtin_action_track_peer), with
    src/routes.c 1482-1504 (wolfsentry_route_insert_by_exports_into_table), 1403-1450 (wolfsentry_route_insert_by_exports_2),
    1202-1344 (wolfsentry_route_insert_1) and 3485-3491 (wolfsentry_route_reset_metadata_exports).
    Simplified: no limit on purgeable routes and no stored route that waits for deletion (these are in Purge.v), IDs can be
    allocated, malloc succeeds, the clock can be read.  wolfsentry_route_get_flags and wolfsentry_route_get_addrs (65-83) cannot fail
    and their results are not used, or are overwritten by wolfsentry_route_export (3568-3580). *)
From Verif Require Import Base Labels Addr RouteFlags RouteKey RouteTable Exchange EventConfig Table Dispatch Export.
Open Scope N_scope.

(** What the insert actions of the new route's event do, if it has any (routes.c 1303-1318): success, and the results. *)
Definition insert_hook := N -> bool * N.
Definition no_insert_actions : insert_hook := fun ar => (true, ar).

(** routes.c 1246-1251: what the results say is counted on the route before it is inserted (the counts are uint16_t) *)
Definition bump (b : bool) (n : N) : N := if b then (n + 1) mod 65536 else n.
Definition count_on_insert (ar : N) (r : froute) : froute :=
  let m := f_meta r in
  mkF (f_route r)
      (mkMeta (m_insert m) (m_hit m) (m_penalty m) (m_purge m)
              (bump (has ar AR_CONNECT && negb (has (r_flags (f_route r)) RF_DONT_COUNT_CONN)) (m_conn m))
              (bump (has ar AR_DEROGATORY) (m_derog m)) (bump (has ar AR_COMMENDABLE) (m_comm m)))
      (f_hits r) (f_data r).

(** routes.c 1482-1504 with 1403-1450, 1202-1344: the code, the table, the new route if it stays, *action_results.
    A failed search for the event leaves *action_results as it was (1497-1498); otherwise it is cleared (1500), INSERTED is set once
    the route is in the table (1300) and the insert actions may change it. *)
Definition insert_by_exports (c : xctx) (now : Z) (ex : exports) (t : rtable) (h : insert_hook) (ar : N) : out (err * rtable * option froute * N) :=
  match (match x_label ex with None => (OK, None) | Some l => event_get c l end) with
  | (OK, e) =>
    let ar := 0 in
    match new_by_exports c e ex with
    | (OK, r) =>
      let* p := prepare c now r in
      match p with
      | (OK, Some r) =>
        let r := count_on_insert ar r in
        let '(ok, ar1) := h (N.setbit ar AR_INSERTED) in
        let '(x, t1) := rt_insert t (f_route r) ok in
        Ret (match x with
             | OK => (OK, t1, Some r, ar1)
             | CALLBACK_ERROR n => (CALLBACK_ERROR n, t1, None, ar1)
             | x => (x, t1, None, ar)
             end)
      | (x, _) => Ret (x, t, None, ar)
      end
    | (x, _) => Ret (x, t, None, ar)
    end
  | (x, _) => Ret (x, t, None, ar)
  end.

(** action_builtins.c 104-116 *)
Definition tracking_label (rule_parent rule_aux : option event) : option (list N) :=
  match rule_parent with
  | None => None
  | Some p => match rule_aux with Some a => Some (ev_label a) | None => Some (ev_label p) end
  end.
(** action_builtins.c 104-122 *)
Definition tracking_exports (ex : exports) (label : option (list N)) : exports :=
  mkEx label (x_flags ex) (x_family ex) (x_proto ex)
       (x_rport ex) (x_rlen ex) (x_riface ex) (x_raddr ex)
       (x_lport ex) (x_llen ex) (x_liface ex) (x_laddr ex)
       (mkMeta (m_insert (x_meta ex)) (m_hit (x_meta ex)) (m_penalty (x_meta ex)) 0 0 0 0) (x_hits ex) None.

(** action_builtins.c 33-135.  [rule_aux] is the aux event of the rule's parent event; [locked] says whether the lock is obtained
    (routes.c 1493).  insert_action_results is not initialised (54): using it (129) after a failure that leaves it so is undefined. *)
Definition track_peer (c : xctx) (now : Z) (locked : bool) (target rule : froute) (rule_aux : option event) (t : rtable) (h : insert_hook) (ar : N)
  : out (err * rtable * option froute * N) :=
  let ex := export c target in
  if has (x_flags ex) RF_IN_TABLE || has (x_flags ex) RF_PENDING_DELETE then Ret (OK, t, None, ar)
  else
    let ex := tracking_exports ex (tracking_label (r_event (f_route rule)) rule_aux) in
    if negb locked then UB
    else match (match x_label ex with None => (OK, None) | Some l => event_get c l end) with
         | (OK, _) =>
           let* q := insert_by_exports c now ex t h 0 in
           let '(_, t1, made, ar1) := q in
           Ret (OK, t1, made, N.lor ar ar1)
         | (_, _) => UB
         end.
