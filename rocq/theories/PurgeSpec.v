(** What the user of the route life-cycle functions relies on, and the usage under which the purge list of the code stays intact. *)
From Verif Require Import Base Links Table Keyed Purge.
Open Scope Z_scope.

(** ** Observations *)
(** route [a] is in the table, and is the object [r] *)
Definition route (s : pst) (a : addr) (r : robj) : Prop := In (r_key r, a) (tb s) /\ ob s a = Some r.
Definition in_table (s : pst) (a : addr) : Prop := exists k, In (k, a) (tb s).
(** the number of routes in the table that have a purge time *)
Definition has_purge_time (s : pst) (x : N * addr) : bool := match ob s (snd x) with Some r => negb (r_purge r =? 0) | None => false end.
Definition n_purgeable (s : pst) : nat := length (filter (has_purge_time s) (tb s)).
(** how often something happened to a route object *)
Definition hap_eqb (x y : happening) : bool :=
  match x, y with Inserted a, Inserted b | Deleted a, Deleted b | Gone a, Gone b => Pos.eqb a b | _, _ => false end.
Definition times (h : happening) (l : list happening) : nat := length (filter (hap_eqb h) l).
Definition clears (os : list op) : nat := length (filter (fun o => match o with BulkClear => true | _ => false end) os).

(** ** Usage: what the caller holds *)
Definition hadd (held : addr -> N) (a : addr) : addr -> N := fun x => if Pos.eqb x a then (held x + 1)%N else held x.
Definition hsub (held : addr -> N) (a : addr) : addr -> N := fun x => if Pos.eqb x a then (held x - 1)%N else held x.
Definition holds_after (s : pst) (held : addr -> N) (o : op) : addr -> N :=
  match o with
  | Hold k => match kfind rkey kcmp (tb s) k with Some (_, a) => hadd held a | None => held end
  | Drop a => hsub held a
  | _ => held
  end.

(** ** Usage: what the defects of the code demand of the caller *)
(** a route that has connections, is not pending deletion, and (as the code has it) has no idle limit or is idle beyond it: a purge that
    meets it expired at the stale end of the list never returns *)
Definition blocks (s : pst) (now : Z) (r : robj) : bool :=
  ((0 <? r_conns r)%N && negb (r_pend r) && ((maxidle s =? 0) || (now - r_hit r >? maxidle s))).
Definition unblocked (s : pst) (now : Z) (except : option addr) : Prop :=
  forall a r, route s a r -> r_purge r <> 0 -> r_purge r <= now -> eqo a except = false -> blocks s now r = false.
Definition clock_ok (s : pst) (now : Z) (clock : option Z) (except : option addr) : Prop :=
  forall t, (if now =? 0 then clock else Some now) = Some t -> unblocked s t except.
(** route [a] may be given the purge time [t]: it is the first of the list, or its link to the left is NULL, or it will not become the first *)
Definition may_move (s : pst) (a : addr) (t : Z) : Prop :=
  lhead (hd s) = Some a \/ (exists l, lk s a = Some l /\ prv l = None)
  \/ match lhead (hd s) with None => True | Some b => exists r, ob s b = Some r /\ t <= r_purge r end.
Definition time_on_insert (s : pst) (ev : N) (t now : Z) : Z := if (0 <? e_idle (evs s ev)) && (t =? 0) then now + e_idle (evs s ev) else t.

Definition gentle (s : pst) (held : addr -> N) (o : op) : Prop :=
  match o with
  | Insert k ev t conn clock stop hres =>
    (e_ins (evs s ev) = true -> stop = true \/ is_success hres = false -> t = 0 /\ e_idle (evs s ev) <= 0)
    /\ (forall now a r, clock = Some now -> route s a r -> r_key r = k -> r_pend r = true -> may_move s a (time_on_insert s ev t now))
    /\ (forall now, clock = Some now -> time_on_insert s ev t now = 0 -> t = 0 /\ e_idle (evs s ev) <= 0)
  | Delete k => forall a r, route s a r -> r_key r = k -> (0 < r_conns r)%N -> r_purge r < r_hit r + FIN_TIMEOUT ->
      r_hit r + FIN_TIMEOUT <> 0 /\ may_move s a (r_hit r + FIN_TIMEOUT)
  | Hit k conns clock clock2 => forall a r, route s a r -> r_key r = k ->
      match clock with
      | None => clock2 = None /\ (r_purge r <> 0 -> r_hit r + e_idle (evs s (r_ev r)) < r_purge r)
      | Some now => 0 < now /\ 0 <= e_idle (evs s (r_ev r))
                    /\ (r_purge r <> 0 -> now + e_idle (evs s (r_ev r)) >= r_purge r ->
                        ltail (hd s) = Some a \/ may_move s a (now + e_idle (evs s (r_ev r)) + PURGE_MARGIN))
                    /\ unblocked s now (Some a)
      end
  | Miss now clock2 => clock_ok s now clock2 None
  | PurgeTimeSet a t => held a <> 0%N /\ in_table s a /\ may_move s a t
  | StalePurge clock | StalePurgeOne clock | StalePurgeOneOpp clock => clock_ok s 0 clock None
  | SetMax n clock => maxp s > n -> len s > n -> clock_ok s 0 clock None
  | Drop a => held a <> 0%N
  | _ => True
  end.
(** in addition: no refresh of the stalest route in place that makes it fresher than another one *)
Definition orderly (s : pst) (o : op) : Prop :=
  match o with
  | Hit k conns (Some now) clock2 => forall a r, route s a r -> r_key r = k -> r_purge r <> 0 -> now + e_idle (evs s (r_ev r)) >= r_purge r ->
      ltail (hd s) = Some a ->
      forall b rb, route s b rb -> r_purge rb <> 0 -> b <> a -> now + e_idle (evs s (r_ev r)) + PURGE_MARGIN <= r_purge rb
  | _ => True
  end.
Fixpoint calm (s : pst) (held : addr -> N) (os : list op) : Prop :=
  match os with
  | [] => True
  | o :: os => gentle s held o /\ match step s o with Ret (_, s') => calm s' (holds_after s held o) os | _ => True end
  end.
Fixpoint neat (s : pst) (os : list op) : Prop :=
  match os with
  | [] => True
  | o :: os => orderly s o /\ match step s o with Ret (_, s') => neat s' os | _ => True end
  end.

(** ** Usage: two classes of histories that need no look at the links *)
(** connections are not counted, routes are not hit nor given new purge times, and insert handlers do not fail *)
Definition plain (o : op) : Prop :=
  match o with
  | Insert k ev t conn clock stop hres => 0 <= t /\ conn = false /\ (forall now, clock = Some now -> 0 < now) /\ stop = false /\ is_success hres = true
  | Hit _ _ _ _ | PurgeTimeSet _ _ | Drop _ => False
  | SetEvent _ v => 0 <= e_idle v
  | _ => True
  end.
(** no call other than an insertion makes a route purgeable, and the limit is not changed *)
Definition frugal (s : pst) (o : op) : Prop :=
  match o with
  | SetMax _ _ => False
  | Delete k => forall a r, route s a r -> r_key r = k -> r_conns r = 0%N \/ r_purge r <> 0
  | PurgeTimeSet a t => t = 0 \/ exists r, ob s a = Some r /\ r_purge r <> 0
  | _ => True
  end.
Fixpoint thrifty (s : pst) (os : list op) : Prop :=
  match os with
  | [] => True
  | o :: os => frugal s o /\ match step s o with Ret (_, s') => thrifty s' os | _ => True end
  end.
