(** Event dispatch on a matched route: src/routes.c 2350-2650 (wolfsentry_route_event_dispatch_0), with
    wolfsentry_route_update_flags (3293-3332) and wolfsentry_route_increment_hitcount (1601-1623).
    One dispatch runs to completion without interference by other threads; concurrent counter updates are in Atomic.v.
    Purging (2403-2421) is in Purge.v. *)
From Verif Require Import Base RouteFlags.
Open Scope N_scope.

(** wolfsentry.h 838-890: bit numbers of the action results. *)
Definition AR_ACCEPT : N := 0.
Definition AR_REJECT : N := 1.
Definition AR_CONNECT : N := 2.
Definition AR_DISCONNECT : N := 3.
Definition AR_DEROGATORY : N := 4.
Definition AR_COMMENDABLE : N := 5.
Definition AR_STOP : N := 6.
Definition AR_DEALLOCATED : N := 7.
Definition AR_INSERTED : N := 8.
Definition AR_ERROR : N := 9.
Definition AR_FALLTHROUGH : N := 10.
Definition AR_UPDATE : N := 11.
Definition AR_PORT_RESET : N := 12.
(** wolfsentry.h 1201-1207: eventconfig flags. *)
Definition EC_IGNORE_COMMENDABLE : N := 0.
Definition EC_COMMENDABLE_CLEARS : N := 1.
(** src/wolfsentry_internal.h 362-375: the counters and times of a route; uint16_t counters, uint32_t hit count,
    int64_t times. *)
Record rstate := mkR {
  s_flags : N;
  s_derog : N; s_commend : N; s_conns : N; s_hits : N;
  s_last_hit : Z; s_boxed_at : Z }.
(** wolfsentry.h 1212-1239: the members of struct wolfsentry_eventconfig that dispatch reads. *)
Record econfig := mkC {
  c_max_conns : N; c_threshold : N; c_box_duration : Z; c_flags : N; c_add : N; c_clear : N }.

Definition set_flags (s : rstate) (f : N) : rstate := mkR f (s_derog s) (s_commend s) (s_conns s) (s_hits s) (s_last_hit s) (s_boxed_at s).
Definition set_derog (s : rstate) (v : N) : rstate := mkR (s_flags s) v (s_commend s) (s_conns s) (s_hits s) (s_last_hit s) (s_boxed_at s).
Definition set_commend (s : rstate) (v : N) : rstate := mkR (s_flags s) (s_derog s) v (s_conns s) (s_hits s) (s_last_hit s) (s_boxed_at s).
Definition set_conns (s : rstate) (v : N) : rstate := mkR (s_flags s) (s_derog s) (s_commend s) v (s_hits s) (s_last_hit s) (s_boxed_at s).
Definition set_hits (s : rstate) (v : N) : rstate := mkR (s_flags s) (s_derog s) (s_commend s) (s_conns s) v (s_last_hit s) (s_boxed_at s).
Definition set_last_hit (s : rstate) (v : Z) : rstate := mkR (s_flags s) (s_derog s) (s_commend s) (s_conns s) (s_hits s) v (s_boxed_at s).
Definition set_boxed_at (s : rstate) (v : Z) : rstate := mkR (s_flags s) (s_derog s) (s_commend s) (s_conns s) (s_hits s) (s_last_hit s) v.

(** wolfsentry_util.h 229-252: safe increment by one of an unsigned counter with maximum [max]: new value and "out". *)
Definition incr_safely (max i : N) : N * N := if max - i <? 1 then (i, 0) else (i + 1, i + 1).
(** wolfsentry_util.h 259-281. *)
Definition decr_safely (max i : N) : N * N := if i <? 1 then (i, max) else (i - 1, i - 1).

(** routes.c 3305-3332 (wolfsentry_route_update_flags): [clock] is the reading of the clock, if it succeeds.
    Results: error, the route, *flags_after, *action_results. *)
Definition PROTECTED_FLAGS : N := 49152.  (* PENDING_DELETE | IN_TABLE *)
Definition update_flags (s : rstate) (set clr : N) (clock : option Z) (ar : N) : err * rstate * N * N :=
  if has set RF_PENALTYBOXED && has set RF_GREENLISTED then (INVALID_ARG, s, s_flags s, ar)
  else if anybit (N.lor set clr) PROTECTED_FLAGS then (NOT_PERMITTED, s, s_flags s, ar)
  else if has (s_flags s) RF_IN_TABLE && anybit (N.lor set clr) IMMUTABLE_FLAGS then (NOT_PERMITTED, s, s_flags s, ar)
  else
    let after := N.ldiff (N.lor (s_flags s) set) clr in
    let ar := if s_flags s =? after then ar else N.setbit ar AR_UPDATE in
    let s' := set_flags s after in
    let s' := if has after RF_PENALTYBOXED && negb (has (s_flags s) RF_PENALTYBOXED)
              then match clock with Some t => set_boxed_at s' t | None => s' end else s' in
    (OK, s', after, ar).

(** routes.c 1601-1623. *)
Definition increment_hitcount (s : rstate) (clock : option Z) (ar : N) : rstate * N :=
  if has (s_flags s) RF_DONT_COUNT_HITS then (s, ar)
  else
    let '(v, out) := incr_safely u32_max (s_hits s) in
    let s := set_hits s v in
    if out =? 0 then let '(_, s', _, ar') := update_flags s (N.setbit 0 RF_DONT_COUNT_HITS) 0 clock ar in (s', ar') else (s, ar).

(** A list of actions as seen by the dispatcher: absent (empty list), or any effect on the rule route and on the action
    results (wolfsentry_action_list_dispatch, detailed in Actions.v). *)
Definition hook := option (rstate -> N -> rstate * N).
Record hooks := { h_post : hook; h_match : hook; h_update : hook; h_decision : hook }.
Definition run_hook (h : hook) (s : rstate) (ar : N) : rstate * N := match h with Some f => f s ar | None => (s, ar) end.

(** routes.c 2487-2501: CONNECT.  [None] = rejected.  The comparison is between a uint16_t and a uint32_t; the
    increment is modulo 2^16. *)
Definition connect (c : econfig) (s : rstate) : rstate * bool :=
  if c_max_conns c <=? s_conns s then (s, false)
  else
    let v := (s_conns s + 1) mod 65536 in
    if c_max_conns c <? v then (s, false) else (set_conns s v, true).

(** routes.c 2470-2524: counters.  The boolean says whether a connection over the limit was rejected ("goto done"). *)
Definition count (c : econfig) (s : rstate) (cur ar : N) : rstate * N * bool :=
  if has ar AR_INSERTED || has ar AR_FALLTHROUGH then (s, ar, false)
  else
    let s := if has ar AR_DEROGATORY then set_derog s (fst (incr_safely u16_max (s_derog s))) else s in
    let '(s, over) :=
      if has cur RF_DONT_COUNT_CONN then (s, false)
      else if has ar AR_CONNECT then let '(s', ok) := connect c s in (s', negb ok)
      else if has ar AR_DISCONNECT then (set_conns s (fst (decr_safely u16_max (s_conns s))), false)
      else (s, false) in
    if over then (s, N.setbit ar AR_REJECT, true)
    else
      let s := if has ar AR_COMMENDABLE then
                 let s := set_commend s (fst (incr_safely u16_max (s_commend s))) in
                 if has (c_flags c) EC_COMMENDABLE_CLEARS then set_derog s 0 else s
               else s in
      (s, ar, false).

(** routes.c 2517-2550: release from the penalty box. *)
Definition release (c : econfig) (now : Z) (clock : option Z) (s : rstate) (cur ar : N) : rstate * N * N :=
  let unbox s cur ar := let '(_, s', cur', ar') := update_flags s 0 (N.setbit 0 RF_PENALTYBOXED) clock ar in (s', cur', ar') in
  let '(s, cur, ar) :=
    if has cur RF_PENALTYBOXED && has ar AR_COMMENDABLE && has (c_flags c) EC_COMMENDABLE_CLEARS then unbox s cur ar else (s, cur, ar) in
  if has cur RF_PENALTYBOXED && ((c_box_duration c >? 0)%Z && negb (s_boxed_at s =? 0)%Z) then
    if (now - s_boxed_at s >? c_box_duration c)%Z then unbox s cur ar else (s, cur, ar)
  else (s, cur, ar).

(** routes.c 2556-2564: the threshold; the counters are promoted to int before the subtraction. *)
Definition over_threshold (c : econfig) (s : rstate) : bool :=
  (0 <? c_threshold c) &&
  (if has (c_flags c) EC_IGNORE_COMMENDABLE then c_threshold c <=? s_derog s
   else (Z.of_N (c_threshold c) <=? Z.of_N (s_derog s) - Z.of_N (s_commend s))%Z).

(** routes.c 2552-2594: the decision. *)
Definition decide (c : econfig) (policy : N) (clock : option Z) (s : rstate) (cur ar : N) : rstate * N * N :=
  if has cur RF_PENALTYBOXED then (s, cur, N.setbit ar AR_REJECT)
  else if over_threshold c s then
    let '(e, s, cur', ar) := update_flags s (N.setbit 0 RF_PENALTYBOXED) 0 clock ar in
    let s := if is_success e then set_commend (set_derog s 0) 0 else s in
    (s, (if is_success e then cur' else cur), N.setbit ar AR_REJECT)
  else if has cur RF_GREENLISTED then (s, cur, N.setbit ar AR_ACCEPT)
  else if has ar AR_ACCEPT || has ar AR_REJECT then (s, cur, ar)
  else (s, cur, N.lor (N.setbit ar AR_FALLTHROUGH) policy).

(** routes.c 2470-2605: everything between the match actions and the update actions. *)
Definition verdict (c : econfig) (policy : N) (now : Z) (clock : option Z) (s : rstate) (cur ar : N) : rstate * N :=
  let '(s, ar, over) := count c s cur ar in
  let '(s, cur, ar) :=
    if over then (s, cur, ar)
    else let '(s, cur, ar) := release c now clock s cur ar in decide c policy clock s cur ar in
  (s, if has ar AR_REJECT && has cur RF_PORT_RESET then N.setbit ar AR_PORT_RESET else ar).

(** The clock and the table around the rule route. *)
Record env := {
  e_time : option Z;      (* the reading at 2383 *)
  e_clock : option Z;     (* the reading inside wolfsentry_route_update_flags *)
  e_policy : N;           (* route_table->default_policy *)
  e_config : econfig;     (* 2379-2380 *)
  e_trigger : hooks;      (* of the trigger event: only the post actions are used *)
  e_parent : hooks;       (* of the rule route's parent event or the default event *)
  e_default : hooks;      (* of the table's default event, used after switching to the fallthrough route *)
  e_fallthrough : option rstate }.

(** routes.c 2383-2468: up to and including the match actions: (rule route, flags as read, results, switched). *)
Definition before_verdict (e : env) (s0 : rstate) (ar0 : N) : rstate * N * N * bool :=
  let '(s, ar) := match e_time e with Some t => (set_last_hit s0 t, ar0) | None => (s0, N.setbit ar0 AR_ERROR) end in
  let cur := s_flags s0 in
  let '(s, cur, ar) :=
    match h_post (e_trigger e) with
    | Some f => let '(s', ar') := f s ar in (s', s_flags s', N.clearbit ar' AR_STOP)
    | None => (s, cur, ar)
    end in
  let ar := N.ldiff (N.lor ar (c_add (e_config e))) (c_clear (e_config e)) in
  let '(s, ar, switched) :=
    match e_fallthrough e with
    | Some f => if has cur RF_IN_TABLE then (s, ar, false)
                else let '(f', ar') := increment_hitcount f (e_clock e) (N.setbit ar AR_FALLTHROUGH) in (f', ar', true)
    | None => (s, ar, false)
    end in
  match h_match (if switched then e_default e else e_parent e) with
  | Some f => let '(s', ar') := f s ar in (s', s_flags s', N.clearbit ar' AR_STOP, switched)
  | None => (s, cur, ar, switched)
  end.
(** routes.c 2607-2640. *)
Definition after_verdict (h : hooks) (s : rstate) (ar : N) : rstate * N :=
  let '(s, ar) :=
    match h_update h with
    | Some f => if has ar AR_UPDATE then f s (N.clearbit ar AR_STOP) else (s, ar)
    | None => (s, ar)
    end in
  match h_decision h with Some f => f s (N.clearbit ar AR_STOP) | None => (s, ar) end.
Definition dispatch_0 (e : env) (target_flags : N) (s0 : rstate) (ar0 : N) : err * rstate * N :=
  if has target_flags RF_RADDR_BITMASK || has target_flags RF_LADDR_BITMASK then (INVALID_ARG, s0, ar0)
  else
    let '(s, cur, ar, switched) := before_verdict e s0 ar0 in
    let now := match e_time e with Some t => t | None => 0%Z end in
    let '(s, ar) := verdict (e_config e) (e_policy e) now (e_clock e) s cur ar in
    let '(s, ar) := after_verdict (if switched then e_default e else e_parent e) s ar in
    (OK, s, ar).

(** routes.c 2694-2769 (wolfsentry_route_event_dispatch_1), when the lookup finds nothing and neither the trigger event
    nor the default event has post actions, or when the target is malformed: [found] is the rule route if any. *)
Definition dispatch_1 (e : env) (target_flags : N) (found : option rstate) (ar : N) : err * option rstate * N :=
  match found with
  | Some s => let '(r, s', ar') := dispatch_0 e target_flags s ar in
              (r, Some s', if is_success r then ar' else N.setbit ar' AR_ERROR)
  | None => (S_USED_FALLBACK, None, N.setbit (N.lor ar (e_policy e)) AR_FALLTHROUGH)
  end.

(** routes.c 1905-1911: what a lookup that found [s] does besides. *)
Definition lookup_hit (s : rstate) (clock : option Z) (ar : N) : rstate * N :=
  increment_hitcount s clock
    (if has ar AR_DEROGATORY && has ar AR_COMMENDABLE (* WOLFSENTRY_ACTION_RES_EXCLUDE_REJECT_ROUTES, wolfsentry.h 880 *)
     then N.clearbit (N.clearbit ar AR_DEROGATORY) AR_COMMENDABLE else ar).
(** routes.c 2709-2740: a dispatch whose lookup found [s]. *)
Definition dispatch_found (e : env) (target_flags : N) (s : rstate) (ar : N) : err * option rstate * N :=
  let '(s1, ar1) := lookup_hit s (e_clock e) ar in dispatch_1 e target_flags (Some s1) ar1.
