(** Running an action list: src/actions.c 545-643 (wolfsentry_action_list_dispatch).
    A handler is any function of its arguments: it may change the rule route, the action results, the application's
    memory, and disable or enable actions (wolfsentry_action_update_flags).  Handlers that edit the very list being
    walked are outside this model (the list is fixed during the walk); the caller holds a lock (WOLFSENTRY_HAVE_A_LOCK_OR_RETURN). *)
From Verif Require Import Base RouteFlags Dispatch.
Open Scope N_scope.

(** wolfsentry.h 845-856: action types. *)
Inductive action_type := T_NONE | T_POST | T_INSERT | T_MATCH | T_UPDATE | T_DELETE | T_DECISION.
(** wolfsentry.h 1207: bit number. *)
Definition EC_INHIBIT_ACTIONS : N := 2.
(** An action is a pointer; its label does not matter here. *)
Definition action := N.
(** src/wolfsentry_internal.h 240-268: the six lists of an event and its own configuration flags, if it has any. *)
Record event_lists := mkEv {
  l_post : list action; l_insert : list action; l_match : list action; l_update : list action; l_delete : list action;
  l_decision : list action; ev_flags : option N }.

Section Run.
  Variable U : Type.                  (* the application's memory *)
  Record world := mkW {
    w_route : rstate;                 (* the rule route *)
    w_disabled : action -> bool;      (* action->flags & WOLFSENTRY_ACTION_FLAG_DISABLED *)
    w_hits : action -> N;             (* action->header.hitcount, uint32_t *)
    w_user : U }.
  (** A handler gets the action, the action type, the world and the action results. *)
  Variable handler : action -> action_type -> world -> N -> err * world * N.

  Definition set_route (w : world) (r : rstate) : world := mkW r (w_disabled w) (w_hits w) (w_user w).
  (** wolfsentry_util.h 183-190: WOLFSENTRY_ATOMIC_INCREMENT on a uint32_t wraps. *)
  Definition bump (w : world) (a : action) : world :=
    mkW (w_route w) (w_disabled w) (fun x => if x =? a then (w_hits w a + 1) mod 2^32 else w_hits w x) (w_user w).

  (** What an observer sees: the action called, with the world and results handed to it. *)
  Definition callrec := (action * world * N)%type.
  (** actions.c 621-642 *)
  Fixpoint walk (ty : action_type) (l : list action) (w : world) (ar : N) : err * world * N * list callrec :=
    match l with
    | [] => (OK, w, ar, [])
    | a :: l =>
      if w_disabled w a then walk ty l w ar
      else
        let w1 := if has (s_flags (w_route w)) RF_DONT_COUNT_HITS then w else bump w a in
        let '(e, w2, ar2) := handler a ty w1 ar in
        if negb (is_success e) then (e, w2, ar2, [(a, w1, ar)])
        else if has ar2 AR_STOP then (OK, w2, ar2, [(a, w1, ar)])
        else let '(e3, w3, ar3, cs) := walk ty l w2 ar2 in (e3, w3, ar3, (a, w1, ar) :: cs)
    end.
  (** actions.c 569-613: the list for a type, and the route flag that makes it run at most once. *)
  Definition the_list (ev : event_lists) (ty : action_type) : option (list action) :=
    match ty with
    | T_POST => Some (l_post ev) | T_INSERT => Some (l_insert ev) | T_MATCH => Some (l_match ev)
    | T_UPDATE => Some (l_update ev) | T_DELETE => Some (l_delete ev) | T_DECISION => Some (l_decision ev)
    | T_NONE => None
    end.
  Definition once_flag (ty : action_type) : option N :=
    match ty with T_INSERT => Some RF_INSERT_ACTIONS_CALLED | T_DELETE => Some RF_DELETE_ACTIONS_CALLED | _ => None end.
  (** actions.c 618-620; [ctx] is wolfsentry->config.config.flags *)
  Definition inhibited (ctx : N) (ev : event_lists) : bool :=
    has ctx EC_INHIBIT_ACTIONS || match ev_flags ev with Some f => has f EC_INHIBIT_ACTIONS | None => false end.
  (** actions.c 545-643; [None] results are action_results == NULL *)
  Definition list_dispatch (ctx : N) (ev : event_lists) (ty : action_type) (w : world) (ar : option N)
    : err * world * option N * list callrec :=
    match ar with
    | None => (INVALID_ARG, w, None, [])
    | Some ar =>
      if has ar AR_STOP then (ALREADY_STOPPED, w, Some ar, []) else
      match the_list ev ty with
      | None => (INVALID_ARG, w, Some ar, [])
      | Some l =>
        let go w := if inhibited ctx ev then (OK, w, Some ar, [])
                    else let '(e, w', ar', cs) := walk ty l w ar in (e, w', Some ar', cs) in
        match once_flag ty with
        | None => go w
        | Some f =>
          if has (s_flags (w_route w)) f then (ALREADY, w, Some ar, [])
          else go (set_route w (set_flags (w_route w) (N.setbit (s_flags (w_route w)) f)))
        end
      end
    end.
End Run.
Arguments mkW {U}. Arguments w_route {U}. Arguments w_disabled {U}. Arguments w_hits {U}. Arguments w_user {U}.
Arguments list_dispatch {U}. Arguments walk {U}. Arguments bump {U}. Arguments set_route {U}.
