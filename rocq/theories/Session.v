(** * Loading a configuration: the session around the parser, src/json/load_config.c 1697-2035

    wolfsentry_config_json_init_ex, _feed, _fini and _oneshot_ex, with the parser of Json.v.  What the calls do to the contents
    of a context is left open (a record of arbitrary functions, each with its return code), so that every theorem is for every
    content, every document and every failure of those calls.  Return codes are integers, negative for errors (wolfsentry_errcode_t).

    Simplified: releasing a lock that is held succeeds (C28); clone and original are distinct contexts (they are separate
    allocations); json_init cannot fail (its configuration has been checked); the error text is not modelled (C54 is about
    the position); allocations inside the calls are part of those calls. *)
Require Import ZArith List Bool.
From Verif Require Import Json.
Import ListNotations.
Open Scope Z_scope.

(** wolfsentry_json.h 55-77 *)
Definition LF_NO_FLUSH := 0.
Definition LF_DRY_RUN := 1.
Definition LF_LOAD_THEN_COMMIT := 2.
Definition LF_FLUSH_ONLY_ROUTES := 8.
Definition LF_FINI := 30.

(** load_config.c 1803-1807: what is copied into the clone. *)
Inductive clone_kind := CloneAll | CloneNoRoutes | CloneAsCreated.

Section Session.
  (** [C] contents of a context, [J] the part of struct wolfsentry_json_process_state json_process works on. *)
  Context {C J : Type}.
  (** The calls made, with their return codes.  [k_event] is json_process (1503-1695) as the parser's callback. *)
  Record calls := Calls {
    k_lock : Z;                                     (* 1780-1791: the lock, shared, exclusive or promotable *)
    k_clone : clone_kind -> C -> Z * C;             (* wolfsentry_context_clone: the clone, if it succeeds *)
    k_inhibit : C -> C;                             (* wolfsentry_context_inhibit_actions, which cannot fail *)
    k_enable : C -> C;                              (* wolfsentry_context_enable_actions *)
    k_start : Z -> C -> Z * J;                      (* wolfsentry_defaultconfig_get into a cleared process state *)
    k_flush : C -> Z * C;                           (* wolfsentry_context_flush *)
    k_flush_routes : C -> Z * C;                    (* wolfsentry_route_flush_table of the main table *)
    k_exchange : C -> C -> Z * C * C;               (* wolfsentry_context_exchange: actual, clone *)
    k_bulk_clear : C -> Z * C;                      (* wolfsentry_route_bulk_clear_insert_action_status *)
    k_bulk_insert : C -> Z * C;                     (* wolfsentry_route_bulk_insert_actions *)
    k_free : C -> Z * C;                            (* wolfsentry_context_free: what is left of it, if it fails *)
    k_event : Z -> jtype -> list Z -> J * C -> Z * (J * C);
    k_translate : Z -> Z }.                         (* json_util.c 28-61 wolfsentry_centijson_errcode_translate *)

  (** What the caller can see: the context, the clone if there is one, whether the process state is still allocated, whether
      the context is still locked. *)
  Record world := World { w_actual : C; w_clone : option C; w_state : bool; w_locked : bool }.

  Variable k : calls.
  Variable cfg : jconfig.

  (** 1800, 1860: WOLFSENTRY_MASKIN_BITS: any of the two *)
  Definition apart (fl : Z) : bool := Z.testbit fl LF_DRY_RUN || Z.testbit fl LF_LOAD_THEN_COMMIT.
  (** 1803-1807 *)
  Definition kind (fl : Z) : clone_kind :=
    if Z.testbit fl LF_NO_FLUSH then CloneAll else if Z.testbit fl LF_FLUSH_ONLY_ROUTES then CloneNoRoutes else CloneAsCreated.

  (** A session after a successful init: the parser with the process state and the content loaded into (jps->wolfsentry), or
      the stored result of the parser that was finished after a failure (LOAD_FLAG_FINI, fini_ret); and the running content
      (jps->wolfsentry_actual) if that is another context. *)
  Record session := Session {
    s_flags : Z;
    s_parser : parser (J * C) + Z * (J * C);
    s_actual : option C }.
  (** What init answers: an error and what is left, or a session. *)
  Inductive started := Failed (r : Z) (w : world) | Started (s : session).

  (** 1849-1871: the end of init after an error; [cl] is jps->wolfsentry if it is a clone. *)
  Definition init_out (r : Z) (a : C) (cl : option C) : started :=
    match cl with
    | None => Failed r (World a None false false)
    | Some c => let '(r2, c) := k_free k c in
                if r2 <? 0 then Failed r2 (World a (Some c) false false) else Failed r (World a None false false)
    end.

  (** 1697-1876 wolfsentry_config_json_init_ex.  [memory]: whether malloc succeeds. *)
  Definition init (memory : bool) (invalid_arg no_memory : Z) (fl : Z) (a : C) : started :=
    if Z.testbit fl LF_FINI then Failed invalid_arg (World a None false false)                       (* 1742 *)
    else if negb memory then Failed no_memory (World a None false false)                             (* 1745 *)
    else if k_lock k <? 0 then Failed (k_lock k) (World a None true false)                            (* 1779-1791: returns without freeing *)
    else if apart fl then
      let '(r, c) := k_clone k (kind fl) a in
      if r <? 0 then init_out r a None                                                                (* 1808; the clone is freed by the call *)
      else
        let c := k_inhibit k c in                                                                     (* 1810 *)
        let '(r, j) := k_start k fl c in
        if r <? 0 then Failed r (World a (Some c) true true)                                          (* 1830: returns as it stands *)
        else Started (Session fl (inl (json_init (j, c))) (Some a))
    else
      let '(r, j) := k_start k fl a in
      if r <? 0 then Failed r (World a None true true)
      else if Z.testbit fl LF_NO_FLUSH then Started (Session fl (inl (json_init (j, a))) None)
      else
        let '(r, a) := if Z.testbit fl LF_FLUSH_ONLY_ROUTES then k_flush_routes k a else k_flush k a in  (* 1832-1847 *)
        if r <? 0 then init_out r a None
        else Started (Session fl (inl (json_init (j, a))) None).

  Definition cb (fl : Z) := k_event k fl.

  (** 1890-1913 wolfsentry_config_json_feed; [None] does not happen (Json.v). *)
  Definition feed (invalid_arg : Z) (s : session) (chunk : list Z) : option (Z * session) :=
    match s_parser s with
    | inr _ => Some (invalid_arg, s)                                                                  (* 1898 *)
    | inl p =>
      match json_feed cfg (cb (s_flags s)) p chunk with
      | None => None
      | Some p =>
        if p_err p <? 0 then
          match json_fini cfg (cb (s_flags s)) p with
          | None => None
          | Some (r, _, u) => Some (k_translate k r, Session (s_flags s) (inr (r, u)) (s_actual s))   (* 1902-1911 *)
          end
        else Some (0, Session (s_flags s) (inl p) (s_actual s))
      end
    end.
  Fixpoint feeds (invalid_arg : Z) (s : session) (chunks : list (list Z)) : option session :=
    match chunks with
    | [] => Some s
    | c :: r => match feed invalid_arg s c with None => None | Some (_, s) => feeds invalid_arg s r end
    end.

  (** 2001-2035: the end of fini; [ld] is what is left in jps->wolfsentry, if that is a clone. *)
  Definition fini_out (r : Z) (a : C) (cl : option C) : Z * world :=
    match cl with
    | None => (r, World a None false false)
    | Some c => let '(r2, c) := k_free k c in
                (r, World a (if r2 <? 0 then Some c else None) false false)
    end.
  (** 1971-1998: committing. *)
  Definition commit (fl : Z) (a c : C) : Z * world :=
    let '(r, a, c) := k_exchange k a c in                                                             (* 1977 *)
    if r <? 0 then fini_out r a (Some c)
    else
      (* 1964-1975: both tables compared are the running context's, so only the flag counts *)
      let cycle := negb (Z.testbit fl LF_NO_FLUSH) in
      let '(r, a) := if cycle then k_bulk_clear k a else (0, a) in                                    (* 1983 *)
      if r <? 0 then fini_out r a (Some c)
      else
        let '(r, c) := if cycle then k_flush k c else (0, c) in                                       (* 1985 *)
        if r <? 0 then fini_out r a (Some c)
        else
          let a := k_enable k a in                                                                    (* 1989 *)
          let '(r, a) := k_bulk_insert k a in                                                         (* 1994 *)
          if r <? 0 then fini_out r a (Some c)
          else
            let '(r2, c) := k_free k c in                                                             (* 1998 *)
            fini_out r a (if r2 <? 0 then Some c else None).
  (** 1932-2035 wolfsentry_config_json_fini.  The result of a success is WOLFSENTRY_RETURN_OK (0) whatever [ret] was (2034). *)
  Definition fini (s : session) : option (Z * world) :=
    let fl := s_flags s in
    match (match s_parser s with
           | inr (r, u) => Some (r, u)
           | inl p => match json_fini cfg (cb fl) p with None => None | Some (r, _, u) => Some (r, u) end
           end) with
    | None => None
    | Some (r, (j, c)) =>
      let res :=
        if r <? 0 then
          match s_actual s with
          | None => fini_out (k_translate k r) c None
          | Some a => fini_out (k_translate k r) a (Some c)
          end
        else
          match s_actual s with
          | None => fini_out 0 c None
          | Some a => if Z.testbit fl LF_DRY_RUN then fini_out 0 a (Some c)
                      else if Z.testbit fl LF_LOAD_THEN_COMMIT then commit fl a c
                      else fini_out 0 a (Some c)
          end in
      Some (if fst res <? 0 then res else (0, snd res))
    end.

  (** A whole session: init, any number of feeds (whatever they answer), fini. *)
  Definition load (memory : bool) (invalid_arg no_memory fl : Z) (chunks : list (list Z)) (a : C) : option (Z * world) :=
    match init memory invalid_arg no_memory fl a with
    | Failed r w => Some (r, w)
    | Started s => match feeds invalid_arg s chunks with None => None | Some s => fini s end
    end.
  (** 2037-2058 wolfsentry_config_json_oneshot_ex: the same with one feed. *)
  Definition oneshot (memory : bool) (invalid_arg no_memory fl : Z) (doc : list Z) (a : C) : option (Z * world) :=
    match init memory invalid_arg no_memory fl a with
    | Failed r w => Some (r, w)
    | Started s => match feed invalid_arg s doc with None => None | Some (r, s) => fini s end
    end.
End Session.
Arguments calls : clear implicits.
Arguments world : clear implicits.
Arguments session : clear implicits.
Arguments started : clear implicits.
