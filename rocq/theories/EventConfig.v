(** Event configurations: src/wolfsentry_util.c 3318-3465, src/events.c 66-79, 343-380, and the use of the private-data fields in
    src/routes.c 947-1000, 3269-3283.  size_t has 64 bits, pointers 8 bytes; [off] is offsetof(struct wolfsentry_route, data). *)
From Verif Require Import Base Table RouteKey.
Open Scope N_scope.

Definition szmod : N := 18446744073709551616.  (* 2^64 *)
Definition sadd (a b : N) : N := (a + b) mod szmod.
Definition ssub (a b : N) : N := (a + szmod - b) mod szmod.

(** wolfsentry.h 1212-1239 (struct wolfsentry_eventconfig) *)
Record econf := mkE {
  e_size : N; e_align : N;              (* route_private_data_size, _alignment: size_t *)
  e_max_conns : N; e_threshold : N;     (* uint32_t *)
  e_box : Z; e_idle : Z;                (* penaltybox_duration, route_idle_time_for_purge *)
  e_flags : N; e_radd : N; e_rclr : N;  (* flags, route_flags_to_add/clear_on_insert *)
  e_fset : N; e_funset : N;             (* action_res_filter_bits_set/unset *)
  e_badd : N; e_bclr : N }.             (* action_res_bits_to_add/clear *)
(** wolfsentry_internal.h 315-320 (struct wolfsentry_eventconfig_internal) *)
Record iconf := mkI { ic : econf; pad : N }.
Definition with_size (c : econf) (n : N) : econf :=
  mkE n (e_align c) (e_max_conns c) (e_threshold c) (e_box c) (e_idle c) (e_flags c) (e_radd c) (e_rclr c) (e_fset c) (e_funset c) (e_badd c) (e_bclr c).
Definition zero_econf : econf := mkE 0 0 0 0 0 0 0 0 0 0 0 0 0.

Section Off.
  Variable off : N.
  (** util.c 3330-3371 (wolfsentry_eventconfig_check); NULL is accepted *)
  Definition check_conf (c : econf) : err :=
    if negb (N.land (e_radd c) (e_rclr c) =? 0) then INVALID_ARG
    else if negb (N.land (e_fset c) (e_funset c) =? 0) then INVALID_ARG
    else if negb (N.land (e_badd c) (e_bclr c) =? 0) then INVALID_ARG
    else if 65535 <? e_threshold c then INVALID_ARG
    else if negb (flags_sensical (e_radd c)) then INVALID_ARG
    else if (if e_size c =? 0 then negb (e_align c =? 0)
             else negb (e_align c =? 0) && ((e_align c <? 8) || negb (N.land (e_align c) (ssub (e_align c) 1) =? 0) || (e_size c <? e_align c))) then INVALID_ARG
    else if (0 <? e_align c) && (0 <? off mod e_align c) && (65535 <? sadd (e_size c) (e_align c - off mod e_align c)) then NUMERIC_ARG_TOO_BIG
    else OK.
  (** util.c 3373-3397 (wolfsentry_eventconfig_load): the internal configuration afterwards *)
  Definition load (supplied : option econf) (i : iconf) : err * iconf :=
    match supplied with
    | None => (OK, i)
    | Some c =>
      match check_conf c with
      | OK =>
        if 0 <? e_align c then
          let slop := off mod e_align c in
          if 0 <? slop then (OK, mkI (with_size c (sadd (e_size c) (e_align c - slop))) (e_align c - slop)) else (OK, mkI c 0)
        else (OK, mkI c 0)
      | e => (e, i)
      end
    end.
  (** util.c 3399-3427 (wolfsentry_eventconfig_update_1) *)
  Definition update_1 (supplied : option econf) (i : iconf) : err * iconf :=
    match supplied with
    | None => (INVALID_ARG, i)
    | Some c =>
      match check_conf c with
      | OK => (OK, mkI (mkE (e_size (ic i)) (e_align (ic i)) (e_max_conns c) (e_threshold c) (e_box c) (e_idle c) (e_flags c) (e_radd c) (e_rclr c)
                            (e_fset c) (e_funset c) (e_badd c) (e_bclr c)) (pad i))
      | e => (e, i)
      end
    end.
  (** util.c 3429-3444 (wolfsentry_eventconfig_get_1) *)
  Definition get_conf (i : iconf) : econf := with_size (ic i) (ssub (e_size (ic i)) (pad i)).
  (** util.c 3318-3328 (wolfsentry_eventconfig_init), from a context or from scratch *)
  Definition init_conf (ctx : option iconf) : econf := match ctx with Some i => ic i | None => zero_econf end.

  (** events.c: event->config.  [NoConf]: NULL, the context's configuration applies.  [Garbage]: malloc'ed and not written. *)
  Inductive evconf := NoConf | Garbage | Own (i : iconf).
  (** events.c 359-380 (wolfsentry_event_update_config) once the event is found and malloc succeeds *)
  Definition event_update_config (supplied : option econf) (ec : evconf) : out (err * evconf) :=
    match ec with
    | NoConf =>
      match supplied with
      | None => Ret (OK, Garbage)        (* 3380: eventconfig_load does nothing for NULL *)
      | Some c => match check_conf c with OK => Ret (OK, Own (snd (load supplied (mkI zero_econf 0)))) | e => Ret (e, NoConf) end
      end
    | Garbage => match supplied with
                 | None => Ret (OK, Garbage)
                 | Some c => match check_conf c with OK => Ret (OK, Own (snd (load supplied (mkI zero_econf 0)))) | e => Ret (e, Garbage) end
                 end
    | Own i => Ret (let '(e, i) := load supplied i in (e, Own i))
    end.
  (** The configuration in force; reading one that was never written is undefined *)
  Definition in_force (ctx : iconf) (ec : evconf) : out iconf := match ec with NoConf => Ret ctx | Garbage => UB | Own i => Ret i end.
  (** events.c 343-357 (wolfsentry_event_get_config) *)
  Definition event_get_config (ctx : iconf) (ec : evconf) : out econf := let* i := in_force ctx ec in Ret (get_conf i).

  (** routes.c 983, 988-991: bytes allocated for the private data of a new route (and its padding), and the alignment of the route *)
  Definition private_alloc (i : iconf) : N := e_size (ic i).
  (** routes.c 3269-3283 (wolfsentry_route_get_private_data): offset from route->data, and size *)
  Definition private_data (i : iconf) : option (N * N) :=
    if e_size (ic i) =? 0 then None else Some (pad i, ssub (e_size (ic i)) (pad i)).
End Off.
