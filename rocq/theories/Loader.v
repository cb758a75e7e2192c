(** * What a configuration document does: src/json/load_config.c 56-152, 345-364, 407-1695

    json_process, the callback the parser calls for every token of a configuration, and its handlers.  The contents of the
    context ([W]) and the calls made on it are left open (a record of arbitrary functions with their return codes, negative for
    errors), so the theorems are for every content and every failure of those calls; so are the conversions that ask the system
    or a user-supplied parser ([cv_address], [cv_family_name], ...), JSON values kept whole ([D], [V], Dom.v has the real ones)
    and floating-point numbers ([F]).  Whole numbers are read by Convert.v, names of flags by Names.v.

    Simplified: all errors are the same ([Err]) and the contents after an error are not described (Session.v: the caller sees
    them only if the load was in place); error positions are not modelled (C54 has the parser's); the union o_u_c (110-136) is
    three separate records, which is the same because it is cleared whenever the object it is used for ends (reset_o_u_c);
    memcpy of 0 bytes from NULL does nothing; WOLFSENTRY_JSON_VALUE_MAX_BYTES is not defined (the default); all keys that
    depend on build options (JSON DOM, PROTOCOL_NAMES, GETPROTOBY, IPV6, ADDR_BITMASK_MATCHING) are there (the default). *)
Require Import ZArith NArith List Bool String Ascii.
From Verif Require Import Json Convert EventConfig.
From Verif Require JsonText Table Names.
Import ListNotations.
Open Scope Z_scope.

(** Undefined behaviour is [Bad]. *)
Inductive res (A : Type) := Good (a : A) | Err | Bad.
Arguments Good {A} a. Arguments Err {A}. Arguments Bad {A}.
Definition bind {A B} (r : res A) (k : A -> res B) : res B := match r with Good a => k a | Err => Err | Bad => Bad end.
Notation "'do' p <- r ; k" := (bind r (fun p => k)) (at level 200, p pattern, r at level 100, k at level 200).

Fixpoint eqb (a b : list Z) : bool :=
  match a, b with [], [] => true | x :: a, y :: b => (x =? y) && eqb a b | _, _ => false end.
(** ! strcmp(key, "...") on a key that is terminated and contains no other NUL *)
Definition is (k : list Z) (s : string) : bool := eqb k (JsonText.bytes s).

Definition MAX_LABEL := 32.       (* wolfsentry.h WOLFSENTRY_MAX_LABEL_BYTES *)
Definition MAX_VALUE := 16384.    (* WOLFSENTRY_KV_MAX_VALUE_BYTES *)
Definition MAX_ADDR_BITS := 128.  (* WOLFSENTRY_MAX_ADDR_BITS; the buffers have 16 bytes *)
Definition ADDR_BYTES := 16%nat.
Definition AF_UNSPEC := 0. Definition AF_INET := 2. Definition AF_INET6 := 10.
Definition IPPROTO_TCP := 6. Definition IPPROTO_UDP := 17.
(** wolfsentry.h 540-548 wolfsentry_action_type_t *)
Definition TYPE_POST := 1. Definition TYPE_INSERT := 2. Definition TYPE_MATCH := 3.
Definition TYPE_UPDATE := 4. Definition TYPE_DELETE := 5. Definition TYPE_DECISION := 6.
(** wolfsentry.h: bits of wolfsentry_route_flags_t *)
Definition B_FAMILY := 0%N. Definition B_RADDR := 1%N. Definition B_PROTO := 2%N. Definition B_LPORT := 3%N. Definition B_LADDR := 4%N.
Definition B_RPORT := 5%N. Definition B_RIFACE := 6%N. Definition B_LIFACE := 7%N. Definition B_EVENT := 8%N. Definition B_TCPLIKE := 9%N.
Definition B_RMASK := 12%N. Definition B_LMASK := 13%N.
(** wolfsentry_json.h: WOLFSENTRY_CONFIG_LOAD_FLAG_NO_ROUTES_OR_EVENTS *)
Definition LF_NO_ROUTES_OR_EVENTS := 3.

(** struct wolfsentry_sockaddr with an address buffer of 16 bytes *)
Record sa := mkSa { sa_family : Z; sa_proto : Z; sa_port : Z; sa_len : Z; sa_iface : Z; sa_addr : list Z }.
(** 111-118 *)
Record route := mkRoute { r_label : list Z; r_remote : sa; r_local : sa; r_flags : N }.
(** 119-127; [ev_config] with [ev_configed] *)
Record event_uc := mkEv { ev_label : list Z; ev_priority : Z; ev_config : econf; ev_configed : bool; ev_inserted : bool; ev_list : Z }.
Definition zero_sa := mkSa 0 0 0 0 0 (repeat 0 ADDR_BYTES).
Definition zero_route := mkRoute [] zero_sa zero_sa 0.
Definition zero_event := mkEv [] 0 zero_econf false false 0.

Definition with_family (s : sa) f := mkSa f (sa_proto s) (sa_port s) (sa_len s) (sa_iface s) (sa_addr s).
Definition with_proto (s : sa) p := mkSa (sa_family s) p (sa_port s) (sa_len s) (sa_iface s) (sa_addr s).
Definition with_port (s : sa) p := mkSa (sa_family s) (sa_proto s) p (sa_len s) (sa_iface s) (sa_addr s).
Definition with_len (s : sa) n := mkSa (sa_family s) (sa_proto s) (sa_port s) n (sa_iface s) (sa_addr s).
Definition with_iface (s : sa) i := mkSa (sa_family s) (sa_proto s) (sa_port s) (sa_len s) i (sa_addr s).
Definition with_addr (s : sa) a := mkSa (sa_family s) (sa_proto s) (sa_port s) (sa_len s) (sa_iface s) a.
Definition with_flags (r : route) f := mkRoute (r_label r) (r_remote r) (r_local r) f.
Definition with_sas (r : route) a b := mkRoute (r_label r) a b (r_flags r).
(** which of the two endpoints of the route a member is about *)
Definition get_sa (remote : bool) (r : route) := if remote then r_remote r else r_local r.
Definition set_sa (remote : bool) (r : route) s := if remote then with_sas r s (r_local r) else with_sas r (r_remote r) s.
Definition set_bit (r : route) b := with_flags r (N.setbit (r_flags r) b).
Definition clear_bit (r : route) b := with_flags r (N.clearbit (r_flags r) b).

(** struct wolfsentry_eventconfig: assignments *)
Definition with_max_conns (c : econf) v := mkE (e_size c) (e_align c) v (e_threshold c) (e_box c) (e_idle c) (e_flags c) (e_radd c) (e_rclr c) (e_fset c) (e_funset c) (e_badd c) (e_bclr c).
Definition with_threshold (c : econf) v := mkE (e_size c) (e_align c) (e_max_conns c) v (e_box c) (e_idle c) (e_flags c) (e_radd c) (e_rclr c) (e_fset c) (e_funset c) (e_badd c) (e_bclr c).
Definition with_box (c : econf) v := mkE (e_size c) (e_align c) (e_max_conns c) (e_threshold c) v (e_idle c) (e_flags c) (e_radd c) (e_rclr c) (e_fset c) (e_funset c) (e_badd c) (e_bclr c).
Definition with_idle (c : econf) v := mkE (e_size c) (e_align c) (e_max_conns c) (e_threshold c) (e_box c) v (e_flags c) (e_radd c) (e_rclr c) (e_fset c) (e_funset c) (e_badd c) (e_bclr c).
Definition with_cflags (c : econf) v := mkE (e_size c) (e_align c) (e_max_conns c) (e_threshold c) (e_box c) (e_idle c) v (e_radd c) (e_rclr c) (e_fset c) (e_funset c) (e_badd c) (e_bclr c).
Definition with_radd (c : econf) v := mkE (e_size c) (e_align c) (e_max_conns c) (e_threshold c) (e_box c) (e_idle c) (e_flags c) v (e_rclr c) (e_fset c) (e_funset c) (e_badd c) (e_bclr c).
Definition with_rclr (c : econf) v := mkE (e_size c) (e_align c) (e_max_conns c) (e_threshold c) (e_box c) (e_idle c) (e_flags c) (e_radd c) v (e_fset c) (e_funset c) (e_badd c) (e_bclr c).
Definition with_fset (c : econf) v := mkE (e_size c) (e_align c) (e_max_conns c) (e_threshold c) (e_box c) (e_idle c) (e_flags c) (e_radd c) (e_rclr c) v (e_funset c) (e_badd c) (e_bclr c).
Definition with_funset (c : econf) v := mkE (e_size c) (e_align c) (e_max_conns c) (e_threshold c) (e_box c) (e_idle c) (e_flags c) (e_radd c) (e_rclr c) (e_fset c) v (e_badd c) (e_bclr c).
Definition with_badd (c : econf) v := mkE (e_size c) (e_align c) (e_max_conns c) (e_threshold c) (e_box c) (e_idle c) (e_flags c) (e_radd c) (e_rclr c) (e_fset c) (e_funset c) v (e_bclr c).
Definition with_bclr (c : econf) v := mkE (e_size c) (e_align c) (e_max_conns c) (e_threshold c) (e_box c) (e_idle c) (e_flags c) (e_radd c) (e_rclr c) (e_fset c) (e_funset c) (e_badd c) v.

(** 61-65 *)
Inductive table_uc := T_NONE | T_TOPCONFIG | T_EVENTS | T_DEFAULTPOLICIES | T_ROUTES | T_USER_VALUES.
Inductive object_uc := O_NONE | O_ROUTE | O_EVENT | O_USER_VALUE.
Inductive section_uc := S_NONE | S_EVENTCONFIG | S_ACTION_LIST | S_REMOTE | S_LOCAL | S_USER_VALUE_JSON.

(** What the documents of a system library's _r lookups can give: an entry; success without an entry; an error. *)
Inductive lookup := Found (n : Z) | NoEntry | LookupError.

(** A value in the user-value table. *)
Inductive uval {F V : Type} := UNull | UBool (b : bool) | UUint (n : Z) | USint (n : Z) | UDouble (f : F) | UString (s : list Z) | UBase64 (s : list Z) | UJson (v : V).
Arguments uval : clear implicits.

Section Loader.
  Context {W D V F : Type}.

  Record calls := Calls {
    a_event_insert : list Z -> Z -> option econf -> W -> Z * W;      (* wolfsentry_event_insert: label, priority, config *)
    a_aux : list Z -> list Z -> W -> Z * W;                          (* wolfsentry_event_set_aux_event *)
    a_post_actions : list Z -> W -> option (list (list Z));          (* wolfsentry_event_action_list_start / _next of an event's post actions *)
    a_append : list Z -> Z -> list Z -> W -> Z * W;                  (* wolfsentry_event_action_append: event, type, action *)
    a_defaults : econf -> W -> Z * W;                                (* wolfsentry_defaultconfig_update *)
    a_policy : N -> W -> Z * W;                                      (* wolfsentry_route_table_default_policy_set *)
    a_default_event : list Z -> W -> Z * W;                          (* wolfsentry_route_table_set_default_event *)
    a_max_routes : Z -> W -> Z * W;                                  (* wolfsentry_route_table_max_purgeable_routes_set *)
    a_max_idle : Z -> W -> Z * W;                                    (* wolfsentry_route_table_max_purgeable_idle_time_set *)
    a_route_insert : sa -> sa -> N -> option (list Z) -> W -> Z * W; (* wolfsentry_route_insert: remote, local, flags, event label *)
    a_store : list Z -> uval F V -> W -> Z * W }.                    (* wolfsentry_user_value_store_*, overwrite_p 0 *)

  Record converters := Conv {
    cv_duration : jtype -> list Z -> cres;                           (* convert_wolfsentry_duration 366-405 (Convert.v) *)
    cv_double : jtype -> list Z -> option F;                         (* convert_double 326-364 *)
    (* convert_sockaddr_address 583-717: context, whether the bitmask flag is set, family, addr_len, type, text; the family
       afterwards, the bytes written, addr_len afterwards *)
    cv_address : W -> bool -> Z -> Z -> jtype -> list Z -> option (Z * list Z * Z);
    cv_port_name : Z -> list Z -> lookup;                            (* getservbyname_r, for a protocol 762-767; an error of getprotobynumber_r is one of these *)
    cv_proto_name : list Z -> lookup;                                (* getprotobyname_r 954-963 *)
    cv_family_name : W -> list Z -> option Z;                        (* wolfsentry_addr_family_pton *)
    cv_family_bits : W -> Z -> option Z;                             (* wolfsentry_addr_family_max_addr_bits *)
    dom_init : D; dom_step : jtype -> list Z -> D -> Z * D; dom_value : D -> option V }.

  Variable api : calls.
  Variable cv : converters.
  (** load_flags & WOLFSENTRY_CONFIG_LOAD_FLAG_NO_ROUTES_OR_EVENTS *)
  Variable only_values : bool.

  (** 56-136 *)
  Record jps := mkJ {
    j_version : Z; j_table : table_uc; j_object : object_uc; j_section : section_uc;
    j_depth : Z; j_key : list Z; j_keydepth : Z;
    j_default : econf; j_policy : N; j_dom : D;
    j_route : route; j_event : event_uc; j_label : list Z }.
  Definition with_version j v := mkJ v (j_table j) (j_object j) (j_section j) (j_depth j) (j_key j) (j_keydepth j) (j_default j) (j_policy j) (j_dom j) (j_route j) (j_event j) (j_label j).
  Definition with_table j t := mkJ (j_version j) t (j_object j) (j_section j) (j_depth j) (j_key j) (j_keydepth j) (j_default j) (j_policy j) (j_dom j) (j_route j) (j_event j) (j_label j).
  Definition with_object j o := mkJ (j_version j) (j_table j) o (j_section j) (j_depth j) (j_key j) (j_keydepth j) (j_default j) (j_policy j) (j_dom j) (j_route j) (j_event j) (j_label j).
  Definition with_section j s := mkJ (j_version j) (j_table j) (j_object j) s (j_depth j) (j_key j) (j_keydepth j) (j_default j) (j_policy j) (j_dom j) (j_route j) (j_event j) (j_label j).
  Definition with_depth j n := mkJ (j_version j) (j_table j) (j_object j) (j_section j) n (j_key j) (j_keydepth j) (j_default j) (j_policy j) (j_dom j) (j_route j) (j_event j) (j_label j).
  Definition with_key j k n := mkJ (j_version j) (j_table j) (j_object j) (j_section j) (j_depth j) k n (j_default j) (j_policy j) (j_dom j) (j_route j) (j_event j) (j_label j).
  Definition with_default j c := mkJ (j_version j) (j_table j) (j_object j) (j_section j) (j_depth j) (j_key j) (j_keydepth j) c (j_policy j) (j_dom j) (j_route j) (j_event j) (j_label j).
  Definition with_policy j p := mkJ (j_version j) (j_table j) (j_object j) (j_section j) (j_depth j) (j_key j) (j_keydepth j) (j_default j) p (j_dom j) (j_route j) (j_event j) (j_label j).
  Definition with_dom j x := mkJ (j_version j) (j_table j) (j_object j) (j_section j) (j_depth j) (j_key j) (j_keydepth j) (j_default j) (j_policy j) x (j_route j) (j_event j) (j_label j).
  Definition with_route j r := mkJ (j_version j) (j_table j) (j_object j) (j_section j) (j_depth j) (j_key j) (j_keydepth j) (j_default j) (j_policy j) (j_dom j) r (j_event j) (j_label j).
  Definition with_event j e := mkJ (j_version j) (j_table j) (j_object j) (j_section j) (j_depth j) (j_key j) (j_keydepth j) (j_default j) (j_policy j) (j_dom j) (j_route j) e (j_label j).
  Definition with_label j l := mkJ (j_version j) (j_table j) (j_object j) (j_section j) (j_depth j) (j_key j) (j_keydepth j) (j_default j) (j_policy j) (j_dom j) (j_route j) (j_event j) l.

  (** 138-152: nothing is cleared when no object is under construction *)
  Definition reset j :=
    match j_object j with
    | O_NONE => j
    | _ => mkJ (j_version j) (j_table j) O_NONE S_NONE (j_depth j) (j_key j) (j_keydepth j) (j_default j) (j_policy j) (j_dom j) zero_route zero_event []
    end.

  (** A call on the context: an error stops the handler. *)
  Definition call {A} (a : A) (r : Z * W) : res (A * W) := if fst r <? 0 then Err else Good (a, snd r).
  Definition number (r : cres) : res Z := match r with CSet v => Good v | CInvalid | CTooBig => Err | CUB => Bad end.

  (** 371: durations are numbers or strings *)
  Definition duration (t : jtype) (d : list Z) : cres := if numeric_type t then cv_duration cv t d else CInvalid.

  (** wolfsentry_route_flag_assoc_by_name, wolfsentry_action_res_assoc_by_name (Names.v) on text of a given length, and on a key *)
  Definition named (r : Table.out (option N)) : res N :=
    match r with Table.Ret (Some f) => Good f | Table.Ret None => Err | _ => Bad end.
  Definition flag_of_text (d : list Z) : res N := named (Names.by_name (map Z.to_N d) (Z.of_nat (List.length d))).
  Definition result_of_text (d : list Z) : res N := named (Names.res_by_name (map Z.to_N d) (Z.of_nat (List.length d))).
  Definition flag_of_key (k : list Z) : res N := named (Names.by_name (map Z.to_N (k ++ [0])) (-1)).

  (** 355-364 convert_eventconfig_flag *)
  Definition config_flag (t : jtype) (b : N) (c : econf) : res econf :=
    match t with
    | JSON_FALSE => Good (with_cflags c (N.clearbit (e_flags c) b))
    | JSON_TRUE => Good (with_cflags c (N.setbit (e_flags c) b))
    | _ => Err
    end.
  (** 407-421 convert_default_policy; streq compares whole strings *)
  Definition policy_of (t : jtype) (d : list Z) : res N :=
    match t with
    | JSON_STRING => if is d "accept" then Good 1%N else if is d "reject" then Good 2%N else if is d "reset" then Good (N.lor 2 4096) else Err
    | _ => Err
    end.

  (** 423-540 handle_eventconfig_clause, on the configuration [c], which is that of the event or the default *)
  Definition eventconfig_clause (j : jps) (w : W) (t : jtype) (d : list Z) (c : econf) : res (econf * jps * W) :=
    let k := j_key j in
    let just r := do c <- r; Good (c, j, w) in
    if j_depth j =? 5 then
      if is k "route-flags-to-add-on-insert" || is k "route-flags-to-clear-on-insert" then
        match t with
        | JSON_ARRAY_BEG => Good (c, j, w)
        | JSON_STRING =>
          just (do f <- flag_of_text d;
                Good (if is k "route-flags-to-add-on-insert" then with_radd c (N.lor (e_radd c) f) else with_rclr c (N.lor (e_rclr c) f)))
        | _ => Err
        end
      else if is k "action-res-filter-bits-set" || is k "action-res-filter-bits-unset" || is k "action-res-bits-to-add" || is k "action-res-bits-to-clear" then
        match t with
        | JSON_ARRAY_BEG => Good (c, j, w)
        | JSON_STRING =>
          just (do f <- result_of_text d;
                Good (if is k "action-res-filter-bits-set" then with_fset c (N.lor (e_fset c) f)
                      else if is k "action-res-filter-bits-unset" then with_funset c (N.lor (e_funset c) f)
                      else if is k "action-res-bits-to-add" then with_badd c (N.lor (e_badd c) f)
                      else with_bclr c (N.lor (e_bclr c) f)))
        | _ => Err
        end
      else Err
    else match t with
    | JSON_ARRAY_END => Good (c, j, w)
    | JSON_OBJECT_END =>
      match j_table j with
      | T_TOPCONFIG =>
        do (_, w) <- call tt (a_defaults api c w);
        let j := with_table j T_NONE in
        if negb (N.eqb (j_policy j) 0) then do (_, w) <- call tt (a_policy api (j_policy j) w); Good (c, j, w) else Good (c, j, w)
      | _ => Err
      end
    | _ =>
      if is k "max-connection-count" then just (do v <- number (convert_uint32 t d); Good (with_max_conns c (Z.to_N v)))
      else if is k "penalty-box-duration" then just (do v <- number (duration t d); Good (with_box c v))
      else if is k "route-idle-time-for-purge" then just (do v <- number (duration t d); Good (with_idle c v))
      else if is k "derog-thresh-for-penalty-boxing" then just (do v <- number (convert_uint32 t d); Good (with_threshold c (Z.to_N v)))
      else if is k "derog-thresh-ignore-commendable" then just (config_flag t 0 c)
      else if is k "commendable-clears-derogatory" then just (config_flag t 1 c)
      else if is k "max-purgeable-routes" then
        match j_table j with
        | T_TOPCONFIG => do v <- number (convert_uint32 t d); do (_, w) <- call tt (a_max_routes api v w); Good (c, j, w)
        | _ => Err
        end
      else if is k "max-purgeable-idle-time" then
        match j_table j with
        | T_TOPCONFIG => do v <- number (duration t d); do (_, w) <- call tt (a_max_idle api v w); Good (c, j, w)
        | _ => Err
        end
      else Err
    end.

  (** 542-567 handle_defaultpolicy_clause *)
  Definition defaultpolicy_clause (j : jps) (w : W) (t : jtype) (d : list Z) : res (jps * W) :=
    match t with
    | JSON_OBJECT_END =>
      let j := with_table j T_NONE in
      if negb (N.eqb (j_policy j) 0) then call j (a_policy api (j_policy j) w) else Good (j, w)
    | _ =>
      if is (j_key j) "default-policy" then do p <- policy_of t d; Good (with_policy j p, w)
      else if is (j_key j) "default-event" then
        if only_values then Good (j, w) else call j (a_default_event api d w)
      else Err
    end.

  (** memcpy / memmove into the address buffer: undefined beyond its end *)
  Definition write_at (a : list Z) (off : nat) (bytes : list Z) : res (list Z) :=
    if (Nat.leb (off + List.length bytes) (List.length a))%nat
    then Good (firstn off a ++ bytes ++ skipn (off + List.length bytes) a) else Bad.
  Definition size_t_sub (a b : Z) : Z := (a - b) mod 2 ^ 64.
  (** WOLFSENTRY_BITS_TO_BYTES on a size_t *)
  Definition bits_to_bytes (n : Z) : Z := (n + 7) mod 2 ^ 64 / 8.
  (** 866-874: the address moved up by the difference of the lengths; [sa_len] bits are taken for bytes *)
  Definition move_up (size : Z) (s : sa) : res sa :=
    if (sa_len s =? 0) || (sa_len s =? size) then Good s
    else
      let pad := bits_to_bytes (size_t_sub size (sa_len s)) in
      if (Z.of_nat (List.length (sa_addr s)) <? sa_len s) || (Z.of_nat (List.length (sa_addr s)) <? pad + sa_len s) then Bad
      else
        do a <- write_at (sa_addr s) (Z.to_nat pad) (firstn (Z.to_nat (sa_len s)) (sa_addr s));
        do a <- write_at a 0 (repeat 0 (Z.to_nat pad));
        Good (with_addr s a).
  (** convert_sockaddr_address with sa_addr = addr + off *)
  Definition address_into (w : W) (mask : bool) (s : sa) (off : nat) (t : jtype) (d : list Z) : res sa :=
    match cv_address cv w mask (sa_family s) (sa_len s) t d with
    | None => Err
    | Some (f, b, n) => do a <- write_at (sa_addr s) off b; Good (with_len (with_family (with_addr s a) f) n)
    end.

  (** 779-909 handle_route_endpoint_clause (with 719-776) for one endpoint of the route *)
  Definition endpoint_clause (remote : bool) (k : list Z) (w : W) (t : jtype) (d : list Z) (r : route) : res route :=
    let s := get_sa remote r in
    let mask := N.testbit (r_flags r) (if remote then B_RMASK else B_LMASK) in
    if is k "port" then
      if sa_family s =? AF_UNSPEC then Err
      else
        let r := clear_bit r (if remote then B_RPORT else B_LPORT) in
        match t with
        | JSON_NUMBER => do v <- number (convert_uint16 t d); Good (set_sa remote r (with_port s v))
        | JSON_STRING =>
          if negb (N.testbit (r_flags r) B_TCPLIKE) then Err
          else if 64 <=? Z.of_nat (List.length d) then Err
          else match cv_port_name cv (sa_proto s) d with
               | Found v => Good (set_sa remote r (with_port s v))
               | NoEntry => Bad                                        (* 774: s->s_port with s NULL *)
               | LookupError => Err
               end
        | _ => Err
        end
    else if is k "address" then
      if sa_family s =? AF_UNSPEC then Err
      else
        do s <- address_into w mask s 0 t d;
        Good (set_sa remote (clear_bit r (if remote then B_RADDR else B_LADDR)) s)
    else if is k "bitmask" then
      if sa_family s =? AF_UNSPEC then Err
      else match cv_family_bits cv w (sa_family s) with
      | None => Err
      | Some size =>
        if negb (Z.land size 7 =? 0) then Err
        else if MAX_ADDR_BITS <? Z.shiftl size 1 then Err
        else
          do s <- move_up size s;
          let r := set_bit r (if remote then B_RMASK else B_LMASK) in
          do s <- address_into w true s (Z.to_nat (bits_to_bytes size)) t d;
          Good (set_sa remote r (with_len s (Z.shiftl size 1)))
      end
    else if is k "prefix-bits" then
      if sa_family s =? AF_UNSPEC then Err
      else if mask then Err
      else do v <- number (convert_uint16 t d); Good (set_sa remote r (with_len s v))
    else if is k "interface" then
      do v <- number (convert_uint8 t d);
      Good (set_sa remote (clear_bit r (if remote then B_RIFACE else B_LIFACE)) (with_iface s v))
    else Err.

  (** 922-942 handle_route_family_clause *)
  Definition family_clause (w : W) (t : jtype) (d : list Z) (r : route) : res route :=
    let r := clear_bit r B_FAMILY in
    let both f := with_sas r (with_family (r_remote r) f) (with_family (r_local r) f) in
    match t with
    | JSON_NUMBER => do v <- number (convert_uint16 t d); Good (both v)
    | JSON_STRING => match cv_family_name cv w d with Some f => Good (both f) | None => Err end
    | _ => Err
    end.
  (** 944-990 handle_route_protocol_clause *)
  Definition protocol_clause (t : jtype) (d : list Z) (r : route) : res route :=
    let r := clear_bit r B_PROTO in
    let fam := sa_family (r_remote r) in
    let inet := (fam =? AF_INET) || (fam =? AF_INET6) in
    let both p :=
      let r := with_sas r (with_proto (r_remote r) p) (with_proto (r_local r) p) in
      if inet && ((p =? IPPROTO_TCP) || (p =? IPPROTO_UDP)) then set_bit r B_TCPLIKE else r in
    match t with
    | JSON_NUMBER => do v <- number (convert_uint16 t d); Good (both v)
    | JSON_STRING =>
      if fam =? AF_UNSPEC then Err
      else if negb inet then Err
      else if 64 <=? Z.of_nat (List.length d) then Err
      else match cv_proto_name cv d with
           | Found p => Good (both p)
           | NoEntry => Bad                                            (* 975: p->p_proto with p NULL *)
           | LookupError => Err
           end
    | _ => Err
    end.
  (** 911-920 handle_route_boolean_clause *)
  Definition boolean_clause (t : jtype) (f : N) (r : route) : res route :=
    match t with
    | JSON_TRUE => Good (with_flags r (N.lor (r_flags r) f))
    | JSON_FALSE => Good (with_flags r (N.ldiff (r_flags r) f))
    | _ => Err
    end.

  (** 992-1080 handle_route_clause *)
  Definition route_clause (j : jps) (w : W) (t : jtype) (d : list Z) : res (jps * W) :=
    let r := j_route j in
    let k := j_key j in
    let on r' := do r' <- r'; Good (with_route j r', w) in
    match j_depth j, t with
    | 2, JSON_OBJECT_END =>
      if only_values then Good (reset j, w)
      else call (reset j) (a_route_insert api (r_remote r) (r_local r) (r_flags r) (if (List.length (r_label r) =? 0)%nat then None else Some (r_label r)) w)
    | 3, JSON_OBJECT_BEG =>
      let j := with_object (reset j) O_ROUTE in
      Good (with_route j (with_flags (j_route j) (N.lor (r_flags (j_route j)) 255)), w)
    | 4, JSON_OBJECT_BEG =>
      if is k "remote" then Good (with_section j S_REMOTE, w)
      else if is k "local" then Good (with_section j S_LOCAL, w)
      else Err
    | 4, _ =>
      match j_section j with
      | S_REMOTE => on (endpoint_clause true k w t d r)
      | S_LOCAL => on (endpoint_clause false k w t d r)
      | _ => Err
      end
    | 3, JSON_OBJECT_END => Good (with_section j S_NONE, w)
    | 3, _ =>
      if is k "parent-event" then
        if MAX_LABEL <? Z.of_nat (List.length d) then Err
        else on (Good (clear_bit (mkRoute d (r_remote r) (r_local r) (r_flags r)) B_EVENT))
      else if is k "family" then on (family_clause w t d r)
      else if is k "protocol" then on (protocol_clause t d r)
      else on (do f <- flag_of_key k; boolean_clause t f r)
    | _, _ => Err
    end.

  (** The action appended to an event's list, one after the other (1184-1198) *)
  Fixpoint append_all (label : list Z) (type : Z) (l : list (list Z)) (w : W) : res W :=
    match l with
    | [] => Good w
    | a :: l => do (_, w) <- call tt (a_append api label type a w); append_all label type l w
    end.
  (** 1152-1167 *)
  Definition subevent_type (k : list Z) : Z :=
    if is k "insert-event" then TYPE_INSERT
    else if is k "match-event" then TYPE_MATCH
    else if is k "update-event" then TYPE_UPDATE
    else if is k "delete-event" then TYPE_DELETE
    else if is k "decision-event" then TYPE_DECISION
    else 0.
  (** 1211-1228 *)
  Definition list_type (k : list Z) : Z :=
    if is k "actions" || is k "post-actions" then TYPE_POST
    else if is k "insert-actions" then TYPE_INSERT
    else if is k "match-actions" then TYPE_MATCH
    else if is k "update-actions" then TYPE_UPDATE
    else if is k "delete-actions" then TYPE_DELETE
    else if is k "decision-actions" then TYPE_DECISION
    else 0.
  Definition ev_with_label e l := mkEv l (ev_priority e) (ev_config e) (ev_configed e) (ev_inserted e) (ev_list e).
  Definition ev_with_priority e p := mkEv (ev_label e) p (ev_config e) (ev_configed e) (ev_inserted e) (ev_list e).
  Definition ev_with_config e c := mkEv (ev_label e) (ev_priority e) c true (ev_inserted e) (ev_list e).
  Definition ev_as_inserted e := mkEv (ev_label e) (ev_priority e) (ev_config e) (ev_configed e) true (ev_list e).
  Definition ev_with_list e l := mkEv (ev_label e) (ev_priority e) (ev_config e) (ev_configed e) (ev_inserted e) l.

  (** 1119-1136 *)
  Definition insert_event (e : event_uc) (w : W) : res (event_uc * W) :=
    if ev_inserted e then Good (e, w)
    else if only_values then Good (ev_as_inserted e, w)
    else call (ev_as_inserted e) (a_event_insert api (ev_label e) (ev_priority e) (if ev_configed e then Some (ev_config e) else None) w).

  (** 1138-1262: the members that need the event to be inserted *)
  Definition event_clause_2 (j : jps) (w : W) (t : jtype) (d : list Z) : res (jps * W) :=
    let e := j_event j in
    let k := j_key j in
    match j_depth j, t with
    | 2, JSON_OBJECT_END => Good (reset j, w)
    | 3, JSON_STRING =>
      if is k "aux-parent-event" then
        if only_values then Good (j, w) else call j (a_aux api (ev_label e) d w)
      else if negb (subevent_type k =? 0) then
        if MAX_LABEL <? Z.of_nat (List.length d) then Err
        else if only_values then Good (j, w)
        else match a_post_actions api d w with
             | None => Err
             | Some l => do w <- append_all (ev_label e) (subevent_type k) l w; Good (j, w)
             end
      else Err
    | 4, JSON_ARRAY_BEG =>
      match j_section j with
      | S_NONE =>
        if list_type k =? 0 then Err
        else Good (with_section (with_event j (ev_with_list e (list_type k))) S_ACTION_LIST, w)
      | _ => Err
      end
    | 4, JSON_STRING =>
      match j_section j with
      | S_ACTION_LIST =>
        if MAX_LABEL <? Z.of_nat (List.length d) then Err
        else if only_values then Good (j, w)
        else call j (a_append api (ev_label e) (ev_list e) d w)
      | _ => Err
      end
    | 3, JSON_ARRAY_END =>
      match j_section j with S_ACTION_LIST => Good (with_section j S_NONE, w) | _ => Err end
    | _, _ => Err
    end.

  (** 1082-1262 handle_event_clause; the clause at 1115 (an event already inserted) is not reached, because "config" is refused
      then (1098) *)
  Definition event_clause (j : jps) (w : W) (t : jtype) (d : list Z) : res (jps * W) :=
    let e := j_event j in
    let k := j_key j in
    let then_insert := do (e, w) <- insert_event e w; event_clause_2 (with_event j e) w t d in
    match j_object j with
    | O_EVENT =>
      let config_or_insert :=
        match j_section j with
        | S_EVENTCONFIG =>
          if (j_depth j =? 4) || (j_depth j =? 5) then
            do (c, j, w) <- eventconfig_clause j w t d (ev_config e);
            Good (with_event j (mkEv (ev_label e) (ev_priority e) c (ev_configed e) (ev_inserted e) (ev_list e)), w)
          else if (j_depth j =? 3) && (match t with JSON_OBJECT_END => true | _ => false end) then Good (with_section j S_NONE, w)
          else then_insert
        | _ => then_insert
        end in
      match j_depth j, t with
      | 3, JSON_STRING =>
        if is k "label" then
          if MAX_LABEL <=? Z.of_nat (List.length d) then Err else Good (with_event j (ev_with_label e d), w)
        else config_or_insert
      | 3, JSON_NUMBER =>
        if is k "priority" then
          if ev_inserted e then Err else do v <- number (convert_uint16 t d); Good (with_event j (ev_with_priority e v), w)
        else Err
      | 4, JSON_OBJECT_BEG =>
        match j_section j with
        | S_NONE =>
          if is k "config" then
            if ev_inserted e then Err
            else Good (with_event (with_section j S_EVENTCONFIG) (ev_with_config e (j_default j)), w)
          else config_or_insert
        | _ => config_or_insert
        end
      | _, _ => config_or_insert
      end
    | O_NONE =>
      match j_depth j, t with 3, JSON_OBJECT_BEG => Good (with_object j O_EVENT, w) | _, _ => Err end
    | _ => Err
    end.

  (** 1264-1499 handle_user_value_clause *)
  Definition value_json (j : jps) (w : W) (t : jtype) (d : list Z) : res (jps * W) :=
    let '(r, x) := dom_step cv t d (j_dom j) in                        (* 1381-1411 *)
    if r <? 0 then Err
    else
      let j := with_dom j x in
      if j_depth j =? 3 then
        match dom_value cv x with
        | None => Err
        | Some v => call (with_section j S_NONE) (a_store api (j_label j) (UJson v) w)
        end
      else Good (j, w).
  Definition value_member (j : jps) (w : W) (t : jtype) (d : list Z) : res (jps * W) :=  (* 1417-1497 *)
    let k := j_key j in
    let store v := call j (a_store api (j_label j) v w) in
    if negb (j_keydepth j =? 3) then Err
    else if negb (numeric_type t) then Err                             (* number or string *)
    else if is k "uint" then do v <- number (convert_uint64 t d); store (UUint v)
    else if is k "sint" then do v <- number (convert_sint64 t d); store (USint v)
    else if is k "float" then match cv_double cv t d with Some v => store (UDouble v) | None => Err end
    else if is k "string" then if MAX_VALUE <=? Z.of_nat (List.length d) then Err else store (UString d)
    else if is k "base64" then if MAX_VALUE <=? Z.of_nat (List.length d) then Err else store (UBase64 d)
    else Err.
  Definition value_plain (j : jps) (w : W) (t : jtype) (d : list Z) : res (jps * W) :=   (* 1288-1355 *)
    let store v := call (with_object j O_NONE) (a_store api (j_key j) v w) in
    match t with
    | JSON_NULL => store UNull
    | JSON_FALSE => store (UBool false)
    | JSON_TRUE => store (UBool true)
    | JSON_NUMBER =>
      let as_double w := match cv_double cv t d with Some v => call (with_object j O_NONE) (a_store api (j_key j) (UDouble v) w) | None => Err end in
      match convert_sint64 t d with
      | CUB => Bad
      | CSet i => let '(r, w) := a_store api (j_key j) (USint i) w in if r =? 0 then Good (with_object j O_NONE, w) else as_double w
      | _ => as_double w
      end
    | JSON_STRING => if MAX_VALUE <=? Z.of_nat (List.length d) then Err else store (UString d)
    | JSON_OBJECT_BEG => Good (with_label j (j_key j), w)
    | JSON_OBJECT_END => Good (with_object j O_NONE, w)
    | _ => Err
    end.
  Definition user_value_clause (j : jps) (w : W) (t : jtype) (d : list Z) : res (jps * W) :=
    let ends := match t with JSON_OBJECT_END => true | _ => false end in
    let started := match j_object j with O_USER_VALUE => true | _ => false end in
    let none := match j_object j with O_NONE => true | _ => false end in
    if (j_depth j =? 1) && ends then Good (with_table j T_NONE, w)                                            (* 1270 *)
    else if (j_depth j =? 2) && started && ends then Good (reset j, w)                                        (* 1275 *)
    else if (j_depth j =? 3) && (j_keydepth j =? 2) && none then Good (with_object (with_label j (j_key j)) O_USER_VALUE, w)  (* 1278 *)
    else if (j_depth j =? 2) && (j_keydepth j =? 2) && none then value_plain j w t d
    else
      let in_json := match j_section j with S_USER_VALUE_JSON => true | _ => false end in
      let j := if started && negb in_json && is (j_key j) "json" then with_dom (with_section j S_USER_VALUE_JSON) (dom_init cv) else j in  (* 1358-1371 *)
      let in_json := match j_section j with S_USER_VALUE_JSON => true | _ => false end in
      if (3 <=? j_depth j) && started && in_json then value_json j w t d
      else if (j_depth j =? 3) && started then value_member j w t d
      else Err.

  (** The key as a C string: up to the first NUL *)
  Fixpoint upto_nul (k : list Z) : list Z := match k with [] => [] | c :: k => if 0 <? c then c :: upto_nul k else [] end.

  (** 1503-1695 json_process *)
  Definition section_start (j : jps) (w : W) (t : jtype) (d : list Z) : res (jps * W) :=   (* 1554-1623 *)
    let k := j_key j in
    if (j_keydepth j =? 1) && (j_depth j <=? 2) then
      match t with
      | JSON_FALSE | JSON_TRUE | JSON_NUMBER | JSON_STRING =>
        if negb (j_depth j =? 1) then Err
        else if is k "wolfsentry-config-version" then
          do v <- number (convert_uint32 t d);
          if v =? 1 then Good (with_version j 1, w) else Err
        else Err
      | JSON_OBJECT_BEG =>
        if j_version j =? 0 then Err
        else if negb (j_depth j =? 2) then Err
        else if is k "config-update" then Good (with_table j T_TOPCONFIG, w)
        else if is k "default-policies" then Good (with_table j T_DEFAULTPOLICIES, w)
        else if is k "user-values" then Good (with_table j T_USER_VALUES, w)
        else Err
      | JSON_ARRAY_BEG =>
        if j_version j =? 0 then Err
        else if negb (j_depth j =? 2) then Err
        else if is k "events-insert" || is k "events" then Good (with_table j T_EVENTS, w)
        else if is k "static-routes-insert" || is k "routes" then Good (with_table j T_ROUTES, w)
        else Err
      | _ => Err
      end
    else Err.
  Definition deeper (t : jtype) : Z :=
    match t with JSON_OBJECT_BEG | JSON_ARRAY_BEG => 1 | JSON_OBJECT_END | JSON_ARRAY_END => -1 | _ => 0 end.
  Definition process_value (j : jps) (w : W) (t : jtype) (d : list Z) : res (jps * W) :=
    match t, j_depth j with
    | JSON_OBJECT_BEG, 1 => Good (j, w)
    | JSON_OBJECT_END, 0 => Good (reset j, w)
    | _, _ =>
      let array_end := match t with JSON_ARRAY_END => j_depth j =? 1 | _ => false end in
      match j_table j with
      | T_NONE => section_start j w t d
      | T_TOPCONFIG => do (c, j, w) <- eventconfig_clause j w t d (j_default j); Good (with_default j c, w)
      | T_DEFAULTPOLICIES => defaultpolicy_clause j w t d
      | T_ROUTES => if array_end then Good (with_table j T_NONE, w) else route_clause j w t d
      | T_EVENTS => if array_end then Good (with_table j T_NONE, w) else event_clause j w t d
      | T_USER_VALUES => if array_end then Good (with_table j T_NONE, w) else user_value_clause j w t d
      end
    end.
  Definition process (t : jtype) (d : list Z) (x : jps * W) : res (jps * W) :=
    let '(j, w) := x in
    match t with
    | JSON_KEY =>
      match j_section j with
      | S_USER_VALUE_JSON => user_value_clause j w t d
      | _ => if MAX_LABEL <=? Z.of_nat (List.length d) then Err else Good (with_key j (upto_nul d) (j_depth j), w)
      end
    | _ => process_value (with_depth j (j_depth j + deeper t)) w t d
    end.
  (** json_process as the callback of the parser: the code, and the state unless it failed *)
  Definition callback (t : jtype) (d : list Z) (u : res (jps * W)) : Z * res (jps * W) :=
    match u with
    | Good x => match process t d x with Good x => (0, Good x) | r => (-1, r) end
    | _ => (-1, u)
    end.

  (** The state json_init leaves (1814-1831): everything 0, the defaults taken from the context *)
  Definition start (defaults : econf) (dom : D) : jps :=
    mkJ 0 T_NONE O_NONE S_NONE 0 [] 0 defaults 0 dom zero_route zero_event [].
End Loader.
Arguments jps : clear implicits.
Arguments calls : clear implicits.
Arguments converters : clear implicits.
