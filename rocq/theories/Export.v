(** Exporting a route and making a route from an export: src/routes.c 784-945, 947-1062, 1202-1240, 3269-3332, 3460-3478, 3557-3605.
    A route's bytes are its data area up to the addresses ([f_data], data_addr_offset bytes) and the two addresses.  Pointers to the
    bytes of a route are copied by value: the route must not change while its export is in use (the code's comment at 3557 says so).
    Private data of 2^32 bytes and more is left out (the cast to unsigned at 796). malloc succeeds; reference counts are in Refs*.v. *)
From Verif Require Import Base Labels Addr RouteFlags RouteKey RouteTable Exchange EventConfig Table.
Open Scope N_scope.

(** wolfsentry_internal.h 352-385 (struct wolfsentry_route) *)
Record froute := mkF { f_route : route; f_meta : rmeta; f_hits : N; f_data : list N }.

(** The parts of struct wolfsentry_context that matter: default configuration, and events with their own configuration if any *)
Record xctx := mkC { c_conf : iconf; c_events : list (event * option iconf) }.

(** wolfsentry.h 1117-1150 (struct wolfsentry_route_exports) with wolfsentry_route_metadata_exports *)
Record exports := mkEx {
  x_label : option (list N);
  x_flags : N; x_family : N; x_proto : N;
  x_rport : N; x_rlen : nat; x_riface : N; x_raddr : list N;
  x_lport : N; x_llen : nat; x_liface : N; x_laddr : list N;
  x_meta : rmeta; x_hits : N;
  x_private : option (list N) (* private_data and private_data_size *) }.

(** routes.c 957, 1015, 1214, 3276, 3565: the configuration that applies to a route with parent event [e] *)
Definition find_event (c : xctx) (label : list N) : option (event * option iconf) :=
  find (fun x => bytes_eqb (ev_label (fst x)) label) (c_events c).
Definition conf_of (c : xctx) (e : option event) : iconf :=
  match e with
  | None => c_conf c
  | Some e => match find_event c (ev_label e) with Some (_, Some i) => i | _ => c_conf c end
  end.

(** 3269-3283 (wolfsentry_route_get_private_data): the bytes the user sees *)
Definition private_bytes (i : iconf) (r : froute) : option (list N) :=
  match private_data i with
  | None => None
  | Some (o, n) => Some (firstn (N.to_nat n) (skipn (N.to_nat o) (f_data r)))
  end.

(** 3560-3605 (wolfsentry_route_export) with 3460-3478 (wolfsentry_route_get_metadata).  There are no extra ports (707, 711). *)
Definition export (c : xctx) (r : froute) : exports :=
  let k := f_route r in
  mkEx (match r_event k with Some e => Some (ev_label e) | None => None end)
       (r_flags k) (r_family k) (r_proto k)
       (r_rport k) (r_rlen k) (r_riface k) (r_raddr k)
       (r_lport k) (r_llen k) (r_liface k) (r_laddr k)
       (f_meta r) (f_hits r) (private_bytes (conf_of c (r_event k)) r).

(** 639-775 (wolfsentry_route_init) from 948-1005 (wolfsentry_route_new): sizes, then RouteKey.route_init, with no counts and zeroed private data *)
Definition no_meta : rmeta := mkMeta 0 0 0 0 0 0 0.
Definition route_new (c : xctx) (e : option event) (family proto : N) (raddr : list N) (rlen : nat) (rport riface : N)
    (laddr : list N) (llen : nat) (lport liface flags : N) : err * option froute :=
  let n := e_size (ic (conf_of c e)) in
  if has flags RF_RADDR_BITMASK && negb (rlen mod 16 =? 0)%nat then (INVALID_ARG, None)
  else if has flags RF_LADDR_BITMASK && negb (llen mod 16 =? 0)%nat then (INVALID_ARG, None)
  else if 65535 <? N.of_nat (bits_to_bytes rlen + bits_to_bytes llen) then (STRING_ARG_TOO_LONG, None)
  else if 65535 <? n then (NUMERIC_ARG_TOO_BIG, None)
  else match route_init e family proto raddr rlen rport riface laddr llen lport liface flags with
       | (OK, Some k) => (OK, Some (mkF k no_meta 0 (repeat 0 (N.to_nat n))))
       | (x, _) => (x, None)
       end.

(** 784-945 (wolfsentry_route_init_by_exports); [n] is data_addr_offset, new_size is as computed by the caller (1035-1040) *)
Definition init_by_exports (e : option event) (ex : exports) (n : N) : err * option froute :=
  if 65535 <? N.of_nat (bits_to_bytes (x_rlen ex) + bits_to_bytes (x_llen ex)) then (NUMERIC_ARG_TOO_BIG, None)
  else if n <? N.of_nat (match x_private ex with Some b => length b | None => O end) then (INVALID_ARG, None)
  else if 65535 <? n then (NUMERIC_ARG_TOO_BIG, None)
  else if negb (anybit (x_flags ex) DIRECTION_FLAGS) then (INVALID_ARG, None)
  else if has (x_flags ex) RF_RADDR_BITMASK && negb (x_rlen ex mod 16 =? 0)%nat then (INVALID_ARG, None)
  else if has (x_flags ex) RF_LADDR_BITMASK && negb (x_llen ex mod 16 =? 0)%nat then (INVALID_ARG, None)
  else if negb (flags_sensical (x_flags ex)) then (INVALID_ARG, None)
  else
    let data := match x_private ex with
                | Some b => (b ++ repeat 0 (N.to_nat n - length b))%list   (* 870-872: copied to the start of the data area *)
                | None => repeat 0 (N.to_nat n)
                end in
    (OK, Some (mkF {| r_family := x_family ex; r_proto := x_proto ex;
                      r_raddr := init_addr (has (x_flags ex) RF_RADDR_BITMASK) (x_raddr ex) (x_rlen ex);
                      r_rlen := x_rlen ex; r_rport := x_rport ex; r_riface := x_riface ex;
                      r_laddr := init_addr (has (x_flags ex) RF_LADDR_BITMASK) (x_laddr ex) (x_llen ex);
                      r_llen := x_llen ex; r_lport := x_lport ex; r_liface := x_liface ex;
                      r_flags := N.ldiff (x_flags ex) INTERNAL_FLAGS; r_event := e |}
                   (mkMeta 0 0 0 (m_purge (x_meta ex)) (m_conn (x_meta ex)) (m_derog (x_meta ex)) (m_comm (x_meta ex)))
                   0 data)).

(** 1007-1064 (wolfsentry_route_new_by_exports): the code, and *new.  A failure of wolfsentry_route_init_by_exports is reported as
    success with *new = NULL (1054-1056, 1063). *)
Definition new_by_exports (c : xctx) (e : option event) (ex : exports) : err * option froute :=
  let i := conf_of c e in
  let size := match x_private ex with Some b => N.of_nat (length b) | None => 0 end in
  if negb (size =? 0) && negb (size =? ssub (e_size (ic i)) (pad i)) then (INVALID_ARG, None)
  else if has (x_flags ex) RF_RADDR_BITMASK && negb (x_rlen ex mod 16 =? 0)%nat then (INVALID_ARG, None)
  else if has (x_flags ex) RF_LADDR_BITMASK && negb (x_llen ex mod 16 =? 0)%nat then (INVALID_ARG, None)
  else if 65535 <? N.of_nat (bits_to_bytes (x_rlen ex) + bits_to_bytes (x_llen ex)) then (STRING_ARG_TOO_LONG, None)
  else match init_by_exports e ex (e_size (ic i)) with
       | (OK, r) => (OK, r)
       | (_, _) => (OK, None)
       end.

(** events.c 316-341, 382-404 (wolfsentry_event_get_reference), as called at 1497 *)
Definition event_get (c : xctx) (label : list N) : err * option event :=
  if (length label =? 0)%nat then (INVALID_ARG, None)
  else if (32 <? length label)%nat then (STRING_ARG_TOO_LONG, None)
  else match find_event c label with Some (e, _) => (OK, Some e) | None => (ITEM_NOT_FOUND, None) end.

(** 1214-1240 (wolfsentry_route_insert_1 up to the table) at time [now]: the flags that the configuration clears and adds, the
    time checks and clamp_wildcard_fields_to_zero.  A null route is dereferenced (1214). *)
Definition prepare (c : xctx) (now : Z) (r : option froute) : out (err * option froute) :=
  match r with
  | None => UB
  | Some r =>
    let i := ic (conf_of c (r_event (f_route r))) in
    let f := N.lor (N.ldiff (r_flags (f_route r)) (e_rclr i)) (e_radd i) in
    let m := f_meta r in
    if negb (flags_sensical f) then Ret (INVALID_ARG, None)
    else if has f RF_IN_TABLE then Ret (ITEM_ALREADY_PRESENT, None)
    else if (negb (m_purge m =? 0) && (m_purge m <=? now))%Z then Ret (INVALID_ARG, None)
    else
      let purge := if ((0 <? e_idle i) && (m_purge m =? 0))%Z then (now + e_idle i)%Z else m_purge m in
      Ret (OK, Some (mkF (clamp_wildcard_fields (with_flags (f_route r) f))
                         (mkMeta now (m_hit m) (m_penalty m) purge (m_conn m) (m_derog m) (m_comm m)) (f_hits r) (f_data r)))
  end.

(** 1492-1500, 1417 (wolfsentry_route_insert_by_exports_into_table, wolfsentry_route_insert_by_exports_2): the new route *)
Definition rebuild (c : xctx) (ex : exports) : err * option froute :=
  match (match x_label ex with None => (OK, None) | Some l => event_get c l end) with
  | (OK, e) => new_by_exports c e ex
  | (x, _) => (x, None)
  end.
(** 1482-1504, 1403-1420 (the same up to the table) *)
Definition import (c : xctx) (now : Z) (ex : exports) : out (err * option froute) :=
  match rebuild c ex with (OK, r) => prepare c now r | (x, _) => Ret (x, None) end.
(** 1346-1402, 1452-1478 (wolfsentry_route_insert_into_table up to the table) with the event already found *)
Definition create (c : xctx) (now : Z) (e : option event) (family proto : N) (raddr : list N) (rlen : nat) (rport riface : N)
    (laddr : list N) (llen : nat) (lport liface flags : N) : out (err * option froute) :=
  match route_new c e family proto raddr rlen rport riface laddr llen lport liface flags with
  | (OK, r) => prepare c now r
  | (x, _) => Ret (x, None)
  end.

(** 3303-3332 (wolfsentry_route_update_flags) on the flags *)
Definition update_flags (r : froute) (set clear : N) : err * froute :=
  let f := r_flags (f_route r) in
  if has set RF_PENALTYBOXED && has set RF_GREENLISTED then (INVALID_ARG, r)
  else if has (N.lor set clear) RF_PENDING_DELETE || has (N.lor set clear) RF_IN_TABLE then (NOT_PERMITTED, r)
  else if has f RF_IN_TABLE && anybit (N.lor set clear) IMMUTABLE_FLAGS then (NOT_PERMITTED, r)
  else (OK, mkF (with_flags (f_route r) (N.ldiff (N.lor f set) clear)) (f_meta r) (f_hits r) (f_data r)).
