(** What tracking a peer means to a user. *)
From Verif Require Import Base Addr AddrSpec RouteFlags RouteKey RouteKeySpec RouteTable Exchange EventConfig Table Export.
Open Scope N_scope.

(** The target of a dispatch as it is built from the caller's addresses and flags. *)
Definition traffic (c : xctx) (r : froute) : Prop :=
  exists e family proto raddr rlen rport riface laddr llen lport liface flags,
    addr_ok raddr rlen /\ addr_ok laddr llen /\
    N.of_nat (bits_to_bytes rlen + bits_to_bytes llen) <= 65535 /\
    route_init e family proto raddr rlen rport riface laddr llen lport liface flags = (OK, Some (f_route r)).

(** The event a tracking route belongs to: the aux event of the rule's event, else the rule's event. *)
Definition tracking_event (rule : froute) (aux : option event) : option event :=
  match r_event (f_route rule), aux with None, _ => None | Some p, None => Some p | Some _, Some a => Some a end.
(** That event exists in the context under its label. *)
Definition registered (c : xctx) (e : option event) : Prop :=
  match e with None => True | Some v => exists i, find_event c (ev_label v) = Some (v, i) /\ (1 <= length (ev_label v) <= 32)%nat end.

(** The flags of a stored route: those of the traffic without the internal ones, as the configuration changes them, stored. *)
Definition stored_flags (i : econf) (flags b : N) : bool :=
  if b =? RF_IN_TABLE then true
  else N.testbit (e_radd i) b || ((N.testbit flags b && negb ((14 <=? b) && (b <? 18))) && negb (N.testbit (e_rclr i) b)).

(** A field is dropped where the stored flags make it a wildcard. *)
Definition dropped {A} (i : econf) (flags b : N) (zero v : A) : A := if stored_flags i flags b then zero else v.

(** [x], as stored, tracks [target] for event [e]. *)
Definition tracks (c : xctx) (target : froute) (e : option event) (x : route) : Prop :=
  let i := ic (conf_of c e) in let k := f_route target in let fl := r_flags k in
  (forall b, N.testbit (r_flags x) b = stored_flags i fl b) /\
  r_event x = e /\
  r_family x = dropped i fl RF_FAMILY_WILD 0 (r_family k) /\
  r_proto x = dropped i fl RF_PROTO_WILD 0 (r_proto k) /\
  r_rport x = dropped i fl RF_RPORT_WILD 0 (r_rport k) /\
  r_lport x = dropped i fl RF_LPORT_WILD 0 (r_lport k) /\
  r_riface x = dropped i fl RF_RIFACE_WILD 0 (r_riface k) /\
  r_liface x = dropped i fl RF_LIFACE_WILD 0 (r_liface k) /\
  r_rlen x = r_rlen k /\ r_llen x = r_llen k /\
  r_raddr x = dropped i fl RF_RADDR_WILD (repeat 0 (length (r_raddr k))) (r_raddr k) /\
  r_laddr x = dropped i fl RF_LADDR_WILD (repeat 0 (length (r_laddr k))) (r_laddr k).

(** [t'] is [t] with [x] added. *)
Definition added (t t' : list route) (x : route) : Prop := exists l1 l2, t = (l1 ++ l2)%list /\ t' = (l1 ++ x :: l2)%list.
