(** Routes as seen by matching, and their comparison: src/routes.c 325-574. *)
From Verif Require Import Base Labels Addr RouteFlags.
Open Scope Z_scope.

(** src/wolfsentry_internal.h struct wolfsentry_event: the parts that routes are compared and filtered by.  Two events
    are the same object iff they have the same label and priority (labels are unique in the event table, C01). *)
Record event := { ev_label : list N; ev_prio : N;
                  ev_filter : option (N * N) (* config->action_res_filter_bits_set / _unset, if it has a config *) }.

(** src/wolfsentry_internal.h struct wolfsentry_route: the matching-relevant members. *)
Record route := {
  r_family : N; r_proto : N;
  r_raddr : list N; r_rlen : nat; r_rport : N; r_riface : N;
  r_laddr : list N; r_llen : nat; r_lport : N; r_liface : N;
  r_flags : N;
  r_event : option event }.

(** routes.c 341-348, 380-387 and so on: one scalar field; [k] is the rest of the comparison. *)
Definition cmp_field (wild : bool) (wf bit a b : N) (k : N -> option (Z * N)) (inx : N) : option (Z * N) :=
  if N.eqb a b then k inx
  else if wild && has wf bit then k (N.setbit inx bit)
  else if N.ltb a b then Some (-1, inx) else Some (1, inx).

(** routes.c 351-376 and 401-425: one address. *)
Definition cmp_addr (bitmask : bool) (l : list N) (ln : nat) (r : list N) (rn : nat) (w m : bool) : option (Z * bool) :=
  if bitmask then cmp_addrs_bitmaskful l ln r rn w m else cmp_addrs_prefixful l ln r rn w m.
Definition cmp_addr_field (wild : bool) (wf bit bmbit : N) (l : list N) (ln : nat) (r : list N) (rn : nat)
  (k : N -> option (Z * N)) (inx : N) : option (Z * N) :=
  match cmp_addr (has wf bmbit) l ln r rn (wild && has wf bit) wild with
  | None => None
  | Some (c, i) => if negb (c =? 0) then Some (c, inx) else k (if i then N.setbit inx bit else inx)
  end.

Definition eff_prio (e : option event) : N := match e with Some x => ev_prio x | None => 0 end.

(** routes.c 473-476: "left->parent_event == right->parent_event". *)
Definition bytes_eqb (a b : list N) : bool := if list_eq_dec N.eq_dec a b then true else false.
Definition event_eqb (a b : option event) : bool :=
  match a, b with
  | None, None => true
  | Some x, Some y => bytes_eqb (ev_label x) (ev_label y) && N.eqb (ev_prio x) (ev_prio y)
  | _, _ => false
  end.

(** routes.c 457-507: the parent events. *)
Definition cmp_event (wild : bool) (wf : N) (l r : option event) (inx : N) : option (Z * N) :=
  cmp_field wild wf RF_EVENT_WILD (eff_prio l) (eff_prio r)
    (fun inx =>
       if event_eqb l r then Some (0, inx)
       else if wild && has inx RF_EVENT_WILD then Some (0, inx)
       else match l, r with
            | Some x, Some y =>
              let c := label_cmp (ev_label x) (ev_label y) in
              if c =? 0 then Some (0, inx)
              else if wild && has wf RF_EVENT_WILD then Some (0, N.setbit inx RF_EVENT_WILD)
              else Some (c, inx)
            | _, _ =>
              if wild && has wf RF_EVENT_WILD then Some (0, N.setbit inx RF_EVENT_WILD)
              else match l with None => Some (-1, inx) | Some _ => Some (1, inx) end
            end) inx.

(** routes.c 325-508 (wolfsentry_route_key_cmp_1): the comparison result and *inexact_matches. *)
Definition route_key_cmp_1 (l r : route) (wild : bool) : option (Z * N) :=
  let wf := N.lor (r_flags l) (r_flags r) in
  cmp_field wild wf RF_FAMILY_WILD (r_family l) (r_family r) (
  cmp_addr_field wild wf RF_RADDR_WILD RF_RADDR_BITMASK (r_raddr l) (r_rlen l) (r_raddr r) (r_rlen r) (
  cmp_field wild wf RF_PROTO_WILD (r_proto l) (r_proto r) (
  cmp_field wild wf RF_LPORT_WILD (r_lport l) (r_lport r) (
  cmp_addr_field wild wf RF_LADDR_WILD RF_LADDR_BITMASK (r_laddr l) (r_llen l) (r_laddr r) (r_llen r) (
  cmp_field wild wf RF_RPORT_WILD (r_rport l) (r_rport r) (
  cmp_field wild wf RF_RIFACE_WILD (r_riface l) (r_riface r) (
  cmp_field wild wf RF_LIFACE_WILD (r_liface l) (r_liface r) (
  (fun inx =>
     let fl := N.land (r_flags l) IMMUTABLE_FLAGS in
     let fr := N.land (r_flags r) IMMUTABLE_FLAGS in
     if negb wild && negb (N.eqb fl fr) then (if N.ltb fl fr then Some (-1, inx) else Some (1, inx))
     else cmp_event wild wf (r_event l) (r_event r) inx))))))))) 0%N.

(** routes.c 571-574 (wolfsentry_route_key_cmp), the comparison function of the route table. *)
Definition route_key_cmp (l r : route) : Z :=
  match route_key_cmp_1 l r false with Some (c, _) => c | None => 0 end.

(** routes.c 510-546 (compare_match_exactness).  The right score of the first tier uses the local addresses when
    [right] is not a bitmask route, as in the code (line 528). *)
Definition score (bm : bool) (a : list N) (an : nat) (b : list N) (bn : nat) : option Z :=
  if bm then addr_bitmask_match_size a an b bn else addr_prefix_match_size a an b bn.
Definition wild_score (inx : N) : Z := 8 - Z.of_N (popcount (N.land inx WILDCARD_FLAGS)).
Definition cmp_scores (a b : Z) : Z := if a >? b then -1 else if a <? b then 1 else 0.
Definition compare_match_exactness (target left : route) (linx : N) (right : route) (rinx : N) : option Z :=
  if negb (wild_score linx =? wild_score rinx) then Some (cmp_scores (wild_score linx) (wild_score rinx))
  else
    match score (has (r_flags left) RF_RADDR_BITMASK) (r_raddr target) (r_rlen target) (r_raddr left) (r_rlen left),
          (if has (r_flags right) RF_RADDR_BITMASK
           then addr_bitmask_match_size (r_raddr target) (r_rlen target) (r_raddr right) (r_rlen right)
           else addr_prefix_match_size (r_laddr target) (r_llen target) (r_laddr right) (r_llen right)) with
    | Some ls, Some rs =>
      if negb (ls =? rs) then Some (cmp_scores ls rs)
      else
        match score (has (r_flags left) RF_LADDR_BITMASK) (r_laddr target) (r_llen target) (r_laddr left) (r_llen left),
              score (has (r_flags right) RF_LADDR_BITMASK) (r_laddr target) (r_llen target) (r_laddr right) (r_llen right) with
        | Some ls, Some rs => Some (cmp_scores ls rs)
        | _, _ => None
        end
    | _, _ => None
    end.

(** routes.c 548-569 (clamp_wildcard_fields_to_zero). *)
Definition clamp_wildcard_fields (r : route) : route :=
  let f := r_flags r in
  {| r_family := if has f RF_FAMILY_WILD then 0%N else r_family r;
     r_proto := if has f RF_PROTO_WILD then 0%N else r_proto r;
     r_raddr := if has f RF_RADDR_WILD then repeat 0%N (length (r_raddr r)) else r_raddr r;
     r_rlen := r_rlen r;
     r_rport := if has f RF_RPORT_WILD then 0%N else r_rport r;
     r_riface := if has f RF_RIFACE_WILD then 0%N else r_riface r;
     r_laddr := if has f RF_LADDR_WILD then repeat 0%N (length (r_laddr r)) else r_laddr r;
     r_llen := r_llen r;
     r_lport := if has f RF_LPORT_WILD then 0%N else r_lport r;
     r_liface := if has f RF_LIFACE_WILD then 0%N else r_liface r;
     r_flags := f; r_event := r_event r |}.

(** routes.c 675-683, 1190-1200 (wolfsentry_route_check_flags_sensical). *)
Definition flags_sensical (f : N) : bool :=
  negb ((has f RF_FAMILY_WILD && (negb (has f RF_RADDR_WILD) || negb (has f RF_LADDR_WILD) || negb (has f RF_PROTO_WILD)))
        || (has f RF_PROTO_WILD && (negb (has f RF_RPORT_WILD) || negb (has f RF_LPORT_WILD)))).

(** routes.c 639-775 (wolfsentry_route_init) without memory layout and sizes: 648-654 concern allocation only. *)
Definition route_init (e : option event) (family proto : N) (raddr : list N) (rlen : nat) (rport riface : N)
  (laddr : list N) (llen : nat) (lport liface flags : N) : err * option route :=
  if negb (anybit flags DIRECTION_FLAGS) then (INVALID_ARG, None)
  else if has flags RF_RADDR_BITMASK && negb (rlen mod 16 =? 0)%nat then (INVALID_ARG, None)
  else if has flags RF_LADDR_BITMASK && negb (llen mod 16 =? 0)%nat then (INVALID_ARG, None)
  else if negb (flags_sensical flags) then (INVALID_ARG, None)
  else (OK, Some {| r_family := family; r_proto := proto;
                    r_raddr := init_addr (has flags RF_RADDR_BITMASK) raddr rlen; r_rlen := rlen; r_rport := rport; r_riface := riface;
                    r_laddr := init_addr (has flags RF_LADDR_BITMASK) laddr llen; r_llen := llen; r_lport := lport; r_liface := liface;
                    r_flags := flags; r_event := e |}).
