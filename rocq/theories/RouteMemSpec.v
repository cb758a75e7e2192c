(** What a block of memory must look like to hold a route, and what widening a route with wildcards means. *)
From Verif Require Import Base Addr RouteFlags RouteKey RouteMem.
Open Scope nat_scope.

(** The bytes are the private part, the remote address and the local address, next to each other, with room to spare or none. *)
Record holds (b : rblk) (r : route) (priv : list N) : Prop := {
  h_family : b_family b = r_family r; h_proto : b_proto b = r_proto r;
  h_rport : b_rport b = r_rport r; h_rlen : b_rlen b = r_rlen r; h_riface : b_riface b = r_riface r;
  h_lport : b_lport b = r_lport r; h_llen : b_llen b = r_llen r; h_liface : b_liface b = r_liface r;
  h_flags : b_flags b = r_flags r; h_event : b_event b = r_event r;
  h_off : b_off b = length priv;
  h_rbytes : length (r_raddr r) = (r_rlen r + 7) / 8;
  h_lbytes : length (r_laddr r) = (r_llen r + 7) / 8;
  h_data : exists slack, b_data b = (priv ++ r_raddr r ++ r_laddr r ++ slack)%list }.
(** The size recorded for copying is that of the addresses. *)
Definition sized (b : rblk) (r : route) : Prop := b_asz b = length (r_raddr r) + length (r_laddr r).
(** The block is as large as the one that would be made for the route with [n] bytes of private data. *)
Definition roomy (off n : nat) (b : rblk) : Prop := block_len off n (b_rlen b) (b_llen b) <= length (b_data b).

(** The route with the named fields replaced by wildcards and all others untouched. *)
Definition widen (w : N) (r : route) : route :=
  {| r_family := if has w RF_FAMILY_WILD then 0%N else r_family r;
     r_proto := if has w RF_PROTO_WILD then 0%N else r_proto r;
     r_raddr := if has w RF_RADDR_WILD then [] else r_raddr r;
     r_rlen := if has w RF_RADDR_WILD then 0 else r_rlen r;
     r_rport := if has w RF_RPORT_WILD then 0%N else r_rport r;
     r_riface := if has w RF_RIFACE_WILD then 0%N else r_riface r;
     r_laddr := if has w RF_LADDR_WILD then [] else r_laddr r;
     r_llen := if has w RF_LADDR_WILD then 0 else r_llen r;
     r_lport := if has w RF_LPORT_WILD then 0%N else r_lport r;
     r_liface := if has w RF_LIFACE_WILD then 0%N else r_liface r;
     r_flags := N.lor (r_flags r) (N.land w 511);
     r_event := r_event r |}.
