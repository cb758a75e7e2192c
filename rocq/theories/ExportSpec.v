(** Routes as they come to exist in a context, and what it means that an export carries all of a route. *)
From Verif Require Import Base Addr AddrSpec RouteFlags RouteKey RouteKeySpec RouteTable Exchange EventConfig Table Export.
Open Scope N_scope.

(** An event of the context (labels have 1 to 32 bytes). *)
Definition event_known (c : xctx) (e : option event) : Prop :=
  match e with None => True | Some v => exists i, find_event c (ev_label v) = Some (v, i) /\ (1 <= length (ev_label v) <= 32)%nat end.
Definition set_flags (r : froute) (f : N) : froute := mkF (with_flags (f_route r) f) (f_meta r) (f_hits r) (f_data r).

(** The routes of a table of [c]: inserted by wolfsentry_route_insert or wolfsentry_route_insert_by_exports, and since then changed
    in their counts and times, in their private data, and in the flags that are not part of the key or the mark of being stored. *)
Inductive live (c : xctx) : froute -> Prop :=
| live_create now e family proto raddr rlen rport riface laddr llen lport liface flags r :
    addr_ok raddr rlen -> addr_ok laddr llen -> event_known c e ->
    create c now e family proto raddr rlen rport riface laddr llen lport liface flags = Ret (OK, Some r) ->
    live c (set_flags r (N.setbit (r_flags (f_route r)) RF_IN_TABLE))
| live_import now ex r :
    addr_ok (x_raddr ex) (x_rlen ex) -> addr_ok (x_laddr ex) (x_llen ex) ->
    import c now ex = Ret (OK, Some r) ->
    live c (set_flags r (N.setbit (r_flags (f_route r)) RF_IN_TABLE))
| live_meta r m h : live c r -> live c (mkF (f_route r) m h (f_data r))
| live_flags r f : live c r -> (forall b, b < 15 -> N.testbit f b = N.testbit (r_flags (f_route r)) b) -> live c (set_flags r f)
| live_data r d : live c r -> length d = length (f_data r) -> live c (mkF (f_route r) (f_meta r) (f_hits r) d).

(** A configuration that neither makes routes bitmask routes on insertion nor takes away a direction, and whose padding fits. *)
Definition mild (i : iconf) : Prop :=
  has (e_radd (ic i)) RF_RADDR_BITMASK = false /\ has (e_radd (ic i)) RF_LADDR_BITMASK = false /\
  has (e_rclr (ic i)) RF_IN = false /\ has (e_rclr (ic i)) RF_OUT = false /\
  pad i <= e_size (ic i) /\ (e_size (ic i) <> 0 -> pad i < e_size (ic i)).
Definition mild_ctx (c : xctx) : Prop := forall e, mild (conf_of c e).

(** [B] has the parent event of [r] (same label, same priority), with room for the same private data. *)
Definition receives (A B : xctx) (r : froute) : Prop :=
  (match r_event (f_route r) with
   | None => True
   | Some v => exists w i, find_event B (ev_label v) = Some (w, i) /\ ev_prio w = ev_prio v
   end) /\
  let a := conf_of A (r_event (f_route r)) in let b := conf_of B (r_event (f_route r)) in
  e_size (ic b) <= 65535 /\ pad b <= e_size (ic b) /\
  (e_size (ic a) <> 0 -> e_size (ic b) - pad b = e_size (ic a) - pad a).
