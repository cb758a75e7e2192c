(** What it means for two routes to have the same key. *)
From Verif Require Import Base Addr AddrSpec RouteFlags RouteKey.
(** Both addresses fit their lengths; a bitmask address is made of two byte-aligned halves. *)
Record route_ok (r : route) : Prop := {
  ok_raddr : addr_ok (r_raddr r) (r_rlen r);
  ok_laddr : addr_ok (r_laddr r) (r_llen r);
  ok_rmask : has (r_flags r) RF_RADDR_BITMASK = true -> (r_rlen r mod 16 = 0)%nat;
  ok_lmask : has (r_flags r) RF_LADDR_BITMASK = true -> (r_llen r mod 16 = 0)%nat }.

(** The parent events are the same object: same label and priority, or both absent. *)
Definition same_event (a b : option event) : Prop :=
  match a, b with
  | None, None => True
  | Some x, Some y => ev_label x = ev_label y /\ ev_prio x = ev_prio y
  | _, _ => False
  end.

(** All fields a user regards as identifying a route agree; flags count as far as they matter for matching. *)
Definition same_key (a b : route) : Prop :=
  r_family a = r_family b /\ r_proto a = r_proto b /\
  r_raddr a = r_raddr b /\ r_rlen a = r_rlen b /\ r_rport a = r_rport b /\ r_riface a = r_riface b /\
  r_laddr a = r_laddr b /\ r_llen a = r_llen b /\ r_lport a = r_lport b /\ r_liface a = r_liface b /\
  (forall i, (i < 14)%N -> N.testbit (r_flags a) i = N.testbit (r_flags b) i) /\
  same_event (r_event a) (r_event b).
