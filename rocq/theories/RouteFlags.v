(** wolfsentry/wolfsentry.h 1003-1082: bit numbers of the route flags, and the masks. *)
From Verif Require Import Base.
Open Scope N_scope.
Definition RF_FAMILY_WILD : N := 0.
Definition RF_RADDR_WILD : N := 1.
Definition RF_PROTO_WILD : N := 2.
Definition RF_LPORT_WILD : N := 3.
Definition RF_LADDR_WILD : N := 4.
Definition RF_RPORT_WILD : N := 5.
Definition RF_RIFACE_WILD : N := 6.
Definition RF_LIFACE_WILD : N := 7.
Definition RF_EVENT_WILD : N := 8.
Definition RF_TCPLIKE : N := 9.
Definition RF_IN : N := 10.
Definition RF_OUT : N := 11.
Definition RF_RADDR_BITMASK : N := 12.
Definition RF_LADDR_BITMASK : N := 13.
Definition RF_IN_TABLE : N := 14.
Definition RF_PENDING_DELETE : N := 15.
Definition RF_INSERT_ACTIONS_CALLED : N := 16.
Definition RF_DELETE_ACTIONS_CALLED : N := 17.
Definition RF_PENALTYBOXED : N := 20.
Definition RF_GREENLISTED : N := 21.
Definition RF_DONT_COUNT_HITS : N := 22.
Definition RF_DONT_COUNT_CONN : N := 23.
Definition RF_PORT_RESET : N := 24.
(** wolfsentry.h 1057-1068. *)
Definition WILDCARD_FLAGS : N := 255.        (* bits 0-7 *)
Definition IMMUTABLE_FLAGS : N := 16383.     (* bits 0-13 *)
Definition INTERNAL_FLAGS : N := 245760.     (* bits 14-17 *)
Definition DIRECTION_FLAGS : N := 3072.      (* bits 10 and 11 *)
Definition has (f b : N) : bool := N.testbit f b.
(** C "flags & MASK" as a condition. *)
Definition anybit (f m : N) : bool := negb (N.land f m =? 0).
Fixpoint popcount_pos (p : positive) : N :=
  match p with xH => 1 | xO q => popcount_pos q | xI q => 1 + popcount_pos q end.
Definition popcount (x : N) : N := match x with N0 => 0 | Npos p => popcount_pos p end.
