(** When a route applies to some traffic.  [t] is the traffic (the target of a lookup), [r] a route of the table. *)
From Verif Require Import Base Addr AddrSpec RouteFlags RouteKey RouteKeySpec.
Open Scope N_scope.

(** Either side may declare a field to be irrelevant. *)
Definition ignored (r t : route) (wild_bit : N) : Prop :=
  N.testbit (r_flags r) wild_bit = true \/ N.testbit (r_flags t) wild_bit = true.
Definition field_agrees (r t : route) (wild_bit x y : N) : Prop := x = y \/ ignored r t wild_bit.

(** Plain addresses: equal, or the shorter one is a prefix of the longer one (as far as the code compares: see
    [compared_bits]); an empty address agrees with everything. *)
Definition prefix_agrees (a : list N) (n : nat) (b : list N) (m : nat) : Prop :=
  n = O \/ m = O \/ (n = m /\ a = b) \/
  (n <> m /\ same_bits (compared_bits (Nat.min n m)) a b).
(** Address [t] of [tn] bits agrees with the address part of [f], which is an address followed by a mask of [fn]/2
    bits each; a shorter [t] is taken to be preceded by as many zero bytes as it lacks bits. *)
Definition covers_masked (f : list N) (fn : nat) (t : list N) (tn : nat) : Prop :=
  let sz := bits_to_bytes (fn / 2) in
  let pad := (fn / 2 - tn)%nat in
  forall j, (j < sz)%nat ->
    (if (j <? pad)%nat then 0 else N.land (nth (j - pad) t 0) (nth (sz + j) f 0)) = nth j f 0.
Definition mask_agrees (a : list N) (n : nat) (b : list N) (m : nat) : Prop :=
  n = O \/ m = O \/ ((2 * m <= n)%nat /\ covers_masked a n b m) \/ ((2 * n <= m)%nat /\ covers_masked b m a n).
Definition addr_agrees (r t : route) (wild_bit bitmask_bit : N) (a : list N) (n : nat) (b : list N) (m : nat) : Prop :=
  ignored r t wild_bit \/ if has (N.lor (r_flags r) (r_flags t)) bitmask_bit then mask_agrees a n b m else prefix_agrees a n b m.

(** The route covers a direction of the traffic. *)
Definition direction_agrees (r t : route) : Prop :=
  (N.testbit (r_flags r) RF_IN = true /\ N.testbit (r_flags t) RF_IN = true) \/
  (N.testbit (r_flags r) RF_OUT = true /\ N.testbit (r_flags t) RF_OUT = true).

Record agrees (r t : route) : Prop := {
  ag_family : field_agrees r t RF_FAMILY_WILD (r_family r) (r_family t);
  ag_raddr : addr_agrees r t RF_RADDR_WILD RF_RADDR_BITMASK (r_raddr r) (r_rlen r) (r_raddr t) (r_rlen t);
  ag_proto : field_agrees r t RF_PROTO_WILD (r_proto r) (r_proto t);
  ag_lport : field_agrees r t RF_LPORT_WILD (r_lport r) (r_lport t);
  ag_laddr : addr_agrees r t RF_LADDR_WILD RF_LADDR_BITMASK (r_laddr r) (r_llen r) (r_laddr t) (r_llen t);
  ag_rport : field_agrees r t RF_RPORT_WILD (r_rport r) (r_rport t);
  ag_riface : field_agrees r t RF_RIFACE_WILD (r_riface r) (r_riface t);
  ag_liface : field_agrees r t RF_LIFACE_WILD (r_liface r) (r_liface t) }.

(** The caller's result so far satisfies the filter of the route's event: all "set" bits set, all "unset" bits unset. *)
Definition passes_filter (ar : option N) (r : route) : Prop :=
  forall a e bset bunset, ar = Some a -> r_event r = Some e -> ev_filter e = Some (bset, bunset) ->
    (forall i, N.testbit bset i = true -> N.testbit a i = true) /\
    (forall i, i < 32 -> N.testbit bunset i = true -> N.testbit a i = false).
(** The caller asked for rejecting routes to be skipped (DEROGATORY and COMMENDABLE both set on entry). *)
Definition excludes_rejecting (ar : option N) : Prop :=
  exists a, ar = Some a /\ N.testbit a 4 = true /\ N.testbit a 5 = true.
Definition not_excluded (ar : option N) (r : route) : Prop :=
  excludes_rejecting ar -> N.testbit (r_flags r) RF_PENALTYBOXED = false.

Record applies (ar : option N) (r t : route) : Prop := {
  ap_agrees : agrees r t;
  ap_direction : direction_agrees r t;
  ap_filter : passes_filter ar r;
  ap_excluded : not_excluded ar r }.
