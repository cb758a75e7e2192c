(** Exchanging two contexts: src/wolfsentry_util.c 3967-4051 (wolfsentry_context_exchange) and
    src/routes.c 4688-4726 (wolfsentry_route_copy_metadata). *)
From Verif Require Import Base Addr RouteFlags RouteKey RouteTable.
Open Scope Z_scope.

(** wolfsentry_internal.h 360-376: struct wolfsentry_route .meta *)
Record rmeta := mkMeta { m_insert : Z; m_hit : Z; m_penalty : Z; m_purge : Z; m_conn : N; m_derog : N; m_comm : N }.
(** A route in a table: its ID and hit count (header), key and flags, meta data. The order is that of the table. *)
Record xroute := mkX { x_id : N; x_hits : N; x_route : route; x_meta : rmeta }.

(** routes.c 4704-4706 *)
Definition copy_one (f t : xroute) : xroute := mkX (x_id t) (x_hits t) (with_flags (x_route t) (r_flags (x_route f))) (x_meta f).
(** routes.c 4699-4723: the walk over both tables; [n] bounds the number of iterations (each advances at least one cursor). *)
Fixpoint copy_walk (n : nat) (from to : list xroute) : list xroute :=
  match n with
  | O => to
  | S n =>
    match from, to with
    | f :: from', t :: to' =>
      if (x_id f =? x_id t)%N then copy_one f t :: copy_walk n from' to'
      else let c := route_key_cmp (x_route f) (x_route t) in
           if c <? 0 then copy_walk n from' to
           else if c >? 0 then t :: copy_walk n from to'
           else t :: copy_walk n from' to'
    | _, _ => to
    end
  end.
Definition copy_metadata (from to : list xroute) : list xroute := copy_walk (length from + length to) from to.

Section Ctx.
  (** Platform interface, ID callback, and the contents of the other tables and of the configuration are opaque. *)
  Context {H C A L : Type}.
  Variable same_hpi : H -> H -> bool.     (* memcmp of the platform interfaces *)
  Variable same_cb : C -> C -> bool.

  (** wolfsentry_internal.h 468-491: struct wolfsentry_context; the lock as the number of times the caller holds it. *)
  Record ctx := mkC {
    c_hpi : H; c_lock : N; c_cb : C; c_cb_state : A; c_config : A; c_config0 : A; c_events : A; c_actions : A;
    c_routes : list xroute; c_values : A; c_fams_bynumber : A; c_fams_byname : A; c_by_id : A; c_hooks : L }.
  Definition set_lock (c : ctx) (n : N) : ctx :=
    mkC (c_hpi c) n (c_cb c) (c_cb_state c) (c_config c) (c_config0 c) (c_events c) (c_actions c) (c_routes c) (c_values c)
        (c_fams_bynumber c) (c_fams_byname c) (c_by_id c) (c_hooks c).
  Definition set_routes (c : ctx) (r : list xroute) : ctx :=
    mkC (c_hpi c) (c_lock c) (c_cb c) (c_cb_state c) (c_config c) (c_config0 c) (c_events c) (c_actions c) r (c_values c)
        (c_fams_bynumber c) (c_fams_byname c) (c_by_id c) (c_hooks c).
  (** util.c 4001-4018: everything but platform interface, callback, lock and cleanup hooks. *)
  Definition take (c from : ctx) : ctx :=
    mkC (c_hpi c) (c_lock c) (c_cb c) (c_cb_state from) (c_config from) (c_config0 from) (c_events from) (c_actions from)
        (c_routes from) (c_values from) (c_fams_bynumber from) (c_fams_byname from) (c_by_id from) (c_hooks c).
  (** util.c 3967-4051.  [l1] and [l2] are what the two mutex acquisitions answer (timeouts, deadlock aversion ...);
      releasing a held mutex succeeds. The two contexts are distinct. *)
  Definition exchange (l1 l2 : err) (c1 c2 : ctx) : err * ctx * ctx :=
    if negb (same_hpi (c_hpi c1) (c_hpi c2)) || negb (same_cb (c_cb c1) (c_cb c2)) then (INVALID_ARG, c1, c2)
    else if negb (is_success l1) then (l1, c1, c2)
    else
      let c1 := set_lock c1 (c_lock c1 + 1)%N in
      if negb (is_success l2) then (l2, set_lock c1 (c_lock c1 - 1)%N, c2)
      else
        let c2 := set_lock c2 (c_lock c2 + 1)%N in
        let c2 := set_routes c2 (copy_metadata (c_routes c1) (c_routes c2)) in
        let scratch := c1 in
        let c1 := take c1 c2 in
        let c2 := take c2 scratch in
        (OK, set_lock c1 (c_lock c1 - 1)%N, set_lock c2 (c_lock c2 - 1)%N).
End Ctx.
Arguments ctx : clear implicits.
