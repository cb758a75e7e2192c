(** * What a dispatch without actions does: every counter, time, flag and result bit, one by one.
    [r_*]: the route before; [B k]: is bit k of the results set (the caller's bits with the event configuration's bits
    added, then cleared); all of it in terms of the published bit numbers. *)
From Verif Require Import Base RouteFlags Dispatch.
Open Scope N_scope.

Section Effect.
  (** The clock, the event configuration, the default policy, the route and the caller's results. *)
  Variable now : Z.
  Variable c : econfig.
  Variable policy : N.
  Variable r : rstate.
  Variable given : N.

  Definition B (k : N) : bool := (has given k || has (c_add c) k) && negb (has (c_clear c) k).
  Definition flag (k : N) : bool := has (s_flags r) k.
  (** Counting is off for results of routes just inserted and of fallthrough. *)
  Definition counted_event : bool := negb (B AR_INSERTED) && negb (B AR_FALLTHROUGH).
  Definition clearing : bool := B AR_COMMENDABLE && has (c_flags c) EC_COMMENDABLE_CLEARS.
  Definition up (n : N) : N := N.min (n + 1) u16_max.
  Definition down (n : N) : N := n - 1.

  (** A connection over the limit ends the dispatch. *)
  Definition tracked : bool := counted_event && negb (flag RF_DONT_COUNT_CONN).
  Definition refused_connection : bool := tracked && B AR_CONNECT && (c_max_conns c <=? s_conns r).
  Definition connections : N :=
    if tracked then
      if B AR_CONNECT then (if c_max_conns c <=? s_conns r then s_conns r else s_conns r + 1)
      else if B AR_DISCONNECT then down (s_conns r) else s_conns r
    else s_conns r.
  (** The observations, before the threshold is looked at. *)
  Definition observed_derogatory : N :=
    if counted_event && clearing && negb refused_connection then 0
    else if counted_event && B AR_DEROGATORY then up (s_derog r) else s_derog r.
  Definition observed_commendable : N :=
    if counted_event && B AR_COMMENDABLE && negb refused_connection then up (s_commend r) else s_commend r.
  (** Leaving the penalty box: by a commendable event, or when its time is over. *)
  Definition time_over : bool := (0 <? c_box_duration c)%Z && negb (s_boxed_at r =? 0)%Z && (c_box_duration c <? now - s_boxed_at r)%Z.
  Definition released : bool := negb refused_connection && flag RF_PENALTYBOXED && (clearing || time_over).
  Definition still_boxed : bool := flag RF_PENALTYBOXED && negb released.
  (** Entering it. *)
  Definition bad_standing : bool :=
    (0 <? c_threshold c) &&
    (if has (c_flags c) EC_IGNORE_COMMENDABLE then c_threshold c <=? observed_derogatory
     else c_threshold c + observed_commendable <=? observed_derogatory).
  Definition boxed_now : bool := negb refused_connection && negb still_boxed && bad_standing.
  (** Nothing decides: the default policy. *)
  Definition green : bool := negb refused_connection && negb still_boxed && negb boxed_now && flag RF_GREENLISTED.
  Definition undecided : bool :=
    negb refused_connection && negb still_boxed && negb boxed_now && negb (flag RF_GREENLISTED) && negb (B AR_ACCEPT) && negb (B AR_REJECT).
  Definition rejected : bool := B AR_REJECT || refused_connection || (negb refused_connection && still_boxed) || boxed_now || undecided && has policy AR_REJECT.

  Record effect (clock : option Z) (r' : rstate) (result : N) : Prop := {
    ef_last_hit : s_last_hit r' = now;
    ef_hits : s_hits r' = s_hits r;
    ef_conns : s_conns r' = connections;
    ef_derog : s_derog r' = if boxed_now then 0 else observed_derogatory;
    ef_commend : s_commend r' = if boxed_now then 0 else observed_commendable;
    ef_box : has (s_flags r') RF_PENALTYBOXED = (flag RF_PENALTYBOXED && negb released) || boxed_now;
    ef_flags : forall k, k <> RF_PENALTYBOXED -> has (s_flags r') k = flag k;
    ef_boxed_at : s_boxed_at r' = match clock with Some t => if boxed_now then t else s_boxed_at r | None => s_boxed_at r end;
    ef_reject : has result AR_REJECT = rejected;
    ef_accept : has result AR_ACCEPT = B AR_ACCEPT || green || undecided && has policy AR_ACCEPT;
    ef_fallthrough : has result AR_FALLTHROUGH = B AR_FALLTHROUGH || undecided;
    ef_update : has result AR_UPDATE = B AR_UPDATE || released || boxed_now || undecided && has policy AR_UPDATE;
    ef_port_reset : has result AR_PORT_RESET = B AR_PORT_RESET || undecided && has policy AR_PORT_RESET || rejected && flag RF_PORT_RESET;
    ef_others : forall k, ~ In k [AR_REJECT; AR_ACCEPT; AR_FALLTHROUGH; AR_UPDATE; AR_PORT_RESET] ->
                has result k = B k || undecided && has policy k }.
End Effect.

(** ** The hit: counted up to the maximum, at which counting is switched off (reported as UPDATE). *)
Definition hits_counted (r : rstate) : bool := negb (has (s_flags r) RF_DONT_COUNT_HITS).
Definition saturated (r : rstate) : bool := hits_counted r && (s_hits r =? u32_max).
(** DEROGATORY and COMMENDABLE together are a private signal of the library's: they exclude rejecting routes from the
    lookup, and are taken away. *)
Definition signal (given : N) : bool := has given AR_DEROGATORY && has given AR_COMMENDABLE.
Record hit (r : rstate) (given : N) (r' : rstate) (result : N) : Prop := {
  hit_hits : s_hits r' = if hits_counted r then N.min (s_hits r + 1) u32_max else s_hits r;
  hit_flags : forall k, has (s_flags r') k = has (s_flags r) k || (saturated r && (k =? RF_DONT_COUNT_HITS));
  hit_others : s_derog r' = s_derog r /\ s_commend r' = s_commend r /\ s_conns r' = s_conns r /\ s_last_hit r' = s_last_hit r /\ s_boxed_at r' = s_boxed_at r;
  hit_result : forall k, has result k = (has given k && negb (signal given && ((k =? AR_DEROGATORY) || (k =? AR_COMMENDABLE)))) || (saturated r && (k =? AR_UPDATE)) }.
