(** * C57: a dispatch changes exactly what the documentation says, and nothing else *)
From Verif Require Import Base RouteFlags Dispatch DispatchProofs DispatchSpec DispatchEffect.
Open Scope N_scope.

(** No actions are registered for the events involved. *)
Definition none : hooks := {| h_post := None; h_match := None; h_update := None; h_decision := None |}.
Definition no_actions (e : env) : Prop := e_trigger e = none /\ e_parent e = none /\ e_default e = none.
Definition counters_fit (s : rstate) : Prop := s_derog s <= u16_max /\ s_commend s <= u16_max /\ s_conns s <= u16_max /\ s_hits s <= u32_max.

(** On a route of the table: every member of the route and every bit of the results, in every case. *)
Theorem C57_effect_partial : forall e tf s0 ar0 now,
  no_actions e -> has tf RF_RADDR_BITMASK = false -> has tf RF_LADDR_BITMASK = false ->
  e_time e = Some now -> has (s_flags s0) RF_IN_TABLE = true -> counters_fit s0 -> c_max_conns (e_config e) <= u16_max ->
  exists s' ar', dispatch_1 e tf (Some s0) ar0 = (OK, Some s', ar') /\
    effect now (e_config e) (e_policy e) s0 ar0 (e_clock e) s' ar' /\ counters_fit s'.
Proof.
  intros e tf s0 ar0 now (T & P & D) M1 M2 ET IT (F1 & F2 & F3 & F4) MX.
  set (ar := N.ldiff (N.lor ar0 (c_add (e_config e))) (c_clear (e_config e))).
  assert (BV : before_verdict e s0 ar0 = (set_last_hit s0 now, s_flags s0, ar, false)).
  { unfold before_verdict. rewrite ET, T, P, D. cbn [h_post h_match none]. fold ar. destruct (e_fallthrough e) as [f|]; [rewrite IT|]; reflexivity. }
  assert (HB : forall k, has ar k = B (e_config e) ar0 k) by (intros k; unfold ar; rewrite has_ldiff, has_lor; reflexivity).
  pose proof (verdict_exact now (e_config e) (e_policy e) (set_last_hit s0 now) ar0 ar HB F1 F2 MX (e_clock e)) as VE.
  unfold dispatch_1, dispatch_0. rewrite M1, M2, BV, P, ET. cbn [orb]. cbn [set_last_hit s_flags] in VE.
  destruct (verdict (e_config e) (e_policy e) now (e_clock e) (set_last_hit s0 now) (s_flags s0) ar) as [s' ar'].
  specialize (VE eq_refl). cbn [after_verdict none h_update h_decision is_success]. exists s', ar'. split; [reflexivity|].
  split; [destruct VE; split; assumption|].
  destruct VE as [_ E1 E2 E3 E4 _ _ _ _ _ _ _ _ _]. unfold counters_fit. rewrite E1, E2, E3, E4. cbn [set_last_hit s_hits].
  unfold connections, observed_derogatory, observed_commendable, up, down. cbn [set_last_hit s_derog s_commend s_conns]. unfold u16_max in *.
  split; [|split; [|split; [|exact F4]]].
  - destruct (boxed_now _ _ _ _); [lia|]. destruct (_ && _ && _); [lia|]. destruct (_ && _); lia.
  - destruct (boxed_now _ _ _ _); [lia|]. destruct (_ && _ && _); lia.
  - destruct (tracked _ _ _); [|lia]. destruct (B _ _ AR_CONNECT); [destruct (N.leb_spec (c_max_conns (e_config e)) (s_conns s0)); lia|].
    destruct (B _ _ AR_DISCONNECT); lia.
Qed.

(** With the hit that the lookup counts. *)
Lemma clear_bit_has : forall ar a k, has (N.clearbit ar a) k = has ar k && negb (k =? a).
Proof. intros. unfold has. rewrite N.clearbit_eqb, N.eqb_sym. reflexivity. Qed.
Lemma dont_count : forall s clock ar, has (s_flags s) RF_DONT_COUNT_HITS = false ->
  let '(e, s', _, ar') := update_flags s (N.setbit 0 RF_DONT_COUNT_HITS) 0 clock ar in
  (forall k, has (s_flags s') k = has (s_flags s) k || (k =? RF_DONT_COUNT_HITS)) /\ (forall k, has ar' k = has ar k || (k =? AR_UPDATE)) /\
  s_hits s' = s_hits s /\ s_derog s' = s_derog s /\ s_commend s' = s_commend s /\ s_conns s' = s_conns s /\ s_last_hit s' = s_last_hit s /\ s_boxed_at s' = s_boxed_at s.
Proof.
  intros s clock ar NH. unfold update_flags. rewrite !has_bit. change (RF_DONT_COUNT_HITS =? RF_PENALTYBOXED) with false. cbn [andb].
  replace (anybit (N.lor (N.setbit 0 RF_DONT_COUNT_HITS) 0) PROTECTED_FLAGS) with false by reflexivity.
  replace (anybit (N.lor (N.setbit 0 RF_DONT_COUNT_HITS) 0) IMMUTABLE_FLAGS) with false by reflexivity. rewrite andb_false_r. cbv zeta. rewrite N.ldiff_0_r.
  assert (FL : forall k, has (N.lor (s_flags s) (N.setbit 0 RF_DONT_COUNT_HITS)) k = has (s_flags s) k || (k =? RF_DONT_COUNT_HITS)) by (intros k; rewrite has_lor, has_bit, N.eqb_sym; reflexivity).
  rewrite (FL RF_PENALTYBOXED). change (RF_PENALTYBOXED =? RF_DONT_COUNT_HITS) with false. rewrite orb_false_r, andb_negb_r.
  cbn [set_flags s_flags s_hits s_derog s_commend s_conns s_last_hit s_boxed_at]. split; [exact FL|]. split; [|repeat split; reflexivity].
  intros k. destruct (N.eqb_spec (s_flags s) (N.lor (s_flags s) (N.setbit 0 RF_DONT_COUNT_HITS))) as [E|_].
  - exfalso. assert (K : has (s_flags s) RF_DONT_COUNT_HITS = true) by (rewrite E, FL, N.eqb_refl; apply orb_true_r). congruence.
  - destruct (N.eqb_spec k AR_UPDATE) as [->|NE]; [rewrite set_same, orb_true_r; reflexivity|rewrite set_other, orb_false_r by congruence; reflexivity].
Qed.
Lemma lookup_hit_spec : forall s clock ar, s_hits s <= u32_max -> let '(s', ar') := lookup_hit s clock ar in hit s ar s' ar'.
Proof.
  intros s clock ar HL. unfold lookup_hit, increment_hitcount. set (ar1 := if has ar AR_DEROGATORY && has ar AR_COMMENDABLE then _ else _).
  assert (A1 : forall k, has ar1 k = has ar k && negb (signal ar && ((k =? AR_DEROGATORY) || (k =? AR_COMMENDABLE)))).
  { intros k. unfold ar1, signal. destruct (has ar AR_DEROGATORY && has ar AR_COMMENDABLE); cbn [andb negb]; [|rewrite andb_true_r; reflexivity].
    rewrite !clear_bit_has, <- andb_assoc, negb_orb. reflexivity. }
  destruct (has (s_flags s) RF_DONT_COUNT_HITS) eqn:NH.
  - assert (HC : hits_counted s = false) by (unfold hits_counted; rewrite NH; reflexivity).
    split; unfold saturated; rewrite ?HC; cbn [andb]; [reflexivity|intros k; rewrite orb_false_r; reflexivity|repeat split; reflexivity|intros k; rewrite orb_false_r; apply A1].
  - assert (HC : hits_counted s = true) by (unfold hits_counted; rewrite NH; reflexivity).
    unfold incr_safely. unfold u32_max in *. destruct (N.ltb_spec (4294967295 - s_hits s) 1) as [L|L].
    + rewrite N.eqb_refl. pose proof (dont_count (set_hits s (s_hits s)) clock ar1 NH) as DC.
      destruct (update_flags _ _ _ _ _) as [[[? s'] ?] ar']. destruct DC as (D1 & D2 & D3 & D4 & D5 & D6 & D7 & D8).
      assert (ST : saturated s = true) by (unfold saturated; rewrite HC; apply N.eqb_eq; unfold u32_max; lia).
      split; rewrite ?HC, ?ST; cbn [andb].
      * rewrite D3. cbn [set_hits s_hits]. unfold u32_max. lia.
      * exact D1.
      * auto 10.
      * intros k. rewrite D2, A1. reflexivity.
    + replace (s_hits s + 1 =? 0) with false by (symmetry; apply N.eqb_neq; lia).
      assert (ST : saturated s = false) by (unfold saturated; rewrite HC; apply N.eqb_neq; unfold u32_max; lia).
      split; rewrite ?HC, ?ST; cbn [andb set_hits s_hits s_flags s_derog s_commend s_conns s_last_hit s_boxed_at].
      * unfold u32_max. lia.
      * intros k. rewrite orb_false_r. reflexivity.
      * auto 10.
      * intros k. rewrite orb_false_r. apply A1.
Qed.
(** Any sequence of matched dispatches to the route, under changing clocks, configurations and policies: hits and effects
    one after the other. *)
Inductive effects : rstate -> list (env * N) -> rstate -> list N -> Prop :=
| ef_done : forall s, effects s [] s []
| ef_step : forall s e ar now s0 ar0 s1 ar1 rest s2 ars, e_time e = Some now -> hit s ar s0 ar0 ->
    effect now (e_config e) (e_policy e) s0 ar0 (e_clock e) s1 ar1 -> effects s1 rest s2 ars -> effects s ((e, ar) :: rest) s2 (ar1 :: ars).
Fixpoint run (s : rstate) (evs : list (env * N)) : rstate * list N :=
  match evs with
  | [] => (s, [])
  | (e, ar) :: rest => match dispatch_found e 0 s ar with
                       | (_, Some s1, ar1) => let '(s2, ars) := run s1 rest in (s2, ar1 :: ars)
                       | (_, None, ar1) => (s, [ar1])
                       end
  end.
Definition ordinary (ev : env * N) : Prop :=
  no_actions (fst ev) /\ (exists now, e_time (fst ev) = Some now) /\ c_max_conns (e_config (fst ev)) <= u16_max.
Theorem C57_histories_partial : forall evs s, has (s_flags s) RF_IN_TABLE = true -> counters_fit s -> Forall ordinary evs ->
  let '(s', ars) := run s evs in
  effects s evs s' ars /\
  (forall k, k <> RF_PENALTYBOXED -> k <> RF_DONT_COUNT_HITS -> has (s_flags s') k = has (s_flags s) k) /\
  s_hits s' = if hits_counted s then N.min (s_hits s + N.of_nat (length evs)) u32_max else s_hits s.
Proof.
  induction evs as [|[e ar] evs IH]; intros s IT CF F; cbn [run].
  - split; [constructor|]. split; [reflexivity|]. destruct CF as (_ & _ & _ & HL). destruct (hits_counted s); [cbn [length N.of_nat]; lia|reflexivity].
  - inversion F as [|? ? (NA & (now & ET) & MX) F2]; subst. cbn [fst] in *. unfold dispatch_found.
    destruct CF as (CF1 & CF2 & CF3 & CF4). pose proof (lookup_hit_spec s (e_clock e) ar CF4) as HH. destruct (lookup_hit s (e_clock e) ar) as [s0 ar0].
    pose proof (hit_others _ _ _ _ HH) as (O1 & O2 & O3 & O4 & O5). pose proof (hit_hits _ _ _ _ HH) as OH. pose proof (hit_flags _ _ _ _ HH) as OF.
    assert (IT0 : has (s_flags s0) RF_IN_TABLE = true) by (rewrite OF, IT; reflexivity).
    assert (CF0 : counters_fit s0). { unfold counters_fit. rewrite O1, O2, O3, OH. destruct (hits_counted s); [unfold u32_max in *|]; repeat split; lia. }
    destruct (C57_effect_partial e 0 s0 ar0 now NA eq_refl eq_refl ET IT0 CF0 MX) as (s1 & ar1 & D & EF & CFs1). rewrite D.
    assert (FL1 : forall k, k <> RF_PENALTYBOXED -> has (s_flags s1) k = has (s_flags s0) k) by (intros k NK; apply (ef_flags _ _ _ _ _ _ _ _ EF); exact NK).
    assert (IT1 : has (s_flags s1) RF_IN_TABLE = true) by (rewrite FL1 by discriminate; exact IT0).
    specialize (IH s1 IT1 CFs1 F2). destruct (run s1 evs) as [s2 ars]. destruct IH as (E1 & E2 & E3). split; [econstructor; eauto|]. split.
    + intros k N1 N2. rewrite E2, FL1, OF by assumption. replace (k =? RF_DONT_COUNT_HITS) with false by (symmetry; apply N.eqb_neq; exact N2). rewrite andb_false_r. apply orb_false_r.
    + pose proof (ef_hits _ _ _ _ _ _ _ _ EF) as EH.
      assert (HC1 : hits_counted s1 = hits_counted s && negb (saturated s)).
      { unfold hits_counted at 1. rewrite FL1, OF, N.eqb_refl, andb_true_r by discriminate. unfold hits_counted. destruct (has (s_flags s) RF_DONT_COUNT_HITS), (saturated s); reflexivity. }
      rewrite E3, EH, OH, HC1. cbn [length]. unfold saturated. destruct (hits_counted s); cbn [andb]; [|reflexivity].
      unfold u32_max in *. destruct (N.eqb_spec (s_hits s) 4294967295) as [ES|NS]; cbn [negb]; lia.
Qed.
(** So an event reported as both derogatory and commendable counts as neither. *)
Theorem C57_both_observations_refuted : exists e s0 ar0, no_actions e /\ counters_fit s0 /\ has ar0 AR_DEROGATORY = true /\ has ar0 AR_COMMENDABLE = true /\
  exists s' ar', dispatch_found e 0 s0 ar0 = (OK, Some s', ar') /\ s_derog s' = s_derog s0 /\ s_commend s' = s_commend s0.
Proof.
  exists {| e_time := Some 100%Z; e_clock := Some 100%Z; e_policy := N.setbit 0 AR_ACCEPT; e_config := mkC 0 0 0 0 0 0;
            e_trigger := none; e_parent := none; e_default := none; e_fallthrough := None |}, (mkR (N.setbit 0 RF_IN_TABLE) 3 4 0 0 0 0), 48.
  split; [split; [reflexivity|split; reflexivity]|]. split; [unfold counters_fit, u16_max, u32_max; cbn; lia|]. split; [reflexivity|]. split; [reflexivity|].
  do 2 eexists. split; [reflexivity|]. split; reflexivity.
Qed.

(** A target with a bit mask is refused: the route is untouched, the caller's results keep their bits and get ERROR. *)
Theorem C57_refused_target : forall e tf s0 ar0, has tf RF_RADDR_BITMASK || has tf RF_LADDR_BITMASK = true ->
  exists ar', dispatch_1 e tf (Some s0) ar0 = (INVALID_ARG, Some s0, ar') /\ has ar' AR_ERROR = true /\
    forall k, k <> AR_ERROR -> has ar' k = has ar0 k.
Proof.
  intros e tf s0 ar0 H. eexists. unfold dispatch_1, dispatch_0. rewrite H. split; [reflexivity|]. split; [apply set_same|].
  intros k NK. apply set_other. congruence.
Qed.

(** A failing clock is reported with ERROR and leaves the time of the last hit alone. *)
Theorem C57_clock_failure : forall e tf s0 ar0,
  no_actions e -> has tf RF_RADDR_BITMASK = false -> has tf RF_LADDR_BITMASK = false ->
  e_time e = None -> has (s_flags s0) RF_IN_TABLE = true -> has (c_clear (e_config e)) AR_ERROR = false ->
  exists s' ar', dispatch_1 e tf (Some s0) ar0 = (OK, Some s', ar') /\ has ar' AR_ERROR = true /\ s_last_hit s' = s_last_hit s0.
Proof.
  intros e tf s0 ar0 (T & P & D) M1 M2 ET IT NC.
  set (ar := N.ldiff (N.lor (N.setbit ar0 AR_ERROR) (c_add (e_config e))) (c_clear (e_config e))).
  assert (BV : before_verdict e s0 ar0 = (s0, s_flags s0, ar, false)).
  { unfold before_verdict. rewrite ET, T, P, D. cbn [h_post h_match none]. fold ar. destruct (e_fallthrough e) as [f|]; [rewrite IT|]; reflexivity. }
  assert (HE : has ar AR_ERROR = true) by (unfold ar; rewrite has_ldiff, has_lor, set_same, NC; reflexivity).
  unfold dispatch_1, dispatch_0. rewrite M1, M2, BV, P, ET. cbn [orb].
  assert (V : let '(s', ar') := verdict (e_config e) (e_policy e) 0 (e_clock e) s0 (s_flags s0) ar in has ar' AR_ERROR = true /\ s_last_hit s' = s_last_hit s0).
  { unfold verdict. pose proof (count_spec (e_config e) s0 (s_flags s0) ar) as CS. destruct (count _ s0 _ ar) as [[s2 ar2] over]. destruct CS as (_ & _ & LH & EA).
    assert (E2 : has ar2 AR_ERROR = true) by (rewrite EA; destruct over; [rewrite set_other by discriminate|]; exact HE).
    destruct over.
    - split; [|exact LH]. destruct (_ && _); [rewrite set_other by discriminate|]; exact E2.
    - pose proof (release_bits (e_config e) 0 (e_clock e) s2 (s_flags s0) ar2 AR_ERROR ltac:(discriminate)) as RB.
      pose proof (release_spec (e_config e) 0 (e_clock e) s2 (s_flags s0) ar2) as RS.
      destruct (release _ _ _ s2 _ ar2) as [[s3 cur3] ar3]. cbn [snd] in RB.
      assert (L3 : s_last_hit s3 = s_last_hit s0) by (destruct RS as [(-> & _)|(-> & _)]; exact LH).
      unfold decide. rewrite E2 in RB. rewrite box_eq.
      destruct (has cur3 RF_PENALTYBOXED); [|destruct (over_threshold _ s3); [|destruct (has cur3 RF_GREENLISTED); [|destruct (_ || _)]]].
      + split; [|exact L3]. destruct (_ && _); rewrite ?set_other by discriminate; exact RB.
      + cbn [is_success]. split.
        * destruct (_ && _), (s_flags s3 =? _); rewrite ?set_other by discriminate; exact RB.
        * unfold boxed. destruct (has (s_flags s3) RF_PENALTYBOXED), (e_clock e); exact L3.
      + split; [|exact L3]. destruct (_ && _); rewrite ?set_other by discriminate; exact RB.
      + split; [|exact L3]. destruct (_ && _); rewrite ?set_other by discriminate; exact RB.
      + split; [|exact L3]. destruct (_ && _); rewrite ?set_other by discriminate; rewrite has_lor, set_other, RB by discriminate; reflexivity. }
  destruct (verdict _ _ 0 _ s0 _ ar) as [s' ar']. cbn [after_verdict none h_update h_decision is_success]. exists s', ar'. tauto.
Qed.

(** Unmatched traffic of an event with post actions runs them on a route outside the table; if they insert nothing, the
    dispatch falls through to the table's fallthrough route: its hit is counted (up to the maximum), FALLTHROUGH is
    reported, and no connection or observation is counted anywhere. *)
Theorem C57_fallthrough_partial : forall e tf s0 ar0 now post s1 ar1 ft,
  has tf RF_RADDR_BITMASK = false -> has tf RF_LADDR_BITMASK = false -> e_time e = Some now ->
  h_post (e_trigger e) = Some post -> post (set_last_hit s0 now) ar0 = (s1, ar1) -> has (s_flags s1) RF_IN_TABLE = false ->
  e_default e = none -> e_fallthrough e = Some ft -> s_hits ft <= u32_max -> has (s_flags ft) RF_DONT_COUNT_HITS = false ->
  exists s' ar', dispatch_1 e tf (Some s0) ar0 = (OK, Some s', ar') /\ has ar' AR_FALLTHROUGH = true /\
    s_hits s' = N.min (s_hits ft + 1) u32_max /\ s_conns s' = s_conns ft /\
    (over_threshold (e_config e) ft = false -> s_derog s' = s_derog ft /\ s_commend s' = s_commend ft).
Proof.
  intros e tf s0 ar0 now post s1 ar1 ft M1 M2 ET TP EP NT D EF HL NH.
  unfold dispatch_1, dispatch_0. rewrite M1, M2. cbn [orb]. unfold before_verdict. rewrite ET, TP, EP, EF, NT, D. cbn [h_match none].
  assert (IH : forall ar, let '(f', ar') := increment_hitcount ft (e_clock e) ar in
    s_hits f' = N.min (s_hits ft + 1) u32_max /\ s_conns f' = s_conns ft /\ s_derog f' = s_derog ft /\ s_commend f' = s_commend ft /\
    has ar' AR_FALLTHROUGH = has ar AR_FALLTHROUGH).
  { intros ar. unfold increment_hitcount. rewrite NH. unfold incr_safely. unfold u32_max in *. destruct (N.ltb_spec (4294967295 - s_hits ft) 1) as [L|L].
    - rewrite N.eqb_refl. unfold update_flags. rewrite !has_bit.
      change (RF_DONT_COUNT_HITS =? RF_PENALTYBOXED) with false. cbn [andb].
      replace (anybit (N.lor (N.setbit 0 RF_DONT_COUNT_HITS) 0) PROTECTED_FLAGS) with false by reflexivity.
      replace (anybit (N.lor (N.setbit 0 RF_DONT_COUNT_HITS) 0) IMMUTABLE_FLAGS) with false by reflexivity. rewrite andb_false_r. cbv zeta.
      match goal with |- context [if ?b then _ else set_flags _ _] => destruct b end; [destruct (e_clock e)|];
        cbn [set_boxed_at set_flags set_hits s_hits s_conns s_derog s_commend];
        (split; [lia|]; split; [reflexivity|]; split; [reflexivity|]; split; [reflexivity|]; destruct (_ =? _); [reflexivity|apply set_other; discriminate]).
    - replace (s_hits ft + 1 =? 0) with false by (symmetry; apply N.eqb_neq; lia). cbn. split; [lia|]. repeat split; reflexivity. }
  specialize (IH (N.setbit (N.ldiff (N.lor (N.clearbit ar1 AR_STOP) (c_add (e_config e))) (c_clear (e_config e))) AR_FALLTHROUGH)).
  destruct (increment_hitcount ft _ _) as [f' ar2]. destruct IH as (I1 & I2 & I3 & I4 & I5). rewrite set_same in I5.
  rewrite ?D. cbv beta iota. cbn [h_match none].
  assert (V : let '(s', ar') := verdict (e_config e) (e_policy e) now (e_clock e) f' (s_flags s1) ar2 in
    has ar' AR_FALLTHROUGH = true /\ s_hits s' = s_hits f' /\ s_conns s' = s_conns f' /\
    (over_threshold (e_config e) f' = false -> s_derog s' = s_derog f' /\ s_commend s' = s_commend f')).
  { unfold verdict, count. rewrite I5, orb_true_r.
    pose proof (release_bits (e_config e) now (e_clock e) f' (s_flags s1) ar2 AR_FALLTHROUGH ltac:(discriminate)) as RB.
    pose proof (release_spec (e_config e) now (e_clock e) f' (s_flags s1) ar2) as RS.
    destruct (release _ _ _ f' _ ar2) as [[s3 cur3] ar3]. cbn [snd] in RB. rewrite I5 in RB.
    assert (E3 : s_hits s3 = s_hits f' /\ s_conns s3 = s_conns f' /\ s_derog s3 = s_derog f' /\ s_commend s3 = s_commend f').
    { destruct RS as [(-> & _)|(-> & _)]; repeat split; reflexivity. }
    destruct E3 as (E1 & E2 & E4 & E5). unfold decide. rewrite box_eq.
    assert (OT : over_threshold (e_config e) s3 = over_threshold (e_config e) f') by (unfold over_threshold; rewrite E4, E5; reflexivity). rewrite OT.
    destruct (has cur3 RF_PENALTYBOXED); [|destruct (over_threshold _ f'); [|destruct (has cur3 RF_GREENLISTED); [|destruct (_ || _)]]].
    - split; [destruct (_ && _); rewrite ?set_other by discriminate; exact RB|]. auto.
    - cbn [is_success]. split; [destruct (_ && _), (s_flags s3 =? _); rewrite ?set_other by discriminate; exact RB|].
      unfold boxed. split; [destruct (has (s_flags s3) RF_PENALTYBOXED), (e_clock e); exact E1|].
      split; [destruct (has (s_flags s3) RF_PENALTYBOXED), (e_clock e); exact E2|discriminate].
    - split; [destruct (_ && _); rewrite ?set_other by discriminate; exact RB|]. auto.
    - split; [destruct (_ && _); rewrite ?set_other by discriminate; exact RB|]. auto.
    - split; [destruct (_ && _); rewrite ?set_other by discriminate; rewrite has_lor, set_same; reflexivity|]. auto. }
  destruct (verdict _ _ now _ f' _ ar2) as [s' ar']. destruct V as (V1 & V2 & V3 & V4).
  cbv beta iota. rewrite ?D. cbn [after_verdict none h_update h_decision is_success]. exists s', ar'. split; [reflexivity|]. split; [exact V1|]. split; [congruence|]. split; [congruence|].
  intros OT. assert (O2 : over_threshold (e_config e) f' = false) by (rewrite <- OT; unfold over_threshold; rewrite I3, I4; reflexivity).
  destruct (V4 O2) as [V5 V6]. split; congruence.
Qed.
(** But the dispatch goes on with the flags of the route outside the table: the fallthrough route's own flags do not count
    unless a match action is registered. *)
Theorem C57_fallthrough_flags_refuted : exists e s0 ft,
  e_fallthrough e = Some ft /\ has (s_flags ft) RF_PENALTYBOXED = true /\ s_boxed_at ft = 0%Z /\
  h_post (e_trigger e) = Some (fun s ar => (s, ar)) /\
  exists s' ar', dispatch_1 e 0 (Some s0) 0 = (OK, Some s', ar') /\ has ar' AR_REJECT = false /\ has ar' AR_ACCEPT = true.
Proof.
  exists {| e_time := Some 100%Z; e_clock := Some 100%Z; e_policy := N.setbit 0 AR_ACCEPT; e_config := mkC 0 0 0 0 0 0;
            e_trigger := {| h_post := Some (fun s ar => (s, ar)); h_match := None; h_update := None; h_decision := None |};
            e_parent := none; e_default := none; e_fallthrough := Some (mkR (N.setbit 0 RF_PENALTYBOXED) 0 0 0 0 0 0) |},
         (mkR 0 0 0 0 0 0 0), (mkR (N.setbit 0 RF_PENALTYBOXED) 0 0 0 0 0 0).
  split; [reflexivity|]. split; [reflexivity|]. split; [reflexivity|]. split; [reflexivity|]. do 2 eexists. split; [reflexivity|]. split; reflexivity.
Qed.

(** ** C14, C16, C17 and C18 once more, for events without actions and in terms of the arguments alone *)
Definition matched (e : env) (now : Z) (s0 : rstate) : Prop :=
  no_actions e /\ e_time e = Some now /\ has (s_flags s0) RF_IN_TABLE = true /\ counters_fit s0 /\ c_max_conns (e_config e) <= u16_max.
Lemma matched_effect : forall e now s0 ar0, matched e now s0 ->
  exists s' ar', dispatch_1 e 0 (Some s0) ar0 = (OK, Some s', ar') /\ effect now (e_config e) (e_policy e) s0 ar0 (e_clock e) s' ar'.
Proof.
  intros e now s0 ar0 (NA & ET & IT & CF & MX). destruct (C57_effect_partial e 0 s0 ar0 now NA eq_refl eq_refl ET IT CF MX) as (s' & ar' & D & E & _). eauto.
Qed.
(** A route in the penalty box, its time not over, and no commendable event that clears it: REJECT, and not ACCEPT unless
    the caller or the configuration put it there. *)
Theorem C14_boxed_plain : forall e now s0 ar0, matched e now s0 ->
  has (s_flags s0) RF_PENALTYBOXED = true ->
  (c_box_duration (e_config e) <= 0 \/ s_boxed_at s0 = 0 \/ now - s_boxed_at s0 <= c_box_duration (e_config e))%Z ->
  B (e_config e) ar0 AR_COMMENDABLE = false \/ has (c_flags (e_config e)) EC_COMMENDABLE_CLEARS = false ->
  exists s' ar', dispatch_1 e 0 (Some s0) ar0 = (OK, Some s', ar') /\ has ar' AR_REJECT = true /\
    (B (e_config e) ar0 AR_ACCEPT = false -> has ar' AR_ACCEPT = false) /\ has (s_flags s') RF_PENALTYBOXED = true.
Proof.
  intros e now s0 ar0 M PB TM CM. destruct (matched_effect e now s0 ar0 M) as (s' & ar' & D & E). exists s', ar'. split; [exact D|].
  assert (RL : released now (e_config e) s0 ar0 = false).
  { unfold released, clearing. assert (C0 : B (e_config e) ar0 AR_COMMENDABLE && has (c_flags (e_config e)) EC_COMMENDABLE_CLEARS = false) by (destruct CM as [-> | ->]; [reflexivity|apply andb_false_r]).
    rewrite C0. assert (T0 : time_over now (e_config e) s0 = false).
    { unfold time_over. destruct (Z.ltb_spec 0 (c_box_duration (e_config e))); [|reflexivity]. destruct (Z.eqb_spec (s_boxed_at s0) 0); [reflexivity|].
      destruct (Z.ltb_spec (c_box_duration (e_config e)) (now - s_boxed_at s0)); [lia|reflexivity]. }
    rewrite T0. cbn [orb]. apply andb_false_r. }
  assert (SB : still_boxed now (e_config e) s0 ar0 = true) by (unfold still_boxed, flag; rewrite PB, RL; reflexivity).
  split; [|split].
  - rewrite (ef_reject _ _ _ _ _ _ _ _ E). unfold rejected. rewrite SB. destruct (refused_connection _ _ _); cbn [negb andb]; rewrite ?orb_true_r; reflexivity.
  - intros NA. rewrite (ef_accept _ _ _ _ _ _ _ _ E), NA. unfold green, undecided. rewrite SB. cbn [negb]. rewrite !andb_false_r. reflexivity.
  - rewrite (ef_box _ _ _ _ _ _ _ _ E). unfold flag. rewrite PB, RL. reflexivity.
Qed.
(** A green-listed route that is not boxed: ACCEPT, unless the connection limit or the threshold speaks against it. *)
Theorem C14_greenlisted_plain : forall e now s0 ar0, matched e now s0 ->
  has (s_flags s0) RF_GREENLISTED = true -> has (s_flags s0) RF_PENALTYBOXED = false ->
  (B (e_config e) ar0 AR_CONNECT = false \/ s_conns s0 < c_max_conns (e_config e)) ->
  (c_threshold (e_config e) = 0 \/ s_derog s0 + 1 < c_threshold (e_config e)) ->
  exists s' ar', dispatch_1 e 0 (Some s0) ar0 = (OK, Some s', ar') /\ has ar' AR_ACCEPT = true /\ has ar' AR_REJECT = B (e_config e) ar0 AR_REJECT.
Proof.
  intros e now s0 ar0 M GF NB CN TH. destruct (matched_effect e now s0 ar0 M) as (s' & ar' & D & E). exists s', ar'. split; [exact D|].
  assert (RC : refused_connection (e_config e) s0 ar0 = false).
  { unfold refused_connection. destruct CN as [-> |CN]; [rewrite andb_false_r; reflexivity|]. destruct (N.leb_spec (c_max_conns (e_config e)) (s_conns s0)); [lia|apply andb_false_r]. }
  assert (SB : still_boxed now (e_config e) s0 ar0 = false) by (unfold still_boxed, flag; rewrite NB; reflexivity).
  assert (BS : bad_standing (e_config e) s0 ar0 = false).
  { unfold bad_standing. destruct TH as [-> |TH]; [reflexivity|].
    assert (OD : observed_derogatory (e_config e) s0 ar0 <= s_derog s0 + 1) by (unfold observed_derogatory, up; destruct (_ && _ && _); [lia|]; destruct (_ && _); lia).
    destruct (has _ EC_IGNORE_COMMENDABLE); [destruct (N.leb_spec (c_threshold (e_config e)) (observed_derogatory (e_config e) s0 ar0))|
      destruct (N.leb_spec (c_threshold (e_config e) + observed_commendable (e_config e) s0 ar0) (observed_derogatory (e_config e) s0 ar0))]; try lia; apply andb_false_r. }
  assert (BN : boxed_now now (e_config e) s0 ar0 = false) by (unfold boxed_now; rewrite BS; apply andb_false_r).
  split.
  - rewrite (ef_accept _ _ _ _ _ _ _ _ E). unfold green, flag. rewrite RC, SB, BN, GF. cbn [negb andb]. rewrite orb_true_r. reflexivity.
  - rewrite (ef_reject _ _ _ _ _ _ _ _ E). unfold rejected, undecided, flag. rewrite RC, SB, BN, GF. cbn [negb andb]. rewrite !orb_false_r. reflexivity.
Qed.
(** An ordinary derogatory event on a route outside the box: it enters the box exactly if the balance reaches the
    threshold, and then the traffic is rejected and the counts start over; otherwise the event is counted. *)
Theorem C16_plain : forall e now s0 ar0, matched e now s0 -> has (s_flags s0) RF_PENALTYBOXED = false ->
  B (e_config e) ar0 AR_DEROGATORY = true -> B (e_config e) ar0 AR_COMMENDABLE = false -> B (e_config e) ar0 AR_CONNECT = false ->
  B (e_config e) ar0 AR_INSERTED = false -> B (e_config e) ar0 AR_FALLTHROUGH = false -> s_derog s0 < u16_max ->
  exists s' ar', dispatch_1 e 0 (Some s0) ar0 = (OK, Some s', ar') /\
    let balance := (Z.of_N (s_derog s0) + 1 - (if has (c_flags (e_config e)) EC_IGNORE_COMMENDABLE then 0 else Z.of_N (s_commend s0)))%Z in
    let reached := 0 < c_threshold (e_config e) /\ (Z.of_N (c_threshold (e_config e)) <= balance)%Z in
    (reached -> has (s_flags s') RF_PENALTYBOXED = true /\ has ar' AR_REJECT = true /\ s_derog s' = 0 /\ s_commend s' = 0) /\
    (~ reached -> has (s_flags s') RF_PENALTYBOXED = false /\ s_derog s' = s_derog s0 + 1 /\ s_commend s' = s_commend s0).
Proof.
  intros e now s0 ar0 M NB DG NC NCO NI NF DL. destruct (matched_effect e now s0 ar0 M) as (s' & ar' & D & E). exists s', ar'. split; [exact D|]. cbv zeta.
  assert (RC : refused_connection (e_config e) s0 ar0 = false) by (unfold refused_connection; rewrite NCO, andb_false_r; reflexivity).
  assert (SB : still_boxed now (e_config e) s0 ar0 = false) by (unfold still_boxed, flag; rewrite NB; reflexivity).
  assert (OD : observed_derogatory (e_config e) s0 ar0 = s_derog s0 + 1).
  { unfold observed_derogatory, clearing, counted_event. rewrite NC, NI, NF, DG. cbn [andb negb]. unfold up. unfold u16_max in *. lia. }
  assert (OC : observed_commendable (e_config e) s0 ar0 = s_commend s0) by (unfold observed_commendable; rewrite NC, andb_false_r; reflexivity).
  assert (BX : boxed_now now (e_config e) s0 ar0 = bad_standing (e_config e) s0 ar0) by (unfold boxed_now; rewrite RC, SB; reflexivity).
  pose proof (ef_box _ _ _ _ _ _ _ _ E) as EB. pose proof (ef_derog _ _ _ _ _ _ _ _ E) as ED. pose proof (ef_commend _ _ _ _ _ _ _ _ E) as EC. pose proof (ef_reject _ _ _ _ _ _ _ _ E) as ER.
  unfold flag in EB. rewrite NB in EB. cbn [andb orb] in EB. unfold rejected in ER. rewrite BX in EB, ED, EC, ER. rewrite OD in ED. rewrite OC in EC.
  assert (BS : bad_standing (e_config e) s0 ar0 = true <-> 0 < c_threshold (e_config e) /\
    (Z.of_N (c_threshold (e_config e)) <= Z.of_N (s_derog s0) + 1 - (if has (c_flags (e_config e)) EC_IGNORE_COMMENDABLE then 0 else Z.of_N (s_commend s0)))%Z).
  { unfold bad_standing. rewrite OD, OC, andb_true_iff, N.ltb_lt. destruct (has (c_flags (e_config e)) EC_IGNORE_COMMENDABLE); rewrite N.leb_le; clear; lia. }
  destruct (bad_standing (e_config e) s0 ar0).
  - split; [|intros K; exfalso; apply K, BS; reflexivity]. intros _. rewrite orb_true_r in ER. cbn [orb] in ER. auto.
  - split; [intros K; apply BS in K; discriminate K|]. auto.
Qed.
(** A route in the box with a time stamp, under a positive duration and without a threshold: it stays exactly until the
    duration has passed. *)
Theorem C17_plain : forall e now s0 ar0, matched e now s0 -> has (s_flags s0) RF_PENALTYBOXED = true ->
  (0 < c_box_duration (e_config e))%Z -> s_boxed_at s0 <> 0%Z -> c_threshold (e_config e) = 0 ->
  B (e_config e) ar0 AR_COMMENDABLE = false -> B (e_config e) ar0 AR_CONNECT = false ->
  exists s' ar', dispatch_1 e 0 (Some s0) ar0 = (OK, Some s', ar') /\
    (has (s_flags s') RF_PENALTYBOXED = true <-> (now <= s_boxed_at s0 + c_box_duration (e_config e))%Z).
Proof.
  intros e now s0 ar0 M PB DU BA TH NC NCO. destruct (matched_effect e now s0 ar0 M) as (s' & ar' & D & E). exists s', ar'. split; [exact D|].
  rewrite (ef_box _ _ _ _ _ _ _ _ E). unfold flag. rewrite PB.
  assert (RC : refused_connection (e_config e) s0 ar0 = false) by (unfold refused_connection; rewrite NCO, andb_false_r; reflexivity).
  assert (BN : boxed_now now (e_config e) s0 ar0 = false) by (unfold boxed_now, bad_standing; rewrite TH; cbn; apply andb_false_r).
  rewrite BN, orb_false_r. cbn [andb]. unfold released, clearing, flag, time_over. rewrite RC, NC, PB. cbn [negb andb orb].
  replace (0 <? c_box_duration (e_config e))%Z with true by (symmetry; apply Z.ltb_lt; exact DU).
  replace (s_boxed_at s0 =? 0)%Z with false by (symmetry; apply Z.eqb_neq; exact BA). cbn [negb andb].
  destruct (Z.ltb_spec (c_box_duration (e_config e)) (now - s_boxed_at s0)); cbn [negb]; split; intros; try lia; try reflexivity; discriminate.
Qed.
(** No mark on the route, nothing decided by the caller or the configuration, no limit reached: the default policy. *)
Theorem C18_plain : forall e now s0 ar0, matched e now s0 ->
  has (s_flags s0) RF_GREENLISTED = false -> has (s_flags s0) RF_PENALTYBOXED = false ->
  (B (e_config e) ar0 AR_CONNECT = false \/ s_conns s0 < c_max_conns (e_config e)) -> c_threshold (e_config e) = 0 ->
  B (e_config e) ar0 AR_ACCEPT = false -> B (e_config e) ar0 AR_REJECT = false ->
  exists s' ar', dispatch_1 e 0 (Some s0) ar0 = (OK, Some s', ar') /\
    has ar' AR_ACCEPT = has (e_policy e) AR_ACCEPT /\ has ar' AR_REJECT = has (e_policy e) AR_REJECT /\ has ar' AR_FALLTHROUGH = true.
Proof.
  intros e now s0 ar0 M NG NB CN TH NA NR. destruct (matched_effect e now s0 ar0 M) as (s' & ar' & D & E). exists s', ar'. split; [exact D|].
  assert (RC : refused_connection (e_config e) s0 ar0 = false).
  { unfold refused_connection. destruct CN as [-> |CN]; [rewrite andb_false_r; reflexivity|]. destruct (N.leb_spec (c_max_conns (e_config e)) (s_conns s0)); [lia|apply andb_false_r]. }
  assert (SB : still_boxed now (e_config e) s0 ar0 = false) by (unfold still_boxed, flag; rewrite NB; reflexivity).
  assert (BN : boxed_now now (e_config e) s0 ar0 = false) by (unfold boxed_now, bad_standing; rewrite TH; cbn; apply andb_false_r).
  assert (UD : undecided now (e_config e) s0 ar0 = true) by (unfold undecided, flag; rewrite RC, SB, BN, NG, NA, NR; reflexivity).
  assert (GR : green now (e_config e) s0 ar0 = false) by (unfold green, flag; rewrite NG; apply andb_false_r).
  rewrite (ef_accept _ _ _ _ _ _ _ _ E), (ef_reject _ _ _ _ _ _ _ _ E), (ef_fallthrough _ _ _ _ _ _ _ _ E). unfold rejected.
  rewrite UD, GR, NA, NR, RC, SB, BN. cbn [negb andb orb]. rewrite orb_true_r. auto.
Qed.

(** The hypotheses are met, and the effects are not trivial. *)
Definition sample_env (now : Z) : env :=
  {| e_time := Some now; e_clock := Some now; e_policy := N.setbit 0 AR_ACCEPT; e_config := mkC 2 2 50 0 (N.setbit 0 AR_STOP) 0;
     e_trigger := none; e_parent := none; e_default := none; e_fallthrough := None |}.
Definition sample_route : rstate := mkR (N.setbit (N.setbit 0 RF_IN_TABLE) RF_PORT_RESET) 0 0 0 7 0 0.
Example C57_example : no_actions (sample_env 100) /\ counters_fit sample_route /\ has (s_flags sample_route) RF_IN_TABLE = true /\
  c_max_conns (e_config (sample_env 100)) <= u16_max /\
  (let d := N.setbit 0 AR_DEROGATORY in
   let '(s, ars) := run sample_route [(sample_env 100, d); (sample_env 110, d); (sample_env 120, 0); (sample_env 161, 0)] in
   s_hits s = 11 /\ s_last_hit s = 161%Z /\ s_boxed_at s = 110%Z /\ has (s_flags s) RF_PENALTYBOXED = false /\
   map (fun ar => (has ar AR_ACCEPT, has ar AR_REJECT, has ar AR_PORT_RESET, has ar AR_UPDATE)) ars =
     [(true, false, false, false); (false, true, true, true); (false, true, true, false); (true, false, false, true)]).
Proof.
  split; [split; [reflexivity|split; reflexivity]|]. split; [unfold counters_fit, u16_max, u32_max; cbn; lia|]. split; [reflexivity|]. split; [cbn; unfold u16_max; lia|].
  vm_compute. split; [reflexivity|]. split; [reflexivity|]. split; [reflexivity|]. split; reflexivity.
Qed.
Print Assumptions C57_effect_partial.
Print Assumptions C57_histories_partial.
Print Assumptions C57_both_observations_refuted.
Print Assumptions C57_refused_target.
Print Assumptions C57_clock_failure.
Print Assumptions C57_fallthrough_partial.
Print Assumptions C57_fallthrough_flags_refuted.
Print Assumptions C14_boxed_plain.
Print Assumptions C14_greenlisted_plain.
Print Assumptions C16_plain.
Print Assumptions C17_plain.
Print Assumptions C18_plain.
