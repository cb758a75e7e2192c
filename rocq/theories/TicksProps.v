(** Timed waits on FreeRTOS: the theorems (C72). *)
From Verif Require Import Base TimeConv Ticks TicksSpec.
Open Scope Z_scope.

Lemma now_facts : forall hz t, 0 < hz -> 0 <= t ->
  exists s n, freertos_now hz t = (s, n) /\ s = t / hz /\ 0 <= s /\ 0 <= n < ns_per_s /\
    (s * ns_per_s + n) * hz <= t * ns_per_s < (s * ns_per_s + n + 1) * hz.
Proof.
  intros hz t H T. do 2 eexists. split; [reflexivity|].
  assert (NS : ns_per_s = 1000000000) by reflexivity.
  rewrite (Z.quot_div_nonneg t hz), (Z.rem_mod_nonneg t hz) by lia.
  pose proof (Z.mod_pos_bound t hz H) as M.
  assert (PP : 0 <= t mod hz * ns_per_s) by nia.
  rewrite (Z.quot_div_nonneg (t mod hz * ns_per_s) hz) by lia.
  pose proof (Z.div_mod t hz ltac:(lia)) as D. pose proof (Z.div_mod (t mod hz * ns_per_s) hz ltac:(lia)) as D2.
  pose proof (Z.mod_pos_bound (t mod hz * ns_per_s) hz H) as M2.
  assert (0 <= t / hz) by (apply Z.div_pos; lia).
  assert (0 <= t mod hz * ns_per_s / hz) by (apply Z.div_pos; lia).
  set (q := t / hz) in *. set (m := t mod hz) in *. set (r := m * ns_per_s / hz) in *. set (w := (m * ns_per_s) mod hz) in *.
  split; [reflexivity|]. split; [lia|]. rewrite NS in *. split; nia.
Qed.

Lemma ceil_quot : forall n p, 0 <= n -> 0 < p ->
  let c := Z.quot n p + (if Z.rem n p =? 0 then 0 else 1) in n <= c * p < n + p /\ 0 <= c.
Proof.
  intros n p N P c. pose proof (Z.quot_rem' n p) as Q. pose proof (Z.rem_bound_pos n p N P) as R.
  assert (0 <= Z.quot n p) by (apply Z.quot_pos; lia).
  unfold c. destruct (Z.eqb_spec (Z.rem n p) 0); nia.
Qed.

Lemma tick_pos : forall hz, 0 < hz <= ns_per_s -> 0 < ns_per_tick hz /\ ns_per_tick hz * hz <= ns_per_s.
Proof.
  intros hz H. unfold ns_per_tick. assert (NS : ns_per_s = 1000000000) by reflexivity.
  rewrite Z.quot_div_nonneg by lia. pose proof (Z.mul_div_le ns_per_s hz ltac:(lia)).
  assert (0 < ns_per_s / hz) by (apply Z.div_str_pos; lia). split; [lia|nia].
Qed.


Lemma ticks_facts : forall hz ds dn st dl, 0 < hz <= ns_per_s -> 0 <= ds -> 0 <= dn < ns_per_s -> hz * (ds + 2) < 2 ^ 32 - 1 ->
  to_ticks hz (ds, dn) = Some (st, dl) ->
  st = 0 /\ 0 <= dl < max_delay /\ exists c, dl = hz * ds + c /\ 0 <= c /\ dn <= c * ns_per_tick hz < dn + ns_per_tick hz.
Proof.
  intros hz ds dn st dl H D1 D2 NR D. destruct (tick_pos hz H) as [P1 P2].
  unfold to_ticks, validate in D. cbn [fst snd] in D.
  assert (G2 : (0 <=? dn) && (dn <? ns_per_s) = true) by lia. rewrite G2 in D. cbn [negb] in D.
  destruct (ceil_quot dn (ns_per_tick hz) ltac:(lia) P1) as [K1 K0]. cbv zeta in K1, K0.
  set (c := Z.quot dn (ns_per_tick hz) + (if Z.rem dn (ns_per_tick hz) =? 0 then 0 else 1)) in *. cbv zeta in D.
  destruct (in_i64 (hz * ds) && in_i64 (hz * ds + c)) eqn:I64; [|discriminate].
  assert (LT : ns_per_s < (ns_per_tick hz + 1) * hz).
  { unfold ns_per_tick. rewrite Z.quot_div_nonneg by (unfold ns_per_s; lia).
    pose proof (Z.mul_succ_div_gt ns_per_s hz ltac:(lia)). lia. }
  set (p := ns_per_tick hz) in *.
  assert (CB : c <= 2 * hz).
  { assert (X : c * p < (2 * hz + 1) * p) by nia. apply Z.mul_lt_mono_pos_r in X; lia. }
  assert (A1 : 0 <= hz * ds) by (apply Z.mul_nonneg_nonneg; lia).
  assert (tot1 : hz * ds + c < 2 ^ 32 - 1) by lia.
  unfold max_delay in *. change (2 ^ 32) with 4294967296 in *.
  assert (Q1 : (hz * ds + c <? 0) = false) by lia. assert (Q2 : (4294967296 - 1 <? hz * ds + c) = false) by lia.
  rewrite Q1, Q2 in D. rewrite Z.mod_small in D by lia.
  assert (st = 0) by congruence. assert (dl = hz * ds + c) by congruence. subst. split; [reflexivity|]. split; [lia|].
  exists c. auto.
Qed.

Lemma arrive : forall hz t D N ds dn c p, 0 < hz -> 0 <= c -> 0 < p -> p * hz <= ns_per_s -> ds * ns_per_s + dn = D - N ->
  N * hz <= t * ns_per_s < (N + 1) * hz -> dn <= c * p < dn + p ->
  D * hz <= (t + (hz * ds + c)) * ns_per_s /\
  (p * hz = ns_per_s -> (t + (hz * ds + c) - 1) * ns_per_s < D * hz).
Proof.
  intros hz t D N ds dn c p H C P PH E [N1 N2] [K1 K2].
  assert (D = N + ds * ns_per_s + dn) by lia. subst D. clear E. split.
  - assert (X1 : dn * hz <= c * p * hz) by (apply Z.mul_le_mono_nonneg_r; lia).
    assert (X2 : c * (p * hz) <= c * ns_per_s) by (apply Z.mul_le_mono_nonneg_l; lia).
    replace ((N + ds * ns_per_s + dn) * hz) with (N * hz + hz * ds * ns_per_s + dn * hz) by ring.
    replace ((t + (hz * ds + c)) * ns_per_s) with (t * ns_per_s + hz * ds * ns_per_s + c * ns_per_s) by ring.
    replace (c * p * hz) with (c * (p * hz)) in X1 by ring. lia.
  - intros Q. rewrite <- Q in N2, N1.
    assert (NE : t * p < N + 1).
    { replace (t * (p * hz)) with (t * p * hz) in N2 by ring. apply Z.mul_lt_mono_pos_r in N2; lia. }
    assert (X : (t + c - 1) * p < N + dn) by (replace ((t + c - 1) * p) with (t * p + c * p - p) by ring; lia).
    assert (X2 : (t + c - 1) * p * hz < (N + dn) * hz) by (apply Z.mul_lt_mono_pos_r; lia).
    rewrite <- Q. replace ((t + (hz * ds + c) - 1) * (p * hz)) with ((t + c - 1) * p * hz + ds * (p * hz) * hz) by ring.
    replace ((N + ds * (p * hz) + dn) * hz) with ((N + dn) * hz + ds * (p * hz) * hz) by ring. lia.
Qed.

(** The delay computed for a valid deadline that is near. *)
Lemma delay_facts : forall hz t d st dl, 0 < hz <= ns_per_s -> 0 <= t -> valid d -> near hz t d ->
  delay_of hz t (Some d) = Some (st, dl) ->
  (st = ETIMEDOUT /\ dl = 0 /\ reached hz t d) \/
  (st = 0 /\ 0 <= dl < max_delay /\ reached hz (t + dl) d /\
   (ns_per_tick hz * hz = ns_per_s -> dl = 0 \/ ~ reached hz (t + dl - 1) d)).
Proof.
  intros hz t [a b] st dl H T V NR D. unfold valid in V. cbn [snd fst] in *.
  destruct (now_facts hz t ltac:(lia) T) as (s & n & E & SQ & S0 & N0 & NB).
  destruct (tick_pos hz H) as [P1 P2].
  unfold near in NR. cbn [fst] in NR. rewrite <- SQ in NR.
  unfold delay_of in D. unfold validate in D. cbn [snd] in D.
  assert (G : (0 <=? b) && (b <? ns_per_s) = true) by lia. rewrite G in D. cbn [negb] in D.
  rewrite E in D. unfold delta_ticks, subtract, compare in D. cbn [fst snd] in D.
  unfold reached. cbn [fst snd].
  assert (POS : forall ds dn, 0 <= ds <= a - s -> 0 <= dn < ns_per_s -> ds * ns_per_s + dn = (a * ns_per_s + b) - (s * ns_per_s + n) ->
     match to_ticks hz (ds, dn) with None => None | Some (st, d) => Some (st, if st =? ETIMEDOUT then 0 else d) end = Some (st, dl) ->
     st = 0 /\ 0 <= dl < max_delay /\ (a * ns_per_s + b) * hz <= (t + dl) * ns_per_s /\
     (ns_per_tick hz * hz = ns_per_s -> dl = 0 \/ ~ (a * ns_per_s + b) * hz <= (t + dl - 1) * ns_per_s)).
  { intros ds dn Q1 Q2 Q3 Q4. destruct (to_ticks hz (ds, dn)) as [[st' dl']|] eqn:Q5; [|discriminate].
    destruct (ticks_facts hz ds dn st' dl' H ltac:(lia) Q2 ltac:(clear - NR Q1 H; nia) Q5) as (R1 & R2 & c & R3 & R4 & R5).
    subst st'. change (0 =? ETIMEDOUT) with false in Q4. cbv iota in Q4.
    assert (st = 0) by congruence. assert (dl = dl') by congruence. subst st dl. rewrite R3 in *.
    destruct (arrive hz t (a * ns_per_s + b) (s * ns_per_s + n) ds dn c (ns_per_tick hz)) as [W1 W2]; [lia|lia|exact P1|exact P2|exact Q3|exact NB|exact R5|].
    split; [reflexivity|]. split; [exact R2|]. split; [exact W1|]. intros Q. right. specialize (W2 Q). lia. }
  destruct (s <? a) eqn:C1.
  - right. change (1 =? -1) with false in D. change (1 =? 0) with false in D. cbv iota zeta in D.
    destruct (b - n <? 0) eqn:C2; cbv iota beta zeta in D.
    + assert (C4 : (b - n + ns_per_s <? 0) = false) by lia. rewrite C4 in D.
      change (0 =? 1) with false in D. change (0 =? -1) with false in D. cbv iota in D.
      apply (POS (a - s - 1) (b - n + ns_per_s)); [lia|lia|ring|exact D].
    + rewrite C2 in D.
      change (0 =? 1) with false in D. change (0 =? -1) with false in D. cbv iota in D.
      apply (POS (a - s) (b - n)); [lia|lia|ring|exact D].
  - destruct (a <? s) eqn:C2.
    + left. change (-1 =? -1) with true in D. cbv iota zeta in D. change (1 =? 1) with true in D. cbv iota in D.
      change (ETIMEDOUT =? ETIMEDOUT) with true in D. cbv iota in D.
      split; [congruence|]. split; [congruence|]. destruct NB as [NB _].
      assert (X : (a * ns_per_s + b) * hz <= (s * ns_per_s + n) * hz).
      { apply Z.mul_le_mono_nonneg_r; [lia|]. assert (a + 1 <= s) by lia.
        assert ((a + 1) * ns_per_s <= s * ns_per_s) by (apply Z.mul_le_mono_nonneg_r; lia). lia. }
      lia.
    + assert (a = s) by lia. subst a. destruct (n <? b) eqn:C3.
      * right. change (1 =? -1) with false in D. change (1 =? 0) with false in D. cbv iota zeta in D.
        assert (C4 : (b - n <? 0) = false) by lia. rewrite C4 in D. cbv iota beta zeta in D.
        change (0 =? 1) with false in D. change (0 =? -1) with false in D. rewrite C4 in D. cbv iota in D.
        change (0 =? 1) with false in D. change (0 =? -1) with false in D. cbv iota in D.
        apply (POS (s - s) (b - n)); [lia|lia|ring|exact D].
      * destruct (b <? n) eqn:C4.
        -- left. change (-1 =? -1) with true in D. cbv iota zeta in D. change (1 =? 1) with true in D. cbv iota in D.
           change (ETIMEDOUT =? ETIMEDOUT) with true in D. cbv iota in D.
           split; [congruence|]. split; [congruence|]. destruct NB as [NB _].
           assert (X : (s * ns_per_s + b) * hz <= (s * ns_per_s + n) * hz) by (apply Z.mul_le_mono_nonneg_r; lia). lia.
        -- right. change (0 =? -1) with false in D. change (0 =? 0) with true in D. cbv iota zeta in D.
           change (0 =? 1) with false in D. cbv iota in D.
           apply (POS 0 0); [lia|unfold ns_per_s; lia|lia|exact D].
Qed.

Lemma subtract_facts : forall a b s n st ds dn, 0 <= b < ns_per_s -> 0 <= n < ns_per_s -> st <> 1 ->
  subtract (a, b) (s, n) = (st, (ds, dn)) -> 0 <= ds <= Z.max 0 (a - s) /\ 0 <= dn.
Proof.
  intros a b s n st ds dn V N0 N1 SB. unfold subtract in SB. cbn [fst snd] in SB.
  destruct (compare (a, b) (s, n) =? -1) eqn:K1; [exfalso; congruence|].
  destruct (compare (a, b) (s, n) =? 0) eqn:K2.
  { assert (ds = 0) by congruence. assert (dn = 0) by congruence. lia. }
  assert (G : s < a \/ (s = a /\ n < b)).
  { unfold compare in K1, K2. cbn [fst snd] in K1, K2.
    destruct (s <? a) eqn:C1; [lia|]. destruct (a <? s) eqn:C2; [discriminate|]. destruct (n <? b) eqn:C3; [lia|].
    destruct (b <? n); discriminate. }
  destruct (b - n <? 0) eqn:C5.
  - assert (ds = a - s - 1) by congruence. assert (dn = b - n + ns_per_s) by congruence. lia.
  - assert (ds = a - s) by congruence. assert (dn = b - n) by congruence. lia.
Qed.

Lemma delay_defined : forall hz t d, 0 < hz <= ns_per_s -> 0 <= t -> valid d -> near hz t d -> delay_of hz t (Some d) <> None.
Proof.
  intros hz t [a b] H T V NR. unfold valid in V. cbn [snd fst] in *.
  destruct (now_facts hz t ltac:(lia) T) as (s & n & E & SQ & S0 & N0 & NB). destruct (tick_pos hz H) as [P1 P2].
  unfold near in NR. cbn [fst] in NR. rewrite <- SQ in NR.
  unfold delay_of, delta_ticks. rewrite E. destruct (negb (validate (a, b))); [discriminate|].
  destruct (subtract (a, b) (s, n)) as [st [ds dn]] eqn:SB.
  destruct (Z.eqb_spec st 1); [discriminate|]. destruct (Z.eqb_spec st (-1)); [discriminate|].
  assert (F : 0 <= ds <= Z.max 0 (a - s) /\ 0 <= dn).
  { apply (subtract_facts a b s n st ds dn); auto; lia. }
  unfold to_ticks. destruct (negb (validate (ds, dn))) eqn:VD; [discriminate|].
  unfold validate in VD. cbn [snd fst] in *.
  destruct (ceil_quot dn (ns_per_tick hz) ltac:(lia) P1) as [K1 K0]. cbv zeta in K1, K0. cbv zeta.
  set (c := Z.quot dn (ns_per_tick hz) + (if Z.rem dn (ns_per_tick hz) =? 0 then 0 else 1)) in *.
  assert (CN : c <= ns_per_s) by (clear - K1 P1 VD; assert (dn < ns_per_s) by lia; nia).
  assert (X : 0 <= hz * ds <= 4294967295 + ns_per_s * 2).
  { split; [nia|]. change (2 ^ 32 - 1) with 4294967295 in NR. destruct (Z.max_spec 0 (a - s)) as [[Q1 Q2]|[Q1 Q2]]; rewrite Q2 in F; nia. }
  assert (I1 : in_i64 (hz * ds) = true) by (unfold in_i64, i64_min, i64_max, ns_per_s in *; lia).
  assert (I2 : in_i64 (hz * ds + c) = true) by (unfold in_i64, i64_min, i64_max, ns_per_s in *; lia).
  rewrite I1, I2. discriminate.
Qed.

(** A wait that gives up does so at the deadline or later, on every tick rate up to 10^9, and says that it timed out; the wait for
    a near deadline always ends. *)
Theorem C72_not_early_partial : forall hz t d avail, 0 < hz <= ns_per_s -> 0 <= t -> valid d -> near hz t d ->
  exists out, timedwait hz t (Some d) avail = Some out /\ out <> Forever /\
  (forall e after, out = Failed e after -> e = ETIMEDOUT /\ reached hz (t + after) d).
Proof.
  intros hz t d avail H T V NR. unfold timedwait. pose proof (delay_defined hz t d H T V NR) as DD.
  destruct (delay_of hz t (Some d)) as [[st dl]|] eqn:D; [|contradiction]. eexists. split; [reflexivity|].
  pose proof (delay_facts hz t d st dl H T V NR D) as F.
  assert (G : dl <> max_delay /\ (if st =? 0 then ETIMEDOUT else st) = ETIMEDOUT /\ reached hz (t + dl) d).
  { destruct F as [(-> & -> & R)|(-> & R1 & R2 & _)].
    - split; [discriminate|]. split; [reflexivity|]. rewrite Z.add_0_r. exact R.
    - split; [lia|]. split; [reflexivity|exact R2]. }
  destruct G as (G1 & -> & G3). unfold take. destruct (Z.eqb_spec dl max_delay); [contradiction|].
  destruct avail as [w|]; [destruct ((w <=? dl) || false)|]; (split; [discriminate|]); intros e after X; try discriminate;
    (assert (e = ETIMEDOUT) by congruence; assert (after = dl) by congruence; subst; auto).
Qed.
(** Where ticks are whole nanoseconds, it ends at the first tick not before the deadline: no later. *)
Theorem C72_not_late_partial : forall hz t d avail e after, 0 < hz <= ns_per_s -> (hz | ns_per_s) -> 0 <= t -> valid d -> near hz t d ->
  timedwait hz t (Some d) avail = Some (Failed e after) -> after = 0 \/ ~ reached hz (t + after - 1) d.
Proof.
  intros hz t d avail e after H DV T V NR W. unfold timedwait in W.
  destruct (delay_of hz t (Some d)) as [[st dl]|] eqn:D; [|discriminate].
  assert (Q : ns_per_tick hz * hz = ns_per_s).
  { unfold ns_per_tick. rewrite Z.quot_div_nonneg by (unfold ns_per_s; lia). rewrite Z.mul_comm. symmetry.
    apply Z_div_exact_2; [lia|]. apply Z.mod_divide; [lia|exact DV]. }
  assert (after = dl).
  { unfold take in W. destruct avail; [destruct (_ || _)|destruct (dl =? max_delay)]; congruence. }
  subst. destruct (delay_facts hz t d st dl H T V NR D) as [(_ & -> & _)|(_ & _ & _ & F)]; auto.
Qed.
(** A semaphore that is available in time is taken, also at once when the deadline has passed. *)
Theorem C72_taken_partial : forall hz t d w, 0 < hz <= ns_per_s -> 0 <= t -> valid d -> near hz t d -> 0 <= w ->
  w = 0 \/ ~ reached hz (t + w - 1) d -> timedwait hz t (Some d) (Some w) = Some (Taken w).
Proof.
  intros hz t d w H T V NR W0 W. unfold timedwait. pose proof (delay_defined hz t d H T V NR) as DD.
  destruct (delay_of hz t (Some d)) as [[st dl]|] eqn:D; [|contradiction].
  unfold take. assert (w <= dl).
  { assert (G : 0 <= dl /\ reached hz (t + dl) d).
    { destruct (delay_facts hz t d st dl H T V NR D) as [(_ & -> & R)|(_ & R1 & R2 & _)]; [rewrite Z.add_0_r; split; [lia|exact R]|].
      split; [lia|exact R2]. }
    destruct G as [G1 G2]. destruct W as [->|W]; [lia|]. unfold reached in *. destruct (Z_le_gt_dec w dl); [assumption|].
    exfalso. apply W. assert (ns_per_s > 0) by reflexivity. nia. }
  assert (Q : (w <=? dl) = true) by lia. rewrite Q. reflexivity.
Qed.
(** Trying never blocks, at any tick count. *)
Theorem C72_try : forall hz t avail, 0 < hz <= ns_per_s -> 0 <= t ->
  trywait hz t avail = Some (match avail with Some w => if w <=? 0 then Taken w else Failed EAGAIN 0 | None => Failed EAGAIN 0 end).
Proof.
  intros hz t avail H T. unfold trywait, timedwait.
  assert (X : exists st, delay_of hz t (Some (0, 0)) = Some (st, 0) /\ (st = 0 \/ st = ETIMEDOUT)).
  { destruct (now_facts hz t ltac:(lia) T) as (s & n & E & SQ & S0 & N0 & NB).
    unfold delay_of. change (validate (0, 0)) with true. cbn [negb]. rewrite E. unfold delta_ticks, subtract, compare. cbn [fst snd].
    assert (C1 : (s <? 0) = false) by lia. rewrite C1. destruct (0 <? s) eqn:C2.
    { exists ETIMEDOUT. split; [reflexivity|auto]. }
    assert (C3 : (n <? 0) = false) by lia. rewrite C3. destruct (0 <? n) eqn:C4.
    { exists ETIMEDOUT. split; [reflexivity|auto]. }
    exists 0. split; [|auto]. change (0 =? -1) with false. change (0 =? 0) with true. cbv iota zeta.
    change (0 =? 1) with false. cbv iota. unfold to_ticks. change (validate (0, 0)) with true. cbn [negb fst snd].
    destruct (tick_pos hz H) as [P1 _]. rewrite Z.quot_0_l, Z.rem_0_l by lia. rewrite Z.mul_0_r. reflexivity. }
  destruct X as (st & -> & [->| ->]); unfold take; change (0 =? max_delay) with false; rewrite ?Bool.orb_false_r;
    destruct avail as [w|]; try destruct (w <=? 0); reflexivity.
Qed.
(** A deadline with an impossible number of nanoseconds is an error, without a wait. *)
Theorem C72_invalid : forall hz t d avail, ~ valid d ->
  timedwait hz t (Some d) avail = Some (match avail with Some w => if w <=? 0 then Taken w else Failed EINVAL 0 | None => Failed EINVAL 0 end).
Proof.
  intros hz t d avail V. unfold timedwait, delay_of. assert (E : validate d = false) by (unfold validate, valid in *; lia).
  rewrite E. cbn [negb]. unfold take. change (0 =? max_delay) with false. rewrite ?Bool.orb_false_r.
  destruct avail as [w|]; try destruct (w <=? 0); reflexivity.
Qed.

(** A deadline too far away for a tick count: not refused without a wait, nor waited for, but a wait of the low 32 bits, and EINVAL. *)
Theorem C72_far_refuted : exists hz t d, 0 < hz <= ns_per_s /\ 0 <= t /\ valid d /\
  timedwait hz t (Some d) None = Some (Failed EINVAL 704) /\ ~ reached hz (t + 704) d.
Proof.
  exists 1000, 0, (4294968, 0). split; [unfold ns_per_s; lia|]. split; [lia|]. split; [unfold valid, ns_per_s; cbn; lia|].
  split; [vm_compute; reflexivity|]. vm_compute. intros H. apply H. reflexivity.
Qed.
(** One exactly 2^32 - 1 ticks away is waited for without end. *)
Theorem C72_forever_refuted : exists hz t d, 0 < hz <= ns_per_s /\ 0 <= t /\ valid d /\
  timedwait hz t (Some d) None = Some Forever.
Proof.
  exists 1000, 0, (4294967, 295000000). split; [unfold ns_per_s; lia|]. split; [lia|]. split; [unfold valid, ns_per_s; cbn; lia|].
  vm_compute. reflexivity.
Qed.
(** A deadline far enough to overflow the product of seconds and tick rate is undefined. *)
Theorem C72_overflow_refuted : exists hz t d, 0 < hz <= ns_per_s /\ 0 <= t /\ valid d /\ fst d <= i64_max /\
  timedwait hz t (Some d) None = None.
Proof.
  exists 1000, 0, (9223372036854776, 0). split; [unfold ns_per_s; lia|]. split; [lia|]. split; [unfold valid, ns_per_s; cbn; lia|].
  split; [vm_compute; discriminate|]. vm_compute. reflexivity.
Qed.
(** On tick rates that do not divide 10^9 a wait can be ticks too long: the very bound of C72_not_late. *)
Theorem C72_late_refuted : exists hz t d e after, 0 < hz <= ns_per_s /\ 0 <= t /\ valid d /\ near hz t d /\
  timedwait hz t (Some d) None = Some (Failed e after) /\ 0 < after /\ reached hz (t + after - 1) d.
Proof.
  exists 32768, 0, (0, 999999999), ETIMEDOUT, 32769. split; [unfold ns_per_s; lia|]. split; [lia|].
  split; [unfold valid, ns_per_s; cbn; lia|]. split; [vm_compute; reflexivity|]. split; [vm_compute; reflexivity|].
  split; [lia|]. vm_compute. discriminate.
Qed.

(** Concrete cases: 100 ticks a second, tick 250, a deadline between two ticks, one in the past. *)
Example C72_example : timedwait 100 250 (Some (3, 1)) None = Some (Failed ETIMEDOUT 51) /\
  timedwait 100 250 (Some (2, 400000000)) (Some 0) = Some (Taken 0) /\ near 100 250 (3, 1) /\
  timedwait 100 250 (Some (2, 499999999)) None = Some (Failed ETIMEDOUT 0) /\ sem_wait 100 250 None = Some Forever.
Proof. vm_compute. repeat split; reflexivity. Qed.

Print Assumptions C72_not_early_partial.
Print Assumptions C72_not_late_partial.
Print Assumptions C72_taken_partial.
Print Assumptions C72_try.
Print Assumptions C72_invalid.
Print Assumptions C72_far_refuted.
Print Assumptions C72_forever_refuted.
Print Assumptions C72_overflow_refuted.
Print Assumptions C72_late_refuted.
