(** * The exact effect of a dispatch without actions: proofs *)
From Verif Require Import Base RouteFlags Dispatch DispatchProofs DispatchSpec.
Open Scope N_scope.

Lemma incr_up : forall n, n <= u16_max -> fst (incr_safely u16_max n) = up n.
Proof. intros n H. unfold incr_safely, up. unfold u16_max in *. destruct (N.ltb_spec (65535 - n) 1); cbn [fst]; lia. Qed.
Lemma decr_down : forall n, fst (decr_safely u16_max n) = down n.
Proof. intros n. unfold decr_safely, down. destruct (N.ltb_spec n 1); cbn [fst]; lia. Qed.

Section Stages.
  Variable now : Z.
  Variable c : econfig.
  Variable policy : N.
  Variable r : rstate.
  Variable given ar : N.
  Hypothesis HB : forall k, has ar k = B c given k.
  Hypothesis H1 : s_derog r <= u16_max.
  Hypothesis H2 : s_commend r <= u16_max.
  Hypothesis H3 : c_max_conns c <= u16_max.

  Definition counted_route : rstate :=
    mkR (s_flags r) (observed_derogatory c r given) (observed_commendable c r given) (connections c r given) (s_hits r) (s_last_hit r) (s_boxed_at r).
  Lemma connect_exact : forall s, s_conns s = s_conns r ->
    connect c s = if c_max_conns c <=? s_conns r then (s, false) else (set_conns s (s_conns r + 1), true).
  Proof.
    intros s E. unfold connect. rewrite E. unfold u16_max in H3. destruct (N.leb_spec (c_max_conns c) (s_conns r)); [reflexivity|].
    rewrite N.mod_small by lia. destruct (N.ltb_spec (c_max_conns c) (s_conns r + 1)); [lia|reflexivity].
  Qed.
  Lemma count_exact : count c r (s_flags r) ar =
    (counted_route, if refused_connection c r given then N.setbit ar AR_REJECT else ar, refused_connection c r given).
  Proof.
    unfold count. rewrite !HB.
    unfold counted_route, observed_derogatory, observed_commendable, connections, refused_connection, tracked, counted_event, clearing, flag.
    destruct (B c given AR_INSERTED); [destruct r; reflexivity|]. destruct (B c given AR_FALLTHROUGH); [destruct r; reflexivity|]. cbn [orb negb andb]. cbv zeta.
    destruct (B c given AR_DEROGATORY); rewrite ?connect_exact by reflexivity; cbn [set_derog s_derog s_commend s_conns s_flags s_hits s_last_hit s_boxed_at];
      rewrite ?incr_up, ?decr_down by assumption;
      (destruct (has (s_flags r) RF_DONT_COUNT_CONN); [|destruct (B c given AR_CONNECT); [destruct (c_max_conns c <=? s_conns r)|destruct (B c given AR_DISCONNECT)]]);
      cbn [set_conns set_derog set_commend negb andb orb s_derog s_commend s_conns s_flags s_hits s_last_hit s_boxed_at];
      (destruct (B c given AR_COMMENDABLE); [destruct (has (c_flags c) EC_COMMENDABLE_CLEARS)|]);
      cbn [set_conns set_derog set_commend negb andb orb s_derog s_commend s_conns s_flags s_hits s_last_hit s_boxed_at];
      rewrite ?incr_up by assumption; try reflexivity; destruct r; reflexivity.
  Qed.

  Definition lift (k : bool) (s : rstate) : rstate := if k then unboxed s else s.
  Lemma unbox_changes : forall s, has (s_flags s) RF_PENALTYBOXED = true -> (s_flags s =? s_flags (unboxed s)) = false.
  Proof.
    intros s H. apply N.eqb_neq. intros E. assert (K : has (s_flags (unboxed s)) RF_PENALTYBOXED = true) by (rewrite <- E; exact H).
    rewrite unboxed_flags, N.eqb_refl, andb_false_r in K. discriminate K.
  Qed.
  Lemma box_changes : forall s clock, has (s_flags s) RF_PENALTYBOXED = false -> (s_flags s =? s_flags (boxed s clock)) = false.
  Proof.
    intros s clock H. apply N.eqb_neq. intros E. assert (K : has (s_flags (boxed s clock)) RF_PENALTYBOXED = false) by (rewrite <- E; exact H).
    rewrite boxed_flags, N.eqb_refl, orb_true_r in K. discriminate K.
  Qed.
  Lemma release_exact : forall clock s, s_flags s = s_flags r -> s_boxed_at s = s_boxed_at r -> refused_connection c r given = false ->
    release c now clock s (s_flags s) ar =
    (lift (released now c r given) s, s_flags (lift (released now c r given) s), if released now c r given then N.setbit ar AR_UPDATE else ar).
  Proof.
    intros clock s EF EB NR. unfold release, released, time_over, clearing, flag. cbv zeta. rewrite NR, !HB. cbn [negb andb].
    rewrite <- EF, <- EB. destruct (has (s_flags s) RF_PENALTYBOXED) eqn:PB; cbn [andb lift]; [|rewrite ?PB; reflexivity].
    destruct (B c given AR_COMMENDABLE && has (c_flags c) EC_COMMENDABLE_CLEARS); cbn [orb].
    - rewrite unbox_eq, unbox_changes by exact PB. rewrite unboxed_flags, N.eqb_refl, andb_false_r. cbn [andb lift]. reflexivity.
    - rewrite PB. cbn [andb]. replace (c_box_duration c >? 0)%Z with (0 <? c_box_duration c)%Z by (rewrite Z.gtb_ltb; reflexivity).
      rewrite Z.gtb_ltb. destruct (_ && _); cbn [andb lift]; [|reflexivity]. destruct (_ <? _)%Z; cbn [lift]; [|reflexivity].
      rewrite unbox_eq, unbox_changes by exact PB. reflexivity.
  Qed.
  Lemma threshold_exact : forall s, s_derog s = observed_derogatory c r given -> s_commend s = observed_commendable c r given ->
    over_threshold c s = bad_standing c r given.
  Proof.
    intros s E1 E2. unfold over_threshold, bad_standing. rewrite E1, E2. f_equal. destruct (has _ EC_IGNORE_COMMENDABLE); [reflexivity|].
    destruct (Z.leb_spec (Z.of_N (c_threshold c)) (Z.of_N (observed_derogatory c r given) - Z.of_N (observed_commendable c r given)));
      destruct (N.leb_spec (c_threshold c + observed_commendable c r given) (observed_derogatory c r given)); lia || reflexivity.
  Qed.
  Lemma undecided_off : refused_connection c r given = true \/ still_boxed now c r given = true \/ boxed_now now c r given = true \/ flag r RF_GREENLISTED = true ->
    undecided now c r given = false.
  Proof.
    unfold undecided. intros [->|[->|[->| ->]]]; cbn [negb]; rewrite ?andb_false_r; reflexivity.
  Qed.

  Lemma verdict_exact : forall clock, let '(s', ar') := verdict c policy now clock r (s_flags r) ar in
    s_last_hit r = now -> effect now c policy r given clock s' ar'.
  Proof.
    intros clock. unfold verdict. rewrite count_exact.
    destruct (refused_connection c r given) eqn:RF.
    - (* over the limit *)
      assert (UD : undecided now c r given = false) by (apply undecided_off; auto).
      assert (BN : boxed_now now c r given = false) by (unfold boxed_now; rewrite RF; reflexivity).
      assert (RL : released now c r given = false) by (unfold released; rewrite RF; reflexivity).
      assert (GR : green now c r given = false) by (unfold green; rewrite RF; reflexivity).
      assert (RJ : rejected now c policy r given = true) by (unfold rejected; rewrite RF; rewrite orb_true_r; reflexivity).
      rewrite set_same. cbn [andb]. intros LH.
      assert (W : forall k, k <> AR_REJECT -> k <> AR_PORT_RESET -> has (if has (s_flags r) RF_PORT_RESET then N.setbit (N.setbit ar AR_REJECT) AR_PORT_RESET else N.setbit ar AR_REJECT) k = B c given k).
      { intros k K1 K2. destruct (has (s_flags r) RF_PORT_RESET); rewrite ?set_other by congruence; apply HB. }
      split; cbn [counted_route s_last_hit s_hits s_conns s_derog s_commend s_flags s_boxed_at]; rewrite ?BN, ?RL, ?GR, ?UD, ?RJ; cbn [negb andb orb]; rewrite ?andb_true_r, ?orb_false_r;
        try reflexivity; try assumption; try (apply W; discriminate).
      + destruct clock; reflexivity.
      + destruct (has (s_flags r) RF_PORT_RESET); [rewrite set_other by discriminate|]; apply set_same.
      + unfold flag. destruct (has (s_flags r) RF_PORT_RESET); [rewrite set_same, orb_true_r; reflexivity|]. rewrite set_other, HB, orb_false_r by discriminate. reflexivity.
      + intros k NK. rewrite W; [rewrite orb_false_r; reflexivity|intros ->; apply NK; cbn; auto 10|intros ->; apply NK; cbn; auto 10].
    - change (s_flags r) with (s_flags counted_route) at 1. rewrite release_exact by (reflexivity || exact RF).
      set (s1 := lift (released now c r given) counted_route).
      assert (F1 : forall k, has (s_flags s1) k = flag r k && negb (released now c r given && (RF_PENALTYBOXED =? k))).
      { intros k. unfold s1, lift. destruct (released now c r given); cbn [andb negb]; [rewrite unboxed_flags; reflexivity|rewrite andb_true_r; reflexivity]. }
      assert (D1 : s_derog s1 = observed_derogatory c r given /\ s_commend s1 = observed_commendable c r given /\ s_conns s1 = connections c r given /\
                   s_hits s1 = s_hits r /\ s_last_hit s1 = s_last_hit r /\ s_boxed_at s1 = s_boxed_at r) by (unfold s1, lift; destruct (released now c r given); repeat split; reflexivity).
      destruct D1 as (D1 & D2 & D3 & D4 & D5 & D6).
      set (ar1 := if released now c r given then N.setbit ar AR_UPDATE else ar).
      assert (A1 : forall k, has ar1 k = B c given k || (released now c r given && (AR_UPDATE =? k))).
      { intros k. unfold ar1. destruct (released now c r given); cbn [andb]; [|rewrite orb_false_r; apply HB].
        destruct (N.eqb_spec AR_UPDATE k) as [<-|NE]; [rewrite set_same, orb_true_r; reflexivity|rewrite set_other, HB, orb_false_r by congruence; reflexivity]. }
      assert (SB : has (s_flags s1) RF_PENALTYBOXED = still_boxed now c r given) by (rewrite F1, N.eqb_refl, andb_true_r; reflexivity).
      unfold decide. rewrite SB.
      assert (RE : released now c r given = true -> still_boxed now c r given = false) by (unfold still_boxed; intros ->; apply andb_false_r).
      (* what the last step adds *)
      assert (FIN : forall s' ar2 ud bx,
        ud = undecided now c r given -> bx = boxed_now now c r given ->
        s_last_hit s' = s_last_hit r -> s_hits s' = s_hits r -> s_conns s' = connections c r given ->
        s_derog s' = (if bx then 0 else observed_derogatory c r given) -> s_commend s' = (if bx then 0 else observed_commendable c r given) ->
        (forall k, has (s_flags s') k = has (s_flags s1) k || (bx && (RF_PENALTYBOXED =? k))) ->
        s_boxed_at s' = match clock with Some t => if bx then t else s_boxed_at r | None => s_boxed_at r end ->
        (forall k, has ar2 k = B c given k || ((released now c r given || bx) && (AR_UPDATE =? k)) || ud && has policy k || ud && (AR_FALLTHROUGH =? k)
                    || (still_boxed now c r given || bx) && (AR_REJECT =? k) || green now c r given && (AR_ACCEPT =? k)) ->
        s_last_hit r = now -> effect now c policy r given clock s' (if has ar2 AR_REJECT && has (s_flags s') RF_PORT_RESET then N.setbit ar2 AR_PORT_RESET else ar2)).
      { intros s' ar2 ud bx EU EX L1 L2 L3 L4 L5 L6 L7 L8 LH.
        assert (RJ : has ar2 AR_REJECT = rejected now c policy r given).
        { rewrite L8. unfold rejected. rewrite RF, EU, EX. change (AR_UPDATE =? AR_REJECT) with false. change (AR_FALLTHROUGH =? AR_REJECT) with false.
          change (AR_ACCEPT =? AR_REJECT) with false. rewrite N.eqb_refl. cbn [negb andb]. rewrite !andb_false_r, !andb_true_r, !orb_false_r.
          destruct (B c given AR_REJECT), (undecided now c r given && has policy AR_REJECT), (still_boxed now c r given), (boxed_now now c r given); reflexivity. }
        assert (PR : has (s_flags s') RF_PORT_RESET = flag r RF_PORT_RESET).
        { rewrite L6, F1. change (RF_PENALTYBOXED =? RF_PORT_RESET) with false. rewrite !andb_false_r, orb_false_r. apply andb_true_r. }
        rewrite RJ, PR.
        assert (W : forall k, k <> AR_PORT_RESET -> has (if rejected now c policy r given && flag r RF_PORT_RESET then N.setbit ar2 AR_PORT_RESET else ar2) k = has ar2 k).
        { intros k NK. destruct (_ && _); [apply set_other; congruence|reflexivity]. }
        split; rewrite <- ?EX, <- ?EU.
        - congruence.
        - exact L2.
        - exact L3.
        - exact L4.
        - exact L5.
        - rewrite L6, SB, N.eqb_refl, andb_true_r. reflexivity.
        - intros k NK. rewrite L6, F1. replace (RF_PENALTYBOXED =? k) with false by (symmetry; apply N.eqb_neq; congruence). rewrite !andb_false_r, orb_false_r. apply andb_true_r.
        - exact L7.
        - rewrite W by discriminate. exact RJ.
        - rewrite W, L8 by discriminate. change (AR_UPDATE =? AR_ACCEPT) with false. change (AR_FALLTHROUGH =? AR_ACCEPT) with false. change (AR_REJECT =? AR_ACCEPT) with false.
          rewrite N.eqb_refl, !andb_false_r, !orb_false_r, andb_true_r. destruct (B c given AR_ACCEPT), (green now c r given), (ud && has policy AR_ACCEPT); reflexivity.
        - rewrite W, L8 by discriminate. change (AR_UPDATE =? AR_FALLTHROUGH) with false. change (AR_ACCEPT =? AR_FALLTHROUGH) with false. change (AR_REJECT =? AR_FALLTHROUGH) with false.
          rewrite N.eqb_refl, !andb_false_r, !orb_false_r, andb_true_r. destruct (B c given AR_FALLTHROUGH), ud, (has policy AR_FALLTHROUGH); reflexivity.
        - rewrite W, L8 by discriminate. change (AR_FALLTHROUGH =? AR_UPDATE) with false. change (AR_ACCEPT =? AR_UPDATE) with false. change (AR_REJECT =? AR_UPDATE) with false.
          rewrite N.eqb_refl, !andb_false_r, !orb_false_r, andb_true_r. destruct (B c given AR_UPDATE), (released now c r given), bx; reflexivity.
        - assert (P2 : has ar2 AR_PORT_RESET = B c given AR_PORT_RESET || ud && has policy AR_PORT_RESET).
          { rewrite L8. change (AR_UPDATE =? AR_PORT_RESET) with false. change (AR_FALLTHROUGH =? AR_PORT_RESET) with false. change (AR_ACCEPT =? AR_PORT_RESET) with false. change (AR_REJECT =? AR_PORT_RESET) with false.
            rewrite !andb_false_r, !orb_false_r. reflexivity. }
          destruct (rejected now c policy r given && flag r RF_PORT_RESET); [rewrite set_same, orb_true_r; reflexivity|rewrite P2, orb_false_r; reflexivity].
        - intros k NK. rewrite W by (intros ->; apply NK; cbn; auto 10). rewrite L8.
          replace (AR_UPDATE =? k) with false by (symmetry; apply N.eqb_neq; intros <-; apply NK; cbn; auto 10).
          replace (AR_FALLTHROUGH =? k) with false by (symmetry; apply N.eqb_neq; intros <-; apply NK; cbn; auto 10).
          replace (AR_ACCEPT =? k) with false by (symmetry; apply N.eqb_neq; intros <-; apply NK; cbn; auto 10).
          replace (AR_REJECT =? k) with false by (symmetry; apply N.eqb_neq; intros <-; apply NK; cbn; auto 10).
          rewrite !andb_false_r, !orb_false_r. reflexivity. }
      destruct (still_boxed now c r given) eqn:SBE.
      + intros LH. assert (BN : boxed_now now c r given = false) by (unfold boxed_now; rewrite SBE, andb_false_r; reflexivity).
        assert (GR : green now c r given = false) by (unfold green; rewrite SBE, andb_false_r; reflexivity).
        assert (UD : undecided now c r given = false) by (apply undecided_off; auto).
        assert (RL : released now c r given = false) by (destruct (released now c r given); [discriminate (RE eq_refl)|reflexivity]).
        apply (FIN s1 (N.setbit ar1 AR_REJECT) false false); try congruence; try assumption.
        * intros k. rewrite orb_false_r. reflexivity.
        * rewrite D6. destruct clock; reflexivity.
        * intros k. rewrite GR, RL. cbn [andb orb]. rewrite !orb_false_r. destruct (N.eqb_spec AR_REJECT k) as [<-|NE]; [rewrite set_same, orb_true_r; reflexivity|].
          rewrite set_other, A1, RL by congruence. cbn [andb]. rewrite !orb_false_r. reflexivity.
      + rewrite (threshold_exact s1 D1 D2). assert (BNE : boxed_now now c r given = bad_standing c r given) by (unfold boxed_now; rewrite RF, SBE; reflexivity).
        destruct (bad_standing c r given) eqn:BS.
        * rewrite box_eq, box_changes by exact SB. cbn [is_success]. intros LH.
          assert (UD : undecided now c r given = false) by (apply undecided_off; auto).
          assert (GR : green now c r given = false) by (unfold green; rewrite BNE, andb_false_r; reflexivity).
          assert (SF : s_flags (boxed s1 clock) = s_flags (set_commend (set_derog (boxed s1 clock) 0) 0)) by reflexivity. rewrite SF.
          apply (FIN _ (N.setbit (N.setbit ar1 AR_UPDATE) AR_REJECT) false true); try congruence.
          -- unfold boxed. rewrite SB. cbn. destruct clock; exact D5.
          -- unfold boxed. rewrite SB. cbn. destruct clock; exact D4.
          -- unfold boxed. rewrite SB. cbn. destruct clock; exact D3.
          -- reflexivity.
          -- reflexivity.
          -- intros k. cbn [set_commend set_derog s_flags]. rewrite boxed_flags. reflexivity.
          -- unfold boxed. rewrite SB. cbn. destruct clock; [reflexivity|exact D6].
          -- intros k. rewrite GR. cbn [andb orb]. rewrite !orb_true_r, !orb_false_r. cbn [andb].
             destruct (N.eqb_spec AR_REJECT k) as [<-|NE]; [rewrite set_same, orb_true_r; reflexivity|]. rewrite set_other, orb_false_r by congruence.
             destruct (N.eqb_spec AR_UPDATE k) as [<-|NE2]; [rewrite set_same, orb_true_r; reflexivity|]. rewrite set_other, A1, orb_false_r by congruence.
             replace (AR_UPDATE =? k) with false by (symmetry; apply N.eqb_neq; exact NE2). rewrite andb_false_r, orb_false_r. reflexivity.
        * assert (G1 : has (s_flags s1) RF_GREENLISTED = flag r RF_GREENLISTED).
          { rewrite F1. change (RF_PENALTYBOXED =? RF_GREENLISTED) with false. rewrite andb_false_r. apply andb_true_r. }
          rewrite G1. destruct (flag r RF_GREENLISTED) eqn:GF.
          -- intros LH. assert (UD : undecided now c r given = false) by (apply undecided_off; auto).
             assert (GR : green now c r given = true) by (unfold green; rewrite RF, SBE, BNE, GF; reflexivity).
             apply (FIN s1 (N.setbit ar1 AR_ACCEPT) false false); try congruence; try assumption.
             ++ intros k. rewrite orb_false_r. reflexivity.
             ++ rewrite D6. destruct clock; reflexivity.
             ++ intros k. rewrite GR. cbn [andb orb]. rewrite !orb_false_r. destruct (N.eqb_spec AR_ACCEPT k) as [<-|NE]; [rewrite set_same, orb_true_r; reflexivity|].
                rewrite set_other, A1, orb_false_r by congruence. reflexivity.
          -- assert (GR : green now c r given = false) by (unfold green; rewrite GF; apply andb_false_r).
             assert (AC : has ar1 AR_ACCEPT = B c given AR_ACCEPT) by (rewrite A1; change (AR_UPDATE =? AR_ACCEPT) with false; rewrite andb_false_r, orb_false_r; reflexivity).
             assert (AJ : has ar1 AR_REJECT = B c given AR_REJECT) by (rewrite A1; change (AR_UPDATE =? AR_REJECT) with false; rewrite andb_false_r, orb_false_r; reflexivity).
             rewrite AC, AJ. destruct (B c given AR_ACCEPT || B c given AR_REJECT) eqn:DE.
             ++ assert (UD : undecided now c r given = false).
                { unfold undecided. apply orb_true_iff in DE. destruct DE as [-> | ->]; cbn [negb]; rewrite ?andb_false_r; reflexivity. }
                intros LH. apply (FIN s1 ar1 false false); try congruence; try assumption.
                ** intros k. rewrite orb_false_r. reflexivity.
                ** rewrite D6. destruct clock; reflexivity.
                ** intros k. rewrite GR, A1. cbn [andb orb]. rewrite !orb_false_r. reflexivity.
             ++ apply orb_false_iff in DE. destruct DE as [DE1 DE2].
                assert (UD : undecided now c r given = true) by (unfold undecided; rewrite RF, SBE, BNE, GF, DE1, DE2; reflexivity).
                intros LH. apply (FIN s1 (N.lor (N.setbit ar1 AR_FALLTHROUGH) policy) true false); try congruence; try assumption.
                ** intros k. rewrite orb_false_r. reflexivity.
                ** rewrite D6. destruct clock; reflexivity.
                ** intros k. rewrite GR, has_lor. cbn [andb orb]. rewrite !orb_false_r. destruct (N.eqb_spec AR_FALLTHROUGH k) as [<-|NE]; [rewrite set_same, orb_true_r; reflexivity|].
                   rewrite set_other, A1, !orb_false_r by congruence. reflexivity.
  Qed.
End Stages.
