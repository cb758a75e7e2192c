(** * Limits on what callbacks get: proofs *)
Require Import ZArith List Bool Lia.
From Verif Require Import Json JsonProofs JsonChunks JsonLength JsonLimitSpec.
Import ListNotations.
Open Scope Z_scope.

Lemma tally_snoc : forall f log e, tally f (log ++ [e]) = tally f log + (if f e then 1 else 0).
Proof. intros. unfold tally. rewrite filter_app, app_length. cbn [filter]. destruct (f e); cbn [length]; lia. Qed.
Definition delta (t : jtype) : Z :=
  match t with JSON_ARRAY_BEG | JSON_OBJECT_BEG => 1 | JSON_ARRAY_END | JSON_OBJECT_END => -1 | _ => 0 end.
Lemma open_snoc : forall log t d, open_containers (log ++ [(t, d)]) = open_containers log + delta t.
Proof. intros. unfold open_containers. rewrite !tally_snoc. destruct t; cbn; lia. Qed.
Lemma values_snoc : forall log t d, values (log ++ [(t, d)]) = values log + (if is_closer_type t then 0 else 1).
Proof. intros. unfold values. rewrite tally_snoc. destruct t; cbn; lia. Qed.

Lemma respects_snoc : forall cfg log t d, respects cfg log -> sized cfg (t, d) ->
  at_most (max_total_values cfg) (values (log ++ [(t, d)])) ->
  0 <= open_containers (log ++ [(t, d)]) -> at_most (max_nesting_level cfg) (open_containers (log ++ [(t, d)])) ->
  respects cfg (log ++ [(t, d)]).
Proof.
  intros cfg log t d [A B C] S1 V N1 N2. split.
  - apply Forall_app. split; [exact A|]. constructor; [exact S1|constructor].
  - exact V.
  - intros before after E. destruct after as [|a after _] using rev_ind.
    + rewrite app_nil_r in E. subst before. split; assumption.
    + rewrite app_assoc in E. apply app_inj_tail in E. destruct E as [E _]. apply (C before after). exact E.
Qed.

Section P.
Context {U : Type}.
Variable cfg : jconfig.
Variable cb : jtype -> list Z -> (U * list event) -> Z * (U * list event).
Hypothesis CB : forall t d w, snd (snd (cb t d w)) = snd w ++ [(t, d)].
Notation parser := (parser (U * list event)).
Implicit Types p q : parser.
Hypothesis Hcfg : 0 <= max_number_len cfg /\ 0 <= max_string_len cfg /\ 0 <= max_key_len cfg.
Hypothesis NOFIX : forall t, fix_of cfg t = false.

Definition log p : list event := snd (p_user p).

(** ** The string buffer *)
Definition esc (s : Z) : Z :=
  if s =? 92 then 1 else if ABCD <? s then 6 - (s - ABCD) else if s =? ABCD - 1 then 1 else 0.
Definition debt p : Z := (if p_cp0 p =? 0 then 0 else 6) + esc (p_sub p).
Definition cp_ok p : Prop := (p_cp0 p <> 0 -> ABCD - 2 <= p_sub p) /\ (ABCD - 2 <= p_sub p <= ABCD -> p_cp0 p <> 0).
Lemma cp_zero : forall p, p_cp0 p = 0 -> (p_sub p < ABCD - 2 \/ ABCD < p_sub p) -> cp_ok p.
Proof. intros p H K. split; [congruence|lia]. Qed.
Definition buf_ok p : Prop := Z.of_nat (length (p_buf p)) + debt p <= consumed p - 1 /\ cp_ok p.

Definition ukeep p q : Prop :=
  p_err q = p_err p /\ p_pos q = p_pos p /\ p_vpos q = p_vpos p /\ p_vcount q = p_vcount p /\ p_nest q = p_nest p /\
  p_user q = p_user p /\ p_auto q = p_auto p.
Ltac uk := unfold ukeep; cbn; tauto.
Lemma ukeep_trans : forall p q r, ukeep p q -> ukeep q r -> ukeep p r.
Proof. unfold ukeep. intuition congruence. Qed.
(** Failing keeps the log. *)
Definition fails p q : Prop := p_err q < 0 /\ p_user q = p_user p.
Lemma fails_raise : forall p e x, e < 0 -> fails p (raise_at p e x).
Proof.
  intros p e x He. split; [apply raise_at_err; exact He|]. unfold raise_at. destruct (0 <=? p_err p); reflexivity.
Qed.
Lemma consumed_keep : forall p q, ukeep p q -> consumed q = consumed p.
Proof. intros p q (_ & A & B & _). unfold consumed. rewrite A, B. reflexivity. Qed.

Lemma utf8_len : forall c, Z.of_nat (length (utf8_of c)) <= 4.
Proof. intros c. unfold utf8_of. destruct (c <=? 127); [cbn; lia|]. destruct (c <=? 2047); [cbn; lia|]. destruct (c <=? 65535); cbn; lia. Qed.

Lemma ill_ok : forall ign p c p1 ok, ill_surrogate ign false p c = (p1, ok) ->
  if ok then p1 = buf_append p (utf8_of c) else fails p p1.
Proof.
  intros ign p c p1 ok H. unfold ill_surrogate in H. destruct ign; inversion H; subst; [reflexivity|].
  apply fails_raise. reflexivity.
Qed.

(** After the last digit of an escape: six bytes of input are owed. *)
Lemma escape_ok : forall ign p k, Z.of_nat (length (p_buf p)) + (if p_cp0 p =? 0 then 0 else 6) + 6 <= k ->
  match escape_done ign false p with
  | IStop p1 => fails p p1
  | INext p1 => ukeep p p1 /\ Z.of_nat (length (p_buf p1)) + debt p1 <= k /\ cp_ok p1
  | IReplay _ => False
  end.
Proof.
  intros ign p k HK. unfold escape_done. set (c1 := p_cp1 p).
  assert (LEN : forall q c, Z.of_nat (length (p_buf (buf_append q (utf8_of c)))) <= Z.of_nat (length (p_buf q)) + 4).
  { intros q c. cbn [p_buf buf_append with_buf]. rewrite app_length. pose proof (utf8_len c). lia. }
  assert (REST : forall q, ukeep p q -> Z.of_nat (length (p_buf q)) + (if p_cp0 q =? 0 then 0 else 6) + 6 <= k ->
    (p_cp0 q =? 0 = false -> is_lo c1 = true) ->
    match (if (p_cp0 q =? 0) && is_lo c1 then
             let '(p1, ok) := ill_surrogate ign false q c1 in
             if ok then INext (with_cp (with_sub p1 0) (p_cp0 p1) 0) else IStop p1
           else if negb (p_cp0 q =? 0) && is_lo c1 then
             let c := 65536 + (p_cp0 q - 55296) * 1024 + (c1 - 56320) in
             INext (with_cp (with_sub (buf_append q (utf8_of c)) 0) 0 0)
           else if is_hi c1 then INext (with_cp (with_sub q (ABCD - 2)) c1 0)
           else INext (with_cp (with_sub (buf_append q (utf8_of c1)) 0) (p_cp0 q) 0)) with
    | IStop p1 => fails p p1
    | INext p1 => ukeep p p1 /\ Z.of_nat (length (p_buf p1)) + debt p1 <= k /\ cp_ok p1
    | IReplay _ => False
    end).
  { intros q K HQ HL. destruct (p_cp0 q =? 0) eqn:E0; cbn [andb negb].
    - apply Z.eqb_eq in E0. destruct (is_lo c1).
      + destruct (ill_surrogate ign false q c1) as [p1 ok] eqn:EI. apply ill_ok in EI. destruct ok.
        * subst p1. split; [eapply ukeep_trans; [exact K|uk]|]. pose proof (LEN q c1) as L.
          unfold debt, cp_ok. cbn [p_buf p_cp0 p_sub with_cp with_sub buf_append with_buf] in *. rewrite E0. change (0 =? 0) with true. change (esc 0) with 0. cbv iota. split; [lia|split; [congruence|unfold ABCD; lia]].
        * destruct EI as [F1 F2]. split; [exact F1|]. destruct K as (_ & _ & _ & _ & _ & K & _). congruence.
      + destruct (is_hi c1) eqn:EH.
        * split; [eapply ukeep_trans; [exact K|uk]|]. unfold debt, cp_ok. cbn [p_buf p_cp0 p_sub with_cp with_sub].
          change (esc (ABCD - 2)) with 0. assert (N1 : c1 <> 0) by (intros E; rewrite E in EH; discriminate EH).
          split; [destruct (c1 =? 0); lia|split; [lia|intros _; exact N1]].
        * split; [eapply ukeep_trans; [exact K|uk]|]. pose proof (LEN q c1) as L.
          unfold debt, cp_ok. cbn [p_buf p_cp0 p_sub with_cp with_sub buf_append with_buf] in *. rewrite E0. change (0 =? 0) with true. change (esc 0) with 0. cbv iota. split; [lia|split; [congruence|unfold ABCD; lia]].
    - specialize (HL eq_refl). rewrite HL.
      split; [eapply ukeep_trans; [exact K|uk]|].
      match goal with |- context [utf8_of ?c] => pose proof (LEN q c) as L end.
      unfold debt, cp_ok. cbn [p_buf p_cp0 p_sub with_cp with_sub buf_append with_buf] in *. change (0 =? 0) with true. change (esc 0) with 0. cbv iota. split; [lia|split; [congruence|unfold ABCD; lia]]. }
  destruct (negb (p_cp0 p =? 0) && negb (is_lo c1)) eqn:E1.
  - destruct (ill_surrogate ign false p (p_cp0 p)) as [p1 ok] eqn:EI. apply ill_ok in EI. destruct ok; cbn [negb]; [|exact EI].
    subst p1. apply andb_prop in E1. destruct E1 as [E1 _]. apply negb_true_iff in E1. rewrite E1 in HK.
    apply REST; [uk| |discriminate]. pose proof (LEN p (p_cp0 p)) as L.
    cbn [p_buf p_cp0 with_cp buf_append with_buf] in *. change (0 =? 0) with true. cbv iota. lia.
  - cbn [negb]. apply REST; [uk|exact HK|]. intros E. rewrite E in E1. cbn [negb andb] in E1. apply negb_false_iff in E1. exact E1.
Qed.

Lemma esc_small : forall s, s <= 7 -> esc s = 0.
Proof.
  intros s H. unfold esc, ABCD. destruct (Z.eqb_spec s 92); [lia|]. destruct (Z.ltb_spec 43981 s); [lia|].
  destruct (Z.eqb_spec s (43981 - 1)); [lia|reflexivity].
Qed.

Lemma string_iter_ok : forall ign p c, buf_ok p ->
  match string_iter ign false p c with
  | IStop p1 => fails p p1
  | INext p1 => ukeep p p1 /\ buf_ok (advance p1 1)
  | IReplay p1 => ukeep p p1 /\ buf_ok p1
  end.
Proof.
  intros ign p c [HB HC].
  assert (Hr : forall e, e < 0 -> fails p (raise p e)) by (intros; apply fails_raise; assumption).
  assert (Hv : forall e, e < 0 -> fails p (raise_v p e)) by (intros; apply fails_raise; assumption).
  assert (NX : forall q, ukeep p q -> Z.of_nat (length (p_buf q)) + debt q <= consumed p -> cp_ok q -> ukeep p q /\ buf_ok (advance q 1)).
  { intros q K H1 H2. split; [exact K|]. split; [|exact H2]. rewrite consumed_advance, (consumed_keep _ _ K).
    change (p_buf (advance q 1)) with (p_buf q). change (debt (advance q 1)) with (debt q). lia. }
  assert (CPZ : p_sub p < ABCD - 2 -> p_cp0 p = 0).
  { intros L. destruct (Z.eq_dec (p_cp0 p) 0) as [E|E]; [exact E|]. destruct HC as [HC _]. specialize (HC E). lia. }
  assert (CZ : forall q, p_cp0 q = 0 -> p_sub q <= 92 -> cp_ok q).
  { intros q Q1 Q2. apply cp_zero; [exact Q1|left; unfold ABCD; lia]. }
  assert (DZ : forall q, p_cp0 q = 0 -> debt q = esc (p_sub q)).
  { intros q Q. unfold debt. rewrite Q. change (0 =? 0) with true. cbv iota. lia. }
  unfold string_iter.
  destruct (p_sub p =? 0) eqn:E0.
  { apply Z.eqb_eq in E0. pose proof (CPZ ltac:(rewrite E0; reflexivity)) as C0. rewrite (DZ p C0), E0 in HB. change (esc 0) with 0 in HB.
    destruct (is_control c).
    - destruct (_ || _); [apply Hv|apply Hr]; reflexivity.
    - destruct (c =? ch_bslash).
      { apply NX; [uk| |apply CZ; [exact C0|cbn [p_sub with_sub]; unfold ch_bslash; lia]].
        rewrite DZ by exact C0. cbn [p_sub p_buf with_sub]. change (esc ch_bslash) with 1. lia. }
      destruct (utf8_lead c) as [s|] eqn:EL.
      { assert (s <= 7). { unfold utf8_lead in EL. repeat match type of EL with (if ?b then _ else _) = _ => destruct b end; inversion EL; lia. }
        apply NX; [uk| |apply CZ; [exact C0|cbn [p_sub buf_append with_buf with_sub]; lia]].
        rewrite DZ by exact C0. cbn [p_sub p_buf buf_append with_buf with_sub].
        rewrite esc_small, app_length by assumption. cbn [length]. lia. }
      apply Hr. reflexivity. }
  apply Z.eqb_neq in E0.
  destruct (p_sub p <=? 7) eqn:E1.
  { apply Z.leb_le in E1. pose proof (CPZ ltac:(unfold ABCD; lia)) as C0. rewrite (DZ p C0), esc_small in HB by exact E1.
    destruct (utf8_trail (p_sub p) c) as [s|] eqn:ET; [|apply Hr; reflexivity].
    assert (s <= 7). { unfold utf8_trail in ET. repeat match type of ET with (if ?b then _ else _) = _ => destruct b end; inversion ET; lia. }
    apply NX; [uk| |apply CZ; [exact C0|cbn [p_sub buf_append with_buf with_sub]; lia]].
    rewrite DZ by exact C0. cbn [p_sub p_buf buf_append with_buf with_sub].
    rewrite esc_small, app_length by assumption. cbn [length]. lia. }
  destruct (p_sub p =? ch_bslash) eqn:E2.
  { apply Z.eqb_eq in E2. pose proof (CPZ ltac:(rewrite E2; reflexivity)) as C0. rewrite (DZ p C0), E2 in HB. change (esc ch_bslash) with 1 in HB.
    destruct (c =? 117).
    { apply NX; [uk| |apply cp_zero; [exact C0|right; cbn [p_sub with_sub]; lia]].
      rewrite DZ by exact C0. cbn [p_sub p_buf with_sub]. change (esc (ABCD + 4)) with 2. lia. }
    destruct (simple_escape c); [|apply Hr; reflexivity].
    apply NX; [uk| |apply CZ; [exact C0|cbn [p_sub buf_append with_buf with_sub]; lia]].
    rewrite DZ by exact C0. cbn [p_sub p_buf buf_append with_buf with_sub]. change (esc 0) with 0. rewrite app_length. cbn [length]. lia. }
  apply Z.eqb_neq in E2. unfold ch_bslash in E2. unfold debt in HB.
  assert (ESC : esc (p_sub p) = if ABCD <? p_sub p then 6 - (p_sub p - ABCD) else if p_sub p =? ABCD - 1 then 1 else 0).
  { unfold esc. destruct (Z.eqb_spec (p_sub p) 92); [lia|reflexivity]. }
  rewrite ESC in HB.
  destruct (ABCD <? p_sub p) eqn:E3.
  { apply Z.ltb_lt in E3. destruct (negb (is_xdigit c)); [apply Hr; reflexivity|].
    cbv zeta. set (q := with_sub (with_cp p _ _) (p_sub p - 1)). assert (K : ukeep p q) by uk.
    change (p_sub q) with (p_sub p - 1).
    destruct (p_sub p - 1 =? ABCD) eqn:E4.
    - apply Z.eqb_eq in E4. pose proof (escape_ok ign q (consumed p)) as HE.
      change (p_buf q) with (p_buf p) in HE. change (p_cp0 q) with (p_cp0 p) in HE. specialize (HE ltac:(lia)).
      destruct (escape_done ign false q) as [r|r|r].
      + exact HE.
      + contradiction.
      + destruct HE as (K2 & A & B). apply NX; [eapply ukeep_trans; [exact K|exact K2]|exact A|exact B].
    - apply Z.eqb_neq in E4. apply NX; [exact K| |].
      + unfold debt. change (p_buf q) with (p_buf p). change (p_cp0 q) with (p_cp0 p). change (p_sub q) with (p_sub p - 1).
        assert (ES : esc (p_sub p - 1) = 6 - (p_sub p - 1 - ABCD)).
        { unfold esc, ABCD in *. destruct (Z.eqb_spec (p_sub p - 1) 92); [lia|]. destruct (Z.ltb_spec 43981 (p_sub p - 1)); [reflexivity|lia]. }
        rewrite ES. lia.
      + unfold cp_ok. change (p_sub q) with (p_sub p - 1). split; lia. }
  apply Z.ltb_ge in E3.
  destruct (ABCD - 2 <=? p_sub p) eqn:E4; [|apply Hr; reflexivity]. apply Z.leb_le in E4.
  destruct ((p_sub p =? ABCD - 2) && (c =? ch_bslash)) eqn:E5.
  { apply andb_prop in E5. destruct E5 as [E5 _]. apply Z.eqb_eq in E5. rewrite E5 in HB. change (ABCD - 2 =? ABCD - 1) with false in HB.
    assert (CN : p_cp0 p <> 0) by (apply HC; lia).
    apply NX; [uk| |]; unfold debt, cp_ok; cbn [p_cp0 p_sub p_buf with_sub]; [|split; [lia|intros _; exact CN]]. change (esc (ABCD - 1)) with 1. lia. }
  destruct ((p_sub p =? ABCD - 1) && (c =? 117)) eqn:E6.
  { apply andb_prop in E6. destruct E6 as [E6 _]. rewrite E6 in HB. apply Z.eqb_eq in E6.
    apply NX; [uk| |]; unfold debt, cp_ok; cbn [p_cp0 p_sub p_buf with_sub]; [|split; lia]. change (esc (ABCD + 4)) with 2. lia. }
  assert (E7 : p_cp0 p <> 0) by (apply HC; lia).
  destruct (ill_surrogate ign false p (p_cp0 p)) as [p1 ok] eqn:EI. apply ill_ok in EI. destruct ok; [|exact EI]. subst p1.
  assert (KK : ukeep p (with_sub (with_cp (buf_append p (utf8_of (p_cp0 p))) 0 (p_cp1 (buf_append p (utf8_of (p_cp0 p)))))
    (if p_sub (buf_append p (utf8_of (p_cp0 p))) =? ABCD - 1 then ch_bslash else 0))) by uk.
  split; [exact KK|]. apply Z.eqb_neq in E7. rewrite E7 in HB.
  split.
  - rewrite (consumed_keep _ _ KK). rewrite DZ by reflexivity.
    cbn [p_sub buf_append with_buf with_cp with_sub p_buf]. rewrite app_length. pose proof (utf8_len (p_cp0 p)) as UL.
    destruct (p_sub p =? ABCD - 1); [change (esc ch_bslash) with 1|change (esc 0) with 0]; lia.
  - apply CZ; [reflexivity|]. cbn [p_sub with_sub buf_append with_buf]. destruct (p_sub p =? ABCD - 1); unfold ch_bslash; lia.
Qed.

(** ** The invariant *)
Definition under (m n : Z) : Prop := m = 0 \/ n <= m.
Definition part_ok p : Prop :=
  match p_auto p with
  | A_STRING => buf_ok p /\ under (limit_of cfg JSON_STRING) (consumed p)
  | A_KEY => buf_ok p /\ under (limit_of cfg JSON_KEY) (consumed p)
  | A_NUMBER => Z.of_nat (length (p_buf p)) <= consumed p /\ under (max_number_len cfg) (consumed p) /\ p_cp0 p = 0
  | _ => p_cp0 p = 0
  end.
Definition base p : Prop :=
  respects cfg (log p) /\ p_vcount p = values (log p) /\ Z.of_nat (length (p_nest p)) = open_containers (log p).
Definition good p : Prop := respects cfg (log p) /\ (0 <= p_err p -> base p /\ part_ok p).

Lemma good_fails : forall p q, base p -> fails p q -> good q.
Proof. intros p q (A & _) [F1 F2]. split; [unfold log; rewrite F2; exact A|lia]. Qed.
Lemma base_keep : forall p q, ukeep p q -> base p -> base q.
Proof. intros p q (_ & _ & _ & A & B & C & _) (H1 & H2 & H3). unfold base, log. rewrite A, B, C. auto. Qed.

Lemma process_good : forall p t d, 0 <= p_err p -> p_cp0 p = 0 -> respects cfg (log p) -> p_vcount p = values (log p) ->
  Z.of_nat (length (p_nest p)) = open_containers (log p) + delta t ->
  at_most (max_nesting_level cfg) (Z.of_nat (length (p_nest p))) ->
  sized cfg (t, d) ->
  good (process cfg cb p t d) /\ (0 <= p_err (process cfg cb p t d) -> p_auto (process cfg cb p t d) = A_MAIN).
Proof.
  intros p t d E CP HR HV HN HM HS.
  assert (CALL : forall q, p_user q = p_user p -> p_cp0 q = 0 -> p_nest q = p_nest p ->
    p_vcount q = values (log p) + (if is_closer_type t then 0 else 1) ->
    at_most (max_total_values cfg) (p_vcount q) ->
    good (process_call cb q t d) /\ (0 <= p_err (process_call cb q t d) -> p_auto (process_call cb q t d) = A_MAIN)).
  { intros q U1 U0 U2 U3 U4. unfold process_call. pose proof (CB t d (p_user q)) as HC. destruct (cb t d (p_user q)) as [e u]. cbn [snd] in HC.
    split; [|reflexivity].
    assert (R' : respects cfg (log p ++ [(t, d)])).
    { apply respects_snoc; [exact HR|exact HS| | |].
      - rewrite values_snoc, <- U3. exact U4.
      - rewrite open_snoc, <- HN. lia.
      - rewrite open_snoc, <- HN. exact HM. }
    assert (LG : log (switch (with_st (with_callback q e u) (state_after t (p_nest (with_callback q e u)))) A_MAIN) = log p ++ [(t, d)]).
    { unfold log. cbn [p_user switch with_st with_callback]. rewrite HC, U1. reflexivity. }
    split; [rewrite LG; exact R'|]. intros _. split; [|exact U0]. unfold base. rewrite LG.
    split; [exact R'|]. split.
    - cbn [p_vcount switch with_st with_callback]. rewrite values_snoc. exact U3.
    - cbn [p_nest switch with_st with_callback]. rewrite open_snoc, U2. exact HN. }
  assert (RAISE : forall e, e < 0 -> good (raise_v p e) /\ (0 <= p_err (raise_v p e) -> p_auto (raise_v p e) = A_MAIN)).
  { intros e He. destruct (fails_raise p e (p_vpos p) He) as [F1 F2]. split; [|unfold raise_v; lia].
    split; [unfold log, raise_v; rewrite F2; exact HR|unfold raise_v; lia]. }
  unfold process. destruct (Z.ltb_spec (p_err p) 0); [lia|].
  destruct (is_closer_type t) eqn:EC.
  - apply CALL; [reflexivity|exact CP|reflexivity| |]; rewrite HV; [lia|]. apply HR.
  - destruct (_ && root_refused cfg t); [apply RAISE; reflexivity|].
    destruct (negb (max_total_values cfg =? 0) && (max_total_values cfg <=? p_vcount p)) eqn:EM; [apply RAISE; reflexivity|].
    apply CALL; [reflexivity|exact CP|reflexivity| |]; cbn [p_vcount with_vcount]; [lia|].
    unfold at_most. destruct (Z.eqb_spec (max_total_values cfg) 0); [left; assumption|right].
    cbn [negb andb] in EM. apply Z.leb_gt in EM. lia.
Qed.
(** For values without nesting. *)
Lemma process_plain : forall p t d, 0 <= p_err p -> p_cp0 p = 0 -> base p -> delta t = 0 -> sized cfg (t, d) ->
  good (process cfg cb p t d) /\ (0 <= p_err (process cfg cb p t d) -> p_auto (process cfg cb p t d) = A_MAIN).
Proof.
  intros p t d E CP (H1 & H2 & H3) D HS. apply process_good; auto; rewrite ?D, H3; [lia|].
  destruct H1 as [_ _ H1]. destruct (H1 (log p) []) as [_ A]; [rewrite app_nil_r; reflexivity|]. exact A.
Qed.

Lemma over_under : forall m p, over_long m p = false -> under m (consumed p).
Proof.
  intros m p H. unfold over_long in H. unfold under. destruct (Z.eqb_spec m 0); [left; assumption|right].
  cbn [negb andb] in H. apply Z.ltb_ge in H. exact H.
Qed.

Definition sa (t : jtype) : automaton := match t with JSON_KEY => A_KEY | _ => A_STRING end.
Lemma process_consumed : forall p t d, 0 <= p_err p -> 0 <= p_err (process cfg cb p t d) -> consumed (process cfg cb p t d) = 0.
Proof.
  intros p t d E. unfold process. destruct (Z.ltb_spec (p_err p) 0); [lia|].
  assert (CALL : forall q, consumed (process_call cb q t d) = 0).
  { intros q. unfold process_call. destruct (cb t d (p_user q)). unfold consumed. cbn. lia. }
  destruct (is_closer_type t); [intros _; apply CALL|].
  destruct (_ && _).
  { intros K. pose proof (raise_at_err p ERR_BADROOTTYPE (p_vpos p) ltac:(reflexivity)). unfold raise_v in K. lia. }
  destruct (_ && _); [|intros _; apply CALL].
  intros K. pose proof (raise_at_err p ERR_MAXTOTALVALUES (p_vpos p) ltac:(reflexivity)). unfold raise_v in K. lia.
Qed.

(** What one byte does within a string. *)
Lemma s0_ok : forall t p c, (t = JSON_KEY \/ t = JSON_STRING) -> 0 <= p_err p -> base p -> buf_ok p -> p_auto p = sa t -> under (limit_of cfg t) (consumed p) ->
  match s0 cfg cb t p c with
  | (q, None) => (p_err q < 0 /\ good q) \/ (0 <= p_err q /\ good q /\ p_auto q = A_MAIN /\ consumed q = 0) \/ (0 <= p_err q /\ base q /\ buf_ok q /\ p_auto q = sa t)
  | (_, Some q) => 0 <= p_err q /\ base q /\ buf_ok q /\ p_auto q = sa t /\ under (limit_of cfg t) (consumed q)
  end.
Proof.
  intros t p c Ht E HB HO HA HU. unfold s0. destruct ((p_sub p =? 0) && (c =? ch_quote)) eqn:E1.
  { assert (SZ : sized cfg (t, p_buf p)).
    { destruct HO as [H1 _]. assert (0 <= debt p).
      { apply andb_prop in E1. destruct E1 as [E1 _]. apply Z.eqb_eq in E1. unfold debt. rewrite E1. change (esc 0) with 0. destruct (p_cp0 p =? 0); lia. }
      unfold under, limit_of in HU.
      destruct Ht as [-> | ->]; cbn [sized]; unfold at_most;
      match type of HU with context [0 <? ?m] => destruct (Z.ltb_spec 0 m) as [L|L] end; first [left; lia|right; lia]. }
    assert (C0 : p_cp0 p = 0).
    { apply andb_prop in E1. destruct E1 as [E1 _]. apply Z.eqb_eq in E1. destruct HO as [_ [HC _]]. destruct (Z.eq_dec (p_cp0 p) 0) as [Z0|Z0]; [exact Z0|]. specialize (HC Z0). unfold ABCD in HC. lia. }
    destruct (process_plain (advance p 1) t (p_buf p)) as [G1 G2]; [exact E|exact C0|exact HB|destruct Ht as [-> | ->]; reflexivity|exact SZ|].
    destruct (Z_lt_le_dec (p_err (process cfg cb (advance p 1) t (p_buf p))) 0) as [L|L]; [left; split; assumption|right; left].
    split; [exact L|]. split; [exact G1|]. split; [apply G2; exact L|]. apply process_consumed; [exact E|exact L]. }
  destruct ((p_sub p =? 0) && plainish (ign_of cfg t) c) eqn:E2.
  { right. right. split; [exact E|]. split; [exact HB|]. split; [|exact HA].
    destruct HO as [H1 H2]. split; [|exact H2]. change (debt (advance (buf_append p [c]) 1)) with (debt p).
    rewrite consumed_advance. change (consumed (buf_append p [c])) with (consumed p).
    cbn [p_buf advance buf_append with_buf with_pos]. rewrite app_length. cbn [length]. lia. }
  pose proof (string_iter_ok (ign_of cfg t) p c HO) as HI. rewrite NOFIX.
  destruct (string_iter (ign_of cfg t) false p c) as [q|q|q].
  - left. split; [apply HI|]. apply (good_fails p); assumption.
  - destruct HI as [K B]. assert (EK : 0 <= p_err q) by (destruct K as (K & _); lia).
    split; [exact EK|]. split; [apply (base_keep p); assumption|]. split; [exact B|]. split; [destruct K as (_ & _ & _ & _ & _ & _ & K); congruence|].
    rewrite (consumed_keep _ _ K). exact HU.
  - destruct HI as [K B]. right. right. assert (EK : 0 <= p_err q) by (destruct K as (K & _); lia).
    split; [exact EK|]. split; [apply (base_keep p) in K; [exact K|exact HB]|]. split; [exact B|].
    destruct K as (_ & _ & _ & _ & _ & _ & K). change (p_auto q = sa t). congruence.
Qed.

Lemma string_byte_ok : forall t p c, (t = JSON_KEY \/ t = JSON_STRING) -> 0 <= p_err p -> base p -> buf_ok p -> p_auto p = sa t -> under (limit_of cfg t) (consumed p) ->
  good (string_byte cfg cb t p c).
Proof.
  intros t p c Ht E HB HO HA HU. unfold string_byte.
  assert (R : let q := s1 cfg cb t p c in
    (p_err q < 0 /\ good q) \/ (0 <= p_err q /\ good q /\ p_auto q = A_MAIN /\ consumed q = 0) \/ (0 <= p_err q /\ base q /\ buf_ok q /\ p_auto q = sa t)).
  { cbv zeta. unfold s1. pose proof (s0_ok t p c Ht E HB HO HA HU) as H0. destruct (s0 cfg cb t p c) as [q [r|]]; [|exact H0].
    destruct H0 as (A1 & A2 & A3 & A4 & A5). pose proof (s0_ok t r c Ht A1 A2 A3 A4 A5) as H1.
    unfold s0 in *. destruct (_ && _) in *; [exact H1|]. destruct (_ && _) in *; [exact H1|].
    destruct (string_iter _ _ r c); [exact H1| |exact H1]. cbn [fst]. right. right. destruct H1 as (B1 & B2 & B3 & B4 & _). auto. }
  cbv zeta in R. set (q := s1 cfg cb t p c) in *. destruct R as [[R1 R2]|[(R1 & R2 & R3 & R4)|(R1 & R2 & R3 & R4)]].
  - rewrite chk_err by exact R1. exact R2.
  - rewrite chk_within; [exact R2|]. right. rewrite R4. apply limit_nonneg. destruct Hcfg as (A & B & C). auto.
  - unfold chk. destruct (over_long (limit_of cfg t) q) eqn:EO.
    + apply (good_fails q); [exact R2|]. apply fails_raise. destruct Ht as [-> | ->]; reflexivity.
    + apply over_under in EO. split; [apply R2|]. intros _. split; [exact R2|]. unfold part_ok. rewrite R4.
      destruct Ht as [-> | ->]; cbn [sa]; auto.
Qed.
Lemma literal_byte_ok : forall t lit p c, (t = JSON_NULL \/ t = JSON_FALSE \/ t = JSON_TRUE) -> 0 <= p_err p -> base p -> p_cp0 p = 0 ->
  p_auto p <> A_STRING -> p_auto p <> A_KEY -> p_auto p <> A_NUMBER ->
  good (fst (literal_byte cfg cb t lit p c)) /\ (snd (literal_byte cfg cb t lit p c) = false -> 0 <= p_err (fst (literal_byte cfg cb t lit p c)) -> p_auto (fst (literal_byte cfg cb t lit p c)) = A_MAIN).
Proof.
  intros t lit p c Ht E HB HP N1 N2 N3. unfold literal_byte. destruct (_ <=? _).
  - destruct (is_boundary c); cbn [fst snd].
    + destruct (process_plain p t []) as [G1 G2]; [exact E|exact HP|exact HB|destruct Ht as [->|[->| ->]]; reflexivity|destruct Ht as [->|[->| ->]]; reflexivity|].
      split; [exact G1|intros _; exact G2].
    + split; [|discriminate]. apply (good_fails (with_pos p (p_vpos p))); [exact HB|]. apply fails_raise. reflexivity.
  - destruct (negb _); cbn [fst snd]; (split; [|discriminate]).
    + apply (good_fails p); [exact HB|]. apply fails_raise. reflexivity.
    + split; [apply HB|]. intros _. split; [exact HB|]. unfold part_ok. cbn [p_auto with_sub advance with_pos].
      destruct (p_auto p); try exact HP; congruence.
Qed.
Lemma number_byte_ok : forall p c, 0 <= p_err p -> base p -> p_auto p = A_NUMBER -> part_ok p ->
  good (fst (number_byte cfg cb p c)) /\ (snd (number_byte cfg cb p c) = false -> 0 <= p_err (fst (number_byte cfg cb p c)) -> p_auto (fst (number_byte cfg cb p c)) = A_MAIN).
Proof.
  intros p c E HB HA HP. unfold number_byte. unfold part_ok in HP. rewrite HA in HP.
  assert (NS : let q := number_sub p in p_err q = p_err p /\ base q /\ p_auto q = A_NUMBER /\ p_buf q = p_buf p /\ consumed q = consumed p /\ p_cp0 q = p_cp0 p).
  { unfold number_sub. destruct (p_sub p =? 0); cbv zeta; auto 10. }
  cbv zeta in *. set (q := number_sub p) in *. destruct NS as (N1 & N2 & N3 & N4 & N5 & N6).
  destruct (number_next (p_sub q) c) as [s|]; cbn [fst snd].
  - split; [|discriminate]. set (r := advance (with_sub q s) 1). assert (ER : p_err r = p_err p) by exact N1.
    unfold chk. destruct (over_long (max_number_len cfg) r) eqn:EO.
    + pose proof (fails_raise r ERR_MAXNUMBERLEN (p_vpos r) ltac:(reflexivity)) as F. unfold raise_v.
      destruct (Z.leb_spec 0 (p_err (raise_at r ERR_MAXNUMBERLEN (p_vpos r)))); [destruct F; lia|]. apply (good_fails r); [exact N2|exact F].
    + apply over_under in EO. rewrite ER. destruct (Z.leb_spec 0 (p_err p)); [|lia].
      split; [apply N2|]. intros _. split; [exact N2|]. unfold part_ok. change (p_auto (buf_append r [c])) with (p_auto q). rewrite N3.
      change (consumed (buf_append r [c])) with (consumed r). split; [|split; [exact EO|change (p_cp0 q = 0); rewrite N6; apply HP]].
      unfold r. rewrite consumed_advance. change (consumed (with_sub q s)) with (consumed q). rewrite N5.
      cbn [p_buf buf_append with_buf advance with_sub with_pos]. rewrite N4, app_length. cbn [length]. lia.
  - destruct (_ && _); cbn [fst snd].
    + destruct (process_plain q JSON_NUMBER (p_buf q)) as [G1 G2]; [lia|rewrite N6; apply HP|exact N2|reflexivity| |split; [exact G1|intros _; exact G2]].
      rewrite N4. cbn [sized]. unfold at_most. destruct HP as [P1 [[P2|P2] _]]; [left; exact P2|right; lia].
    + split; [|discriminate]. apply (good_fails q); [exact N2|]. apply fails_raise. reflexivity.
Qed.
Lemma sub_byte_ok : forall p c, 0 <= p_err p -> base p -> part_ok p ->
  good (fst (sub_byte cfg cb p c)) /\ (snd (sub_byte cfg cb p c) = false -> 0 <= p_err (fst (sub_byte cfg cb p c)) -> p_auto (fst (sub_byte cfg cb p c)) = A_MAIN).
Proof.
  intros p c E HB HP. unfold sub_byte. destruct (p_auto p) eqn:HA;
    try (apply literal_byte_ok; [tauto|exact E|exact HB|unfold part_ok in HP; rewrite HA in HP; exact HP|congruence..]).
  - cbn [fst snd]. split; [|discriminate]. split; [apply HB|auto].
  - apply number_byte_ok; assumption.
  - cbn [fst snd]. split; [|discriminate]. unfold part_ok in HP. rewrite HA in HP. destruct HP as [P1 P2].
    apply string_byte_ok; auto.
  - cbn [fst snd]. split; [|discriminate]. unfold part_ok in HP. rewrite HA in HP. destruct HP as [P1 P2].
    apply string_byte_ok; auto.
Qed.
Lemma new_line_keep : forall p c, p_err (new_line p c) = p_err p /\ p_user (new_line p c) = p_user p /\ p_vcount (new_line p c) = p_vcount p /\
  p_nest (new_line p c) = p_nest p /\ p_auto (new_line p c) = p_auto p /\ p_buf (new_line p c) = p_buf p /\ p_sub (new_line p c) = p_sub p /\ p_cp0 (new_line p c) = p_cp0 p /\ consumed (new_line p c) = consumed p.
Proof.
  intros p c. unfold new_line.
  repeat match goal with |- context [if ?b then _ else _] => destruct b end; auto 20.
Qed.

Lemma good_next : forall p c, good p -> (0 <= p_err p -> p_auto p = A_MAIN) -> good (new_line (advance p 1) c).
Proof.
  intros p c [G1 G2] HM. destruct (new_line_keep (advance p 1) c) as (A1 & A2 & A3 & A4 & A5 & A6 & A7 & A8 & _).
  unfold good, base, part_ok, log. rewrite A1, A2, A3, A4, A5, A8. split; [exact G1|]. intros E. specialize (HM E). specialize (G2 E).
  change (p_auto (advance p 1)) with (p_auto p). unfold part_ok in G2. rewrite HM in *. exact G2.
Qed.
Lemma string_begins : forall p a c, 0 <= p_err p -> base p -> p_cp0 p = 0 -> c = ch_quote -> a = A_STRING \/ a = A_KEY ->
  good (new_line (advance (switch p a) 1) c).
Proof.
  intros p a c E HB C0 -> Ha. change (new_line (advance (switch p a) 1) ch_quote) with (advance (switch p a) 1).
  split; [apply HB|]. intros _. split; [exact HB|].
  assert (C1 : consumed (advance (switch p a) 1) = 1).
  { rewrite consumed_advance. unfold consumed. cbn [p_pos p_vpos switch]. lia. }
  assert (BO : buf_ok (advance (switch p a) 1)).
  { split.
    - rewrite C1. unfold debt. cbn [p_cp0 p_sub p_buf advance switch with_pos]. rewrite C0. change (0 =? 0) with true. change (esc 0) with 0. cbn [length]. lia.
    - apply cp_zero; [exact C0|left; reflexivity]. }
  assert (UN : forall t, under (limit_of cfg t) 1).
  { intros t. unfold under, limit_of. destruct Hcfg as (A & B & C).
    match goal with |- context [0 <? ?m] => assert (0 <= m) by (destruct t; assumption); destruct (Z.ltb_spec 0 m) end; [right; lia|left; lia]. }
  unfold part_ok. cbn [p_auto advance with_pos switch]. rewrite C1. destruct Ha as [-> | ->]; auto.
Qed.
Lemma main_byte_ok : forall p c, 0 <= p_err p -> base p -> p_auto p = A_MAIN -> p_cp0 p = 0 -> good (main_byte cfg cb p c).
Proof.
  intros p c E HB HA HC. pose proof HB as (H1 & H2 & H3). unfold main_byte, main_iter.
  assert (F : forall e, e < 0 -> good (raise p e)) by (intros; apply (good_fails p); [exact HB|apply fails_raise; assumption]).
  assert (KEEP : forall s, good (new_line (advance (with_st p s) 1) c)).
  { intros s. apply good_next; [|intros _; exact HA]. split; [exact H1|]. intros _. split; [exact HB|]. unfold part_ok. change (p_auto (with_st p s)) with (p_auto p). rewrite HA. exact HC. }
  assert (NL : at_most (max_nesting_level cfg) (Z.of_nat (length (p_nest p)))).
  { destruct H1 as [_ _ H1]. destruct (H1 (log p) []) as [_ A]; [rewrite app_nil_r; reflexivity|]. rewrite H3. exact A. }
  destruct (has (p_st p) CAN_SEE_VALUE && _).
  { destruct (negb (max_nesting_level cfg =? 0) && (max_nesting_level cfg <=? Z.of_nat (length (p_nest p)))) eqn:EN; [apply F; reflexivity|].
    set (x := if c =? 91 then 93 else 125). set (t := if c =? 91 then JSON_ARRAY_BEG else JSON_OBJECT_BEG).
    assert (D : delta t = 1) by (unfold t; destruct (c =? 91); reflexivity).
    destruct (process_good (with_nest p (x :: p_nest p)) t []) as [G1 G2];
      [exact E|exact HC|exact H1|exact H2| | |unfold t; destruct (c =? 91); reflexivity|].
    - rewrite D. change (log (with_nest p (x :: p_nest p))) with (log p). rewrite <- H3. cbn [p_nest with_nest length]. lia.
    - cbn [p_nest with_nest length]. unfold at_most. destruct (Z.eqb_spec (max_nesting_level cfg) 0); [left; assumption|right].
      cbn [negb andb] in EN. apply Z.leb_gt in EN. lia.
    - apply good_next; assumption. }
  destruct (has (p_st p) CAN_SEE_CLOSER && ((c =? 93) || (c =? 125))) eqn:EC.
  { destruct (negb (hd 0 (p_nest p) =? c)) eqn:EH; [apply F; reflexivity|].
    apply negb_false_iff in EH. apply Z.eqb_eq in EH. apply andb_prop in EC. destruct EC as [_ EC].
    destruct (p_nest p) as [|y ys] eqn:EP.
    { exfalso. cbn [hd] in EH. subst c. discriminate EC. }
    set (t := if c =? 93 then JSON_ARRAY_END else JSON_OBJECT_END). assert (D : delta t = -1) by (unfold t; destruct (c =? 93); reflexivity).
    destruct (process_good (with_nest p (tl (y :: ys))) t []) as [G1 G2];
      [exact E|exact HC|exact H1|exact H2| | |unfold t; destruct (c =? 93); reflexivity|].
    - rewrite D. change (log (with_nest p (tl (y :: ys)))) with (log p). rewrite <- H3. cbn [p_nest with_nest length tl]. lia.
    - cbn [p_nest with_nest length tl]. unfold at_most in *. cbn [length] in NL. destruct NL as [NL|NL]; [left; exact NL|right; lia].
    - apply good_next; assumption. }
  clear EC. destruct (has (p_st p) CAN_SEE_COMMA && _); [apply KEEP|]. destruct (has (p_st p) CAN_SEE_COLON && _); [apply KEEP|].
  destruct (has (p_st p) CAN_SEE_VALUE && (c =? 34)) eqn:E1.
  { apply andb_prop in E1. destruct E1 as [_ E1]. apply Z.eqb_eq in E1. apply string_begins; auto. }
  destruct (has (p_st p) CAN_SEE_KEY && (c =? 34)) eqn:E2.
  { apply andb_prop in E2. destruct E2 as [_ E2]. apply Z.eqb_eq in E2. apply string_begins; auto. }
  assert (AG : forall a, a <> A_STRING -> a <> A_KEY -> good (if p_err (switch p a) <? 0 then switch p a else fst (sub_byte cfg cb (switch p a) c))).
  { intros a Na Nb. destruct (Z.ltb_spec (p_err (switch p a)) 0) as [L|L]; [cbn [p_err switch] in L; lia|].
    apply sub_byte_ok; [exact E|exact HB|]. unfold part_ok. cbn [p_auto switch]. destruct a; try contradiction; try exact HC.
    split; [unfold consumed; cbn [p_pos p_vpos p_buf switch length]; lia|]. split; [|exact HC].
    unfold consumed; cbn [p_pos p_vpos switch]. destruct Hcfg as [L0 _]. right. lia. }
  clear E1 E2. destruct (has (p_st p) CAN_SEE_VALUE && _).
  { destruct (c =? 110); [apply AG; discriminate|]. destruct (c =? 102); [apply AG; discriminate|]. destruct (c =? 116); [apply AG; discriminate|].
    pose proof (raise_at_err p ERR_SYNTAX (p_pos p) ltac:(reflexivity)) as R. unfold raise. destruct (Z.ltb_spec (p_err (raise_at p ERR_SYNTAX (p_pos p))) 0); [|lia].
    apply F. reflexivity. }
  destruct (has (p_st p) CAN_SEE_VALUE && _); [apply AG; discriminate|].
  destruct (negb (is_ws c)).
  - unfold raise_unexpected. apply F. repeat match goal with |- context [if ?b then _ else _] => destruct b end; reflexivity.
  - apply good_next; [|intros _; exact HA]. split; [exact H1|]. intros _. split; [exact HB|]. unfold part_ok. rewrite HA. exact HC.
Qed.
Lemma bstep_ok : forall p c, good p -> good (bstep cfg cb p c).
Proof.
  intros p c G. unfold bstep. destruct (Z.ltb_spec (p_err p) 0) as [L|L]; [exact G|]. pose proof G as [_ G2]. destruct (G2 L) as [HB HP].
  assert (SUB : p_auto p <> A_MAIN -> good (let '(p1, done) := sub_byte cfg cb p c in if done || (p_err p1 <? 0) then p1 else main_byte cfg cb p1 c)).
  { intros NM. destruct (sub_byte_ok p c L HB HP) as [S1 S2]. destruct (sub_byte cfg cb p c) as [p1 done]. cbn [fst snd] in *.
    destruct done; [exact S1|]. cbn [orb]. destruct (Z.ltb_spec (p_err p1) 0) as [K|K]; [exact S1|].
    specialize (S2 eq_refl K). destruct S1 as [_ S1]. destruct (S1 K) as [B1 B2]. unfold part_ok in B2. rewrite S2 in B2.
    apply main_byte_ok; assumption. }
  destruct (p_auto p) eqn:HA; try (apply SUB; discriminate).
  unfold part_ok in HP. rewrite HA in HP. apply main_byte_ok; assumption.
Qed.
Lemma bsteps_ok : forall l p, good p -> good (bsteps cfg cb p l).
Proof. unfold bsteps. induction l as [|c l IH]; intros p G; cbn [fold_left]; [exact G|]. apply IH, bstep_ok, G. Qed.

Lemma norm_user : forall p q, norm p = norm q -> p_user p = p_user q.
Proof. intros p q H. unfold norm in H. destruct (p_err p <? 0), (p_err q <? 0); apply (f_equal p_user) in H; exact H. Qed.
Lemma good_norm : forall p q, norm p = norm q -> good q -> good p.
Proof.
  intros p q H [G1 G2]. pose proof (norm_user _ _ H) as HU. split; [unfold log; rewrite HU; exact G1|].
  intros E. pose proof (norm_ok p q H E) as EQ. rewrite EQ in E |- *. apply G2. exact E.
Qed.
Lemma skip_user : forall n p input, p_user (skip_to_limit n p input) = p_user p.
Proof.
  induction n as [|n IH]; intros p input; cbn [skip_to_limit]; [reflexivity|]. destruct input as [|c i]; [reflexivity|].
  rewrite IH. destruct (new_line_keep (advance p 1) (hd 0 i)) as (_ & A & _). rewrite A. reflexivity.
Qed.
Lemma feed_good : forall p c p', inv cfg p -> good p -> json_feed cfg cb p c = Some p' -> good p' /\ (0 <= p_err p' -> inv cfg p').
Proof.
  intros p c p' HI G H. unfold json_feed in H.
  destruct (negb (max_total_len cfg =? 0) && (max_total_len cfg <? p_off (p_pos p) + Z.of_nat (length c))) eqn:E.
  - injection H as <-. set (q := skip_to_limit _ p c). unfold raise.
    destruct (fails_raise q ERR_MAXTOTALLEN (p_pos q) ltac:(reflexivity)) as [F1 F2].
    split; [split; [|lia]|lia]. unfold log. rewrite F2. unfold q. rewrite skip_user. exact (proj1 G).
  - destruct (json_feed_spec cfg cb Hcfg p c HI) as (p1 & E1 & N1 & I1).
    { unfold fits. destruct (Z.eqb_spec (max_total_len cfg) 0); [left; assumption|right]. cbn [negb andb] in E. apply Z.ltb_ge in E. exact E. }
    unfold json_feed in E1. rewrite E in E1. rewrite E1 in H. inversion H; subst p1. split; [|intros _; exact I1].
    apply (good_norm _ _ N1). apply bsteps_ok. exact G.
Qed.
Lemma literal_loop_nil : forall lit p off, exists q, literal_loop lit p [] off = (q, Some ([], off)) /\ q = p.
Proof. intros lit p off. destruct lit as [|x l]; cbn [literal_loop]; destruct (_ <=? _); eauto. Qed.

Lemma dispatch_end : forall p p1 n, 0 <= p_err p -> base p -> part_ok p -> dispatch cfg cb p None = Some (p1, n) -> respects cfg (log p1).
Proof.
  intros p p1 n L HB HP H. unfold dispatch in H. unfold part_ok in HP.
  assert (LIT : forall t lit, delta t = 0 -> sized cfg (t, []) -> p_cp0 p = 0 -> Some (literal_auto cfg cb t lit p None) = Some (p1, n) -> respects cfg (log p1)).
  { intros t lit D SZ C0 K. unfold literal_auto in K. destruct (literal_loop_nil lit p 0%nat) as (q & E & ->). rewrite E in K. inversion K.
    apply (fun a b c d e => proj1 (proj1 (process_plain p t [] a b c d e))); assumption. }
  assert (STR : forall ign fx t m e, Some (p1, n) = string_auto cfg cb ign fx t m e p None -> respects cfg (log p1)).
  { intros ign fx t m e K. unfold string_auto in K.
    assert (LN : forall m0, limited m0 p [] = []) by (intros m0; unfold limited; destruct (_ && _); [destruct (Z.to_nat _)|]; reflexivity).
    rewrite LN in K. cbn [length Nat.mul Nat.add string_loop] in K. inversion K.
    assert (RV : forall q e', p_user (raise_v q e') = p_user q) by (intros q e'; unfold raise_v, raise_at; destruct (0 <=? p_err q); reflexivity).
    unfold log. rewrite RV. destruct (over_long _ p); rewrite ?RV; apply HB. }
  destruct (p_auto p).
  - inversion H. unfold log, raise, raise_at. destruct (0 <=? p_err p); apply HB.
  - eapply LIT; [| |exact HP|exact H]; reflexivity.
  - eapply LIT; [| |exact HP|exact H]; reflexivity.
  - eapply LIT; [| |exact HP|exact H]; reflexivity.
  - unfold number_auto in H.
    assert (LN : forall m0, limited m0 p [] = []) by (intros m0; unfold limited; destruct (_ && _); [destruct (Z.to_nat _)|]; reflexivity).
    rewrite LN in H. cbn [number_loop] in H.
    assert (NS : let q := number_sub p in p_err q = p_err p /\ base q /\ p_buf q = p_buf p /\ consumed q = consumed p /\ p_cp0 q = p_cp0 p).
    { unfold number_sub. destruct (p_sub p =? 0); cbv zeta; auto 10. }
    change (if p_sub p =? 0 then with_sub p (N_M_SIGN + N_M_FIRST) else p) with (number_sub p) in H.
    cbv zeta in NS. set (q := number_sub p) in *. destruct NS as (N1 & N2 & N3 & N4 & N5). destruct HP as (P1 & P2 & P3).
    assert (OV : over_long (max_number_len cfg) q = false).
    { unfold over_long. rewrite N4. destruct P2 as [P2|P2]; [rewrite P2; reflexivity|]. apply andb_false_iff. right. apply Z.ltb_ge. exact P2. }
    rewrite OV in H. destruct (_ && _); inversion H.
    + apply (fun a b c d e => proj1 (proj1 (process_plain q JSON_NUMBER (p_buf q) a b c d e))); [lia|congruence|exact N2|reflexivity|]. rewrite N3. cbn [sized]. unfold at_most. destruct P2 as [P2|P2]; [left; exact P2|right; lia].
    + unfold log, raise_v, raise_at. destruct (0 <=? p_err q); apply N2.
  - eapply STR. symmetry. exact H.
  - eapply STR. symmetry. exact H.
Qed.
Lemma fini_good : forall p e x u, good p -> json_fini cfg cb p = Some (e, x, u) -> respects cfg (snd u).
Proof.
  intros p e x u G H. unfold json_fini in H. pose proof G as [G1 G2].
  destruct (p_st p =? ST_UNINITED); [inversion H; subst; exact G1|].
  destruct (Z.ltb_spec (p_err p) 0) as [L|L]; [inversion H; subst; exact G1|]. destruct (G2 L) as [HB HP].
  assert (RU : p_user (raise_unexpected p) = p_user p) by (unfold raise_unexpected, raise, raise_at; destruct (0 <=? p_err p); reflexivity).
  assert (RR : forall q e', p_user (raise q e') = p_user q) by (intros q e'; unfold raise, raise_at; destruct (0 <=? p_err q); reflexivity).
  assert (SUB : match dispatch cfg cb p None with
    | Some (p1, n) => let p2 := with_pos p1 (JPos (p_off (p_pos p1) + Z.of_nat n) (p_line (p_pos p1)) (p_col (p_pos p1))) in
       match p_auto p2 with
       | A_MAIN => Some (p_err p2, if 0 <=? p_err p2 then p_pos p2 else p_epos p2, p_user p2)
       | _ => Some (p_err (raise p2 ERR_SYNTAX), if 0 <=? p_err (raise p2 ERR_SYNTAX) then p_pos (raise p2 ERR_SYNTAX) else p_epos (raise p2 ERR_SYNTAX), p_user (raise p2 ERR_SYNTAX))
       end
    | None => None end = Some (e, x, u) -> respects cfg (snd u)).
  { intros K. destruct (dispatch cfg cb p None) as [[p1 n]|] eqn:ED; [|discriminate K]. pose proof (dispatch_end p p1 n L HB HP ED) as R.
    clear H. cbv zeta in K. match type of K with match p_auto ?r with _ => _ end = _ => destruct (p_auto r) end; injection K as _ _ <-; rewrite ?RR; exact R. }
  destruct (p_auto p) eqn:HA; try (apply SUB; exact H).
  destruct (p_nest p); [destruct (has _ _)|]; inversion H; subst; rewrite ?RU; exact G1.
Qed.
Lemma load_good : forall pieces p e x u, inv cfg p -> good p -> load_from cfg cb p pieces = Some (e, x, u) -> respects cfg (snd u).
Proof.
  induction pieces as [|c cs IH]; intros p e x u HI G H; cbn [load_from] in H; [exact (fini_good p e x u G H)|].
  destruct (json_feed cfg cb p c) as [p1|] eqn:EF; [|discriminate H]. destruct (feed_good p c p1 HI G EF) as [G1 I1].
  destruct (Z.ltb_spec (p_err p1) 0) as [L|L]; [exact (fini_good p1 e x u G1 H)|]. exact (IH p1 e x u (I1 L) G1 H).
Qed.
Lemma init_good : forall u, 0 <= max_total_values cfg -> 0 <= max_nesting_level cfg -> good (json_init (u, [])).
Proof.
  intros u V0 N0.
  assert (R : respects cfg []).
  { split; [constructor| |].
    - right. exact V0.
    - intros [|a b] c E; [|discriminate E]. split; [cbn; lia|right; exact N0]. }
  split; [exact R|]. intros _. split; [|reflexivity]. split; [exact R|]. split; reflexivity.
Qed.
End P.
