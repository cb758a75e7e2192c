From Verif Require Import Base Itoa.
Open Scope Z_scope.
Ltac Zify.zify_post_hook ::= Z.to_euclidean_division_equations.

(** Specification: value of a digit string. *)
Definition digit (c : Z) : Prop := 48 <= c <= 57.
Definition dec_value (ds : list Z) : Z := fold_left (fun a c => a * 10 + (c - 48)) ds 0.
(** [ds] is the decimal numeral of the non-negative [n]. *)
Definition decimal (n : Z) (ds : list Z) : Prop :=
  ds <> [] /\ Forall digit ds /\ dec_value ds = n /\ (hd 48 ds = 48 -> length ds = 1%nat).

Lemma fold_dec ds a : fold_left (fun a c => a * 10 + (c - 48)) ds a
  = a * 10 ^ Z.of_nat (length ds) + dec_value ds.
Proof.
  unfold dec_value. revert a. induction ds as [|d ds IH]; intros a.
  - cbn. lia.
  - cbn [fold_left]. rewrite IH, (IH (0 * 10 + (d - 48))).
    cbn [length]. rewrite Nat2Z.inj_succ, Z.pow_succ_r by lia. ring.
Qed.
Lemma dec_cons d ds : dec_value (d :: ds) = (d - 48) * 10 ^ Z.of_nat (length ds) + dec_value ds.
Proof. unfold dec_value at 1. cbn [fold_left]. rewrite fold_dec. lia. Qed.

Lemma itoa_write_spec : forall k fuel i cap acc,
  (k + 1 < fuel)%nat -> 0 <= i < 10 ^ Z.of_nat (S k) -> Z.of_nat (S k) <= cap ->
  exists ds, itoa_write fuel i (10 ^ Z.of_nat k) cap acc = Some (acc ++ ds) /\
    length ds = S k /\ Forall digit ds /\ dec_value ds = i /\
    (10 ^ Z.of_nat k <= i -> hd 48 ds <> 48).
Proof.
  induction k as [|k IH]; intros fuel i cap acc Hf Hi Hc.
  - destruct fuel as [|[|f]]; [lia|lia|].
    cbn [itoa_write]. change (10 ^ Z.of_nat 0) with 1. change (10 ^ Z.of_nat 1) with 10 in Hi.
    cbn [Z.geb Z.compare]. destruct (Z.leb_spec cap 0); [lia|].
    change (1 / 10) with 0. cbn [Z.geb Z.compare].
    change (1 >=? 1) with true. change (0 >=? 1) with false. cbn [itoa_write].
    exists [48 + i / 1]. repeat split; auto.
    + constructor; [unfold digit; lia|constructor].
    + unfold dec_value. cbn [fold_left]. lia.
    + cbn [hd]. lia.
  - destruct fuel as [|f]; [lia|].
    assert (Hpos : 0 < 10 ^ Z.of_nat k) by (apply Z.pow_pos_nonneg; lia).
    assert (E : 10 ^ Z.of_nat (S k) = 10 * 10 ^ Z.of_nat k)
      by (rewrite Nat2Z.inj_succ, Z.pow_succ_r by lia; ring).
    assert (E2 : 10 ^ Z.of_nat (S (S k)) = 10 * 10 ^ Z.of_nat (S k))
      by (rewrite (Nat2Z.inj_succ (S k)), Z.pow_succ_r by lia; ring).
    cbn [itoa_write].
    destruct (Z.geb_spec (10 ^ Z.of_nat (S k)) 1) as [_|Hx]; [|lia].
    destruct (Z.leb_spec cap 0); [lia|].
    set (P := 10 ^ Z.of_nat (S k)) in *.
    set (Q := 10 ^ Z.of_nat k) in *.
    assert (EQ : P / 10 = Q) by (rewrite E, Z.mul_comm; apply Z.div_mul; lia).
    rewrite EQ.
    assert (Hm : 0 <= i mod P < P) by (apply Z.mod_pos_bound; lia).
    assert (Hdm : i = P * (i / P) + i mod P) by (apply Z.div_mod; lia).
    destruct (IH f (i mod P) (cap - 1) (acc ++ [48 + i / P])) as (ds & E1 & E3 & E4 & E5 & E6); [lia|exact Hm|lia|].
    exists ((48 + i / P) :: ds).
    split; [rewrite E1, <- app_assoc; reflexivity|].
    split; [cbn; lia|].
    assert (0 <= i / P < 10).
    { split; [apply Z.div_pos; lia|]. apply Z.div_lt_upper_bound; lia. }
    split; [constructor; [unfold digit; lia|exact E4]|].
    split; [rewrite dec_cons, E3, E5; fold P; lia|].
    intros Hge. cbn [hd].
    assert (1 <= i / P) by (apply Z.div_le_lower_bound; lia). lia.
Qed.

(** The count loop started at threshold 10^(j+1). *)
Lemma itoa_count_spec : forall n j fuel i chars,
  (n + j = 8)%nat -> (n < fuel)%nat -> 10 ^ Z.of_nat j <= i \/ j = 0%nat -> 0 <= i <= i32_max ->
  exists k, itoa_count fuel i (10 ^ Z.of_nat (S j)) chars = Some (chars + Z.of_nat k - Z.of_nat j, 10 ^ Z.of_nat k)
    /\ (k <= 9)%nat /\ i < 10 ^ Z.of_nat (S k) /\ (10 ^ Z.of_nat k <= i \/ k = 0%nat).
Proof.
  induction n as [|n IH]; intros j fuel i chars Hnj Hf Hlo Hi.
  - assert (j = 8%nat) as -> by lia. destruct fuel as [|f]; [lia|]. cbn [itoa_count].
    change (10 ^ Z.of_nat 9) with 1000000000.
    destruct (Z.geb_spec i 1000000000).
    + change (1000000000 =? 1000000000) with true. cbv iota. exists 9%nat.
      split; [f_equal; f_equal; lia|]. unfold i32_max in Hi.
      change (10 ^ Z.of_nat 10) with 10000000000. change (10 ^ Z.of_nat 9) with 1000000000. lia.
    + exists 8%nat. change (1000000000 / 10) with 100000000.
      change (10 ^ Z.of_nat 8) with 100000000 in *. change (10 ^ Z.of_nat 9) with 1000000000.
      split; [f_equal; f_equal; lia|]. lia.
  - destruct fuel as [|f]; [lia|]. cbn [itoa_count].
    assert (E : 10 ^ Z.of_nat (S j) = 10 * 10 ^ Z.of_nat j)
      by (rewrite Nat2Z.inj_succ, Z.pow_succ_r by lia; ring).
    assert (E2 : 10 ^ Z.of_nat (S (S j)) = 10 * 10 ^ Z.of_nat (S j))
      by (rewrite (Nat2Z.inj_succ (S j)), Z.pow_succ_r by lia; ring).
    assert (Hp : 0 < 10 ^ Z.of_nat j) by (apply Z.pow_pos_nonneg; lia).
    assert (Hle : 10 ^ Z.of_nat (S j) <= 10 ^ 8) by (apply Z.pow_le_mono_r; lia).
    change (10 ^ 8) with 100000000 in Hle.
    destruct (Z.geb_spec i (10 ^ Z.of_nat (S j))) as [Hge|Hlt].
    + destruct (Z.eqb_spec (10 ^ Z.of_nat (S j)) 1000000000); [lia|].
      destruct (Z.gtb_spec (10 ^ Z.of_nat (S j) * 10) i32_max); [unfold i32_max in *; lia|].
      rewrite (Z.mul_comm (10 ^ Z.of_nat (S j)) 10), <- E2.
      destruct (IH (S j) f i (chars + 1)) as (k & Ek & Hk); [lia|lia|left; lia|lia|].
      exists k. rewrite Ek. split; [f_equal; f_equal; lia|exact Hk].
    + exists j. replace (10 ^ Z.of_nat (S j) / 10) with (10 ^ Z.of_nat j)
        by (rewrite E, Z.mul_comm, Z.div_mul by lia; reflexivity).
      split; [f_equal; f_equal; lia|]. split; [lia|]. split; [lia|exact Hlo].
Qed.

Lemma decimal_of_width k i ds : length ds = S k -> Forall digit ds -> dec_value ds = i ->
  (10 ^ Z.of_nat k <= i -> hd 48 ds <> 48) -> 10 ^ Z.of_nat k <= i \/ k = 0%nat -> decimal i ds.
Proof.
  intros Hl Hd Hv Hh Hk. split; [destruct ds; [discriminate|congruence]|].
  split; [exact Hd|]. split; [exact Hv|]. intros H48. destruct Hk as [Hk| ->]; [destruct (Hh Hk H48)|exact Hl].
Qed.

Lemma dec_bounds ds : Forall digit ds -> 0 <= dec_value ds < 10 ^ Z.of_nat (length ds).
Proof.
  induction ds as [|d ds IH]; intros H; [cbn; lia|].
  inversion H as [|? ? Hd Hds]; subst. specialize (IH Hds). rewrite dec_cons. cbn [length].
  rewrite Nat2Z.inj_succ, Z.pow_succ_r by lia. unfold digit in Hd.
  assert (0 < 10 ^ Z.of_nat (length ds)) by (apply Z.pow_pos_nonneg; lia). nia.
Qed.

(** A numeral is unique. *)
Lemma decimal_unique n ds1 ds2 : decimal n ds1 -> decimal n ds2 -> ds1 = ds2.
Proof.
  assert (Heq : forall ds1 ds2, length ds1 = length ds2 -> Forall digit ds1 -> Forall digit ds2 ->
            dec_value ds1 = dec_value ds2 -> ds1 = ds2).
  { induction ds0 as [|d1 t1 IH]; intros [|d2 t2] Hl H1 H2 Hv; try discriminate; [reflexivity|].
    inversion H1 as [|? ? Ha Hb]; inversion H2 as [|? ? Hc Hd]; subst.
    cbn [length] in Hl. injection Hl as Hl. rewrite !dec_cons, <- Hl in Hv.
    pose proof (dec_bounds t1 Hb) as B1. pose proof (dec_bounds t2 Hd) as B2. rewrite <- Hl in B2.
    set (P := 10 ^ Z.of_nat (length t1)) in *.
    assert (d1 = d2) by nia. subst d2. f_equal. apply IH; auto. lia. }
  assert (Hlow : forall ds, decimal n ds -> length ds <> 1%nat ->
            10 ^ (Z.of_nat (length ds) - 1) <= n).
  { intros [|d t] (Hne & Hd & Hv & Hz) Hl1; [congruence|].
    cbn [hd] in Hz. assert (d <> 48) by auto.
    inversion Hd as [|? ? Hd0 Ht]; subst. rewrite dec_cons. cbn [length].
    replace (Z.of_nat (S (length t)) - 1) with (Z.of_nat (length t)) by lia.
    pose proof (dec_bounds t Ht). unfold digit in *.
    assert (0 < 10 ^ Z.of_nat (length t)) by (apply Z.pow_pos_nonneg; lia). nia. }
  assert (Hlen : forall a b, decimal n a -> decimal n b -> (length a <= length b)%nat).
  { intros a b Ha Hb. destruct (le_lt_dec (length a) (length b)) as [|Hlt]; [assumption|exfalso].
    destruct b as [|b0 b']; [destruct Hb; congruence|].
    assert (length a <> 1%nat) by (cbn [length] in Hlt; lia).
    pose proof (Hlow a Ha H) as L. destruct Hb as (_ & Hbd & Hbv & _).
    pose proof (dec_bounds _ Hbd) as B. rewrite Hbv in B.
    assert (10 ^ Z.of_nat (length (b0 :: b')) <= 10 ^ (Z.of_nat (length a) - 1)) by (apply Z.pow_le_mono_r; lia).
    lia. }
  intros H1 H2. apply Heq.
  - pose proof (Hlen _ _ H1 H2). pose proof (Hlen _ _ H2 H1). lia.
  - apply H1.
  - apply H2.
  - destruct H1 as (_ & _ & -> & _), H2 as (_ & _ & -> & _). reflexivity.
Qed.

Lemma itoa_lemma i spc : i32_min < i <= i32_max -> 0 <= spc ->
  exists ds, decimal (Z.abs i) ds /\
    let text := if i <? 0 then 45 :: ds else ds in
    ws_itoa i spc = if spc <? Z.of_nat (length text) then IErr BUFFER_TOO_SMALL
                    else IOk text (spc - Z.of_nat (length text)).
Proof.
  intros Hi Hs. unfold ws_itoa.
  set (neg := i <? 0). set (i' := if neg then - i else i).
  assert (Hi' : 0 <= i' <= i32_max /\ Z.abs i = i').
  { unfold i', neg, i32_max, i32_min in *. destruct (Z.ltb_spec i 0); lia. }
  destruct Hi' as [Hi' Habs].
  assert (neg && (- i >? i32_max) = false) as ->.
  { unfold neg, i32_max, i32_min in *. destruct (Z.ltb_spec i 0); [|reflexivity].
    destruct (Z.gtb_spec (- i) 2147483647); [lia|reflexivity]. }
  destruct (itoa_count_spec 8 0 12 i' (if neg then 2 else 1)) as (k & Ek & Hk9 & Hhi & Hlo); [lia|lia|right; reflexivity|lia|].
  change (10 ^ Z.of_nat 1) with 10 in Ek. rewrite Ek.
  set (chars := (if neg then 2 else 1) + Z.of_nat k - Z.of_nat 0).
  set (pre := if neg then [45] else []).
  set (ok := negb (spc <? chars)).
  (* the digit string, computed with enough space *)
  destruct (itoa_write_spec k 12 i' (Z.of_nat (S k)) [] ltac:(lia) ltac:(lia) ltac:(lia))
    as (ds & _ & Hlen & Hdig & Hval & Hhd).
  assert (Hdec : decimal i' ds) by (eapply decimal_of_width; eauto).
  exists ds. rewrite Habs. split; [exact Hdec|]. cbv zeta.
  assert (Hchars : Z.of_nat (length (if neg then 45 :: ds else ds)) = chars).
  { unfold chars. destruct neg; cbn [length]; rewrite Hlen; lia. }
  rewrite Hchars. destruct (Z.ltb_spec spc chars) as [_|Hge]; [reflexivity|].
  assert (neg && (spc <=? 0) = false) as ->.
  { destruct neg; [|reflexivity]. destruct (Z.leb_spec spc 0); [unfold chars in *; lia|reflexivity]. }
  destruct (itoa_write_spec k 12 i' (spc - Z.of_nat (length pre)) pre ltac:(lia) ltac:(lia))
    as (ds2 & E2 & Hlen2 & Hdig2 & Hval2 & Hhd2).
  { unfold chars, pre in *. destruct neg; cbn [length] in *; lia. }
  rewrite E2. assert (Hdec2 : decimal i' ds2) by (eapply decimal_of_width; eauto).
  rewrite (decimal_unique _ _ _ Hdec2 Hdec). f_equal. unfold pre. destruct neg; reflexivity.
Qed.
