From Verif Require Import Base TimeConv.
Open Scope Z_scope.
Ltac Zify.zify_post_hook ::= Z.to_euclidean_division_equations.

Lemma to_epoch_total t : i64_min <= t <= i64_max ->
  exists s ns, to_epoch_time t = TOk (s, ns) /\ s = Z.quot t 1000000 /\ ns = Z.rem t 1000000 * 1000.
Proof.
  unfold to_epoch_time, in_i64, i64_min, i64_max. intros Ht.
  destruct (Z.gtb_spec (Z.quot t 1000000) 9223372036854775807); [lia|].
  destruct (Z.leb_spec (-9223372036854775808) (Z.rem t 1000000 * 1000)); [|lia].
  destruct (Z.leb_spec (Z.rem t 1000000 * 1000) 9223372036854775807); [|lia].
  cbn [andb]. eexists; eexists; split; [reflexivity|]. auto.
Qed.

Lemma time_roundtrip_lemma t : i64_min <= t <= i64_max ->
  exists s ns, to_epoch_time t = TOk (s, ns) /\ s * 1000000000 + ns = t * 1000 /\ Z.abs ns < 1000000000
               /\ from_epoch_time s ns = TOk t.
Proof.
  intros Ht. destruct (to_epoch_total t Ht) as (s & ns & E & H1 & H2).
  exists s, ns. split; [exact E|]. clear E. subst. split; [lia|]. split; [lia|].
  unfold from_epoch_time, in_i64, i64_min, i64_max in *.
  change (Z.quot 9223372036854775807 1000000) with 9223372036854.
  set (s := Z.quot t 1000000) in *. set (ns := Z.rem t 1000000 * 1000) in *.
  assert (Hs : s = Z.quot t 1000000) by reflexivity. assert (Hns : ns = Z.rem t 1000000 * 1000) by reflexivity.
  clearbody s ns.
  assert (Z.quot ns 1000 = Z.rem t 1000000) as ->
    by (rewrite Hns; apply Z.quot_mul; lia).
  destruct (Z.gtb_spec s 9223372036854); [lia|].
  destruct (Z.leb_spec (-9223372036854775808) (s * 1000000)); [|lia].
  destruct (Z.leb_spec (s * 1000000) 9223372036854775807); [|lia].
  destruct (Z.leb_spec (-9223372036854775808) (s * 1000000 + Z.rem t 1000000)); [|lia].
  destruct (Z.leb_spec (s * 1000000 + Z.rem t 1000000) 9223372036854775807); [|lia].
  cbn [andb]. f_equal. lia.
Qed.

Lemma from_epoch_partial_lemma s ns : i64_min <= s <= i64_max -> 0 <= s -> 0 <= ns < 1000000000 ->
  (s <= 9223372036853 ->
     exists t, from_epoch_time s ns = TOk t /\ t = s * 1000000 + ns / 1000 /\
               to_epoch_time t = TOk (s, (ns / 1000) * 1000)) /\
  (9223372036854 < s -> from_epoch_time s ns = TErr NUMERIC_ARG_TOO_BIG).
Proof.
  unfold from_epoch_time, to_epoch_time, in_i64, i64_min, i64_max. intros Hs Hp Hn.
  change (Z.quot 9223372036854775807 1000000) with 9223372036854. split; intros Hb.
  - destruct (Z.gtb_spec s 9223372036854); [lia|].
    exists (s * 1000000 + ns / 1000).
    destruct (Z.leb_spec (-9223372036854775808) (s * 1000000)); [|lia].
    destruct (Z.leb_spec (s * 1000000) 9223372036854775807); [|lia].
    destruct (Z.leb_spec (-9223372036854775808) (s * 1000000 + Z.quot ns 1000)); [|lia].
    destruct (Z.leb_spec (s * 1000000 + Z.quot ns 1000) 9223372036854775807); [|lia].
    cbn [andb].
    assert (Z.quot (s * 1000000 + ns / 1000) 1000000 = s) as -> by lia.
    assert (Z.rem (s * 1000000 + ns / 1000) 1000000 = ns / 1000) as -> by lia.
    destruct (Z.gtb_spec s 9223372036854775807); [lia|].
    destruct (Z.leb_spec (-9223372036854775808) (ns / 1000 * 1000)); [|lia].
    destruct (Z.leb_spec (ns / 1000 * 1000) 9223372036854775807); [|lia].
    cbn [andb]. repeat split; f_equal; lia.
  - destruct (Z.gtb_spec s 9223372036854); [reflexivity|lia].
Qed.

Lemma add_diff_lemma t d : i64_min <= t <= i64_max -> i64_min <= d <= i64_max ->
  match add_time t d with
  | TOk t' => t' = t + d /\ diff_time t' t = TOk d
  | TErr _ => False
  | TUB => t + d < i64_min \/ i64_max < t + d
  end.
Proof.
  unfold add_time, diff_time, in_i64, i64_min, i64_max. intros Ht Hd.
  destruct (Z.leb_spec (-9223372036854775808) (t + d)); cbn [andb]; [|left; lia].
  destruct (Z.leb_spec (t + d) 9223372036854775807); cbn [andb]; [|right; lia].
  split; [reflexivity|].
  destruct (Z.leb_spec (-9223372036854775808) (t + d - t)); [|lia].
  destruct (Z.leb_spec (t + d - t) 9223372036854775807); [|lia].
  cbn [andb]. f_equal. lia.
Qed.
