Require Import ZArith List Bool Lia.
From Verif Require Import Json JsonSpec JsonDump JsonDumpSpec.
Import ListNotations.
Open Scope Z_scope.

(** ** Decimal texts *)
Lemma fold_dec : forall l v, fold_left (fun v c => 10 * v + (c - 48)) l v = v * 10 ^ Z.of_nat (length l) + decimal l.
Proof.
  unfold decimal. induction l as [|c l IH]; intros v; cbn [fold_left length]; [change (Z.of_nat 0) with 0; rewrite Z.pow_0_r; lia|].
  rewrite (IH (10 * v + (c - 48))), (IH (10 * 0 + (c - 48))). rewrite Nat2Z.inj_succ, Z.pow_succ_r by lia. ring.
Qed.
Lemma decimal_cons : forall c l, decimal (c :: l) = (c - 48) * 10 ^ Z.of_nat (length l) + decimal l.
Proof. intros c l. unfold decimal at 1. cbn [fold_left]. rewrite fold_dec. replace (10 * 0 + (c - 48)) with (c - 48) by lia. reflexivity. Qed.
Lemma decimal_app : forall a b, decimal (a ++ b) = decimal a * 10 ^ Z.of_nat (length b) + decimal b.
Proof. intros a b. unfold decimal at 1. rewrite fold_left_app. apply fold_dec. Qed.
Lemma pow10_pos : forall n : nat, 0 < 10 ^ Z.of_nat n.
Proof. intros n. apply Z.pow_pos_nonneg; lia. Qed.
Lemma decimal_bound : forall l, digits l -> 0 <= decimal l < 10 ^ Z.of_nat (length l).
Proof.
  induction 1 as [|c l D _ IH]; [change (decimal []) with 0; cbn; lia|]. rewrite decimal_cons. unfold digit in D. cbn [length]. rewrite Nat2Z.inj_succ, Z.pow_succ_r by lia. pose proof (pow10_pos (length l)). nia.
Qed.
Lemma int_digits : forall l, int_part l -> digits l.
Proof. intros l [|c r C D]; [repeat constructor; unfold digit; lia|]. constructor; [unfold digit; lia|exact D]. Qed.
Lemma int_lower : forall l, int_part l -> l = [48] \/ 10 ^ Z.of_nat (length l - 1) <= decimal l.
Proof.
  intros l [|c r C D]; [left; reflexivity|right]. rewrite decimal_cons. cbn [length]. replace (S (length r) - 1)%nat with (length r) by lia. pose proof (decimal_bound r D). pose proof (pow10_pos (length r)). nia.
Qed.
Lemma int_nonempty : forall l, int_part l -> (1 <= length l)%nat.
Proof. intros l [|c r _ _]; cbn; lia. Qed.
Lemma int_head : forall l, int_part l -> exists c r, l = c :: r /\ 48 <= c <= 57.
Proof. intros l [|c r C _]; eexists _, _; (split; [reflexivity|lia]). Qed.
Lemma int_longer : forall a b, int_part a -> int_part b -> (length a < length b)%nat -> decimal a < decimal b.
Proof.
  intros a b A B L. pose proof (decimal_bound a (int_digits a A)). destruct (int_lower b B) as [-> |LB]; [pose proof (int_nonempty a A); cbn in L; lia|].
  assert (10 ^ Z.of_nat (length a) <= 10 ^ Z.of_nat (length b - 1)) by (apply Z.pow_le_mono_r; lia). lia.
Qed.

(** ** Comparisons *)
Lemma strncmp_digits : forall a b, digits a -> digits b -> length a = length b ->
  exists c, strncmp a b (length a) = Some c /\ Z.sgn c = Z.sgn (decimal a - decimal b).
Proof.
  induction a as [|x a IH]; intros [|y b] DA DB L; try discriminate L; [exists 0; split; reflexivity|].
  inversion DA as [|? ? X A']; subst. inversion DB as [|? ? Y B']; subst. injection L as L. unfold digit in *.
  cbn [length strncmp]. rewrite !decimal_cons. rewrite <- L. pose proof (decimal_bound a A'). pose proof (decimal_bound b B') as HB. rewrite <- L in HB.
  set (P := 10 ^ Z.of_nat (length a)) in *. assert (0 < P) by apply pow10_pos.
  destruct (Z.eqb_spec x y) as [-> |N]; cbn [negb].
  - destruct (Z.eqb_spec y 0); [lia|]. destruct (IH b A' B' L) as (c & E & S0). exists c. split; [exact E|]. rewrite S0. f_equal. lia.
  - exists (x - y). split; [reflexivity|]. destruct (Z_lt_le_dec x y) as [LT|GE].
    + rewrite (Z.sgn_neg (x - y)) by lia. symmetry. apply Z.sgn_neg. assert ((x - 48) * P + P <= (y - 48) * P) by nia. lia.
    + rewrite (Z.sgn_pos (x - y)) by lia. symmetry. apply Z.sgn_pos. assert ((y - 48) * P + P <= (x - 48) * P) by nia. lia.
Qed.
Lemma pos_spec : forall a b, int_part a -> int_part b -> exists c, intstrncmp_pos a b = Some c /\ Z.sgn c = Z.sgn (decimal a - decimal b).
Proof.
  intros a b A B. unfold intstrncmp_pos. destruct (Nat.eqb_spec (length a) (length b)) as [E|N]; cbn [negb].
  - apply strncmp_digits; [apply int_digits; exact A|apply int_digits; exact B|exact E].
  - destruct (Nat.ltb_spec (length a) (length b)) as [L|L].
    + exists (-1). split; [reflexivity|]. pose proof (int_longer a b A B L). symmetry. apply Z.sgn_neg. lia.
    + exists 1. split; [reflexivity|]. pose proof (int_longer b a B A ltac:(lia)). symmetry. apply Z.sgn_pos. lia.
Qed.
(** integer texts other than "-0" *)
Definition neat (l : list Z) (z : Z) : Prop := integer_text l z /\ l <> [45; 48].
Lemma neat_neg : forall l, int_part l -> 45 :: l <> [45; 48] -> 0 < decimal l.
Proof.
  intros l H N. destruct H as [|c r C D]; [destruct N; reflexivity|]. rewrite decimal_cons. pose proof (decimal_bound r D). pose proof (pow10_pos (length r)). nia.
Qed.
Lemma cmp_spec : forall a x b y, neat a x -> neat b y -> exists c, intstrncmp a b = Some c /\ Z.sgn c = Z.sgn (x - y).
Proof.
  intros a x b y [A NA] [B NB]. unfold intstrncmp.
  destruct A as [a A|a A], B as [b B|b B].
  - destruct (int_head a A) as (ca & ra & EA & CA). destruct (int_head b B) as (cb & rb & EB & CB).
    pose proof (pos_spec a b A B) as P. rewrite EA, EB in P |- *. destruct (Z.eqb_spec ca 45); [lia|]. destruct (Z.eqb_spec cb 45); [lia|]. cbn [negb eqb]. exact P.
  - destruct (int_head a A) as (ca & ra & EA & CA). pose proof (neat_neg b B NB). pose proof (decimal_bound a (int_digits a A)). rewrite EA in *. destruct (Z.eqb_spec ca 45); [lia|]. cbn [Z.eqb negb eqb Pos.eqb].
    exists 1. split; [reflexivity|]. symmetry. apply Z.sgn_pos. lia.
  - destruct (int_head b B) as (cb & rb & EB & CB). pose proof (neat_neg a A NA). pose proof (decimal_bound b (int_digits b B)). rewrite EB in *. destruct (Z.eqb_spec cb 45); [lia|]. cbn [Z.eqb negb eqb Pos.eqb].
    exists (-1). split; [reflexivity|]. symmetry. apply Z.sgn_neg. lia.
  - cbn [Z.eqb negb eqb Pos.eqb]. unfold intstrncmp_neg. cbn [tl]. destruct (pos_spec a b A B) as (c & E & S0). rewrite E. exists (- c). split; [reflexivity|]. rewrite Z.sgn_opp, S0. replace (- decimal a - - decimal b) with (- (decimal a - decimal b)) by lia. rewrite Z.sgn_opp. reflexivity.
Qed.
Lemma sgn_le : forall c d, Z.sgn c = Z.sgn d -> (c <=? 0) = (d <=? 0).
Proof. intros c d. destruct c, d; cbn; intros H; try reflexivity; discriminate H. Qed.
Lemma between_spec : forall l z mn a mx b, neat l z -> neat mn a -> neat mx b ->
  intstr_is_between l mn mx = Some ((a <=? z) && (z <=? b)).
Proof.
  intros l z mn a mx b L A B. unfold intstr_is_between. destruct (cmp_spec mn a l z A L) as (c & E & S0). rewrite E. rewrite (sgn_le _ _ S0).
  replace (a - z <=? 0) with (a <=? z) by (destruct (Z.leb_spec a z), (Z.leb_spec (a - z) 0); lia). destruct (a <=? z); cbn [negb andb]; [|reflexivity].
  destruct (cmp_spec l z mx b L B) as (d & F & S1). rewrite F, (sgn_le _ _ S1). f_equal. destruct (Z.leb_spec z b), (Z.leb_spec (z - b) 0); lia.
Qed.
Ltac neat_const := split; [|discriminate];
  match goal with
  | |- integer_text (45 :: ?l) ?z => replace z with (- decimal l) by reflexivity; constructor
  | |- integer_text ?l ?z => replace z with (decimal l) by reflexivity; constructor
  end; first [apply int_zero | constructor; [lia|repeat constructor; unfold digit; lia]].
Lemma n_i32_min : neat s_int32_min (- 2 ^ 31). Proof. unfold s_int32_min, s_int64_min. neat_const. Qed.
Lemma n_i32_max : neat s_int32_max (2 ^ 31 - 1). Proof. unfold s_int32_max. neat_const. Qed.
Lemma n_u32_max : neat s_uint32_max (2 ^ 32 - 1). Proof. unfold s_uint32_max. neat_const. Qed.
Lemma n_i64_min : neat s_int64_min (- 2 ^ 63). Proof. unfold s_int32_min, s_int64_min. neat_const. Qed.
Lemma n_i64_max : neat s_int64_max (2 ^ 63 - 1). Proof. unfold s_int64_max. neat_const. Qed.
Lemma n_u64_max : neat s_uint64_max (2 ^ 64 - 1). Proof. unfold s_uint64_max. neat_const. Qed.
Lemma n_zero : neat [48] 0. Proof. unfold s_int32_min, s_int64_min. neat_const. Qed.

Definition exact_compat (c : compat) (z : Z) : Prop :=
  (c_i32 c = true <-> int32 z) /\ (c_u32 c = true <-> uint32 z) /\ (c_i64 c = true <-> int64 z) /\ (c_u64 c = true <-> uint64 z).
Lemma between_true : forall a z b, (a <=? z) && (z <=? b) = true <-> a <= z <= b.
Proof. intros a z b. rewrite andb_true_iff, !Z.leb_le. reflexivity. Qed.

Lemma no_chr : forall l c, digits l -> c < 48 \/ 57 < c -> memchr c l = false.
Proof. intros l c D N. induction D as [|x l X _ IH]; [reflexivity|]. cbn. unfold digit in X. destruct (Z.eqb_spec c x); [lia|]. exact IH. Qed.
Lemma text_chr : forall l z c, integer_text l z -> c = 46 \/ c = 101 \/ c = 69 -> memchr c l = false.
Proof.
  intros l z c [r H|r H] C; [apply no_chr; [apply int_digits; exact H|lia]|]. cbn. destruct (Z.eqb_spec c 45); [lia|]. apply no_chr; [apply int_digits; exact H|lia].
Qed.
Lemma analyze_neat : forall l z, neat l z -> (length l <= 20)%nat -> exists c, analyze l = Some c /\ exact_compat c z.
Proof.
  intros l z N L. assert (T := proj1 N). unfold analyze. destruct (Nat.leb_spec (length l) (length s_uint64_max)) as [_|X]; [|cbn in X; lia].
  assert (E : (match l with [45; 48] => [48] | _ => l end) = l).
  { destruct l as [|a [|b [|d r]]]; try reflexivity; try (destruct a as [|p|p]; try reflexivity; repeat (destruct p as [p|p|]; try reflexivity)). 
    - destruct b as [|q|q]; try reflexivity. repeat (destruct q as [q|q|]; try reflexivity). destruct (proj2 N). reflexivity.
    - destruct b as [|q|q]; try reflexivity. repeat (destruct q as [q|q|]; try reflexivity). }
  rewrite E. rewrite !(text_chr l z) by (auto; lia). cbn [negb andb].
  rewrite (between_spec l z _ _ _ _ N n_i32_min n_i32_max), (between_spec l z _ _ _ _ N n_zero n_u32_max), (between_spec l z _ _ _ _ N n_i64_min n_i64_max), (between_spec l z _ _ _ _ N n_zero n_u64_max).
  eexists. split; [reflexivity|]. unfold exact_compat, int32, uint32, int64, uint64. cbn [c_i32 c_u32 c_i64 c_u64]. rewrite !between_true. tauto.
Qed.
Lemma analyze_long : forall l, (20 < length l)%nat -> analyze l = Some (Compat false false false false).
Proof. intros l L. unfold analyze. destruct (Nat.leb_spec (length l) (length s_uint64_max)) as [X|_]; [cbn in X; lia|reflexivity]. Qed.
Lemma text_long : forall l z, integer_text l z -> (20 < length l)%nat -> ~ int64 z /\ ~ uint64 z.
Proof.
  assert (B19 : 2 ^ 63 < 10 ^ 19) by reflexivity. assert (B20 : 2 ^ 64 < 10 ^ 20) by reflexivity.
  intros l z T L. unfold int64, uint64. destruct T as [l H|l H]; destruct (int_lower l H) as [-> |LB]; try (cbn in L; lia).
  - assert (10 ^ 20 <= 10 ^ Z.of_nat (length l - 1)) by (apply Z.pow_le_mono_r; lia). lia.
  - cbn in L. assert (10 ^ 19 <= 10 ^ Z.of_nat (length l - 1)) by (apply Z.pow_le_mono_r; lia). lia.
Qed.
Lemma text_value : forall l z z', integer_text l z -> integer_text l z' -> z = z'.
Proof.
  intros l z z' [a A|a A] B; inversion B as [b HB E|b HB E]; subst; try reflexivity; exfalso.
  - destruct (int_head _ A) as (c & r & E & C). injection E as <- _. lia.
  - destruct (int_head _ HB) as (c & r & E & C). injection E as <- _. lia.
Qed.
Lemma number_cases : forall l, number l -> (exists z, integer_text l z) \/ memchr 46 l || memchr 101 l || memchr 69 l = true.
Proof.
  intros l (m & i & f & e & -> & M & H & F & E).
  assert (IN : forall c, In c (f ++ e) -> In c (m ++ i ++ f ++ e)) by (intros c X; apply in_or_app; right; apply in_or_app; right; exact X).
  assert (MC : forall c x, In c x -> memchr c x = true) by (intros c x X; apply existsb_exists; exists c; split; [exact X|apply Z.eqb_refl]).
  destruct F as [|c l D DL].
  - destruct E as [|x s c l X SG D DL].
    + left. rewrite !app_nil_r. destruct M; [eexists; apply integer_plain; exact H|eexists; apply integer_minus; exact H].
    + right. assert (In x (m ++ i ++ [] ++ x :: s ++ c :: l)) as Y by (apply IN; left; reflexivity). apply MC in Y. destruct X as [-> | ->]; rewrite Y; rewrite ?orb_true_r; reflexivity.
  - right. assert (In 46 (m ++ i ++ (46 :: c :: l) ++ e)) as Y by (apply IN; left; reflexivity). apply MC in Y. rewrite Y. reflexivity.
Qed.
Lemma analyze_not : forall l, memchr 46 l || memchr 101 l || memchr 69 l = true -> analyze l = Some (Compat false false false false).
Proof.
  intros l H. unfold analyze. destruct (_ <=? _)%nat; [|reflexivity].
  assert (E : (match l with [45; 48] => [48] | _ => l end) = l).
  { destruct l as [|a [|b [|d r]]]; try reflexivity; try (destruct a as [|p|p]; try reflexivity; repeat (destruct p as [p|p|]; try reflexivity)). 
    - destruct b as [|q|q]; try reflexivity. repeat (destruct q as [q|q|]; try reflexivity). cbn in H. discriminate H.
    - destruct b as [|q|q]; try reflexivity. repeat (destruct q as [q|q|]; try reflexivity). }
  rewrite E. destruct (memchr 46 l), (memchr 101 l), (memchr 69 l); try reflexivity. discriminate H.
Qed.

(** ** Reading *)
Lemma to_u64_digits : forall l v, digits l -> 0 <= v -> to_uint64_1 (v mod 2 ^ 64) l = (v * 10 ^ Z.of_nat (length l) + decimal l) mod 2 ^ 64.
Proof.
  induction l as [|c l IH]; intros v D V; cbn [to_uint64_1 length].
  - change (decimal []) with 0. change (Z.of_nat 0) with 0. rewrite Z.pow_0_r. f_equal. lia.
  - inversion D as [|? ? C D']; subst. unfold digit in C. unfold is_digit, is_in. destruct (Z.leb_spec 48 c); [|lia]. destruct (Z.leb_spec c 57); [|lia]. cbn [andb].
    rewrite <- (Z.add_mod_idemp_l (v mod 2 ^ 64 * 10)), Z.mul_mod_idemp_l, Z.add_mod_idemp_l by lia. rewrite IH by (auto; lia). f_equal. rewrite decimal_cons, Nat2Z.inj_succ, Z.pow_succ_r by lia. ring.
Qed.
Lemma to_u64_spec : forall l, digits l -> to_uint64 l = decimal l mod 2 ^ 64.
Proof. intros l D. unfold to_uint64. change 0 with (0 mod 2 ^ 64) at 1. rewrite to_u64_digits by (auto; lia). f_equal. Qed.
Lemma to_signed_id : forall z, int64 z -> to_signed 64 z = z.
Proof.
  intros z [A B]. unfold to_signed. change (64 - 1) with 63. destruct (Z_lt_le_dec z 0) as [L|L].
  - assert (E : z mod 2 ^ 64 = z + 2 ^ 64) by (symmetry; apply (Z.mod_unique z (2 ^ 64) (-1)); lia). rewrite E. destruct (Z.ltb_spec (z + 2 ^ 64) (2 ^ 63)); lia.
  - rewrite Z.mod_small by lia. destruct (Z.ltb_spec z (2 ^ 63)); lia.
Qed.
Lemma to_signed_mod : forall z, to_signed 64 (z mod 2 ^ 64) = to_signed 64 z.
Proof. intros z. unfold to_signed. rewrite Z.mod_mod by lia. reflexivity. Qed.
Lemma to_signed32_id : forall z, int32 z -> to_signed 32 z = z.
Proof.
  intros z [A B]. unfold to_signed. change (32 - 1) with 31. destruct (Z_lt_le_dec z 0) as [L|L].
  - assert (E : z mod 2 ^ 32 = z + 2 ^ 32) by (symmetry; apply (Z.mod_unique z (2 ^ 32) (-1)); lia). rewrite E. destruct (Z.ltb_spec (z + 2 ^ 32) (2 ^ 31)); lia.
  - rewrite Z.mod_small by lia. destruct (Z.ltb_spec z (2 ^ 31)); lia.
Qed.
Lemma to_int64_text : forall l z, integer_text l z -> int64 z -> to_int64 l = Some z.
Proof.
  intros l z [a A|a A] R.
  - destruct (int_head a A) as (c & r & E & C). pose proof (to_u64_spec a (int_digits a A)) as U. unfold to_int64. rewrite E in *. destruct (Z.eqb_spec c 45); [lia|]. rewrite U, to_signed_mod, to_signed_id by exact R. reflexivity.
  - unfold to_int64. cbn [Z.eqb Pos.eqb]. rewrite (to_u64_spec a (int_digits a A)).
    assert (E : to_signed 64 (decimal a mod 2 ^ 64 - 1) = decimal a - 1).
    { rewrite <- to_signed_mod, Zminus_mod_idemp_l, to_signed_mod. apply to_signed_id. pose proof (decimal_bound a (int_digits a A)). unfold int64 in *. lia. }
    rewrite E. unfold int64 in R. pose proof (decimal_bound a (int_digits a A)). destruct (Z.eqb_spec (decimal a - 1) (- 2 ^ 63)); [lia|]. destruct (Z.ltb_spec (- (decimal a - 1) - 1) (- 2 ^ 63)); [lia|]. cbn [orb]. f_equal. lia.
Qed.
Lemma to_uint64_text : forall l z, integer_text l z -> uint64 z -> to_uint64 l = z.
Proof.
  intros l z [a A|a A] [R1 R2].
  - rewrite to_u64_spec by (apply int_digits; exact A). apply Z.mod_small. lia.
  - unfold to_uint64. cbn. pose proof (decimal_bound a (int_digits a A)). lia.
Qed.

(** ** Printing integers *)
Lemma digits_app : forall a b, digits a -> digits b -> digits (a ++ b).
Proof. intros a b A B. apply Forall_app. split; assumption. Qed.
Fixpoint shown (n : nat) (u : Z) : list Z := match n with O => [] | S n => if u =? 0 then [] else shown n (u / 10) ++ [48 + u mod 10] end.
Lemma dump_u_shown : forall room u acc, 0 <= u < 10 ^ Z.of_nat room -> dump_u room u acc = Some (shown room u ++ acc).
Proof.
  induction room as [|room IH]; intros u acc U.
  - change (10 ^ Z.of_nat 0) with 1 in U. assert (u = 0) by lia. subst u. reflexivity.
  - cbn [dump_u shown]. destruct (Z.eqb_spec u 0) as [-> |N]; [reflexivity|]. rewrite Nat2Z.inj_succ, Z.pow_succ_r in U by lia.
    rewrite IH by (split; [apply Z.div_pos; lia|apply Z.div_lt_upper_bound; lia]). rewrite <- app_assoc. reflexivity.
Qed.
Lemma dump_s_shown : forall room u acc, 0 <= Z.abs u < 10 ^ Z.of_nat room ->
  dump_s room u acc = Some (shown room (Z.abs u) ++ acc, (room - length (shown room (Z.abs u)))%nat).
Proof.
  induction room as [|room IH]; intros u acc U.
  - change (10 ^ Z.of_nat 0) with 1 in U. assert (u = 0) by lia. subst u. reflexivity.
  - cbn [dump_s shown]. rewrite Nat2Z.inj_succ, Z.pow_succ_r in U by lia. destruct (Z.eqb_spec u 0) as [-> |N].
    + cbn [Z.abs Z.eqb app length]. reflexivity.
    + destruct (Z.eqb_spec (Z.abs u) 0) as [X|_]; [lia|].
      assert (Q : Z.abs (Z.quot u 10) = Z.abs u / 10) by (rewrite <- Z.quot_abs by lia; cbn [Z.abs]; apply Z.quot_div_nonneg; lia).
      assert (R : Z.abs (Z.rem u 10) = Z.abs u mod 10) by (rewrite <- Z.rem_abs by lia; cbn [Z.abs]; apply Z.rem_mod_nonneg; lia).
      rewrite IH by (rewrite Q; split; [apply Z.div_pos; lia|apply Z.div_lt_upper_bound; lia]). rewrite Q, R, <- app_assoc. cbn [app]. f_equal. f_equal. rewrite app_length. cbn [length]. lia.
Qed.
Lemma shown_spec : forall n u, 0 < u < 10 ^ Z.of_nat n -> exists c r, shown n u = c :: r /\ 49 <= c <= 57 /\ digits r /\ decimal (c :: r) = u.
Proof.
  induction n as [|n IH]; intros u U; [change (10 ^ Z.of_nat 0) with 1 in U; lia|]. cbn [shown]. destruct (Z.eqb_spec u 0); [lia|]. rewrite Nat2Z.inj_succ, Z.pow_succ_r in U by lia.
  pose proof (Z.mod_pos_bound u 10 ltac:(lia)) as M. pose proof (Z.div_mod u 10 ltac:(lia)) as DM. destruct (Z_lt_le_dec u 10) as [L|L].
  - assert (Z0 : u / 10 = 0) by (apply Z.div_small; lia). rewrite Z0. assert (S0 : shown n 0 = []) by (destruct n; reflexivity). rewrite S0. rewrite Z.mod_small by lia. cbn [app]. exists (48 + u), []. split; [reflexivity|]. split; [lia|]. split; [constructor|]. rewrite decimal_cons. change (decimal []) with 0. cbn [length]. change (10 ^ Z.of_nat 0) with 1. lia.
  - destruct (IH (u / 10)) as (c & r & E & C & D & V). { split; [apply Z.div_str_pos; lia|apply Z.div_lt_upper_bound; lia]. }
    rewrite E. exists c, (r ++ [48 + u mod 10]). split; [reflexivity|]. split; [exact C|]. split.
    + apply digits_app; [exact D|]. constructor; [unfold digit; lia|constructor].
    + change (c :: r ++ [48 + u mod 10]) with ((c :: r) ++ [48 + u mod 10]). rewrite decimal_app, V. cbn [length]. change (10 ^ Z.of_nat 1) with 10. rewrite decimal_cons. change (decimal []) with 0. cbn [length]. change (10 ^ Z.of_nat 0) with 1. lia.
Qed.
Lemma shown_int : forall n u, 0 < u < 10 ^ Z.of_nat n -> int_part (shown n u) /\ decimal (shown n u) = u.
Proof. intros n u U. destruct (shown_spec n u U) as (c & r & E & C & D & V). rewrite E. split; [constructor; assumption|exact V]. Qed.
Lemma dump_uint64_text : forall u, uint64 u -> exists l, dump_uint64 u = Some l /\ integer_text l u.
Proof.
  intros u [A B]. unfold dump_uint64. destruct (Z.eqb_spec u 0) as [-> |N]; [exists [48]; split; [reflexivity|]; exact (integer_plain [48] int_zero)|].
  assert (2 ^ 64 < 10 ^ Z.of_nat 32) by reflexivity. rewrite dump_u_shown by lia. rewrite app_nil_r. destruct (shown_int 32 u ltac:(lia)) as [P D]. eexists. split; [reflexivity|]. rewrite <- D at 2. constructor. exact P.
Qed.
Lemma shown_len : forall n k u, 0 <= u < 10 ^ Z.of_nat k -> (length (shown n u) <= k)%nat.
Proof.
  induction n as [|n IH]; intros k u U; [cbn; lia|]. cbn [shown]. destruct (Z.eqb_spec u 0) as [-> |N]; [cbn; lia|]. destruct k as [|k]; [change (10 ^ Z.of_nat 0) with 1 in U; lia|]. rewrite Nat2Z.inj_succ, Z.pow_succ_r in U by lia.
  rewrite app_length. cbn [length]. specialize (IH k (u / 10)). assert (0 <= u / 10 < 10 ^ Z.of_nat k) by (split; [apply Z.div_pos; lia|apply Z.div_lt_upper_bound; lia]). specialize (IH H). lia.
Qed.
Lemma dump_int64_text : forall i, int64 i -> exists l, dump_int64 i = Some l /\ integer_text l i.
Proof.
  intros i [A B]. unfold dump_int64. destruct (Z.eqb_spec i 0) as [-> |N]; [exists [48]; split; [reflexivity|]; exact (integer_plain [48] int_zero)|].
  assert (2 ^ 63 < 10 ^ Z.of_nat 31) by reflexivity. assert (10 ^ Z.of_nat 31 < 10 ^ Z.of_nat 32) by reflexivity.
  rewrite dump_s_shown by lia. rewrite app_nil_r. destruct (shown_int 32 (Z.abs i) ltac:(lia)) as [P D]. pose proof (shown_len 32 31 (Z.abs i) ltac:(lia)) as L.
  destruct (Z.ltb_spec i 0) as [G|G].
  - destruct (32 - length (shown 32 (Z.abs i)))%nat eqn:EL; [exfalso; revert EL L; generalize (length (shown 32 (Z.abs i))); clear; intros; lia|]. eexists. split; [reflexivity|]. assert (E : i = - decimal (shown 32 (Z.abs i))) by (rewrite D; lia). rewrite E at 2. constructor. exact P.
  - eexists. split; [reflexivity|]. assert (E : i = decimal (shown 32 (Z.abs i))) by (rewrite D; lia). rewrite E at 2. constructor. exact P.
Qed.
Lemma text_number : forall l z, integer_text l z -> number l.
Proof. intros l z [a A|a A]; [exists [], a, [], []|exists [45], a, [], []]; rewrite !app_nil_r; repeat split; try constructor; assumption. Qed.
