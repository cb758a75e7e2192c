From Verif Require Import Base Labels Addr AddrSpec.
Open Scope Z_scope.
Ltac Zify.zify_post_hook ::= Z.to_euclidean_division_equations.

Definition bytes_ok (a : list N) : Prop := Forall (fun b => (b < 256)%N) a.

Lemma nth_lt (a : list N) i : bytes_ok a -> (nth i a 0 < 256)%N.
Proof.
  intros H. destruct (Nat.lt_ge_cases i (length a)) as [L|L].
  - exact (proj1 (Forall_forall _ _) H _ (nth_In _ _ L)).
  - rewrite nth_overflow by exact L. reflexivity.
Qed.

Lemma memcmp_some n : forall l r, (n <= length l)%nat -> (n <= length r)%nat ->
  exists c, memcmp n l r = Some c /\ (c = 0 <-> (forall i, (i < n)%nat -> nth i l 0%N = nth i r 0%N)).
Proof.
  induction n as [|n IH]; intros l r Hl Hr.
  - exists 0. split; [reflexivity|]. split; [intros _ i Hi; lia|reflexivity].
  - destruct l as [|a l]; [cbn in Hl; lia|]. destruct r as [|b r]; [cbn in Hr; lia|].
    cbn [memcmp]. destruct (N.eqb_spec a b) as [E|E].
    + destruct (IH l r) as (c & Hc & Hz); [cbn in Hl; lia|cbn in Hr; lia|].
      exists c. split; [exact Hc|]. split; intros H.
      * intros i Hi. destruct i; [exact E|]. cbn [nth]. apply Hz; [exact H|lia].
      * apply Hz. intros i Hi. specialize (H (S i)). cbn [nth] in H. apply H. lia.
    + eexists. split; [reflexivity|]. split; intros H; [lia|].
      specialize (H O). cbn [nth] in H. destruct E. apply H. lia.
Qed.

Lemma byte_eq x y : (x < 256)%N -> (y < 256)%N ->
  (x = y <-> (forall j, (j < 8)%nat -> N.testbit x (N.of_nat (7 - j)) = N.testbit y (N.of_nat (7 - j)))).
Proof.
  intros Hx Hy. split; [intros -> j _; reflexivity|]. intros H. apply N.bits_inj. intros k.
  destruct (N.lt_ge_cases k 8) as [K|K].
  - specialize (H (7 - N.to_nat k)%nat). rewrite <- (N2Nat.id k).
    replace (N.to_nat k) with (7 - (7 - N.to_nat k))%nat at 1 2 by lia. apply H. lia.
  - rewrite !N.bits_above_log2; [reflexivity| |].
    + destruct (N.eq_dec y 0) as [->|Y]; [cbn; lia|]. apply N.log2_lt_pow2; [lia|].
      eapply N.lt_le_trans; [exact Hy|]. change 256%N with (2 ^ 8)%N. apply N.pow_le_mono_r; lia.
    + destruct (N.eq_dec x 0) as [->|Y]; [cbn; lia|]. apply N.log2_lt_pow2; [lia|].
      eapply N.lt_le_trans; [exact Hx|]. change 256%N with (2 ^ 8)%N. apply N.pow_le_mono_r; lia.
Qed.

Lemma shr_lt x k : (x < 256)%N -> (shr x k < 256)%N.
Proof.
  intros H. unfold shr. rewrite N.shiftr_div_pow2. eapply N.le_lt_trans; [|exact H].
  apply N.div_le_upper_bound; [apply N.pow_nonzero; lia|]. rewrite <- (N.mul_1_l x) at 1.
  apply N.mul_le_mono_r. pose proof (N.pow_nonzero 2 (N.of_nat k)). lia.
Qed.

Lemma shr_eq x y k : (k <= 8)%nat -> (x < 256)%N -> (y < 256)%N ->
  (shr x k = shr y k <-> (forall j, (j < 8 - k)%nat -> N.testbit x (N.of_nat (7 - j)) = N.testbit y (N.of_nat (7 - j)))).
Proof.
  intros Hk Hx Hy. rewrite byte_eq by (apply shr_lt; assumption). unfold shr.
  split; intros H j Hj.
  - specialize (H (j + k)%nat). rewrite !N.shiftr_spec' in H.
    replace (N.of_nat (7 - j)) with (N.of_nat (7 - (j + k)) + N.of_nat k)%N by lia. apply H. lia.
  - rewrite !N.shiftr_spec'.
    destruct (Nat.lt_ge_cases (7 - j + k) 8) as [L|L].
    + replace (N.of_nat (7 - j) + N.of_nat k)%N with (N.of_nat (7 - (j - k))) by lia. apply H. lia.
    + assert (B : forall z, (z < 256)%N -> N.testbit z (N.of_nat (7 - j) + N.of_nat k) = false).
      { intros z Hz. destruct (N.eq_dec z 0) as [->|Z0]; [apply N.bits_0|].
        apply N.bits_above_log2. apply N.log2_lt_pow2; [lia|]. eapply N.lt_le_trans; [exact Hz|].
        change 256%N with (2 ^ 8)%N. apply N.pow_le_mono_r; lia. }
      rewrite !B by assumption. reflexivity.
Qed.

Lemma addr_bit_at a i j : (j < 8)%nat -> addr_bit a (8 * i + j) = N.testbit (nth i a 0%N) (N.of_nat (7 - j)).
Proof.
  intros H. unfold addr_bit. replace ((8 * i + j) / 8)%nat with i by lia.
  replace ((8 * i + j) mod 8)%nat with j by lia. reflexivity.
Qed.

Lemma same_bits_bytes n a b : bytes_ok a -> bytes_ok b ->
  (same_bits (8 * n) a b <-> (forall i, (i < n)%nat -> nth i a 0%N = nth i b 0%N)).
Proof.
  intros Ha Hb. split; intros H.
  - intros i Hi. apply byte_eq; [apply nth_lt; assumption..|]. intros j Hj.
    rewrite <- !addr_bit_at by exact Hj. apply H. lia.
  - intros i Hi. unfold addr_bit. rewrite H by lia. reflexivity.
Qed.

Lemma same_bits_split n k a b : (k <= 8)%nat -> bytes_ok a -> bytes_ok b ->
  (same_bits (8 * n + k) a b <->
   (forall i, (i < n)%nat -> nth i a 0%N = nth i b 0%N) /\
   (forall j, (j < k)%nat -> N.testbit (nth n a 0%N) (N.of_nat (7 - j)) = N.testbit (nth n b 0%N) (N.of_nat (7 - j)))).
Proof.
  intros Hk Ha Hb. rewrite <- same_bits_bytes by assumption. split.
  - intros H. split; [intros i Hi; apply H; lia|]. intros j Hj. rewrite <- !addr_bit_at by lia. apply H. lia.
  - intros [H1 H2] i Hi. destruct (Nat.lt_ge_cases i (8 * n)) as [L|L]; [apply H1; exact L|].
    replace i with (8 * n + (i - 8 * n))%nat by lia. rewrite !addr_bit_at by lia. apply H2. lia.
Qed.

Lemma nth_error_nth' (l : list N) n : (n < length l)%nat -> nth_error l n = Some (nth n l 0%N).
Proof.
  intros H. destruct (nth_error l n) as [x|] eqn:E.
  - rewrite (nth_error_nth _ _ _ E). reflexivity.
  - apply nth_error_None in E. lia.
Qed.

(** Subnet comparison of an [n]-bit prefix with an [m]-bit address, [n <= m], either one possibly with ignored bits. *)
Lemma prefix_cmp_spec p n t m :
  addr_ok p n -> addr_ok t m -> (n <= m)%nat ->
  exists c i, cmp_addrs_prefixful p n t m false true = Some (c, i) /\
    (c = 0 <-> (if (n =? m)%nat then forall i, (i < bits_to_bytes n)%nat -> nth i p 0%N = nth i t 0%N
                else same_bits (compared_bits n) p t)).
Proof.
  intros [Lp Bp] [Lt Bt] H. unfold cmp_addrs_prefixful. cbv zeta.
  rewrite Nat.min_l by exact H.
  assert (HB : (bits_to_bytes n <= bits_to_bytes m)%nat) by (unfold bits_to_bytes; lia).
  fold (bits_to_bytes n) in Lp. fold (bits_to_bytes m) in Lt.
  destruct (Nat.eqb_spec n 0) as [N0|N0].
  - subst n. destruct (Nat.eqb_spec 0 m).
    + subst. do 2 eexists. split; [reflexivity|]. split; [intros _ i Hi; unfold bits_to_bytes in Hi; cbn in Hi; lia|reflexivity].
    + cbn [orb]. do 2 eexists. split; [reflexivity|]. split; [intros _ i Hi; unfold compared_bits in Hi; cbn in Hi; lia|reflexivity].
  - destruct (Nat.eqb_spec n m) as [NM|NM]; cbn [negb].
    + subst m. destruct (memcmp_some (bits_to_bytes n) p t) as (c & Hc & Hz); [lia|lia|].
      rewrite Hc. destruct (Z.eqb_spec c 0) as [C|C].
      * do 2 eexists; split; [reflexivity|]. tauto.
      * do 2 eexists; split; [reflexivity|]. tauto.
    + unfold compared_bits. destruct (Nat.eqb_spec (n mod 8) 0) as [M|M].
      * destruct (memcmp_some (bits_to_bytes n) p t) as (c & Hc & Hz); [lia|lia|]. rewrite Hc.
        assert (E : n = (8 * bits_to_bytes n)%nat) by (unfold bits_to_bytes; lia).
        pose proof (same_bits_bytes (bits_to_bytes n) p t Bp Bt) as SB. rewrite <- E in SB.
        destruct (Z.eqb_spec c 0) as [C|C]; do 2 eexists; (split; [reflexivity|]); tauto.
      * destruct (memcmp_some (bits_to_bytes n - 1) p t) as (c & Hc & Hz); [lia|lia|]. rewrite Hc.
        assert (E : (n / 8 = bits_to_bytes n - 1)%nat) by (unfold bits_to_bytes; lia).
        rewrite E. pose proof (same_bits_split (bits_to_bytes n - 1) (8 - n mod 8) p t ltac:(lia) Bp Bt) as SS.
        assert (E1 : (0 < bits_to_bytes n)%nat) by (unfold bits_to_bytes; lia).
        destruct (Z.eqb_spec c 0) as [C|C]; cbn [negb].
        -- rewrite !nth_error_nth' by lia.
           pose proof (shr_eq (nth (bits_to_bytes n - 1) p 0%N) (nth (bits_to_bytes n - 1) t 0%N) (n mod 8)) as SE.
           specialize (SE ltac:(lia) (nth_lt _ _ Bp) (nth_lt _ _ Bt)).
           destruct (N.eqb_spec (shr (nth (bits_to_bytes n - 1) p 0%N) (n mod 8)) (shr (nth (bits_to_bytes n - 1) t 0%N) (n mod 8))) as [S|S].
           ++ do 2 eexists; split; [reflexivity|]. tauto.
           ++ destruct (N.ltb _ _); do 2 eexists; (split; [reflexivity|]); (split; [discriminate|tauto]).
        -- do 2 eexists; split; [reflexivity|]. tauto.
Qed.

(** The initialised prefix keeps the compared bits. *)
Lemma set_byte_len l i v : length (set_byte l i v) = length l.
Proof. revert i; induction l as [|h t IH]; intros [|i]; cbn; try reflexivity. rewrite IH. reflexivity. Qed.
Lemma set_byte_same l i v : (i < length l)%nat -> nth i (set_byte l i v) 0%N = v.
Proof. revert i; induction l as [|h t IH]; intros [|i] H; cbn in *; try lia; try reflexivity. apply IH. lia. Qed.
Lemma set_byte_other l i j v : i <> j -> nth j (set_byte l i v) 0%N = nth j l 0%N.
Proof. revert i j; induction l as [|h t IH]; intros [|i] [|j] H; cbn; try reflexivity; try lia. apply IH. lia. Qed.
Lemma set_byte_ok l i v : bytes_ok l -> (v < 256)%N -> bytes_ok (set_byte l i v).
Proof.
  unfold bytes_ok. revert i; induction l as [|h t IH]; intros [|i] H V; cbn; auto; inversion H; subst; constructor; auto.
Qed.

Lemma high_mask k j : (k < 8)%nat -> N.testbit (N.modulo (N.shiftl 255 (N.of_nat k)) 256) (N.of_nat j) = ((k <=? j)%nat && (j <? 8)%nat).
Proof.
  intros H. change 256%N with (2 ^ 8)%N.
  destruct (Nat.lt_ge_cases j 8) as [J|J].
  - rewrite N.mod_pow2_bits_low by lia.
    destruct (Nat.leb_spec k j).
    + rewrite N.shiftl_spec_high' by lia. replace (N.of_nat j - N.of_nat k)%N with (N.of_nat (j - k)) by lia.
      destruct (Nat.ltb_spec j 8); [|lia]. assert (Q : (j - k < 8)%nat) by lia. revert Q. generalize (j - k)%nat. intros q Q.
      do 8 (destruct q as [|q]; [reflexivity|]). lia.
    + rewrite N.shiftl_spec_low by lia. reflexivity.
  - rewrite N.mod_pow2_bits_high by lia. destruct (Nat.ltb_spec j 8); [lia|]. rewrite andb_false_r. reflexivity.
Qed.
Lemma low_mask k j : (k < 8)%nat -> N.testbit (shr 255 (8 - k)) (N.of_nat j) = (j <? k)%nat.
Proof.
  intros H. unfold shr. rewrite N.shiftr_spec'.
  replace (N.of_nat j + N.of_nat (8 - k))%N with (N.of_nat (j + (8 - k))) by lia.
  destruct (Nat.ltb_spec j k).
  - assert (Q : (j + (8 - k) < 8)%nat) by lia. revert Q. generalize (j + (8 - k))%nat. intros q Q.
    do 8 (destruct q as [|q]; [reflexivity|]). lia.
  - assert (Q : (8 <= j + (8 - k))%nat) by lia. revert Q. generalize (j + (8 - k))%nat. intros q Q.
    apply N.bits_above_log2. cbn. lia.
Qed.

Lemma byte_lt_bits x : (forall j, (8 <= j)%nat -> N.testbit x (N.of_nat j) = false) -> (x < 256)%N.
Proof.
  intros H. destruct (N.eq_dec x 0) as [->|X]; [lia|]. change 256%N with (2 ^ 8)%N. apply N.log2_lt_pow2; [lia|].
  destruct (N.lt_ge_cases (N.log2 x) 8) as [L|L]; [exact L|].
  pose proof (N.bit_log2 x X) as B. specialize (H (N.to_nat (N.log2 x))). rewrite N2Nat.id in H. rewrite H in B by lia. discriminate.
Qed.

Lemma land_lt x y : (x < 256)%N -> (N.land x y < 256)%N.
Proof.
  intros H. apply byte_lt_bits. intros j Hj. rewrite N.land_spec.
  replace (N.testbit x (N.of_nat j)) with false; [reflexivity|]. symmetry.
  destruct (N.eq_dec x 0) as [->|Z0]; [apply N.bits_0|].
  apply N.bits_above_log2. apply N.log2_lt_pow2; [lia|]. eapply N.lt_le_trans; [exact H|].
  change 256%N with (2 ^ 8)%N. apply N.pow_le_mono_r; lia.
Qed.

Lemma init_prefix_ok a n : addr_ok a n -> addr_ok (init_prefix_addr a n) n.
Proof.
  intros [L B]. unfold init_prefix_addr. destruct (n mod 8 =? 0)%nat; [split; assumption|].
  destruct (N.eqb _ _); [split; assumption|]. split.
  - rewrite set_byte_len. exact L.
  - apply set_byte_ok; [exact B|]. apply land_lt. apply nth_lt. exact B.
Qed.

(** Every bit of the initialised prefix: cleared iff it is one of the last n mod 8 bits of the last byte. *)
Lemma init_prefix_bit a n i : addr_ok a n -> (i < 8 * bits_to_bytes n)%nat ->
  addr_bit (init_prefix_addr a n) i = (addr_bit a i && (i <? compared_bits n)%nat).
Proof.
  intros [L B] Hi. unfold init_prefix_addr, compared_bits. fold (bits_to_bytes n) in L.
  destruct (Nat.eqb_spec (n mod 8) 0) as [M|M].
  - destruct (Nat.ltb_spec i n) as [H|H]; [rewrite andb_true_r; reflexivity|]. unfold bits_to_bytes in Hi. lia.
  - set (k := (n mod 8)%nat) in *. set (lsb := (bits_to_bytes n - 1)%nat) in *.
    assert (EL : (n / 8)%nat = lsb) by (unfold lsb, bits_to_bytes; lia). rewrite EL.
    assert (HL : (lsb < length a)%nat) by (unfold lsb; lia).
    destruct (Nat.lt_ge_cases i (8 * lsb)) as [I|I].
    + replace (i <? 8 * lsb + (8 - k))%nat with true by (symmetry; apply Nat.ltb_lt; lia). rewrite andb_true_r.
      destruct (N.eqb _ _); [reflexivity|]. unfold addr_bit. rewrite set_byte_other by lia. reflexivity.
    + replace i with (8 * lsb + (i - 8 * lsb))%nat by lia. set (j := (i - 8 * lsb)%nat).
      assert (J : (j < 8)%nat) by (unfold j; lia). rewrite !addr_bit_at by exact J.
      replace (8 * lsb + j <? 8 * lsb + (8 - k))%nat with (k <=? 7 - j)%nat
        by (destruct (Nat.leb_spec k (7 - j)); destruct (Nat.ltb_spec (8 * lsb + j) (8 * lsb + (8 - k))); lia).
      destruct (N.eqb_spec (N.land (nth lsb a 0%N) (shr 255 (8 - k))) 0) as [Z|Z].
      * destruct (Nat.leb_spec k (7 - j)) as [Q|Q]; [rewrite andb_true_r; reflexivity|].
        assert (T : N.testbit (N.land (nth lsb a 0%N) (shr 255 (8 - k))) (N.of_nat (7 - j)) = false) by (rewrite Z; apply N.bits_0).
        rewrite N.land_spec, low_mask in T by lia. replace (7 - j <? k)%nat with true in T by (symmetry; apply Nat.ltb_lt; lia).
        rewrite andb_true_r in T. rewrite T. reflexivity.
      * rewrite set_byte_same by exact HL. rewrite N.land_spec, high_mask by lia.
        replace (7 - j <? 8)%nat with true by (symmetry; apply Nat.ltb_lt; lia). rewrite andb_true_r. reflexivity.
Qed.

Lemma compared_le n : (compared_bits n <= 8 * bits_to_bytes n)%nat.
Proof. unfold compared_bits, bits_to_bytes. destruct (Nat.eqb_spec (n mod 8) 0); lia. Qed.

Lemma prefix_match p n t m :
  addr_ok p n -> addr_ok t m -> (m mod 8 = 0)%nat -> (n <= m)%nat ->
  exists c i, cmp_addrs_prefixful (init_addr false p n) n t m false true = Some (c, i) /\
    (c = 0 <-> same_bits (compared_bits n) p t).
Proof.
  intros Hp Ht M H. unfold init_addr.
  destruct (prefix_cmp_spec _ _ _ _ (init_prefix_ok _ _ Hp) Ht H) as (c & i & Hc & Hz).
  exists c, i. split; [exact Hc|]. rewrite Hz.
  destruct (Nat.eqb_spec n m) as [E|E].
  - subst m. rewrite <- same_bits_bytes by (try apply init_prefix_ok; destruct Hp, Ht; try assumption; split; assumption).
    unfold compared_bits. rewrite M, Nat.eqb_refl.
    replace (8 * bits_to_bytes n)%nat with n by (unfold bits_to_bytes; lia).
    unfold init_prefix_addr. rewrite M, Nat.eqb_refl. reflexivity.
  - pose proof (compared_le n) as CL. split; intros S i' Hi'; specialize (S i' Hi').
    + rewrite init_prefix_bit in S by (try assumption; lia).
      replace (i' <? compared_bits n)%nat with true in S by (symmetry; apply Nat.ltb_lt; lia). rewrite andb_true_r in S. exact S.
    + rewrite init_prefix_bit by (try assumption; lia).
      replace (i' <? compared_bits n)%nat with true by (symmetry; apply Nat.ltb_lt; lia). rewrite andb_true_r. exact S.
Qed.

(** Bitmask comparison. *)
Lemma mask_loop_spec fuel : forall i maskful mask target inx,
  (i + fuel <= length maskful)%nat -> (i + fuel <= length mask)%nat -> (i + fuel <= length target)%nat ->
  exists c x, mask_loop fuel i 0 maskful mask target inx = Some (c, x) /\
    (c = 0 <-> (forall j, (i <= j < i + fuel)%nat -> N.land (nth j target 0%N) (nth j mask 0%N) = nth j maskful 0%N)).
Proof.
  induction fuel as [|k IH]; intros i maskful mask target inx H1 H2 H3.
  - do 2 eexists. split; [reflexivity|]. split; [intros _ j Hj; lia|reflexivity].
  - cbn [mask_loop]. replace (i <? 0)%nat with false by (symmetry; apply Nat.ltb_ge; lia). rewrite Nat.sub_0_r.
    rewrite !nth_error_nth' by lia.
    destruct (N.eqb_spec (N.land (nth i target 0%N) (nth i mask 0%N)) (nth i maskful 0%N)) as [E|E].
    + destruct (IH (S i) maskful mask target (if N.eqb (nth i target 0%N) (nth i maskful 0%N) then inx else true)) as (c & x & Hc & Hz); [lia|lia|lia|].
      exists c, x. split; [exact Hc|]. rewrite Hz. split; intros H j Hj.
      * destruct (Nat.eq_dec j i) as [->|]; [exact E|]. apply H. lia.
      * apply H. lia.
    + do 2 eexists. split; [reflexivity|]. split; intros H; [lia|]. destruct E. apply H. lia.
Qed.

(** General safety of the loop, with padding. *)
Lemma mask_loop_safe fuel : forall i pad maskful mask target inx,
  (i + fuel <= length maskful)%nat -> (i + fuel <= length mask)%nat -> (i + fuel <= length target + pad)%nat ->
  exists c x, mask_loop fuel i pad maskful mask target inx = Some (c, x) /\
    (c = 0 <-> (forall j, (i <= j < i + fuel)%nat ->
       (if (j <? pad)%nat then 0%N else N.land (nth (j - pad) target 0%N) (nth j mask 0%N)) = nth j maskful 0%N)).
Proof.
  induction fuel as [|k IH]; intros i pad maskful mask target inx H1 H2 H3.
  - do 2 eexists. split; [reflexivity|]. split; [intros _ j Hj; lia|reflexivity].
  - cbn [mask_loop]. rewrite (nth_error_nth' maskful) by lia.
    destruct (Nat.ltb_spec i pad) as [P|P].
    + destruct (N.eqb_spec (nth i maskful 0%N) 0) as [E|E]; cbn [negb].
      * destruct (IH (S i) pad maskful mask target inx) as (c & x & Hc & Hz); [lia|lia|lia|].
        exists c, x. split; [exact Hc|]. rewrite Hz. split; intros H j Hj.
        -- destruct (Nat.eq_dec j i) as [->|]; [|apply H; lia]. destruct (Nat.ltb_spec i pad); [congruence|lia].
        -- apply H. lia.
      * do 2 eexists. split; [reflexivity|]. split; intros H; [lia|]. specialize (H i ltac:(lia)).
        destruct (Nat.ltb_spec i pad); [congruence|lia].
    + rewrite (nth_error_nth' mask), (nth_error_nth' target) by lia.
      destruct (N.eqb_spec (N.land (nth (i - pad) target 0%N) (nth i mask 0%N)) (nth i maskful 0%N)) as [E|E].
      * destruct (IH (S i) pad maskful mask target (if N.eqb (nth (i - pad) target 0%N) (nth i maskful 0%N) then inx else true)) as (c & x & Hc & Hz); [lia|lia|lia|].
        exists c, x. split; [exact Hc|]. rewrite Hz. split; intros H j Hj.
        -- destruct (Nat.eq_dec j i) as [->|]; [|apply H; lia]. destruct (Nat.ltb_spec i pad); [lia|exact E].
        -- apply H. lia.
      * do 2 eexists. split; [reflexivity|]. split; intros H; [lia|]. specialize (H i ltac:(lia)).
        destruct (Nat.ltb_spec i pad); [lia|]. contradiction.
Qed.

Lemma land_bytes_len a : forall m, length a = length m -> length (land_bytes a m) = length a.
Proof. induction a as [|x a IH]; intros [|y m] H; cbn in *; try lia; try discriminate. rewrite IH; lia. Qed.
Lemma land_bytes_nth a : forall m i, length a = length m -> nth i (land_bytes a m) 0%N = N.land (nth i a 0%N) (nth i m 0%N).
Proof.
  induction a as [|x a IH]; intros [|y m] [|i] H; cbn in *; try lia; try discriminate; try reflexivity. apply IH. lia.
Qed.
Lemma land_bytes_ok a : forall m, bytes_ok a -> bytes_ok (land_bytes a m).
Proof.
  unfold bytes_ok. induction a as [|x a IH]; intros [|y m] H; cbn; constructor; inversion H; subst; [apply land_lt; assumption|apply IH; assumption].
Qed.
Lemma firstn_ok {A} (P : A -> Prop) n l : Forall P l -> Forall P (firstn n l).
Proof. intros H. rewrite <- (firstn_skipn n l) in H. apply Forall_app in H. tauto. Qed.
Lemma skipn_ok {A} (P : A -> Prop) n l : Forall P l -> Forall P (skipn n l).
Proof. intros H. rewrite <- (firstn_skipn n l) in H. apply Forall_app in H. tauto. Qed.

Lemma bytes_double L : (L mod 8 = 0)%nat -> bits_to_bytes (L + L) = (bits_to_bytes L + bits_to_bytes L)%nat.
Proof. unfold bits_to_bytes. lia. Qed.

Lemma init_bitmask_split addr mask L : addr_ok addr L -> addr_ok mask L -> (L mod 8 = 0)%nat ->
  init_bitmask_addr (addr ++ mask) (L + L) = land_bytes addr mask ++ mask.
Proof.
  intros [La _] [Lm _] M. unfold init_bitmask_addr. rewrite bytes_double by exact M.
  fold (bits_to_bytes L) in La, Lm.
  replace ((bits_to_bytes L + bits_to_bytes L) / 2)%nat with (bits_to_bytes L) by lia.
  rewrite <- La. rewrite firstn_app, skipn_app, firstn_all, skipn_all, Nat.sub_diag. cbn [firstn skipn app]. rewrite app_nil_r. reflexivity.
Qed.

Lemma bitmask_match addr mask t L :
  addr_ok addr L -> addr_ok mask L -> addr_ok t L -> (L mod 8 = 0)%nat -> (0 < L)%nat ->
  exists c i, cmp_addrs_bitmaskful (init_addr true (addr ++ mask) (L + L)) (L + L) t L false true = Some (c, i) /\
    (c = 0 <-> (forall j, (j < L)%nat -> addr_bit mask j = true -> addr_bit t j = addr_bit addr j)).
Proof.
  intros Ha Hm Ht M H0. unfold init_addr. rewrite init_bitmask_split by assumption.
  destruct Ha as [La Ba], Hm as [Lm Bm], Ht as [Lt Bt]. fold (bits_to_bytes L) in La, Lm, Lt.
  unfold cmp_addrs_bitmaskful. cbv zeta.
  replace ((L + L) / 2 <? L)%nat with false by (symmetry; apply Nat.ltb_ge; lia). cbn [andb].
  replace (Nat.min (L + L) L =? 0)%nat with false by (symmetry; apply Nat.eqb_neq; lia).
  replace (L + L =? L)%nat with false by (symmetry; apply Nat.eqb_neq; lia).
  replace (L + L <? L)%nat with false by (symmetry; apply Nat.ltb_ge; lia).
  replace ((L + L) / 2)%nat with L by lia. rewrite Nat.sub_diag.
  assert (LL : length (land_bytes addr mask) = bits_to_bytes L) by (rewrite land_bytes_len; congruence).
  rewrite skipn_app, skipn_all2 by lia. rewrite LL, Nat.sub_diag. cbn [skipn app].
  destruct (mask_loop_spec (bits_to_bytes L) 0 (land_bytes addr mask ++ mask) mask t false) as (c & x & Hc & Hz).
  - rewrite app_length. lia.
  - lia.
  - lia.
  - exists c, x. split; [exact Hc|]. rewrite Hz. clear Hc Hz. split; intros H j Hj.
    + intros Hmb. specialize (H (j / 8)%nat ltac:(unfold bits_to_bytes; lia)).
      rewrite app_nth1 in H by (unfold bits_to_bytes in *; lia). rewrite land_bytes_nth in H by congruence.
      unfold addr_bit in *. apply (f_equal (fun z => N.testbit z (N.of_nat (7 - j mod 8)))) in H.
      rewrite !N.land_spec in H. rewrite Hmb in H. rewrite !andb_true_r in H. exact H.
    + rewrite app_nth1 by lia. rewrite land_bytes_nth by congruence.
      apply byte_eq; [apply land_lt; apply nth_lt; assumption..|]. intros q Hq.
      rewrite !N.land_spec. rewrite <- !addr_bit_at by exact Hq.
      destruct (addr_bit mask (8 * j + q)) eqn:EM; [|rewrite !andb_false_r; reflexivity].
      rewrite H; [reflexivity| unfold bits_to_bytes in *; lia | exact EM].
Qed.

(** Safety: neither comparison reads outside the two addresses. *)
Lemma prefixful_safe l ln r rn w s : addr_ok l ln -> addr_ok r rn -> cmp_addrs_prefixful l ln r rn w s <> None.
Proof.
  intros [Ll _] [Lr _]. fold (bits_to_bytes ln) in Ll. fold (bits_to_bytes rn) in Lr.
  unfold cmp_addrs_prefixful. cbv zeta.
  assert (H1 : (bits_to_bytes (Nat.min ln rn) <= length l)%nat) by (unfold bits_to_bytes in *; lia).
  assert (H2 : (bits_to_bytes (Nat.min ln rn) <= length r)%nat) by (unfold bits_to_bytes in *; lia).
  destruct (Nat.eqb_spec (Nat.min ln rn) 0) as [Z|Z].
  { repeat match goal with |- context [if ?b then _ else _] => destruct b end; discriminate. }
  assert (H3 : (0 < bits_to_bytes (Nat.min ln rn))%nat) by (unfold bits_to_bytes in *; lia).
  destruct (Nat.eqb_spec ln rn) as [E|E]; cbn [negb].
  - destruct (memcmp_some (bits_to_bytes ln) l r) as (c & Hc & _); [lia|subst; lia|]. rewrite Hc.
    repeat match goal with |- context [if ?b then _ else _] => destruct b end; discriminate.
  - destruct w; [discriminate|]. destruct s.
    + destruct (_ mod 8 =? 0)%nat.
      * destruct (memcmp_some (bits_to_bytes (Nat.min ln rn)) l r) as (c & Hc & _); [lia|lia|]. rewrite Hc. destruct (c =? 0); discriminate.
      * destruct (memcmp_some (bits_to_bytes (Nat.min ln rn) - 1) l r) as (c & Hc & _); [lia|lia|]. rewrite Hc.
        rewrite !nth_error_nth' by lia.
        repeat match goal with |- context [if ?b then _ else _] => destruct b end; discriminate.
    + destruct (memcmp_some (bits_to_bytes (Nat.min ln rn)) l r) as (c & Hc & _); [lia|lia|]. rewrite Hc.
      repeat match goal with |- context [if ?b then _ else _] => destruct b end; discriminate.
Qed.

Lemma bitmaskful_safe l ln r rn w s : addr_ok l ln -> addr_ok r rn -> (s = true -> w = false -> (Nat.max ln rn mod 16 = 0)%nat) ->
  cmp_addrs_bitmaskful l ln r rn w s <> None.
Proof.
  intros [Ll _] [Lr _] HM. fold (bits_to_bytes ln) in Ll. fold (bits_to_bytes rn) in Lr.
  unfold cmp_addrs_bitmaskful. cbv zeta.
  assert (H1 : (bits_to_bytes (Nat.min ln rn) <= length l)%nat) by (unfold bits_to_bytes in *; lia).
  assert (H2 : (bits_to_bytes (Nat.min ln rn) <= length r)%nat) by (unfold bits_to_bytes in *; lia).
  destruct (s && _) eqn:EV.
  { destruct w; discriminate. }
  destruct (Nat.eqb_spec (Nat.min ln rn) 0) as [Z|Z].
  { repeat match goal with |- context [if ?b then _ else _] => destruct b end; discriminate. }
  destruct (Nat.eqb_spec ln rn) as [E|E].
  - destruct (memcmp_some (bits_to_bytes ln) l r) as (c & Hc & _); [lia|subst; lia|]. rewrite Hc.
    repeat match goal with |- context [if ?b then _ else _] => destruct b end; discriminate.
  - destruct w; [discriminate|]. destruct s.
    + specialize (HM eq_refl eq_refl). cbn [andb] in EV.
      destruct (Nat.ltb_spec ln rn) as [Q|Q].
      * destruct (Nat.ltb_spec (ln / 2) rn) as [Q1|Q1]; [|lia]. destruct (Nat.ltb_spec (rn / 2) ln) as [Q2|Q2]; [discriminate|].
        destruct (mask_loop_safe (bits_to_bytes (rn / 2)) 0 (rn / 2 - ln) r (skipn (bits_to_bytes (rn / 2)) r) l false) as (c & x & Hc & _);
          [unfold bits_to_bytes in *; lia| rewrite skipn_length; unfold bits_to_bytes in *; lia | unfold bits_to_bytes in *; lia |].
        rewrite Hc. discriminate.
      * destruct (Nat.ltb_spec (ln / 2) rn) as [Q1|Q1];
          [destruct (Nat.ltb_spec (rn / 2) ln) as [Q2|Q2]; [discriminate|lia]|].
        destruct (mask_loop_safe (bits_to_bytes (ln / 2)) 0 (ln / 2 - rn) l (skipn (bits_to_bytes (ln / 2)) l) r false) as (c & x & Hc & _);
          [unfold bits_to_bytes in *; lia| rewrite skipn_length; unfold bits_to_bytes in *; lia | unfold bits_to_bytes in *; lia |].
        rewrite Hc. discriminate.
    + destruct (memcmp_some (bits_to_bytes (Nat.min ln rn)) l r) as (c & Hc & _); [lia|lia|]. rewrite Hc.
      repeat match goal with |- context [if ?b then _ else _] => destruct b end; discriminate.
Qed.

(** Scoring. *)
Lemma whole_bytes_some n : forall a b, (n <= length a)%nat -> (n <= length b)%nat ->
  exists k, whole_bytes n a b = Some k /\ (k <= n)%nat.
Proof.
  induction n as [|n IH]; intros a b Ha Hb; [exists O; split; [reflexivity|lia]|].
  destruct a as [|x a]; [cbn in Ha; lia|]. destruct b as [|y b]; [cbn in Hb; lia|]. cbn [whole_bytes].
  destruct (N.eqb x y); [|exists O; split; [reflexivity|lia]].
  destruct (IH a b) as (k & Hk & Hn); [cbn in Ha; lia|cbn in Hb; lia|]. rewrite Hk. exists (S k). split; [reflexivity|lia].
Qed.
Lemma bit_loop_some f : forall ret a b, (ret + f <= 8 * length a)%nat -> (ret + f <= 8 * length b)%nat ->
  exists k, bit_loop f ret a b = Some k /\ (ret <= k <= ret + f)%nat.
Proof.
  induction f as [|f IH]; intros ret a b Ha Hb; [exists ret; split; [reflexivity|lia]|].
  cbn [bit_loop]. rewrite !nth_error_nth' by lia.
  destruct (Bool.eqb _ _); [|exists ret; split; [reflexivity|lia]].
  destruct (IH (S ret) a b) as (k & Hk & Hn); [lia|lia|]. exists k. split; [exact Hk|lia].
Qed.
Lemma prefix_size_some a an b bn : addr_ok a an -> addr_ok b bn ->
  exists k, addr_prefix_match_size a an b bn = Some (Z.of_nat k) /\ (k <= Nat.min an bn)%nat.
Proof.
  intros [La _] [Lb _]. unfold addr_prefix_match_size. cbv zeta.
  destruct (Nat.eqb_spec (Nat.min an bn) 0); [exists O; split; [reflexivity|lia]|].
  destruct (whole_bytes_some (Nat.min an bn / 8) a b) as (k & Hk & Hn); [lia|lia|]. rewrite Hk.
  destruct (bit_loop_some (Nat.min an bn - 8 * k) (8 * k) a b) as (r & Hr & Hb); [lia|lia|]. rewrite Hr.
  exists r. split; [reflexivity|lia].
Qed.
Lemma masksize_some fuel : forall i pad longer shorter ret,
  (i + fuel <= length longer)%nat -> (pad < 0 \/ Z.of_nat (i + fuel) <= pad + Z.of_nat (length shorter)) ->
  masksize_loop fuel i pad longer shorter ret <> None.
Proof.
  induction fuel as [|k IH]; intros i pad longer shorter ret H1 H2; [discriminate|].
  cbn [masksize_loop]. rewrite (nth_error_nth' longer) by lia.
  destruct ((pad <? 0) || (Z.of_nat i <? pad)) eqn:E; [apply IH; lia|].
  rewrite (nth_error_nth' shorter) by lia. apply IH; lia.
Qed.
Lemma bitmask_size_safe a an b bn : addr_ok a an -> addr_ok b bn ->
  (let s := Nat.min an bn in s <= 1 \/ bits_to_bytes (Nat.max an bn / 2) < s)%nat ->
  addr_bitmask_match_size a an b bn <> None.
Proof.
  intros [La _] [Lb _]. cbv zeta. intros H. unfold addr_bitmask_match_size.
  fold (bits_to_bytes an) in La. fold (bits_to_bytes bn) in Lb.
  destruct (Nat.ltb_spec an bn); apply masksize_some; unfold bits_to_bytes in *; lia.
Qed.
