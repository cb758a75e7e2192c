(** Aligned allocation: the theorems (C71). *)
From Verif Require Import Base Align AlignSpec.
Open Scope Z_scope.

Lemma word_eq : word = 18446744073709551616. Proof. reflexivity. Qed.

Lemma land_mask : forall n x, 0 <= n < 64 -> 0 <= x < word -> Z.land x (mask (2 ^ n)) = x - x mod 2 ^ n.
Proof.
  intros n x N X. unfold mask. change word with (2 ^ 64) in *.
  assert (P : 0 < 2 ^ n) by (apply Z.pow_pos_nonneg; lia).
  assert (LE : 2 ^ n <= 2 ^ 63) by (apply Z.pow_le_mono_r; lia).
  rewrite (Z.mod_small (2 ^ n - 1)) by lia.
  assert (E : x - x mod 2 ^ n = Z.shiftl (Z.shiftr x n) n).
  { rewrite Z.shiftl_mul_pow2, Z.shiftr_div_pow2 by lia. pose proof (Z.div_mod x (2 ^ n)). lia. }
  rewrite E. apply Z.bits_inj'. intros i I.
  rewrite Z.land_spec, Z.lxor_spec.
  change (2 ^ 64 - 1) with (Z.ones 64). replace (2 ^ n - 1) with (Z.ones n) by (rewrite Z.ones_equiv; lia).
  rewrite !Z.testbit_ones_nonneg by lia.
  rewrite Z.shiftl_spec by lia.
  destruct (Z.ltb_spec i n).
  - destruct (Z.ltb_spec i 64); [|lia]. cbn. rewrite Bool.andb_false_r. symmetry. apply Z.testbit_neg_r. lia.
  - rewrite Z.shiftr_spec by lia. replace (i - n + n) with i by lia.
    destruct (Z.ltb_spec i 64); cbn; [apply Bool.andb_true_r|].
    rewrite Bool.andb_false_r. symmetry. destruct (Z.eq_dec x 0) as [->|NX]; [apply Z.bits_0|].
    apply Z.bits_above_log2; [lia|]. assert (Z.log2 x < 64) by (apply Z.log2_lt_pow2; lia). lia.
Qed.

Lemma place_eq : forall n base, 0 <= n < 64 -> 0 < base -> base + 2 + (2 ^ n - 1) < word ->
  let e := base + 2 + (2 ^ n - 1) in
  place (2 ^ n) base = mkRes (e - e mod 2 ^ n) ((e - e mod 2 ^ n - 2) mod word) ((e - e mod 2 ^ n - base) mod 2 ^ 16) /\
  base + 2 <= e - e mod 2 ^ n <= e.
Proof.
  intros n base N B W e. assert (P : 0 < 2 ^ n) by (apply Z.pow_pos_nonneg; lia).
  pose proof (Z.mod_pos_bound e (2 ^ n) P) as M.
  split; [|unfold e in *; lia].
  unfold place. fold e. rewrite (Z.mod_small e) by (unfold e in *; lia). rewrite land_mask by (unfold e in *; lia). reflexivity.
Qed.

Lemma aligned : forall e a, 0 < a -> (e - e mod a) mod a = 0.
Proof. intros e a A. rewrite Zminus_mod_idemp_r, Z.sub_diag. apply Z.mod_0_l. lia. Qed.

(** For a power of two up to 2^15, in either port, and sizes that leave room in the address space: wherever the underlying
    allocator puts the block, the answer is aligned, caller's bytes and header lie in the block and apart, and freeing hands the
    start of the block back to the allocator it came from. *)
Theorem C71_aligned_partial : forall p alignment size base len, power_of_two alignment -> alignment <= 2 ^ 15 ->
  0 < size -> size + 2 ^ 15 + 1 < word ->
  request p alignment size = Some len -> block base len ->
  good base len alignment size (place alignment base) /\
  free_aligned (r_ptr (place alignment base)) (r_hdr (place alignment base)) = base.
Proof.
  intros p a size base len [n [N ->]] A SZ SW R (B1 & B2 & B3). change (2 ^ 15) with 32768 in *.
  assert (N15 : n <= 15) by (apply (Z.pow_le_mono_r_iff 2); [lia|lia|change (2 ^ 15) with 32768; lia]).
  assert (P : 0 < 2 ^ n) by (apply Z.pow_pos_nonneg; lia).
  unfold request in R.
  assert (E1 : (2 ^ n =? 0) = false) by lia. assert (E2 : (size =? 0) = false) by lia. rewrite E1, E2 in R.
  cbn [negb andb] in R.
  assert (H : hdr_size p (2 ^ n) = 2 ^ n + 1).
  { destruct p; unfold hdr_size; rewrite Z.mod_small; try lia; change (2 ^ 32) with 4294967296; rewrite ?word_eq; lia. }
  rewrite H in R. rewrite Z.mod_small in R by lia.
  assert (L : len = size + (2 ^ n + 1)) by congruence.
  destruct (place_eq n base) as [Q1 Q2]; [lia|lia|lia|].
  set (e := base + 2 + (2 ^ n - 1)) in *. cbv zeta in Q1, Q2. rewrite Q1. unfold good, free_aligned. cbn [r_ptr r_hdr_at r_hdr].
  rewrite (Z.mod_small (e - e mod 2 ^ n - 2)) by lia.
  rewrite (Z.mod_small (e - e mod 2 ^ n - base) (2 ^ 16)) by (change (2 ^ 16) with 65536; unfold e in *; lia).
  split.
  - split; [apply aligned; lia|]. unfold e in *. lia.
  - rewrite Z.mod_small; lia.
Qed.

(** Nothing is asked of the allocator, and NULL returned, iff the alignment or the size is zero. *)
Theorem C71_null : forall p alignment size, request p alignment size = None <-> alignment = 0 \/ size = 0.
Proof.
  intros p a size. unfold request. destruct (Z.eqb_spec a 0), (Z.eqb_spec size 0); cbn; split; intros H; auto; try discriminate.
  destruct H; contradiction.
Qed.

(** From 2^16 on the distance does not fit in the header: some blocks are not handed back. *)
Theorem C71_large_refuted : forall p n, 16 <= n < 32 -> exists base len, request p (2 ^ n) 100 = Some len /\ block base len /\
  r_ptr (place (2 ^ n) base) mod 2 ^ n = 0 /\
  free_aligned (r_ptr (place (2 ^ n) base)) (r_hdr (place (2 ^ n) base)) <> base.
Proof.
  intros p n N. exists (2 ^ n). assert (P : 0 < 2 ^ n) by (apply Z.pow_pos_nonneg; lia).
  assert (L1 : 2 ^ 16 <= 2 ^ n) by (apply Z.pow_le_mono_r; lia).
  assert (L2 : 2 ^ n <= 2 ^ 31) by (apply Z.pow_le_mono_r; lia).
  change (2 ^ 16) with 65536 in *. change (2 ^ 31) with 2147483648 in *.
  assert (H : hdr_size p (2 ^ n) = 2 ^ n + 1).
  { destruct p; unfold hdr_size; rewrite Z.mod_small; try lia; change (2 ^ 32) with 4294967296; rewrite ?word_eq; lia. }
  exists (100 + (2 ^ n + 1)). split; [|split; [|]].
  - unfold request. assert (E1 : (2 ^ n =? 0) = false) by lia. rewrite E1, H. cbn [negb andb Z.eqb].
    rewrite Z.mod_small; [reflexivity|rewrite word_eq; lia].
  - unfold block. rewrite word_eq. lia.
  - destruct (place_eq n (2 ^ n)) as [Q1 _]; [lia|lia|rewrite word_eq; lia|]. cbv zeta in Q1. rewrite Q1. cbn [r_ptr r_hdr].
    split; [apply aligned; lia|].
    assert (M : (2 ^ n + 2 + (2 ^ n - 1)) mod 2 ^ n = 1).
    { symmetry. apply Z.mod_unique_pos with (q := 2); lia. }
    rewrite M. replace (2 ^ n + 2 + (2 ^ n - 1) - 1 - 2 ^ n) with (2 ^ n) by lia.
    assert (D : 2 ^ n mod 65536 = 0).
    { replace (2 ^ n) with (2 ^ (n - 16) * 65536).
      - apply Z_mod_mult.
      - change 65536 with (2 ^ 16). rewrite <- Z.pow_add_r by lia. f_equal. lia. }
    change (2 ^ 16) with 65536. rewrite D. unfold free_aligned. rewrite Z.mod_small by (rewrite word_eq; lia). lia.
Qed.

(** An alignment that is not a power of two is not refused, and not honoured. *)
Theorem C71_not_power_refuted : forall p, exists base len, request p 24 100 = Some len /\ block base len /\
  r_ptr (place 24 base) mod 24 <> 0.
Proof.
  intros p. exists 4128, 125. split; [destruct p; reflexivity|]. split; [unfold block; rewrite word_eq; lia|].
  vm_compute. discriminate.
Qed.

(** The sum of the size and the room for the header is not checked: a huge request becomes a small one, that may be granted. *)
Theorem C71_huge_refuted : forall p, exists base len, request p 16 (word - 10) = Some len /\ block base len /\ len < 16 /\
  ~ good base len 16 (word - 10) (place 16 base).
Proof.
  intros p. exists 4096, 7. split; [destruct p; reflexivity|]. split; [unfold block; rewrite word_eq; lia|]. split; [lia|].
  unfold good. vm_compute. intros (_ & _ & _ & H). apply H. reflexivity.
Qed.

(** On FreeRTOS the room is kept in 32 bits: with an alignment of 2^32 it becomes one byte. *)
Theorem C71_room_refuted : exists base len, request FreeRTOS (2 ^ 32) 100 = Some len /\ block base len /\
  ~ good base len (2 ^ 32) 100 (place (2 ^ 32) base).
Proof.
  exists 4096, 101. split; [reflexivity|]. split; [unfold block; rewrite word_eq; lia|].
  unfold good. vm_compute. intros (_ & _ & _ & H). apply H. reflexivity.
Qed.

(** Concrete cases: blocks at addresses 1 to 3 modulo the alignment. *)
Example C71_example : request NoPosixMemalign 16 100 = Some 117 /\
  map (fun b => (r_ptr (place 16 b), r_hdr (place 16 b))) [4096; 4097; 4110; 4111] = [(4112, 16); (4112, 15); (4112, 2); (4128, 17)].
Proof. vm_compute. split; reflexivity. Qed.

Print Assumptions C71_aligned_partial.
Print Assumptions C71_null.
Print Assumptions C71_large_refuted.
Print Assumptions C71_not_power_refuted.
Print Assumptions C71_huge_refuted.
Print Assumptions C71_room_refuted.
