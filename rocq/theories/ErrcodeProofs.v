From Verif Require Import Base Errcode.
Open Scope Z_scope.
Ltac Zify.zify_post_hook ::= Z.div_mod_to_equations.

Lemma land_ones' a n m : 0 <= n -> m = Z.ones n -> Z.land a m = a mod 2 ^ n.
Proof. intros Hn ->. apply Z.land_ones; exact Hn. Qed.

(** Disjoint bitwise or is addition. *)
Lemma lor_add_shift a b n : 0 <= n -> 0 <= a < 2 ^ n -> 0 <= b -> Z.lor a (Z.shiftl b n) = a + b * 2 ^ n.
Proof.
  intros Hn Ha Hb. rewrite Z.shiftl_mul_pow2 by lia.
  rewrite <- Z.lxor_lor, <- Z.add_nocarry_lxor; try reflexivity.
  all: apply Z.bits_inj'; intros i Hi; rewrite Z.land_spec, Z.bits_0.
  all: destruct (Z.ltb_spec i n) as [Hlt|Hge].
  all: try (rewrite Z.mul_pow2_bits_low by lia; apply andb_false_r).
  all: replace (Z.testbit a i) with false; [reflexivity|].
  all: symmetry; destruct (Z.eq_dec a 0) as [->|Hnz]; [apply Z.bits_0|].
  all: apply Z.bits_above_log2; [lia|]; apply Z.log2_lt_pow2; [lia|];
       apply Z.lt_le_trans with (2 ^ n); [lia|apply Z.pow_le_mono_r; lia].
Qed.

Lemma pack_eq src line v :
  Z.lor (Z.lor (Z.land v 255) (Z.shiftl (Z.land line 65535) 8)) (Z.shiftl (Z.land src 127) 24)
  = v mod 256 + (line mod 65536) * 256 + (src mod 128) * 16777216.
Proof.
  rewrite (land_ones' v 8), (land_ones' line 16), (land_ones' src 7) by (reflexivity || lia).
  change (2^8) with 256; change (2^16) with 65536; change (2^7) with 128.
  rewrite (lor_add_shift (v mod 256) (line mod 65536) 8) by (change (2^8) with 256; lia).
  change (2^8) with 256.
  rewrite lor_add_shift by (change (2^24) with 16777216; lia).
  reflexivity.
Qed.

Lemma error_encode_eq src line x :
  error_encode src line x =
  (if x <? 0 then - (- x mod 256 + line mod 65536 * 256 + src mod 128 * 16777216)
   else x mod 256 + line mod 65536 * 256 + src mod 128 * 16777216).
Proof. unfold error_encode, ERROR_ID_MAX, LINE_NUMBER_MAX, SOURCE_ID_MAX. rewrite !pack_eq. reflexivity. Qed.

Lemma decode_error_code_eq x :
  decode_error_code x = if x <? 0 then - (- x mod 256) else x mod 256.
Proof. unfold decode_error_code, ERROR_ID_MAX.
  rewrite !(land_ones' _ 8) by (reflexivity || lia). reflexivity. Qed.
Lemma decode_source_id_eq x :
  decode_source_id x = if x <? 0 then - x / 16777216 else x / 16777216.
Proof. unfold decode_source_id. rewrite !Z.shiftr_div_pow2 by lia. reflexivity. Qed.
Lemma decode_line_number_eq x :
  decode_line_number x = if x <? 0 then (- x / 256) mod 65536 else (x / 256) mod 65536.
Proof. unfold decode_line_number, LINE_NUMBER_MAX. rewrite !Z.shiftr_div_pow2 by lia.
  rewrite !(land_ones' _ 16) by (reflexivity || lia). reflexivity. Qed.

Section Roundtrip.
  Variables (src line x : Z).
  Hypothesis Hsrc : 0 <= src <= 127.
  Hypothesis Hline : 1 <= line <= 65535.
  Hypothesis Hx : -255 <= x <= 255.

  Lemma encode_range : i32_min < error_encode src line x <= i32_max.
  Proof. rewrite error_encode_eq. unfold i32_min, i32_max. destruct (Z.ltb_spec x 0); lia. Qed.
  Lemma encode_sign : is_failure_code (error_encode src line x) = true <-> x < 0.
  Proof. rewrite error_encode_eq. unfold is_failure_code. destruct (Z.ltb_spec x 0); lia. Qed.
  Lemma decode_code : decode_error_code (error_encode src line x) = x.
  Proof.
    rewrite decode_error_code_eq, error_encode_eq.
    destruct (Z.ltb_spec x 0).
    - destruct (Z.ltb_spec (- (- x mod 256 + line mod 65536 * 256 + src mod 128 * 16777216)) 0); lia.
    - destruct (Z.ltb_spec (x mod 256 + line mod 65536 * 256 + src mod 128 * 16777216) 0); lia.
  Qed.
  Lemma decode_src : decode_source_id (error_encode src line x) = src.
  Proof.
    rewrite decode_source_id_eq, error_encode_eq.
    destruct (Z.ltb_spec x 0).
    - destruct (Z.ltb_spec (- (- x mod 256 + line mod 65536 * 256 + src mod 128 * 16777216)) 0); lia.
    - destruct (Z.ltb_spec (x mod 256 + line mod 65536 * 256 + src mod 128 * 16777216) 0); lia.
  Qed.
  Lemma decode_line : decode_line_number (error_encode src line x) = line.
  Proof.
    rewrite decode_line_number_eq, error_encode_eq.
    destruct (Z.ltb_spec x 0).
    - destruct (Z.ltb_spec (- (- x mod 256 + line mod 65536 * 256 + src mod 128 * 16777216)) 0); lia.
    - destruct (Z.ltb_spec (x mod 256 + line mod 65536 * 256 + src mod 128 * 16777216) 0); lia.
  Qed.
End Roundtrip.

Lemma errcode_roundtrip_lemma src line x :
  0 <= src <= 127 -> 1 <= line <= 65535 -> -255 <= x <= 255 ->
  i32_min < error_encode src line x <= i32_max /\
  decode_error_code (error_encode src line x) = x /\
  decode_source_id (error_encode src line x) = src /\
  decode_line_number (error_encode src line x) = line /\
  (is_failure_code (error_encode src line x) = true <-> x < 0).
Proof.
  intros. split; [apply encode_range; assumption|]. split; [apply decode_code; assumption|].
  split; [apply decode_src; assumption|]. split; [apply decode_line; assumption|].
  apply encode_sign; assumption.
Qed.

Lemma errcode_recode_lemma src line src' line' x :
  0 <= src <= 127 -> 1 <= line <= 65535 -> 0 <= src' <= 127 -> 1 <= line' <= 65535 -> -255 <= x <= 255 ->
  error_recode src' line' (error_encode src line x) = error_encode src' line' x.
Proof. intros. unfold error_recode. rewrite decode_code by assumption. reflexivity. Qed.

Lemma errcode_any_lemma c :
  i32_min < c <= i32_max ->
  -255 <= decode_error_code c <= 255 /\ 0 <= decode_source_id c <= 127 /\
  0 <= decode_line_number c <= 65535 /\
  (is_failure_code c = true <-> c < 0) /\ (decode_error_code c < 0 -> is_failure_code c = true) /\
  (decode_error_code c <> 0 ->
   error_encode (decode_source_id c) (decode_line_number c) (decode_error_code c) = c).
Proof.
  unfold i32_min, i32_max, is_failure_code. intros Hc.
  rewrite decode_error_code_eq, decode_source_id_eq, decode_line_number_eq.
  destruct (Z.ltb_spec c 0).
  - repeat split; try lia; try (rewrite Z.ltb_lt in *; lia). intros Hnz. rewrite error_encode_eq.
    destruct (Z.ltb_spec (- (- c mod 256)) 0); lia.
  - repeat split; try lia; try (rewrite Z.ltb_lt in *; lia). intros Hnz. rewrite error_encode_eq.
    destruct (Z.ltb_spec (c mod 256) 0); lia.
Qed.
