(** C43: error codes encode and decode losslessly. *)
From Verif Require Import Base Errcode ErrcodeProofs.
Open Scope Z_scope.

(** For every source file ID, line number and code the encoder's static assertions admit
    (wolfsentry_errcodes.h 68-82) the encoded value fits the 32-bit result type, decodes to the same
    three components and is negative exactly for failures. *)
Theorem C43_errcode_roundtrip : forall src line x,
  0 <= src <= 127 -> 1 <= line <= 65535 -> -255 <= x <= 255 ->
  i32_min < error_encode src line x <= i32_max /\
  decode_error_code (error_encode src line x) = x /\
  decode_source_id (error_encode src line x) = src /\
  decode_line_number (error_encode src line x) = line /\
  (is_failure_code (error_encode src line x) = true <-> x < 0).
Proof. exact errcode_roundtrip_lemma. Qed.
Print Assumptions C43_errcode_roundtrip.

Example C43_errcode_roundtrip_ex :
  error_encode 6 3061 (-8) < 0 /\ decode_error_code (error_encode 6 3061 (-8)) = -8
  /\ decode_source_id (error_encode 6 3061 (-8)) = 6 /\ decode_line_number (error_encode 6 3061 (-8)) = 3061.
Proof. vm_compute. auto. Qed.

(** Recoding at another place keeps the code and replaces only source ID and line. *)
Theorem C43_errcode_recode : forall src line src' line' x,
  0 <= src <= 127 -> 1 <= line <= 65535 -> 0 <= src' <= 127 -> 1 <= line' <= 65535 -> -255 <= x <= 255 ->
  error_recode src' line' (error_encode src line x) = error_encode src' line' x.
Proof. exact errcode_recode_lemma. Qed.
Print Assumptions C43_errcode_recode.

(** Conversely every 32-bit result other than INT32_MIN (whose negation is undefined) decodes to
    components in range, is a failure exactly if it is negative (so 0 is a success), and, if its code is not 0, is the encoding of its components. *)
Theorem C43_errcode_any_value : forall c,
  i32_min < c <= i32_max ->
  -255 <= decode_error_code c <= 255 /\ 0 <= decode_source_id c <= 127 /\
  0 <= decode_line_number c <= 65535 /\
  (is_failure_code c = true <-> c < 0) /\ (decode_error_code c < 0 -> is_failure_code c = true) /\
  (decode_error_code c <> 0 ->
   error_encode (decode_source_id c) (decode_line_number c) (decode_error_code c) = c).
Proof. exact errcode_any_lemma. Qed.
Print Assumptions C43_errcode_any_value.

(** The code-0 exception is real: a negative value with zero code field decodes as OK although
    IS_FAILURE holds of it. *)
Example C43_zero_code_exception : decode_error_code (-256) = 0 /\ is_failure_code (-256) = true.
Proof. vm_compute. split; reflexivity. Qed.
