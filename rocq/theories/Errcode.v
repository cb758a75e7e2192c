(** Structured result codes: wolfsentry/wolfsentry_errcodes.h 40-132. *)
From Verif Require Import Base.
Open Scope Z_scope.

(** wolfsentry_errcodes.h 51-53. *)
Definition SOURCE_ID_MAX : Z := 127.
Definition ERROR_ID_MAX : Z := 255.
Definition LINE_NUMBER_MAX : Z := 65535.

(** wolfsentry_errcodes.h 58-65 (WOLFSENTRY_ERROR_ENCODE_0): [src] is WOLFSENTRY_SOURCE_ID, [line] is
    __LINE__.  Int arithmetic; EncodeProofs show every intermediate value fits an int32. *)
Definition error_encode (src line x : Z) : Z :=
  if x <? 0 then
    - (Z.lor (Z.lor (Z.land (- x) ERROR_ID_MAX) (Z.shiftl (Z.land line LINE_NUMBER_MAX) 8))
             (Z.shiftl (Z.land src SOURCE_ID_MAX) 24))
  else
    Z.lor (Z.lor (Z.land x ERROR_ID_MAX) (Z.shiftl (Z.land line LINE_NUMBER_MAX) 8))
          (Z.shiftl (Z.land src SOURCE_ID_MAX) 24).

(** wolfsentry_errcodes.h 87. *)
Definition decode_error_code (x : Z) : Z :=
  if x <? 0 then - (Z.land (- x) ERROR_ID_MAX) else Z.land x ERROR_ID_MAX.
(** wolfsentry_errcodes.h 88. *)
Definition decode_source_id (x : Z) : Z :=
  if x <? 0 then Z.shiftr (- x) 24 else Z.shiftr x 24.
(** wolfsentry_errcodes.h 89. *)
Definition decode_line_number (x : Z) : Z :=
  if x <? 0 then Z.land (Z.shiftr (- x) 8) LINE_NUMBER_MAX
  else Z.land (Z.shiftr x 8) LINE_NUMBER_MAX.
(** wolfsentry_errcodes.h 122. *)
Definition error_recode (src line x : Z) : Z := error_encode src line (decode_error_code x).
(** wolfsentry_errcodes.h 129-132. *)
Definition is_failure_code (x : Z) : bool := x <? 0.
