(** Common vocabulary of the wolfSentry model. *)
From Coq Require Export List Bool Arith ZArith NArith Lia.
From Coq Require Export ZifyBool ZifyNat ZifyN.
Export ListNotations.

(** wolfsentry/wolfsentry_errcodes.h 393-449: the bare error and success codes (the encoding with source
    file and line number is modelled separately in Errcode.v). *)
Inductive err : Set :=
| OK | NOT_OK | INTERNAL_CHECK_FATAL | SYS_OP_FATAL | SYS_OP_FAILED | SYS_RESOURCE_FAILED
| INCOMPATIBLE_STATE | TIMED_OUT | INVALID_ARG | BUSY | INTERRUPTED | NUMERIC_ARG_TOO_BIG
| NUMERIC_ARG_TOO_SMALL | STRING_ARG_TOO_LONG | BUFFER_TOO_SMALL | IMPLEMENTATION_MISSING
| ITEM_NOT_FOUND | ITEM_ALREADY_PRESENT | ALREADY_STOPPED | WRONG_OBJECT | DATA_MISSING
| NOT_PERMITTED | ALREADY | OP_NOT_SUPP_FOR_PROTO | WRONG_TYPE | BAD_VALUE
| DEADLOCK_AVERTED | OVERFLOW_AVERTED | LACKING_MUTEX | LACKING_READ_LOCK | WRONG_ATTRIBUTES
| S_LOCK_OK_AND_GOT_RESV | S_HAVE_MUTEX | S_HAVE_READ_LOCK | S_USED_FALLBACK | S_YES | S_NO
| S_ALREADY_OK | S_DEFERRED
| CALLBACK_ERROR (e : N).  (* an error code made up by a user callback *)

Definition err_eq_dec (a b : err) : {a = b} + {a <> b}.
Proof. decide equality; apply N.eq_dec. Defined.

(** wolfsentry_errcodes.h 129-132: negative codes are failures. *)
Definition is_success (e : err) : bool :=
  match e with
  | OK | S_LOCK_OK_AND_GOT_RESV | S_HAVE_MUTEX | S_HAVE_READ_LOCK | S_USED_FALLBACK | S_YES | S_NO
  | S_ALREADY_OK | S_DEFERRED => true
  | _ => false
  end.

(** Fixed-width bounds. *)
Definition u16_max : N := 65535.
Definition u32_max : N := 4294967295.
Definition i64_max : Z := 9223372036854775807.
Definition i64_min : Z := -9223372036854775808.
Definition i32_max : Z := 2147483647.
Definition i32_min : Z := -2147483648.
Definition u16 (x : N) : N := (x mod 65536)%N.
Definition u32 (x : N) : N := (x mod 4294967296)%N.
