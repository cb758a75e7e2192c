(** What is asked of an aligned allocation (C71). *)
From Verif Require Import Base Align.
Open Scope Z_scope.
(** A block of [len] bytes at [base], not at address zero and not past the end of memory. *)
Definition block (base len : Z) : Prop := 0 < base /\ 0 <= len /\ base + len <= word.
(** The caller's bytes and the header lie in the block, apart from each other, and the caller's are aligned. *)
Definition good (base len alignment size : Z) (r : result) : Prop :=
  r_ptr r mod alignment = 0 /\ base <= r_hdr_at r /\ r_hdr_at r + 2 <= r_ptr r /\ r_ptr r + size <= base + len.
Definition power_of_two (a : Z) : Prop := exists n, 0 <= n /\ a = 2 ^ n.
