(** What addresses, prefixes and masks mean: an address is a sequence of bits, most significant bit of the first
    byte first. *)
From Verif Require Import Base.
(** The first [n] bits of a byte string, counted from the most significant bit of byte 0. *)
Definition addr_bit (a : list N) (i : nat) : bool := N.testbit (nth (i / 8) a 0%N) (N.of_nat (7 - i mod 8)).
Definition same_bits (n : nat) (a b : list N) : Prop := forall i, (i < n)%nat -> addr_bit a i = addr_bit b i.
(** A byte string holding an address of [n] bits. *)
Definition addr_ok (a : list N) (n : nat) : Prop := length a = ((n + 7) / 8)%nat /\ Forall (fun b => (b < 256)%N) a.
(** The number of leading bits that an [n]-bit prefix route really compares: when [n] is not a multiple of 8,
    the last byte contributes 8 - n mod 8 bits instead of n mod 8. *)
Definition compared_bits (n : nat) : nat := if (n mod 8 =? 0)%nat then n else (8 * (n / 8) + (8 - n mod 8))%nat.
