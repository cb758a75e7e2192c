(** Address comparison: src/routes.c 43-136 and 192-323, and the clearing of ignored address bits done when a
    route is initialised, routes.c 716-751 (wolfsentry_route_init) and 886-922 (wolfsentry_route_init_by_exports).
    An address is the list of its bytes together with a length in bits.  [None] is a read outside the bytes. *)
From Verif Require Import Base Labels.
Open Scope Z_scope.

(** wolfsentry/wolfsentry_util.h 138 (WOLFSENTRY_BITS_TO_BYTES). *)
Definition bits_to_bytes (n : nat) : nat := ((n + 7) / 8)%nat.

(** C right and left shift of a byte promoted to int. *)
Definition shr (b : N) (k : nat) : N := N.shiftr b (N.of_nat k).

(** routes.c 43-106 (cmp_addrs_prefixful): result and *inexact_p. *)
Definition cmp_addrs_prefixful (l : list N) (ln : nat) (r : list N) (rn : nat) (wildcard_p match_subnets_p : bool)
  : option (Z * bool) :=
  let m := Nat.min ln rn in
  if (m =? 0)%nat then
    if (ln =? rn)%nat then Some (0, false)
    else if wildcard_p || match_subnets_p then Some (0, true)
    else if negb (ln =? 0)%nat then Some (1, false)
    else Some (-1, false)
  else if negb (ln =? rn)%nat then
    if wildcard_p then Some (0, true)
    else if match_subnets_p then
      let min_bytes := bits_to_bytes m in
      if (m mod 8 =? 0)%nat then
        match memcmp min_bytes l r with
        | None => None
        | Some c => if c =? 0 then Some (0, true) else Some (c, false)
        end
      else
        match memcmp (min_bytes - 1) l r with
        | None => None
        | Some c =>
          if negb (c =? 0) then Some (c, false)
          else match nth_error l (min_bytes - 1), nth_error r (min_bytes - 1) with
               | Some a, Some b =>
                 if N.eqb (shr a (m mod 8)) (shr b (m mod 8)) then Some (0, true)
                 else if N.ltb a b then Some (-1, false) else Some (1, false)
               | _, _ => None
               end
        end
    else
      match memcmp (bits_to_bytes m) l r with
      | None => None
      | Some c => if negb (c =? 0) then Some (c, false)
                  else if (ln <? rn)%nat then Some (-1, false) else Some (1, false)
      end
  else
    match memcmp (bits_to_bytes ln) l r with
    | None => None
    | Some c => if c =? 0 then Some (0, false)
                else if wildcard_p then Some (0, true) else Some (c, false)
    end.

(** routes.c 255-270: the loop over the bytes of address and mask; [i] counts up, [fuel] bytes are left.
    [padding] is in bits but is compared with the byte index, as in the code. *)
Fixpoint mask_loop (fuel i padding : nat) (maskful mask target : list N) (inexact : bool) : option (Z * bool) :=
  match fuel with
  | O => Some (0, inexact)
  | S k =>
    match nth_error maskful i with
    | None => None
    | Some a =>
      if (i <? padding)%nat then
        if negb (N.eqb a 0) then Some (Z.of_N a, inexact) else mask_loop k (S i) padding maskful mask target inexact
      else
        match nth_error target (i - padding), nth_error mask i with
        | Some t, Some mk =>
          let x := N.land t mk in
          if N.eqb x a then mask_loop k (S i) padding maskful mask target (if N.eqb t a then inexact else true)
          else Some (Z.of_N a - Z.of_N x, inexact)
        | _, _ => None
        end
    end
  end.

(** wolfsentry_errcodes.h: INVALID_ARG encodes to a negative number; here only its being negative matters
    (routes.c 224, 354 and 404 pass it on as the comparison result). *)
Definition cmp_invalid : Z := -8.

(** routes.c 192-290 (cmp_addrs_bitmaskful).  The subtraction giving padding_offset is unsigned; it cannot wrap
    because of the test at routes.c 216-217 (theorem C48_bitmask_cmp_safe needs that). *)
Definition cmp_addrs_bitmaskful (l : list N) (ln : nat) (r : list N) (rn : nat) (wildcard_p match_masked_p : bool)
  : option (Z * bool) :=
  let m := Nat.min ln rn in
  if match_masked_p && ((ln / 2 <? rn)%nat && (rn / 2 <? ln)%nat) then
    if wildcard_p then Some (0, true) else Some (cmp_invalid, false)
  else if (m =? 0)%nat then
    if (ln =? rn)%nat then Some (0, false)
    else if wildcard_p || match_masked_p then Some (0, true)
    else if negb (ln =? 0)%nat then Some (1, false)
    else Some (-1, false)
  else if (ln =? rn)%nat then
    match memcmp (bits_to_bytes ln) l r with
    | None => None
    | Some c => if c =? 0 then Some (0, false)
                else if wildcard_p then Some (0, true) else Some (c, false)
    end
  else if wildcard_p then Some (0, true)
  else if match_masked_p then
    let '(maskful, mlen, target, tlen) := if (ln <? rn)%nat then (r, (rn / 2)%nat, l, ln) else (l, (ln / 2)%nat, r, rn) in
    let padding := (mlen - tlen)%nat in
    let mbytes := bits_to_bytes mlen in
    mask_loop mbytes 0 padding maskful (skipn mbytes maskful) target false
  else
    match memcmp (bits_to_bytes m) l r with
    | None => None
    | Some c => if negb (c =? 0) then Some (c, false)
                else if (ln <? rn)%nat then Some (-1, false) else Some (1, false)
    end.

(** routes.c 120-123: number of equal leading whole bytes, at most [n]. *)
Fixpoint whole_bytes (n : nat) (a b : list N) : option nat :=
  match n with
  | O => Some O
  | S k => match a, b with
           | x :: a', y :: b' => if N.eqb x y then option_map S (whole_bytes k a' b') else Some O
           | _, _ => None
           end
  end.
(** routes.c 127-133: [fuel] = min_len - ret; bits are tested least significant first. *)
Fixpoint bit_loop (fuel ret : nat) (a b : list N) : option nat :=
  match fuel with
  | O => Some ret
  | S k => match nth_error a (ret / 8), nth_error b (ret / 8) with
           | Some x, Some y =>
             if Bool.eqb (N.testbit x (N.of_nat (ret mod 8))) (N.testbit y (N.of_nat (ret mod 8)))
             then bit_loop k (S ret) a b else Some ret
           | _, _ => None
           end
  end.
(** routes.c 108-136 (addr_prefix_match_size). *)
Definition addr_prefix_match_size (a : list N) (an : nat) (b : list N) (bn : nat) : option Z :=
  let m := Nat.min an bn in
  if (m =? 0)%nat then Some 0
  else match whole_bytes (m / 8) a b with
       | None => None
       | Some k => option_map Z.of_nat (bit_loop (m - 8 * k) (8 * k) a b)
       end.

(** Number of zero bits of a byte: popcount32(~x) - 24 for a byte x. *)
Definition zeros8 (x : N) : Z :=
  Z.of_nat (length (filter (fun i => negb (N.testbit x (N.of_nat i))) (seq 0 8))).
(** routes.c 315-320; [padding] may be negative in the model, which stands for the wrapped unsigned value, larger
    than any byte index. *)
Fixpoint masksize_loop (fuel i : nat) (padding : Z) (longer shorter : list N) (ret : Z) : option Z :=
  match fuel with
  | O => Some ret
  | S k =>
    match nth_error longer i with
    | None => None
    | Some x =>
      if (padding <? 0) || (Z.of_nat i <? padding) then masksize_loop k (S i) padding longer shorter (ret + zeros8 x)
      else match nth_error shorter (i - Z.to_nat padding) with
           | Some y => masksize_loop k (S i) padding longer shorter (ret + zeros8 (N.lxor x y))
           | None => None
           end
    end
  end.
(** routes.c 292-323 (addr_bitmask_match_size). *)
Definition addr_bitmask_match_size (a : list N) (an : nat) (b : list N) (bn : nat) : option Z :=
  let '(longer, mlen, shorter, sn) :=
    if (an <? bn)%nat then (b, bits_to_bytes (bn / 2), a, an) else (a, bits_to_bytes (an / 2), b, bn) in
  masksize_loop mlen 0 (Z.of_nat mlen - Z.of_nat sn) longer shorter 0.

(** Replace byte [i]. *)
Fixpoint set_byte (l : list N) (i : nat) (v : N) : list N :=
  match l, i with
  | [], _ => []
  | _ :: t, O => v :: t
  | h :: t, S k => h :: set_byte t k v
  end.
(** routes.c 727-734, 741-748: clearing of the ignored bits of the last byte of a prefix address.  The test of the
    low bits before the store is an optimisation kept as is; 0xffU << k truncated to a byte is 0xff * 2^k mod 256. *)
Definition init_prefix_addr (a : list N) (n : nat) : list N :=
  let left_over := (n mod 8)%nat in
  if (left_over =? 0)%nat then a
  else let lsb := (bits_to_bytes n - 1)%nat in
       let b := nth lsb a 0%N in
       if N.eqb (N.land b (shr 255 (8 - left_over))) 0 then a
       else set_byte a lsb (N.land b (N.modulo (N.shiftl 255 (N.of_nat left_over)) 256)).
(** routes.c 719-724: a bitmask address is reduced to the bits selected by its mask (second half). *)
Fixpoint land_bytes (a m : list N) : list N :=
  match a, m with
  | x :: a', y :: m' => N.land x y :: land_bytes a' m'
  | _, _ => []
  end.
Definition init_bitmask_addr (a : list N) (n : nat) : list N :=
  let sz := (bits_to_bytes n / 2)%nat in
  land_bytes (firstn sz a) (skipn sz a) ++ skipn sz a.
Definition init_addr (bitmask : bool) (a : list N) (n : nat) : list N :=
  if bitmask then init_bitmask_addr a n else init_prefix_addr a n.
