(** * Addresses in configurations: src/json/load_config.c 575-745

    convert_sockaddr_address with convert_hex_digit and convert_hex_byte.  The text is [size] bytes at the beginning of [m], which
    goes on with whatever else is in the parser's buffer; reading beyond the end of [m] is undefined ([Bad]).  inet_pton, which
    gets a terminated copy, is a function of the text up to the first NUL; so is strtoul, which is spelled out (C11 7.22.1.4,
    base 0, 64-bit unsigned long, the "C" locale).  Address parsers installed by the user are arbitrary functions of context,
    text and capacity in bits.  Simplified: all errors are [Err]; inet_pton's -1 is an error as its 0 is. *)
Require Import ZArith List Bool.
From Verif Require Import Json Loader.
Import ListNotations.
Open Scope Z_scope.

(** wolfsentry_af.h 100-102, 69 *)
Definition AF_LINK48 := 118.
Definition AF_LINK64 := 119.
Definition AF_CAN := 29.

(** 575-585 *)
Definition hex_digit (c : Z) : option Z :=
  if (48 <=? c) && (c <=? 57) then Some (c - 48)
  else if (65 <=? c) && (c <=? 70) then Some (c - 65 + 10)
  else if (97 <=? c) && (c <=? 102) then Some (c - 97 + 10)
  else None.

(** 587-606: the byte, the pointer and the remaining size (size_t) *)
Definition hex_byte (m : list Z) (size : Z) : res (Z * list Z * Z) :=
  if size <? 1 then Err
  else match m with
  | [] => Bad
  | c :: m =>
    match hex_digit c with
    | None => Err
    | Some d1 =>
      let size := size - 1 in
      match m with
      | [] => Bad
      | c2 :: m2 =>
        match hex_digit c2 with
        | None => Good (d1, m, size)
        | Some d2 => Good (Z.lor (Z.shiftl d1 4) d2, m2, (size - 1) mod 2 ^ 64)
        end
      end
    end
  end.

(** 620-641; [more] is 8 - n *)
Fixpoint mac_loop (more : nat) (done : list Z) (m : list Z) (size : Z) : res (list Z) :=
  match more with
  | O => Err
  | S more =>
    do (b, m, size) <- hex_byte m size;
    let done := done ++ [b] in
    if size =? 0 then
      if ((List.length done =? 6) || (List.length done =? 8))%nat then Good done else Err
    else match m with
    | [] => Bad
    | c :: m => if c =? 58 then mac_loop more done m ((size - 1) mod 2 ^ 64) else Err
    end
  end.
Definition mac (m : list Z) (size : Z) : res (list Z) := mac_loop 8 [] m size.

(** strtoul with base 0 *)
Definition is_space (c : Z) : bool := (c =? 32) || ((9 <=? c) && (c <=? 13)).
Fixpoint skip_spaces (l : list Z) : list Z := match l with c :: r => if is_space c then skip_spaces r else l | [] => [] end.
Definition digit_in (base c : Z) : option Z := match hex_digit c with Some d => if d <? base then Some d else None | None => None end.
(** the digits at the beginning of [l]: value and number *)
Fixpoint read_digits (base : Z) (acc : Z) (n : nat) (l : list Z) : Z * nat :=
  match l with
  | c :: r => match digit_in base c with Some d => read_digits base (acc * base + d) (S n) r | None => (acc, n) end
  | [] => (acc, n)
  end.
Definition after_sign (l : list Z) : bool * list Z :=
  match l with
  | c :: r => if c =? 45 then (true, r) else if c =? 43 then (false, r) else (false, l)
  | [] => (false, [])
  end.
(** the base and the prefix to be skipped *)
Definition base_of (l : list Z) : Z * nat :=
  match l with
  | z :: x :: d :: _ =>
    if z =? 48 then
      if ((x =? 120) || (x =? 88)) && (match digit_in 16 d with Some _ => true | None => false end) then (16, 2%nat) else (8, 0%nat)
    else (10, 0%nat)
  | z :: _ => if z =? 48 then (8, 0%nat) else (10, 0%nat)
  | [] => (10, 0%nat)
  end.
(** value and *endptr - nptr *)
Definition strtoul (s : list Z) : Z * nat :=
  let l := skip_spaces s in
  let '(neg, l) := after_sign l in
  let '(base, skip) := base_of l in
  let '(v, n) := read_digits base 0 0 (skipn skip l) in
  if (n =? 0)%nat then (0, 0%nat)
  else
    let v := if 2 ^ 64 <=? v then 2 ^ 64 - 1 else if neg then (- v) mod 2 ^ 64 else v in
    (v, List.length s - List.length l + skip + n)%nat.

(** 690-721; the address length decides only whether the text is looked at *)
Definition can_address (d : list Z) : res (list Z) :=
  if 13 <=? Z.of_nat (List.length d) then Err
  else
    let '(a, e) := strtoul d in
    if negb (e =? List.length d)%nat then Err
    else if 2 ^ 32 - 1 <? a then Err
    else Good [Z.shiftr a 24 mod 256; Z.shiftr a 16 mod 256; Z.shiftr a 8 mod 256; a mod 256].

Section Address.
  Context {W : Type}.
  Variable pton4 pton6 : list Z -> option (list Z).
  (** wolfsentry_addr_family_get_parser, and the parser: the bytes written and *addr_internal_bits *)
  Variable parser : W -> Z -> option (list Z -> Z -> option (list Z * Z)).

  Definition text_or_number (t : jtype) : bool := match t with JSON_STRING | JSON_NUMBER => true | _ => false end.
  Definition text_only (t : jtype) : bool := match t with JSON_STRING => true | _ => false end.

  (** 608-745: family, bytes and address length afterwards; [mask]: the bitmask flag of the endpoint *)
  Definition convert_address (w : W) (mask : bool) (family len : Z) (t : jtype) (d : list Z) (behind : list Z) : res (Z * list Z * Z) :=
    let or_len n := if len =? 0 then n else len in
    if (family =? AF_LINK48) || (family =? AF_LINK64) then
      if negb (text_only t) then Err
      else do b <- mac (d ++ behind) (Z.of_nat (List.length d));
           Good ((if (List.length b =? 6)%nat then AF_LINK48 else AF_LINK64), b, or_len (Z.of_nat (List.length b) * 8))
    else if family =? AF_INET then
      if negb (text_only t) then Err
      else if 16 <=? Z.of_nat (List.length d) then Err
      else match pton4 (upto_nul d) with Some b => Good (family, b, or_len 32) | None => Err end
    else if family =? AF_INET6 then
      if negb (text_only t) then Err
      else if 64 <=? Z.of_nat (List.length d) then Err
      else match pton6 (upto_nul d) with Some b => Good (family, b, or_len 128) | None => Err end
    else if family =? AF_CAN then
      if negb (text_or_number t) then Err
      else if 13 <=? Z.of_nat (List.length d) then Err
      else if (32 <? len) && negb (mask && (len <=? 64)) then Err
      else do b <- can_address d; Good (family, b, or_len 32)
    else if family =? AF_UNSPEC then Err
    else if negb (text_or_number t) then Err
    else match parser w family with
    | None => Err
    | Some p => match p d (if len =? 0 then MAX_ADDR_BITS else len) with
                | None => Err
                | Some (b, n) => Good (family, b, or_len n)
                end
    end.
End Address.
