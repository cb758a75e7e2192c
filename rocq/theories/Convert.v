(** * Numbers and durations in configurations: src/json/load_config.c 154-326, 366-424

    The C library's strtoul/strtoull/strtol/strtoll with base 0 are modelled after C11 7.22.1.4 (and glibc, which leaves
    errno alone when nothing is converted), for a 64-bit long (LP64).  Memory is the list of the bytes that may be read
    from the pointer on; running off its end is undefined behaviour ([None]). *)
Require Import ZArith List Bool.
From Verif Require Import Base Json TimeConv.
Import ListNotations.
Open Scope Z_scope.

(** isspace in the C locale. *)
Definition c_space (c : Z) : bool := (c =? 32) || is_in c 9 13.
(** The value of a digit in the given base. *)
Definition c_digit (base c : Z) : option Z :=
  let v := if is_digit c then Some (c - 48) else if is_in c 97 122 then Some (c - 87) else if is_in c 65 90 then Some (c - 55) else None in
  match v with Some d => if d <? base then Some d else None | None => None end.

Fixpoint skip_space (m : list Z) (n : nat) : option (list Z * nat) :=
  match m with [] => None | c :: r => if c_space c then skip_space r (S n) else Some (m, n) end.
Fixpoint read_digits (base : Z) (m : list Z) (acc : Z) (n : nat) : option (Z * nat) :=
  match m with
  | [] => None
  | c :: r => match c_digit base c with Some d => read_digits base r (acc * base + d) (S n) | None => Some (acc, n) end
  end.
(** The base and the beginning of the digits: 0x only if a hexadecimal digit follows. *)
Definition read_prefix (m : list Z) (n : nat) : option (Z * list Z * nat) :=
  match m with
  | [] => None
  | c :: r =>
    if c =? 48 then
      match r with
      | [] => None
      | x :: r2 =>
        if (x =? 120) || (x =? 88) then
          match r2 with
          | [] => None
          | h :: _ => match c_digit 16 h with Some _ => Some (16, r2, S (S n)) | None => Some (8, m, n) end
          end
        else Some (8, m, n)
      end
    else Some (10, m, n)
  end.
(** C11 7.22.1.4, 2-7: the number read before it is fitted into the result type, and where reading stopped. *)
Definition strto (m : list Z) : option (Z * nat) :=
  match skip_space m 0 with
  | None | Some ([], _) => None
  | Some (c :: r, n) =>
    let neg := c =? 45 in
    let '(m2, n2) := if neg || (c =? 43) then (r, S n) else (c :: r, n) in
    match read_prefix m2 n2 with
    | None => None
    | Some (base, m3, n3) =>
      match read_digits base m3 0 n3 with
      | None => None
      | Some (v, e) => Some (if Nat.eqb e n3 then (0, 0%nat) else ((if neg then - v else v), e))
      end
    end
  end.
(** 7.22.1.4, 5 and 8: unsigned results are negated in the result type, out of range sets errno ([None]). *)
Definition fit_unsigned (v : Z) : option Z := if 2 ^ 64 <=? Z.abs v then None else Some (v mod 2 ^ 64).
Definition fit_signed (v : Z) : option Z := if in_i64 v then Some v else None.

Inductive cres := CSet (v : Z) | CInvalid | CTooBig | CUB.

Definition numeric_type (t : jtype) : bool := match t with JSON_NUMBER | JSON_STRING => true | _ => false end.

(** convert_uint64 154-190, convert_sint64 192-228, convert_uint32 230-260, convert_uint16 262-292, convert_uint8 294-324:
    the same up to the size of the buffer, the conversion function and the final check. *)
Definition convert (size : Z) (fit : Z -> option Z) (max : Z) (t : jtype) (data : list Z) : cres :=
  if negb (numeric_type t) then CInvalid
  else if size <=? Z.of_nat (length data) then CTooBig
  else match strto (data ++ [0]) with
       | None => CUB
       | Some (v, e) =>
         match fit v with
         | None => CInvalid
         | Some c => if negb (Nat.eqb e (length data)) then CInvalid else if max <? c then CTooBig else CSet c
         end
       end.
Definition convert_uint64 := convert 24 fit_unsigned (2 ^ 64 - 1).
Definition convert_sint64 := convert 24 fit_signed i64_max.
Definition convert_uint32 := convert 16 fit_unsigned (2 ^ 32 - 1).
Definition convert_uint16 := convert 8 fit_unsigned (2 ^ 16 - 1).
Definition convert_uint8 := convert 4 fit_unsigned (2 ^ 8 - 1).

(** 384-399: the switch falls through; each product is a signed multiplication. *)
Definition mul64 (a b : Z) : option Z := if in_i64 (a * b) then Some (a * b) else None.
Definition scale (unit : Z) (v : Z) : option (Z * bool) :=
  let s v := Some (v, true) in
  let m v := match mul64 v 60 with Some v => s v | None => None end in
  let h v := match mul64 v 60 with Some v => m v | None => None end in
  let d v := match mul64 v 24 with Some v => h v | None => None end in
  if unit =? 100 then d v else if unit =? 104 then h v else if unit =? 109 then m v else if unit =? 115 then s v else Some (v, false).
(** convert_wolfsentry_duration 366-405: reads from [data] itself, which is not terminated: [after] is what memory holds
    behind it.  The result is in microseconds (the built-in interval_from_seconds). *)
Definition convert_duration (t : jtype) (data after : list Z) : cres :=
  if negb (numeric_type t) then CInvalid
  else match strto (data ++ after) with
       | None => CUB
       | Some (v, e) =>
         match fit_signed v with
         | None => CInvalid
         | Some v =>
           match nth_error (data ++ after) e with
           | None => CUB
           | Some u =>
             match scale u v with
             | None => CUB
             | Some (v, unit) =>
               if negb (Nat.eqb (if unit then S e else e) (length data)) then CInvalid
               else match from_epoch_time v 0 with TOk r => CSet r | TErr _ => CTooBig | TUB => CUB end
             end
           end
         end
       end.
