(** JSON values that hold no other values, as bytes: src/json/centijson_value.c 90-95, 162-312, 361-541, 625-766, 822-858, 1061-1065.
    A JSON_VALUE is 16 bytes: the first one is the type with marks, the others ([v_in]) hold the value, or (the last eight of them) a
    pointer to a block of memory ([v_block]) that does; the bytes that the pointer overwrites are not kept track of, as they are not
    read while there is a block.  Access outside of the 15 bytes or of the block is undefined ([None]), and so is a shift by 64 or more.
    Fresh memory holds anything.  Numbers are stored little-endian.  Sums of sizes do not wrap around 2^64.  Values of types FLOAT
    and DOUBLE are left out, and so are arrays and dictionaries (Arrays.v, Dict.v). *)
Require Import ZArith List Bool.
Import ListNotations.
Open Scope Z_scope.

(** wolfsentry/centijson_value.h 83-95 *)
Inductive vtype := TNull | TBool | TInt32 | TUint32 | TInt64 | TUint64 | TFloat | TDouble | TString | TArray | TDict.
Definition code (t : vtype) : Z :=
  match t with TNull => 0 | TBool => 1 | TInt32 => 2 | TUint32 => 3 | TInt64 => 4 | TUint64 => 5 | TFloat => 6 | TDouble => 7
  | TString => 8 | TArray => 9 | TDict => 10 end.
(** 90-95; IS_NEW is HAS_REDCOLOR *)
Definition TYPE_MASK : Z := 15.
Definition IS_NEW : Z := 16.
Definition IS_MALLOCED : Z := 128.

Record jv := mkV { v_tag : Z; v_in : list Z; v_block : list Z }.

Definition rd (l : list Z) (i : nat) : option Z := nth_error l i.
Fixpoint wr (l : list Z) (i : nat) (x : Z) : option (list Z) :=
  match l, i with
  | [], _ => None
  | _ :: l, O => Some (x :: l)
  | y :: l, S i => match wr l i x with Some l => Some (y :: l) | None => None end
  end.
(** memcpy to and from. *)
Fixpoint wrs (l : list Z) (i : nat) (xs : list Z) : option (list Z) :=
  match xs with
  | [] => Some l
  | x :: xs => match wr l i x with Some l => wrs l (S i) xs | None => None end
  end.
Fixpoint rds (l : list Z) (i n : nat) : option (list Z) :=
  match n with
  | O => Some []
  | S n => match rd l i with Some x => match rds l (S i) n with Some xs => Some (x :: xs) | None => None end | None => None end
  end.

(** 250-256 (json_value_type); 309-313 (json_value_is_new). *)
Definition type_is (v : jv) (t : vtype) : bool := Z.land (v_tag v) TYPE_MASK =? code t.
Definition is_new (v : jv) : bool := type_is v TNull && negb (Z.land (v_tag v) IS_NEW =? 0).
Definition malloced (v : jv) : bool := negb (Z.land (v_tag v) IS_MALLOCED =? 0).
(** 227-243 (json_value_payload): what the payload pointer points to. *)
Definition payload (v : jv) : list Z := if malloced v then v_block v else v_in v.
Definition with_payload (v : jv) (p : list Z) : jv :=
  if malloced v then mkV (v_tag v) (v_in v) p else mkV (v_tag v) p (v_block v).

(** 166-204 (json_value_init); [heap]: the allocator's answer to a request of so many bytes. *)
Definition init (heap : nat -> option (list Z)) (v : jv) (t : vtype) (size : nat) : jv * bool :=
  if Nat.leb (size + 1) 16 then (mkV (code t) (v_in v) (v_block v), true)
  else match heap size with
       | None => (mkV (code TNull) (v_in v) (v_block v), false)
       | Some junk => (mkV (Z.lor (code t) IS_MALLOCED) (v_in v) junk, true)
       end.

(** The integers; little-endian bytes. *)
Definition width (t : vtype) : Z := match t with TInt32 | TUint32 => 32 | _ => 64 end.
Definition bytes_of (t : vtype) : nat := match t with TInt32 | TUint32 => 4%nat | _ => 8%nat end.
Definition signed (t : vtype) : bool := match t with TInt32 | TInt64 => true | _ => false end.
(** Conversion to an integer type (implementation-defined for signed ones: modulo, as everywhere). *)
Definition cast (t : vtype) (z : Z) : Z :=
  let m := z mod 2 ^ width t in if signed t && (2 ^ (width t - 1) <=? m) then m - 2 ^ width t else m.
Fixpoint encode (n : nat) (z : Z) : list Z := match n with O => [] | S n => z mod 256 :: encode n (z / 256) end.
Fixpoint decode (l : list Z) : Z := match l with [] => 0 | b :: l => b + 256 * decode l end.

(** 206-225 (json_value_init_simple) with 386-452 (json_value_init_int32 and so on). *)
Definition init_int (heap : nat -> option (list Z)) (v : jv) (t : vtype) (z : Z) : option (jv * bool) :=
  let '(v, ok) := init heap v t (bytes_of t) in
  if ok then match wrs (payload v) 0 (encode (bytes_of t) z) with
             | Some p => Some (with_payload v p, true)
             | None => None
             end
  else Some (v, false).
(** 678-766 (json_value_int32, _uint32, _int64, _uint64): [t] is the type asked for. *)
Definition is_int (t : vtype) : bool := match t with TInt32 | TUint32 | TInt64 | TUint64 => true | _ => false end.
Definition other (t : vtype) : Z := match t with TInt32 | TInt64 => -1 | TUint32 => 2 ^ 32 - 1 | _ => 2 ^ 64 - 1 end.
Definition read_as (s t : vtype) (v : jv) : option Z :=
  match rds (payload v) 0 (bytes_of s) with Some bs => Some (cast t (cast s (decode bs))) | None => None end.
Definition get_int (t : vtype) (v : jv) : option Z :=
  if type_is v TInt32 then read_as TInt32 t v
  else if type_is v TUint32 then read_as TUint32 t v
  else if type_is v TInt64 then read_as TInt64 t v
  else if type_is v TUint64 then read_as TUint64 t v
  else Some (other t).

(** 258-306 (json_value_is_compatible), without the cases of FLOAT and DOUBLE values. *)
Definition among (t : vtype) (l : list vtype) : bool := existsb (fun u => code t =? code u) l.
Definition check (t u : vtype) (x : option Z) (p : Z -> bool) : option bool :=
  if code t =? code u then match x with Some z => Some (p z) | None => None end else Some false.
Definition por (a b : option bool) : option bool :=
  match a with Some true => Some true | Some false => b | None => None end.
Definition compatible (v : jv) (t : vtype) : option bool :=
  if type_is v t then Some true
  else if type_is v TInt32 then
    por (Some (among t [TInt64; TFloat; TDouble]))
    (por (check t TUint32 (get_int TInt32 v) (fun z => 0 <=? z)) (check t TUint64 (get_int TInt32 v) (fun z => 0 <=? z)))
  else if type_is v TUint32 then
    por (Some (among t [TInt64; TUint64; TFloat; TDouble])) (check t TInt32 (get_int TUint32 v) (fun z => z <=? 2 ^ 31 - 1))
  else if type_is v TInt64 then
    por (Some (among t [TFloat; TDouble]))
    (por (check t TInt32 (get_int TInt64 v) (fun z => (- 2 ^ 31 <=? z) && (z <=? 2 ^ 31 - 1)))
    (por (check t TUint32 (get_int TInt64 v) (fun z => (0 <=? z) && (z <=? 2 ^ 32 - 1)))
         (check t TUint64 (get_int TInt64 v) (fun z => 0 <=? z))))
  else if type_is v TUint64 then
    por (Some (among t [TFloat; TDouble]))
    (por (check t TInt32 (get_int TUint64 v) (fun z => z <=? 2 ^ 31 - 1))
    (por (check t TUint32 (get_int TUint64 v) (fun z => z <=? 2 ^ 32 - 1))
         (check t TInt64 (get_int TUint64 v) (fun z => z <=? 2 ^ 63 - 1))))
  else Some false.

(** 361-366, 368-372, 374-384, 669-676. *)
Definition init_null (v : jv) : jv := mkV (code TNull) (v_in v) (v_block v).
Definition init_new (v : jv) : jv := mkV (Z.lor (code TNull) IS_NEW) (v_in v) (v_block v).
Definition init_bool (v : jv) (b : Z) : option jv :=
  match wr (v_in v) 0 (if b =? 0 then 0 else 1) with Some l => Some (mkV (code TBool) l (v_block v)) | None => None end.
Definition get_bool (v : jv) : option Z := if type_is v TBool then rd (v_in v) 0 else Some (-1).

(** 488-530 (json_value_init_string_).  [fuel] is the loops'. *)
Fixpoint head_size (fuel : nat) (len : Z) : option nat :=
  match fuel with
  | O => None
  | S fuel => if 128 <=? len then match head_size fuel (Z.shiftr len 7) with Some n => Some (S n) | None => None end else Some 1%nat
  end.
Fixpoint put_head (fuel : nat) (len : Z) (p : list Z) (off : nat) : option (list Z * nat) :=
  match fuel with
  | O => None
  | S fuel =>
    if 128 <=? len then
      match wr p off (Z.lor 128 (Z.land len 127)) with Some p => put_head fuel (Z.shiftr len 7) p (S off) | None => None end
    else match wr p off (Z.land len 127) with Some p => Some (p, S off) | None => None end
  end.
Definition init_string (heap : nat -> option (list Z)) (v : jv) (s : list Z) : option (jv * bool) :=
  let len := Z.of_nat (length s) in
  match head_size 10 len with
  | None => None
  | Some off =>
    let '(v, ok) := init heap v TString (off + length s + 1) in
    if negb ok then Some (v, false) else
    match put_head 10 len (payload v) 0 with
    | None => None
    | Some (p, off) =>
      match wrs p off s with
      | None => None
      | Some p => match wr p (off + length s) 0 with Some p => Some (with_payload v p, true) | None => None end
      end
    end
  end.

(** 822-836 (json_value_string): the offset in the payload of what the pointer points to, [None] inside: NULL. *)
Fixpoint skip_head (fuel : nat) (p : list Z) (off : nat) : option nat :=
  match fuel with
  | O => None
  | S fuel => match rd p off with
              | Some b => if Z.land b 128 =? 0 then Some (S off) else skip_head fuel p (S off)
              | None => None
              end
  end.
Definition get_string (v : jv) : option (option nat) :=
  if negb (type_is v TString) then Some None
  else match skip_head (S (length (payload v))) (payload v) 0 with Some o => Some (Some o) | None => None end.
(** 838-858 (json_value_string_length). *)
Fixpoint get_head (fuel : nat) (p : list Z) (off : nat) (len shift : Z) : option Z :=
  match fuel with
  | O => None
  | S fuel =>
    if 64 <=? shift then None else
    match rd p off with
    | Some b => if Z.land b 128 =? 0 then Some (Z.lor len (Z.shiftl b shift mod 2 ^ 64))
                else get_head fuel p (S off) (Z.lor len (Z.shiftl (Z.land b 127) shift mod 2 ^ 64)) (shift + 7)
    | None => None
    end
  end.
Definition string_length (v : jv) : option Z :=
  if negb (type_is v TString) then Some 0 else get_head (S (length (payload v))) (payload v) 0 0 0.

(** 625-662 (json_value_fini), for the types here: the value afterwards, and whether its block was freed. *)
Definition fini (v : jv) : jv * bool := (mkV (code TNull) (v_in v) (v_block v), malloced v).

(** The red mark of the keys of a dictionary (1061-1065: MAKE_RED, MAKE_BLACK). *)
Definition make_red (v : jv) : jv := mkV (Z.lor (v_tag v) IS_NEW) (v_in v) (v_block v).
Definition make_black (v : jv) : jv := mkV (Z.land (v_tag v) (Z.lxor 255 IS_NEW)) (v_in v) (v_block v).
