(** * Printing JSON, and reading numbers back: src/json/centijson_sax.c 1015-1172, 1245-1483; src/kv.c 383-478

    Bytes are [Z].  A read outside of the text of a number, a write outside of a buffer and a signed overflow are undefined
    behaviour: [None].  Doubles are left out (json_number_to_double, json_dump_double).  A printing function hands its output
    piece by piece to a function of the caller; what it hands over does not depend on what that function returns, except that
    it stops at the first negative code, so a printing function is modelled by the list of its pieces ([emit] hands them over). *)
Require Import ZArith List Bool.
From Verif Require Import Json.
Import ListNotations.
Open Scope Z_scope.

(** ** Comparing integer texts *)
(** strncmp(a, b, n), C11 7.24.4.4. *)
Fixpoint strncmp (a b : list Z) (n : nat) : option Z :=
  match n with
  | O => Some 0
  | S n => match a, b with
           | x :: a, y :: b => if negb (x =? y) then Some (x - y) else if x =? 0 then Some 0 else strncmp a b n
           | _, _ => None
           end
  end.
(** centijson_sax.c 1020-1027 *)
Definition intstrncmp_pos (a b : list Z) : option Z :=
  if negb (Nat.eqb (length a) (length b)) then Some (if Nat.ltb (length a) (length b) then -1 else 1)
  else strncmp a b (length a).
(** centijson_sax.c 1029-1034 *)
Definition intstrncmp_neg (a b : list Z) : option Z :=
  match intstrncmp_pos (tl a) (tl b) with Some c => Some (- c) | None => None end.
(** centijson_sax.c 1036-1053 *)
Definition intstrncmp (a b : list Z) : option Z :=
  match a, b with
  | x :: _, y :: _ =>
    let p1 := negb (x =? 45) in
    let p2 := negb (y =? 45) in
    if eqb p1 p2 then (if p1 then intstrncmp_pos a b else intstrncmp_neg a b) else Some (if p1 then 1 else -1)
  | _, _ => None
  end.
(** centijson_sax.c 1055-1062 *)
Definition intstr_is_between (v mn mx : list Z) : option bool :=
  match intstrncmp mn v with
  | None => None
  | Some c => if negb (c <=? 0) then Some false else match intstrncmp v mx with None => None | Some c => Some (c <=? 0) end
  end.
(** the texts in centijson_sax.c 1071-1076 *)
Definition s_int32_min := [45; 50; 49; 52; 55; 52; 56; 51; 54; 52; 56].
Definition s_int32_max := [50; 49; 52; 55; 52; 56; 51; 54; 52; 55].
Definition s_uint32_max := [52; 50; 57; 52; 57; 54; 55; 50; 57; 53].
Definition s_int64_min := [45; 57; 50; 50; 51; 51; 55; 50; 48; 51; 54; 56; 53; 52; 55; 55; 53; 56; 48; 56].
Definition s_int64_max := [57; 50; 50; 51; 51; 55; 50; 48; 51; 54; 56; 53; 52; 55; 55; 53; 56; 48; 55].
Definition s_uint64_max := [49; 56; 52; 52; 54; 55; 52; 52; 48; 55; 51; 55; 48; 57; 53; 53; 49; 54; 49; 53].
Record compat := Compat { c_i32 : bool; c_u32 : bool; c_i64 : bool; c_u64 : bool }.
Definition memchr (c : Z) (l : list Z) : bool := existsb (Z.eqb c) l.
(** centijson_sax.c 1064-1123 (json_analyze_number) *)
Definition analyze (num : list Z) : option compat :=
  if (length num <=? length s_uint64_max)%nat then
    let num := match num with [45; 48] => [48] | _ => num end in
    if negb (memchr 46 num) && negb (memchr 101 num) && negb (memchr 69 num) then
      match intstr_is_between num s_int32_min s_int32_max, intstr_is_between num [48] s_uint32_max,
            intstr_is_between num s_int64_min s_int64_max, intstr_is_between num [48] s_uint64_max with
      | Some a, Some b, Some c, Some d => Some (Compat a b c d)
      | _, _, _, _ => None
      end
    else Some (Compat false false false false)
  else Some (Compat false false false false).

(** ** Reading integers *)
(** Conversion to intN_t of a value of N bits (implementation-defined, as gcc does it). *)
Definition to_signed (bits v : Z) : Z := let w := v mod 2 ^ bits in if w <? 2 ^ (bits - 1) then w else w - 2 ^ bits.
(** centijson_sax.c 1159-1172 (json_number_to_uint64); uint64_t wraps *)
Fixpoint to_uint64_1 (val : Z) (num : list Z) : Z :=
  match num with
  | c :: r => if is_digit c then to_uint64_1 ((val * 10 + (c - 48)) mod 2 ^ 64) r else val
  | [] => val
  end.
Definition to_uint64 (num : list Z) : Z := to_uint64_1 0 num.
(** centijson_sax.c 1137-1157 (json_number_to_int64) *)
Definition to_int64 (num : list Z) : option Z :=
  match num with
  | [] => None
  | c :: r =>
    if c =? 45 then
      let w := to_signed 64 (to_uint64 r - 1) in
      if (w =? - 2 ^ 63) || (- w - 1 <? - 2 ^ 63) then None else Some (- w - 1)
    else Some (to_signed 64 (to_uint64 num))
  end.
(** centijson_sax.c 1125-1135 *)
Definition to_int32 (num : list Z) : option Z := match to_int64 num with Some v => Some (to_signed 32 v) | None => None end.
Definition to_uint32 (num : list Z) : Z := to_uint64 num mod 2 ^ 32.

(** ** Printing integers: centijson_sax.c 1245-1302.  [room] is what is left of [buffer[32]] in front of the digits. *)
Fixpoint dump_s (room : nat) (i : Z) (acc : list Z) : option (list Z * nat) :=
  if i =? 0 then Some (acc, room)
  else match room with O => None | S room => dump_s room (Z.quot i 10) (48 + Z.abs (Z.rem i 10) :: acc) end.
Definition dump_int64 (i : Z) : option (list Z) :=
  if i =? 0 then Some [48]
  else match dump_s 32 i [] with
       | None => None
       | Some (l, room) => if i <? 0 then match room with O => None | S _ => Some (45 :: l) end else Some l
       end.
Fixpoint dump_u (room : nat) (u : Z) (acc : list Z) : option (list Z) :=
  if u =? 0 then Some acc
  else match room with O => None | S room => dump_u room (u / 10) (48 + u mod 10 :: acc) end.
Definition dump_uint64 (u : Z) : option (list Z) := if u =? 0 then Some [48] else dump_u 32 u [].

(** ** Printing strings: centijson_sax.c 1407-1483 *)
Definition xdigits : list Z := [48; 49; 50; 51; 52; 53; 54; 55; 56; 57; 65; 66; 67; 68; 69; 70].
Definition control_to_hex (ch : Z) : list Z :=
  [92; 117; 48; 48; nth (Z.to_nat (Z.land (Z.shiftr ch 4) 15)) xdigits 0; nth (Z.to_nat (Z.land ch 15)) xdigits 0].
Definition must_escape (ch : Z) : bool := is_control ch || (ch =? 34) || (ch =? 92).
Definition escape_of (ch : Z) : list Z :=
  if ch =? 34 then [92; 34] else if ch =? 92 then [92; 92] else if ch =? 8 then [92; 98] else if ch =? 12 then [92; 102]
  else if ch =? 10 then [92; 110] else if ch =? 13 then [92; 114] else if ch =? 9 then [92; 116] else control_to_hex ch.
(** 1462-1466: the tight loop, its end and what is left *)
Fixpoint run_plain (l : list Z) : list Z * list Z :=
  match l with
  | [] => ([], [])
  | c :: r => if must_escape c then ([], l) else let '(a, b) := run_plain r in (c :: a, b)
  end.
(** 1433-1476; [n] bounds the bytes left, every turn takes at least one *)
Fixpoint dump_chars (n : nat) (l : list Z) : list (list Z) :=
  match n, l with
  | S n, c :: r => if must_escape c then escape_of c :: dump_chars n r else let '(a, b) := run_plain r in (c :: a) :: dump_chars n b
  | _, _ => []
  end.
Definition dump_string (s : list Z) : list (list Z) := [34] :: dump_chars (length s) s ++ [[34]].

(** The pieces handed to the caller's function, until it returns a negative code. *)
Fixpoint emit {W : Type} (write : list Z -> W -> Z * W) (pieces : list (list Z)) (w : W) : Z * W :=
  match pieces with
  | [] => (0, w)
  | p :: r => let '(e, w) := write p w in if e <? 0 then (e, w) else emit write r w
  end.
(** centijson_sax.c 1302, 1283: the code of the only call is returned as it is *)
Definition emit_one {W : Type} (write : list Z -> W -> Z * W) (piece : list Z) (w : W) : Z * W := write piece w.

(** ** Rendering a user value: src/kv.c 405-478, without JSON objects and floating point numbers.
    HAVE_JSON_DOM (kv.c 437) is defined nowhere, so strings are printed by snprintf.  The result is the code, the new
    [*out_len], and what the buffer begins with (snprintf writes at most [out_space - 1] characters and a 0). *)
Inductive rendered := RTooSmall (need : Z) | ROk (text : list Z).
(** C11 7.21.6.1: [%.*s] stops at a NUL or after the precision *)
Fixpoint until_nul (l : list Z) : list Z := match l with [] => [] | c :: r => if c =? 0 then [] else c :: until_nul r end.
Definition snprintf_result (out_space : Z) (text : list Z) : rendered :=
  if out_space <=? Z.of_nat (length text) then RTooSmall (Z.of_nat (length text)) else ROk text.
Inductive uval := UNull | UTrue | UFalse | UUint (n : Z) | USint (z : Z) | UString (s : list Z).
Definition render_text (v : uval) : option (list Z) :=
  match v with
  | UNull => Some lit_null
  | UTrue => Some lit_true
  | UFalse => Some lit_false
  | UUint n => dump_uint64 n            (* %lu prints the same digits *)
  | USint z => dump_int64 z             (* %ld *)
  | UString s => Some (34 :: until_nul s ++ [34])
  end.
Definition render (out_space : Z) (v : uval) : option rendered :=
  match render_text v with Some t => Some (snprintf_result out_space t) | None => None end.
