(** * Specification: JSON texts (RFC 8259), independently of the parser

    Bytes are [Z].  A text is described by its syntax tree; the tree of a
    number is the text of the number, the tree of a string is its text
    between the quotation marks together with the bytes it denotes (in
    UTF-8, RFC 3629).  [jtype] (the kinds of callback) is the only thing
    taken from the model. *)
Require Import ZArith List Bool.
From Verif Require Import Json.
Import ListNotations.
Open Scope Z_scope.

(** ** Syntax trees *)

Inductive jvalue :=
| VNull | VFalse | VTrue
| VNum (text : list Z)
| VStr (raw denotes : list Z)
| VArr (elements : list jvalue)
| VObj (members : list ((list Z * list Z) * jvalue)).

(** ** White space *)
Definition ws_byte (c : Z) : Prop := c = 32 \/ c = 9 \/ c = 10 \/ c = 13.
Definition ws (l : list Z) : Prop := Forall ws_byte l.

(** ** Numbers: an optional minus sign, an integer without superfluous zeros,
    optionally a fraction and an exponent *)
Definition digit (c : Z) : Prop := 48 <= c <= 57.
Definition digits (l : list Z) : Prop := Forall digit l.

Inductive minus_part : list Z -> Prop :=
| no_minus : minus_part []
| minus : minus_part [45].
Inductive int_part : list Z -> Prop :=
| int_zero : int_part [48]
| int_nonzero : forall c l, 49 <= c <= 57 -> digits l -> int_part (c :: l).
Inductive frac_part : list Z -> Prop :=
| no_frac : frac_part []
| frac : forall c l, digit c -> digits l -> frac_part (46 :: c :: l).
Inductive sign_part : list Z -> Prop :=
| no_sign : sign_part []
| sign_plus : sign_part [43]
| sign_minus : sign_part [45].
Inductive exp_part : list Z -> Prop :=
| no_exp : exp_part []
| exp : forall e s c l, e = 101 \/ e = 69 -> sign_part s -> digit c -> digits l ->
    exp_part (e :: s ++ c :: l).

Definition number (l : list Z) : Prop :=
  exists m i f e, l = m ++ i ++ f ++ e /\
    minus_part m /\ int_part i /\ frac_part f /\ exp_part e.

(** ** UTF-8 *)
Definition scalar (c : Z) : Prop := 0 <= c <= 55295 \/ 57344 <= c <= 1114111.

Definition utf8 (c : Z) : list Z :=
  if c <? 128 then [c]
  else if c <? 2048 then [192 + c / 64; 128 + c mod 64]
  else if c <? 65536 then [224 + c / 4096; 128 + c / 64 mod 64; 128 + c mod 64]
  else [240 + c / 262144; 128 + c / 4096 mod 64; 128 + c / 64 mod 64; 128 + c mod 64].

(** ** Strings: the text between the quotation marks, and what it denotes *)
Definition escapes : list (Z * Z) :=
  [ (34, 34); (92, 92); (47, 47); (98, 8); (102, 12); (110, 10); (114, 13); (116, 9) ].

Definition hex_digit (c v : Z) : Prop :=
  (48 <= c <= 57 /\ v = c - 48) \/ (97 <= c <= 102 /\ v = c - 87) \/
  (65 <= c <= 70 /\ v = c - 55).

Inductive hex4 : list Z -> Z -> Prop :=
| hex4_intro : forall a b c d va vb vc vd,
    hex_digit a va -> hex_digit b vb -> hex_digit c vc -> hex_digit d vd ->
    hex4 [a; b; c; d] (4096 * va + 256 * vb + 16 * vc + vd).

Inductive chars : list Z -> list Z -> Prop :=
| chars_nil : chars [] []
| chars_plain : forall c r d,
    32 <= c <= 127 -> c <> 34 -> c <> 92 -> chars r d -> chars (c :: r) (c :: d)
| chars_utf8 : forall c r d,
    128 <= c -> scalar c -> chars r d -> chars (utf8 c ++ r) (utf8 c ++ d)
| chars_escape : forall e c r d,
    In (e, c) escapes -> chars r d -> chars (92 :: e :: r) (c :: d)
| chars_unicode : forall h c r d,
    hex4 h c -> scalar c -> chars r d -> chars (92 :: 117 :: h ++ r) (utf8 c ++ d)
| chars_pair : forall h1 hi h2 lo r d,
    hex4 h1 hi -> hex4 h2 lo -> 55296 <= hi <= 56319 -> 56320 <= lo <= 57343 ->
    chars r d ->
    chars (92 :: 117 :: h1 ++ 92 :: 117 :: h2 ++ r)
          (utf8 (65536 + (hi - 55296) * 1024 + (lo - 56320)) ++ d).

(** ** Values *)
Inductive value : list Z -> jvalue -> Prop :=
| value_null : value [110; 117; 108; 108] VNull
| value_false : value [102; 97; 108; 115; 101] VFalse
| value_true : value [116; 114; 117; 101] VTrue
| value_number : forall l, number l -> value l (VNum l)
| value_string : forall r d, chars r d -> value (34 :: r ++ [34]) (VStr r d)
| value_empty_array : forall w, ws w -> value (91 :: w ++ [93]) (VArr [])
| value_array : forall l vs, elements l vs -> value (91 :: l ++ [93]) (VArr vs)
| value_empty_object : forall w, ws w -> value (123 :: w ++ [125]) (VObj [])
| value_object : forall l ms, members l ms -> value (123 :: l ++ [125]) (VObj ms)
with elements : list Z -> list jvalue -> Prop :=
| elements_one : forall w1 l v w2,
    ws w1 -> value l v -> ws w2 -> elements (w1 ++ l ++ w2) [v]
| elements_more : forall w1 l v w2 l' vs,
    ws w1 -> value l v -> ws w2 -> elements l' vs ->
    elements (w1 ++ l ++ w2 ++ 44 :: l') (v :: vs)
with members : list Z -> list ((list Z * list Z) * jvalue) -> Prop :=
| members_one : forall w1 r d w2 w3 l v w4,
    ws w1 -> chars r d -> ws w2 -> ws w3 -> value l v -> ws w4 ->
    members (w1 ++ 34 :: r ++ 34 :: w2 ++ 58 :: w3 ++ l ++ w4) [((r, d), v)]
| members_more : forall w1 r d w2 w3 l v w4 l' ms,
    ws w1 -> chars r d -> ws w2 -> ws w3 -> value l v -> ws w4 -> members l' ms ->
    members (w1 ++ 34 :: r ++ 34 :: w2 ++ 58 :: w3 ++ l ++ w4 ++ 44 :: l') (((r, d), v) :: ms).

(** A JSON text with the tree [v]. *)
Inductive document : list Z -> jvalue -> Prop :=
| document_intro : forall w1 l v w2, ws w1 -> value l v -> ws w2 -> document (w1 ++ l ++ w2) v.

(** ** The callbacks a tree calls for *)
Fixpoint events (v : jvalue) : list event :=
  match v with
  | VNull => [(JSON_NULL, [])]
  | VFalse => [(JSON_FALSE, [])]
  | VTrue => [(JSON_TRUE, [])]
  | VNum l => [(JSON_NUMBER, l)]
  | VStr _ d => [(JSON_STRING, d)]
  | VArr vs => (JSON_ARRAY_BEG, []) :: flat_map events vs ++ [(JSON_ARRAY_END, [])]
  | VObj ms =>
      (JSON_OBJECT_BEG, [])
      :: flat_map (fun m => (JSON_KEY, snd (fst m)) :: events (snd m)) ms
      ++ [(JSON_OBJECT_END, [])]
  end.

(** They are made in order until one returns a negative code; the last
    code returned, and the state the callbacks leave. *)
Fixpoint deliver {U : Type} (cb : jtype -> list Z -> U -> Z * U) (code : Z) (u : U)
  (evs : list event) : Z * U :=
  match evs with
  | [] => (code, u)
  | (t, d) :: evs' =>
      if code <? 0 then (code, u)
      else let '(code', u') := cb t d u in deliver cb code' u' evs'
  end.

(** ** Limits *)

(** Values and keys. *)
Fixpoint count (v : jvalue) : Z :=
  match v with
  | VArr vs => 1 + fold_right (fun x n => count x + n) 0 vs
  | VObj ms => 1 + fold_right (fun m n => 1 + count (snd m) + n) 0 ms
  | _ => 1
  end.

(** Nesting. *)
Fixpoint depth (v : jvalue) : Z :=
  match v with
  | VArr vs => 1 + fold_right (fun x n => Z.max (depth x) n) 0 vs
  | VObj ms => 1 + fold_right (fun m n => Z.max (depth (snd m)) n) 0 ms
  | _ => 0
  end.

(** 0 means no limit. *)
Definition at_most (n limit : Z) : Prop := limit = 0 \/ n <= limit.
Definition len (l : list Z) : Z := Z.of_nat (length l).

(** The lengths of numbers, strings and keys, as written. *)
Inductive lengths_ok (cfg : jconfig) : jvalue -> Prop :=
| lengths_null : lengths_ok cfg VNull
| lengths_false : lengths_ok cfg VFalse
| lengths_true : lengths_ok cfg VTrue
| lengths_num : forall l, at_most (len l) (max_number_len cfg) -> lengths_ok cfg (VNum l)
| lengths_str : forall r d, at_most (len r) (max_string_len cfg) -> lengths_ok cfg (VStr r d)
| lengths_arr : forall vs, Forall (lengths_ok cfg) vs -> lengths_ok cfg (VArr vs)
| lengths_obj : forall ms,
    Forall (fun m => at_most (len (fst (fst m))) (max_key_len cfg) /\ lengths_ok cfg (snd m)) ms ->
    lengths_ok cfg (VObj ms).

(** The kinds of value the configuration refuses as the whole document
    (wolfsentry/centijson_sax.h 114-123). *)
Definition root_allowed (cfg : jconfig) (v : jvalue) : Prop :=
  Z.testbit (cflags cfg)
    match v with
    | VNull => 0 | VFalse | VTrue => 1 | VNum _ => 2 | VStr _ _ => 3
    | VArr _ => 4 | VObj _ => 5
    end = false.

Definition within (cfg : jconfig) (v : jvalue) : Prop :=
  at_most (count v) (max_total_values cfg) /\
  at_most (depth v) (max_nesting_level cfg) /\
  lengths_ok cfg v /\ root_allowed cfg v.
