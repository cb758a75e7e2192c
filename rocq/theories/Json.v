(** * Model of the SAX JSON parser (src/json/centijson_sax.c)

    [wolfsentry_config_json_feed] hands every piece of a configuration
    document to this parser, so it decides which documents are loaded and
    what the configuration code sees of them.

    Bytes are [Z].  The parser state is [JSON_PARSER]
    (wolfsentry/centijson_sax.h 183-226); the pointers to buffers are
    replaced by the bytes they hold:
    - [p_buf] is the first [buf_used] bytes of [buf];
    - [p_nest] is [nesting_stack], innermost closer first, so
      [nesting_level] is its length.
    [callbacks.process]/[user_data] are the function [cb] and the value
    [p_user] it transforms: the function is arbitrary.

    Simplifications: allocations succeed ([JSON_ERR_OUTOFMEMORY] is never
    raised); offsets ([size_t]) and the value counter do not wrap around
    2^64; line and column numbers ([unsigned]) do wrap around 2^32.  The
    pointer handed to the callback is modelled by the bytes it points to. *)
Require Import ZArith List Bool Lia.
Import ListNotations.
Open Scope Z_scope.

(** wolfsentry/centijson_sax.h 70-81 *)
Inductive jtype :=
| JSON_NULL | JSON_FALSE | JSON_TRUE | JSON_NUMBER | JSON_STRING | JSON_KEY
| JSON_ARRAY_BEG | JSON_ARRAY_END | JSON_OBJECT_BEG | JSON_OBJECT_END.

(** wolfsentry/centijson_sax.h 87-109 *)
Definition ERR_INTERNAL := -1.
Definition ERR_SYNTAX := -4.
Definition ERR_BADCLOSER := -5.
Definition ERR_BADROOTTYPE := -6.
Definition ERR_EXPECTEDVALUE := -7.
Definition ERR_EXPECTEDKEY := -8.
Definition ERR_EXPECTEDVALUEORCLOSER := -9.
Definition ERR_EXPECTEDKEYORCLOSER := -10.
Definition ERR_EXPECTEDCOLON := -11.
Definition ERR_EXPECTEDCOMMAORCLOSER := -12.
Definition ERR_EXPECTEDEOF := -13.
Definition ERR_MAXTOTALLEN := -14.
Definition ERR_MAXTOTALVALUES := -15.
Definition ERR_MAXNESTINGLEVEL := -16.
Definition ERR_MAXNUMBERLEN := -17.
Definition ERR_MAXSTRINGLEN := -18.
Definition ERR_MAXKEYLEN := -19.
Definition ERR_UNCLOSEDSTRING := -20.
Definition ERR_UNESCAPEDCONTROL := -21.
Definition ERR_INVALIDESCAPE := -22.
Definition ERR_INVALIDUTF8 := -23.
Definition ERR_NOT_INITED := -24.

(** wolfsentry/centijson_sax.h 114-128: bits of [JSON_CONFIG.flags], by
    bit number. *)
Definition NONULLASROOT := 0.
Definition NOBOOLASROOT := 1.
Definition NONUMBERASROOT := 2.
Definition NOSTRINGASROOT := 3.
Definition NOARRAYASROOT := 4.
Definition NOOBJECTASROOT := 5.
Definition IGNOREILLUTF8KEY := 8.
Definition FIXILLUTF8KEY := 9.
Definition IGNOREILLUTF8VALUE := 10.
Definition FIXILLUTF8VALUE := 11.

(** wolfsentry/centijson_sax.h 136-144 *)
Record jconfig := JConfig {
  max_total_len : Z;
  max_total_values : Z;
  max_number_len : Z;
  max_string_len : Z;
  max_key_len : Z;
  max_nesting_level : Z;
  cflags : Z
}.

(** wolfsentry/centijson_sax.h 152-156 *)
Record jpos := JPos { p_off : Z; p_line : Z; p_col : Z }.

(** wolfsentry/centijson_sax.h 206-214 *)
Inductive automaton := A_MAIN | A_NULL | A_FALSE | A_TRUE | A_NUMBER | A_STRING | A_KEY.

(** centijson_sax.c 132-139: bits of [JSON_PARSER.state]. *)
Definition ST_UNINITED := 0.
Definition CAN_SEE_VALUE := 1.
Definition CAN_SEE_KEY := 2.
Definition CAN_SEE_CLOSER := 4.
Definition CAN_SEE_COMMA := 8.
Definition CAN_SEE_COLON := 16.
Definition CAN_SEE_EOF := 32768.
Definition has (st bit : Z) : bool := negb (Z.land st bit =? 0).

Definition u32w (x : Z) : Z := x mod 4294967296.

(** Characters: centijson_sax.c 362-369. *)
Definition is_in (ch a b : Z) : bool := (a <=? ch) && (ch <=? b).
Definition is_ws (ch : Z) : bool := (ch =? 32) || (ch =? 9) || (ch =? 13) || (ch =? 10).
Definition is_control (ch : Z) : bool := ch <=? 31.
Definition is_punct (ch : Z) : bool :=
  is_in ch 33 47 || is_in ch 58 64 || is_in ch 91 96 || is_in ch 123 126.
Definition is_boundary (ch : Z) : bool := is_ws ch || is_control ch || is_punct ch.
Definition is_ascii (ch : Z) : bool := ch <=? 127.
Definition is_digit (ch : Z) : bool := is_in ch 48 57.
Definition is_xdigit (ch : Z) : bool := is_digit ch || is_in ch 97 102 || is_in ch 65 70.
(** centijson_sax.c 371-372 *)
Definition is_hi (c : Z) : bool := is_in c 55296 56319.
Definition is_lo (c : Z) : bool := is_in c 56320 57343.

Definition ch_quote := 34.
Definition ch_bslash := 92.

(** centijson_sax.c 331-358: [json_buf_append_codepoint], the bytes it
    appends. *)
Definition utf8_of (c : Z) : list Z :=
  if c <=? 127 then [c]
  else if c <=? 2047 then
    [ Z.lor 192 (Z.land (Z.shiftr c 6) 31); Z.lor 128 (Z.land c 63) ]
  else if c <=? 65535 then
    [ Z.lor 224 (Z.land (Z.shiftr c 12) 15); Z.lor 128 (Z.land (Z.shiftr c 6) 63);
      Z.lor 128 (Z.land c 63) ]
  else
    [ Z.lor 240 (Z.land (Z.shiftr c 18) 7); Z.lor 128 (Z.land (Z.shiftr c 12) 63);
      Z.lor 128 (Z.land (Z.shiftr c 6) 63); Z.lor 128 (Z.land c 63) ].

(** centijson_sax.c 491-500: [json_resolve_xdigit]. *)
Definition xdigit_val (ch : Z) : Z :=
  if is_digit ch then ch - 48
  else if is_in ch 97 102 then ch - 97 + 10
  else ch - 65 + 10.

(** centijson_sax.c 513-514: the first three bytes of [fffd]. *)
Definition fffd : list Z := [239; 191; 189].

(** centijson_sax.c 682-684: drop the trailing bytes and the leading byte
    of the unfinished sequence at the end of the buffer. *)
Fixpoint drop_trail_rev (r : list Z) : list Z :=
  match r with
  | [] => []
  | c :: r' => if Z.land c 192 =? 128 then drop_trail_rev r' else r'
  end.
Definition drop_trail (b : list Z) : list Z := rev (drop_trail_rev (rev b)).

(** centijson_sax.c 706-716: the two-character escapes. *)
Definition simple_escape (ch : Z) : option Z :=
  if ch =? 34 then Some 34
  else if ch =? 92 then Some 92
  else if ch =? 47 then Some 47
  else if ch =? 98 then Some 8
  else if ch =? 102 then Some 12
  else if ch =? 110 then Some 10
  else if ch =? 114 then Some 13
  else if ch =? 116 then Some 9
  else None.

(** centijson_sax.c 822-824: the literals. *)
Definition lit_null : list Z := [110; 117; 108; 108].
Definition lit_false : list Z := [102; 97; 108; 115; 101].
Definition lit_true : list Z := [116; 114; 117; 101].

(** centijson_sax.c 581-583: the characters the tight loop of the string
    automaton skips. *)
Definition is_plain (ch : Z) : bool :=
  is_ascii ch && negb (is_control ch) && negb (ch =? ch_bslash) && negb (ch =? ch_quote).

Fixpoint plain_run (l : list Z) : list Z :=
  match l with
  | [] => []
  | c :: l' => if is_plain c then c :: plain_run l' else []
  end.

(** centijson_sax.c 412-420: the bits of the number automaton's substate. *)
Definition N_M_SIGN := 1.
Definition N_M_FIRST := 2.
Definition N_M_DIGIT := 4.
Definition N_F_DELIM := 16.
Definition N_F_DIGIT := 32.
Definition N_E_DELIM := 256.
Definition N_E_SIGN := 512.
Definition N_E_DIGIT := 1024.
Definition N_END := 4096.

(** centijson_sax.c 434-452: the substate after one more character of the
    number, if the character belongs to it. *)
Definition number_next (sub ch : Z) : option Z :=
  if has sub N_M_SIGN && (ch =? 45) then Some N_M_FIRST
  else if has sub N_M_FIRST && is_digit ch then
    Some (if ch =? 48 then N_F_DELIM + N_E_DELIM + N_END
          else N_M_DIGIT + N_F_DELIM + N_E_DELIM + N_END)
  else if has sub N_M_DIGIT && is_digit ch then
    Some (N_M_DIGIT + N_F_DELIM + N_E_DELIM + N_END)
  else if has sub N_F_DELIM && (ch =? 46) then Some N_F_DIGIT
  else if has sub N_F_DIGIT && is_digit ch then Some (N_F_DIGIT + N_E_DELIM + N_END)
  else if has sub N_E_DELIM && ((ch =? 101) || (ch =? 69)) then Some (N_E_SIGN + N_E_DIGIT)
  else if has sub N_E_SIGN && ((ch =? 43) || (ch =? 45)) then Some N_E_DIGIT
  else if has sub N_E_DIGIT && is_digit ch then Some (N_E_DIGIT + N_END)
  else None.

(** centijson_sax.c 623-648: the state of the UTF-8 recogniser after a
    leading byte of a multi-byte character. *)
Definition utf8_lead (ch : Z) : option Z :=
  if is_in ch 194 223 then Some 1
  else if ch =? 224 then Some 4
  else if is_in ch 225 236 then Some 2
  else if ch =? 237 then Some 5
  else if is_in ch 238 239 then Some 2
  else if ch =? 240 then Some 6
  else if is_in ch 241 243 then Some 3
  else if ch =? 244 then Some 7
  else None.

(** centijson_sax.c 653-663: its state after a trailing byte. *)
Definition utf8_trail (sub ch : Z) : option Z :=
  if (sub <=? 3) && (Z.land ch 192 =? 128) then Some (sub - 1)
  else if (sub =? 4) && is_in ch 160 191 then Some 1
  else if (sub =? 5) && is_in ch 128 159 then Some 1
  else if (sub =? 6) && is_in ch 144 191 then Some 2
  else if (sub =? 7) && is_in ch 128 143 then Some 2
  else None.

(** The substates of an escape: 0xabcd+4 .. 0xabcd+1 while hex digits are
    awaited, 0xabcd-2 and 0xabcd-1 after a high surrogate. *)
Definition ABCD := 43981.

Section Parser.
Context {U : Type}.
Variable cfg : jconfig.
Variable cb : jtype -> list Z -> U -> Z * U.

(** wolfsentry/centijson_sax.h 183-226 *)
Record parser := Parser {
  p_pos : jpos;
  p_vpos : jpos;
  p_epos : jpos;
  p_err : Z;
  p_vcount : Z;
  p_nest : list Z;
  p_auto : automaton;
  p_st : Z;
  p_sub : Z;
  p_cp0 : Z;
  p_cp1 : Z;
  p_buf : list Z;
  p_lcl : Z;
  p_user : U
}.

Definition with_pos (p : parser) (x : jpos) :=
  Parser x (p_vpos p) (p_epos p) (p_err p) (p_vcount p) (p_nest p) (p_auto p) (p_st p)
         (p_sub p) (p_cp0 p) (p_cp1 p) (p_buf p) (p_lcl p) (p_user p).
Definition with_error (p : parser) (e : Z) (x : jpos) :=
  Parser (p_pos p) (p_vpos p) x e (p_vcount p) (p_nest p) (p_auto p) (p_st p)
         (p_sub p) (p_cp0 p) (p_cp1 p) (p_buf p) (p_lcl p) (p_user p).
Definition with_vcount (p : parser) (x : Z) :=
  Parser (p_pos p) (p_vpos p) (p_epos p) (p_err p) x (p_nest p) (p_auto p) (p_st p)
         (p_sub p) (p_cp0 p) (p_cp1 p) (p_buf p) (p_lcl p) (p_user p).
Definition with_nest (p : parser) (x : list Z) :=
  Parser (p_pos p) (p_vpos p) (p_epos p) (p_err p) (p_vcount p) x (p_auto p) (p_st p)
         (p_sub p) (p_cp0 p) (p_cp1 p) (p_buf p) (p_lcl p) (p_user p).
Definition with_st (p : parser) (x : Z) :=
  Parser (p_pos p) (p_vpos p) (p_epos p) (p_err p) (p_vcount p) (p_nest p) (p_auto p) x
         (p_sub p) (p_cp0 p) (p_cp1 p) (p_buf p) (p_lcl p) (p_user p).
Definition with_sub (p : parser) (x : Z) :=
  Parser (p_pos p) (p_vpos p) (p_epos p) (p_err p) (p_vcount p) (p_nest p) (p_auto p) (p_st p)
         x (p_cp0 p) (p_cp1 p) (p_buf p) (p_lcl p) (p_user p).
Definition with_cp (p : parser) (c0 c1 : Z) :=
  Parser (p_pos p) (p_vpos p) (p_epos p) (p_err p) (p_vcount p) (p_nest p) (p_auto p) (p_st p)
         (p_sub p) c0 c1 (p_buf p) (p_lcl p) (p_user p).
Definition with_buf (p : parser) (x : list Z) :=
  Parser (p_pos p) (p_vpos p) (p_epos p) (p_err p) (p_vcount p) (p_nest p) (p_auto p) (p_st p)
         (p_sub p) (p_cp0 p) (p_cp1 p) x (p_lcl p) (p_user p).
Definition with_line (p : parser) (x : jpos) (cl : Z) :=
  Parser x (p_vpos p) (p_epos p) (p_err p) (p_vcount p) (p_nest p) (p_auto p) (p_st p)
         (p_sub p) (p_cp0 p) (p_cp1 p) (p_buf p) cl (p_user p).
Definition with_callback (p : parser) (e : Z) (u : U) :=
  Parser (p_pos p) (p_vpos p) (p_epos p) e (p_vcount p) (p_nest p) (p_auto p) (p_st p)
         (p_sub p) (p_cp0 p) (p_cp1 p) (p_buf p) (p_lcl p) u.

(** centijson_sax.c 141-174: [json_init]. *)
Definition json_init (u : U) : parser :=
  Parser (JPos 0 1 1) (JPos 0 0 0) (JPos 0 0 0) 0 0 [] A_MAIN CAN_SEE_VALUE 0 0 0 []
         18446744073709551614 u.

(** centijson_sax.c 176-196: [json_raise_], [json_raise],
    [json_raise_for_value]: the first error is kept. *)
Definition raise_at (p : parser) (e : Z) (x : jpos) : parser :=
  if 0 <=? p_err p then with_error p e x else p.
Definition raise (p : parser) (e : Z) : parser := raise_at p e (p_pos p).
Definition raise_v (p : parser) (e : Z) : parser := raise_at p e (p_vpos p).

(** centijson_sax.c 198-217: [json_raise_unexpected]. *)
Definition raise_unexpected (p : parser) : parser :=
  raise p
    (if p_st p =? CAN_SEE_VALUE then ERR_EXPECTEDVALUE
     else if p_st p =? CAN_SEE_KEY then ERR_EXPECTEDKEY
     else if p_st p =? CAN_SEE_VALUE + CAN_SEE_CLOSER then ERR_EXPECTEDVALUEORCLOSER
     else if p_st p =? CAN_SEE_KEY + CAN_SEE_CLOSER then ERR_EXPECTEDKEYORCLOSER
     else if p_st p =? CAN_SEE_COLON then ERR_EXPECTEDCOLON
     else if p_st p =? CAN_SEE_COMMA + CAN_SEE_CLOSER then ERR_EXPECTEDCOMMAORCLOSER
     else if p_st p =? CAN_SEE_EOF then ERR_EXPECTEDEOF
     else ERR_SYNTAX).

(** centijson_sax.c 219-227: [json_switch_automaton]. *)
Definition switch (p : parser) (a : automaton) : parser :=
  Parser (p_pos p) (p_pos p) (p_epos p) (p_err p) (p_vcount p) (p_nest p) a (p_st p)
         0 (p_cp0 p) (p_cp1 p) [] (p_lcl p) (p_user p).

(** centijson_sax.c 236-266: is this type of value refused as the root? *)
Definition root_refused (t : jtype) : bool :=
  match t with
  | JSON_NULL => Z.testbit (cflags cfg) NONULLASROOT
  | JSON_FALSE | JSON_TRUE => Z.testbit (cflags cfg) NOBOOLASROOT
  | JSON_NUMBER => Z.testbit (cflags cfg) NONUMBERASROOT
  | JSON_STRING => Z.testbit (cflags cfg) NOSTRINGASROOT
  | JSON_ARRAY_BEG => Z.testbit (cflags cfg) NOARRAYASROOT
  | JSON_OBJECT_BEG => Z.testbit (cflags cfg) NOOBJECTASROOT
  | _ => false
  end.

(** centijson_sax.c 235: the end of an array or object. *)
Definition is_closer_type (t : jtype) : bool :=
  match t with JSON_ARRAY_END | JSON_OBJECT_END => true | _ => false end.

(** centijson_sax.c 281-302: what the main automaton may see next. *)
Definition state_after (t : jtype) (nest : list Z) : Z :=
  match t with
  | JSON_ARRAY_BEG => CAN_SEE_VALUE + CAN_SEE_CLOSER
  | JSON_OBJECT_BEG => CAN_SEE_KEY + CAN_SEE_CLOSER
  | JSON_KEY => CAN_SEE_COLON
  | _ => match nest with [] => CAN_SEE_EOF | _ => CAN_SEE_COMMA + CAN_SEE_CLOSER end
  end.

(** centijson_sax.c 229-307: [json_process]. *)
Definition process_call (p : parser) (t : jtype) (d : list Z) : parser :=
  let '(e, u) := cb t d (p_user p) in
  let p1 := with_callback p e u in
  switch (with_st p1 (state_after t (p_nest p1))) A_MAIN.

Definition process (p : parser) (t : jtype) (d : list Z) : parser :=
  if p_err p <? 0 then p
  else if is_closer_type t then process_call p t d
  else if (p_vcount p =? 0) && root_refused t then raise_v p ERR_BADROOTTYPE
  else if negb (max_total_values cfg =? 0) && (max_total_values cfg <=? p_vcount p)
  then raise_v p ERR_MAXTOTALVALUES
  else process_call (with_vcount p (p_vcount p + 1)) t d.

(** centijson_sax.c 309-329: [json_buf_append] (allocation succeeds). *)
Definition buf_append (p : parser) (d : list Z) : parser := with_buf p (p_buf p ++ d).

(** [off++; pos.offset++; pos.column_number++], [n] times at once. *)
Definition advance (p : parser) (n : Z) : parser :=
  with_pos p (JPos (p_off (p_pos p) + n) (p_line (p_pos p)) (u32w (p_col (p_pos p) + n))).

(** Bytes consumed since the value began: [pos.offset - value_pos.offset]. *)
Definition consumed (p : parser) : Z := p_off (p_pos p) - p_off (p_vpos p).

(** ** Literals: centijson_sax.c 375-407 *)

(** centijson_sax.c 383-395: the loop; [None] is the early return 0 on a
    character that does not match. *)
Fixpoint literal_loop (lit : list Z) (p : parser) (rest : list Z) (off : nat)
  : parser * option (list Z * nat) :=
  if (Z.of_nat (length lit) <=? p_sub p) then (p, Some (rest, off))
  else match rest with
       | [] => (p, Some (rest, off))
       | ch :: rest' =>
           if negb (ch =? nth (Z.to_nat (p_sub p)) lit 0)
           then (raise_v p ERR_SYNTAX, None)
           else literal_loop lit (with_sub (advance p 1) (p_sub p + 1)) rest' (S off)
       end.

Definition literal_auto (t : jtype) (lit : list Z) (p : parser) (input : option (list Z))
  : parser * nat :=
  match literal_loop lit p (match input with Some i => i | None => [] end) 0 with
  | (p1, None) => (p1, 0%nat)
  | (p1, Some (rest, off)) =>
      match rest with
      | ch :: _ =>
          if is_boundary ch then (process p1 t [], off)
          else (raise (with_pos p1 (p_vpos p1)) ERR_SYNTAX, off)
      | [] =>
          match input with
          | None => (process p1 t [], off)
          | Some _ => (p1, off)
          end
      end
  end.

(** ** Numbers: centijson_sax.c 409-489 *)

(** centijson_sax.c 431-471: the loop.  [done] is [input[0..off)] in
    reverse.  The result says whether the function has returned. *)
Fixpoint number_loop (p : parser) (done rest : list Z) : parser * list Z * option nat :=
  match rest with
  | [] => (p, done, None)
  | ch :: rest' =>
      match number_next (p_sub p) ch with
      | Some s => number_loop (advance (with_sub p s) 1) (ch :: done) rest'
      | None =>
          if has (p_sub p) N_END && is_boundary ch then
            ((match p_buf p with
              | [] => process p JSON_NUMBER (rev done)
              | _ :: _ => let p1 := buf_append p (rev done) in
                          process p1 JSON_NUMBER (p_buf p1)
              end), done, Some (length done))
          else (raise_v p ERR_SYNTAX, done, Some 0%nat)
      end
  end.

(** centijson_sax.c 425-426 and 551-552: how many of the [size] bytes the
    automaton may look at. *)
Definition limited (max_len : Z) (p : parser) (input : list Z) : list Z :=
  if negb (max_len =? 0) && (max_len <? consumed p + Z.of_nat (length input))
  then firstn (Z.to_nat (max_len - consumed p + 1)) input
  else input.

Definition over_long (max_len : Z) (p : parser) : bool :=
  negb (max_len =? 0) && (max_len <? consumed p).

Definition number_auto (p : parser) (input : option (list Z)) : parser * nat :=
  let max_len := max_number_len cfg in
  let bytes := limited max_len p (match input with Some i => i | None => [] end) in
  let p := if p_sub p =? 0 then with_sub p (N_M_SIGN + N_M_FIRST) else p in
  match number_loop p [] bytes with
  | (p1, _, Some off) => (p1, off)
  | (p1, done, None) =>
      let p2 := if over_long max_len p1 then raise_v p1 ERR_MAXNUMBERLEN else p1 in
      match input with
      | None =>
          if (0 <=? p_err p2) && has (p_sub p2) N_END
          then (process p2 JSON_NUMBER (p_buf p2), length done)
          else (raise_v p2 ERR_SYNTAX, length done)
      | Some _ =>
          ((if (0 <=? p_err p2) && negb (Nat.eqb (length done) 0)
            then buf_append p2 (rev done) else p2), length done)
      end
  end.

(** ** Strings and keys: centijson_sax.c 516-816 *)

Variable ignore_ill fix_ill : bool.

(** centijson_sax.c 516-527: [json_handle_ill_surrogate]: true when it
    succeeds. *)
Definition ill_surrogate (p : parser) (c : Z) : parser * bool :=
  if ignore_ill then (buf_append p (utf8_of c), true)
  else if fix_ill then (buf_append p (fffd ++ fffd ++ fffd), true)
  else (raise p ERR_INVALIDUTF8, false).

(** What one iteration of the loop does with the character: it ends the
    loop without consuming it, replays it, or goes on to the increments
    at 803-805. *)
Inductive iter := IStop (p : parser) | IReplay (p : parser) | INext (p : parser).

(** centijson_sax.c 741-783: the end of a [\uABCD] escape. *)
Definition escape_done (p : parser) : iter :=
  let c1 := p_cp1 p in
  let '(p, ok) :=
    if negb (p_cp0 p =? 0) && negb (is_lo c1) then
      let '(p1, ok) := ill_surrogate p (p_cp0 p) in
      if ok then (with_cp p1 0 c1, true) else (p1, false)
    else (p, true) in
  if negb ok then IStop p
  else if (p_cp0 p =? 0) && is_lo c1 then
    let '(p1, ok) := ill_surrogate p c1 in
    if ok then INext (with_cp (with_sub p1 0) (p_cp0 p1) 0) else IStop p1
  else if negb (p_cp0 p =? 0) && is_lo c1 then
    let c := 65536 + (p_cp0 p - 55296) * 1024 + (c1 - 56320) in
    INext (with_cp (with_sub (buf_append p (utf8_of c)) 0) 0 0)
  else if is_hi c1 then
    INext (with_cp (with_sub p (ABCD - 2)) c1 0)
  else INext (with_cp (with_sub (buf_append p (utf8_of c1)) 0) (p_cp0 p) 0).

(** centijson_sax.c 557-801: one iteration of the loop, except for the
    end of the string and the tight loop, which [string_loop] handles. *)
Definition string_iter (p : parser) (ch : Z) : iter :=
  if p_sub p =? 0 then
    if is_control ch then
      if (ch =? 13) || (ch =? 10) then IStop (raise_v p ERR_UNCLOSEDSTRING)
      else IStop (raise p ERR_UNESCAPEDCONTROL)
    else if ch =? ch_bslash then INext (with_sub p ch_bslash)
    else match utf8_lead ch with
         | Some s => INext (buf_append (with_sub p s) [ch])
         | None =>
             if fix_ill then INext (buf_append p fffd)
             else IStop (raise p ERR_INVALIDUTF8)
         end
  else if p_sub p <=? 7 then
    match utf8_trail (p_sub p) ch with
    | Some s => INext (buf_append (with_sub p s) [ch])
    | None =>
        if fix_ill then
          IReplay (with_sub (with_buf p (drop_trail (p_buf p) ++ fffd)) 0)
        else IStop (raise p ERR_INVALIDUTF8)
    end
  else if p_sub p =? ch_bslash then
    if ch =? 117 then INext (with_sub p (ABCD + 4))
    else match simple_escape ch with
         | Some c => INext (with_sub (buf_append p [c]) 0)
         | None => IStop (raise p ERR_INVALIDESCAPE)
         end
  else if ABCD <? p_sub p then
    if negb (is_xdigit ch) then IStop (raise p ERR_INVALIDESCAPE)
    else
      let p1 := with_sub (with_cp p (p_cp0 p)
                  (u32w (Z.lor (Z.shiftl (p_cp1 p) 4) (xdigit_val ch)))) (p_sub p - 1) in
      if p_sub p1 =? ABCD then escape_done p1 else INext p1
  else if ABCD - 2 <=? p_sub p then
    if (p_sub p =? ABCD - 2) && (ch =? ch_bslash) then INext (with_sub p (ABCD - 1))
    else if (p_sub p =? ABCD - 1) && (ch =? 117) then INext (with_sub p (ABCD + 4))
    else
      let '(p1, ok) := ill_surrogate p (p_cp0 p) in
      if ok then
        IReplay (with_sub (with_cp p1 0 (p_cp1 p1))
                   (if p_sub p1 =? ABCD - 1 then ch_bslash else 0))
      else IStop p1
  else IStop (raise p ERR_INTERNAL).

(** centijson_sax.c 554-806: the loop.  [off] bytes of the input are done,
    [rest] is what remains up to [size].  [None] when [fuel] runs out,
    which [JsonProofs] shows does not happen. *)
Fixpoint string_loop (fuel : nat) (t : jtype) (p : parser) (rest : list Z) (off : nat)
  : option (parser * nat) :=
  match fuel with
  | O => None
  | S fuel =>
      match rest with
      | [] => Some (p, off)
      | ch :: rest' =>
          if (p_sub p =? 0) && (ch =? ch_quote) then
            Some (process (advance p 1) t (p_buf p), S off)
          else if (p_sub p =? 0) && negb (is_control ch) && negb (ch =? ch_bslash)
                  && (is_ascii ch || ignore_ill) then
            let run := ch :: plain_run rest' in
            let n := length run in
            let tail := skipn n rest in
            match (match p_buf p with [] => Nat.eqb off 0 | _ :: _ => false end), tail with
            | true, c :: _ =>
                if c =? ch_quote then
                  Some (process (advance p (Z.of_nat n + 1)) t run, S n)
                else string_loop fuel t (advance (buf_append p run) (Z.of_nat n)) tail (off + n)
            | _, _ => string_loop fuel t (advance (buf_append p run) (Z.of_nat n)) tail (off + n)
            end
          else
            match string_iter p ch with
            | IStop p1 => Some (p1, off)
            | IReplay p1 => string_loop fuel t p1 rest off
            | INext p1 => string_loop fuel t (advance p1 1) rest' (S off)
            end
      end
  end.

(** centijson_sax.c 529-816: [json_string_automaton], with the limit
    [max_len] of the kind of string. *)
Definition string_auto (t : jtype) (max_len : Z) (long_err : Z) (p : parser)
  (input : option (list Z)) : option (parser * nat) :=
  let max_len := if 0 <? max_len then max_len + 1 else max_len in
  let bytes := limited max_len p (match input with Some i => i | None => [] end) in
  match string_loop (2 * length bytes + 1) t p bytes 0 with
  | None => None
  | Some (p1, off) =>
      let p2 := if over_long max_len p1 then raise_v p1 long_err else p1 in
      let p3 := match input with None => raise_v p2 ERR_UNCLOSEDSTRING | Some _ => p2 end in
      Some (p3, off)
  end.
End Parser.

Arguments Parser {U}.
Arguments parser U : clear implicits.

Section Feed.
Context {U : Type}.
Variable cfg : jconfig.
Variable cb : jtype -> list Z -> U -> Z * U.

(** centijson_sax.c 818-833: [json_dispatch].  [input = None] is the null
    pointer [json_fini] passes. *)
Definition dispatch (p : parser U) (input : option (list Z)) : option (parser U * nat) :=
  match p_auto p with
  | A_NULL => Some (literal_auto cfg cb JSON_NULL lit_null p input)
  | A_FALSE => Some (literal_auto cfg cb JSON_FALSE lit_false p input)
  | A_TRUE => Some (literal_auto cfg cb JSON_TRUE lit_true p input)
  | A_NUMBER => Some (number_auto cfg cb p input)
  | A_STRING =>
      string_auto cfg cb (Z.testbit (cflags cfg) IGNOREILLUTF8VALUE)
        (Z.testbit (cflags cfg) FIXILLUTF8VALUE)
        JSON_STRING (max_string_len cfg) ERR_MAXSTRINGLEN p input
  | A_KEY =>
      string_auto cfg cb (Z.testbit (cflags cfg) IGNOREILLUTF8KEY)
        (Z.testbit (cflags cfg) FIXILLUTF8KEY)
        JSON_KEY (max_key_len cfg) ERR_MAXKEYLEN p input
  | A_MAIN => Some (raise p ERR_INTERNAL, 0%nat)
  end.

(** centijson_sax.c 835-847: [json_handle_new_line]. *)
Definition new_line (p : parser U) (ch : Z) : parser U :=
  if ch =? 13 then
    with_line p (JPos (p_off (p_pos p)) (u32w (p_line (p_pos p) + 1)) 0) (p_off (p_pos p))
  else if ch =? 10 then
    with_line p
      (JPos (p_off (p_pos p))
            (if p_off (p_pos p) =? p_lcl p + 1 then p_line (p_pos p)
             else u32w (p_line (p_pos p) + 1)) 0) (p_lcl p)
  else p.

(** centijson_sax.c 884-943: what the main automaton does with a
    character: stop with an error, look at it again, or consume it. *)
Inductive mstep := MStop (p : parser U) | MAgain (p : parser U) | MNext (p : parser U).

Definition main_iter (p : parser U) (ch : Z) : mstep :=
  if has (p_st p) CAN_SEE_VALUE && ((ch =? 91) || (ch =? 123)) then
    if negb (max_nesting_level cfg =? 0)
       && (max_nesting_level cfg <=? Z.of_nat (length (p_nest p)))
    then MStop (raise p ERR_MAXNESTINGLEVEL)
    else
      let p1 := with_nest p ((if ch =? 91 then 93 else 125) :: p_nest p) in
      MNext (process cfg cb p1 (if ch =? 91 then JSON_ARRAY_BEG else JSON_OBJECT_BEG) [])
  else if has (p_st p) CAN_SEE_CLOSER && ((ch =? 93) || (ch =? 125)) then
    if negb (hd 0 (p_nest p) =? ch) then MStop (raise p ERR_BADCLOSER)
    else
      let p1 := with_nest p (tl (p_nest p)) in
      MNext (process cfg cb p1 (if ch =? 93 then JSON_ARRAY_END else JSON_OBJECT_END) [])
  else if has (p_st p) CAN_SEE_COMMA && (ch =? 44) then
    MNext (with_st p (if hd 0 (p_nest p) =? 93 then CAN_SEE_VALUE else CAN_SEE_KEY))
  else if has (p_st p) CAN_SEE_COLON && (ch =? 58) then MNext (with_st p CAN_SEE_VALUE)
  else if has (p_st p) CAN_SEE_VALUE && (ch =? 34) then MNext (switch p A_STRING)
  else if has (p_st p) CAN_SEE_KEY && (ch =? 34) then MNext (switch p A_KEY)
  else if has (p_st p) CAN_SEE_VALUE && (is_in ch 97 122 || is_in ch 65 90) then
    if ch =? 110 then MAgain (switch p A_NULL)
    else if ch =? 102 then MAgain (switch p A_FALSE)
    else if ch =? 116 then MAgain (switch p A_TRUE)
    else MAgain (raise p ERR_SYNTAX)
  else if has (p_st p) CAN_SEE_VALUE && (is_digit ch || (ch =? 45)) then
    MAgain (switch p A_NUMBER)
  else if negb (is_ws ch) then MStop (raise_unexpected p)
  else MNext p.

(** centijson_sax.c 869-950: the loop of [json_feed]. *)
Fixpoint feed_loop (fuel : nat) (p : parser U) (rest : list Z) : option (parser U) :=
  match fuel with
  | O => None
  | S fuel =>
      match rest with
      | [] => Some p
      | ch :: rest' =>
          if p_err p <? 0 then Some p
          else match p_auto p with
               | A_MAIN =>
                   match main_iter p ch with
                   | MStop p1 => Some p1
                   | MAgain p1 => feed_loop fuel p1 rest
                   | MNext p1 => feed_loop fuel (new_line (advance p1 1) ch) rest'
                   end
               | _ =>
                   match dispatch p (Some rest) with
                   | None => None
                   | Some (p1, n) =>
                       if p_err p1 <? 0 then Some p1 else feed_loop fuel p1 (skipn n rest)
                   end
               end
      end
  end.

(** centijson_sax.c 855-867: the end of a too long document is located,
    [n] bytes into the input. *)
Fixpoint skip_to_limit (n : nat) (p : parser U) (input : list Z) : parser U :=
  match n, input with
  | S n, _ :: input' => skip_to_limit n (new_line (advance p 1) (hd 0 input')) input'
  | _, _ => p
  end.

(** centijson_sax.c 849-953: [json_feed].  The value it returns is
    [p_err] of the result. *)
Definition json_feed (p : parser U) (input : list Z) : option (parser U) :=
  if negb (max_total_len cfg =? 0)
     && (max_total_len cfg <? p_off (p_pos p) + Z.of_nat (length input))
  then
    Some (raise (skip_to_limit (Z.to_nat (max_total_len cfg - p_off (p_pos p))) p input)
            ERR_MAXTOTALLEN)
  else feed_loop (3 * length input + 3) p input.

(** centijson_sax.c 955-983: [json_fini]: the return value, the position
    reported and the user data.  [None] from [dispatch] does not happen. *)
Definition json_fini (p : parser U) : option (Z * jpos * U) :=
  if p_st p =? ST_UNINITED then Some (ERR_NOT_INITED, JPos 0 0 0, p_user p)
  else
    let fin (p : parser U) :=
      Some (p_err p, (if 0 <=? p_err p then p_pos p else p_epos p), p_user p) in
    if p_err p <? 0 then fin p
    else match p_auto p with
         | A_MAIN =>
             match p_nest p with
             | [] => if has (p_st p) CAN_SEE_EOF then fin p else fin (raise_unexpected p)
             | _ :: _ => fin (raise_unexpected p)
             end
         | _ =>
             match dispatch p None with
             | None => None
             | Some (p1, n) =>
                 let p2 := with_pos p1 (JPos (p_off (p_pos p1) + Z.of_nat n)
                                             (p_line (p_pos p1)) (p_col (p_pos p1))) in
                 match p_auto p2 with
                 | A_MAIN => fin p2
                 | _ => fin (raise p2 ERR_SYNTAX)
                 end
             end
         end.

(** Feeding a document in pieces: the caller stops feeding when a call
    fails, as [wolfsentry_config_json_feed] does, or goes on regardless
    (later calls then change nothing). *)
Fixpoint feed_all (p : parser U) (chunks : list (list Z)) : option (parser U) :=
  match chunks with
  | [] => Some p
  | c :: cs => match json_feed p c with
               | None => None
               | Some p1 => feed_all p1 cs
               end
  end.

Definition parse_chunks (u : U) (chunks : list (list Z)) : option (Z * jpos * U) :=
  match feed_all (json_init u) chunks with
  | None => None
  | Some p => json_fini p
  end.

(** src/json/load_config.c 1886-1917 and 1941-1962: what
    [wolfsentry_config_json_feed] and [wolfsentry_config_json_fini] do with
    the parser: the first call that fails finishes it, later calls are
    refused and [wolfsentry_config_json_fini] reports the code stored.  (The
    translation of the code and the rest of [wolfsentry_config_json_fini]
    are not modelled here.) *)
Fixpoint load_from (p : parser U) (chunks : list (list Z)) : option (Z * jpos * U) :=
  match chunks with
  | [] => json_fini p
  | c :: cs => match json_feed p c with
               | None => None
               | Some p1 => if p_err p1 <? 0 then json_fini p1 else load_from p1 cs
               end
  end.

Definition load_chunks (u : U) (chunks : list (list Z)) : option (Z * jpos * U) :=
  load_from (json_init u) chunks.

(** centijson_sax.c 985-1009: [json_parse]. *)
Definition json_parse (u : U) (input : list Z) : option (Z * jpos * U) :=
  match json_feed (json_init u) input with
  | None => None
  | Some p => json_fini p
  end.
End Feed.

(** The callback used in statements about which callbacks are made: it
    records them and never refuses. *)
Definition event := (jtype * list Z)%type.
Definition record_cb (t : jtype) (d : list Z) (u : list event) : Z * list event :=
  (0, u ++ [(t, d)]).
