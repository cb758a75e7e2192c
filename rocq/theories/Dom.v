(** JSON documents as values: src/json/centijson_dom.c 85-690.

    A JSON_VALUE is a tree; a pointer to a JSON_VALUE inside of the document is the way to it from the root.  A dictionary is
    its items in the order of addition (DictProps.v: the red-black tree of centijson_value.c behaves as such a list) and has the
    default comparison; an array is the list of its elements.  A pointer that leads nowhere, and a read outside of the array of
    open containers, are undefined behaviour.  Left out: failing allocations, json_value_fini (taken to succeed), memory that
    is not freed, the bits of floating point numbers (a double is the text it was made from). *)
Require Import ZArith List Bool.
From Verif Require Import Table Json JsonDump Dict.
Import ListNotations.
Open Scope Z_scope.
Local Set Warnings "-notation-overridden".

Definition ERR_OUTOFMEMORY := -2.
(** wolfsentry/centijson_dom.h 62 *)
Definition DOM_ERR_DUPKEY := -1000.

(** The types of value, wolfsentry/centijson_value.h; [DNew] is the null with the mark IS_NEW (centijson_value.c 309-313, 368-372). *)
Inductive dv :=
| DNew | DNull | DBool (b : bool) | DInt32 (z : Z) | DUint32 (z : Z) | DInt64 (z : Z) | DUint64 (z : Z)
| DDouble (made_from : list Z) | DString (s : list Z)
| DArray (elements : list dv) | DDict (keeps_order : bool) (items : list (list Z * dv)).

(** ** Pointers into a document *)
Inductive sel := SIdx (n : nat) | SKey (k : list Z).
Definition loc := list sel.

Fixpoint item_of (k : list Z) (m : list (list Z * dv)) : option dv :=
  match m with
  | [] => None
  | (k', x) :: m => if default_cmp k k' =? 0 then Some x else item_of k m
  end.
Fixpoint set_item (k : list Z) (y : dv) (m : list (list Z * dv)) : list (list Z * dv) :=
  match m with
  | [] => []
  | (k', x) :: m => if default_cmp k k' =? 0 then (k', y) :: m else (k', x) :: set_item k y m
  end.
Fixpoint set_nth (n : nat) (y : dv) (l : list dv) : list dv :=
  match l, n with
  | [], _ => []
  | _ :: l, O => y :: l
  | x :: l, S n => x :: set_nth n y l
  end.
(** What the pointer points to. *)
Fixpoint get (v : dv) (p : loc) : option dv :=
  match p with
  | [] => Some v
  | SIdx n :: p => match v with DArray l => match nth_error l n with Some x => get x p | None => None end | _ => None end
  | SKey k :: p => match v with DDict _ m => match item_of k m with Some x => get x p | None => None end | _ => None end
  end.
(** The document after a write through the pointer. *)
Fixpoint put (v : dv) (p : loc) (w : dv) : option dv :=
  match p with
  | [] => Some w
  | SIdx n :: p =>
    match v with
    | DArray l => match nth_error l n with
                  | Some x => match put x p w with Some y => Some (DArray (set_nth n y l)) | None => None end
                  | None => None
                  end
    | _ => None
    end
  | SKey k :: p =>
    match v with
    | DDict o m => match item_of k m with
                   | Some x => match put x p w with Some y => Some (DDict o (set_item k y m)) | None => None end
                   | None => None
                   end
    | _ => None
    end
  end.

(** ** Building: centijson_dom.h 87-97 (JSON_DOM_PARSER).  [d_path] is [path[0 .. path_size - 1]], the last one first; it is
    shorter than [d_size] only when [path_size] has gone below 0 (a size_t). *)
Record dstate := DState { d_root : dv; d_path : list loc; d_size : Z; d_key : option (list Z); d_flags : Z }.
(** centijson_dom.h 67-75, centijson_dom.c 203-216: the values 0 and 3 both mean JSON_DOM_DUPKEY_ABORT *)
Inductive policy := PAbort | PFirst | PLast.
Definition dupkey (flags : Z) : policy :=
  if Z.land flags 3 =? 1 then PFirst else if Z.land flags 3 =? 2 then PLast else PAbort.
(** centijson_dom.c 300 *)
Definition keep_order (flags : Z) : bool := Z.testbit flags 4.

(** centijson_sax.c 1210-1221 (json_number_to_double, with WOLFSENTRY): the buffer has 64 bytes. *)
Definition double_fits (data : list Z) : bool := Z.of_nat (length data) + 1 <? 64.
(** centijson_dom.c 86-140 (init_number): an error, or the value. *)
Definition init_number (data : list Z) : out (Z + dv) :=
  match analyze data with
  | None => UB
  | Some c =>
    if c_i32 c then match to_int32 data with Some z => Ret (inr (DInt32 z)) | None => UB end
    else if c_u32 c then Ret (inr (DUint32 (to_uint32 data)))
    else if c_i64 c then match to_int64 data with Some z => Ret (inr (DInt64 z)) | None => UB end
    else if c_u64 c then Ret (inr (DUint64 (to_uint64 data)))
    else if double_fits data then Ret (inr (DDouble data)) else Ret (inl ERR_OUTOFMEMORY)
  end.

(** centijson_dom.c 167-220: the pointer to the value to initialise, or the code to return at once. *)
Definition place (s : dstate) : out ((Z + loc) * dstate) :=
  let '(DState root path size key flags) := s in
  if 0 <? size then
    match path with
    | [] => UB
    | p :: _ =>
      match get root p with
      | None => UB
      | Some (DArray l) =>
        match put root p (DArray (l ++ [DNew])) with
        | Some root => Ret (inr (p ++ [SIdx (length l)]), DState root path size key flags)
        | None => UB
        end
      | Some (DDict o m) =>
        let k := match key with Some k => k | None => [] end in   (* json_value_string of a null: NULL, length 0 *)
        match item_of k m with
        | None =>
          match put root p (DDict o (m ++ [(k, DNew)])) with
          | Some root => Ret (inr (p ++ [SKey k]), DState root path size None flags)
          | None => UB
          end
        | Some DNew => Ret (inr (p ++ [SKey k]), DState root path size None flags)
        | Some _ =>
          match dupkey flags with
          | PFirst => Ret (inl 0, DState root path size None flags)
          | PLast => Ret (inr (p ++ [SKey k]), DState root path size None flags)
          | PAbort => Ret (inl DOM_ERR_DUPKEY, DState root path size None flags)
          end
        end
      | Some _ => Ret (inl ERR_OUTOFMEMORY, DState root path size None flags)   (* json_value_dict_get_or_add_ gives NULL *)
      end
    end
  else Ret (inr [], s).

(** centijson_dom.c 223-260: the new value, or an error. *)
Definition init_value (t : jtype) (data : list Z) (flags : Z) : out (Z + dv) :=
  match t with
  | JSON_NULL => Ret (inr DNull)
  | JSON_FALSE => Ret (inr (DBool false))
  | JSON_TRUE => Ret (inr (DBool true))
  | JSON_NUMBER => init_number data
  | JSON_STRING => Ret (inr (DString data))
  | JSON_ARRAY_BEG => Ret (inr (DArray []))
  | JSON_OBJECT_BEG => Ret (inr (DDict (keep_order flags) []))
  | _ => Ret (inl ERR_INTERNAL)
  end.
Definition opens (t : jtype) : bool := match t with JSON_ARRAY_BEG | JSON_OBJECT_BEG => true | _ => false end.

(** centijson_dom.c 142-287 (json_dom_process).  [path_size] is a size_t, so it wraps when it goes below 0; that it wraps at
    the other end (2^64 open containers) is left out. *)
Definition process (t : jtype) (data : list Z) (s : dstate) : out (Z * dstate) :=
  match t with
  | JSON_ARRAY_END | JSON_OBJECT_END =>
    Ret (0, DState (d_root s) (List.tl (d_path s)) (if d_size s =? 0 then 2 ^ 64 - 1 else d_size s - 1) (d_key s) (d_flags s))
  | JSON_KEY => Ret (0, DState (d_root s) (d_path s) (d_size s) (Some data) (d_flags s))
  | _ =>
    let* (r, s) := place s in
    match r with
    | inl code => Ret (code, s)
    | inr p =>
      let* v := init_value t data (d_flags s) in
      match v with
      | inl _ => Ret (ERR_OUTOFMEMORY, s)      (* 262-263; JSON_ERR_INTERNAL cannot arise *)
      | inr v =>
        match put (d_root s) p v with
        | None => UB
        | Some root =>
          if opens t then Ret (0, DState root (p :: d_path s) (d_size s + 1) (d_key s) (d_flags s))
          else Ret (0, DState root (d_path s) (d_size s) (d_key s) (d_flags s))
        end
      end
    end
  end.

(** centijson_dom.c 289-310 (json_dom_init_1) *)
Definition dom_init (flags : Z) : dstate := DState DNull [] 0 None flags.
(** The callback given to the parser; [None] once there was undefined behaviour. *)
Definition dom_cb (t : jtype) (data : list Z) (u : option dstate) : Z * option dstate :=
  match u with
  | None => (ERR_INTERNAL, None)
  | Some s => match process t data s with Ret (code, s) => (code, Some s) | _ => (ERR_INTERNAL, None) end
  end.
(** centijson_dom.c 312-337, 339-343, 374-396, 411-440 (json_dom_parse): the code, the position and [*p_root]. *)
Definition dom_parse (cfg : jconfig) (flags : Z) (input : list Z) : out (Z * jpos * dv) :=
  match json_parse cfg dom_cb (Some (dom_init flags)) input with
  | Some (code, pos, Some s) => Ret (code, pos, if 0 <=? code then d_root s else DNull)
  | _ => UB
  end.

(** ** Printing: centijson_dom.c 442-690.  The pieces handed to the caller's function, as in JsonDump.v. *)
(** wolfsentry/centijson_dom.h 158-186 *)
Record dparams := DParams { tab_width : Z; minimize : bool; force_crlf : bool; with_spaces : bool; prefer_order : bool }.
Definition text_of (c : Z) (n : Z) : list Z := repeat c (Z.to_nat n).
(** centijson_dom.c 473-478: [i], [n] and [run] are unsigned int *)
Fixpoint indent_loop (fuel : nat) (c run n i : Z) : out (list (list Z)) :=
  if i <? n then
    match fuel with
    | O => Diverge
    | S fuel =>
      let* r := indent_loop fuel c run n ((i + run) mod 2 ^ 32) in
      Ret (text_of c (if n - i <? run then n - i else run) :: r)
    end
  else Ret [].
(** centijson_dom.c 449-481; [nest] is not negative.  More turns than 1 + n / run mean that the loop does not end. *)
Definition indent (prm : dparams) (nest : Z) : out (list (list Z)) :=
  if minimize prm || (nest =? 0) then Ret []
  else if with_spaces prm then
    let n := (nest * tab_width prm) mod 2 ^ 32 in indent_loop (S (Z.to_nat (n / 32))) 32 32 n 0
  else indent_loop (S (Z.to_nat (nest / 8))) 9 8 nest 0.
(** centijson_dom.c 483-493 *)
Definition newline (prm : dparams) : list (list Z) :=
  if minimize prm then [] else if force_crlf prm then [[13; 10]] else [[10]].

(** json_value_dict_keys_sorted (centijson_value.c 1147-1176; DictProps.v). *)
Fixpoint insert_key (k : list Z) (l : list (list Z)) : list (list Z) :=
  match l with [] => [k] | k' :: r => if default_cmp k k' <=? 0 then k :: l else k' :: insert_key k r end.
Definition sort_keys (l : list (list Z)) : list (list Z) := fold_right insert_key [] l.
Fixpoint printed_item (k : list Z) (m : list (list Z * out (list (list Z)))) : option (out (list (list Z))) :=
  match m with
  | [] => None
  | (k', x) :: m => if default_cmp k k' =? 0 then Some x else printed_item k m
  end.
(** centijson_dom.c 621-655: key, colon, value (found by json_value_dict_get_), comma, end of line *)
Fixpoint dump_items (prm : dparams) (nest : Z) (rendered : list (list Z * out (list (list Z)))) (keys : list (list Z)) : out (list (list Z)) :=
  match keys with
  | [] => Ret []
  | k :: keys =>
    let* i := indent prm (nest + 1) in
    let* v := match printed_item k rendered with Some v => v | None => Ret [lit_null] end in
    let* r := dump_items prm nest rendered keys in
    Ret (i ++ dump_string k ++ [if minimize prm then [58] else [58; 32]] ++ v
         ++ match keys with [] => [] | _ => [[44]] end ++ newline prm ++ r)
  end.
(** centijson_dom.c 562-584 *)
Fixpoint dump_elements (prm : dparams) (l : list (out (list (list Z)))) : out (list (list Z)) :=
  match l with
  | [] => Ret []
  | x :: l =>
    let* x := x in
    let* r := dump_elements prm l in
    Ret (x ++ match l with [] => [] | _ => [[44]] end ++ newline prm ++ r)
  end.
(** centijson_dom.c 495-667 (json_dom_dump_helper).  [first] tells whether the line is to be indented (nest_level >= 0);
    [pd] gives the text snprintf makes of a double (centijson_sax.c 1303-1405 is not modelled). *)
Fixpoint dump_value (pd : list Z -> list Z) (prm : dparams) (first : bool) (nest : Z) (v : dv) : out (list (list Z)) :=
  let* i := if first then indent prm nest else Ret [] in
  let* r :=
    match v with
    | DNew | DNull => Ret [lit_null]
    | DBool b => Ret [if b then lit_true else lit_false]
    | DInt32 z | DInt64 z => match dump_int64 z with Some l => Ret [l] | None => UB end
    | DUint32 z | DUint64 z => match dump_uint64 z with Some l => Ret [l] | None => UB end
    | DDouble l => Ret [pd l]
    | DString s => Ret (dump_string s)
    | DArray l =>
      let* b := dump_elements prm (map (dump_value pd prm true (nest + 1)) l) in
      let* e := indent prm nest in
      Ret ([91] :: newline prm ++ b ++ e ++ [[93]])
    | DDict o m =>
      let keys := if prefer_order prm && o then map fst m else sort_keys (map fst m) in
      let* b := dump_items prm nest (map (fun kx => (fst kx, dump_value pd prm false (nest + 1) (snd kx))) m) keys in
      let* e := indent prm nest in
      Ret ([123] :: newline prm ++ b ++ e ++ [[125]])
    end in
  Ret (i ++ r).
(** centijson_dom.c 669-705 (json_dom_dump) *)
Definition dom_dump (pd : list Z -> list Z) (prm : dparams) (v : dv) : out (list (list Z)) :=
  let* r := dump_value pd prm true 0 v in
  Ret (r ++ newline prm).
