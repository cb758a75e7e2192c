(** User values: src/kv.c 55-82, 118-346, 530-592, 694-1086; wolfsentry/wolfsentry.h 3015-3090.
    The table is the sequence of its records in key order (Keyed.v); reference counts are left to C26's technique: a record's
    content is never written after it entered the table, except for its read-only bit, so a getter's pointer is modelled by the
    bytes it points to at the time of the call.  Locks are left out (C46). *)
From Verif Require Import Base Base64 Table Labels Keyed Names.
Open Scope Z_scope.

(** wolfsentry.h 3017-3029 *)
Definition KV_NONE : N := 0.   Definition KV_NULL : N := 1.  Definition KV_TRUE : N := 2.   Definition KV_FALSE : N := 3.
Definition KV_UINT : N := 4.   Definition KV_SINT : N := 5.  Definition KV_FLOAT : N := 6.  Definition KV_STRING : N := 7.
Definition KV_BYTES : N := 8.  Definition KV_JSON : N := 9.
Definition RO_BIT : N := 30.
Definition KV_MAX_VALUE_BYTES : Z := 16384.     (* wolfsentry_settings.h 713 *)
Definition MAX_LABEL_BYTES : Z := 32.

(** wolfsentry.h 3040-3055: the union is one 64-bit word (numbers as unsigned bits, doubles as IEEE 754 bits, lengths) or the
    16 bytes of a JSON_VALUE. *)
Inductive kva := Word (w : N) | Json (j : list N).
(** wolfsentry.h 3035-3061; [kv_data] is what lies behind the key: string (without its NUL) or bytes *)
Record kv := mkKv { kv_key : list N; kv_type : N; kv_a : kva; kv_data : list N }.
(** WOLFSENTRY_KV_TYPE, wolfsentry.h 3067 *)
Definition KV_TYPE (x : kv) : N := N.clearbit (kv_type x) RO_BIT.
Definition readonly (x : kv) : bool := N.testbit (kv_type x) RO_BIT.
(** numbers of the union *)
Definition word_of (x : kv) : N := match kv_a x with Word w => w | Json _ => 0%N end.
Definition sint_of (w : N) : Z := let z := Z.of_N w in if z <? 2 ^ 63 then z else z - 2 ^ 64.
Definition of_sint (z : Z) : N := Z.to_N (z mod 2 ^ 64).
(** IEEE 754 binary64 comparison [==] on bit patterns: NaN equals nothing, the two zeros are equal *)
Definition double_eq (a b : N) : bool :=
  let nan w := (9218868437227405312 <? w mod 2 ^ 63)%N in
  if nan a || nan b then false else if (a mod 2 ^ 63 =? 0)%N && (b mod 2 ^ 63 =? 0)%N then true else (a =? b)%N.

(** the table, and whether a validator is installed (kv_table->validator) *)
Record kvt := mkKvt { rows : list kv; validating : bool }.
(** what the rest of the world answers during a call: malloc, the validator, wolfsentry_id_allocate *)
Record kenv := mkEnv { mem_ok : bool; vans : err; idr : err }.

Definition res A : Type := (A + err)%type.
Definition rbind {A B} (m : out (res A)) (f : A -> out (res B)) : out (res B) :=
  let* r := m in match r with inl a => f a | inr e => Ret (inr e) end.
Notation "'let+' x := m 'in' k" := (rbind m (fun x => k)) (at level 200, x pattern, m at level 100, k at level 200, right associativity).
(** memcpy of [n] bytes out of the memory at a pointer *)
Definition memcpy (n : nat) (mem : list N) : out (list N) := if (n <=? length mem)%nat then Ret (firstn n mem) else UB.

(** wolfsentry_kv_new, kv.c 55-82: the new key *)
Definition kv_new (E : kenv) (key : list N) (key_len data_len : Z) : out (res (list N)) :=
  if key_len =? 0 then Ret (inr INVALID_ARG)
  else if data_len <? 0 then Ret (inr INVALID_ARG)
  else if data_len >? KV_MAX_VALUE_BYTES then Ret (inr NUMERIC_ARG_TOO_BIG)
  else
    let* n := (if key_len <? 0 then strlen key else Ret (Z.to_nat key_len)) in
    if Z.of_nat n >? MAX_LABEL_BYTES then Ret (inr STRING_ARG_TOO_LONG)
    else if mem_ok E then let* k := memcpy n key in Ret (inl k) else Ret (inr SYS_RESOURCE_FAILED).

(** wolfsentry_kv_value_eq_1, kv.c 183-214 *)
Definition value_eq (a b : kv) : bool :=
  if negb (KV_TYPE a =? KV_TYPE b)%N then false
  else
    let t := KV_TYPE a in
    if (t =? KV_NULL)%N || (t =? KV_TRUE)%N || (t =? KV_FALSE)%N then true
    else if (t =? KV_UINT)%N || (t =? KV_SINT)%N then (word_of a =? word_of b)%N
    else if (t =? KV_FLOAT)%N then double_eq (word_of a) (word_of b)
    else if (t =? KV_STRING)%N || (t =? KV_BYTES)%N then
      if (word_of a =? word_of b)%N then match memcmp (N.to_nat (word_of a)) (kv_data a) (kv_data b) with Some z => z =? 0 | None => false end else false
    else if (t =? KV_JSON)%N then false
    else if (t =? KV_NONE)%N then true else false.

Definition find (t : kvt) (k : list N) : option kv := kfind kv_key label_cmp (rows t) k.
(** wolfsentry_kv_insert_1, kv.c 155-165 *)
Definition kv_insert_1 (E : kenv) (t : kvt) (x : kv) : err * kvt :=
  if negb (is_success (idr E)) then (idr E, t)
  else match kinsert kv_key label_cmp (rows t) x with Some l => (OK, mkKvt l (validating t)) | None => (ITEM_ALREADY_PRESENT, t) end.
(** wolfsentry_kv_insert, kv.c 167-181 *)
Definition kv_insert (E : kenv) (t : kvt) (x : kv) : err * kvt :=
  if validating t && negb (is_success (vans E)) then (vans E, t) else kv_insert_1 E t x.
(** wolfsentry_kv_set, kv.c 220-254 *)
Definition kv_set (E : kenv) (t : kvt) (x : kv) : err * kvt :=
  if validating t && negb (is_success (vans E)) then (vans E, t)
  else match find t (kv_key x) with
       | Some old =>
         if readonly old then (NOT_PERMITTED, t)
         else if value_eq x old then (OK, t)
         else kv_insert_1 E (mkKvt (kremove kv_key label_cmp (rows t) (kv_key old)) (validating t)) x
       | None => kv_insert_1 E t x
       end.
Definition kv_store (E : kenv) (t : kvt) (ow : Z) (x : kv) : err * kvt :=
  if ow =? 0 then kv_insert E t x else kv_set E t x.

(** wolfsentry_kv_get_1, kv.c 256-277 *)
Definition kv_get_1 (t : kvt) (k : list N) (ty : N) : res kv :=
  match find t k with
  | None => inr ITEM_NOT_FOUND
  | Some x =>
    if (N.clearbit ty RO_BIT =? KV_UINT)%N && (KV_TYPE x =? KV_SINT)%N && (0 <=? sint_of (word_of x)) then inl x
    else if negb (N.clearbit ty RO_BIT =? KV_NONE)%N && negb (N.clearbit ty RO_BIT =? KV_TYPE x)%N then inr WRONG_TYPE
    else inl x
  end.
(** wolfsentry_kv_get_2, kv.c 279-295, and wolfsentry_kv_get_reference, kv.c 297-327 (without the count) *)
Definition kv_get_2 (E : kenv) (t : kvt) (key : list N) (key_len : Z) (ty : N) : out (res kv) :=
  let+ k := kv_new E key key_len 0 in Ret (kv_get_1 t k ty).

(** the values handed to the store functions *)
Inductive sval :=
| SNull | SBool (v : N) | SUint (n : N) | SSint (z : Z) | SDouble (bits : N)
| SString (mem : list N) (len : Z) | SBytes (mem : list N) (len : Z) | SBase64 (mem : list N) (len : Z) | SJson (j : list N).

Definition z_of (l : list N) : list Z := map Z.of_N l.
(** kv.c 746-1086: the record built by each wolfsentry_user_value_store_* function *)
Definition build (E : kenv) (key : list N) (key_len : Z) (v : sval) : out (res kv) :=
  match v with
  | SNull => let+ k := kv_new E key key_len 0 in Ret (inl (mkKv k KV_NULL (Word 0) []))                      (* 746-766 *)
  | SBool b => if negb (b =? KV_TRUE)%N && negb (b =? KV_FALSE)%N then Ret (inr WRONG_TYPE)                    (* 768-791 *)
               else let+ k := kv_new E key key_len 0 in Ret (inl (mkKv k b (Word 0) []))
  | SUint n => let+ k := kv_new E key key_len 0 in Ret (inl (mkKv k KV_UINT (Word n) []))
  | SSint z => let+ k := kv_new E key key_len 0 in Ret (inl (mkKv k KV_SINT (Word (of_sint z)) []))
  | SDouble b => let+ k := kv_new E key key_len 0 in Ret (inl (mkKv k KV_FLOAT (Word b) []))
  | SString m len =>                                                                                       (* 923-952 *)
    let* n := (if len <? 0 then let* n := strlen m in Ret (Z.of_nat n) else Ret len) in
    if n >? KV_MAX_VALUE_BYTES then Ret (inr STRING_ARG_TOO_LONG)
    else let+ k := kv_new E key key_len (n + 1) in
         let* d := memcpy (Z.to_nat n) m in Ret (inl (mkKv k KV_STRING (Word (Z.to_N n)) d))
  | SBytes m len =>                                                                                        (* 970-994 *)
    let+ k := kv_new E key key_len len in
    let* d := memcpy (Z.to_nat len) m in Ret (inl (mkKv k KV_BYTES (Word (Z.to_N len)) d))
  | SBase64 m len =>                                                                                       (* 996-1030 *)
    let* n := (if len <? 0 then strlen m else Ret (Z.to_nat len)) in
    let* src := memcpy n m in
    let spc := bufspc (z_of src) in
    if spc >? KV_MAX_VALUE_BYTES then Ret (inr STRING_ARG_TOO_LONG)
    else let+ k := kv_new E key key_len spc in
         match base64_decode (z_of src) spc true with
         | BOk d => Ret (inl (mkKv k KV_BYTES (Word (N.of_nat (length d))) (map Z.to_N d)))
         | BErr e => Ret (inr e)
         | BOOB => UB
         end
  | SJson j => let+ k := kv_new E key key_len 0 in Ret (inl (mkKv k KV_JSON (Json j) []))                       (* 1063-1086 *)
  end.

Inductive call :=
| Store (key : list N) (key_len : Z) (v : sval) (ow : Z)
| GetType (key : list N) (key_len : Z) | GetBool (key : list N) (key_len : Z) | GetUint (key : list N) (key_len : Z)
| GetSint (key : list N) (key_len : Z) | GetFloat (key : list N) (key_len : Z) | GetString (key : list N) (key_len : Z)
| GetBytes (key : list N) (key_len : Z) | GetJson (key : list N) (key_len : Z)
| SetMut (key : list N) (key_len : Z) (m : Z) | GetMut (key : list N) (key_len : Z)
| Delete (key : list N) (key_len : Z)
| SetValidator (on : bool) (ans : list N -> err).     (* [ans k]: what the new validator says about the value under key k *)

Inductive answer := ANone | AType (t : N) | ABool (t : N) | AUint (n : N) | ASint (z : Z) | AFloat (bits : N)
| AString (s : list N) | ABytes (s : list N) | AJson (j : kva) | AMut (m : Z).

Definition get_k (E : kenv) (t : kvt) (key : list N) (key_len : Z) (ty : N) (f : kv -> res answer) : out (err * answer) :=
  let* r := kv_get_2 E t key key_len ty in
  match r with
  | inr e => Ret (e, ANone)
  | inl x => match f x with inl a => Ret (OK, a) | inr e => Ret (e, ANone) end
  end.
Definition ret_get (m : out (err * answer)) (t : kvt) : out (err * answer * kvt) := let* r := m in Ret (r, t).

Fixpoint first_error (l : list kv) (ans : list N -> err) : option err :=
  match l with [] => None | x :: r => if is_success (ans (kv_key x)) then first_error r ans else Some (ans (kv_key x)) end.

Definition step (E : kenv) (t : kvt) (c : call) : out (err * answer * kvt) :=
  match c with
  | Store key key_len v ow =>
    let* r := build E key key_len v in
    match r with inr e => Ret (e, ANone, t) | inl x => let (e, t') := kv_store E t ow x in Ret (e, ANone, t') end
  | GetType key n => ret_get (get_k E t key n KV_NONE (fun x => inl (AType (KV_TYPE x)))) t                      (* 329-346 *)
  | GetBool key n => ret_get (get_k E t key n KV_NONE (fun x =>
      if (KV_TYPE x =? KV_TRUE)%N || (KV_TYPE x =? KV_FALSE)%N then inl (ABool (KV_TYPE x)) else inr WRONG_TYPE)) t
  | GetUint key n => ret_get (get_k E t key n KV_UINT (fun x => inl (AUint (word_of x)))) t
  | GetSint key n => ret_get (get_k E t key n KV_SINT (fun x => inl (ASint (sint_of (word_of x))))) t
  | GetFloat key n => ret_get (get_k E t key n KV_FLOAT (fun x => inl (AFloat (word_of x)))) t
  | GetString key n => ret_get (get_k E t key n KV_STRING (fun x => inl (AString (firstn (N.to_nat (word_of x)) (kv_data x))))) t
  | GetBytes key n => ret_get (get_k E t key n KV_BYTES (fun x => inl (ABytes (firstn (N.to_nat (word_of x)) (kv_data x))))) t
  (* kv.c 1049-1061: the type asked for is WOLFSENTRY_KV_STRING *)
  | GetJson key n => ret_get (get_k E t key n KV_STRING (fun x => inl (AJson (kv_a x)))) t
  | SetMut key n m =>                                                                                      (* 118-140, 702-713 *)
    let* r := kv_get_2 E t key n KV_NONE in
    match r with
    | inr e => Ret (e, ANone, t)
    | inl x =>
      if m =? 0 then Ret (OK, ANone, mkKvt (kmodify kv_key label_cmp (rows t) (kv_key x) (fun x => mkKv (kv_key x) (N.setbit (kv_type x) RO_BIT) (kv_a x) (kv_data x))) (validating t))
      else if m =? 1 then Ret (OK, ANone, mkKvt (kmodify kv_key label_cmp (rows t) (kv_key x) (fun x => mkKv (kv_key x) (N.clearbit (kv_type x) RO_BIT) (kv_a x) (kv_data x))) (validating t))
      else Ret (INVALID_ARG, ANone, t)
    end
  | GetMut key n => ret_get (get_k E t key n KV_NONE (fun x => inl (AMut (if readonly x then 0 else 1)))) t        (* 142-153, 715-727 *)
  | Delete key n =>                                                                                        (* 530-553 *)
    let* r := kv_get_2 E t key n KV_NONE in
    match r with
    | inr e => Ret (e, ANone, t)
    | inl x => if readonly x then Ret (NOT_PERMITTED, ANone, t)
               else Ret (OK, ANone, mkKvt (kremove kv_key label_cmp (rows t) (kv_key x)) (validating t))
    end
  | SetValidator on ans =>                                                                                 (* 563-592 *)
    if on then match first_error (rows t) ans with Some e => Ret (e, ANone, t) | None => Ret (OK, ANone, mkKvt (rows t) true) end
    else Ret (OK, ANone, mkKvt (rows t) false)
  end.

Fixpoint run (t : kvt) (h : list (kenv * call)) : out (list (err * answer) * kvt) :=
  match h with
  | [] => Ret ([], t)
  | (E, c) :: h => let* (r, t) := step E t c in let* (rs, t) := run t h in Ret (r :: rs, t)
  end.
Definition empty : kvt := mkKvt [] false.
