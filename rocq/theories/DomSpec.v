(** What a JSON document means as a value, and how values are written down; independently of how documents are read and written. *)
Require Import ZArith List Bool.
From Coq Require Import Sorting.Permutation Sorting.Sorted.
From Verif Require Import Json JsonSpec JsonDumpSpec Dom.
Import ListNotations.
Open Scope Z_scope.

(** ** Reading *)
(** A number is of the first of the four integer types that can hold it, otherwise a double. *)
Inductive number_value (l : list Z) : dv -> Prop :=
| nv_int32 : forall z, integer_text l z -> int32 z -> number_value l (DInt32 z)
| nv_uint32 : forall z, integer_text l z -> ~ int32 z -> uint32 z -> number_value l (DUint32 z)
| nv_int64 : forall z, integer_text l z -> ~ int32 z -> ~ uint32 z -> int64 z -> number_value l (DInt64 z)
| nv_uint64 : forall z, integer_text l z -> ~ int64 z -> uint64 z -> number_value l (DUint64 z)
| nv_double : (forall z, integer_text l z -> ~ int64 z /\ ~ uint64 z) -> number_value l (DDouble l).
(** An integer of 64 bits, with or without sign. *)
Definition integral (l : list Z) : Prop := exists z, integer_text l z /\ (int64 z \/ uint64 z).
(** A double may have up to 62 characters. *)
Definition holdable (l : list Z) : Prop := integral l \/ (length l <= 62)%nat.

(** What is done about keys that occur again in the same object: the two lowest bits of the flags. *)
Definition asks (flags : Z) (pol : policy) : Prop :=
  match pol with PFirst => Z.land flags 3 = 1 | PLast => Z.land flags 3 = 2 | PAbort => Z.land flags 3 = 0 \/ Z.land flags 3 = 3 end.

Definition keq (a b : list Z) : bool := if list_eq_dec Z.eq_dec a b then true else false.
Fixpoint assoc {A} (k : list Z) (l : list (list Z * A)) : option A :=
  match l with [] => None | (k', x) :: l => if keq k k' then Some x else assoc k l end.
(** Each key once, where it occurs first. *)
Fixpoint distinct (l : list (list Z)) : list (list Z) :=
  match l with [] => [] | k :: l => k :: filter (fun k' => negb (keq k k')) (distinct l) end.
(** The items of an object, in the order of the first occurrences of their keys; of items with the same key the first or the last counts. *)
Definition merged (pol : policy) (l m : list (list Z * dv)) : Prop :=
  map fst m = distinct (map fst l) /\
  (forall k, assoc k m = assoc k (match pol with PLast => rev l | _ => l end)) /\
  (pol = PAbort -> NoDup (map fst l)).
Definition key_of (mem : (list Z * list Z) * jvalue) : list Z := snd (fst mem).

Inductive content (pol : policy) (order : bool) : jvalue -> dv -> Prop :=
| c_null : content pol order VNull DNull
| c_false : content pol order VFalse (DBool false)
| c_true : content pol order VTrue (DBool true)
| c_num : forall l x, number_value l x -> content pol order (VNum l) x
| c_str : forall raw s, content pol order (VStr raw s) (DString s)
| c_arr : forall vs xs, Forall2 (content pol order) vs xs -> content pol order (VArr vs) (DArray xs)
| c_obj : forall ms xs m, Forall2 (fun mem x => content pol order (snd mem) x) ms xs -> merged pol (combine (map key_of ms) xs) m ->
    content pol order (VObj ms) (DDict order m).

(** Some object has the same key twice. *)
Inductive repeats : jvalue -> Prop :=
| rep_here : forall ms, ~ NoDup (map key_of ms) -> repeats (VObj ms)
| rep_arr : forall vs, Exists repeats vs -> repeats (VArr vs)
| rep_obj : forall ms, Exists (fun mem => repeats (snd mem)) ms -> repeats (VObj ms).
(** All numbers are such that ... *)
Inductive numbers (P : list Z -> Prop) : jvalue -> Prop :=
| num_null : numbers P VNull | num_false : numbers P VFalse | num_true : numbers P VTrue
| num_num : forall l, P l -> numbers P (VNum l)
| num_str : forall r s, numbers P (VStr r s)
| num_arr : forall vs, Forall (numbers P) vs -> numbers P (VArr vs)
| num_obj : forall ms, Forall (fun mem => numbers P (snd mem)) ms -> numbers P (VObj ms).
Definition simple (v : jvalue) : Prop := match v with VArr _ | VObj _ => False | _ => True end.
(** A member whose key occurred before has neither an array nor an object for a value. *)
Inductive mild : jvalue -> Prop :=
| mild_simple : forall v, simple v -> mild v
| mild_arr : forall vs, Forall mild vs -> mild (VArr vs)
| mild_obj : forall ms, Forall (fun mem => mild (snd mem)) ms ->
    (forall before mem after, ms = before ++ mem :: after -> In (key_of mem) (map key_of before) -> simple (snd mem)) -> mild (VObj ms).

(** ** Writing *)
(** The values that can be written: integers of their types, texts in UTF-8, dictionaries with every key once, no doubles. *)
Inductive writable : dv -> Prop :=
| w_new : writable DNew | w_null : writable DNull | w_bool : forall b, writable (DBool b)
| w_int32 : forall z, int32 z -> writable (DInt32 z) | w_uint32 : forall z, uint32 z -> writable (DUint32 z)
| w_int64 : forall z, int64 z -> writable (DInt64 z) | w_uint64 : forall z, uint64 z -> writable (DUint64 z)
| w_string : forall s, utf8_text s -> writable (DString s)
| w_array : forall l, Forall writable l -> writable (DArray l)
| w_dict : forall o m, NoDup (map fst m) -> Forall (fun kx => utf8_text (fst kx) /\ writable (snd kx)) m -> writable (DDict o m).
(** Keys are compared byte by byte; a beginning comes first. *)
Inductive before : list Z -> list Z -> Prop :=
| b_end : forall y b, before [] (y :: b)
| b_byte : forall x y a b, x < y -> before (x :: a) (y :: b)
| b_next : forall x a b, before a b -> before (x :: a) (x :: b).
(** The text has the tree [v]: the members of an object come in the order of addition if that was kept and asked for,
    otherwise in the order of their keys. *)
Inductive writes (in_order : bool) : dv -> jvalue -> Prop :=
| wr_new : writes in_order DNew VNull
| wr_null : writes in_order DNull VNull
| wr_bool : forall b, writes in_order (DBool b) (if b then VTrue else VFalse)
| wr_int32 : forall z l, integer_text l z -> writes in_order (DInt32 z) (VNum l)
| wr_uint32 : forall z l, integer_text l z -> writes in_order (DUint32 z) (VNum l)
| wr_int64 : forall z l, integer_text l z -> writes in_order (DInt64 z) (VNum l)
| wr_uint64 : forall z l, integer_text l z -> writes in_order (DUint64 z) (VNum l)
| wr_string : forall s raw, writes in_order (DString s) (VStr raw s)
| wr_array : forall l vs, Forall2 (writes in_order) l vs -> writes in_order (DArray l) (VArr vs)
| wr_dict : forall o m m' ms,
    Permutation m m' -> (if in_order && o then m' = m else StronglySorted before (map fst m')) ->
    Forall2 (fun kx mem => key_of mem = fst kx /\ writes in_order (snd kx) (snd mem)) m' ms ->
    writes in_order (DDict o m) (VObj ms).
(** How deep arrays and dictionaries are nested. *)
Fixpoint height (v : dv) : Z :=
  match v with
  | DArray l => 1 + fold_right (fun x n => Z.max (height x) n) 0 l
  | DDict _ m => 1 + fold_right (fun kx n => Z.max (height (snd kx)) n) 0 m
  | _ => 0
  end.
(** The width of the indentation is such that it does not overflow at depth [h]. *)
Definition fits (prm : dparams) (h : Z) : Prop := h < 2 ^ 31 /\ 0 <= tab_width prm /\ h * tab_width prm <= 2 ^ 32 - 32.
(** Two values are equal but for the types of integers and the order of items. *)
Inductive alike : dv -> dv -> Prop :=
| al_null : forall a b, (a = DNew \/ a = DNull) -> (b = DNew \/ b = DNull) -> alike a b
| al_bool : forall b, alike (DBool b) (DBool b)
| al_int : forall a b z, (a = DInt32 z \/ a = DUint32 z \/ a = DInt64 z \/ a = DUint64 z) ->
    (b = DInt32 z \/ b = DUint32 z \/ b = DInt64 z \/ b = DUint64 z) -> alike a b
| al_string : forall s, alike (DString s) (DString s)
| al_array : forall l l', Forall2 alike l l' -> alike (DArray l) (DArray l')
| al_dict : forall o o' m m' m'', Permutation m m' -> Forall2 (fun a b => fst a = fst b /\ alike (snd a) (snd b)) m' m'' ->
    alike (DDict o m) (DDict o' m'').
