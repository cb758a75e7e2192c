(** Copying JSON values: src/json/centijson_value.c 1823-1972 (json_value_clone), with 165-204 (json_value_init_ex), 546-620
    (json_value_init_array, json_value_init_dict_ex), 625-662 (json_value_fini), 873-891 (json_value_array_realloc) and 1357-1442
    (json_value_dict_get_or_add_), when the allocator may refuse.
    A value is a tree.  The members of a dictionary are in the order of the walk over it: the order of addition if it is kept, the order
    of the keys otherwise (C59: the red-black tree behaves as such a list, and adding the keys in that order gives the same one; the keys
    of a dictionary differ, so that each of them is added).  A value that is still marked new is a null here, as its copy is.
    Floating-point numbers are left out.  [Uninit] is memory that was never written: looking at it is undefined ([None]). *)
Require Import ZArith List Bool.
Import ListNotations.
Open Scope Z_scope.

Inductive leaf := LNull | LBool (b : bool) | LInt (width : Z) (z : Z) | LString (s : list Z).
Inductive cv := Uninit | Leaf (x : leaf) | Arr (alloc : nat) (l : list cv) | Obj (keeps_order : bool) (items : list (list Z * cv)).

(** wolfsentry/centijson_sax.h 88 *)
Definition ERR_OUTOFMEMORY : Z := -2.

(** The allocator's answers: to the n-th request, and whether it is for 0 bytes. [true]: memory. *)
Definition allocator := nat -> bool -> bool.

(** 488-530: strings of more than 13 bytes need memory (ScalarProps.v). *)
Definition long (s : list Z) : bool := Nat.ltb 13 (length s).

(** 625-662: destroying looks at every value in it. *)
Fixpoint fini (v : cv) : bool :=
  match v with
  | Uninit => false
  | Leaf _ => true
  | Arr _ l => forallb fini l
  | Obj _ items => forallb (fun kx => fini (snd kx)) items
  end.

(** 1357-1442: a node, then its key (1391-1404); [None]: no memory. *)
Definition add_member (ans : allocator) (n : nat) (k : list Z) : nat * bool :=
  if negb (ans n false) then (S n, false)
  else if long k then (S (S n), ans (S n) false) else (S n, true).

(** 1825-1972: requests made, what is returned, the copy. *)
Fixpoint clone (ans : allocator) (n : nat) (v : cv) : option (nat * Z * cv) :=
  match v with
  | Uninit => None
  | Leaf (LString s) => if long s then if ans n false then Some (S n, 0, v) else Some (S n, -1, Leaf LNull) else Some (n, 0, v)
  | Leaf _ => Some (n, 0, v)
  | Arr alloc l =>
    if negb (ans n false) then Some (S n, -1, Leaf LNull)                                        (* 1877 *)
    else if negb (ans (S n) (Nat.eqb alloc 0)) then Some (S (S n), -1, Arr 0 [])                 (* 1887 *)
    else
      (fix elements (n : nat) (rest done : list cv) {struct rest} : option (nat * Z * cv) :=     (* 1898-1905 *)
        match rest with
        | [] => Some (n, 0, Arr alloc done)
        | x :: rest => match clone ans n x with
                       | None => None
                       | Some (n, r, y) => if r <? 0 then Some (n, r, Arr alloc (done ++ y :: map (fun _ => Uninit) rest))
                                           else elements n rest (done ++ [y])
                       end
        end) (S (S n)) l []
  | Obj keeps_order items =>
    if negb (ans n false) then Some (S n, -1, Leaf LNull)                                        (* 1916 *)
    else if keeps_order then
      (fix members (n : nat) (r : Z) (rest done : list (list Z * cv)) {struct rest} : option (nat * Z * cv) := (* 1922-1933 *)
        let leave n r := if r <? 0 then if fini (Obj true done) then Some (n, r, Leaf LNull) else None   (* 1961-1965 *)
                         else Some (n, r, Obj true done) in
        match rest with
        | [] => leave n r
        | (k, x) :: rest =>
          let '(n, ok) := add_member ans n k in
          if negb ok then leave n ERR_OUTOFMEMORY
          else match clone ans n x with None => None | Some (n, r, y) => members n r rest (done ++ [(k, y)]) end
        end) (S n) 0 items []
    else if negb (ans (S n) (Nat.eqb (length items) 0)) then Some (S (S n), ERR_OUTOFMEMORY, Obj false [])  (* 1936-1940 *)
    else
      (fix members (n : nat) (rest done : list (list Z * cv)) {struct rest} : option (nat * Z * cv) := (* 1944-1959 *)
        match rest with
        | [] => Some (n, 0, Obj false done)
        | (k, x) :: rest =>
          let '(n, ok) := add_member ans n k in
          if negb ok then Some (n, ERR_OUTOFMEMORY, Obj false done)
          else match clone ans n x with
               | None => None
               | Some (n, r, y) => if r <? 0 then Some (n, r, Obj false (done ++ [(k, y)])) else members n rest (done ++ [(k, y)])
               end
        end) (S (S n)) items []
  end.
