(** Getting at values by their path: src/json/centijson_value.c 315-352 (json_value_path), with 893-902 (json_value_array_get) and
    1197-1216 (json_value_dict_get_), over the values of Dom.v (a pointer to a value inside of a document is the way to it).
    A pointer into the text of the path is the list of the bytes that may be read from it on; running off its end is undefined
    ([None]).  size_t is 64 bits wide.  Dictionaries have the default comparison. *)
Require Import ZArith List Bool.
From Verif Require Import Dom.
Import ListNotations.
Open Scope Z_scope.

Definition SLASH : Z := 47.
Definition OPEN : Z := 91.
Definition CLOSE : Z := 93.

(** 325-328: the bytes up to the next slash or NUL, and what follows them. *)
Fixpoint token (m : list Z) : option (list Z * list Z) :=
  match m with
  | [] => None
  | c :: r => if (c =? 0) || (c =? SLASH) then Some ([], m)
              else match token r with Some (t, rest) => Some (c :: t, rest) | None => None end
  end.
(** 331-337 *)
Fixpoint number (m : list Z) (path_index : Z) : option (Z * list Z) :=
  match m with
  | [] => None
  | c :: r => if (48 <=? c) && (c <=? 57) then number r ((path_index * 10 + (c - 48)) mod 2 ^ 64) else Some (path_index, m)
  end.
(** 893-902; the answer is the way to the value, [None]: NULL. *)
Definition array_get (v : dv) (index : Z) : option (sel * dv) :=
  match v with
  | DArray l => if index <? Z.of_nat (length l)
                then match nth_error l (Z.to_nat index) with Some x => Some (SIdx (Z.to_nat index), x) | None => None end else None
  | _ => None
  end.
(** 1197-1216 *)
Definition dict_get_ (v : dv) (k : list Z) : option (sel * dv) :=
  match v with DDict _ m => match item_of k m with Some x => Some (SKey k, x) | None => None end | _ => None end.

(** 330: token_end - token_beg > 2 && token_beg[0] == '[' && token_end[-1] == ']'. *)
Definition bracketed (t : list Z) : bool :=
  Nat.ltb 2 (length t) && (nth 0 t 0 =? OPEN) && (last t 0 =? CLOSE).

(** 318-352; [p] is the way from the root to [v]. The outer [None]: undefined, the inner: NULL. *)
Fixpoint walk (fuel : nat) (m : list Z) (p : loc) (v : dv) : option (option loc) :=
  match fuel with
  | O => None
  | S fuel =>
    match token m with
    | None => None
    | Some (t, rest) =>
      let next (r : option (sel * dv)) :=
        match r with
        | None => Some None
        | Some (s, v) => match rest with
                         | [] => None
                         | c :: r => if c =? 0 then Some (Some (p ++ [s])) else walk fuel r (p ++ [s]) v
                         end
        end in
      if bracketed t then
        match number (tl m) 0 with
        | None => None
        | Some (i, c :: _) => if c =? CLOSE then next (array_get v i) else Some None
        | Some (_, []) => None
        end
      else if Nat.ltb 0 (length t) then next (dict_get_ v t)
      else match rest with
           | [] => None
           | c :: r => if c =? 0 then Some (Some p) else walk fuel r p v
           end
    end
  end.
Definition json_value_path (root : dv) (path : list Z) : option (option loc) := walk (S (length path)) path [] root.
