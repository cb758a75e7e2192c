(** What a JSON array is for its user: a list. *)
Require Import ZArith List Bool.
From Verif Require Import Arrays.
Import ListNotations.
Open Scope Z_scope.

Definition len (l : list (option Z)) : Z := Z.of_nat (length l).
Definition inserted (l : list (option Z)) (i : Z) (v : option Z) : list (option Z) := firstn (Z.to_nat i) l ++ v :: skipn (Z.to_nat i) l.
Definition without (l : list (option Z)) (i n : Z) : list (option Z) := firstn (Z.to_nat i) l ++ skipn (Z.to_nat (i + n)) l.
Definition replaced (l : list (option Z)) (i : Z) (v : option Z) : list (option Z) := firstn (Z.to_nat i) l ++ v :: skipn (Z.to_nat (i + 1)) l.
Definition adds (l : list (option Z)) (i : Z) (mem : bool) (r : ares) (l' : list (option Z)) : Prop :=
  if i <=? len l then (r = RItem None /\ l' = inserted l i None) \/ (mem = false /\ r = RNull /\ l' = l) else r = RNull /\ l' = l.
Definition removes (l : list (option Z)) (i n : Z) (r : ares) (l' : list (option Z)) : Prop :=
  if i + n <=? len l then r = RNum 0 /\ l' = without l i n else r = RNum (-1) /\ l' = l.
(** The answer [r] to the call, and the list afterwards. *)
Definition answers (l : list (option Z)) (o : aop) (r : ares) (l' : list (option Z)) : Prop :=
  match o with
  | AGet i => l' = l /\ r = match nth_error l (Z.to_nat i) with Some v => RItem v | None => RNull end
  | AStore i v => if i <? len l then r = RItem v /\ l' = replaced l i v else r = RNull /\ l' = l
  | ASize => l' = l /\ r = RNum (len l)
  | AAppend mem => adds l (len l) mem r l'
  | AInsert i mem => adds l i mem r l'
  | ARemove i mem => removes l i 1 r l'
  | ARemoveRange i n mem => removes l i n r l'
  | AClean => l' = [] /\ r = RNum 0
  end.

Definition size_t (z : Z) : Prop := 0 <= z < 2 ^ 64.
(** The calls for which the claim is proved: no sum of index and count overflows, no removal leaves the array empty, and there
    are fewer than 2^58 items. *)
Definition allowed (l : list (option Z)) (o : aop) : Prop :=
  match o with
  | AGet i | AStore i _ => size_t i
  | ASize | AClean => True
  | AAppend _ => len l < 2 ^ 58
  | AInsert i _ => size_t i /\ len l < 2 ^ 58
  | ARemove i _ => 0 <= i /\ size_t (i + 1) /\ (i + 1 <= len l -> 1 < len l)
  | ARemoveRange i n _ => 0 <= i /\ 0 <= n /\ size_t (i + n) /\ (i + n <= len l -> n < len l)
  end.
(** The arrays that result from such calls, with what the user takes them for. *)
Inductive reach : arr -> list (option Z) -> Prop :=
| reach_new : reach new_array []
| reach_call : forall a l o r a' l', reach a l -> allowed l o -> step a o = Table.Ret (r, a') -> answers l o r l' -> reach a' l'.
