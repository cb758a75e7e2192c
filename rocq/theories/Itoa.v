(** Integer formatting: src/routes.c 3842-3880 (ws_itoa). *)
From Verif Require Import Base.
Open Scope Z_scope.

(** [IUB] covers signed overflow and writes past the space given. *)
Inductive iout := IOk (out : list Z) (spc : Z) | IErr (e : err) | IUB.

(** routes.c 3854-3863: the loop counting digits.  Returns (out_chars, digit_thresh); None is signed
    overflow of digit_thresh or exhausted fuel. *)
Fixpoint itoa_count (fuel : nat) (i thresh chars : Z) : option (Z * Z) :=
  match fuel with
  | O => None
  | S f =>
    if i >=? thresh then
      if thresh =? 1000000000 then Some (chars + 1, thresh)
      else if thresh * 10 >? i32_max then None
      else itoa_count f i (thresh * 10) (chars + 1)
    else Some (chars, thresh / 10)
  end.

(** routes.c 3869-3874: the loop writing digits; [cap] is the space really available. *)
Fixpoint itoa_write (fuel : nat) (i thresh cap : Z) (acc : list Z) : option (list Z) :=
  match fuel with
  | O => None
  | S f =>
    if thresh >=? 1 then
      if cap <=? 0 then None
      else itoa_write f (i mod thresh) (thresh / 10) (cap - 1) (acc ++ [48 + i / thresh])
    else Some acc
  end.

(** routes.c 3842-3880. [out] is the text appended to the output position; on success the remaining space
    is returned. Arithmetic on non-negative ints, so C division is [/]. *)
Definition ws_itoa (i spc : Z) : iout :=
  let neg := i <? 0 in
  if neg && ((- i) >? i32_max) then IUB else
  let i' := if neg then - i else i in
  match itoa_count 12 i' 10 (if neg then 2 else 1) with
  | None => IUB
  | Some (chars, thresh) =>
    if spc <? chars then IErr BUFFER_TOO_SMALL
    else
      let pre := if neg then [45] else [] in
      if neg && (spc <=? 0) then IUB else
      match itoa_write 12 i' thresh (spc - Z.of_nat (length pre)) pre with
      | Some out => IOk out (spc - chars)
      | None => IUB
      end
  end.
