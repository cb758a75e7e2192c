(** JSON arrays: src/json/centijson_value.c 862-1054, over explicit memory.

    A block of memory is the list of its cells of 16 bytes (a JSON_VALUE); reading a cell that was never written, touching a
    cell outside of the block or a block that was freed, is undefined behaviour.  Sizes and indices are size_t (64 bits, they
    wrap).  Values are opaque ([None] is the "new" null of json_value_init_new); destroying a value is taken to succeed. *)
From Verif Require Import Base Links Table.
Open Scope Z_scope.
Local Set Warnings "-notation-overridden".

Inductive cell := Garbage | Val (v : option Z).
Definition block := list cell.
Definition wrap (z : Z) : Z := z mod 2 ^ 64.
Definition CELL := 16.

(** centijson_value.c 99-104 (struct ARRAY_tag) and the memory; [next] is the address of the next block. *)
Record arr := mka { heap : addr -> option block; next : addr; buf : option addr; size : Z; room : Z }.
(** 563-582 (json_value_init_array): the payload is zeroed. *)
Definition new_array : arr := mka (fun _ => None) 1%positive None 0 0.

(** realloc (72-84): [bytes] of memory, the old contents kept; [mem] tells whether there is memory.  The block always moves.
    Of 0 bytes the GNU C library frees the block and gives NULL. *)
Definition resize (a : arr) (bytes : Z) (mem : bool) : out (arr * option addr) :=
  let cells := Z.to_nat (bytes / CELL) in
  match buf a with
  | None => if mem then Ret (mka (upd (heap a) (next a) (Some (repeat Garbage cells))) (Pos.succ (next a)) (buf a) (size a) (room a), Some (next a))
            else Ret (a, None)
  | Some p =>
    let* b := ub_none (heap a p) in
    if bytes =? 0 then Ret (mka (upd (heap a) p None) (next a) (buf a) (size a) (room a), None)
    else if mem then
      Ret (mka (upd (upd (heap a) p None) (next a) (Some (firstn cells b ++ repeat Garbage (cells - length b)))) (Pos.succ (next a)) (buf a) (size a) (room a), Some (next a))
    else Ret (a, None)
  end.
(** 875-892 (json_value_array_realloc): whether it succeeded *)
Definition array_realloc (a : arr) (n : Z) (mem : bool) : out (arr * bool) :=
  let* (a, p) := resize a (wrap (n * CELL)) mem in
  match p with
  | None => Ret (a, false)
  | Some _ => Ret (mka (heap a) (next a) p (size a) n, true)
  end.

(** [&buf[i]] read and written *)
Definition load (a : arr) (i : Z) : out (option Z) :=
  match buf a with
  | None => UB
  | Some p => let* b := ub_none (heap a p) in
              match nth_error b (Z.to_nat i) with Some (Val v) => Ret v | _ => UB end
  end.
Definition set_cell (b : block) (i : nat) (c : cell) : out block :=
  if (i <? length b)%nat then Ret (firstn i b ++ c :: skipn (S i) b) else UB.
Definition store (a : arr) (i : Z) (v : option Z) : out arr :=
  match buf a with
  | None => UB
  | Some p => let* b := ub_none (heap a p) in
              let* b := set_cell b (Z.to_nat i) (Val v) in
              Ret (mka (upd (heap a) p (Some b)) (next a) (buf a) (size a) (room a))
  end.
(** memmove(buf + dst, buf + src, n cells) *)
Definition move (a : arr) (dst src n : Z) : out arr :=
  match buf a with
  | None => UB
  | Some p =>
    let* b := ub_none (heap a p) in
    let len := Z.of_nat (length b) in
    if (dst + n <=? len) && (src + n <=? len) then
      let part := firstn (Z.to_nat n) (skipn (Z.to_nat src) b) in
      Ret (mka (upd (heap a) p (Some (firstn (Z.to_nat dst) b ++ part ++ skipn (Z.to_nat (dst + n)) b))) (next a) (buf a) (size a) (room a))
    else UB
  end.
Definition with_size (a : arr) (n : Z) : arr := mka (heap a) (next a) (buf a) n (room a).

(** 894-903 (json_value_array_get): the index of the item pointed to, or NULL *)
Definition array_get (a : arr) (i : Z) : option Z := if i <? size a then Some i else None.
(** 941-972 (json_value_array_insert), 927-939 (json_value_array_append) *)
Definition array_insert (a : arr) (i : Z) (mem : bool) : out (arr * option Z) :=
  if size a <? i then Ret (a, None)
  else
    let* (a, ok) := if room a <=? size a then array_realloc a (if 0 <? room a then wrap (room a * 2) else 1) mem else Ret (a, true) in
    if negb ok then Ret (a, None)
    else
      let* a := if i <? size a then move a (i + 1) i (size a - i) else Ret a in
      let* a := store a i None in
      Ret (with_size a (wrap (size a + 1)), Some i).
Definition array_append (a : arr) (mem : bool) : out (arr * option Z) := array_insert a (size a) mem.

(** 999-1007: the items that are destroyed *)
Fixpoint destroy (a : arr) (i : Z) (n : nat) : out unit :=
  match n with O => Ret tt | S n => let* _ := load a i in destroy a (i + 1) n end.
(** 986-1022 (json_value_array_remove_range), 974-984 (json_value_array_remove).  The code of the last realloc is not looked at. *)
Definition array_remove_range (a : arr) (i n : Z) (mem : bool) : out (arr * Z) :=
  let last := wrap (i + n) in
  if size a <? last then Ret (a, -1)
  else
    let* _ := destroy a i (Z.to_nat (last - i)) in
    let* a := if last <? size a then move a i last (size a - last) else Ret a in
    let a := with_size a (wrap (size a - n)) in
    let* (a, _) := if wrap (4 * size a) <? room a then array_realloc a (room a / 2) mem else Ret (a, true) in
    Ret (a, 0).
Definition array_remove (a : arr) (i : Z) (mem : bool) : out (arr * Z) := array_remove_range a i 1 mem.

(** 1024-1053 (json_value_array_clean) *)
Definition array_clean (a : arr) : out (arr * Z) :=
  let* _ := destroy a 0 (Z.to_nat (size a)) in
  match buf a with
  | None => Ret (mka (heap a) (next a) None 0 0, 0)
  | Some p => let* _ := ub_none (heap a p) in Ret (mka (upd (heap a) p None) (next a) None 0 0, 0)
  end.

(** The calls of a user, who also reads and writes through the pointers given out. *)
Inductive aop :=
| AGet (i : Z) | AStore (i : Z) (v : option Z) | ASize | AAppend (mem : bool) | AInsert (i : Z) (mem : bool)
| ARemove (i : Z) (mem : bool) | ARemoveRange (i n : Z) (mem : bool) | AClean.
(** NULL; a pointer to an item with this value; a number *)
Inductive ares := RNull | RItem (v : option Z) | RNum (z : Z).
Definition item_result (r : arr * option Z) : out (ares * arr) :=
  let '(a, p) := r in match p with None => Ret (RNull, a) | Some i => let* v := load a i in Ret (RItem v, a) end.
Definition step (a : arr) (o : aop) : out (ares * arr) :=
  match o with
  | AGet i => item_result (a, array_get a i)
  | AStore i v => match array_get a i with None => Ret (RNull, a) | Some i => let* a := store a i v in item_result (a, Some i) end
  | ASize => Ret (RNum (size a), a)
  | AAppend mem => let* r := array_append a mem in item_result r
  | AInsert i mem => let* r := array_insert a i mem in item_result r
  | ARemove i mem => let* (a, c) := array_remove a i mem in Ret (RNum c, a)
  | ARemoveRange i n mem => let* (a, c) := array_remove_range a i n mem in Ret (RNum c, a)
  | AClean => let* (a, c) := array_clean a in Ret (RNum c, a)
  end.
