(** Specification for wolfsentry_ll.h: list operations on plain sequences, and histories of them. *)
From Verif Require Import Base Links.

Inductive lop : Set :=
| LPrepend (a : addr) | LAppend (a : addr)
| LBefore (p : option addr) (a : addr)  (* before p; at the end if p is NULL *)
| LAfter (p : option addr) (a : addr)   (* after p; at the end if p is NULL *)
| LDelete (a : addr).

(** What the user expects of the sequence. *)
Fixpoint ins_before (p a : addr) (l : list addr) : list addr :=
  match l with [] => [] | x :: r => if Pos.eqb x p then a :: x :: r else x :: ins_before p a r end.
Fixpoint ins_after (p a : addr) (l : list addr) : list addr :=
  match l with [] => [] | x :: r => if Pos.eqb x p then x :: a :: r else x :: ins_after p a r end.
Fixpoint del (a : addr) (l : list addr) : list addr :=
  match l with [] => [] | x :: r => if Pos.eqb x a then r else x :: del a r end.

Definition lspec (l : list addr) (o : lop) : list addr :=
  match o with
  | LPrepend a => a :: l
  | LAppend a => l ++ [a]
  | LBefore None a | LAfter None a => l ++ [a]
  | LBefore (Some p) a => ins_before p a l
  | LAfter (Some p) a => ins_after p a l
  | LDelete a => del a l
  end.

(** Precondition of a call: the entry inserted is not in the list, the point and the entry deleted are.
    [used] are the entries ever inserted: the last clause of Before/After asks for a new entry. *)
Definition lvalid (fresh : bool) (used l : list addr) (o : lop) : Prop :=
  match o with
  | LPrepend a | LAppend a | LBefore None a | LAfter None a => ~ In a l
  | LBefore (Some p) a | LAfter (Some p) a => ~ In a l /\ In p l /\ (fresh = true -> ~ In a used)
  | LDelete a => In a l
  end.
Definition lused (used : list addr) (o : lop) : list addr :=
  match o with LPrepend a | LAppend a | LBefore _ a | LAfter _ a => a :: used | LDelete _ => used end.

Fixpoint lhistory (fresh : bool) (used l : list addr) (ops : list lop) : Prop :=
  match ops with
  | [] => True
  | o :: r => lvalid fresh used l o /\ lhistory fresh (lused used o) (lspec l o) r
  end.

(** The pointer-level execution: entries are allocated with cleared links (WOLFSENTRY_LIST_ENT_HEADER_RESET
    or zeroed memory). *)
Definition lstep (s : lheap * lhdr) (o : lop) : option (lheap * lhdr) :=
  let '(h, hd) := s in
  match o with
  | LPrepend a => ll_prepend h hd a
  | LAppend a => ll_append h hd a
  | LBefore p a => ll_insert_before h hd p a
  | LAfter p a => ll_insert_after h hd p a
  | LDelete a => ll_delete h hd a
  end.
Fixpoint lrun (s : lheap * lhdr) (ops : list lop) : option (lheap * lhdr) :=
  match ops with [] => Some s | o :: r => match lstep s o with Some s' => lrun s' r | None => None end end.
Definition linit : lheap * lhdr := (fun _ => Some (mklnk None None), mklhdr None None).
