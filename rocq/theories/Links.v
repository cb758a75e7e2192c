(** Pointer-level doubly linked lists.
    An address space of nodes with a prev and a next field; an unallocated (or freed) address is [None]
    and touching it is undefined behaviour, as is following NULL: every function returns [None] then.
    The tables of wolfsentry_internal.c keep two such link pairs per object (prev/next and
    prev_by_id/next_by_id); each pair is modelled as a separate [lheap] over the same addresses, which is
    sound because the C fields are disjoint. *)
From Verif Require Import Base.

Definition addr := positive.
Record lnk := mklnk { prv : option addr; nxt : option addr }.
Definition lheap := addr -> option lnk.
Record lhdr := mklhdr { lhead : option addr; ltail : option addr }.

Definition upd {A} (h : addr -> option A) (a : addr) (v : option A) : addr -> option A :=
  fun x => if Pos.eqb x a then v else h x.

(** [p->next = v] and [p->prev = v]. *)
Definition set_nxt (h : lheap) (a : addr) (v : option addr) : option lheap :=
  match h a with Some l => Some (upd h a (Some (mklnk (prv l) v))) | None => None end.
Definition set_prv (h : lheap) (a : addr) (v : option addr) : option lheap :=
  match h a with Some l => Some (upd h a (Some (mklnk v (nxt l)))) | None => None end.
Definition get_nxt (h : lheap) (a : addr) : option (option addr) := option_map nxt (h a).
Definition get_prv (h : lheap) (a : addr) : option (option addr) := option_map prv (h a).

Notation "'do' x <- m ; k" := (match m with Some x => k | None => None end)
  (at level 200, x pattern, m at level 100, k at level 200, right associativity).

(** wolfsentry_internal.c 49-66 (the linking part of wolfsentry_table_ent_insert) and 371-389 (the same
    statements on the by-id links in wolfsentry_table_ent_insert_by_id): link [ent] before [i], or at the
    end if [i] is NULL. *)
Definition link_before (h : lheap) (hd : lhdr) (i : option addr) (ent : addr) : option (lheap * lhdr) :=
  match i with
  | Some i =>
    do ip <- get_prv h i;
    do h <- set_prv h ent ip;                     (* ent->prev = i->prev *)
    do h <- set_nxt h ent (Some i);               (* ent->next = i *)
    do ip <- get_prv h i;                         (* if (i->prev) *)
    do (h, hd) <- match ip with
                  | Some p => do h <- set_nxt h p (Some ent); Some (h, hd)
                  | None => Some (h, mklhdr (Some ent) (ltail hd))
                  end;
    do h <- set_prv h i (Some ent);               (* i->prev = ent *)
    Some (h, hd)
  | None =>
    match ltail hd with
    | Some t =>
      do h <- set_nxt h t (Some ent);
      do h <- set_prv h ent (Some t);
      do h <- set_nxt h ent None;
      Some (h, mklhdr (lhead hd) (Some ent))
    | None =>
      do h <- set_nxt h ent None;
      do h <- set_prv h ent None;
      Some (h, mklhdr (Some ent) (Some ent))
    end
  end.

(** wolfsentry_internal.c 420-428 and 491-499: unlink [ent] and clear its links. *)
Definition unlink (h : lheap) (hd : lhdr) (ent : addr) : option (lheap * lhdr) :=
  do p <- get_prv h ent;
  do n <- get_nxt h ent;
  do (h, hd) <- match p with
                | Some p => do h <- set_nxt h p n; Some (h, hd)
                | None => Some (h, mklhdr n (ltail hd))
                end;
  do n <- get_nxt h ent;
  do p <- get_prv h ent;
  do (h, hd) <- match n with
                | Some n => do h <- set_prv h n p; Some (h, hd)
                | None => Some (h, mklhdr (lhead hd) p)
                end;
  do h <- set_nxt h ent None;
  do h <- set_prv h ent None;
  Some (h, hd).

(** wolfsentry_ll.h 39-50 (wolfsentry_list_ent_prepend); the length counter is modelled with the users. *)
Definition ll_prepend (h : lheap) (hd : lhdr) (ent : addr) : option (lheap * lhdr) :=
  do h <- set_prv h ent None;
  match lhead hd with
  | Some f => do h <- set_prv h f (Some ent);
              do h <- set_nxt h ent (Some f);
              Some (h, mklhdr (Some ent) (ltail hd))
  | None => do h <- set_nxt h ent None; Some (h, mklhdr (Some ent) (Some ent))
  end.

(** wolfsentry_ll.h 52-63 (wolfsentry_list_ent_append). *)
Definition ll_append (h : lheap) (hd : lhdr) (ent : addr) : option (lheap * lhdr) :=
  do h <- set_nxt h ent None;
  match ltail hd with
  | Some t => do h <- set_nxt h t (Some ent);
              do h <- set_prv h ent (Some t);
              Some (h, mklhdr (lhead hd) (Some ent))
  | None => do h <- set_prv h ent None; Some (h, mklhdr (Some ent) (Some ent))
  end.

(** wolfsentry_ll.h 65-78 (wolfsentry_list_ent_insert_before): note that at the head of the list
    new_ent->prev is left as it was. *)
Definition ll_insert_before (h : lheap) (hd : lhdr) (point : option addr) (ent : addr) : option (lheap * lhdr) :=
  match point with
  | None => ll_append h hd ent
  | Some pt =>
    do h <- set_nxt h ent (Some pt);
    do pp <- get_prv h pt;
    do (h, hd) <- match pp with
                  | Some p => do h <- set_prv h ent (Some p);
                              do h <- set_nxt h p (Some ent);
                              Some (h, hd)
                  | None => Some (h, mklhdr (Some ent) (ltail hd))
                  end;
    do h <- set_prv h pt (Some ent);
    Some (h, hd)
  end.

(** wolfsentry_ll.h 80-96 (wolfsentry_list_ent_insert_after): at the tail new_ent->next is left as it
    was; a NULL point appends. *)
Definition ll_insert_after (h : lheap) (hd : lhdr) (point : option addr) (ent : addr) : option (lheap * lhdr) :=
  match point with
  | None => ll_append h hd ent
  | Some pt =>
    do h <- set_prv h ent (Some pt);
    do pn <- get_nxt h pt;
    do (h, hd) <- match pn with
                  | Some n => do h <- set_nxt h ent (Some n);
                              do h <- set_prv h n (Some ent);
                              Some (h, hd)
                  | None => Some (h, mklhdr (lhead hd) (Some ent))
                  end;
    do h <- set_nxt h pt (Some ent);
    Some (h, hd)
  end.

Definition eqo (a : addr) (o : option addr) : bool := match o with Some b => Pos.eqb a b | None => false end.

(** wolfsentry_ll.h 98-113 (wolfsentry_list_ent_delete): the deleted entry keeps its links. *)
Definition ll_delete (h : lheap) (hd : lhdr) (ent : addr) : option (lheap * lhdr) :=
  if eqo ent (lhead hd) then
    do n <- get_nxt h ent;
    match n with
    | Some n => do h <- set_prv h n None; Some (h, mklhdr (Some n) (ltail hd))
    | None => Some (h, mklhdr None None)
    end
  else if eqo ent (ltail hd) then
    do p <- get_prv h ent;
    match p with
    | Some p => do h <- set_nxt h p None; Some (h, mklhdr (lhead hd) (Some p))
    | None => None
    end
  else
    do n <- get_nxt h ent;
    do p <- get_prv h ent;
    match n with
    | Some n => do h <- set_prv h n p;
                do p <- get_prv h ent;
                do n <- get_nxt h ent;
                match p with
                | Some p => do h <- set_nxt h p n; Some (h, hd)
                | None => None
                end
    | None => None
    end.

(** Observation: follow next (resp. prev) pointers from the head (tail), at most [fuel] nodes. *)
Fixpoint walk_next (fuel : nat) (h : lheap) (p : option addr) : option (list addr) :=
  match p with
  | None => Some []
  | Some a => match fuel with
              | O => None
              | S f => do n <- get_nxt h a; do l <- walk_next f h n; Some (a :: l)
              end
  end.
Fixpoint walk_prev (fuel : nat) (h : lheap) (p : option addr) : option (list addr) :=
  match p with
  | None => Some []
  | Some a => match fuel with
              | O => None
              | S f => do n <- get_prv h a; do l <- walk_prev f h n; Some (a :: l)
              end
  end.
