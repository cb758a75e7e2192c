(** Cloning the tables of a context: src/wolfsentry_internal.c 103-312 and the table part of
    wolfsentry_context_clone (src/wolfsentry_util.c 3881-3972), over the explicit memory of Table.v.
    The clone is a context of its own with its own address space (its objects are fresh allocations; a cloned
    header refers to no object of the original, WOLFSENTRY_TABLE_ENT_HEADER_RESET, wolfsentry_internal.h 215-220).
    What an object's own clone function may answer (no memory ...) is the parameter [cf].  The table headers'
    own fields (default policy, default event ...) are in CloneRoute.v; the references
    between cloned objects (an event's actions) are not modelled. *)
From Verif Require Import Base Links Table.
Open Scope N_scope.

Section Clone.
  Context {K : Type}.
  Variable cmp : N -> K -> K -> Z.
  Notation tst := (tst K).

  (** internal.c 162-177: append the new object [e] behind [prev] ([new->prev = prev; if (prev) prev->next = new;
      else dest_table->head = new]). The tail field is not touched. *)
  Definition clone_link (d : tst) (k : N) (prev : option addr) (e : addr) : out tst :=
    let* h := ub_none (set_prv (tl d) e prev) in
    let t := th d k in
    match prev with
    | Some p => let* h := ub_none (set_nxt h p (Some e)) in Ret (set_tl d h k t)
    | None => Ret (set_tl d h k (mkth (mklhdr (Some e) (ltail (tlh t))) (n_ents t) (n_inserts t) (n_deletes t)))
    end.
  (** The cloned object: header fields reset but for the ID, the rest copied, parent table set
      (actions.c 100-126, events.c 127-168, kv.c 95-125, routes.c 1115-1170, internal.c 161). *)
  Definition clone_object (d : tst) (k : N) (id : N) (key : K) : addr * tst :=
    let '(e, d) := malloc d key in (e, set_ob d e (mkobj id (Some k) key)).

  (** internal.c 157-191: the loop over the source table; [i] is its next entry. *)
  Fixpoint clone_loop (fuel : nat) (cf : addr -> err) (s d : tst) (k : N) (i prev : option addr) : out (err * tst * option addr) :=
    match i with
    | None => Ret (OK, d, prev)
    | Some a =>
      match fuel with
      | O => Diverge
      | S f =>
        let* o := ub_none (ob s a) in
        if negb (is_success (cf a)) then Ret (cf a, d, prev) else
        let '(e, d) := clone_object d k (oid o) (okey o) in
        let* d := clone_link d k prev e in
        let* (er, d) := insert_by_id d e in
        if negb (is_success er) then Ret (er, d, Some e) else
        let* n := ub_none (get_nxt (tl s) a) in
        clone_loop f cf s d k n (Some e)
      end
    end.
  (** internal.c 192-194: [dest_table->tail = new; dest_table->n_ents = src_table->n_ents]. *)
  Definition set_tail (d : tst) (k : N) (last : option addr) (n : N) : tst :=
    let t := th d k in
    mkt (tl d) (il d) (ob d) (updk (th d) k (mkth (mklhdr (lhead (tlh t)) last) n (n_inserts t) (n_deletes t))) (ih d) (ctr d) (usecb d) (brk d).
  (** internal.c 103-211 (wolfsentry_table_clone). *)
  Definition table_clone (cf : addr -> err) (s d : tst) (k : N) : out (err * tst) :=
    match lhead (tlh (th d k)) with
    | Some _ => Ret (BUSY, d)
    | None =>
      let* (er, d, last) := clone_loop (fuel_of s) cf s d k (lhead (tlh (th s k))) None in
      if is_success er then Ret (OK, set_tail d k last (n_ents (th s k))) else Ret (er, d)
    end.
  Fixpoint clone_tables (cf : N -> addr -> err) (s d : tst) (ks : list N) : out (err * tst) :=
    match ks with
    | [] => Ret (OK, d)
    | k :: ks => let* (er, d) := table_clone (cf k) s d k in
                 if is_success er then clone_tables cf s d ks else Ret (er, d)
    end.
  (** util.c 3904-3947: the clone starts empty, with the original's ID callback and ID counter; its tables are
      cloned one after the other. *)
  Definition context_clone (cf : N -> addr -> err) (s : tst) (ks : list N) : out (err * tst) :=
    clone_tables cf s (set_ctr (tinit (usecb s)) (ctr s)) ks.

  (** internal.c 213-312 (wolfsentry_coupled_table_clone): the families by number (kind [k1]) are cloned like the
      tables above, except that the new object's prev field is never written; the coupled object by name ([mate])
      is cloned with it and inserted in the second table (kind [k2]) by key. *)
  Definition coupled_link (d : tst) (k : N) (prev : option addr) (e : addr) : out tst :=
    let t := th d k in
    match prev with
    | Some p => let* h := ub_none (set_nxt (tl d) p (Some e)) in Ret (set_tl d h k t)
    | None => Ret (set_tl d (tl d) k (mkth (mklhdr (Some e) (ltail (tlh t))) (n_ents t) (n_inserts t) (n_deletes t)))
    end.
  Fixpoint coupled_loop (fuel : nat) (mate : addr -> addr) (s d : tst) (k1 k2 : N) (i prev : option addr) : out (err * tst * option addr) :=
    match i with
    | None => Ret (OK, d, prev)
    | Some a =>
      match fuel with
      | O => Diverge
      | S f =>
        let* o := ub_none (ob s a) in
        let* o2 := ub_none (ob s (mate a)) in
        let '(e, d) := clone_object d k1 (oid o) (okey o) in
        let '(e2, d) := clone_object d k2 (oid o2) (okey o2) in
        let* d := coupled_link d k1 prev e in
        let* (er, d) := insert_by_id d e in
        if negb (is_success er) then Ret (er, d, Some e) else
        let* (er, d) := insert_by_id d e2 in
        if negb (is_success er) then Ret (er, d, Some e) else
        let* (er, d) := table_ent_insert cmp d k2 e2 in
        if negb (is_success er) then Ret (er, d, Some e) else
        let* n := ub_none (get_nxt (tl s) a) in
        coupled_loop f mate s d k1 k2 n (Some e)
      end
    end.
  Definition coupled_clone (mate : addr -> addr) (s d : tst) (k1 k2 : N) : out (err * tst) :=
    match lhead (tlh (th d k1)), lhead (tlh (th d k2)) with
    | None, None =>
      let* (er, d, last) := coupled_loop (fuel_of s) mate s d k1 k2 (lhead (tlh (th s k1))) None in
      if negb (is_success er) then Ret (er, d) else
      let d := set_tail d k1 last (n_ents (th s k1)) in
      Ret (if n_ents (th d k2) =? n_ents (th s k2) then OK else INTERNAL_CHECK_FATAL, d)
    | _, _ => Ret (BUSY, d)
    end.
End Clone.
