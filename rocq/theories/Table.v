(** Object tables and the by-ID index: src/wolfsentry_internal.c 27-73 and 305-520, over explicit memory.
    One context: any number of tables (indexed by a kind number, standing for actions, events, routes, user
    values, address families ...), each with its own comparison function, and the by-ID list that links the
    objects of all tables.  WOLFSENTRY_HAVE_MUTEX/LOCK checks are not modelled here (see RwLock.v). *)
From Verif Require Import Base Links.
Open Scope N_scope.

(** Undefined behaviour and an infinite loop are outcomes of their own. *)
Inductive out (A : Type) := Ret (a : A) | UB | Diverge.
Arguments Ret {A}. Arguments UB {A}. Arguments Diverge {A}.
Definition bind {A B} (m : out A) (f : A -> out B) : out B :=
  match m with Ret a => f a | UB => UB | Diverge => Diverge end.
Notation "'let*' x := m 'in' k" := (bind m (fun x => k)) (at level 200, x pattern, m at level 100, k at level 200, right associativity).
Definition ub_none {A} (m : option A) : out A := match m with Some a => Ret a | None => UB end.

Section Table.
  Context {K : Type}.
  Variable cmp : N -> K -> K -> Z.   (* table->cmp_fn of the table of each kind *)

  (** wolfsentry_internal.h struct wolfsentry_table_ent_header: id, parent_table and the key part of the
      object; the two link pairs live in [tl] and [il]. *)
  Record objrec := mkobj { oid : N; opar : option N; okey : K }.

  (** wolfsentry_internal.h struct wolfsentry_table_header: head, tail, n_ents, n_inserts, n_deletes (uint32_t). *)
  Record thdr := mkth { tlh : lhdr; n_ents : N; n_inserts : N; n_deletes : N }.

  Record tst := mkt {
    tl : lheap;                    (* prev/next of every object *)
    il : lheap;                    (* prev_by_id/next_by_id of every object *)
    ob : addr -> option objrec;    (* the other fields *)
    th : N -> thdr;                (* the tables *)
    ih : thdr;                     (* wolfsentry->ents_by_id *)
    ctr : N;                       (* wolfsentry->mk_id_cb_state.id_counter, uint32_t *)
    usecb : bool;                  (* wolfsentry->mk_id_cb != NULL *)
    brk : positive                 (* allocator: next unused address *)
  }.

  Definition updk {A} (f : N -> A) (k : N) (v : A) : N -> A := fun x => if N.eqb x k then v else f x.

  (** Loops run at most as many steps as objects were ever allocated; more means a cycle. *)
  Definition fuel_of (s : tst) : nat := Pos.to_nat (brk s).

  (** internal.c 36-40, 467-477, 520-530, 585-596: walk until the comparison is >= 0. *)
  Fixpoint tseek (fuel : nat) (s : tst) (k : N) (key : K) (i : option addr) : out (option (addr * Z)) :=
    match i with
    | None => Ret None
    | Some a =>
      match fuel with
      | O => Diverge
      | S f =>
        let* o := ub_none (ob s a) in
        let c := cmp k (okey o) key in
        if (c >=? 0)%Z then Ret (Some (a, c))
        else let* n := ub_none (get_nxt (tl s) a) in tseek f s k key n
      end
    end.

  (** internal.c 305-312 (wolfsentry_ent_id_cmp). *)
  Definition id_cmp (l r : N) : Z := if l <? r then (-1)%Z else if r <? l then 1%Z else 0%Z.

  (** internal.c 362-366, 403-412: the same walk over the by-ID list. *)
  Fixpoint iseek (fuel : nat) (s : tst) (id : N) (i : option addr) : out (option (addr * Z)) :=
    match i with
    | None => Ret None
    | Some a =>
      match fuel with
      | O => Diverge
      | S f =>
        let* o := ub_none (ob s a) in
        let c := id_cmp (oid o) id in
        if (c >=? 0)%Z then Ret (Some (a, c))
        else let* n := ub_none (get_nxt (il s) a) in iseek f s id n
      end
    end.

  Definition set_tl (s : tst) h k hdr := mkt h (il s) (ob s) (updk (th s) k hdr) (ih s) (ctr s) (usecb s) (brk s).
  Definition set_il (s : tst) h hdr := mkt (tl s) h (ob s) (th s) hdr (ctr s) (usecb s) (brk s).
  Definition set_ob (s : tst) a o := mkt (tl s) (il s) (upd (ob s) a (Some o)) (th s) (ih s) (ctr s) (usecb s) (brk s).
  Definition set_ctr (s : tst) c := mkt (tl s) (il s) (ob s) (th s) (ih s) c (usecb s) (brk s).

  (** internal.c 414-440 (wolfsentry_table_ent_delete_by_id_1). *)
  Definition delete_by_id_1 (s : tst) (ent : addr) : out (err * tst) :=
    let* o := ub_none (ob s ent) in
    if oid o =? 0 then Ret (INVALID_ARG, s) else
    let* (h, hd) := ub_none (unlink (il s) (tlh (ih s)) ent) in
    let s := set_il s h (mkth hd (u32 (n_ents (ih s) + u32_max)) (n_inserts (ih s)) (u32 (n_deletes (ih s) + 1))) in
    let s := if negb (usecb s) && (oid o =? u32 (ctr s + u32_max)) then set_ctr s (u32 (ctr s + u32_max)) else s in
    Ret (OK, set_ob s ent (mkobj 0 (opar o) (okey o))).

  (** internal.c 354-393 (wolfsentry_table_ent_insert_by_id). *)
  Definition insert_by_id (s : tst) (ent : addr) : out (err * tst) :=
    let* o := ub_none (ob s ent) in
    if oid o =? 0 then Ret (INVALID_ARG, s) else
    let* r := iseek (fuel_of s) s (oid o) (lhead (tlh (ih s))) in
    match r with
    | Some (_, 0%Z) => Ret (ITEM_ALREADY_PRESENT, s)
    | _ =>
      let* (h, hd) := ub_none (link_before (il s) (tlh (ih s)) (option_map fst r) ent) in
      Ret (OK, set_il s h (mkth hd (u32 (n_ents (ih s) + 1)) (u32 (n_inserts (ih s) + 1)) (n_deletes (ih s))))
    end.

  (** internal.c 27-72 (wolfsentry_table_ent_insert) with unique_p = 1, as all callers pass. *)
  Definition table_ent_insert (s : tst) (k : N) (ent : addr) : out (err * tst) :=
    let* o := ub_none (ob s ent) in
    if oid o =? 0 then Ret (INVALID_ARG, s) else
    let* r := tseek (fuel_of s) s k (okey o) (lhead (tlh (th s k))) in
    match r with
    | Some (_, 0%Z) =>
      let* (e, s) := delete_by_id_1 s ent in
      if is_success e then Ret (ITEM_ALREADY_PRESENT, s) else Ret (e, s)
    | _ =>
      let* (h, hd) := ub_none (link_before (tl s) (tlh (th s k)) (option_map fst r) ent) in
      let t := th s k in
      let s := set_tl s h k (mkth hd (u32 (n_ents t + 1)) (u32 (n_inserts t + 1)) (n_deletes t)) in
      Ret (OK, set_ob s ent (mkobj (oid o) (Some k) (okey o)))
    end.

  (** internal.c 484-510 (wolfsentry_table_ent_delete_1). *)
  Definition delete_1 (s : tst) (ent : addr) : out (err * tst) :=
    let* o := ub_none (ob s ent) in
    match opar o with
    | None => Ret (INVALID_ARG, s)
    | Some k =>
      let* (h, hd) := ub_none (unlink (tl s) (tlh (th s k)) ent) in
      let t := th s k in
      let s := set_tl s h k (mkth hd (u32 (n_ents t + u32_max)) (n_inserts t) (u32 (n_deletes t + 1))) in
      let s := set_ob s ent (mkobj (oid o) None (okey o)) in
      if oid o =? 0 then Ret (OK, s) else delete_by_id_1 s ent
    end.

  (** internal.c 395-412 (wolfsentry_table_ent_get_by_id). *)
  Definition get_by_id (s : tst) (id : N) : out (err * option addr) :=
    if id =? 0 then Ret (INVALID_ARG, None) else
    let* r := iseek (fuel_of s) s id (lhead (tlh (ih s))) in
    match r with
    | Some (a, 0%Z) => Ret (OK, Some a)
    | _ => Ret (ITEM_NOT_FOUND, None)
    end.

  (** internal.c 463-482 (wolfsentry_table_ent_get). *)
  Definition table_ent_get (s : tst) (k : N) (key : K) : out (err * option addr) :=
    let* r := tseek (fuel_of s) s k key (lhead (tlh (th s k))) in
    match r with
    | Some (a, 0%Z) => Ret (OK, Some a)
    | _ => Ret (ITEM_NOT_FOUND, None)
    end.

  (** internal.c 314-338 (wolfsentry_id_allocate).  A user callback is represented by the answers it gives
      to the successive calls (an ID or an error); after the last answer it fails. *)
  Fixpoint alloc_cb (s : tst) (ent : addr) (answers : list (N + N)) : out (err * tst) :=
    let* o := ub_none (ob s ent) in
    match answers with
    | [] => Ret (CALLBACK_ERROR 0, s)
    | inr e :: _ => Ret (CALLBACK_ERROR e, s)
    | inl id :: rest =>
      let s := set_ob s ent (mkobj (u32 id) (opar o) (okey o)) in
      let* (e, s) := insert_by_id s ent in
      match e with ITEM_ALREADY_PRESENT => alloc_cb s ent rest | _ => Ret (e, s) end
    end.
  Fixpoint alloc_ctr (fuel : nat) (s : tst) (ent : addr) : out (err * tst) :=
    match fuel with
    | O => Diverge
    | S f =>
      let* o := ub_none (ob s ent) in
      let s := set_ctr s (u32 (ctr s + 1)) in
      let s := set_ob s ent (mkobj (ctr s) (opar o) (okey o)) in
      let* (e, s) := insert_by_id s ent in
      match e with ITEM_ALREADY_PRESENT => alloc_ctr f s ent | _ => Ret (e, s) end
    end.
  Definition id_allocate (s : tst) (ent : addr) (answers : list (N + N)) : out (err * tst) :=
    if usecb s then alloc_cb s ent answers else alloc_ctr (fuel_of s) s ent.

  (** malloc of an object with cleared header (WOLFSENTRY_TABLE_ENT_HEADER_RESET), and free. *)
  Definition malloc (s : tst) (key : K) : addr * tst :=
    let a := brk s in
    (a, mkt (upd (tl s) a (Some (mklnk None None))) (upd (il s) a (Some (mklnk None None)))
            (upd (ob s) a (Some (mkobj 0 None key))) (th s) (ih s) (ctr s) (usecb s) (Pos.succ (brk s))).
  Definition free (s : tst) (a : addr) : tst :=
    mkt (upd (tl s) a None) (upd (il s) a None) (upd (ob s) a None) (th s) (ih s) (ctr s) (usecb s) (brk s).

  Inductive op :=
  | Create (k : N) (key : K) (answers : list (N + N))
  | DeleteKey (k : N) (key : K)
  | DeleteId (id : N)
  | Get (k : N) (key : K)
  | GetId (id : N).
  (** What the caller sees: the result code and the object (kind, key, id) it got. *)
  Definition result := (err * option (N * K * N))%type.
  Definition describe (s : tst) (a : addr) : out (option (N * K * N)) :=
    let* o := ub_none (ob s a) in
    match opar o with Some k => Ret (Some (k, okey o, oid o)) | None => Ret None end.

  (** The creation and deletion calls of actions.c 128-162, events.c 262-300, kv.c 150-165, routes.c 1262-1275:
      allocate, get an ID, insert; free on failure.  Deletion unlinks and, dropping the last reference, frees. *)
  Definition step (s : tst) (o : op) : out (result * tst) :=
    match o with
    | Create k key answers =>
      let '(a, s) := malloc s key in
      let* (e, s) := id_allocate s a answers in
      if is_success e then
        let* (e, s) := table_ent_insert s k a in
        if is_success e then let* d := describe s a in Ret ((OK, d), s)
        else Ret ((e, None), free s a)
      else Ret ((e, None), free s a)
    | DeleteKey k key =>
      let* (e, r) := table_ent_get s k key in
      match r with
      | Some a => let* d := describe s a in
                  let* (e, s) := delete_1 s a in
                  if is_success e then Ret ((OK, d), free s a) else Ret ((e, None), s)
      | None => Ret ((e, None), s)
      end
    | DeleteId id =>
      let* (e, r) := get_by_id s id in
      match r with
      | Some a =>
        let* d := describe s a in
        let* (e, s) := delete_by_id_1 s a in
        if is_success e then
          let* o := ub_none (ob s a) in
          match opar o with
          | Some _ => let* (e, s) := delete_1 s a in
                      if is_success e then Ret ((OK, d), free s a) else Ret ((e, None), s)
          | None => Ret ((OK, d), free s a)
          end
        else Ret ((e, None), s)
      | None => Ret ((e, None), s)
      end
    | Get k key =>
      let* (e, r) := table_ent_get s k key in
      match r with Some a => let* d := describe s a in Ret ((e, d), s) | None => Ret ((e, None), s) end
    | GetId id =>
      let* (e, r) := get_by_id s id in
      match r with Some a => let* d := describe s a in Ret ((e, d), s) | None => Ret ((e, None), s) end
    end.

  Fixpoint run (s : tst) (ops : list op) : out (list result * tst) :=
    match ops with
    | [] => Ret ([], s)
    | o :: rest => let* (r, s) := step s o in let* (rs, s) := run s rest in Ret (r :: rs, s)
    end.

  Definition nohdr : thdr := mkth (mklhdr None None) 0 0 0.
  (** A fresh context; [c0] is the initial counter. *)
  Definition tinit (cb : bool) : tst := mkt (fun _ => None) (fun _ => None) (fun _ => None) (fun _ => nohdr) nohdr 0 cb 1.

  (** Iteration as the cursor API does it: head to tail over next, tail to head over prev
      (wolfsentry_internal.c 556-600 and the *_iterate_* functions). *)
  Fixpoint describe_all (s : tst) (l : list addr) : option (list (K * N)) :=
    match l with
    | [] => Some []
    | a :: r => match ob s a, describe_all s r with
                | Some o, Some d => Some ((okey o, oid o) :: d) | _, _ => None end
    end.
  Definition iter_fwd (s : tst) (k : N) : option (list (K * N)) :=
    match walk_next (fuel_of s) (tl s) (lhead (tlh (th s k))) with Some l => describe_all s l | None => None end.
  Definition iter_bwd (s : tst) (k : N) : option (list (K * N)) :=
    match walk_prev (fuel_of s) (tl s) (ltail (tlh (th s k))) with Some l => describe_all s l | None => None end.
End Table.
Arguments op : clear implicits.
Arguments tst : clear implicits.
Arguments objrec : clear implicits.
Arguments result : clear implicits.
