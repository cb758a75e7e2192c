(** The action lists of events: src/actions.c 223-543 with src/events.c 462-523 (wolfsentry_event_action_change_1), over explicit
    memory: list entries with links (Links.v), action objects with label and reference count, the table of registered actions.
    Simplifications: the table is searched by label from the front (its order and its search are Table.v and C10-C13); identifiers
    (C12) and locks (C26-C30) are left out; an event and an action type together are one number (the list asked for exists). *)
From Verif Require Import Base Links Table.
Open Scope N_scope.

Definition label := list N.
Definition list_id := N.
(** A label argument: with an explicit length, or NUL-terminated (negative length). *)
Inductive larg := Lit (s : label) | CStr (s : label).
Definition lab (g : larg) : label := match g with Lit s | CStr s => s end.
Definition label_dec : forall a b : label, {a = b} + {a <> b} := list_eq_dec N.eq_dec.
Definition label_eqb (a b : label) : bool := if label_dec a b then true else false.

(** Memory granted to a call: [true] for a template; for a list entry the garbage in its link fields. *)
Inductive op :=
| Append (i : list_id) (g : larg) (tmpl : bool) (mem : option lnk)
| Prepend (i : list_id) (g : larg) (tmpl : bool) (mem : option lnk)
| InsertAfter (i : list_id) (g point : larg) (tmpl tmpl2 : bool) (mem : option lnk)
| Remove (i : list_id) (g : larg)
| Register (g : larg) (mem : bool)      (* wolfsentry_action_insert *)
| Unregister (g : larg).                (* wolfsentry_action_delete *)

Record ast := mkA {
  links : lheap; hds : list_id -> lhdr; pay : addr -> option N;      (* list entries: links, and the action pointed to *)
  brk : positive;
  objs : N -> option (label * N);                                    (* action objects: label, reference count *)
  onext : N;
  tbl : list N }.                                                    (* the table of actions *)
Definition ainit : ast := mkA (fun _ => None) (fun _ => mklhdr None None) (fun _ => None) 1 (fun _ => None) 0 [].
Definition set_obj (s : ast) (p : N) (v : option (label * N)) : ast :=
  mkA (links s) (hds s) (pay s) (brk s) (fun q => if q =? p then v else objs s q) (onext s) (tbl s).
Definition set_tbl (s : ast) (t : list N) : ast := mkA (links s) (hds s) (pay s) (brk s) (objs s) (onext s) t.
Definition set_hd (f : list_id -> lhdr) (i : list_id) (v : lhdr) : list_id -> lhdr := fun j => if j =? i then v else f j.

(** wolfsentry_internal.c 465-476 (wolfsentry_table_ent_get) on the table of actions *)
Fixpoint lookup (s : ast) (t : list N) (l : label) : out (option N) :=
  match t with
  | [] => Ret None
  | p :: t => let* (k, _) := ub_none (objs s p) in if label_eqb k l then Ret (Some p) else lookup s t l
  end.
(** actions.c 223-251 (wolfsentry_action_get_reference) *)
Definition get_ref (s : ast) (g : larg) (mem : bool) : out (err * option N * ast) :=
  match g with
  | Lit [] => Ret (INVALID_ARG, None, s)
  | _ =>
    if (32 <? length (lab g))%nat then Ret (STRING_ARG_TOO_LONG, None, s)
    else if negb mem then Ret (SYS_RESOURCE_FAILED, None, s)
    else
      let* o := lookup s (tbl s) (lab g) in
      match o with
      | None => Ret (ITEM_NOT_FOUND, None, s)
      | Some p =>
        let* (k, r) := ub_none (objs s p) in
        if r =? u32_max then Ret (OVERFLOW_AVERTED, None, s) else Ret (OK, Some p, set_obj s p (Some (k, r + 1)))
      end
  end.
(** actions.c 253-268 (wolfsentry_action_drop_reference) *)
Definition drop_ref (s : ast) (p : N) : out (err * ast) :=
  let* (k, r) := ub_none (objs s p) in
  if r =? 0 then Ret (INTERNAL_CHECK_FATAL, s)
  else if r =? 1 then Ret (OK, set_obj s p None) else Ret (OK, set_obj s p (Some (k, r - 1))).

(** actions.c 294-314 (wolfsentry_action_list_find_1): by the action's address *)
Fixpoint find_1 (fuel : nat) (s : ast) (p : N) (i : option addr) : out (option addr) :=
  match i with
  | None => Ret None
  | Some a =>
    match fuel with
    | O => Diverge
    | S f =>
      let* q := ub_none (pay s a) in
      if q =? p then Ret (Some a) else let* n := ub_none (get_nxt (links s) a) in find_1 f s p n
    end
  end.
Definition find_in (s : ast) (i : list_id) (p : N) : out (option addr) := find_1 (Pos.to_nat (brk s)) s p (lhead (hds s i)).
(** a new entry for action [p], linked into list [i] by [how] *)
Definition new_entry (s : ast) (i : list_id) (p : N) (g : lnk) (how : lheap -> lhdr -> addr -> option (lheap * lhdr)) : out ast :=
  let a := brk s in
  let* (h, hd) := ub_none (how (upd (links s) a (Some g)) (hds s i) a) in
  Ret (mkA h (set_hd (hds s) i hd) (upd (pay s) a (Some p)) (Pos.succ a) (objs s) (onext s) (tbl s)).
(** actions.c 316-330 and 356-369 (wolfsentry_action_list_append_1, wolfsentry_action_list_prepend_1) *)
Definition add_1 (s : ast) (i : list_id) (p : N) (mem : option lnk) (how : lheap -> lhdr -> addr -> option (lheap * lhdr)) : out (err * ast) :=
  let* o := find_in s i p in
  match o, mem with
  | Some _, _ => Ret (ITEM_ALREADY_PRESENT, s)
  | None, None => Ret (SYS_RESOURCE_FAILED, s)
  | None, Some g => let* s := new_entry s i p g how in Ret (OK, s)
  end.
(** actions.c 392-412 (wolfsentry_action_list_insert_after_1) *)
Definition insert_after_1 (s : ast) (i : list_id) (p point : N) (mem : option lnk) : out (err * ast) :=
  let* o := find_in s i p in
  match o with
  | Some _ => Ret (ITEM_ALREADY_PRESENT, s)
  | None =>
    let* pt := find_in s i point in
    match pt, mem with
    | None, _ => Ret (ITEM_NOT_FOUND, s)
    | Some _, None => Ret (SYS_RESOURCE_FAILED, s)
    | Some pt, Some g => let* s := new_entry s i p g (fun h hd a => ll_insert_after h hd (Some pt) a) in Ret (OK, s)
    end
  end.
(** actions.c 332-354 and 371-390 *)
Definition add (s : ast) (i : list_id) (g : larg) (tmpl : bool) (mem : option lnk) (how : lheap -> lhdr -> addr -> option (lheap * lhdr)) : out (err * ast) :=
  let* (e, o, s) := get_ref s g tmpl in
  match o with
  | None => Ret (e, s)
  | Some p =>
    let* (e, s) := add_1 s i p mem how in
    if is_success e then Ret (OK, s)
    else let* (e2, s) := drop_ref s p in Ret ((if is_success e2 then e else e2), s)
  end.
(** actions.c 414-444 *)
Definition insert_after (s : ast) (i : list_id) (g point : larg) (tmpl tmpl2 : bool) (mem : option lnk) : out (err * ast) :=
  let* (e, o, s) := get_ref s g tmpl in
  match o with
  | None => Ret (e, s)
  | Some p =>
    let* (e, o2, s) := get_ref s point tmpl2 in
    match o2 with
    | None => let* (_, s) := drop_ref s p in Ret (e, s)
    | Some pp =>
      let* (e, s) := insert_after_1 s i p pp mem in
      let* (e2, s) := drop_ref s pp in
      if negb (is_success e2) then Ret (e2, s)
      else if is_success e then Ret (OK, s)
      else let* (_, s) := drop_ref s p in Ret (e, s)
    end
  end.
(** actions.c 508-519: the first entry whose action has the label *)
Fixpoint find_label (fuel : nat) (s : ast) (l : label) (i : option addr) : out (option addr) :=
  match i with
  | None => Ret None
  | Some a =>
    match fuel with
    | O => Diverge
    | S f =>
      let* p := ub_none (pay s a) in
      let* (k, _) := ub_none (objs s p) in
      if label_eqb k l then Ret (Some a) else let* n := ub_none (get_nxt (links s) a) in find_label f s l n
    end
  end.
(** actions.c 495-529 (wolfsentry_action_list_delete); the error of the drop is only warned about *)
Definition remove (s : ast) (i : list_id) (g : larg) : out (err * ast) :=
  let* o := find_label (Pos.to_nat (brk s)) s (lab g) (lhead (hds s i)) in
  match o with
  | None => Ret (ITEM_NOT_FOUND, s)
  | Some a =>
    let* (h, hd) := ub_none (ll_delete (links s) (hds s i) a) in
    let s := mkA h (set_hd (hds s) i hd) (pay s) (brk s) (objs s) (onext s) (tbl s) in
    let* p := ub_none (pay s a) in
    let* (_, s) := drop_ref s p in
    Ret (OK, mkA (upd (links s) a None) (hds s) (upd (pay s) a None) (brk s) (objs s) (onext s) (tbl s))
  end.
(** actions.c 51-98 and 128-162 (wolfsentry_action_insert_1) *)
Definition register (s : ast) (g : larg) (mem : bool) : out (err * ast) :=
  match g with
  | Lit [] => Ret (INVALID_ARG, s)
  | _ =>
    if (32 <? length (lab g))%nat then Ret (STRING_ARG_TOO_LONG, s)
    else if negb mem then Ret (SYS_RESOURCE_FAILED, s)
    else match lab g with
    | [] => Ret (INVALID_ARG, s)
    | _ =>
      let* o := lookup s (tbl s) (lab g) in
      match o with
      | Some _ => Ret (ITEM_ALREADY_PRESENT, s)
      | None => Ret (OK, mkA (links s) (hds s) (pay s) (brk s) (fun q => if q =? onext s then Some (lab g, 1) else objs s q) (onext s + 1) (onext s :: tbl s))
      end
    end
  end.
(** actions.c 179-214 (wolfsentry_action_delete) *)
Definition unregister (s : ast) (g : larg) : out (err * ast) :=
  match g with
  | Lit [] => Ret (INVALID_ARG, s)
  | _ =>
    if (32 <? length (lab g))%nat then Ret (STRING_ARG_TOO_LONG, s)
    else match lab g with
    | [] => Ret (INVALID_ARG, s)
    | _ =>
      let* o := lookup s (tbl s) (lab g) in
      match o with
      | None => Ret (ITEM_NOT_FOUND, s)
      | Some p => drop_ref (set_tbl s (filter (fun q => negb (q =? p)) (tbl s))) p
      end
    end
  end.
Definition step (s : ast) (o : op) : out (err * ast) :=
  match o with
  | Append i g t m => add s i g t m ll_append
  | Prepend i g t m => add s i g t m ll_prepend
  | InsertAfter i g p t t2 m => insert_after s i g p t t2 m
  | Remove i g => remove s i g
  | Register g m => register s g m
  | Unregister g => unregister s g
  end.
Fixpoint run (s : ast) (os : list op) : out (list err * ast) :=
  match os with
  | [] => Ret ([], s)
  | o :: os => let* (e, s) := step s o in let* (es, s) := run s os in Ret (e :: es, s)
  end.
(** Reading a list: events.c 659-751 (wolfsentry_event_action_list_start, _next) with wolfsentry_action_get_label *)
Fixpoint read_from (fuel : nat) (s : ast) (i : option addr) : out (list label) :=
  match i with
  | None => Ret []
  | Some a =>
    match fuel with
    | O => Diverge
    | S f =>
      let* p := ub_none (pay s a) in
      let* (k, _) := ub_none (objs s p) in
      let* n := ub_none (get_nxt (links s) a) in
      let* r := read_from f s n in Ret (k :: r)
    end
  end.
Definition read_list (s : ast) (i : list_id) : out (list label) := read_from (Pos.to_nat (brk s)) s (lhead (hds s i)).
