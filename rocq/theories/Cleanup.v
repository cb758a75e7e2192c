(** Cleanup hooks: src/wolfsentry_util.c 3728-3787, over explicit memory (Links.v).
    Locking (WOLFSENTRY_MUTEX_OR_RETURN is recursive) is in RwLock.v; a hook's handler is described by the cleanup calls it makes. *)
From Verif Require Import Base Links Table.
Open Scope N_scope.

(** A hook: handler and argument (compared as pointers, util.c 3740). *)
Definition hook := (N * N)%type.
Definition hook_eqb (x y : hook) : bool := (fst x =? fst y) && (snd x =? snd y).

(** A call: push (with the memory malloc returns: None is failure, Some g a block whose link fields hold garbage g), pop, cleanup_all. *)
Inductive call := Push (h : hook) (mem : option lnk) | Pop (execute : bool) | All.
(** What an observer sees. *)
Inductive event := Registered (h : hook) | Dropped (h : hook) | Ran (h : hook).

Record cst := mkc {
  cl : lheap;                       (* links of the entries *)
  chd : lhdr;                       (* wolfsentry->cleanup_hooks *)
  ent : addr -> option hook;        (* handler and arg of the entries *)
  cbrk : positive;                  (* allocator: next unused address *)
  tr : list event                   (* ghost: what happened so far, oldest first *)
}.
Definition cinit : cst := mkc (fun _ => None) (mklhdr None None) (fun _ => None) 1%positive [].
Definition say (s : cst) (e : event) : cst := mkc (cl s) (chd s) (ent s) (cbrk s) (tr s ++ [e]).

(** util.c 3737-3742 *)
Fixpoint find (fuel : nat) (s : cst) (h : hook) (i : option addr) : out bool :=
  match i with
  | None => Ret false
  | Some a =>
    match fuel with
    | O => Diverge
    | S f =>
      let* x := ub_none (ent s a) in
      if hook_eqb x h then Ret true
      else let* n := ub_none (get_nxt (cl s) a) in find f s h n
    end
  end.
(** util.c 3728-3751 (wolfsentry_cleanup_push) *)
Definition push (s : cst) (h : hook) (mem : option lnk) : out (err * cst) :=
  let* b := find (Pos.to_nat (cbrk s)) s h (lhead (chd s)) in
  if b then Ret (S_ALREADY_OK, s) else
  match mem with
  | None => Ret (SYS_RESOURCE_FAILED, s)
  | Some g =>
    let a := cbrk s in
    let* (l, hd) := ub_none (ll_prepend (upd (cl s) a (Some g)) (chd s) a) in
    Ret (OK, say (mkc l hd (upd (ent s) a (Some h)) (Pos.succ a) (tr s)) (Registered h))
  end.
(** util.c 3765-3766: unlink and free the entry popped *)
Definition drop (s : cst) (a : addr) : out cst :=
  let* (l, hd) := ub_none (ll_delete (cl s) (chd s) a) in
  let* _ := ub_none (ent s a) in
  Ret (mkc (upd l a None) hd (upd (ent s) a None) (cbrk s) (tr s)).

Section Exec.
  Variable beh : hook -> list call.   (* the cleanup calls a handler makes when it runs *)
  (** util.c 3753-3768 (wolfsentry_cleanup_pop) and 3770-3787 (wolfsentry_cleanup_all); [fuel] bounds nesting and iteration *)
  Fixpoint exec (fuel : nat) (s : cst) (c : call) : out (err * cst) :=
    match fuel with
    | O => Diverge
    | S f =>
      match c with
      | Push h mem => push s h mem
      | Pop execute =>
        match lhead (chd s) with
        | None => Ret (ITEM_NOT_FOUND, s)
        | Some a =>
          let* h := ub_none (ent s a) in
          if execute then
            let* s := fold_left (fun o c => let* s := o in let* (e, s) := exec f s c in Ret s) (beh h) (Ret (say s (Ran h))) in
            let* s := drop s a in Ret (OK, s)
          else
            let* s := drop (say s (Dropped h)) a in Ret (OK, s)
        end
      | All =>
        let* (e, s) := exec f s (Pop true) in
        match e with
        | ITEM_NOT_FOUND => Ret (OK, s)
        | _ => if is_success e then exec f s All else Ret (e, s)
        end
      end
    end.
  (** A history of calls by the application; the results in order. *)
  Fixpoint run (fuel : nat) (s : cst) (cs : list call) : out (list err * cst) :=
    match cs with
    | [] => Ret ([], s)
    | c :: cs => let* (e, s) := exec fuel s c in let* (es, s) := run fuel s cs in Ret (e :: es, s)
    end.
End Exec.
