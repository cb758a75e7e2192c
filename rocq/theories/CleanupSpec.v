(** Specification of cleanup hooks: a stack without duplicates. *)
From Verif Require Import Base Links Table Cleanup.

(** The stack and the observable events; handlers here make no cleanup calls. *)
Definition spec (st : list hook) (c : call) : err * list hook * list event :=
  match c with
  | Push h mem =>
    if existsb (hook_eqb h) st then (S_ALREADY_OK, st, [])
    else match mem with None => (SYS_RESOURCE_FAILED, st, []) | Some _ => (OK, h :: st, [Registered h]) end
  | Pop x =>
    match st with
    | [] => (ITEM_NOT_FOUND, [], [])
    | h :: st => (OK, st, [if x then Ran h else Dropped h])
    end
  | All => (OK, [], map Ran st)
  end.
Fixpoint spec_run (st : list hook) (cs : list call) : list err * list hook * list event :=
  match cs with
  | [] => ([], st, [])
  | c :: cs => let '(e, st, ev) := spec st c in let '(es, st, evs) := spec_run st cs in (e :: es, st, ev ++ evs)
  end.

(** The hooks a walk along the list finds. *)
Definition listed (s : cst) (st : list hook) : Prop :=
  exists al, (exists n, walk_next n (cl s) (lhead (chd s)) = Some al) /\ map (ent s) al = map Some st.
Definition is_push (c : call) : bool := match c with Push _ _ => true | _ => false end.
Definition ev_dec (a b : event) : {a = b} + {a <> b}.
Proof. repeat decide equality. Defined.
Definition hook_dec (a b : hook) : {a = b} + {a <> b}.
Proof. repeat decide equality. Defined.
Definition times (e : event) (l : list event) : nat := count_occ ev_dec l e.

(** The stack of hooks that a sequence of events leaves, and what it is for the events to be in LIFO order. *)
Definition stack_step (st : list hook) (e : event) : list hook := match e with Registered h => h :: st | Ran _ | Dropped _ => List.tl st end.
Definition stack_of (t : list event) : list hook := fold_left stack_step t [].
Definition lifo (t : list event) : Prop := forall t1 e t2, t = t1 ++ e :: t2 ->
  match e with Registered h => ~ In h (stack_of t1) | Ran h | Dropped h => exists r, stack_of t1 = h :: r end.
