(** What C26 says, without the code's counters: an object is alive exactly as long as somebody refers to it. *)
From Verif Require Import Base Links Table Refs.

(** Who refers to [a]: the user and the tables (one entry in [roots] for each reference they hold), and the objects that
    exist: a route refers to its parent event, an event to its auxiliary event and to its actions. *)
Definition references (s : st) (a : addr) : nat :=
  count_occ Pos.eq_dec (roots s ++ flat_map (fun p => olist (link (snd p)) ++ acts (snd p)) (hp s)) a.
Definition alive (s : st) (a : addr) : Prop := get (hp s) a <> None.

(** A call as the API's rules allow it: every object is named through a reference the caller (or a table) holds; only routes
    have a parent. *)
Definition proper (s : st) (c : call) : Prop :=
  match c with
  | New k None => True
  | New k (Some p) => k = KRoute /\ In p (roots s)
  | Get a => In a (roots s)
  | Drop a => In a (roots s)
  | AddAction e a _ => In e (roots s) /\ In a (roots s)
  | RemoveAction e _ => In e (roots s)
  | SetAux e x => In e (roots s) /\ forall a, x = Some a -> In a (roots s)
  end.
(** The restriction of the partial theorems: an event with a configuration of its own is not dropped for good
    (other events, and everything else, may be). *)
Definition careful (s : st) (c : call) : Prop :=
  match c with
  | Drop a => forall o, get (hp s) a = Some o -> okind o = KEvent true -> (2 <= count_occ Pos.eq_dec (roots s) a)%nat
  | _ => True
  end.
Definition start : st := mkst [] [] 1%positive.
Inductive reached (ok : st -> call -> Prop) : st -> Prop :=
| reached_start : reached ok start
| reached_call s c s' freed e : reached ok s -> proper s c -> ok s c -> exec s c = Ret (s', freed, e) -> reached ok s'.
Definition any (s : st) (c : call) : Prop := True.
