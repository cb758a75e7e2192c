(** What a client of the lock knows: which calls it made and what they returned. *)
From Verif Require Import Base RwLock.
Open Scope Z_scope.

(** What a thread holds, according to the answers it got. *)
Inductive hold := HNone | HShared (n : Z) | HMutex (n : Z).
Record client := mkC { holds : hold; resv : bool; calling : option call }.
Definition client0 : client := mkC HNone false None.
Definition more (h : hold) : hold := match h with HNone => HShared 1 | HShared n => HShared (n + 1) | HMutex n => HMutex (n + 1) end.
Definition more_mutex (h : hold) : hold := match h with HNone => HMutex 1 | HShared n => HMutex (n + 1) | HMutex n => HMutex (n + 1) end.
Definition promoted (h : hold) : hold := match h with HShared n => HMutex n | h => h end.
Definition demoted (h : hold) : hold := match h with HMutex n => HShared n | h => h end.
Definition less (h : hold) : hold :=
  match h with
  | HNone => HNone
  | HShared n => if n =? 1 then HNone else HShared (n - 1)
  | HMutex n => if n =? 1 then HNone else HMutex (n - 1)
  end.
(** The effect of call [c] having returned [e]. *)
Definition returned (c : call) (e : err) (h : hold) (r : bool) : hold * bool :=
  if negb (is_success e) then (h, r)
  else match c with
       | LockShared _ _ => (more h, r || match e with S_LOCK_OK_AND_GOT_RESV => true | _ => false end)
       | LockMutex _ _ => (more_mutex h, false)
       | Mutex2Shared f => (demoted h, get_resv f || try_resv f)
       | Reserve => (h, true)
       | Redeem _ | Shared2Mutex _ => (promoted h, false)
       | Abandon => (h, false)
       | Unlock f => (less h, r && negb (abandon_too f) && match less h with HNone => false | _ => true end)
       | HaveShared | HaveMutex | HaveEither | HaveResv | DestroyThread => (h, r)
       end.
(** The rules of the API: unlock and shared2mutex(_reserve) are for holders, and the outermost unlock of a reservation holder
    says that the reservation goes too (comment before wolfsentry_lock_unlock). *)
Definition proper (cl : client) (c : call) : Prop :=
  match c with
  | Unlock f => holds cl <> HNone /\ (resv cl = true -> holds cl = HShared 1 -> abandon_too f = true)
  | Reserve | Shared2Mutex _ => holds cl <> HNone
  | _ => True
  end.
(** Calls that set no time limit (waiting for ever or not at all). *)
Definition timeless (c : call) : Prop :=
  match c with LockShared w _ | LockMutex w _ | Redeem w | Shared2Mutex w => w <> Timed | _ => True end.
Definition any (c : call) : Prop := True.

(** The threads and the lock they share. *)
Definition sys := (lock * list (thr * client))%type.
Fixpoint upd {A} (l : list A) (i : nat) (x : A) : list A :=
  match l, i with [], _ => [] | _ :: r, O => x :: r | y :: r, S i => y :: upd r i x end.
Definition after_step (ch : choice) (t' : thr) (cl : client) : client :=
  match ch with
  | Do c => mkC (holds cl) (resv cl) (Some c)
  | _ => match at_ t', calling cl, ret t' with
         | Idle, Some c, Some e => let (h, r) := returned c e (holds cl) (resv cl) in mkC h r None
         | _, _, _ => cl
         end
  end.
Inductive sstep (ok : call -> Prop) : sys -> nat -> choice -> sys -> Prop :=
| do_step L ths i ch t cl L' t' :
    nth_error ths i = Some (t, cl) ->
    (forall c, ch = Do c -> proper cl c /\ ok c) ->
    step L t i ch = Some (L', t') ->
    sstep ok (L, ths) i ch (L', upd ths i (t', after_step ch t' cl)).
Definition start (readonly : list bool) : sys := (lock0, map (fun b => (thr0 b, client0)) readonly).
Inductive reach (ok : call -> Prop) : sys -> Prop :=
| reach_start ro : reach ok (start ro)
| reach_step s i ch s' : reach ok s -> sstep ok s i ch s' -> reach ok s'.

Definition thread (s : sys) (i : nat) (t : thr) (cl : client) : Prop := nth_error (snd s) i = Some (t, cl).
Definition mutex_held (cl : client) : Prop := exists n, holds cl = HMutex n.
Definition shared_held (cl : client) : Prop := exists n, holds cl = HShared n.
