(** What is asked of thread contexts (C70). *)
From Verif Require Import Base Thread.
Open Scope Z_scope.

(** A context is alive from its initialisation to its destruction: it has an identity. *)
Definition alive (s : st) (c : nat) : Prop := x_id (t_ctx s c) <> 0.

(** Did the last initialisation of [c] in the history fall back on an identity of the library's own? *)
Fixpoint fell_back (tr : list (ev * option err)) (c : nat) (b : bool) : bool :=
  match tr with
  | [] => b
  | (EInit d host _ _, _) :: r => fell_back r c (if Nat.eqb d c then host =? 0 else b)
  | _ :: r => fell_back r c b
  end.
(** How many initialisations did so. *)
Definition is_fallback (p : ev * option err) : bool := match fst p with EInit _ host _ _ => host =? 0 | _ => false end.
Definition fallbacks (tr : list (ev * option err)) : Z := Z.of_nat (List.length (List.filter is_fallback tr)).
(** The host's own identities are words, and none of the highest 2^24 - 1 ones. *)
Definition hosts_low (tr : list (ev * option err)) : Prop :=
  forall c host fl u r, In (EInit c host fl u, r) tr -> 0 <= host <= 2 ^ 64 - 2 ^ 24.

(** Fallback contexts used in a nested way (interrupt handlers): the one initialised last is destroyed first, and never 2^24 - 1
    of them are alive.  [nest stack tr] is the stack of them after [tr], if the discipline was kept. *)
Definition ends (p : ev * option err) : option nat :=
  match p with (EDestroy c, Some OK) | (EReclaim c, Some OK) | (EDestroy c, None) => Some c | _ => None end.
Definition over (p : ev * option err) : bool := match snd p with Some OK => true | _ => false end.
Definition nest1 (stack : list nat) (p : ev * option err) : option (list nat) :=
  match p with
  | (EInit c host _ _, _) =>
      if existsb (Nat.eqb c) stack then None
      else if host =? 0 then
        if Z.of_nat (List.length stack) <? 2 ^ 24 - 2 then Some (c :: stack) else None
      else Some stack
  | _ => match ends p with
         | None => Some stack
         | Some c => if existsb (Nat.eqb c) stack then
                       match stack with
                       | d :: r => if Nat.eqb d c then Some (if over p then r else stack) else None
                       | [] => None
                       end
                     else Some stack
         end
  end.
Fixpoint nest (stack : list nat) (tr : list (ev * option err)) : option (list nat) :=
  match tr with
  | [] => Some stack
  | p :: r => match nest1 stack p with Some st' => nest st' r | None => None end
  end.

(** The moment, in nanoseconds since the epoch, that a timespec names. *)
Definition moment (ts : Z * Z) : Z := fst ts * 1000000000 + snd ts.

(** Two states with the same contexts and counter. *)
Definition same (s s' : st) : Prop := t_counter s = t_counter s' /\ forall c, t_ctx s c = t_ctx s' c.
