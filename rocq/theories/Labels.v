(** Label and key comparison.  The same function body appears four times: src/actions.c 27-41
    (wolfsentry_action_key_cmp_1), src/events.c 27-41 (wolfsentry_event_key_cmp_1), src/kv.c 31-45
    (wolfsentry_kv_key_cmp_1) and src/addr_families.c 33-47 (wolfsentry_addr_family_byname_key_cmp_1). *)
From Verif Require Import Base.
Open Scope Z_scope.

(** C library memcmp on the first [n] bytes; reading past the end of either array is [None].  The C standard
    fixes the sign of the result only; the model returns the difference of the first unequal bytes and every
    theorem speaks of signs only. *)
Fixpoint memcmp (n : nat) (l r : list N) : option Z :=
  match n with
  | O => Some 0
  | S m => match l, r with
           | a :: l', b :: r' => if N.eqb a b then memcmp m l' r' else Some (Z.of_N a - Z.of_N b)
           | _, _ => None
           end
  end.

Definition key_cmp_1 (l : list N) (llen : nat) (r : list N) (rlen : nat) : option Z :=
  if (rlen <=? llen)%nat then
    match memcmp rlen l r with
    | Some ret => Some (if (ret =? 0) && negb (llen =? rlen)%nat then 1 else ret)
    | None => None
    end
  else
    match memcmp llen l r with
    | Some ret => Some (if ret =? 0 then -1 else ret)
    | None => None
    end.

(** actions.c 43-49, events.c 43-53, kv.c 47-53, addr_families.c 49-55: the comparison of two objects, whose
    label_len field is the length of their label (the terminating NUL is not part of it). *)
Definition label_cmp (l r : list N) : Z :=
  match key_cmp_1 l (length l) r (length r) with Some z => z | None => 0 end.

(** addr_families.c 27-30: families by number; wolfsentry_addr_family_t is a uint16_t, so the subtraction is
    done in int and cannot overflow. *)
Definition number_cmp (l r : N) : Z := Z.of_N l - Z.of_N r.
