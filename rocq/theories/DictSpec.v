(** What a dictionary is for: an association list in the order of addition, told apart by the comparison. *)
From Coq Require Import Sorting.Permutation Sorting.Sorted.
From Verif Require Import Base Links Table Dict.
Open Scope Z_scope.

(** A comparison function as the header asks for (of json_value_init_dict_ex, centijson_value.h 419-436) has to be: a total preorder. *)
Record good_cmp (cmp : key -> key -> Z) : Prop := {
  cmp_anti : forall a b, Z.sgn (cmp b a) = - Z.sgn (cmp a b);
  cmp_trans : forall a b c, cmp a b <= 0 -> cmp b c <= 0 -> cmp a c <= 0 }.
(** How many items the path arrays are made for. *)
Definition limit (log2 : bool) : Z := if log2 then 2 ^ 32 - 1 else 2 ^ 63.

(** An item: where its value is (the pointer the caller gets), its key and its value ([None]: not yet initialised). *)
Definition item : Type := addr * key * option Z.
Definition iaddr (i : item) : addr := fst (fst i).
Definition ikey (i : item) : key := snd (fst i).
Definition ival (i : item) : option Z := snd i.

Fixpoint lookup (cmp : key -> key -> Z) (k : key) (l : list item) : option item :=
  match l with [] => None | i :: l => if cmp k (ikey i) =? 0 then Some i else lookup cmp k l end.
Definition without (cmp : key -> key -> Z) (k : key) (l : list item) : list item := filter (fun i => negb (cmp k (ikey i) =? 0)) l.
Definition stored (a : addr) (v : Z) (l : list item) : list item := map (fun i => if Pos.eqb (iaddr i) a then (iaddr i, ikey i, Some v) else i) l.
(** The items in the order of their keys. *)
Definition in_key_order (cmp : key -> key -> Z) (l s : list item) : Prop :=
  Permutation s l /\ StronglySorted (fun i j => cmp (ikey i) (ikey j) < 0) s.

(** What a caller may do.  [m] is what the allocations give; [mem] whether the stack of json_value_dict_clean is got. *)
Inductive op :=
| OGet (k : key) | OGetOrAdd (k : key) (m : option addr) | OAdd (k : key) (m : option addr) | OStore (a : addr) (v : Z)
| ORemove (k : key) | OClean (mem : bool) | OSorted (n : nat) | OOrdered (n : nat) | OSize.
Inductive res := RPtr (p : ptr) | RInt (z : Z) | RPtrs (l : list ptr) | RUnit.

(** The code's side: Dict.v's functions.  1136-1146: json_value_dict_size. *)
Definition step (cf : dcfg) (d : dict) (o : op) : out (dict * res) :=
  match o with
  | OGet k => let* p := dict_get cf d k in Ret (d, RPtr p)
  | OGetOrAdd k m => let* (d, p) := get_or_add cf d k m in Ret (d, RPtr p)
  | OAdd k m => let* (d, p) := dict_add cf d k m in Ret (d, RPtr p)
  | OStore a v => let* d := dict_store d (Some a) v in Ret (d, RUnit)
  | ORemove k => let* (d, z) := dict_remove cf d k in Ret (d, RInt z)
  | OClean mem => let* (d, z) := dict_clean cf d mem in Ret (d, RInt z)
  | OSorted n => let* l := keys_sorted cf d n in Ret (d, RPtrs l)
  | OOrdered n => let* l := keys_ordered cf d n in Ret (d, RPtrs l)
  | OSize => Ret (d, RInt (size d))
  end.
Fixpoint run (cf : dcfg) (d : dict) (ops : list op) : out (dict * list res) :=
  match ops with
  | [] => Ret (d, [])
  | o :: ops => let* (d, r) := step cf d o in let* (d, rs) := run cf d ops in Ret (d, r :: rs)
  end.

(** What is asked of the caller and of the allocator: not more items than the arrays are made for, fresh memory, pointers to
    items that are there. *)
Definition allowed (cf : dcfg) (l : list item) (o : op) : Prop :=
  Z.of_nat (length l) < limit (has_log2 cf) /\
  match o with
  | OGetOrAdd _ (Some a) | OAdd _ (Some a) => ~ In a (map iaddr l)
  | OStore a _ => In a (map iaddr l)
  | _ => True
  end.

(** The answers, and the items afterwards. *)
Definition got_or_added (cmp : key -> key -> Z) (l : list item) (k : key) (m : option addr) : list item * ptr :=
  match lookup cmp k l, m with
  | Some i, _ => (l, Some (iaddr i))
  | None, None => (l, None)
  | None, Some a => (l ++ [(a, k, None)], Some a)
  end.
Definition answer (cf : dcfg) (l : list item) (o : op) (r : res) (l' : list item) : Prop :=
  match o with
  | OGet k => r = RPtr (option_map iaddr (lookup (dcmp cf) k l)) /\ l' = l
  | OGetOrAdd k m => r = RPtr (snd (got_or_added (dcmp cf) l k m)) /\ l' = fst (got_or_added (dcmp cf) l k m)
  | OAdd k m =>
    l' = fst (got_or_added (dcmp cf) l k m) /\
    r = RPtr (match lookup (dcmp cf) k l with
              | Some i => match ival i with Some _ => None | None => Some (iaddr i) end
              | None => m
              end)
  | OStore a v => r = RUnit /\ l' = stored a v l
  | ORemove k => match lookup (dcmp cf) k l with
                 | Some _ => r = RInt 0 /\ l' = without (dcmp cf) k l
                 | None => r = RInt (-1) /\ l' = l
                 end
  | OClean mem => if mem then r = RInt 0 /\ l' = [] else r = RInt (-2) /\ l' = l
  | OSorted n => (exists s, in_key_order (dcmp cf) l s /\ r = RPtrs (map (fun i => Some (iaddr i)) (firstn n s))) /\ l' = l
  | OOrdered n => r = RPtrs (if ordered cf then map (fun i => Some (iaddr i)) (firstn n l) else []) /\ l' = l
  | OSize => r = RInt (Z.of_nat (length l)) /\ l' = l
  end.
(** [answers l ops rs l']: from the items [l], the calls [ops] are allowed, they answer [rs], and the items [l'] are left. *)
Inductive answers (cf : dcfg) : list item -> list op -> list res -> list item -> Prop :=
| as_nil : forall l, answers cf l [] [] l
| as_cons : forall l o r l' ops rs l'', answer cf l o r l' -> answers cf l' ops rs l'' -> answers cf l (o :: ops) (r :: rs) l''.
(** The calls are allowed, whatever the answers. *)
Inductive all_allowed (cf : dcfg) : list item -> list op -> Prop :=
| al_nil : forall l, all_allowed cf l []
| al_cons : forall l o ops, allowed cf l o -> (forall r l', answer cf l o r l' -> all_allowed cf l' ops) -> all_allowed cf l (o :: ops).

(** A walk: the function is called for each item in turn until it gives a negative number. *)
Fixpoint visit {U} (f : U -> key -> option Z -> U * Z) (u : U) (l : list item) : U * Z :=
  match l with
  | [] => (u, 0)
  | i :: l => let (u, r) := f u (ikey i) (ival i) in if r <? 0 then (u, r) else visit f u l
  end.
