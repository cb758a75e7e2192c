(** Specification of the object tables: a context is a finite collection of live objects
    (kind, key, id); tables are finite maps by key and by ID. *)
From Verif Require Import Base Table.
From Coq Require Import Permutation Sorted.
Open Scope N_scope.

(** A table comparison function: a total preorder given by signs. *)
Record total_order {K} (c : K -> K -> Z) : Prop := {
  to_refl : forall a, c a a = 0%Z;
  to_anti : forall a b, Z.sgn (c a b) = (- Z.sgn (c b a))%Z;
  to_trans : forall a b d, (c a b <= 0)%Z -> (c b d <= 0)%Z -> (c a d <= 0)%Z
}.

Section Spec.
  Context {K : Type}.
  Variable cmp : N -> K -> K -> Z.
  Definition entry := (N * K * N)%type.
  Definition e_kind (e : entry) : N := fst (fst e).
  Definition e_key (e : entry) : K := snd (fst e).
  Definition e_id (e : entry) : N := snd e.
  Definition has_key (k : N) (key : K) (e : entry) : Prop := e_kind e = k /\ cmp k (e_key e) key = 0%Z.

  (** The first answer of an ID callback that is an error or an unused ID (answers are stored in a uint32_t). *)
  Fixpoint cb_choice (live : list entry) (answers : list (N + N)) : N + N :=
    match answers with
    | [] => inr 0
    | inr e :: _ => inr e
    | inl id :: r => if existsb (fun e => e_id e =? u32 id) live then cb_choice live r else inl (u32 id)
    end.

  (** [spec_step cb live n op r live' ]: what a call may return and do, [n] being the number of creations so
      far and [cb] telling whether the context has an ID callback. *)
  Inductive spec_step (cb : bool) (live : list entry) (n : N) : op K -> result K -> list entry -> Prop :=
  | sp_create_ok k key answers id :
      id <> 0 -> id <= u32_max -> (forall e, In e live -> e_id e <> id) ->
      (cb = true -> cb_choice live answers = inl id) ->
      (forall e, In e live -> ~ has_key k key e) ->
      spec_step cb live n (Create k key answers) (OK, Some (k, key, id)) ((k, key, id) :: live)
  | sp_create_dup k key answers e :
      In e live -> has_key k key e ->
      spec_step cb live n (Create k key answers) (ITEM_ALREADY_PRESENT, None) live
  | sp_create_cb_error k key answers x :
      cb = true -> cb_choice live answers = inr x ->
      spec_step cb live n (Create k key answers) (CALLBACK_ERROR x, None) live
  | sp_create_cb_zero k key answers :
      cb = true -> cb_choice live answers = inl 0 ->
      spec_step cb live n (Create k key answers) (INVALID_ARG, None) live
  | sp_create_exhausted k key answers :
      cb = false -> u32_max <= n ->
      spec_step cb live n (Create k key answers) (INVALID_ARG, None) live
  | sp_delete_ok k key e live' :
      has_key k key e -> Permutation live (e :: live') ->
      spec_step cb live n (DeleteKey k key) (OK, Some e) live'
  | sp_delete_none k key :
      (forall e, In e live -> ~ has_key k key e) ->
      spec_step cb live n (DeleteKey k key) (ITEM_NOT_FOUND, None) live
  | sp_deleteid_ok e live' :
      e_id e <> 0 -> Permutation live (e :: live') ->
      spec_step cb live n (DeleteId (e_id e)) (OK, Some e) live'
  | sp_deleteid_none id :
      id <> 0 -> (forall e, In e live -> e_id e <> id) ->
      spec_step cb live n (DeleteId id) (ITEM_NOT_FOUND, None) live
  | sp_deleteid_zero :
      spec_step cb live n (DeleteId 0) (INVALID_ARG, None) live
  | sp_get_ok k key e :
      In e live -> has_key k key e -> spec_step cb live n (Get k key) (OK, Some e) live
  | sp_get_none k key :
      (forall e, In e live -> ~ has_key k key e) -> spec_step cb live n (Get k key) (ITEM_NOT_FOUND, None) live
  | sp_getid_ok e :
      In e live -> e_id e <> 0 -> spec_step cb live n (GetId (e_id e)) (OK, Some e) live
  | sp_getid_none id :
      id <> 0 -> (forall e, In e live -> e_id e <> id) -> spec_step cb live n (GetId id) (ITEM_NOT_FOUND, None) live
  | sp_getid_zero : spec_step cb live n (GetId 0) (INVALID_ARG, None) live.

  Definition count_create (o : op K) : N := match o with Create _ _ _ => 1 | _ => 0 end.

  Inductive spec_run (cb : bool) : list entry -> N -> list (op K) -> list (result K) -> list entry -> Prop :=
  | sr_nil live n : spec_run cb live n [] [] live
  | sr_cons live n o r live1 ops rs live2 :
      spec_step cb live n o r live1 -> spec_run cb live1 (n + count_create o) ops rs live2 ->
      spec_run cb live n (o :: ops) (r :: rs) live2.

  (** The map view stays consistent: no two live objects share an ID or (within a kind) a key. *)
  Definition consistent (live : list entry) : Prop :=
    NoDup (map e_id live) /\ (forall e, In e live -> 0 < e_id e <= u32_max) /\
    (forall l1 e1 l2 e2 l3, live = l1 ++ e1 :: l2 ++ e2 :: l3 ->
       e_kind e1 = e_kind e2 -> cmp (e_kind e1) (e_key e1) (e_key e2) <> 0%Z).

  (** What the calls did to table [k], told from their results alone. *)
  Definition inserted (k : N) (o : op K) (r : result K) : N :=
    match o, r with
    | Create k' _ _, (OK, _) => if k' =? k then 1 else 0
    | _, _ => 0
    end.
  Definition deleted (k : N) (o : op K) (r : result K) : N :=
    match o, r with
    | DeleteKey _ _, (OK, Some (k', _, _)) => if k' =? k then 1 else 0
    | DeleteId _, (OK, Some (k', _, _)) => if k' =? k then 1 else 0
    | _, _ => 0
    end.
  Fixpoint total (f : op K -> result K -> N) (ops : list (op K)) (rs : list (result K)) : N :=
    match ops, rs with o :: ops', r :: rs' => f o r + total f ops' rs' | _, _ => 0 end.

  (** Sorted contents of one table. *)
  Definition table_of (k : N) (live : list entry) : list (K * N) :=
    map (fun e => (e_key e, e_id e)) (filter (fun e => e_kind e =? k) live).
  Definition strictly_sorted (k : N) (l : list (K * N)) : Prop :=
    StronglySorted (fun a b => (cmp k (fst a) (fst b) < 0)%Z) l.
End Spec.
