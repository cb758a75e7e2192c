(** Building a document from the events of a tree. *)
Require Import ZArith List Bool Lia.
From Verif Require Import Table Json JsonSpec JsonGrammar JsonDump JsonDumpSpec JsonDumpProofs JsonDumpProps Dict DictProps Dom DomSpec.
Import ListNotations.
Open Scope Z_scope.
Local Set Warnings "-notation-overridden".

Lemma cmp_refl : forall k, default_cmp k k = 0.
Proof. intros k. apply (proj2 C59_default_order k k). reflexivity. Qed.
Lemma cmp_eq : forall a b, (default_cmp a b =? 0) = keq a b.
Proof.
  intros a b. unfold keq. destruct (list_eq_dec Z.eq_dec a b) as [-> |D]; [rewrite cmp_refl; reflexivity|].
  apply Z.eqb_neq. intros E. apply D. exact (proj1 (proj1 (proj2 (proj2 C59_default_order a b))) E).
Qed.
Lemma keq_refl : forall k, keq k k = true.
Proof. intros k. unfold keq. destruct (list_eq_dec Z.eq_dec k k); [reflexivity|contradiction]. Qed.
Lemma keq_spec : forall a b, keq a b = true <-> a = b.
Proof. intros a b. unfold keq. destruct (list_eq_dec Z.eq_dec a b); split; congruence. Qed.
Lemma item_assoc : forall m k, item_of k m = assoc k m.
Proof. induction m as [|[k' x] m IH]; intros k; cbn [item_of assoc]; [reflexivity|]. rewrite cmp_eq, IH. reflexivity. Qed.

(** ** Items *)
Lemma item_snoc : forall m k x, item_of k m = None -> item_of k (m ++ [(k, x)]) = Some x.
Proof.
  induction m as [|[k' y] m IH]; intros k x; cbn [item_of app]; [rewrite cmp_eq, keq_refl; reflexivity|]. destruct (default_cmp k k' =? 0); [discriminate|]. apply IH.
Qed.
Lemma set_snoc : forall m k x y, item_of k m = None -> set_item k y (m ++ [(k, x)]) = m ++ [(k, y)].
Proof.
  induction m as [|[k' z] m IH]; intros k x y; cbn [item_of app set_item]; [rewrite cmp_eq, keq_refl; reflexivity|]. destruct (default_cmp k k' =? 0); [discriminate|]. intros H. rewrite IH by exact H. reflexivity.
Qed.
Lemma item_set : forall m k x y, item_of k m = Some x -> item_of k (set_item k y m) = Some y.
Proof.
  induction m as [|[k' z] m IH]; intros k x y; cbn [item_of set_item]; [discriminate|]. destruct (default_cmp k k' =? 0) eqn:E; cbn [item_of]; rewrite E; [reflexivity|]. apply IH.
Qed.
Lemma set_set : forall m k x y, set_item k y (set_item k x m) = set_item k y m.
Proof.
  induction m as [|[k' z] m IH]; intros k x y; cbn [set_item]; [reflexivity|]. destruct (default_cmp k k' =? 0) eqn:E; cbn [set_item]; rewrite E; [reflexivity|]. rewrite IH. reflexivity.
Qed.
Lemma nth_set : forall l n x y, nth_error l n = Some x -> nth_error (set_nth n y l) n = Some y.
Proof. induction l as [|a l IH]; intros [|n] x y; cbn [nth_error set_nth]; try discriminate; [reflexivity|]. apply IH. Qed.
Lemma set_nth_twice : forall l n x y, set_nth n y (set_nth n x l) = set_nth n y l.
Proof. induction l as [|a l IH]; intros [|n] x y; cbn [set_nth]; try reflexivity. rewrite IH. reflexivity. Qed.
Lemma set_nth_snoc : forall l x y, set_nth (length l) y (l ++ [x]) = l ++ [y].
Proof. induction l as [|a l IH]; intros x y; cbn [length app set_nth]; [reflexivity|]. rewrite IH. reflexivity. Qed.
Lemma nth_snoc : forall (l : list dv) x, nth_error (l ++ [x]) (length l) = Some x.
Proof. induction l as [|a l IH]; intros x; cbn [length app nth_error]; [reflexivity|apply IH]. Qed.

(** ** Reading and writing through pointers *)
Lemma put_there : forall p v x w, get v p = Some x -> exists v', put v p w = Some v'.
Proof.
  induction p as [|[n|k] p IH]; intros v x w G; cbn [get put] in *; [eauto| |].
  - destruct v; try discriminate. destruct (nth_error elements n) as [y|]; [|discriminate]. destruct (IH y x w G) as (y' & ->). eauto.
  - destruct v; try discriminate. destruct (item_of k items) as [y|]; [|discriminate]. destruct (IH y x w G) as (y' & ->). eauto.
Qed.
Lemma put_some : forall p v w v', put v p w = Some v' -> exists x, get v p = Some x.
Proof.
  induction p as [|[n|k] p IH]; intros v w v' G; cbn [get put] in *; [eauto| |].
  - destruct v; try discriminate. destruct (nth_error elements n) as [y|]; [|discriminate]. destruct (put y p w) eqn:E; [|discriminate]. exact (IH _ _ _ E).
  - destruct v; try discriminate. destruct (item_of k items) as [y|]; [|discriminate]. destruct (put y p w) eqn:E; [|discriminate]. exact (IH _ _ _ E).
Qed.
Lemma get_put : forall p v w v', put v p w = Some v' -> get v' p = Some w.
Proof.
  induction p as [|[n|k] p IH]; intros v w v' G; cbn [put] in G; [injection G as <-; reflexivity| |].
  - destruct v; try discriminate. destruct (nth_error elements n) as [y|] eqn:E; [|discriminate]. destruct (put y p w) eqn:E'; [|discriminate]. injection G as <-. cbn [get]. rewrite (nth_set _ _ _ _ E). exact (IH _ _ _ E').
  - destruct v; try discriminate. destruct (item_of k items) as [y|] eqn:E; [|discriminate]. destruct (put y p w) eqn:E'; [|discriminate]. injection G as <-. cbn [get]. rewrite (item_set _ _ _ _ E). exact (IH _ _ _ E').
Qed.
Lemma put_put : forall p v w v' w', put v p w = Some v' -> put v' p w' = put v p w'.
Proof.
  induction p as [|[n|k] p IH]; intros v w v' w' G; cbn [put] in G |- *; [reflexivity| |].
  - destruct v; try discriminate. destruct (nth_error elements n) as [y|] eqn:E; [|discriminate]. destruct (put y p w) eqn:E'; [|discriminate]. injection G as <-. rewrite (nth_set _ _ _ _ E), (IH _ _ _ w' E'). destruct (put y p w'); [rewrite set_nth_twice|]; reflexivity.
  - destruct v; try discriminate. destruct (item_of k items) as [y|] eqn:E; [|discriminate]. destruct (put y p w) eqn:E'; [|discriminate]. injection G as <-. rewrite (item_set _ _ _ _ E), (IH _ _ _ w' E'). destruct (put y p w'); [rewrite set_set|]; reflexivity.
Qed.
Lemma get_app : forall p q v x, get v p = Some x -> get v (p ++ q) = get x q.
Proof.
  induction p as [|[n|k] p IH]; intros q v x G; cbn [get app] in *; [congruence| |].
  - destruct v; try discriminate. destruct (nth_error elements n) as [y|]; [|discriminate]. apply IH. exact G.
  - destruct v; try discriminate. destruct (item_of k items) as [y|]; [|discriminate]. apply IH. exact G.
Qed.
Lemma put_app : forall p q v x w, get v p = Some x -> put v (p ++ q) w = match put x q w with Some y => put v p y | None => None end.
Proof.
  induction p as [|[n|k] p IH]; intros q v x w G; cbn [get put app] in *; [injection G as <-; destruct (put v q w); reflexivity| |].
  - destruct v; try discriminate. destruct (nth_error elements n) as [y|]; [|discriminate]. rewrite (IH _ _ _ _ G). destruct (put x q w); reflexivity.
  - destruct v; try discriminate. destruct (item_of k items) as [y|]; [|discriminate]. rewrite (IH _ _ _ _ G). destruct (put x q w); reflexivity.
Qed.

(** ** Events *)
Lemma deliver_app : forall (U : Type) (cb : jtype -> list Z -> U -> Z * U) a b c u, deliver cb c u (a ++ b) = deliver cb (fst (deliver cb c u a)) (snd (deliver cb c u a)) b.
Proof.
  intros U cb. induction a as [|[t d] a IH]; intros b c u; cbn [app deliver]; [reflexivity|].
  destruct (c <? 0) eqn:E.
  - cbn [fst snd]. destruct b as [|[t' d'] b]; cbn [deliver]; [reflexivity|]. rewrite E. reflexivity.
  - destruct (cb t d u) as [c' u']. apply IH.
Qed.
Lemma deliver_stop : forall (U : Type) (cb : jtype -> list Z -> U -> Z * U) b c u, c < 0 -> deliver cb c u b = (c, u).
Proof. intros U cb [|[t d] b] c u H; cbn [deliver]; [reflexivity|]. rewrite (proj2 (Z.ltb_lt c 0) H). reflexivity. Qed.

(** ** What a tree means, step by step *)
Section Meaning.
Variable pol : policy.
Variable order : bool.
Definition number_dv (l : list Z) : Z + dv := match init_number l with Ret x => match x with inl _ => inl ERR_OUTOFMEMORY | inr v => inr v end | _ => inl 0 end.
Fixpoint meaning (v : jvalue) : Z + dv :=
  match v with
  | VNull => inr DNull
  | VFalse => inr (DBool false)
  | VTrue => inr (DBool true)
  | VNum l => number_dv l
  | VStr _ s => inr (DString s)
  | VArr vs =>
    match (fix all (acc : list dv) (vs : list jvalue) : Z + list dv :=
             match vs with [] => inr acc | v :: vs => match meaning v with inl e => inl e | inr x => all (acc ++ [x]) vs end end) [] vs with
    | inl e => inl e | inr l => inr (DArray l) end
  | VObj ms =>
    match (fix all (acc : list (list Z * dv)) (ms : list ((list Z * list Z) * jvalue)) : Z + list (list Z * dv) :=
             match ms with
             | [] => inr acc
             | mem :: ms =>
               match item_of (snd (fst mem)) acc with
               | Some _ =>
                 match pol with
                 | PAbort => inl DOM_ERR_DUPKEY
                 | PFirst => all acc ms
                 | PLast => match meaning (snd mem) with inl e => inl e | inr x => all (set_item (snd (fst mem)) x acc) ms end
                 end
               | None => match meaning (snd mem) with inl e => inl e | inr x => all (acc ++ [(snd (fst mem), x)]) ms end
               end
             end) [] ms with
    | inl e => inl e | inr m => inr (DDict order m) end
  end.
Fixpoint mean_all (acc : list dv) (vs : list jvalue) : Z + list dv :=
  match vs with [] => inr acc | v :: vs => match meaning v with inl e => inl e | inr x => mean_all (acc ++ [x]) vs end end.
Fixpoint mean_items (acc : list (list Z * dv)) (ms : list ((list Z * list Z) * jvalue)) : Z + list (list Z * dv) :=
  match ms with
  | [] => inr acc
  | mem :: ms =>
    match item_of (key_of mem) acc with
    | Some _ =>
      match pol with
      | PAbort => inl DOM_ERR_DUPKEY
      | PFirst => mean_items acc ms
      | PLast => match meaning (snd mem) with inl e => inl e | inr x => mean_items (set_item (key_of mem) x acc) ms end
      end
    | None => match meaning (snd mem) with inl e => inl e | inr x => mean_items (acc ++ [(key_of mem, x)]) ms end
    end
  end.
Lemma meaning_arr : forall vs, meaning (VArr vs) = match mean_all [] vs with inl e => inl e | inr l => inr (DArray l) end.
Proof. reflexivity. Qed.
Lemma meaning_obj : forall ms, meaning (VObj ms) = match mean_items [] ms with inl e => inl e | inr l => inr (DDict order l) end.
Proof. reflexivity. Qed.
End Meaning.

(** Numbers *)
Lemma number_init : forall l, number l ->
  (exists x, init_number l = Ret (inr x) /\ number_value l x) \/ (init_number l = Ret (inl ERR_OUTOFMEMORY) /\ ~ holdable l).
Proof.
  intros l NL. destruct (C58_numbers_classified l NL) as (c & A & I32 & U32 & I64 & U64). unfold init_number. rewrite A.
  destruct (c_i32 c) eqn:E32.
  { destruct (proj1 I32 eq_refl) as (z & T & R). left. exists (DInt32 z). rewrite (proj1 (C58_integers_read l z T) R). split; [reflexivity|]. constructor; assumption. }
  assert (N32 : forall z, integer_text l z -> ~ int32 z) by (intros z T R; discriminate (proj2 I32 (ex_intro _ z (conj T R)))).
  destruct (c_u32 c) eqn:EU32.
  { destruct (proj1 U32 eq_refl) as (z & T & R). left. exists (DUint32 z). rewrite (proj1 (proj2 (C58_integers_read l z T)) R). split; [reflexivity|]. apply nv_uint32; auto. }
  assert (NU32 : forall z, integer_text l z -> ~ uint32 z) by (intros z T R; discriminate (proj2 U32 (ex_intro _ z (conj T R)))).
  destruct (c_i64 c) eqn:E64.
  { destruct (proj1 I64 eq_refl) as (z & T & R). left. exists (DInt64 z). rewrite (proj1 (proj2 (proj2 (C58_integers_read l z T))) R). split; [reflexivity|]. apply nv_int64; auto. }
  assert (N64 : forall z, integer_text l z -> ~ int64 z) by (intros z T R; discriminate (proj2 I64 (ex_intro _ z (conj T R)))).
  destruct (c_u64 c) eqn:EU64.
  { destruct (proj1 U64 eq_refl) as (z & T & R). left. exists (DUint64 z). rewrite (proj2 (proj2 (proj2 (C58_integers_read l z T))) R). split; [reflexivity|]. apply nv_uint64; auto. }
  assert (NU64 : forall z, integer_text l z -> ~ uint64 z) by (intros z T R; discriminate (proj2 U64 (ex_intro _ z (conj T R)))).
  unfold double_fits. destruct (Z.ltb_spec (Z.of_nat (length l) + 1) 64) as [L|L].
  - left. exists (DDouble l). split; [reflexivity|]. apply nv_double. auto.
  - right. split; [reflexivity|]. intros [(z & T & [R|R])|R]; [exact (N64 z T R)|exact (NU64 z T R)|lia].
Qed.
Lemma number_dv_cases : forall l, number l ->
  (exists x, init_number l = Ret (inr x) /\ number_dv l = inr x /\ number_value l x) \/ (init_number l = Ret (inl ERR_OUTOFMEMORY) /\ number_dv l = inl ERR_OUTOFMEMORY /\ ~ holdable l).
Proof.
  intros l NL. destruct (number_init l NL) as [(x & E & V)|(E & H)]; [left; exists x|right]; unfold number_dv; rewrite E; auto.
Qed.

(** ** The events of a tree build its meaning *)
Definition same_rest (s s' : dstate) : Prop := d_path s' = d_path s /\ d_size s' = d_size s /\ d_flags s' = d_flags s.
Definition not_new (x : dv) : Prop := x <> DNew.

Lemma number_not_new : forall l x, number_value l x -> not_new x.
Proof. intros l x V. unfold not_new. destruct V; discriminate. Qed.
Lemma meaning_not_new : forall pol order v x, numbers number v -> meaning pol order v = inr x -> not_new x.
Proof.
  intros pol order v x NV. destruct v; cbn [meaning]; intros E; try (injection E as <-; unfold not_new; discriminate).
  - inversion NV; subst. destruct (number_dv_cases text ltac:(assumption)) as [(y & _ & EY & V)|(_ & EY & _)]; [|congruence]. rewrite EY in E. injection E as <-. exact (number_not_new _ _ V).
  - match type of E with match ?m with _ => _ end = _ => destruct m; [discriminate|] end. injection E as <-. unfold not_new. discriminate.
  - match type of E with match ?m with _ => _ end = _ => destruct m; [discriminate|] end. injection E as <-. unfold not_new. discriminate.
Qed.

Lemma cb_ok : forall t d s c s', process t d s = Ret (c, s') -> dom_cb t d (Some s) = (c, Some s').
Proof. intros t d s c s' H. unfold dom_cb. rewrite H. reflexivity. Qed.
Lemma deliver_one : forall t d s c s', process t d s = Ret (c, s') -> deliver dom_cb 0 (Some s) [(t, d)] = (c, Some s').
Proof. intros t d s c s' H. cbn [deliver]. change (0 <? 0) with false. cbv iota. rewrite (cb_ok _ _ _ _ _ H). reflexivity. Qed.

Section Build.
Variable pol : policy.
Variable order : bool.
Definition flags_ok (s : dstate) : Prop := dupkey (d_flags s) = pol /\ keep_order (d_flags s) = order.

(** [v] is built at [p]. *)
Definition builds (v : jvalue) : Prop :=
  forall s p s1, flags_ok s -> flags_ok s1 -> 0 <= d_size s1 -> place s = Ret (inr p, s1) -> (exists x, get (d_root s1) p = Some x) ->
  match meaning pol order v with
  | inr w => exists s', deliver dom_cb 0 (Some s) (events v) = (0, Some s') /\ put (d_root s1) p w = Some (d_root s') /\ same_rest s1 s'
  | inl e => e < 0 /\ exists s', deliver dom_cb 0 (Some s) (events v) = (e, Some s')
  end.

Lemma build_simple : forall t d s p s1 x, opens t = false -> t <> JSON_KEY -> t <> JSON_ARRAY_END -> t <> JSON_OBJECT_END ->
  place s = Ret (inr p, s1) -> (exists y, get (d_root s1) p = Some y) -> init_value t d (d_flags s1) = Ret (inr x) ->
  exists s', process t d s = Ret (0, s') /\ put (d_root s1) p x = Some (d_root s') /\ same_rest s1 s'.
Proof.
  intros t d s p s1 x O N1 N2 N3 P (y & G) I. destruct (put_there p (d_root s1) y x G) as (r & E).
  eexists. split.
  - unfold process. rewrite P. cbn [bind]. rewrite I. cbn [bind]. rewrite E, O. destruct t; try congruence; reflexivity.
  - cbn [d_root]. split; [exact E|]. repeat split.
Qed.
Lemma build_open : forall t d s p s1 x, opens t = true ->
  place s = Ret (inr p, s1) -> (exists y, get (d_root s1) p = Some y) -> init_value t d (d_flags s1) = Ret (inr x) ->
  exists s', process t d s = Ret (0, s') /\ put (d_root s1) p x = Some (d_root s') /\ d_path s' = p :: d_path s1 /\ d_size s' = d_size s1 + 1 /\ d_flags s' = d_flags s1.
Proof.
  intros t d s p s1 x O P (y & G) I. destruct (put_there p (d_root s1) y x G) as (r & E).
  eexists. split.
  - unfold process. rewrite P. cbn [bind]. rewrite I. cbn [bind]. rewrite E, O. destruct t; try discriminate; reflexivity.
  - cbn [d_root]. split; [exact E|]. repeat split.
Qed.

(** the elements of an array *)
Lemma build_elements : forall vs, Forall builds vs -> forall acc s p ps r0, flags_ok s -> d_path s = p :: ps -> 0 < d_size s ->
  put r0 p (DArray acc) = Some (d_root s) ->
  match mean_all pol order acc vs with
  | inr l => exists s', deliver dom_cb 0 (Some s) (flat_map events vs) = (0, Some s') /\ put r0 p (DArray l) = Some (d_root s') /\ same_rest s s'
  | inl e => e < 0 /\ exists s', deliver dom_cb 0 (Some s) (flat_map events vs) = (e, Some s')
  end.
Proof.
  induction 1 as [|v vs B F IH]; intros acc s p ps r0 FL PA SZ PU; cbn [mean_all flat_map].
  - exists s. split; [reflexivity|]. split; [exact PU|]. repeat split.
  - pose proof (get_put _ _ _ _ PU) as G.
    destruct (put_there p (d_root s) _ (DArray (acc ++ [DNew])) G) as (r1 & E1).
    set (s1 := DState r1 (d_path s) (d_size s) (d_key s) (d_flags s)).
    assert (PL : place s = Ret (inr (p ++ [SIdx (length acc)]), s1)).
    { unfold place, s1. destruct s as [rt pt sz ky fl]. cbn [d_root d_path d_size d_key d_flags] in *. rewrite (proj2 (Z.ltb_lt 0 sz) SZ), PA, G, E1. reflexivity. }
    pose proof (get_put _ _ _ _ E1) as G1.
    assert (GG : get (d_root s1) (p ++ [SIdx (length acc)]) = Some DNew).
    { unfold s1. cbn [d_root]. rewrite (get_app _ _ _ _ G1). cbn [get]. rewrite nth_snoc. reflexivity. }
    specialize (B s _ s1 FL FL (Z.lt_le_incl _ _ SZ) PL (ex_intro _ _ GG)).
    rewrite deliver_app. destruct (meaning pol order v) as [e|w].
    + destruct B as (NE & s' & D). split; [exact NE|]. exists s'. rewrite D. cbn [fst snd]. apply deliver_stop. exact NE.
    + destruct B as (s' & D & PW & R1 & R2 & R3). rewrite D. cbn [fst snd].
      assert (FL' : flags_ok s') by (destruct FL as [f1 f2]; unfold flags_ok; rewrite R3; split; assumption).
      assert (PU' : put r0 p (DArray (acc ++ [w])) = Some (d_root s')).
      { rewrite <- PW. unfold s1. cbn [d_root]. rewrite (put_app _ _ _ _ w G1). cbn [put]. rewrite nth_snoc, set_nth_snoc. rewrite (put_put _ _ _ _ _ E1). symmetry. exact (put_put _ _ _ _ _ PU). }
      specialize (IH (acc ++ [w]) s' p ps r0 FL' ltac:(rewrite R1; exact PA) ltac:(rewrite R2; exact SZ) PU').
      destruct (mean_all pol order (acc ++ [w]) vs) as [e|l]; [exact IH|]. destruct IH as (s2 & D2 & P2 & Q1 & Q2 & Q3).
      exists s2. split; [exact D2|]. split; [exact P2|]. unfold same_rest. rewrite Q1, Q2, Q3, R1, R2, R3. repeat split.
Qed.

(** the members of an object *)
Definition good_items (acc : list (list Z * dv)) : Prop := Forall (fun kx => not_new (snd kx)) acc.
Lemma good_item : forall acc k x, good_items acc -> item_of k acc = Some x -> not_new x.
Proof.
  induction 1 as [|[k' y] acc H F IH]; cbn [item_of]; [discriminate|]. destruct (default_cmp k k' =? 0); [intros E; injection E as <-; exact H|exact IH].
Qed.
Lemma good_set : forall acc k x, good_items acc -> not_new x -> good_items (set_item k x acc).
Proof.
  induction 1 as [|[k' y] acc H F IH]; intros NX; cbn [set_item]; [constructor|]. destruct (default_cmp k k' =? 0); constructor; auto. apply IH. exact NX.
Qed.
Lemma simple_one : forall v, simple v -> exists t d, events v = [(t, d)] /\ t <> JSON_KEY /\ t <> JSON_ARRAY_END /\ t <> JSON_OBJECT_END.
Proof.
  intros [| | |l|r d|vs|ms] SV; cbn [events]; try destruct SV; eexists _, _; (split; [reflexivity|repeat split; discriminate]).
Qed.

Lemma build_members : forall ms, Forall (fun mem => builds (snd mem) /\ numbers number (snd mem)) ms ->
  forall acc s p ps r0,
  (pol = PFirst -> forall before mem after, ms = before ++ mem :: after -> item_of (key_of mem) acc <> None \/ In (key_of mem) (map key_of before) -> simple (snd mem)) ->
  flags_ok s -> d_path s = p :: ps -> 0 < d_size s -> good_items acc ->
  put r0 p (DDict order acc) = Some (d_root s) ->
  match mean_items pol order acc ms with
  | inr l => exists s', deliver dom_cb 0 (Some s) (flat_map (fun m => (JSON_KEY, snd (fst m)) :: events (snd m)) ms) = (0, Some s') /\ put r0 p (DDict order l) = Some (d_root s') /\ same_rest s s'
  | inl e => e < 0 /\ exists s', deliver dom_cb 0 (Some s) (flat_map (fun m => (JSON_KEY, snd (fst m)) :: events (snd m)) ms) = (e, Some s')
  end.
Proof.
  induction 1 as [|mem ms [B NB] F IH]; intros acc s p ps r0 MI FL PA SZ GA PU; cbn [mean_items flat_map].
  - exists s. split; [reflexivity|]. split; [exact PU|]. repeat split.
  - rewrite <- app_comm_cons.
    set (k := key_of mem) in *. change (snd (fst mem)) with k.
    set (sk := DState (d_root s) (d_path s) (d_size s) (Some k) (d_flags s)).
    assert (STEP : forall rest, deliver dom_cb 0 (Some s) ((JSON_KEY, k) :: rest) = deliver dom_cb 0 (Some sk) rest).
    { intros rest. cbn [deliver]. change (0 <? 0) with false. cbv iota. rewrite (cb_ok JSON_KEY k s 0 sk) by reflexivity. reflexivity. }
    rewrite STEP. rewrite deliver_app.
    pose proof (get_put _ _ _ _ PU) as G.
    assert (FK : flags_ok sk) by exact FL.
    (* building the value at the place of the key, from a dictionary that has it *)
    assert (GO : forall acc' s1, put r0 p (DDict order acc') = Some (d_root s1) -> (exists x, item_of k acc' = Some x) ->
      place sk = Ret (inr (p ++ [SKey k]), s1) -> same_rest s s1 -> (forall x, good_items (set_item k x acc') <-> not_new x) ->
      (forall x, (pol = PFirst -> forall before mem' after, ms = before ++ mem' :: after -> item_of (key_of mem') (set_item k x acc') <> None \/ In (key_of mem') (map key_of before) -> simple (snd mem'))) ->
      match (match meaning pol order (snd mem) with inl e => inl e | inr x => mean_items pol order (set_item k x acc') ms end) with
      | inr l => exists s', deliver dom_cb (fst (deliver dom_cb 0 (Some sk) (events (snd mem)))) (snd (deliver dom_cb 0 (Some sk) (events (snd mem)))) (flat_map (fun m => (JSON_KEY, snd (fst m)) :: events (snd m)) ms) = (0, Some s') /\ put r0 p (DDict order l) = Some (d_root s') /\ same_rest s s'
      | inl e => e < 0 /\ exists s', deliver dom_cb (fst (deliver dom_cb 0 (Some sk) (events (snd mem)))) (snd (deliver dom_cb 0 (Some sk) (events (snd mem)))) (flat_map (fun m => (JSON_KEY, snd (fst m)) :: events (snd m)) ms) = (e, Some s')
      end).
    { intros acc' s1 PU1 (y & IY) PL (R1 & R2 & R3) GS MI'.
      pose proof (get_put _ _ _ _ PU1) as G1.
      assert (GG : get (d_root s1) (p ++ [SKey k]) = Some y). { rewrite (get_app _ _ _ _ G1). cbn [get]. rewrite IY. reflexivity. }
      assert (FL1 : flags_ok s1) by (destruct FL as [f1 f2]; unfold flags_ok; rewrite R3; split; assumption).
      specialize (B sk _ s1 FK FL1 ltac:(rewrite R2; lia) PL (ex_intro _ _ GG)).
      destruct (meaning pol order (snd mem)) as [e|w] eqn:EM.
      - destruct B as (NE & s' & D). split; [exact NE|]. exists s'. rewrite D. cbn [fst snd]. apply deliver_stop. exact NE.
      - destruct B as (s' & D & PW & Q1 & Q2 & Q3). rewrite D. cbn [fst snd].
        assert (PU' : put r0 p (DDict order (set_item k w acc')) = Some (d_root s')).
        { rewrite <- PW. rewrite (put_app _ _ _ _ w G1). cbn [put]. rewrite IY. symmetry. exact (put_put _ _ _ _ _ PU1). }
        specialize (IH (set_item k w acc') s' p ps r0 (MI' w)).
        assert (FL' : flags_ok s') by (destruct FL1 as [f1 f2]; unfold flags_ok; rewrite Q3; split; assumption).
        specialize (IH FL' ltac:(rewrite Q1, R1; exact PA) ltac:(rewrite Q2, R2; exact SZ) (proj2 (GS w) (meaning_not_new _ _ _ _ NB EM)) PU').
        destruct (mean_items pol order (set_item k w acc') ms) as [e|l]; [exact IH|]. destruct IH as (s2 & D2 & P2 & T1 & T2 & T3).
        exists s2. split; [exact D2|]. split; [exact P2|]. unfold same_rest. rewrite T1, T2, T3, Q1, Q2, Q3, R1, R2, R3. repeat split. }
    destruct (item_of k acc) as [x|] eqn:IK.
    + pose proof (good_item acc k x GA IK) as NX.
      assert (PLACE : forall r, (match pol with PFirst => r = inl 0 | PLast => r = inr (p ++ [SKey k]) | PAbort => r = inl DOM_ERR_DUPKEY end) ->
        place sk = Ret (r, DState (d_root s) (d_path s) (d_size s) None (d_flags s))).
      { intros r HR. unfold place, sk. rewrite (proj2 (Z.ltb_lt 0 (d_size s)) SZ), PA, G, IK. unfold not_new in NX. destruct FL as [f1 _]. rewrite f1.
        destruct x; try congruence; destruct pol; subst r; reflexivity. }
      destruct pol eqn:EP.
      * (* abort *)
        specialize (PLACE (inl DOM_ERR_DUPKEY) eq_refl).
        assert (D : exists s', deliver dom_cb 0 (Some sk) (events (snd mem)) = (DOM_ERR_DUPKEY, Some s')).
        { eexists. assert (E : exists t d rest, events (snd mem) = (t, d) :: rest /\ t <> JSON_KEY /\ t <> JSON_ARRAY_END /\ t <> JSON_OBJECT_END).
          { destruct (snd mem); cbn [events]; eexists _, _, _; (split; [reflexivity|repeat split; discriminate]). }
          destruct E as (t & d & rest & -> & N1 & N2 & N3). cbn [deliver]. change (0 <? 0) with false. cbv iota.
          rewrite (cb_ok t d sk DOM_ERR_DUPKEY (DState (d_root s) (d_path s) (d_size s) None (d_flags s))) by (unfold process; rewrite PLACE; destruct t; try congruence; reflexivity).
          apply deliver_stop. reflexivity. }
        destruct D as (s' & D). split; [reflexivity|]. exists s'. rewrite D. cbn [fst snd]. apply deliver_stop. reflexivity.
      * (* first *)
        specialize (PLACE (inl 0) eq_refl).
        assert (SM : simple (snd mem)). { apply (MI eq_refl [] mem ms); [reflexivity|]. left. fold k. rewrite IK. discriminate. }
        destruct (simple_one _ SM) as (t & d & E & N1 & N2 & N3). rewrite E.
        rewrite (deliver_one t d sk 0 (DState (d_root s) (d_path s) (d_size s) None (d_flags s))) by (unfold process; rewrite PLACE; destruct t; try congruence; reflexivity).
        cbn [fst snd].
        specialize (IH acc (DState (d_root s) (d_path s) (d_size s) None (d_flags s)) p ps r0).
        apply IH; try assumption.
        intros _ before mem' after EQ [H|H]; apply (MI eq_refl (mem :: before) mem' after); [cbn [app]; congruence|left; exact H|cbn [app]; congruence|right; right; exact H].
      * (* last *)
        specialize (PLACE (inr (p ++ [SKey k])) eq_refl).
        apply (GO acc (DState (d_root s) (d_path s) (d_size s) None (d_flags s)) PU (ex_intro _ x IK) PLACE); [repeat split| |].
        -- intros y. split; [|intros NY; apply good_set; assumption]. intros GS. apply (good_item _ k y GS). exact (item_set _ _ _ _ IK).
        -- intros y H. discriminate H.
    + destruct (put_there p (d_root s) _ (DDict order (acc ++ [(k, DNew)])) G) as (r1 & E1).
      pose proof (put_put _ _ _ _ (DDict order (acc ++ [(k, DNew)])) PU) as E1'. rewrite E1 in E1'. symmetry in E1'.
      assert (PL : place sk = Ret (inr (p ++ [SKey k]), DState r1 (d_path s) (d_size s) None (d_flags s))).
      { unfold place, sk. rewrite (proj2 (Z.ltb_lt 0 (d_size s)) SZ), PA, G, IK, E1. reflexivity. }
      assert (EQ : match meaning pol order (snd mem) with inl e => inl e | inr x => mean_items pol order (acc ++ [(k, x)]) ms end
        = match meaning pol order (snd mem) with inl e => inl e | inr x => mean_items pol order (set_item k x (acc ++ [(k, DNew)])) ms end).
      { destruct (meaning pol order (snd mem)) as [e|w]; [reflexivity|]. rewrite (set_snoc _ _ _ _ IK). reflexivity. }
      rewrite EQ. apply (GO (acc ++ [(k, DNew)]) (DState r1 (d_path s) (d_size s) None (d_flags s)) E1' (ex_intro _ _ (item_snoc _ _ _ IK)) PL); [repeat split| |].
      * intros y. rewrite (set_snoc _ _ _ _ IK). unfold good_items. rewrite Forall_app. split.
        -- intros [_ H]. inversion H; assumption.
        -- intros NY. split; [exact GA|]. repeat constructor. exact NY.
      * intros y PF before mem' after EQ' H. apply (MI PF (mem :: before) mem' after); [cbn [app]; congruence|]. cbn [map]. fold k.
        destruct H as [H|H]; [|right; right; exact H]. rewrite (set_snoc _ _ _ _ IK) in H.
        destruct (list_eq_dec Z.eq_dec k (key_of mem')) as [E|D]; [right; left; exact E|]. left. intros X. apply H.
        clear - X D. induction acc as [|[k' z] acc IHa]; cbn [item_of app] in *.
        -- rewrite cmp_eq. unfold keq. destruct (list_eq_dec Z.eq_dec (key_of mem') k); [congruence|reflexivity].
        -- destruct (default_cmp (key_of mem') k' =? 0); [discriminate|]. apply IHa. exact X.
Qed.

Lemma builds_all : forall v, (pol = PFirst -> mild v) -> numbers number v -> builds v.
Proof.
  induction v as [| | |l|r d|vs H|ms H] using jvalue_ind'; intros MV NV s p s1 FL FL1 SZ PL GE.
  - destruct (build_simple JSON_NULL [] s p s1 DNull) as (s' & P & Q & R); try discriminate; auto. exists s'. split; [exact (deliver_one _ _ _ _ _ P)|auto].
  - destruct (build_simple JSON_FALSE [] s p s1 (DBool false)) as (s' & P & Q & R); try discriminate; auto. exists s'. split; [exact (deliver_one _ _ _ _ _ P)|auto].
  - destruct (build_simple JSON_TRUE [] s p s1 (DBool true)) as (s' & P & Q & R); try discriminate; auto. exists s'. split; [exact (deliver_one _ _ _ _ _ P)|auto].
  - cbn [meaning events]. inversion NV as [| | |? NL| | |]; subst. destruct (number_dv_cases l NL) as [(x & E & EX & V)|(E & EX & _)]; rewrite EX.
    + destruct (build_simple JSON_NUMBER l s p s1 x) as (s' & P & Q & R); try discriminate; auto. exists s'. split; [exact (deliver_one _ _ _ _ _ P)|auto].
    + split; [reflexivity|]. exists s1. apply deliver_one. unfold process. rewrite PL. cbn [bind init_value]. rewrite E. reflexivity.
  - cbn [meaning events]. destruct (build_simple JSON_STRING d s p s1 (DString d)) as (s' & P & Q & R); try discriminate; auto. exists s'. split; [exact (deliver_one _ _ _ _ _ P)|auto].
  - rewrite meaning_arr. cbn [events].
    destruct (build_open JSON_ARRAY_BEG [] s p s1 (DArray []) eq_refl PL GE eq_refl) as (s' & P & Q & R1 & R2 & R3).
    assert (ST : forall rest, deliver dom_cb 0 (Some s) ((JSON_ARRAY_BEG, []) :: rest) = deliver dom_cb 0 (Some s') rest).
    { intros rest. cbn [deliver]. change (0 <? 0) with false. cbv iota. rewrite (cb_ok _ _ _ _ _ P). reflexivity. }
    rewrite ST, deliver_app.
    assert (BB : Forall builds vs).
    { inversion NV as [| | | | |? NF|]; subst. rewrite Forall_forall in *. intros v IV. apply H; [exact IV| |apply NF; exact IV]. intros PF. specialize (MV PF). inversion MV as [? SV|? MF|]; subst; [destruct SV|]. rewrite Forall_forall in MF. apply MF. exact IV. }
    assert (FL' : flags_ok s') by (destruct FL1 as [f1 f2]; unfold flags_ok; rewrite R3; split; assumption).
    pose proof (build_elements vs BB [] s' p (d_path s1) (d_root s1) FL' R1 ltac:(rewrite R2; lia) Q) as E.
    destruct (mean_all pol order [] vs) as [e|l].
    + destruct E as (NE & s2 & D). split; [exact NE|]. exists s2. rewrite D. cbn [fst snd]. apply deliver_stop. exact NE.
    + destruct E as (s2 & D & P2 & T1 & T2 & T3). rewrite D. cbn [fst snd]. eexists. split; [apply deliver_one; reflexivity|]. cbn [d_root d_path d_size d_flags].
      split; [exact P2|]. unfold same_rest. cbn [d_path d_size d_flags]. rewrite T1, T2, T3, R1, R2, R3. cbn [List.tl]. split; [reflexivity|]. split; [|reflexivity]. destruct (Z.eqb_spec (d_size s1 + 1) 0); lia.
  - rewrite meaning_obj. cbn [events].
    assert (IO : init_value JSON_OBJECT_BEG [] (d_flags s1) = Ret (inr (DDict order []))) by (cbn [init_value]; rewrite (proj2 FL1); reflexivity).
    destruct (build_open JSON_OBJECT_BEG [] s p s1 (DDict order []) eq_refl PL GE IO) as (s' & P & Q & R1 & R2 & R3).
    assert (ST : forall rest, deliver dom_cb 0 (Some s) ((JSON_OBJECT_BEG, []) :: rest) = deliver dom_cb 0 (Some s') rest).
    { intros rest. cbn [deliver]. change (0 <? 0) with false. cbv iota. rewrite (cb_ok _ _ _ _ _ P). reflexivity. }
    rewrite ST, deliver_app.
    assert (BB : Forall (fun mem => builds (snd mem) /\ numbers number (snd mem)) ms).
    { inversion NV as [| | | | | |? NF]; subst. rewrite Forall_forall in *. intros v IV. split; [|apply NF; exact IV]. apply H; [exact IV| |apply NF; exact IV]. intros PF. specialize (MV PF). inversion MV as [? SV| |? MF MC]; subst; [destruct SV|]. rewrite Forall_forall in MF. apply MF. exact IV. }
    assert (FL' : flags_ok s') by (destruct FL1 as [f1 f2]; unfold flags_ok; rewrite R3; split; assumption).
    pose proof (fun X => build_members ms BB [] s' p (d_path s1) (d_root s1) X FL' R1 ltac:(rewrite R2; lia) (Forall_nil _) Q) as E.
    assert (MC : pol = PFirst -> forall before mem after, ms = before ++ mem :: after -> item_of (key_of mem) [] <> None \/ In (key_of mem) (map key_of before) -> simple (snd mem)).
    { intros PF b m a EQ [X|X]; [contradiction X; reflexivity|]. specialize (MV PF). inversion MV as [? SV| |? MF MC]; subst; [destruct SV|]. exact (MC b m a eq_refl X). }
    specialize (E MC).
    destruct (mean_items pol order [] ms) as [e|l].
    + destruct E as (NE & s2 & D). split; [exact NE|]. exists s2. rewrite D. cbn [fst snd]. apply deliver_stop. exact NE.
    + destruct E as (s2 & D & P2 & T1 & T2 & T3). rewrite D. cbn [fst snd]. eexists. split; [apply deliver_one; reflexivity|]. cbn [d_root d_path d_size d_flags].
      split; [exact P2|]. unfold same_rest. cbn [d_path d_size d_flags]. rewrite T1, T2, T3, R1, R2, R3. cbn [List.tl]. split; [reflexivity|]. split; [|reflexivity]. destruct (Z.eqb_spec (d_size s1 + 1) 0); lia.
Qed.
End Build.
