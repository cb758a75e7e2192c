(** Lemmas for C37. *)
From Verif Require Import Base Addr RouteFlags RouteKey RouteKeySpec RouteKeyProofs RouteTable TableSpec RouteTableProofs Exchange.
From Coq Require Import Sorted.
Open Scope Z_scope.

Definition xsorted (l : list xroute) : Prop := StronglySorted (fun a b => route_key_cmp (x_route a) (x_route b) < 0) l.
Definition xok (l : list xroute) : Prop := Forall (fun x => route_ok (x_route x)) l.

(** What a route of the new table becomes. *)
Definition carried (from : list xroute) (t : xroute) : xroute :=
  match find (fun f => (x_id f =? x_id t)%N) from with Some f => copy_one f t | None => t end.

Lemma find_nothing from t : (forall f, In f from -> x_id f <> x_id t) -> find (fun f => (x_id f =? x_id t)%N) from = None.
Proof. intros H. destruct (find _ from) eqn:E; [|reflexivity]. apply find_some in E. destruct E as [I E]. apply N.eqb_eq in E. destruct (H _ I E). Qed.

Lemma walk_spec : forall n from to, (length from + length to <= n)%nat -> xok from -> xok to -> xsorted from -> xsorted to ->
  NoDup (map x_id to) -> (forall f t, In f from -> In t to -> x_id f = x_id t -> same_key (x_route f) (x_route t)) ->
  copy_walk n from to = map (carried from) to.
Proof.
  induction n as [|n IH]; intros from to Hn Of Ot Sf St ND SK.
  { destruct to; [reflexivity|cbn in Hn; lia]. }
  cbn [copy_walk]. destruct from as [|f from].
  { destruct to as [|t to]; [reflexivity|]. clear. induction (t :: to) as [|x l IH]; [reflexivity|]. cbn [map]. rewrite <- IH. reflexivity. }
  destruct to as [|t to]; [reflexivity|].
  inversion Of as [|? ? Of1 Of2]; subst. inversion Ot as [|? ? Ot1 Ot2]; subst. apply StronglySorted_inv in Sf, St. destruct Sf as [Sf1 Sf2], St as [St1 St2].
  cbn [map] in ND. inversion ND as [|? ? NI ND']; subst. rewrite Forall_forall in Sf2, St2.
  assert (OF : forall x, In x from -> route_ok (x_route x)) by (apply Forall_forall; exact Of2).
  assert (OT : forall x, In x to -> route_ok (x_route x)) by (apply Forall_forall; exact Ot2).
  cbn [length] in Hn. destruct (N.eqb_spec (x_id f) (x_id t)) as [E|NE].
  - rewrite IH; try assumption; [|lia|intros; apply SK; auto; right; assumption]. cbn [map]. assert (HC : carried (f :: from) t = copy_one f t) by (unfold carried; cbn [find]; rewrite (proj2 (N.eqb_eq _ _) E); reflexivity). rewrite HC. f_equal.
    apply map_ext_in. intros y Hy. unfold carried. cbn [find]. destruct (N.eqb_spec (x_id f) (x_id y)) as [E2|]; [|reflexivity].
    destruct NI. rewrite <- E, E2. apply in_map. exact Hy.
  - rewrite (route_key_cmp_eq _ _ Of1 Ot1).
    destruct (Z.ltb_spec (rcmp (x_route f) (x_route t)) 0) as [LT|GE].
    + (* f is in no later position of [to] *)
      rewrite IH; try assumption; [|cbn [length]; lia|constructor; [assumption|rewrite Forall_forall; assumption]|intros; apply SK; auto; right; assumption].
      apply map_ext_in. intros y Hy. unfold carried. cbn [find]. destruct (N.eqb_spec (x_id f) (x_id y)) as [E2|]; [|reflexivity]. exfalso.
      pose proof (proj2 (rcmp_0 _ _) (SK f y (or_introl eq_refl) Hy E2)) as Z0. destruct Hy as [<-|Hy]; [lia|].
      specialize (St2 y Hy). rewrite (route_key_cmp_eq _ _ Ot1 (OT y Hy)) in St2. pose proof (rc_lt_le (x_route f) (x_route t) (x_route y) LT ltac:(lia)). lia.
    + assert (HT : (forall x, In x from -> x_id x <> x_id t) -> carried (f :: from) t = t).
      { intros H. unfold carried. rewrite find_nothing; [reflexivity|]. intros x [<-|Hx]; [exact NE|apply H, Hx]. }
      assert (NT : forall x, In x from -> x_id x <> x_id t).
      { intros x Hx E. pose proof (proj2 (rcmp_0 _ _) (SK x t (or_intror Hx) (or_introl eq_refl) E)) as Z0. specialize (Sf2 x Hx).
        rewrite (route_key_cmp_eq _ _ Of1 (OF x Hx)) in Sf2. pose proof (rc_lt_le (x_route f) (x_route x) (x_route t) Sf2 ltac:(lia)). lia. }
      rewrite Z.gtb_ltb. destruct (Z.ltb_spec 0 (rcmp (x_route f) (x_route t))) as [GT|LE].
      * rewrite IH; try assumption; [|cbn [length]; lia|constructor; [assumption|rewrite Forall_forall; assumption]|intros a b Ha Hb; apply SK; [exact Ha|right; exact Hb]].
        cbn [map]. rewrite (HT NT). reflexivity.
      * rewrite IH; try assumption; [|lia|intros a b Ha Hb; apply SK; [right; exact Ha|right; exact Hb]].
        cbn [map]. rewrite (HT NT). f_equal. apply map_ext_in. intros y Hy. unfold carried. cbn [find]. destruct (N.eqb_spec (x_id f) (x_id y)) as [E2|]; [|reflexivity]. exfalso.
        pose proof (proj2 (rcmp_0 _ _) (SK f y (or_introl eq_refl) (or_intror Hy) E2)) as Z0. specialize (St2 y Hy). rewrite (route_key_cmp_eq _ _ Ot1 (OT y Hy)) in St2.
        pose proof (rc_anti (x_route t) (x_route f)). pose proof (rc_le_lt (x_route f) (x_route t) (x_route y) ltac:(lia) St2). lia.
Qed.
Lemma copy_spec from to : xok from -> xok to -> xsorted from -> xsorted to -> NoDup (map x_id to) ->
  (forall f t, In f from -> In t to -> x_id f = x_id t -> same_key (x_route f) (x_route t)) -> copy_metadata from to = map (carried from) to.
Proof. intros. apply walk_spec; auto. Qed.
Lemma walk_hits : forall n from to, map x_hits (copy_walk n from to) = map x_hits to /\ map x_id (copy_walk n from to) = map x_id to.
Proof.
  induction n as [|n IH]; intros from to; [split; reflexivity|]. cbn [copy_walk]. destruct from as [|f from]; [split; reflexivity|]. destruct to as [|t to]; [split; reflexivity|].
  destruct (x_id f =? x_id t)%N.
  - destruct (IH from to) as [A B]. cbn [map copy_one x_hits x_id]. rewrite A, B. split; reflexivity.
  - destruct (_ <? 0); [apply (IH from (t :: to))|]. destruct (_ >? 0).
    + destruct (IH (f :: from) to) as [A B]. cbn [map]. rewrite A, B. split; reflexivity.
    + destruct (IH from to) as [A B]. cbn [map]. rewrite A, B. split; reflexivity.
Qed.

Lemma with_flags_same r : with_flags r (r_flags r) = r.
Proof. destruct r; reflexivity. Qed.
Lemma same_key_refl r : same_key r r.
Proof. apply rcmp_0. apply rc_refl. Qed.
Lemma same_key_sym a b : same_key a b -> same_key b a.
Proof. rewrite <- !rcmp_0. pose proof (rc_anti a b). lia. Qed.
Lemma copy_one_key f t : same_key (x_route f) (x_route t) -> same_key (x_route (copy_one f t)) (x_route t).
Proof.
  intros H. destruct H as (_ & _ & _ & _ & _ & _ & _ & _ & _ & _ & HF & _). unfold same_key. cbn [copy_one x_route with_flags r_family r_proto r_raddr r_rlen r_rport r_riface r_laddr r_llen r_lport r_liface r_flags r_event].
  repeat (split; [reflexivity|]). split; [exact HF|]. pose proof (same_key_refl (x_route t)) as R. apply R.
Qed.
Lemma same_key_ok a b : same_key a b -> route_ok b -> route_ok a.
Proof.
  intros (_ & _ & A & B & _ & _ & D & E & _ & _ & F & _) [H1 H2 H3 H4]. split; rewrite ?A, ?B, ?D, ?E; try assumption.
  - intros X. apply H3. unfold has in *. rewrite <- F; [exact X|]. unfold RF_RADDR_BITMASK. lia.
  - intros X. apply H4. unfold has in *. rewrite <- F; [exact X|]. unfold RF_LADDR_BITMASK. lia.
Qed.
Lemma same_key_lt a a' b b' : same_key a a' -> same_key b b' -> rcmp a' b' < 0 -> rcmp a b < 0.
Proof.
  rewrite <- !rcmp_0. intros H1 H2 H. pose proof (rc_anti b b'). eapply rc_le_lt; [|eapply rc_lt_le; [exact H|]]; lia.
Qed.
Section Carry.
  Variables (from to : list xroute).
  Hypothesis SK : forall f t, In f from -> In t to -> x_id f = x_id t -> same_key (x_route f) (x_route t).
  Lemma carried_key t : In t to -> same_key (x_route (carried from t)) (x_route t) /\ x_id (carried from t) = x_id t.
  Proof.
    intros Ht. unfold carried. destruct (find _ from) as [f|] eqn:E; [|split; [apply same_key_refl|reflexivity]].
    apply find_some in E. destruct E as [Hf E]. apply N.eqb_eq in E. split; [apply copy_one_key, SK; assumption|reflexivity].
  Qed.
  Lemma carried_ok : xok to -> xok (map (carried from) to).
  Proof.
    unfold xok. intros H. apply Forall_forall. intros y Hy. apply in_map_iff in Hy. destruct Hy as (t & <- & Ht). rewrite Forall_forall in H.
    eapply same_key_ok; [apply (carried_key t Ht)|apply H, Ht].
  Qed.
  Lemma carried_sorted : xok to -> xsorted to -> xsorted (map (carried from) to).
  Proof.
    intros Ho Hs. pose proof (carried_ok Ho) as Ho'. unfold xok in *. rewrite Forall_forall in Ho, Ho'.
    assert (X : forall l, incl l to -> xsorted l -> xsorted (map (carried from) l)); [|apply X; [apply incl_refl|exact Hs]].
    induction l as [|a l IH]; intros Hin S; [constructor|]. apply StronglySorted_inv in S. destruct S as [S1 S2]. cbn [map]. constructor; [apply IH; [intros z Hz; apply Hin; right; exact Hz|exact S1]|].
    rewrite Forall_forall in *. intros y Hy. apply in_map_iff in Hy. destruct Hy as (b & <- & Hb). specialize (S2 b Hb).
    assert (Ia : In a to) by (apply Hin; left; reflexivity). assert (Ib : In b to) by (apply Hin; right; exact Hb).
    rewrite route_key_cmp_eq in S2 by (apply Ho; assumption). rewrite route_key_cmp_eq by (apply Ho'; apply in_map; assumption).
    eapply same_key_lt; [apply carried_key, Ia|apply carried_key, Ib|exact S2].
  Qed.
  Lemma carried_back : NoDup (map x_id from) -> map (carried (map (carried from) to)) from = from.
  Proof.
    intros ND. rewrite <- (map_id from) at 3. apply map_ext_in. intros t Ht. unfold carried at 1. destruct (find _ (map (carried from) to)) as [f|] eqn:E; [|reflexivity].
    apply find_some in E. destruct E as [Hf E]. apply N.eqb_eq in E. apply in_map_iff in Hf. destruct Hf as (y & <- & Hy). rewrite (proj2 (carried_key y Hy)) in E.
    assert (X : carried from y = copy_one t y).
    { unfold carried. destruct (find (fun f => (x_id f =? x_id y)%N) from) as [f|] eqn:E2.
      - apply find_some in E2. destruct E2 as [Hf E2]. apply N.eqb_eq in E2. assert (f = t); [|subst; reflexivity]. rewrite E in E2.
        clear -ND Hf Ht E2. induction from as [|x l IH]; [contradiction|]. cbn [map] in ND. inversion ND as [|? ? NI ND']; subst. destruct Ht as [->|Ht], Hf as [->|Hf]; auto.
        + destruct NI. rewrite <- E2. apply in_map, Hf.
        + destruct NI. rewrite E2. apply in_map, Ht.
      - exfalso. pose proof (find_none _ _ E2 t Ht) as Q. cbn beta in Q. apply N.eqb_neq in Q. congruence. }
    rewrite X. unfold copy_one. cbn [x_id x_hits x_route x_meta with_flags r_flags]. destruct t as [i h r m]. cbn. rewrite with_flags_same. reflexivity.
  Qed.
End Carry.
