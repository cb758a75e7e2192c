(** C81: in a clone, every route refers to the clone's own event, of the same label as the original's. *)
Require Import ZArith List Bool Sorted Lia PeanoNat.
From Verif Require Import EventClone EventCloneSpec EventCloneProofs EventCloneProps EventCloneNames EventCloneNamesProps RouteRefs RouteRefsSpec.
Import ListNotations.
Open Scope Z_scope.

Lemma routes_ok dest : forall rs s s' out r, routes_clone s dest rs = (s', out, r) ->
  acts s' = acts s /\ evs s' = evs s /\ next s' = next s /\ (r = 0 \/ r = ITEM_NOT_FOUND) /\
  (r = 0 -> parents s out = parents s rs /\ (forall y, In (Some y) out -> In y dest) /\ forall x, refs s' x = refs s x + Z.of_nat (children out x)).
Proof.
  induction rs as [|[e|] rs IH]; intros s s' out r; cbn [routes_clone].
  - intros [= <- <- <-]. split; [reflexivity|]. split; [reflexivity|]. split; [reflexivity|]. split; [left; reflexivity|]. intros _. split; [reflexivity|]. split; [intros y []|]. intros x. cbn. lia.
  - destruct (table_get _ dest _) as [y|] eqn:G.
    + apply table_get_some in G. destruct G as [G1 G2]. destruct (routes_clone (add_ref s y 1) dest rs) as [[s1 o] r1] eqn:R. intros [= <- <- <-]. destruct (IH _ _ _ _ R) as (A & V & N & C & K).
      split; [exact A|]. split; [exact V|]. split; [exact N|]. split; [exact C|]. intros E. destruct (K E) as (K1 & K2 & K3). split; [|split].
      * unfold parents in *. cbn [map option_map]. cbn [add_ref evs] in K1. rewrite K1, G2. reflexivity.
      * intros z [[= ->]|Hz]; [exact G1|apply K2; exact Hz].
      * intros x. rewrite K3. unfold add_ref, upd, children. cbn [refs filter]. rewrite (Nat.eqb_sym y x). destruct (Nat.eqb_spec x y) as [->|]; cbn [length]; lia.
    + intros [= <- <- <-]. split; [reflexivity|]. split; [reflexivity|]. split; [reflexivity|]. split; [right; reflexivity|discriminate].
  - destruct (routes_clone s dest rs) as [[s1 o] r1] eqn:R. intros [= <- <- <-]. destruct (IH _ _ _ _ R) as (A & V & N & C & K). split; [exact A|]. split; [exact V|]. split; [exact N|]. split; [exact C|].
    intros E. destruct (K E) as (K1 & K2 & K3). split; [unfold parents in *; cbn [map option_map]; rewrite K1; reflexivity|]. split; [intros z [[=]|Hz]; apply K2; exact Hz|]. exact K3.
Qed.
Lemma routes_go dest : forall rs s, (forall e, In (Some e) rs -> table_get (fun y => e_label (evs s y)) dest (e_label (evs s e)) <> None) -> snd (routes_clone s dest rs) = 0.
Proof.
  induction rs as [|[e|] rs IH]; intros s H; cbn [routes_clone]; [reflexivity| |].
  - assert (Q := H e (or_introl eq_refl)). destruct (table_get _ dest _) as [y|]; [|contradiction]. specialize (IH (add_ref s y 1) (fun e' He' => H e' (or_intror He'))). destruct (routes_clone _ dest rs) as [[s1 o] r1]. exact IH.
  - specialize (IH s (fun e' He' => H e' (or_intror He'))). destruct (routes_clone _ dest rs) as [[s1 o] r1]. exact IH.
Qed.
(** what clone leaves alone, and the order of its tables *)
Lemma clone_keeps s c s' d : allocated s c -> existing s c -> clone s c = (s', d, 0) ->
  (forall x, (x < next s)%nat -> evs s' x = evs s x) /\ map (fun y => e_label (evs s' y)) (events d) = map (fun e => e_label (evs s e)) (events c) /\
  (forall y, In y (events d) -> (next s <= y)%nat).
Proof.
  intros Al Ex H. split; [|split].
  - destruct Al as [Al1 Al2]. unfold clone in H.
    destruct (actions_clone_spec (actions c) s Al1) as (s1 & R1 & N1 & V1 & F1 & Old1 & New1 & Rest1). rewrite R1 in H.
    destruct (events_clone_spec (events c) s1 ltac:(intros e He; specialize (Al2 e He); lia)) as (s2 & R2 & N2 & A2 & F2 & Old2 & New2). rewrite R2 in H.
    set (da := seq (next s) (length (actions c))) in *. set (de := seq (next s1) (length (events c))) in *. set (d0 := Context da de) in *.
    destruct (table_clone_map s2 d0 (events c) de) as [s3 r3] eqn:M. injection H as <- <- ->.
    assert (Ve : forall x, (x < next s)%nat -> evs s2 x = evs s x) by (intros x Hx; destruct (Old2 x ltac:(lia)) as [-> _]; rewrite V1; reflexivity).
    destruct (map_ok d0 (events c) de s2 s3 M) as (F & A & N & V & Lb).
    + apply seq_NoDup.
    + intros x Hx Hx'. apply in_seq in Hx'. specialize (Al2 x Hx). lia.
    + eapply Forall2_imp; [|exact F2]. intros e n He _ E. rewrite E. unfold bare. cbn [e_lists e_aux]. rewrite V1, (Ve e (Al2 e He)). split; reflexivity.
    + intros x Hx. rewrite V; [apply Ve; exact Hx|]. intros Q. apply in_seq in Q. lia.
  - destruct (C78_names s c s' d 0 Al Ex H) as [K _]. destruct (K eq_refl) as (Nm & _ & _). apply (f_equal (map (fun t => fst (fst t)))) in Nm. rewrite !map_map in Nm. exact Nm.
  - destruct Al as [Al1 Al2]. unfold clone in H.
    destruct (actions_clone_spec (actions c) s Al1) as (s1 & R1 & N1 & _). rewrite R1 in H.
    destruct (events_clone_spec (events c) s1 ltac:(intros e He; specialize (Al2 e He); lia)) as (s2 & R2 & _). rewrite R2 in H.
    destruct (table_clone_map _ _ _ _) as [s3 r3]. injection H as <- <- ->. cbn [events]. intros y Hy. apply in_seq in Hy. lia.
Qed.

(** A clone that succeeds: each route has a parent event exactly if the original has one, of the same label, and it is one of the clone's
    events, not one of the original's; the reference counts are those of the context without its routes, and one for each route. *)
Theorem C81_routes : forall s c rs s' d out r, allocated s c -> existing s c -> parents_exist s rs -> clone_with_routes s c rs = (s', d, out, r) ->
  (r = 0 \/ r = ITEM_NOT_FOUND) /\
  (r = 0 -> parents s' out = parents s rs /\ (forall y, In (Some y) out -> In y (events d) /\ (next s <= y)%nat) /\
     (forall x, refs s' x = refs (fst (fst (clone s c))) x + Z.of_nat (children out x)) /\
     map (named s') (events d) = map (named s) (events c) /\ closed s' d).
Proof.
  intros s c rs s' d out r Al Ex Pe H. unfold clone_with_routes in H. destruct (clone s c) as [[s1 d1] r1] eqn:C. destruct (C78_names s c s1 d1 r1 Al Ex C) as [K [-> | ->]]; cbn [Z.ltb Z.compare ITEM_NOT_FOUND] in H.
  2: { injection H as <- <- <- <-. split; [right; reflexivity|discriminate]. }
  destruct (routes_clone s1 (events d1) rs) as [[s2 o] r2] eqn:R. injection H as <- <- <- <-. destruct (routes_ok _ _ _ _ _ _ R) as (A & V & N & Co & Q). split; [exact Co|]. intros E. destruct (Q E) as (Q1 & Q2 & Q3).
  destruct (K eq_refl) as (Nm & _ & Cl). destruct (clone_keeps s c s1 d1 Al Ex C) as (Ke & _ & New). split; [|split; [|split; [|split]]].
  - unfold parents in *. rewrite V, Q1. apply map_ext_in. intros [e|] He; [|reflexivity]. cbn. rewrite Ke by exact (Pe e He). reflexivity.
  - intros y Hy. split; [apply Q2; exact Hy|]. apply New. apply Q2. exact Hy.
  - exact Q3.
  - rewrite <- Nm. unfold named. rewrite A, V. reflexivity.
  - unfold closed. rewrite V. exact Cl.
Qed.
(** And it succeeds exactly if the names of the events and the parent events of the routes are all known. *)
Theorem C81_success : forall s c rs, allocated s c -> ordered s c -> existing s c -> parents_exist s rs ->
  (snd (clone_with_routes s c rs) = 0 <-> nameable s c /\ parents_known s c rs).
Proof.
  intros s c rs Al Or Ex Pe. rewrite <- (C78_success s c Al Or Ex). unfold clone_with_routes. destruct (clone s c) as [[s1 d1] r1] eqn:C. cbn [snd].
  destruct (C78_names s c s1 d1 r1 Al Ex C) as [K [-> | ->]]; cbn [Z.ltb Z.compare ITEM_NOT_FOUND]; [|split; [discriminate|intros [X _]; discriminate]].
  destruct (clone_keeps s c s1 d1 Al Ex C) as (Ke & Lb & _). split.
  - intros H. split; [reflexivity|]. destruct (routes_clone s1 (events d1) rs) as [[s2 o] r2] eqn:R. cbn [snd] in H. subst r2. destruct (routes_ok _ _ _ _ _ _ R) as (_ & _ & _ & _ & Q). destruct (Q eq_refl) as (Q1 & Q2 & _).
    intros e He. assert (I : In (Some (e_label (evs s1 e))) (parents s1 o)) by (rewrite Q1; apply (in_map (option_map (fun e => e_label (evs s1 e))) rs (Some e)); exact He).
    apply in_map_iff in I. destruct I as ([y|] & E & Hy); [|discriminate]. cbn in E. injection E as E. specialize (Q2 y Hy).
    assert (I : In (e_label (evs s1 y)) (map (fun e => e_label (evs s e)) (events c))) by (rewrite <- Lb; apply (in_map (fun y => e_label (evs s1 y))); exact Q2).
    apply in_map_iff in I. destruct I as (z & Ez & Hz). exists z. split; [exact Hz|]. rewrite Ez, E, (Ke e (Pe e He)). reflexivity.
  - intros [_ Kn]. assert (G : snd (routes_clone s1 (events d1) rs) = 0); [|destruct (routes_clone s1 (events d1) rs) as [[? ?] ?]; exact G].
    apply routes_go. intros e He. destruct (Kn e He) as (z & Hz & Ez).
    assert (I : In (e_label (evs s z)) (map (fun y => e_label (evs s1 y)) (events d1))) by (rewrite Lb; apply (in_map (fun e => e_label (evs s e))); exact Hz).
    apply in_map_iff in I. destruct I as (y & Ey & Hy).
    apply (table_get_found (fun y => e_label (evs s1 y)) (events d1) y); [|exact Hy|rewrite (Ke e (Pe e He)); congruence].
    destruct Or as [_ O2]. clear - O2 Lb. assert (F : Forall2 (fun a b => e_label (evs s1 b) = e_label (evs s a)) (events c) (events d1)).
    { revert Lb. generalize (events c) as l. induction (events d1) as [|b lb IH]; intros [|a l]; cbn [map]; intros E; try discriminate; constructor; injection E as E1 E2; [exact E1|apply IH; exact E2]. }
    exact (sorted_transport (fun a => e_label (evs s a)) (fun b => e_label (evs s1 b)) (fun x y => key_cmp x y < 0) _ _ F O2).
Qed.
(** The two events of the example, with four routes. *)
Example C81_case : parents_exist example_store [Some 3; None; Some 4; Some 3]%nat /\ parents_known example_store example_context [Some 3; None; Some 4; Some 3]%nat /\
  let '(s, d, out, r) := clone_with_routes example_store example_context [Some 3; None; Some 4; Some 3]%nat in
  r = 0 /\ out = [Some 8; None; Some 9; Some 8]%nat /\ map (refs s) (seq 5 5) = [4; 3; 3; 4; 2].
Proof.
  split; [intros e [[= <-]|[[=]|[[= <-]|[[= <-]|[]]]]]; cbn; lia|].
  split; [intros e [[= <-]|[[=]|[[= <-]|[[= <-]|[]]]]]; [exists 3%nat|exists 4%nat|exists 3%nat]; (split; [cbn; tauto|reflexivity])|]. vm_compute. repeat split.
Qed.
Print Assumptions C81_routes.
Print Assumptions C81_success.
