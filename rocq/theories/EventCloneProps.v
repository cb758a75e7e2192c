(** C78: in a clone, every event refers to the clone's own objects, the same ones as in the original. *)
Require Import ZArith List Bool Sorted Lia PeanoNat.
From Verif Require Import EventClone EventCloneSpec EventCloneProofs.
Import ListNotations.
Open Scope Z_scope.

Lemma sorted_transport {A} (f f' : nat -> A) (R : A -> A -> Prop) t t' : Forall2 (fun a b => f' b = f a) t t' ->
  StronglySorted (fun x y => R (f x) (f y)) t -> StronglySorted (fun x y => R (f' x) (f' y)) t'.
Proof.
  intros F S. revert t' F. induction S as [|x t S IH Fx]; intros t' F; inversion F as [|? y ? t'' E F']; subst; constructor; [apply IH; exact F'|].
  rewrite E. clear - Fx F'. induction F' as [|a b ta tb e F' IHF]; [constructor|]. inversion Fx; subst. constructor; [rewrite e; assumption|apply IHF; assumption].
Qed.
Lemma Forall2_in_l {A B} (R : A -> B -> Prop) l l' a : Forall2 R l l' -> In a l -> exists b, In b l' /\ R a b.
Proof. induction 1 as [|x y l l' r F IH]; [intros []|]. intros [->|H]; [exists y; split; [left; reflexivity|exact r]|]. destruct (IH H) as (b & I & r'). exists b. split; [right; exact I|exact r']. Qed.
Lemma Forall2_in_r {A B} (R : A -> B -> Prop) l l' b : Forall2 R l l' -> In b l' -> exists a, In a l /\ R a b.
Proof. induction 1 as [|x y l l' r F IH]; [intros []|]. intros [->|H]; [exists x; split; [left; reflexivity|exact r]|]. destruct (IH H) as (a & I & r'). exists a. split; [right; exact I|exact r']. Qed.
Lemma Forall2_map {A B C} (f : A -> C) (g : B -> C) l l' : Forall2 (fun a b => f a = g b) l l' -> map f l = map g l'.
Proof. induction 1 as [|x y l l' E F IH]; [reflexivity|]. cbn. rewrite E, IH. reflexivity. Qed.
Lemma Forall2_imp {A B} (R R' : A -> B -> Prop) l l' : (forall a b, In a l -> In b l' -> R a b -> R' a b) -> Forall2 R l l' -> Forall2 R' l l'.
Proof. intros H F. induction F as [|x y l l' r F IH]; constructor; [apply H; [left; reflexivity|left; reflexivity|exact r]|]. apply IH. intros a b Ha Hb. apply H; right; assumption. Qed.
Lemma Forall2_both {A B} (R R' : A -> B -> Prop) l l' : Forall2 R l l' -> Forall2 R' l l' -> Forall2 (fun a b => R a b /\ R' a b) l l'.
Proof. induction 1 as [|x y l l' r F IH]; intros F'; [constructor|]. inversion F'; subst. constructor; [split; assumption|]. apply IH. assumption. Qed.
Lemma no_count l x : ~ In x l -> Zc l x = 0.
Proof. intros H. unfold Zc. rewrite (proj1 (count_occ_not_In Nat.eq_dec l x) H). reflexivity. Qed.

(** A context whose events refer only to objects in its tables: cloning succeeds; the clone looks the same, event by event and action by
    action; every reference in it leads to an object of the clone, all of them new; nothing of the original has changed, not even a
    reference count; and each count in the clone is the number of the references there are, and one for the table. *)
Theorem C78_clone_partial s c : allocated s c -> ordered s c -> closed s c ->
  exists s' d, clone s c = (s', d, 0) /\ seen s' d = seen s c /\ closed s' d /\
    (forall x, In x (actions d) \/ In x (events d) -> (next s <= x < next s')%nat) /\
    (forall x, (x < next s)%nat -> acts s' x = acts s x /\ evs s' x = evs s x /\ refs s' x = refs s x) /\
    (forall a, In a (actions d) -> refs s' a = 1 + Z.of_nat (action_uses s' d a)) /\
    (forall e, In e (events d) -> refs s' e = 1 + Z.of_nat (aux_uses s' d e)).
Proof.
  intros [Al1 Al2] [O1 O2] Cl. unfold clone.
  destruct (actions_clone_spec (actions c) s Al1) as (s1 & R1 & N1 & V1 & F1 & Old1 & New1 & Rest1). rewrite R1.
  destruct (events_clone_spec (events c) s1 ltac:(intros e He; specialize (Al2 e He); lia)) as (s2 & R2 & N2 & A2 & F2 & Old2 & New2). rewrite R2.
  set (da := seq (next s) (length (actions c))) in *. set (de := seq (next s1) (length (events c))) in *. set (d := Context da de).
  assert (Lt : forall e, In e (events c) -> evs s2 e = evs s e) by (intros e He; specialize (Al2 e He); destruct (Old2 e ltac:(lia)) as [-> _]; rewrite V1; reflexivity).
  assert (La : forall a, In a (actions c) -> acts s2 a = acts s a) by (intros a Ha; specialize (Al1 a Ha); rewrite A2; destruct (Old1 a ltac:(lia)) as [-> _]; reflexivity).
  assert (Sa : StronglySorted (fun x y => key_cmp (a_label (acts s2 x)) (a_label (acts s2 y)) < 0) da).
  { rewrite A2. eapply (sorted_transport (fun a => a_label (acts s a)) (fun a => a_label (acts s1 a)) (fun x y => key_cmp x y < 0)); [|exact O1].
    eapply Forall2_imp; [|exact F1]. intros a b _ _ E. cbn. rewrite E. reflexivity. }
  assert (Se : StronglySorted (fun x y => key_cmp (e_label (evs s2 x)) (e_label (evs s2 y)) < 0) de).
  { eapply (sorted_transport (fun a => e_label (evs s a)) (fun a => e_label (evs s2 a)) (fun x y => key_cmp x y < 0)); [|exact O2].
    eapply Forall2_imp; [|exact F2]. intros a b _ _ E. cbn. rewrite E. unfold bare. cbn. rewrite V1. reflexivity. }
  destruct (map_spec d (events c) de s2) as (s3 & R3 & Rs & A3 & N3 & V3 & Lb3 & C3).
  - unfold de. rewrite seq_length. reflexivity.
  - apply seq_NoDup.
  - intros x Hx Hx'. apply in_seq in Hx'. specialize (Al2 x Hx). lia.
  - intros e He. destruct (Cl e He) as [Cl1 Cl2]. split; rewrite (Lt e He).
    + intros l a Hl Ha. specialize (Cl1 l a Hl Ha). destruct (Forall2_in_l _ _ _ a F1 Cl1) as (b & Ib & E). exists b. split; [exact Ib|]. rewrite (La a Cl1). split; [|rewrite A2; exact E].
      rewrite <- E, <- A2. apply (table_get_in (fun x => a_label (acts s2 x))); assumption.
    + intros x Hx. specialize (Cl2 x Hx). destruct (Forall2_in_l _ _ _ x F2 Cl2) as (y & Iy & E). exists y. split; [exact Iy|]. rewrite (Lt x Cl2).
      assert (E' : e_label (evs s2 y) = e_label (evs s x)) by (rewrite E; unfold bare; cbn; rewrite V1; reflexivity). split; [|exact E'].
      rewrite <- E'. apply (table_get_in (fun x => e_label (evs s2 x))); assumption.
  - eapply Forall2_imp; [|exact F2]. intros e n He _ E. rewrite E, (Lt e He). unfold bare. cbn. rewrite V1. split; reflexivity.
  - rewrite R3. exists s3, d. split; [reflexivity|].
    assert (Seen : forall e n, In e (events c) -> resolved s2 s3 d e n -> evs s2 n = bare s1 e -> seen_event s3 n = seen_event s e).
    { intros e n He [RL RA] B. unfold seen_event. rewrite Lb3, B. unfold bare. cbn [e_label]. rewrite V1, A3. f_equal; [f_equal|].
      - symmetry. apply Forall2_map. rewrite (Lt e He) in RL. eapply Forall2_imp; [|exact RL]. intros l l' Hl _ F. apply Forall2_map. eapply Forall2_imp; [|exact F].
        intros a b Ha _ [_ Eab]. rewrite Eab. symmetry. apply La. destruct (Cl e He) as [Cl1 _]. exact (Cl1 l a Hl Ha).
      - rewrite (Lt e He) in RA. destruct (e_aux (evs s e)) as [x|] eqn:Ex, (e_aux (evs s3 n)) as [y|]; try contradiction; [|reflexivity]. cbn. rewrite Lb3. destruct RA as [_ ->]. rewrite Lt; [reflexivity|]. destruct (Cl e He) as [_ Cl2]. apply Cl2. exact Ex. }
    split; [|split; [|split; [|split; [|split]]]].
    + unfold seen. f_equal.
      * symmetry. apply Forall2_map. rewrite A3, A2. eapply Forall2_imp; [|exact F1]. intros a b _ _ E. symmetry. exact E.
      * symmetry. apply Forall2_map. assert (B : Forall2 (fun e n => resolved s2 s3 d e n /\ evs s2 n = bare s1 e) (events c) de).
        { apply Forall2_both; assumption. }
        eapply Forall2_imp; [|exact B]. intros e n He _ [r b]. symmetry. exact (Seen e n He r b).
    + intros n Hn. destruct (Forall2_in_r _ _ _ n Rs Hn) as (e & He & [RL RA]). split.
      * intros l a Hl Ha. destruct (Forall2_in_r _ _ _ l RL Hl) as (l0 & _ & F). destruct (Forall2_in_r _ _ _ a F Ha) as (a0 & _ & Ia & _). exact Ia.
      * intros x Hx. rewrite Hx in RA. destruct (e_aux (evs s2 e)); [apply RA|contradiction].
    + intros x [Hx|Hx]; unfold d, da, de in Hx; cbn [actions events] in Hx; apply in_seq in Hx; lia.
    + intros x Hx. rewrite A3, A2. destruct (Old1 x Hx) as [-> E1]. destruct (Old2 x ltac:(lia)) as [E2 E3]. split; [reflexivity|]. split.
      * rewrite V3; [rewrite E2, V1; reflexivity|]. intros H. apply in_seq in H. lia.
      * rewrite C3, E3, E1. replace (map (fun n => use s3 n x) de) with (map (fun _ : nat => 0) de); [clear; induction de; cbn in *; lia|].
        apply map_ext_in. intros n Hn. destruct (Forall2_in_r _ _ _ n Rs Hn) as (e & He & [RL RA]). unfold use. rewrite no_count.
        -- destruct (e_aux (evs s3 n)) as [y|]; [|reflexivity]. destruct (Nat.eqb_spec x y) as [->|]; [|reflexivity]. destruct (e_aux (evs s2 e)); [|contradiction]. destruct RA as [Iy _]. cbn [d events] in Iy. apply in_seq in Iy. lia.
        -- intros H. apply in_concat in H as (l & Hl & Ha). destruct (Forall2_in_r _ _ _ l RL Hl) as (l0 & _ & F). destruct (Forall2_in_r _ _ _ x F Ha) as (a0 & _ & Ia & _). cbn [d actions] in Ia. apply in_seq in Ia. lia.
    + intros a Ha. cbn [d actions] in Ha. pose proof Ha as Ha'. apply in_seq in Ha'. rewrite C3. destruct (Old2 a ltac:(lia)) as [_ ->]. rewrite New1 by lia. f_equal. unfold action_uses. cbn [d events].
      assert (Q : forall n, In n de -> use s3 n a = Z.of_nat (cnt (concat (e_lists (evs s3 n))) a)).
      { intros n Hn. destruct (Forall2_in_r _ _ _ n Rs Hn) as (e & He & [RL RA]). unfold use, Zc. destruct (e_aux (evs s3 n)) as [y|]; [|lia]. destruct (Nat.eqb_spec a y) as [->|]; [|lia]. destruct (e_aux (evs s2 e)); [|contradiction]. destruct RA as [Iy _]. cbn [d events] in Iy. apply in_seq in Iy. lia. }
      clear - Q. induction de as [|n l IH]; [reflexivity|]. cbn [map fold_right list_sum] in *. rewrite Q by (left; reflexivity). rewrite IH by (intros m Hm; apply Q; right; exact Hm). change (list_sum (?x :: ?l)) with (x + list_sum l)%nat. unfold list_sum. cbn [fold_right]. lia.
    + intros e He. cbn [d events] in He. pose proof He as He'. apply in_seq in He'. rewrite C3. rewrite New2 by lia. f_equal. unfold aux_uses. cbn [d events].
      assert (Q : forall n, In n de -> use s3 n e = Z.of_nat (match e_aux (evs s3 n) with Some y => if Nat.eqb y e then 1 else 0 | None => 0 end)%nat).
      { intros n Hn. destruct (Forall2_in_r _ _ _ n Rs Hn) as (e0 & He0 & [RL RA]). unfold use. rewrite no_count.
        - destruct (e_aux (evs s3 n)) as [y|]; [|reflexivity]. rewrite Nat.eqb_sym. destruct (Nat.eqb y e); reflexivity.
        - intros H. apply in_concat in H as (l & Hl & Ha). destruct (Forall2_in_r _ _ _ l RL Hl) as (l0 & _ & F). destruct (Forall2_in_r _ _ _ e F Ha) as (a0 & _ & Ia & _). cbn [d actions] in Ia. apply in_seq in Ia. lia. }
      clear - Q. induction de as [|n l IH]; [reflexivity|]. cbn [map fold_right]. rewrite Q by (left; reflexivity). rewrite IH by (intros m Hm; apply Q; right; exact Hm). unfold list_sum. cbn [fold_right]. lia.
Qed.
Print Assumptions C78_clone_partial.

(** Three actions and two events, one the auxiliary event of the other, sharing an action. *)
Definition log_ : list Z := [108]. Definition mail : list Z := [109]. Definition stop : list Z := [115].
Definition web : list Z := [119]. Definition dns : list Z := [100].
Definition example_store : store :=
  Store (fun x => match x with 0%nat => Action log_ 1000 | 1%nat => Action mail 2000 | 2%nat => Action stop 3000 | _ => Action [] 0 end)
        (fun x => match x with 3 => Event dns [[1; 0]; []; [2]; []; []; []]%nat None | 4 => Event web [[]; [0]; []; []; []; [1; 2; 0]]%nat (Some 3%nat) | _ => Event [] [] None end%nat)
        (fun x => match x with 0 => 4%Z | 1 => 3%Z | 2 => 3%Z | 3 => 2%Z | 4 => 1%Z | _ => 0%Z end%nat) 5.
Definition example_context : context := Context [0; 1; 2]%nat [3; 4]%nat.
Example C78_hyps : allocated example_store example_context /\ ordered example_store example_context /\ closed example_store example_context.
Proof.
  split; [|split].
  - split; intros x Hx; cbn in *; lia.
  - split; repeat constructor.
  - intros e [<-|[<-|[]]]; cbn; split; try discriminate.
    + intros l a Hl Ha. repeat (destruct Hl as [<-|Hl]; [cbn in Ha; lia|]). destruct Hl.
    + intros l a Hl Ha. repeat (destruct Hl as [<-|Hl]; [cbn in Ha; lia|]). destruct Hl.
    + intros x [= <-]. left. reflexivity.
Qed.
Example C78_cloned : let '(s, d, r) := clone example_store example_context in
  r = 0 /\ actions d = [5; 6; 7]%nat /\ events d = [8; 9]%nat /\ e_lists (evs s 9%nat) = [[]; [5]; []; []; []; [6; 7; 5]]%nat /\ e_aux (evs s 9%nat) = Some 8%nat /\
  map (refs s) (seq 5 5) = [4; 3; 3; 2; 1].
Proof. vm_compute. repeat split; reflexivity. Qed.

(** wolfsentry_action_delete succeeds for an action that events refer to, and they go on dispatching it.  From then on the context cannot
    be cloned, and so no configuration can be loaded into it. *)
Theorem C78_deleted_refuted : allocated example_store example_context /\ ordered example_store example_context /\ closed example_store example_context /\
  exists s c, action_delete example_store example_context mail = (s, c, 0) /\ seen_event s 4%nat = seen_event example_store 4%nat /\
  exists s' d, clone s c = (s', d, ITEM_NOT_FOUND).
Proof.
  split; [apply C78_hyps|]. split; [apply C78_hyps|]. split; [apply C78_hyps|]. eexists. eexists. split; [vm_compute; reflexivity|]. split; [vm_compute; reflexivity|].
  eexists. eexists. vm_compute. reflexivity.
Qed.
Print Assumptions C78_deleted_refuted.
(** If another action is then inserted under the same label, the original's events go on calling the old handler, and the clone's call
    the new one: the clone is not the same. *)
Theorem C78_replaced_refuted : exists s1 c1 s2 c2, action_delete example_store example_context mail = (s1, c1, 0) /\ action_insert s1 c1 mail 9000 = (s2, c2, 0) /\
  exists s3 d, clone s2 c2 = (s3, d, 0) /\ seen s3 d <> seen s2 c2 /\
  nth 1 (snd (seen s2 c2)) ([], [], None) = (web, [[]; [Action log_ 1000]; []; []; []; [Action mail 2000; Action stop 3000; Action log_ 1000]], Some dns) /\
  nth 1 (snd (seen s3 d)) ([], [], None) = (web, [[]; [Action log_ 1000]; []; []; []; [Action mail 9000; Action stop 3000; Action log_ 1000]], Some dns).
Proof.
  do 4 eexists. split; [vm_compute; reflexivity|]. split; [vm_compute; reflexivity|]. do 2 eexists. split; [vm_compute; reflexivity|].
  split; [vm_compute; discriminate|]. split; vm_compute; reflexivity.
Qed.
Print Assumptions C78_replaced_refuted.
