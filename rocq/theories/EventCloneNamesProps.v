(** C78, when actions or events that are referred to may have been deleted. *)
Require Import ZArith List Bool Sorted Lia PeanoNat.
From Verif Require Import EventClone EventCloneSpec EventCloneProofs EventCloneProps EventCloneNames.
Import ListNotations.
Open Scope Z_scope.

Lemma clone_code_map dest : forall srcs news s, length srcs = length news -> snd (table_clone_map s dest srcs news) = 0 \/ snd (table_clone_map s dest srcs news) = ITEM_NOT_FOUND.
Proof.
  induction srcs as [|e srcs IH]; intros [|n news] s L; cbn [table_clone_map length] in *; try lia; [left; reflexivity|]. assert (C := resolve_code s dest e n). destruct (event_clone_resolve s dest e n) as [s1 r]. cbn [snd] in C.
  destruct C as [->| ->]; cbn; [apply IH; lia|right; reflexivity].
Qed.
(** A clone that succeeds has the same events, each naming the same actions and the same auxiliary event, all of them objects of the clone;
    and it fails only with ITEM_NOT_FOUND. *)
Theorem C78_names : forall s c s' d r, allocated s c -> existing s c -> clone s c = (s', d, r) ->
  (r = 0 -> map (named s') (events d) = map (named s) (events c) /\ map (acts s') (actions d) = map (acts s) (actions c) /\ closed s' d) /\ (r = 0 \/ r = ITEM_NOT_FOUND).
Proof.
  intros s c s' d r [Al1 Al2] Ex H. unfold clone in H.
  destruct (actions_clone_spec (actions c) s Al1) as (s1 & R1 & N1 & V1 & F1 & Old1 & New1 & Rest1). rewrite R1 in H.
  destruct (events_clone_spec (events c) s1 ltac:(intros e He; specialize (Al2 e He); lia)) as (s2 & R2 & N2 & A2 & F2 & Old2 & New2). rewrite R2 in H.
  set (da := seq (next s) (length (actions c))) in *. set (de := seq (next s1) (length (events c))) in *. set (d0 := Context da de) in *.
  destruct (table_clone_map s2 d0 (events c) de) as [s3 r3] eqn:M. injection H as <- <- <-.
  split; [|assert (C := clone_code_map d0 (events c) de s2 ltac:(unfold de; rewrite seq_length; reflexivity)); rewrite M in C; exact C].
  intros ->.
  assert (Ve : forall x, (x < next s)%nat -> evs s2 x = evs s x) by (intros x Hx; destruct (Old2 x ltac:(lia)) as [-> _]; rewrite V1; reflexivity).
  assert (Va : forall x, (x < next s)%nat -> acts s2 x = acts s x) by (intros x Hx; rewrite A2; destruct (Old1 x Hx) as [-> _]; reflexivity).
  destruct (map_ok d0 (events c) de s2 s3 M) as (F & A & N & V & Lb).
  - apply seq_NoDup.
  - intros x Hx Hx'. apply in_seq in Hx'. specialize (Al2 x Hx). lia.
  - eapply Forall2_imp; [|exact F2]. intros e n He _ E. rewrite E. unfold bare. cbn [e_lists e_aux]. rewrite V1, (Ve e (Al2 e He)). split; reflexivity.
  - split; [|split].
    + symmetry. cbn [d0 events]. apply Forall2_map. eapply Forall2_imp; [|exact (Forall2_both _ _ _ _ F F2)]. intros e n He _ [(L1 & L2 & L3) B]. destruct (Ex e He) as [Ex1 Ex2]. unfold named. rewrite L1, B. unfold bare. cbn [e_label]. rewrite V1.
      rewrite (Ve e (Al2 e He)) in L2, L3. f_equal; [f_equal|].
      * apply Forall2_map. eapply Forall2_imp; [|exact L2]. intros l l' Hl _ Q. apply Forall2_map. eapply Forall2_imp; [|exact Q]. intros a b Ha _ [_ E]. rewrite A, E, Va by exact (Ex1 l a Hl Ha). reflexivity.
      * destruct (e_aux (evs s e)) as [x|] eqn:X, (e_aux (evs s3 n)) as [y|]; try contradiction; [|reflexivity]. cbn. rewrite Lb. destruct L3 as [_ ->]. rewrite Ve by exact (Ex2 x eq_refl). reflexivity.
    + symmetry. cbn [d0 actions]. apply Forall2_map. rewrite A, A2. eapply Forall2_imp; [|exact F1]. intros a b _ _ E. symmetry. exact E.
    + intros n Hn. cbn [d0 events] in Hn. destruct (Forall2_in_r _ _ _ n F Hn) as (e & He & (_ & RL & RA)). split.
      * intros l a Hl Ha. destruct (Forall2_in_r _ _ _ l RL Hl) as (l0 & _ & Q). destruct (Forall2_in_r _ _ _ a Q Ha) as (a0 & _ & Ia & _). exact Ia.
      * intros x Hx. rewrite Hx in RA. destruct (e_aux (evs s2 e)); [apply RA|contradiction].
Qed.
(** A clone succeeds only if every name is still that of an object in the tables. *)
Theorem C78_deleted : forall s c s' d, allocated s c -> existing s c -> clone s c = (s', d, 0) -> nameable s c.
Proof.
  intros s c s' d Al Ex H. assert (Lab : map (fun n => e_label (evs s' n)) (events d) = map (fun e => e_label (evs s e)) (events c)).
  { destruct (C78_names s c s' d 0 Al Ex H) as [K _]. destruct (K eq_refl) as (Nm & _ & _). apply (f_equal (map (fun t => fst (fst t)))) in Nm. rewrite !map_map in Nm. exact Nm. }
  destruct (C78_names s c s' d 0 Al Ex H) as [K _]. destruct (K eq_refl) as (Nm & Ac & Cl). intros e He.
  assert (I : In (named s e) (map (named s') (events d))) by (rewrite Nm; apply in_map; exact He). apply in_map_iff in I. destruct I as (n & E & Hn). destruct (Cl n Hn) as [Cl1 Cl2].
  injection E as E1 E2 E3. split.
  - intros l a Hl Ha. assert (I : In (map (fun a => a_label (acts s a)) l) (map (map (fun a => a_label (acts s' a))) (e_lists (evs s' n)))) by (rewrite E2; apply in_map; exact Hl).
    apply in_map_iff in I. destruct I as (l' & El & Hl'). assert (I : In (a_label (acts s a)) (map (fun a => a_label (acts s' a)) l')) by (rewrite El; apply (in_map (fun a => a_label (acts s a))); exact Ha).
    apply in_map_iff in I. destruct I as (a' & Ea & Ha'). specialize (Cl1 l' a' Hl' Ha'). assert (I : In (acts s' a') (map (acts s) (actions c))) by (rewrite <- Ac; apply in_map; exact Cl1).
    apply in_map_iff in I. destruct I as (b & Eb & Hb). exists b. split; [exact Hb|]. rewrite Eb. exact Ea.
  - intros x Hx. rewrite Hx in E3. destruct (e_aux (evs s' n)) as [y|] eqn:Y; [|discriminate]. cbn in E3. injection E3 as E3. specialize (Cl2 y eq_refl).
    assert (I : In (e_label (evs s' y)) (map (fun e => e_label (evs s e)) (events c))) by (rewrite <- Lab; apply (in_map (fun n => e_label (evs s' n))); exact Cl2).
    apply in_map_iff in I. destruct I as (z & Ez & Hz). exists z. split; [exact Hz|]. rewrite Ez. exact E3.
Qed.

(** The context after the deletion of an action in use, and after the insertion of another one under the same label. *)
Example C78_names_case : exists s1 c1 s2 c2, action_delete example_store example_context mail = (s1, c1, 0) /\ action_insert s1 c1 mail 9000 = (s2, c2, 0) /\
  allocated s2 c2 /\ existing s2 c2 /\ ~ closed s2 c2 /\ snd (clone s1 c1) = ITEM_NOT_FOUND /\ snd (clone s2 c2) = 0.
Proof.
  do 4 eexists. split; [vm_compute; reflexivity|]. split; [vm_compute; reflexivity|]. split; [split; intros x Hx; cbn in *; lia|]. split; [|split; [|split; vm_compute; reflexivity]].
  - intros e [<-|[<-|[]]]; cbn; split; try discriminate; try (intros x [= <-]; lia); intros l a Hl Ha; repeat (destruct Hl as [<-|Hl]; [cbn in Ha; lia|]); destruct Hl.
  - intros H. destruct (H 3%nat (or_introl eq_refl)) as [K _]. specialize (K [1; 0]%nat 1%nat ltac:(cbn; left; reflexivity) ltac:(left; reflexivity)). cbn in K. lia.
Qed.
Print Assumptions C78_names.
Print Assumptions C78_deleted.

Lemma table_get_found label t x : StronglySorted (fun x y => key_cmp (label x) (label y) < 0) t -> In x t -> forall key, label x = key -> table_get label t key <> None.
Proof. intros S I key <-. rewrite (table_get_in label t x S I). discriminate. Qed.
Lemma list_go dest : forall l s done, (forall a, In a l -> table_get (fun x => a_label (acts s x)) dest (a_label (acts s a)) <> None) -> snd (action_list_clone s dest l done) <> None.
Proof.
  induction l as [|a l IH]; intros s done H; cbn [action_list_clone]; [discriminate|]. assert (Q := H a (or_introl eq_refl)). destruct (table_get _ dest _) as [b|]; [|contradiction].
  apply IH. intros a' Ha'. cbn [add_ref acts]. apply H. right. exact Ha'.
Qed.
Lemma lists_go dest new : forall ls s done, (forall l a, In l ls -> In a l -> table_get (fun x => a_label (acts s x)) dest (a_label (acts s a)) <> None) -> snd (action_lists_clone s dest new ls done) = 0.
Proof.
  induction ls as [|l ls IH]; intros s done H; cbn [action_lists_clone]; [reflexivity|]. assert (G := list_go dest l s [] (fun a Ha => H l a (or_introl eq_refl) Ha)).
  destruct (action_list_clone s dest l []) as [s1 [l'|]] eqn:R; [|contradiction]. destruct (list_ok _ _ _ _ _ _ R) as (_ & A & _ & _). apply IH. cbn [acts]. rewrite A. intros l0 a Hl Ha. apply (H l0 a); [right; exact Hl|exact Ha].
Qed.
Definition found (s : store) (dest : context) (e : nat) : Prop :=
  (forall l a, In l (e_lists (evs s e)) -> In a l -> table_get (fun x => a_label (acts s x)) (actions dest) (a_label (acts s a)) <> None) /\
  (forall x, e_aux (evs s e) = Some x -> table_get (fun y => e_label (evs s y)) (events dest) (e_label (evs s x)) <> None).
Lemma resolve_go s dest src new : found s dest src -> src <> new -> e_lists (evs s new) = map (fun _ => []) (e_lists (evs s src)) -> snd (event_clone_resolve s dest src new) = 0.
Proof.
  intros [H1 H2] NE L. unfold event_clone_resolve. assert (G := lists_go (actions dest) new (e_lists (evs s src)) s [] H1). destruct (action_lists_clone s (actions dest) new (e_lists (evs s src)) []) as [s1 r] eqn:R. cbn [snd] in G. subst r. cbn [Z.ltb Z.compare].
  destruct (lists_ok _ _ _ _ _ _ R L) as (ls' & F & A & N & V).
  assert (Lb : forall x, e_label (evs s1 x) = e_label (evs s x)) by (intros x; rewrite V; destruct (Nat.eqb_spec x new) as [->|]; reflexivity).
  assert (E : evs s1 src = evs s src) by (rewrite V; destruct (Nat.eqb_spec src new); [contradiction|reflexivity]). rewrite E. destruct (e_aux (evs s src)) as [x|] eqn:X; [|reflexivity].
  specialize (H2 x eq_refl). rewrite (table_get_ext (fun y => e_label (evs s1 y)) (fun y => e_label (evs s y)) _ _ Lb), Lb. destruct (table_get _ _ _); [reflexivity|contradiction].
Qed.
Lemma map_go dest : forall srcs news s, length srcs = length news -> NoDup news -> (forall x, In x srcs -> ~ In x news) -> (forall e, In e srcs -> found s dest e) ->
  Forall2 (fun e n => e_lists (evs s n) = map (fun _ => []) (e_lists (evs s e)) /\ e_aux (evs s n) = None) srcs news -> snd (table_clone_map s dest srcs news) = 0.
Proof.
  induction srcs as [|e srcs IH]; intros [|n news] s Le ND D Fo B; cbn [table_clone_map length] in *; try lia; [reflexivity|].
  inversion B as [|? ? ? ? [B1 B2] B']; subst. inversion ND as [|? ? NI ND']; subst. assert (NE : e <> n) by (intros ->; apply (D n); left; reflexivity).
  assert (G := resolve_go s dest e n (Fo e (or_introl eq_refl)) NE B1). destruct (event_clone_resolve s dest e n) as [s1 r] eqn:R. cbn [snd] in G. subst r. cbn [Z.ltb Z.compare].
  destruct (resolve_ok _ _ _ _ _ R NE B1 B2) as ((L1 & L2 & L3) & A & N & V).
  assert (Lb : forall x, e_label (evs s1 x) = e_label (evs s x)) by (intros x; destruct (Nat.eq_dec x n) as [->|Q]; [exact L1|rewrite V by exact Q; reflexivity]).
  assert (Q1 : forall x, In x srcs -> x <> n) by (intros x Hx ->; apply (D n); [right; exact Hx|left; reflexivity]).
  assert (Q2 : forall x, In x news -> x <> n) by (intros x Hx ->; contradiction).
  apply IH; [lia|exact ND'|intros x Hx Hn; apply (D x); right; assumption| |].
  - intros x Hx. destruct (Fo x (or_intror Hx)) as [P1 P2]. unfold found. rewrite A, (V x (Q1 x Hx)). split; [exact P1|]. intros y Hy.
    rewrite (table_get_ext (fun y => e_label (evs s1 y)) (fun y => e_label (evs s y)) _ _ Lb), Lb. apply P2. exact Hy.
  - clear - B' V Q1 Q2. induction B' as [|x y lx ly q B' IHB]; [constructor|]. constructor.
    + rewrite (V x) by (apply Q1; left; reflexivity). rewrite (V y) by (apply Q2; left; reflexivity). exact q.
    + apply IHB; intros z Hz; [apply Q1|apply Q2]; right; exact Hz.
Qed.
(** A context can be cloned exactly if every name its events use is that of an object in its tables. *)
Theorem C78_success : forall s c, allocated s c -> ordered s c -> existing s c -> (snd (clone s c) = 0 <-> nameable s c).
Proof.
  intros s c Al [O1 O2] Ex. split.
  { destruct (clone s c) as [[s' d] r] eqn:E. cbn [snd]. intros ->. exact (C78_deleted s c s' d Al Ex E). }
  intros Nm. destruct Al as [Al1 Al2]. unfold clone.
  destruct (actions_clone_spec (actions c) s Al1) as (s1 & R1 & N1 & V1 & F1 & Old1 & New1 & Rest1). rewrite R1.
  destruct (events_clone_spec (events c) s1 ltac:(intros e He; specialize (Al2 e He); lia)) as (s2 & R2 & N2 & A2 & F2 & Old2 & New2). rewrite R2.
  set (da := seq (next s) (length (actions c))) in *. set (de := seq (next s1) (length (events c))) in *. set (d := Context da de).
  assert (Ve : forall x, (x < next s)%nat -> evs s2 x = evs s x) by (intros x Hx; destruct (Old2 x ltac:(lia)) as [-> _]; rewrite V1; reflexivity).
  assert (Va : forall x, (x < next s)%nat -> acts s2 x = acts s x) by (intros x Hx; rewrite A2; destruct (Old1 x Hx) as [-> _]; reflexivity).
  assert (Sa : StronglySorted (fun x y => key_cmp (a_label (acts s2 x)) (a_label (acts s2 y)) < 0) da).
  { rewrite A2. eapply (sorted_transport (fun a => a_label (acts s a)) (fun a => a_label (acts s1 a)) (fun x y => key_cmp x y < 0)); [|exact O1].
    eapply Forall2_imp; [|exact F1]. intros a b _ _ E. cbn. rewrite E. reflexivity. }
  assert (Se : StronglySorted (fun x y => key_cmp (e_label (evs s2 x)) (e_label (evs s2 y)) < 0) de).
  { eapply (sorted_transport (fun a => e_label (evs s a)) (fun a => e_label (evs s2 a)) (fun x y => key_cmp x y < 0)); [|exact O2].
    eapply Forall2_imp; [|exact F2]. intros a b _ _ E. cbn. rewrite E. unfold bare. cbn. rewrite V1. reflexivity. }
  assert (G : snd (table_clone_map s2 d (events c) de) = 0); [|destruct (table_clone_map s2 d (events c) de); exact G].
  apply map_go.
  - unfold de. rewrite seq_length. reflexivity.
  - apply seq_NoDup.
  - intros x Hx Hx'. apply in_seq in Hx'. specialize (Al2 x Hx). lia.
  - intros e He. destruct (Nm e He) as [M1 M2]. destruct (Ex e He) as [E1 E2]. unfold found. rewrite (Ve e (Al2 e He)). split.
    + intros l a Hl Ha. destruct (M1 l a Hl Ha) as (b & Ib & E). destruct (Forall2_in_l _ _ _ b F1 Ib) as (b' & Ib' & Eb). apply (table_get_found (fun x => a_label (acts s2 x)) da b' Sa Ib').
      rewrite (Va a (E1 l a Hl Ha)), <- E, A2, Eb. reflexivity.
    + intros x Hx. destruct (M2 x Hx) as (y & Iy & E). destruct (Forall2_in_l _ _ _ y F2 Iy) as (y' & Iy' & Ey). apply (table_get_found (fun x => e_label (evs s2 x)) de y' Se Iy').
      rewrite (Ve x (E2 x Hx)), <- E, Ey. unfold bare. cbn [e_label]. rewrite V1. reflexivity.
  - eapply Forall2_imp; [|exact F2]. intros e n He _ E. rewrite E. unfold bare. cbn [e_lists e_aux]. rewrite V1, (Ve e (Al2 e He)). split; reflexivity.
Qed.
Print Assumptions C78_success.
