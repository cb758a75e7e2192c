(** C47: names of route flags and of action results. *)
From Coq Require Import String Ascii.
From Verif Require Import Base Table Names.
Open Scope N_scope.

Definition clean (s : list N) : Prop := ~ In 0 s.
Definition tab_ok (t : list (N * list N)) : Prop := NoDup (map fst t) /\ NoDup (map snd t) /\ forall f s, In (f, s) t -> clean s.

Lemma strlen_c s r : clean s -> strlen (s ++ 0 :: r) = Ret (List.length s).
Proof.
  induction s as [|x s IH]; intros C; [reflexivity|]. cbn. destruct (N.eqb_spec x 0) as [->|N]; [exfalso; apply C; left; reflexivity|]. rewrite IH; [reflexivity|]. intros X. apply C. right. exact X.
Qed.
(** For clean names strncmp compares prefixes. *)
Lemma strneq_c nm s r : clean s -> clean nm -> exists b, strneq (nm ++ [0]) (s ++ r) (List.length s) = Ret b /\ (b = true <-> exists d, nm = s ++ d).
Proof.
  revert nm. induction s as [|y s IH]; intros nm Cs Cn; cbn [List.length].
  - exists true. split; [destruct nm; reflexivity|]. split; [intros _; exists nm; reflexivity|reflexivity].
  - destruct nm as [|x nm]; cbn [strneq app List.length].
    + destruct (N.eqb_spec 0 y) as [<-|N]; [exfalso; apply Cs; left; reflexivity|]. exists false. split; [reflexivity|]. split; [discriminate|intros (d & X); discriminate].
    + destruct (N.eqb_spec x y) as [->|N].
      * destruct (N.eqb_spec y 0) as [->|N0]; [exfalso; apply Cs; left; reflexivity|]. destruct (IH nm) as (b & E & H); [intros X; apply Cs; right; exact X|intros X; apply Cn; right; exact X|].
        exists b. split; [exact E|]. rewrite H. split; intros (d & X); [exists d; rewrite X; reflexivity|injection X as X; exists d; exact X].
      * exists false. split; [reflexivity|]. split; [discriminate|]. intros (d & X). injection X as X _. congruence.
Qed.
Lemma by_name_c t s r : clean s -> (forall f nm, In (f, nm) t -> clean nm) ->
  exists o, by_name_1 t (s ++ r) (List.length s) = Ret o /\ match o with Some f => In (f, s) t | None => forall f, ~ In (f, s) t end.
Proof.
  intros Cs. induction t as [|[f nm] t IH]; intros Ct; [exists None; split; [reflexivity|intros f []]|].
  destruct IH as (o & E & H); [intros g m X; apply (Ct g m); right; exact X|].
  cbn [by_name_1]. destruct (strneq_c nm s r Cs) as (b & Eb & Hb); [apply (Ct f nm); left; reflexivity|]. rewrite Eb. cbn [bind].
  assert (Q : nm <> s -> exists o, by_name_1 t (s ++ r) (List.length s) = Ret o /\ match o with Some f0 => In (f0, s) ((f, nm) :: t) | None => forall f0, ~ In (f0, s) ((f, nm) :: t) end).
  { intros NE. exists o. split; [exact E|]. destruct o as [g|]; [right; exact H|]. intros g [X|X]; [congruence|exact (H g X)]. }
  destruct b.
  - destruct (proj1 Hb eq_refl) as (d & ->). rewrite <- app_assoc. rewrite nth_error_app2 by lia. rewrite Nat.sub_diag. destruct d as [|x d]; cbn [ub_none nth_error app bind].
    + exists (Some f). split; [reflexivity|]. left. rewrite app_nil_r. reflexivity.
    + destruct (N.eqb_spec x 0) as [->|N]; [exfalso; apply (Ct f (s ++ 0 :: d)); [left; reflexivity|apply in_or_app; right; left; reflexivity]|].
      apply Q. intros X. apply (f_equal (fun l => List.length l)) in X. rewrite app_length in X. cbn in X. lia.
  - apply Q. intros ->. assert (false = true) by (apply Hb; exists []; rewrite app_nil_r; reflexivity). discriminate.
Qed.
Lemma res_by_name_c t s r : (forall f nm, In (f, nm) t -> clean nm) -> clean s ->
  exists o, res_by_name_1 t (s ++ r) (List.length s) = Ret o /\ match o with Some f => In (f, s) t | None => forall f, ~ In (f, s) t end.
Proof.
  intros Ct Cs. induction t as [|[f nm] t IH]; [exists None; split; [reflexivity|intros f []]|].
  destruct IH as (o & E & H); [intros g m X; apply (Ct g m); right; exact X|].
  cbn [res_by_name_1]. destruct (strneq_c nm s r Cs) as (b & Eb & Hb); [apply (Ct f nm); left; reflexivity|]. rewrite Eb. cbn [bind].
  destruct (b && Nat.eqb (List.length nm) (List.length s)) eqn:BB.
  - apply andb_prop in BB. destruct BB as [-> L]. apply Nat.eqb_eq in L. destruct (proj1 Hb eq_refl) as (d & ->). rewrite app_length in L. destruct d; [|cbn in L; lia]. exists (Some f). split; [reflexivity|]. left. rewrite app_nil_r. reflexivity.
  - exists o. split; [exact E|]. destruct o as [g|]; [right; exact H|]. intros g [X|X]; [|exact (H g X)]. injection X as -> ->. rewrite Nat.eqb_refl, andb_true_r in BB. subst b. assert (false = true) by (apply Hb; exists []; rewrite app_nil_r; reflexivity). discriminate.
Qed.
Lemma by_flag_in t f s : by_flag t f = Some s -> In (f, s) t.
Proof. induction t as [|[g nm] t IH]; cbn; [discriminate|]. destruct (N.eqb_spec g f) as [->|N]; [intros X; injection X as <-; left; reflexivity|right; auto]. Qed.
Lemma in_by_flag t f s : NoDup (map fst t) -> In (f, s) t -> by_flag t f = Some s.
Proof.
  induction t as [|[g nm] t IH]; cbn; [tauto|]. intros ND [X|X].
  - injection X as -> ->. rewrite N.eqb_refl. reflexivity.
  - inversion ND as [|x y H1 H2]; subst. destruct (N.eqb_spec g f) as [->|N]; [exfalso; apply H1; apply (in_map fst) in X; exact X|auto].
Qed.
Lemma nd_snd t f g (s : list N) : NoDup (map snd t) -> In (f, s) t -> In (g, s) t -> f = g :> N.
Proof.
  induction t as [|[h nm] t IH]; cbn; [tauto|]. intros ND [X|X] [Y|Y]; inversion ND as [|x y H1 H2]; subst; try congruence; [| |auto].
  - injection X as -> ->. exfalso. apply H1. apply (in_map snd) in Y. exact Y.
  - injection Y as -> ->. exfalso. apply H1. apply (in_map snd) in X. exact X.
Qed.
Fixpoint nodupb {A} (eqb : A -> A -> bool) (l : list A) : bool := match l with [] => true | x :: r => negb (existsb (eqb x) r) && nodupb eqb r end.
Lemma nodupb_ok {A} (eqb : A -> A -> bool) (R : forall x, eqb x x = true) l : nodupb eqb l = true -> NoDup l.
Proof.
  induction l as [|x r IH]; cbn; intros H; [constructor|]. apply andb_prop in H. destruct H as [H1 H2]. constructor; [|auto]. intros X. apply negb_true_iff in H1. rewrite <- not_true_iff_false in H1. apply H1. apply existsb_exists. exists x. split; [exact X|apply R].
Qed.
Definition leqb (a b : list N) : bool := if list_eq_dec N.eq_dec a b then true else false.
Lemma leqb_refl a : leqb a a = true. Proof. unfold leqb. destruct (list_eq_dec N.eq_dec a a); congruence. Qed.
Lemma flags_ok : tab_ok (table_of flag_names).
Proof.
  split; [apply (nodupb_ok N.eqb N.eqb_refl); vm_compute; reflexivity|]. split; [apply (nodupb_ok leqb leqb_refl); vm_compute; reflexivity|].
  assert (Q : forallb (fun x => forallb (fun b => negb (b =? 0)) (snd x)) (table_of flag_names) = true) by (vm_compute; reflexivity).
  intros f s X Z. rewrite forallb_forall in Q. specialize (Q (f, s) X). rewrite forallb_forall in Q. specialize (Q 0 Z). discriminate.
Qed.
Lemma res_ok : tab_ok (table_of res_names).
Proof.
  split; [apply (nodupb_ok N.eqb N.eqb_refl); vm_compute; reflexivity|]. split; [apply (nodupb_ok leqb leqb_refl); vm_compute; reflexivity|].
  assert (Q : forallb (fun x => forallb (fun b => negb (b =? 0)) (snd x)) (table_of res_names) = true) by (vm_compute; reflexivity).
  intros f s X Z. rewrite forallb_forall in Q. specialize (Q (f, s) X). rewrite forallb_forall in Q. specialize (Q 0 Z). discriminate.
Qed.
