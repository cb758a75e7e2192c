(** * The number automaton recognises exactly the numbers of the specification *)
Require Import ZArith List Bool Lia.
From Verif Require Import Json JsonSpec.
Import ListNotations.
Open Scope Z_scope.

(** The automaton run over a text. *)
Fixpoint num_run (s : Z) (l : list Z) : option Z :=
  match l with
  | [] => Some s
  | c :: l' => match number_next s c with Some s' => num_run s' l' | None => None end
  end.

Definition ends (s : Z) (l : list Z) : Prop := exists s', num_run s l = Some s' /\ has s' N_END = true.

Lemma num_run_app : forall a b s, num_run s (a ++ b) =
  match num_run s a with Some s' => num_run s' b | None => None end.
Proof.
  induction a as [|c a IH]; intros b s; [reflexivity|]. cbn.
  destruct (number_next s c); [apply IH|reflexivity].
Qed.

Lemma ends_nil : forall s, ends s [] <-> has s N_END = true.
Proof.
  intros s. split.
  - intros (s' & E & H). cbn in E. inversion E; subst. exact H.
  - intros H. exists s. split; [reflexivity|exact H].
Qed.

Lemma ends_cons : forall s c l, ends s (c :: l) <->
  exists s', number_next s c = Some s' /\ ends s' l.
Proof.
  intros s c l. unfold ends. cbn [num_run]. split.
  - intros (s' & E & H). destruct (number_next s c) as [s1|]; [|discriminate].
    exists s1. split; [reflexivity|]. exists s'. split; assumption.
  - intros (s1 & -> & s' & E & H). exists s'. split; assumption.
Qed.

Definition S0 := 3. Definition S1 := 2. Definition S2 := 4368. Definition S3 := 4372.
Definition S4 := 32. Definition S5 := 4384. Definition S6 := 1536. Definition S7 := 1024.
Definition S8 := 5120.

Ltac state := unfold number_next;
  repeat match goal with |- context [has ?a ?b] =>
    let v := eval vm_compute in (has a b) in change (has a b) with v end; cbn [andb].

Lemma next0 : forall c, number_next S0 c =
  if c =? 45 then Some S1 else if is_digit c then Some (if c =? 48 then S2 else S3) else None.
Proof. intros. state. destruct (c =? 45); [reflexivity|]. destruct (is_digit c); [|reflexivity]. destruct (c =? 48); reflexivity. Qed.
Lemma next1 : forall c, number_next S1 c =
  if is_digit c then Some (if c =? 48 then S2 else S3) else None.
Proof. intros. state. destruct (is_digit c); [|reflexivity]. destruct (c =? 48); reflexivity. Qed.
Lemma next2 : forall c, number_next S2 c =
  if c =? 46 then Some S4 else if (c =? 101) || (c =? 69) then Some S6 else None.
Proof. intros. state. reflexivity. Qed.
Lemma next3 : forall c, number_next S3 c =
  if is_digit c then Some S3 else if c =? 46 then Some S4
  else if (c =? 101) || (c =? 69) then Some S6 else None.
Proof. intros. state. reflexivity. Qed.
Lemma next4 : forall c, number_next S4 c = if is_digit c then Some S5 else None.
Proof. intros. state. reflexivity. Qed.
Lemma next5 : forall c, number_next S5 c =
  if is_digit c then Some S5 else if (c =? 101) || (c =? 69) then Some S6 else None.
Proof. intros. state. reflexivity. Qed.
Lemma next6 : forall c, number_next S6 c =
  if (c =? 43) || (c =? 45) then Some S7 else if is_digit c then Some S8 else None.
Proof. intros. state. reflexivity. Qed.
Lemma next7 : forall c, number_next S7 c = if is_digit c then Some S8 else None.
Proof. intros. state. reflexivity. Qed.
Lemma next8 : forall c, number_next S8 c = if is_digit c then Some S8 else None.
Proof. intros. state. reflexivity. Qed.

Lemma digit_spec : forall c, is_digit c = true <-> digit c.
Proof. intros. unfold is_digit, is_in, digit. lia. Qed.
Lemma digit_not : forall c, is_digit c = false -> ~ digit c.
Proof. intros c H. unfold is_digit, is_in, digit in *. lia. Qed.

Ltac dig c := let E := fresh "Ed" in destruct (is_digit c) eqn:E;
  [apply digit_spec in E|apply digit_not in E].

Lemma L8 : forall l, ends S8 l <-> digits l.
Proof.
  induction l as [|c l IH].
  - rewrite ends_nil. split; [constructor|reflexivity].
  - rewrite ends_cons, next8. dig c.
    + split.
      * intros (s & E & H). inversion E; subst. constructor; [exact Ed|apply IH; exact H].
      * intros H. inversion H; subst. exists S8. split; [reflexivity|apply IH; assumption].
    + split; [intros (s & E & _); discriminate|]. intros H; inversion H; subst. contradiction.
Qed.

Lemma L7 : forall l, ends S7 l <-> exists c l', l = c :: l' /\ digit c /\ digits l'.
Proof.
  intros [|c l].
  - rewrite ends_nil. split; [discriminate|]. intros (c & l' & E & _). discriminate.
  - rewrite ends_cons, next7. dig c.
    + split.
      * intros (s & E & H). inversion E; subst. exists c, l. split; [reflexivity|].
        split; [exact Ed|apply L8; exact H].
      * intros (c' & l' & E & _ & H). inversion E; subst. exists S8. split; [reflexivity|apply L8; exact H].
    + split; [intros (s & E & _); discriminate|]. intros (c' & l' & E & H & _). inversion E; subst. contradiction.
Qed.

Lemma L6 : forall l, ends S6 l <-> exists s c l', l = s ++ c :: l' /\ sign_part s /\ digit c /\ digits l'.
Proof.
  intros [|c l].
  - rewrite ends_nil. split; [discriminate|]. intros (s & c & l' & E & _). destruct s; discriminate.
  - rewrite ends_cons, next6. split.
    + intros (s & E & H). destruct ((c =? 43) || (c =? 45)) eqn:Es.
      * inversion E; subst. apply L7 in H. destruct H as (c' & l' & -> & H1 & H2).
        exists [c], c', l'. split; [reflexivity|]. split; [|split; assumption].
        assert (c = 43 \/ c = 45) as [-> | ->] by lia; constructor.
      * dig c; [|discriminate]. inversion E; subst. exists [], c, l.
        split; [reflexivity|]. split; [constructor|]. split; [exact Ed|apply L8; exact H].
    + intros (s & c' & l' & E & Hs & H1 & H2). destruct Hs; cbn in E; inversion E; subst.
      * exists S8. split; [|apply L8; exact H2].
        replace ((c' =? 43) || (c' =? 45)) with false by (unfold digit in H1; lia).
        apply digit_spec in H1. rewrite H1. reflexivity.
      * exists S7. split; [reflexivity|]. apply L7. exists c', l'. repeat split; try assumption; apply H1.
      * exists S7. split; [reflexivity|]. apply L7. exists c', l'. repeat split; try assumption; apply H1.
Qed.

(** [l] is digits and then a text of [P]. *)
Definition then_ (D P : list Z -> Prop) (l : list Z) : Prop := exists a b, l = a ++ b /\ D a /\ P b.

Lemma E6 : forall l c, c = 101 \/ c = 69 -> (ends S6 l <-> exp_part (c :: l)).
Proof.
  intros l c Hc. rewrite L6. split.
  - intros (s & d & l' & -> & A & B & C). constructor; assumption.
  - intros H. inversion H; subst. eauto 8.
Qed.

Lemma L5 : forall l, ends S5 l <-> then_ digits exp_part l.
Proof.
  induction l as [|c l IH].
  - rewrite ends_nil. split; [|reflexivity]. intros _. exists [], []. repeat split; constructor.
  - rewrite ends_cons, next5. dig c.
    + split.
      * intros (s & E & H). inversion E; subst. apply IH in H. destruct H as (a & b & -> & A & B).
        exists (c :: a), b. repeat split; [constructor; assumption|exact B].
      * intros (a & b & E & A & B). exists S5. split; [reflexivity|]. apply IH. destruct a as [|x a].
        -- cbn in E. subst b. inversion B; subst. unfold digit in Ed. lia.
        -- inversion E; subst. inversion A; subst. exists a, b. repeat split; assumption.
    + split.
      * intros (s & E & H). destruct ((c =? 101) || (c =? 69)) eqn:Ee; [|discriminate].
        inversion E; subst. exists [], (c :: l). split; [reflexivity|]. split; [constructor|].
        apply E6; [lia|exact H].
      * intros (a & b & E & A & B). destruct a as [|x a].
        2:{ inversion E; subst. inversion A; subst. contradiction. }
        cbn in E. subst b. assert (c = 101 \/ c = 69) as Hc by (inversion B; subst; assumption).
        exists S6. split; [|apply (E6 l c Hc); exact B].
        replace ((c =? 101) || (c =? 69)) with true by lia. reflexivity.
Qed.

Lemma L4 : forall l, ends S4 l <-> exists c l', l = c :: l' /\ digit c /\ then_ digits exp_part l'.
Proof.
  intros [|c l].
  - rewrite ends_nil. split; [discriminate|]. intros (c & l' & E & _). discriminate.
  - rewrite ends_cons, next4. dig c.
    + split.
      * intros (s & E & H). inversion E; subst. exists c, l. split; [reflexivity|].
        split; [exact Ed|apply L5; exact H].
      * intros (c' & l' & E & _ & H). inversion E; subst. exists S5. split; [reflexivity|apply L5; exact H].
    + split; [intros (s & E & _); discriminate|]. intros (c' & l' & E & H & _). inversion E; subst. contradiction.
Qed.

Definition tail_part := then_ frac_part exp_part.

Lemma E4 : forall l, ends S4 l <-> tail_part (46 :: l).
Proof.
  intros l. rewrite L4. split.
  - intros (c & l' & -> & A & a & b & -> & B & C). exists (46 :: c :: a), b.
    repeat split; [constructor; assumption|exact C].
  - intros (a & b & E & A & B). destruct A as [|c a Hc Ha].
    + cbn in E. subst b. inversion B; subst. lia.
    + inversion E; subst. exists c, (a ++ b). split; [reflexivity|]. split; [exact Hc|]. exists a, b. repeat split; assumption.
Qed.

Lemma T6 : forall l c, c = 101 \/ c = 69 -> (ends S6 l <-> tail_part (c :: l)).
Proof.
  intros l c Hc. rewrite (E6 l c Hc). split.
  - intros H. exists [], (c :: l). repeat split; [constructor|exact H].
  - intros (a & b & E & A & B). destruct A; cbn in E; [subst b; exact B|]. inversion E; subst. lia.
Qed.

Lemma tail_first : forall c l, tail_part (c :: l) -> c = 46 \/ c = 101 \/ c = 69.
Proof.
  intros c l (a & b & E & A & B). destruct A; cbn in E.
  - subst b. inversion B; subst. lia.
  - inversion E. lia.
Qed.

Lemma L2 : forall l, ends S2 l <-> tail_part l.
Proof.
  intros [|c l].
  - rewrite ends_nil. split; [|reflexivity]. intros _. exists [], []. repeat split; constructor.
  - rewrite ends_cons, next2. split.
    + intros (s & E & H). destruct (c =? 46) eqn:E1.
      * inversion E; subst. apply Z.eqb_eq in E1. subst. apply E4. exact H.
      * destruct ((c =? 101) || (c =? 69)) eqn:Ee; [|discriminate]. inversion E; subst. apply T6; [lia|exact H].
    + intros H. pose proof (tail_first _ _ H) as [-> |Hc].
      * exists S4. split; [reflexivity|apply E4; exact H].
      * exists S6. split; [|apply (T6 l c Hc); exact H].
        replace (c =? 46) with false by lia. replace ((c =? 101) || (c =? 69)) with true by lia. reflexivity.
Qed.

Lemma L3 : forall l, ends S3 l <-> then_ digits tail_part l.
Proof.
  induction l as [|c l IH].
  - rewrite ends_nil. split; [|reflexivity]. intros _. exists [], []. repeat split; [constructor|].
    exists [], []. repeat split; constructor.
  - rewrite ends_cons, next3. dig c.
    + split.
      * intros (s & E & H). inversion E; subst. apply IH in H. destruct H as (a & b & -> & A & B).
        exists (c :: a), b. repeat split; [constructor; assumption|exact B].
      * intros (a & b & E & A & B). exists S3. split; [reflexivity|]. apply IH. destruct a as [|x a].
        -- cbn in E. subst b. apply tail_first in B. unfold digit in Ed. lia.
        -- inversion E; subst. inversion A; subst. exists a, b. repeat split; assumption.
    + split.
      * intros (s & E & H). exists [], (c :: l). split; [reflexivity|]. split; [constructor|].
        apply L2. apply ends_cons. exists s. split; [|exact H]. rewrite next2. exact E.
      * intros (a & b & E & A & B). destruct a as [|x a].
        2:{ inversion E; subst. inversion A; subst. contradiction. }
        cbn in E. subst b. apply L2 in B. apply ends_cons in B. rewrite next2 in B. exact B.
Qed.

Lemma L1 : forall l, ends S1 l <-> then_ int_part tail_part l.
Proof.
  intros [|c l].
  - rewrite ends_nil. split; [discriminate|]. intros (a & b & E & A & _). destruct A; discriminate.
  - rewrite ends_cons, next1. dig c.
    + split.
      * intros (s & E & H). destruct (c =? 48) eqn:E0; inversion E; subst.
        -- apply Z.eqb_eq in E0. subst c. exists [48], l. repeat split; [constructor|apply L2; exact H].
        -- apply L3 in H. destruct H as (a & b & -> & A & B). exists (c :: a), b.
           repeat split; [|exact B]. apply int_nonzero; [unfold digit in Ed; lia|exact A].
      * intros (a & b & E & A & B). destruct A as [|x a Hx Ha]; inversion E; subst.
        -- exists S2. split; [reflexivity|apply L2; exact B].
        -- exists S3. split; [replace (x =? 48) with false by lia; reflexivity|].
           apply L3. exists a, b. repeat split; assumption.
    + split; [intros (s & E & _); discriminate|].
      intros (a & b & E & A & _). exfalso. apply Ed. destruct A; inversion E; subst; unfold digit; lia.
Qed.

Lemma L0 : forall l, ends S0 l <-> number l.
Proof.
  intros l. assert (number l <-> exists m b, l = m ++ b /\ minus_part m /\ then_ int_part tail_part b) as Hn.
  { split.
    - intros (m & i & f & e & -> & A & B & C & D). exists m, (i ++ f ++ e). split; [reflexivity|].
      split; [exact A|]. exists i, (f ++ e). repeat split; [exact B|]. exists f, e. repeat split; assumption.
    - intros (m & b & -> & A & i & t & -> & B & f & e & -> & C & D). exists m, i, f, e. repeat split; assumption. }
  rewrite Hn. clear Hn. destruct l as [|c l].
  - rewrite ends_nil. split; [discriminate|]. intros (m & b & E & A & a & t & -> & B & _).
    destruct A; [|discriminate]. destruct B; discriminate.
  - rewrite ends_cons, next0. split.
    + intros (s & E & H). destruct (c =? 45) eqn:E1.
      * inversion E; subst. apply Z.eqb_eq in E1. subst c. exists [45], l.
        repeat split; [constructor|apply L1; exact H].
      * exists [], (c :: l). repeat split; [constructor|]. apply L1. apply ends_cons. exists s.
        rewrite next1. split; assumption.
    + intros (m & b & E & A & B). destruct A; cbn in E.
      * subst b. apply L1 in B. apply ends_cons in B. destruct B as (s & E & H). rewrite next1 in E.
        exists s. split; [|exact H]. destruct (c =? 45) eqn:E1; [|exact E].
        apply Z.eqb_eq in E1. subst c. discriminate.
      * inversion E; subst. exists S1. split; [reflexivity|apply L1; exact B].
Qed.
