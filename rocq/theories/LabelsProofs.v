From Verif Require Import Base Labels LabelsSpec TableSpec.
Open Scope Z_scope.

Lemma lex_irrefl l : ~ lex_lt l l.
Proof. induction l as [|a l IH]; intros H; inversion H; subst; [lia|contradiction]. Qed.
Lemma lex_trans l m r : lex_lt l m -> lex_lt m r -> lex_lt l r.
Proof.
  intros H. revert r. induction H as [b r|a b l r Hab|a l r H IH]; intros r' H'; inversion H'; subst.
  - constructor.
  - constructor.
  - apply lex_head. lia.
  - apply lex_head. exact Hab.
  - apply lex_head. assumption.
  - apply lex_tail. apply IH. assumption.
Qed.

(** A direct recursive form. *)
Fixpoint lcmp (l r : list N) : Z :=
  match l, r with
  | [], [] => 0
  | [], _ :: _ => -1
  | _ :: _, [] => 1
  | a :: l', b :: r' => if N.eqb a b then lcmp l' r' else Z.of_N a - Z.of_N b
  end.
Lemma memcmp_lcmp l : forall r n, n = Nat.min (length l) (length r) ->
  exists m, memcmp n l r = Some m /\ (m <> 0 -> m = lcmp l r) /\ (m = 0 -> lcmp l r = lcmp (skipn n l) (skipn n r)).
Proof.
  induction l as [|a l IH]; intros r n Hn; cbn [length Nat.min] in Hn; subst.
  - exists 0. cbn. split; [reflexivity|]. split; [congruence|reflexivity].
  - destruct r as [|b r]; cbn [length Nat.min].
    + exists 0. cbn. split; [reflexivity|]. split; [congruence|reflexivity].
    + cbn [memcmp lcmp skipn]. destruct (N.eqb_spec a b) as [->|Hab].
      * apply IH. reflexivity.
      * eexists. split; [reflexivity|]. split; [reflexivity|]. lia.
Qed.
Lemma label_cmp_safe l r : key_cmp_1 l (length l) r (length r) <> None.
Proof.
  unfold key_cmp_1. destruct (Nat.leb_spec (length r) (length l)).
  - destruct (memcmp_lcmp l r (length r)) as (m & -> & _); [lia|discriminate].
  - destruct (memcmp_lcmp l r (length l)) as (m & -> & _); [lia|discriminate].
Qed.
Lemma skipn_len {A} (l : list A) : skipn (length l) l = [].
Proof. apply skipn_all. Qed.
Lemma skipn_more {A} (l : list A) n : (n < length l)%nat -> exists a t, skipn n l = a :: t.
Proof.
  intros H. destruct (skipn n l) as [|a t] eqn:E; [|exists a, t; reflexivity].
  apply (f_equal (@length A)) in E. rewrite skipn_length in E. cbn in E. lia.
Qed.
Lemma label_cmp_lcmp l r : label_cmp l r = lcmp l r.
Proof.
  unfold label_cmp, key_cmp_1. destruct (Nat.leb_spec (length r) (length l)) as [Hle|Hlt].
  - destruct (memcmp_lcmp l r (length r)) as (m & -> & H1 & H2); [lia|].
    destruct (Z.eqb_spec m 0) as [->|Hm]; cbn [andb]; [|apply H1, Hm].
    rewrite H2 by reflexivity. destruct (Nat.eqb_spec (length l) (length r)) as [E|Ne]; cbn [negb].
    + rewrite <- E at 1. rewrite !skipn_len. reflexivity.
    + rewrite skipn_len. destruct (skipn_more l (length r)) as (a & t & ->); [lia|]. reflexivity.
  - destruct (memcmp_lcmp l r (length l)) as (m & -> & H1 & H2); [lia|].
    destruct (Z.eqb_spec m 0) as [->|Hm]; [|apply H1, Hm].
    rewrite H2 by reflexivity. rewrite skipn_len. destruct (skipn_more r (length l)) as (a & t & ->); [lia|]. reflexivity.
Qed.
Lemma lcmp_spec l : forall r, (lcmp l r < 0 <-> lex_lt l r) /\ (lcmp l r = 0 <-> l = r) /\ (lcmp l r > 0 <-> lex_lt r l).
Proof.
  induction l as [|a l IH]; intros [|b r]; cbn [lcmp].
  - repeat split; intros; try lia; try reflexivity; match goal with H : lex_lt _ _ |- _ => inversion H end.
  - repeat split; intros H; try lia; try discriminate; try constructor. inversion H.
  - repeat split; intros H; try lia; try discriminate; try constructor. inversion H.
  - destruct (N.eqb_spec a b) as [->|Hab].
    + destruct (IH r) as (H1 & H2 & H3). repeat split; intros H.
      * apply lex_tail, H1, H.
      * inversion H; subst; [lia|apply H1; assumption].
      * f_equal. apply H2, H.
      * apply H2. congruence.
      * apply lex_tail, H3, H.
      * inversion H; subst; [lia|apply H3; assumption].
    + repeat split; intros H.
      * apply lex_head. lia.
      * inversion H; subst; [lia|congruence].
      * lia.
      * congruence.
      * apply lex_head. lia.
      * inversion H; subst; [lia|congruence].
Qed.
Lemma label_cmp_spec l r : (label_cmp l r < 0 <-> lex_lt l r) /\ (label_cmp l r = 0 <-> l = r) /\ (label_cmp l r > 0 <-> lex_lt r l).
Proof. rewrite label_cmp_lcmp. apply lcmp_spec. Qed.
Lemma lex_total l r : lex_lt l r \/ l = r \/ lex_lt r l.
Proof.
  destruct (label_cmp_spec l r) as (H1 & H2 & H3).
  assert (label_cmp l r < 0 \/ label_cmp l r = 0 \/ label_cmp l r > 0) by lia. tauto.
Qed.
Lemma label_total_order : total_order label_cmp.
Proof.
  constructor.
  - intros a. apply (proj1 (proj2 (label_cmp_spec a a))). reflexivity.
  - intros a b. destruct (label_cmp_spec a b) as (A1 & A2 & A3), (label_cmp_spec b a) as (B1 & B2 & B3).
    destruct (lex_total a b) as [H|[H|H]].
    + assert (label_cmp a b < 0) by tauto. assert (label_cmp b a > 0) by tauto. lia.
    + assert (label_cmp a b = 0) by tauto. assert (label_cmp b a = 0) by (apply B2; congruence). lia.
    + assert (label_cmp a b > 0) by tauto. assert (label_cmp b a < 0) by tauto. lia.
  - intros a b c H1 H2. destruct (label_cmp_spec a b) as (A1 & A2 & _), (label_cmp_spec b c) as (B1 & B2 & _), (label_cmp_spec a c) as (C1 & C2 & C3).
    assert (Hab : label_cmp a b < 0 \/ label_cmp a b = 0) by lia. assert (Hbc : label_cmp b c < 0 \/ label_cmp b c = 0) by lia.
    rewrite A1, A2 in Hab. rewrite B1, B2 in Hbc.
    assert (Hac : lex_lt a c \/ a = c).
    { destruct Hab as [Hab| ->], Hbc as [Hbc|Hbc]; subst; auto. left. eapply lex_trans; eauto. }
    destruct Hac as [Hac|Hac]; [apply C1 in Hac; lia|apply C2 in Hac; lia].
Qed.
Lemma number_total_order : total_order number_cmp.
Proof. unfold number_cmp. constructor; intros; lia. Qed.
