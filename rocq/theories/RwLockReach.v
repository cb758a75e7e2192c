From Verif Require Import Base RwLock RwLockSpec RwLockProofs RwLockInv RwLockTac RwLockSteps.
Open Scope Z_scope.
Lemma case_do L l i t cl c : known L l i (t, cl) -> proper cl c -> timeless c -> forall L' t', step L t i (Do c) = Some (L', t') -> inv (L', upd l i (t', after_step (Do c) t' cl)).
Proof.
  intros K PR TL L' t' ST. unfold step in ST. destruct (at_ t) eqn:A; try discriminate. injection ST as <- <-. prelude K A. clear RF. destruct LD as [B CC]. flds. subst c0.
  apply (still _ _ _ _ _ K); [reflexivity..|]. unfold linv. flds. split_all; try easy1. unfold place. flds. split_all; try easy1.
Qed.
Lemma case_expire L l i t cl e : known L l i (t, cl) -> forall L' t', step L t i (Expire e) = Some (L', t') -> inv (L', upd l i (t', after_step (Expire e) t' cl)).
Proof.
  intros K L' t' ST. unfold step in ST. destruct (at_ t) eqn:A; try discriminate.
  - destruct (may_fail s e) eqn:MF; [|discriminate]. injection ST as ST.
    pose proof (k_l _ _ _ _ K) as LL. pose proof LL as (_ & _ & _ & LD & _). cbn [fst snd] in LD. unfold place in LD. rewrite A in LD.
    assert (base (is (wh L) i) (is (rh L) i) t cl /\ e = BUSY /\ (k = KRet \/ k = KIncr) /\ exists c, calling cl = Some c /\ c <> HaveResv) as (B & -> & KK & c & CC & _).
    { destruct s; try discriminate MF; destruct k; try contradiction; hyps; destruct w, e; try discriminate MF; try (unfold unt in *; congruence); split_all; try assumption; try reflexivity; try (left; reflexivity); try (right; reflexivity); repeat match goal with H : _ \/ _ |- _ => destruct H; hyps end; eexists; split; try eassumption; discriminate. }
    assert (E : leave L t k BUSY = (L, back t BUSY)) by (destruct KK as [-> | ->]; reflexivity). rewrite E in ST. injection ST as <- <-.
    unfold after_step. cbn [back at_ ret]. rewrite CC. unfold RwLockSpec.returned. cbn [is_success negb].
    apply (still _ _ _ _ _ K); try (unfold fR, fW, fGW, fP, fGP, frec; cbn [fst back at_ rec]; rewrite ?A; reflexivity). apply refused_linv; assumption.
  - destruct (wait_err w e) eqn:W; [|discriminate]. exfalso. pose proof (k_l _ _ _ _ K) as (_ & _ & _ & LD & _). cbn [fst snd] in LD. unfold place in LD. rewrite A in LD. destruct LD as (_ & _ & _ & U). destruct w; try discriminate W. apply U. reflexivity.
  - destruct (wait_err w e) eqn:W; [|discriminate]. exfalso. pose proof (k_l _ _ _ _ K) as (_ & _ & _ & LD & _). cbn [fst snd] in LD. unfold place in LD. rewrite A in LD. destruct LD as (_ & _ & _ & U). destruct w; try discriminate W. apply U. reflexivity.
  - destruct (wait_err w e) eqn:W; [|discriminate]. exfalso. pose proof (k_l _ _ _ _ K) as (_ & _ & _ & LD & _). cbn [fst snd] in LD. unfold place in LD. rewrite A in LD. destruct LD as (_ & U). destruct w; try discriminate W. apply U. reflexivity.
Qed.
Lemma step_inv s i ch s' : inv s -> sstep timeless s i ch s' -> inv s'.
Proof.
  intros Iv ST. destruct ST as [L l i ch t cl L' t' HN PR ST]. pose proof (known_intro L l i (t, cl) Iv HN) as K.
  destruct ch as [c| |e].
  - destruct (PR c eq_refl) as [P1 P2]. apply (case_do L l i t cl c K P1 P2 _ _ ST).
  - destruct (at_ t) eqn:A.
    + unfold step in ST. rewrite A in ST. discriminate.
    + unfold step in ST. rewrite A in ST. injection ST as ST. apply (case_pre L l i t cl c K A _ _ ST).
    + unfold step in ST. rewrite A in ST. injection ST as ST. destruct s.
      * apply (case_shared L l i t cl w f k K A _ _ ST).
      * apply (case_mutex L l i t cl w k K A _ _ ST).
      * apply (case_m2s L l i t cl f k K A _ _ ST).
      * apply (case_reserve L l i t cl k K A _ _ ST).
      * apply (case_redeem L l i t cl w k K A _ _ ST).
      * apply (case_abandon L l i t cl k K A _ _ ST).
      * apply (case_s2m L l i t cl w k K A _ _ ST).
      * apply (case_unlock L l i t cl f k K A _ _ ST).
    + apply (case_waitR L l i t cl w f K A _ _ ST).
    + apply (case_gotR L l i t cl f K A _ _ ST).
    + apply (case_waitW L l i t cl w K A _ _ ST).
    + apply (case_gotW L l i t cl K A _ _ ST).
    + apply (case_waitP L l i t cl p w k K A _ _ ST).
    + apply (case_gotP L l i t cl p k K A _ _ ST).
    + pose proof (k_l _ _ _ _ K) as (_ & _ & _ & LD & _). cbn [fst snd] in LD. unfold place in LD. rewrite A in LD. contradiction.
    + pose proof (k_l _ _ _ _ K) as (_ & _ & _ & LD & _). cbn [fst snd] in LD. unfold place in LD. rewrite A in LD. contradiction.
    + pose proof (k_l _ _ _ _ K) as (_ & _ & _ & LD & _). cbn [fst snd] in LD. unfold place in LD. rewrite A in LD. contradiction.
  - apply (case_expire L l i t cl e K _ _ ST).
Qed.
Lemma start_at ro i x : nth_error (snd (start ro)) i = Some x -> exists b, x = (thr0 b, client0).
Proof. cbn. revert i. induction ro as [|b ro IH]; destruct i; cbn; try discriminate; [intros E; injection E as <-; eauto|apply IH]. Qed.
Lemma start_inv ro : inv (start ro).
Proof.
  assert (Z : forall f, (forall b, f (thr0 b, client0) = 0) -> sum f (snd (start ro)) = 0) by (intros f Hf; apply sum_zero; intros j y Hj; destruct (start_at ro j y Hj) as (b & ->); apply Hf).
  split.
  - apply ginv_Gs. rewrite !Z by reflexivity. cbn [start fst snd]. unfold Gs. cbn. repeat split; try lia; try discriminate.
  - intros i x Hx. destruct (start_at ro i x Hx) as (b & ->). cbn. unfold linv. cbn. repeat split; try lia; try discriminate.
Qed.
Lemma reach_inv s : reach timeless s -> inv s.
Proof. induction 1 as [ro|s i ch s' _ IH ST]; [apply start_inv|eapply step_inv; eassumption]. Qed.
