(** Consequences of the invariant, and executions as data. *)
From Verif Require Import Base RwLock RwLockSpec RwLockProofs RwLockInv RwLockTac RwLockReach.
Open Scope Z_scope.

Ltac places P := unfold place, base, fresh, promoting in P;
  repeat match goal with
  | H : _ /\ _ |- _ => destruct H
  | H : exists _, _ |- _ => destruct H
  | H : match at_ ?t with _ => _ end |- _ => destruct (at_ t) eqn:?
  | H : match holds ?c with _ => _ end |- _ => destruct (holds c) eqn:?
  | H : match ?s with _ => _ end |- _ => destruct s eqn:?
  | H : False |- _ => destruct H
  end.
Lemma hold_mutex L i t cl n : linv L i (t, cl) -> holds cl = HMutex n -> wh L = Some i /\ rh L <> Some i /\ 1 <= n /\ mrc t = n /\ n = hc L /\ rec t = 0 /\ resv cl = false.
Proof.
  intros (A & B & C & P & D & E & F) H. cbn [fst snd] in *. rewrite <- is_true, <- is_false.
  assert (Q : base (is (wh L) i) (is (rh L) i) t cl) by (unfold place in P; unfold fresh, promoting in P; destruct (at_ t); try tauto; [destruct s, k; try tauto; hyps; congruence| | |]; hyps; congruence).
  unfold base in Q. rewrite H in Q. hyps. split_all; try assumption; try congruence; [apply is_true; assumption|]. rewrite <- H2. apply E; [apply is_true; assumption|assumption].
Qed.
Lemma hold_shared L i t cl n : linv L i (t, cl) -> holds cl = HShared n -> rec t = n /\ 1 <= n /\ (resv cl = true -> rh L = Some i) /\ mrc t = b2z (is (rh L) i).
Proof.
  intros (A & B & C & P & D & E & F) H. cbn [fst snd] in *. rewrite <- is_true.
  assert (Q : base (is (wh L) i) (is (rh L) i) t cl \/ exists p k, promoting (is (rh L) i) t cl p k) by (unfold place in P; unfold fresh in P; destruct (at_ t); try tauto; [destruct s, k; try tauto; hyps; congruence|hyps; congruence| |]; right; hyps; eauto).
  destruct Q as [Q|(p & k & Q)].
  - unfold base in Q. rewrite H in Q. destruct Q as (Q1 & Q2 & Q3 & Q4 & Q5). split_all; try assumption; congruence.
  - unfold promoting in Q. destruct Q as ((x & Q1 & Q2 & Q3) & Q4 & Q5 & _). assert (x = n) by congruence. subst. rewrite Q5. cbn. split_all; try assumption; reflexivity.
Qed.
Lemma hold_none L i t cl : linv L i (t, cl) -> holds cl = HNone -> resv cl = false /\ wh L <> Some i /\ rh L <> Some i.
Proof.
  intros (A & B & C & P & D & E & F) H. cbn [fst snd] in *. rewrite <- !is_false.
  assert (Q : base (is (wh L) i) (is (rh L) i) t cl \/ fresh (is (wh L) i) (is (rh L) i) t cl) by (unfold place in P; unfold promoting in P; destruct (at_ t); try tauto; [destruct s, k; try tauto| |]; hyps; congruence).
  destruct Q as [Q|Q]; [unfold base in Q; rewrite H in Q|unfold fresh in Q]; hyps; auto.
Qed.
Lemma resv_holder L i t cl : linv L i (t, cl) -> resv cl = true -> rh L = Some i /\ exists n, holds cl = HShared n.
Proof.
  intros LL R. destruct (holds cl) as [|n|n] eqn:H.
  - destruct (hold_none L i t cl LL H) as [X _]. congruence.
  - destruct (hold_shared L i t cl n LL H) as (_ & _ & X & _). eauto.
  - destruct (hold_mutex L i t cl n LL H) as (_ & _ & _ & _ & _ & _ & X). congruence.
Qed.

(** Executions as data. *)
Definition properb (cl : client) (c : call) : bool :=
  match c with
  | Unlock f => match holds cl with HNone => false | HShared n => negb (resv cl) || negb (n =? 1) || abandon_too f | HMutex _ => true end
  | Reserve | Shared2Mutex _ => match holds cl with HNone => false | _ => true end
  | _ => true
  end.
Lemma properb_ok cl c : properb cl c = true -> proper cl c.
Proof.
  destruct c; cbn; auto; try (destruct (holds cl); discriminate || (intros _ H; discriminate H)).
  destruct (holds cl) as [|n|n]; try discriminate; intros H; (split; [discriminate|]); intros R E; try discriminate E. assert (n = 1) by congruence. subst. rewrite R in H. exact H.
Qed.
Definition sys_step (s : sys) (i : nat) (ch : choice) : option sys :=
  match nth_error (snd s) i with
  | Some (t, cl) =>
    if match ch with Do c => properb cl c | _ => true end then
      match step (fst s) t i ch with Some (L', t') => Some (L', upd (snd s) i (t', after_step ch t' cl)) | None => None end
    else None
  | None => None
  end.
Fixpoint run (s : sys) (tr : list (nat * choice)) : option sys :=
  match tr with [] => Some s | (i, ch) :: tr => match sys_step s i ch with Some s' => run s' tr | None => None end end.
Lemma sys_step_ok s i ch s' (ok : call -> Prop) : (forall c, ch = Do c -> ok c) -> sys_step s i ch = Some s' -> sstep ok s i ch s'.
Proof.
  unfold sys_step. destruct s as [L l]. cbn [fst snd]. intros O. destruct (nth_error l i) as [[t cl]|] eqn:N; [|discriminate].
  destruct (match ch with Do c => properb cl c | _ => true end) eqn:P; [|discriminate]. destruct (step L t i ch) as [[L' t']|] eqn:E; [|discriminate]. intros H. injection H as <-.
  eapply do_step; [exact N| |exact E]. intros c ->. split; [apply properb_ok; exact P|apply O; reflexivity].
Qed.
Lemma run_reach (ok : call -> Prop) tr : forall s s', reach ok s -> Forall (fun x => forall c, snd x = Do c -> ok c) tr -> run s tr = Some s' -> reach ok s'.
Proof.
  induction tr as [|[i ch] tr IH]; cbn; intros s s' R F H; [injection H as <-; exact R|].
  inversion F as [|x y F1 F2]; subst. destruct (sys_step s i ch) as [s1|] eqn:E; [|discriminate]. eapply IH; [eapply reach_step; [exact R|eapply sys_step_ok; [exact F1|exact E]]|exact F2|exact H].
Qed.
Lemma any_trace tr : Forall (fun x : nat * choice => forall c, snd x = Do c -> any c) tr.
Proof. apply Forall_forall. intros x _ c _. exact I. Qed.
