(** Lemmas for C25. *)
From Verif Require Import Base Atomic AtomicSpec.
Open Scope N_scope.

(** The operand of a flag update has the width of the word. *)
Definition fits (max : N) (o : op) : Prop := match o with OFlags set _ => set <= max | _ => True end.
Lemma ones_le w v : v <= N.ones w <-> v < 2 ^ w.
Proof. rewrite N.ones_equiv. pose proof (N.pow_nonzero 2 w). lia. Qed.
Lemma lor_fits w a b : a <= N.ones w -> b <= N.ones w -> N.lor a b <= N.ones w.
Proof.
  rewrite !ones_le. intros A B. destruct (N.eq_dec (N.lor a b) 0) as [->|NZ]; [lia|].
  apply N.log2_lt_pow2; [lia|]. rewrite N.log2_lor.
  assert (L : forall x, x < 2 ^ w -> x <> 0 -> N.log2 x < w) by (intros x H1 H2; apply N.log2_lt_pow2; [lia|exact H1]).
  destruct (N.eq_dec a 0) as [->|NA]; destruct (N.eq_dec b 0) as [->|NB].
  - cbn in NZ. congruence.
  - change (N.log2 0) with 0. rewrite N.max_0_l. auto.
  - change (N.log2 0) with 0. rewrite N.max_0_r. auto.
  - apply N.max_lub_lt; auto.
Qed.
Lemma ldiff_le a b : N.ldiff a b <= a.
Proof. pose proof (N.sub_nocarry_ldiff (N.ldiff a b) a). rewrite <- (N.lor_ldiff_and a b) at 2. rewrite <- N.lxor_lor, <- N.add_nocarry_lxor; [lia| |].
  - apply N.bits_inj. intros k. rewrite N.land_spec, N.ldiff_spec, N.land_spec, N.bits_0. destruct (N.testbit a k), (N.testbit b k); reflexivity.
  - apply N.bits_inj. intros k. rewrite N.land_spec, N.ldiff_spec, N.land_spec, N.bits_0. destruct (N.testbit a k), (N.testbit b k); reflexivity.
Qed.
Lemma body_once w o v : let max := N.ones w in v <= max -> fits max o ->
  match body max o v with Leave r => once max o v = (v, r) | Swap post r => once max o v = (post, r) end /\ fst (once max o v) <= max.
Proof.
  intros max LE F. destruct o as [x|x|set clr|]; cbn [body once fits] in *.
  - destruct (N.ltb_spec (max - v) x).
    + destruct (N.leb_spec (v + x) max); [lia|]. split; [reflexivity|exact LE].
    + rewrite N.mod_small by lia. destruct (N.leb_spec (v + x) max); [|lia]. destruct (N.eqb_spec (v + x) v) as [->|]; (split; [reflexivity|cbn [fst]; lia]).
  - destruct (N.ltb_spec v x).
    + destruct (N.leb_spec x v); [lia|]. split; [reflexivity|exact LE].
    + destruct (N.leb_spec x v); [|lia]. destruct (N.eqb_spec (v - x) v) as [->|]; (split; [reflexivity|cbn [fst]; lia]).
  - assert (N.ldiff (N.lor v set) clr <= max) by (etransitivity; [apply ldiff_le|apply lor_fits; assumption]).
    destruct (N.eqb_spec (N.ldiff (N.lor v set) clr) v) as [->|]; (split; [reflexivity|cbn [fst]; assumption]).
  - destruct (N.eqb_spec v 0) as [->|]; (split; [reflexivity|cbn [fst]; lia]).
Qed.

(** The linearisation: an operation is entered when its compare-and-swap succeeds, or when it loads the value with which it
    will leave the loop. *)
Definition settled (max : N) (i : nat) (o : op) (pre : N) : list (nat * op * outv) := match body max o pre with Leave r => [(i, o, r)] | Swap _ _ => [] end.
Definition entries (max : N) (i : nat) (s : state) : list (nat * op * outv) :=
  match pcs s i with
  | Idle => match progs s i with [] => [] | o :: _ => settled max i o (val s) end
  | Loaded _ _ => []
  | Swapping o pre post r => if val s =? pre then [(i, o, r)] else settled max i o (val s)
  end.
Fixpoint lin (max : N) (sched : list nat) (s : state) : list (nat * op * outv) :=
  match sched with [] => [] | i :: sched => entries max i s ++ lin max sched (step max i s) end.

Lemma one_app max l1 : forall v l2 v', one_at_a_time max v (l1 ++ l2) v' <-> exists m, one_at_a_time max v l1 m /\ one_at_a_time max m l2 v'.
Proof.
  induction l1 as [|[[i o] r] l1 IH]; intros v l2 v'; cbn [app one_at_a_time].
  - split; [intros H; exists v; auto|intros (m & -> & H); exact H].
  - rewrite IH. split; [intros (E & m & A & B); exists m; auto|intros (m & (E & A) & B); split; [exact E|exists m; auto]].
Qed.
Lemma ops_app i a b : ops_of i (a ++ b) = ops_of i a ++ ops_of i b.
Proof. unfold ops_of. rewrite filter_app, map_app. reflexivity. Qed.
Lemma outs_app i a b : outs_of i (a ++ b) = outs_of i a ++ outs_of i b.
Proof. unfold outs_of. rewrite filter_app, map_app. reflexivity. Qed.

(** What holds of thread [i] after log [l]. *)
Definition thread_ok (max : N) (p : nat -> list op) (s : state) (l : list (nat * op * outv)) (i : nat) : Prop :=
  match pcs s i with
  | Idle => p i = ops_of i l ++ progs s i /\ outs_of i l = results s i
  | Loaded o pre => pre <= max /\ In o (p i) /\
      match body max o pre with
      | Leave r => p i = ops_of i l ++ progs s i /\ outs_of i l = results s i ++ [r]
      | Swap _ _ => p i = ops_of i l ++ o :: progs s i /\ outs_of i l = results s i
      end
  | Swapping o pre post r => pre <= max /\ In o (p i) /\ body max o pre = Swap post r /\ p i = ops_of i l ++ o :: progs s i /\ outs_of i l = results s i
  end.
Definition inv (max v0 : N) (p : nat -> list op) (s : state) (l : list (nat * op * outv)) : Prop :=
  val s <= max /\ one_at_a_time max v0 l (val s) /\ forall i, thread_ok max p s l i.

Lemma upd_same {A} (f : nat -> A) i x : upd f i x i = x. Proof. unfold upd. rewrite Nat.eqb_refl. reflexivity. Qed.
Lemma upd_other {A} (f : nat -> A) i x j : j <> i -> upd f i x j = f j. Proof. intros H. unfold upd. destruct (Nat.eqb_spec j i); congruence. Qed.
Lemma settled_other max i o pre j : j <> i -> ops_of j (settled max i o pre) = [] /\ outs_of j (settled max i o pre) = [].
Proof. intros H. unfold settled. destruct (body max o pre); [|split; reflexivity]. unfold ops_of, outs_of. cbn. destruct (Nat.eqb_spec i j); [congruence|]. split; reflexivity. Qed.
Lemma entries_other max i s j : j <> i -> ops_of j (entries max i s) = [] /\ outs_of j (entries max i s) = [].
Proof.
  intros H. unfold entries. destruct (pcs s i) as [|? ?|o pre post r].
  - destruct (progs s i); [split; reflexivity|]. apply settled_other. exact H.
  - split; reflexivity.
  - destruct (val s =? pre); [|apply settled_other; exact H]. unfold ops_of, outs_of. cbn. destruct (Nat.eqb_spec i j); [congruence|]. split; reflexivity.
Qed.
Lemma step_other max i s j : j <> i -> pcs (step max i s) j = pcs s j /\ progs (step max i s) j = progs s j /\ results (step max i s) j = results s j.
Proof.
  intros H. unfold step. destruct (pcs s i) as [|o pre|o pre post r].
  - destruct (progs s i); [auto|]. cbn [pcs progs results]. rewrite !upd_other by exact H. auto.
  - destruct (body max o pre); cbn [pcs progs results]; rewrite !upd_other by exact H; auto.
  - destruct (val s =? pre); cbn [pcs progs results]; rewrite !upd_other by exact H; auto.
Qed.
Lemma inv_step w v0 p s l i : let max := N.ones w in (forall j o, In o (p j) -> fits max o) -> inv max v0 p s l -> inv max v0 p (step max i s) (l ++ entries max i s).
Proof.
  intros max FT (LE & OT & TH).
  assert (OTH : forall j, j <> i -> thread_ok max p (step max i s) (l ++ entries max i s) j).
  { intros j Hj. destruct (step_other max i s j Hj) as (E1 & E2 & E3). destruct (entries_other max i s j Hj) as (E4 & E5). specialize (TH j).
    unfold thread_ok in *. rewrite E1, E2, E3, ops_app, outs_app, E4, E5, !app_nil_r. exact TH. }
  pose proof (TH i) as TI. unfold thread_ok in TI.
  assert (SET : forall o, fits max o -> one_at_a_time max (val s) (settled max i o (val s)) (val s)).
  { intros o F. unfold settled. pose proof (body_once w o (val s) LE F) as [B _]. destruct (body (N.ones w) o (val s)) eqn:EB; fold max in EB; rewrite EB; [|reflexivity].
    cbn [one_at_a_time]. fold max in B. rewrite B. auto. }
  assert (SELF : forall o, ops_of i (settled max i o (val s)) = match body max o (val s) with Leave _ => [o] | Swap _ _ => [] end /\
                           outs_of i (settled max i o (val s)) = match body max o (val s) with Leave r => [r] | Swap _ _ => [] end).
  { intros o. unfold settled. destruct (body max o (val s)); [|split; reflexivity]. unfold ops_of, outs_of. cbn. rewrite Nat.eqb_refl. split; reflexivity. }
  unfold inv, entries in *. unfold step in *. destruct (pcs s i) as [|o pre|o pre post r] eqn:EP.
  - destruct (progs s i) as [|o rest] eqn:EG.
    + rewrite app_nil_r. split; [exact LE|]. split; [exact OT|]. exact TH.
    + destruct TI as [TP TO]. assert (IN : In o (p i)) by (rewrite TP; apply in_or_app; right; left; reflexivity). cbn [val]. split; [exact LE|]. split.
      * apply one_app. exists (val s). split; [exact OT|]. apply SET. eauto.
      * intros j. destruct (Nat.eq_dec j i) as [->|Hj]; [|apply OTH; exact Hj].
        unfold thread_ok. cbn [pcs progs results]. rewrite !upd_same. split; [exact LE|]. split; [exact IN|]. destruct (SELF o) as [S1 S2]. rewrite ops_app, outs_app, S1, S2.
        destruct (body max o (val s)); rewrite ?app_nil_r, <- ?app_assoc; cbn [app]; rewrite ?TO; auto.
  - destruct TI as (LP & IN & TI). rewrite app_nil_r in *. destruct (body max o pre) as [r|post r] eqn:EB; cbn [val].
    + split; [exact LE|]. split; [exact OT|]. intros j. destruct (Nat.eq_dec j i) as [->|Hj]; [|apply OTH; exact Hj].
      unfold thread_ok. cbn [pcs progs results]. rewrite !upd_same. exact TI.
    + split; [exact LE|]. split; [exact OT|]. intros j. destruct (Nat.eq_dec j i) as [->|Hj]; [|apply OTH; exact Hj].
      unfold thread_ok. cbn [pcs progs results]. rewrite !upd_same. auto.
  - destruct TI as (LP & IN & EB & TP & TO). destruct (N.eqb_spec (val s) pre) as [EV|EV]; cbn [val].
    + pose proof (body_once w o pre LP (FT _ _ IN)) as [B1 B2]. fold max in B1, B2. rewrite EB in B1. rewrite B1 in B2. cbn [fst] in B2. split; [exact B2|]. split.
      * apply one_app. exists (val s). split; [exact OT|]. cbn [one_at_a_time]. rewrite EV, B1. auto.
      * intros j. destruct (Nat.eq_dec j i) as [->|Hj]; [|apply OTH; exact Hj].
        unfold thread_ok. cbn [pcs progs results]. rewrite !upd_same, ops_app, outs_app. unfold ops_of at 2, outs_of at 2. cbn. rewrite Nat.eqb_refl. cbn.
        rewrite <- app_assoc. cbn [app]. rewrite TO. auto.
    + split; [exact LE|]. split.
      * apply one_app. exists (val s). split; [exact OT|]. apply SET. eauto.
      * intros j. destruct (Nat.eq_dec j i) as [->|Hj]; [|apply OTH; exact Hj].
        unfold thread_ok. cbn [pcs progs results]. rewrite !upd_same. split; [exact LE|]. split; [exact IN|]. destruct (SELF o) as [S1 S2]. rewrite ops_app, outs_app, S1, S2.
        destruct (body max o (val s)); rewrite ?app_nil_r, <- ?app_assoc; cbn [app]; rewrite ?TO; auto.
Qed.
Lemma inv_run w v0 p sched : let max := N.ones w in (forall j o, In o (p j) -> fits max o) -> forall s l, inv max v0 p s l -> inv max v0 p (run max sched s) (l ++ lin max sched s).
Proof.
  intros max FT. induction sched as [|i sched IH]; intros s l I; cbn [run fold_left lin]; [rewrite app_nil_r; exact I|].
  rewrite app_assoc. apply IH. apply inv_step; assumption.
Qed.
Lemma inv_start max v0 p : v0 <= max -> inv max v0 p (start v0 p) [].
Proof. intros H. split; [exact H|]. split; [reflexivity|]. intros i. cbn. split; reflexivity. Qed.
Lemma lin_app max s1 s2 : forall s, lin max (s1 ++ s2) s = lin max s1 s ++ lin max s2 (run max s1 s).
Proof. induction s1 as [|i s1 IH]; intros s; cbn [app lin run fold_left]; [reflexivity|]. rewrite IH, app_assoc. reflexivity. Qed.
