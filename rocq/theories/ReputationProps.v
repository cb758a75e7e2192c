(** Reputation counters: the theorems (C73). *)
From Verif Require Import Base Atomic AtomicSpec AtomicProofs AtomicProps Reputation ReputationSpec.
Open Scope Z_scope.

Definition call_of (o : op) : call :=
  match o with OInc x => Add (Z.of_N x) | ODec x => Add (- Z.of_N x) | _ => Reset end.
Definition is_call (o : op) : Prop := match o with OInc x | ODec x => x <> 0%N | OReset => True | OFlags _ _ => False end.

Lemma op_of_proper : forall c, proper c -> exists o, op_of c = Some o /\ call_of o = c /\ is_call o.
Proof.
  intros [n|] P; cbn in P.
  - unfold op_of. destruct (0 <? n) eqn:E.
    + exists (OInc (Z.to_N n)). split; [reflexivity|]. cbn. split; [f_equal; lia|lia].
    + change (- 2 ^ 31) with (-2147483648). destruct (n =? -2147483648) eqn:F; [lia|].
      exists (ODec (Z.to_N (- n))). split; [reflexivity|]. cbn. split; [f_equal; lia|lia].
  - exists OReset. cbn. auto.
Qed.

Lemma ops_proper : forall l, (forall c, In c l -> proper c) -> map call_of (ops l) = l /\ (forall o, In o (ops l) -> is_call o) /\
  List.length (ops l) = List.length l.
Proof.
  induction l as [|c l IH]; intros P; [cbn; repeat split; auto; contradiction|].
  destruct (op_of_proper c (P c (or_introl eq_refl))) as (o & E & F & G).
  destruct IH as (I1 & I2 & I3); [intros; apply P; right; auto|].
  unfold ops in *. cbn [flat_map]. rewrite E. cbn [app map List.length In]. rewrite F, I1. split; [reflexivity|]. split.
  - intros x [<-|Q]; auto.
  - rewrite I3. reflexivity.
Qed.

Definition lift (e : nat * op * outv) : nat * call * (err * option Z) :=
  let '(i, o, r) := e in (i, call_of o, answer_of (call_of o) r).

Lemma once_rep : forall o v, is_call o -> (v <= 65535)%N ->
  rep (Z.of_N v) (call_of o) = (Z.of_N (fst (once 65535 o v)), answer_of (call_of o) (snd (once 65535 o v))) /\ (fst (once 65535 o v) <= 65535)%N.
Proof.
  intros [x|x|a b|] v C V; cbn in C; try contradiction; cbn [call_of rep once].
  - assert (P : (0 <? Z.of_N x) = true) by lia.
    destruct (N.leb_spec (v + x) 65535); cbn [fst snd answer_of]; rewrite P.
    + assert (Q : (0 <=? Z.of_N v + Z.of_N x) && (Z.of_N v + Z.of_N x <=? 65535) = true) by lia. rewrite Q.
      destruct (N.eqb_spec (v + x) 0); [lia|]. rewrite N2Z.inj_add. auto.
    + assert (Q : (0 <=? Z.of_N v + Z.of_N x) && (Z.of_N v + Z.of_N x <=? 65535) = false) by lia. rewrite Q. auto.
  - assert (P : (0 <? - Z.of_N x) = false) by lia.
    destruct (N.leb_spec x v); cbn [fst snd answer_of]; rewrite P.
    + assert (Q : (0 <=? Z.of_N v + - Z.of_N x) && (Z.of_N v + - Z.of_N x <=? 65535) = true) by lia. rewrite Q.
      destruct (N.eqb_spec (v - x) 65535); [lia|]. rewrite N2Z.inj_sub by lia. split; [reflexivity|lia].
    + assert (Q : (0 <=? Z.of_N v + - Z.of_N x) && (Z.of_N v + - Z.of_N x <=? 65535) = false) by lia. rewrite Q. auto.
  - split; [reflexivity|cbn; lia].
Qed.

Lemma in_order_lift : forall l v v', (forall i o r, In (i, o, r) l -> is_call o) -> (v <= 65535)%N ->
  one_at_a_time 65535 v l v' -> in_order (Z.of_N v) (map lift l) (Z.of_N v') /\ (v' <= 65535)%N.
Proof.
  induction l as [|[[i o] r] l IH]; intros v v' C V H.
  - cbn in *. subst. auto.
  - cbn [one_at_a_time] in H. destruct H as [H1 H2]. cbn [map lift in_order].
    destruct (once_rep o v) as [R1 R2]; [eapply C; left; reflexivity|exact V|].
    rewrite R1. cbn [fst snd]. destruct (IH _ _ (fun i' o' r' Q => C i' o' r' (or_intror Q)) R2 H2) as [K1 K2].
    split; [|exact K2]. split; [rewrite H1; reflexivity|exact K1].
Qed.

Lemma by_lift : forall i l, calls_by i (map lift l) = map call_of (ops_of i l).
Proof.
  induction l as [|[[j o] r] l IH]; [reflexivity|]. unfold calls_by, ops_of in *. cbn [map lift filter fst].
  destruct (Nat.eqb j i); cbn [map fst snd]; rewrite IH; reflexivity.
Qed.
Lemma to_lift : forall i l, answers_to i (map lift l) = map (fun '(o, r) => answer_of (call_of o) r) (combine (ops_of i l) (outs_of i l)).
Proof.
  induction l as [|[[j o] r] l IH]; [reflexivity|]. unfold answers_to, ops_of, outs_of in *. cbn [map lift filter fst].
  destruct (Nat.eqb j i); cbn [map fst snd combine]; rewrite IH; reflexivity.
Qed.
Lemma combine_calls : forall os rs, map (fun '(o, r) => answer_of (call_of o) r) (combine os rs) = answers (map call_of os) rs.
Proof. unfold answers. induction os as [|o os IH]; intros [|r rs]; try reflexivity. cbn. rewrite IH. reflexivity. Qed.
Lemma combine_cut : forall {A B} (l m : list A) (rs : list B), List.length l = List.length rs -> combine (l ++ m) rs = combine l rs.
Proof. induction l as [|a l IH]; intros m [|r rs] E; try discriminate; cbn; [destruct m; reflexivity|]. rewrite IH by (cbn in E; lia). reflexivity. Qed.

Lemma in_ops_of : forall l i o r, In (i, o, r) l -> In o (ops_of i l).
Proof.
  intros l i o r H. unfold ops_of. apply in_map_iff. exists (i, o, r). split; [reflexivity|]. apply filter_In. split; [exact H|].
  cbn. apply Nat.eqb_refl.
Qed.

(** Any number of threads adding to and resetting the counter, any schedule: there is an order of the calls, that keeps the order
    of each thread and only grows, in which one call at a time gives the counter and all the answers of the threads that are not
    in a call. *)
Theorem C73_counters_partial : forall v0 (p : nat -> list call), (v0 <= 65535)%N -> (forall i c, In c (p i) -> proper c) ->
  exists order : list nat -> list (nat * call * (err * option Z)),
  forall sched, let s := run 65535 sched (start v0 (fun i => ops (p i))) in
    in_order (Z.of_N v0) (order sched) (Z.of_N (val s)) /\ (val s <= 65535)%N /\
    (forall i, pcs s i = Idle -> progs s i = [] ->
       calls_by i (order sched) = p i /\ answers_to i (order sched) = answers (p i) (results s i)) /\
    (forall i, exists rest, p i = (calls_by i (order sched) ++ rest)%list) /\
    forall later, exists more, order (sched ++ later)%list = (order sched ++ more)%list.
Proof.
  intros v0 p V P. change 65535%N with (N.ones 16) in V.
  destruct (C25_linearizable 16 v0 (fun i => ops (p i)) V) as [ord H].
  { intros i o I. destruct (ops_proper (p i) (P i)) as (_ & Q & _). specialize (Q o I). destruct o; cbn in *; auto. contradiction. }
  exists (fun sched => map lift (ord sched)). intros sched s. specialize (H sched).
  change (N.ones 16) with 65535%N in H. fold s in H. destruct H as (H1 & H2 & H3 & H4 & H5).
  assert (IC : forall i o r, In (i, o, r) (ord sched) -> is_call o).
  { intros i o r I. apply in_ops_of in I. destruct (H2 i) as (cur & E & _).
    destruct (ops_proper (p i) (P i)) as (_ & Q & _). apply Q. cbn beta in E. rewrite E. apply in_or_app. left. exact I. }
  change (N.ones 16) with 65535%N in V. destruct (in_order_lift _ _ _ IC V H1) as [K1 K2].
  split; [exact K1|]. split; [exact K2|]. split; [|split].
  - intros i ID PE. destruct (H4 i ID) as [E1 E2]. rewrite PE, app_nil_r in E1. rewrite by_lift, to_lift.
    destruct (ops_proper (p i) (P i)) as (Q & _). rewrite <- E1, Q, E2, combine_calls, Q. auto.
  - intros i. rewrite by_lift. destruct (H2 i) as (cur & E & _). destruct (ops_proper (p i) (P i)) as (Q & _).
    exists (map call_of (cur ++ progs s i)%list). rewrite <- map_app, <- E. auto.
  - intros later. destruct (H5 later) as [more E]. exists (map lift more). rewrite E, map_app. reflexivity.
Qed.

(** Adding nothing to a full counter is reported as an overflow. *)
Theorem C73_zero_refuted : exists sched, let s := run 65535 sched (start 65535 (fun i => if Nat.eqb i 0 then ops [Add 0] else [])) in
  pcs s 0%nat = Idle /\ progs s 0%nat = [] /\ val s = 65535%N /\
  answers [Add 0] (results s 0%nat) = [(OVERFLOW_AVERTED, None)] /\ snd (rep 65535 (Add 0)) = (OK, Some 65535).
Proof. exists [0; 0; 0]%nat. vm_compute. repeat split. Qed.
(** Subtracting 2^31 is undefined. *)
Theorem C73_min_refuted : op_of (Add (- 2 ^ 31)) = None.
Proof. reflexivity. Qed.

(** A concrete case: two threads, one adds 3 and resets, the other subtracts 3 and has to try again. *)
Example C73_example : let s := run 65535 [0; 0; 1; 0; 1; 1; 1; 1; 0; 0; 0; 0]%nat
    (start 4 (fun i => match i with 0%nat => ops [Add 3; Reset] | 1%nat => ops [Add (-3)] | _ => [] end)) in
  val s = 0%N /\ answers [Add 3; Reset] (results s 0%nat) = [(OK, Some 7); (OK, Some 4)] /\
  answers [Add (-3)] (results s 1%nat) = [(OK, Some 4)].
Proof. vm_compute. repeat split. Qed.

Print Assumptions C73_counters_partial.
Print Assumptions C73_zero_refuted.
Print Assumptions C73_min_refuted.
