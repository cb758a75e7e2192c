(** C25: counters and flag words under every interleaving. *)
From Verif Require Import Base Atomic AtomicSpec AtomicProofs.
Open Scope N_scope.

(** Linearizability.  For every width, initial value, set of per-thread programs and schedule there is an order of the
    operations such that executing them one at a time gives the value of the word and every result returned so far; the order
    keeps the order of each thread; at most one operation of a thread, the one it is in, is ahead of its results or missing
    from the order; and the order only grows as the execution goes on, so an operation that returned before another one began
    precedes it. *)
Theorem C25_linearizable : forall w v0 p, let max := N.ones w in
  v0 <= max -> (forall i o, In o (p i) -> fits max o) ->
  exists order : list nat -> list (nat * op * outv),
    forall sched, let s := run max sched (start v0 p) in
      one_at_a_time max v0 (order sched) (val s) /\
      (forall i, exists current, p i = ops_of i (order sched) ++ current ++ progs s i /\ (length current <= 1)%nat) /\
      (forall i, exists current, outs_of i (order sched) = results s i ++ current /\ (length current <= 1)%nat) /\
      (forall i, pcs s i = Idle -> p i = ops_of i (order sched) ++ progs s i /\ outs_of i (order sched) = results s i) /\
      forall later, exists more, order (sched ++ later) = order sched ++ more.
Proof.
  intros w v0 p max LE FT. exists (fun sched => lin max sched (start v0 p)). intros sched s.
  pose proof (inv_run w v0 p sched FT (start v0 p) [] (inv_start max v0 p LE)) as (_ & OT & TH). cbn [app] in OT, TH. fold max in OT, TH. fold s in OT, TH.
  split; [exact OT|]. split; [|split; [|split]].
  - intros i. specialize (TH i). unfold thread_ok in TH. destruct (pcs s i) as [|o pre|o pre post r].
    + exists []. split; [exact (proj1 TH)|cbn; lia].
    + destruct TH as (_ & _ & TH). destruct (body max o pre).
      * exists []. split; [exact (proj1 TH)|cbn; lia].
      * exists [o]. split; [exact (proj1 TH)|cbn; lia].
    + destruct TH as (_ & _ & _ & TH & _). exists [o]. split; [exact TH|cbn; lia].
  - intros i. specialize (TH i). unfold thread_ok in TH. destruct (pcs s i) as [|o pre|o pre post r].
    + exists []. rewrite app_nil_r. split; [exact (proj2 TH)|cbn; lia].
    + destruct TH as (_ & _ & TH). destruct (body max o pre) as [r|].
      * exists [r]. split; [exact (proj2 TH)|cbn; lia].
      * exists []. rewrite app_nil_r. split; [exact (proj2 TH)|cbn; lia].
    + destruct TH as (_ & _ & _ & _ & TH). exists []. rewrite app_nil_r. split; [exact TH|cbn; lia].
  - intros i HI. specialize (TH i). unfold thread_ok in TH. rewrite HI in TH. exact TH.
  - intros later. rewrite lin_app. eauto.
Qed.
(** Counters: when all threads are done, the counter is the initial value plus the increments that did not report overflow (0)
    minus the decrements that did not report underflow (all ones).  Nothing is lost and nothing wraps. *)
Definition counter_op (o : op) : Prop := match o with OInc _ | ODec _ => True | _ => False end.
Definition effect (max : N) (o : op) (r : outv) : Z :=
  match o, r with
  | OInc x, Out r => if r =? 0 then 0%Z else Z.of_N x
  | ODec x, Out r => if r =? max then 0%Z else (- Z.of_N x)%Z
  | _, _ => 0%Z
  end.
Definition zsum (l : list Z) : Z := fold_right Z.add 0%Z l.
Definition thread_effect (max : N) (p : list op) (rs : list outv) : Z := zsum (map (fun '(o, r) => effect max o r) (combine p rs)).
Definition finished (n : nat) (s : state) : Prop := forall i, (i < n)%nat -> pcs s i = Idle /\ progs s i = [].
Lemma zsum_app a b : zsum (a ++ b) = (zsum a + zsum b)%Z. Proof. unfold zsum. induction a as [|x a IH]; cbn; [reflexivity|]. lia. Qed.
Lemma zsum_cons x l : zsum (x :: l) = (x + zsum l)%Z. Proof. reflexivity. Qed.
Lemma one_effect max l : forall v v', v <= max -> (forall i o r, In (i, o, r) l -> counter_op o) -> one_at_a_time max v l v' ->
  Z.of_N v' = (Z.of_N v + zsum (map (fun e => effect max (snd (fst e)) (snd e)) l))%Z.
Proof.
  induction l as [|[[i o] r] l IH]; intros v v' LE C H; cbn [one_at_a_time map zsum fold_right] in *; [subst; lia|]. destruct H as [-> H].
  assert (E : fst (once max o v) <= max /\ Z.of_N (fst (once max o v)) = (Z.of_N v + effect max o (snd (once max o v)))%Z).
  { pose proof (C i o _ (or_introl eq_refl)) as CO. destruct o as [x|x|set clr|]; cbn in CO; try tauto; cbn [once effect].
    - destruct (N.leb_spec (v + x) max); cbn [fst snd].
      + split; [assumption|]. destruct (N.eqb_spec (v + x) 0); lia.
      + split; [assumption|]. rewrite N.eqb_refl. lia.
    - destruct (N.leb_spec x v); cbn [fst snd].
      + split; [lia|]. destruct (N.eqb_spec (v - x) max); lia.
      + split; [assumption|]. rewrite N.eqb_refl. lia. }
  destruct E as [E1 E2]. rewrite (IH _ v' E1 (fun i o r HI => C i o r (or_intror HI)) H). cbn [fst snd]. unfold zsum in *. lia.
Qed.
Lemma split_threads {A} (f : nat * A -> Z) n : forall l, (forall e, In e l -> (fst e < n)%nat) ->
  zsum (map f l) = zsum (map (fun i => zsum (map f (filter (fun e => Nat.eqb (fst e) i) l))) (seq 0 n)).
Proof.
  induction l as [|[i x] l IH]; intros H; cbn [map filter].
  - clear H. induction (seq 0 n) as [|j r IHr]; cbn [map]; [reflexivity|]. cbn [map] in IHr. rewrite zsum_cons, <- IHr. reflexivity.
  - change (zsum (f (i, x) :: map f l)) with (f (i, x) + zsum (map f l))%Z. rewrite IH by (intros e He; apply H; right; exact He).
    assert (L : (i < n)%nat) by (apply (H (i, x)); left; reflexivity). clear IH H.
    assert (G : forall a m, zsum (map (fun j => zsum (map f (if Nat.eqb (fst (i, x)) j then (i, x) :: filter (fun e => Nat.eqb (fst e) j) l else filter (fun e => Nat.eqb (fst e) j) l))) (seq a m)) =
       ((if (a <=? i)%nat && (i <? a + m)%nat then f (i, x) else 0) + zsum (map (fun j => zsum (map f (filter (fun e => Nat.eqb (fst e) j) l))) (seq a m)))%Z).
    { intros a m. revert a. induction m as [|m IHm]; intros a; cbn [seq map].
      - destruct (Nat.leb_spec a i), (Nat.ltb_spec i (a + 0)); cbn [andb]; try lia; reflexivity.
      - rewrite !zsum_cons, IHm. cbn [fst]. destruct (Nat.eqb_spec i a) as [->|NE].
        + cbn [map]. rewrite zsum_cons.
          destruct (Nat.leb_spec (S a) a), (Nat.leb_spec a a), (Nat.ltb_spec a (a + S m)), (Nat.ltb_spec a (S a + m)); cbn [andb]; lia.
        + destruct (Nat.leb_spec (S a) i), (Nat.leb_spec a i), (Nat.ltb_spec i (a + S m)), (Nat.ltb_spec i (S a + m)); cbn [andb]; lia. }
    rewrite G. destruct (Nat.leb_spec 0 i), (Nat.ltb_spec i (0 + n)); cbn [andb]; lia.
Qed.
Theorem C25_counters_exact : forall w v0 n p sched, let max := N.ones w in let s := run max sched (start v0 p) in
  v0 <= max -> (forall i o, In o (p i) -> counter_op o) -> (forall i, (n <= i)%nat -> p i = []) -> finished n s ->
  Z.of_N (val s) = (Z.of_N v0 + zsum (map (fun i => thread_effect max (p i) (results s i)) (seq 0 n)))%Z /\ val s <= max.
Proof.
  intros w v0 n p sched max s LE CO PN FI.
  assert (FT : forall i o, In o (p i) -> fits max o) by (intros i o H; specialize (CO i o H); destruct o; cbn in *; tauto).
  pose proof (inv_run w v0 p sched FT (start v0 p) [] (inv_start max v0 p LE)) as (VM & OT & TH). cbn [app] in OT, TH. fold max in VM, OT, TH. fold s in VM, OT, TH.
  set (l := lin max sched (start v0 p)) in *. split; [|exact VM].
  assert (INI : forall i o r, In (i, o, r) l -> In o (p i)).
  { intros i o r H. assert (Q : In o (ops_of i l)).
    { unfold ops_of. apply in_map_iff. exists (i, o, r). split; [reflexivity|]. apply filter_In. split; [exact H|]. cbn. apply Nat.eqb_refl. }
    specialize (TH i). unfold thread_ok in TH. destruct (pcs s i) as [|o1 pre|o1 pre post r1].
    - rewrite (proj1 TH). apply in_or_app. left. exact Q.
    - destruct TH as (_ & _ & TH). destruct (body max o1 pre); rewrite (proj1 TH); apply in_or_app; left; exact Q.
    - destruct TH as (_ & _ & _ & TH & _). rewrite TH. apply in_or_app. left. exact Q. }
  rewrite (one_effect max l v0 (val s) LE (fun i o r H => CO i o (INI i o r H)) OT). f_equal.
  assert (E : zsum (map (fun e : nat * op * outv => effect max (snd (fst e)) (snd e)) l) =
     zsum (map (fun e : nat * (op * outv) => effect max (fst (snd e)) (snd (snd e))) (map (fun e => (fst (fst e), (snd (fst e), snd e))) l))) by (rewrite map_map; reflexivity).
  rewrite E, (split_threads _ n).
  - f_equal. apply map_ext_in. intros i Hi. apply in_seq in Hi. unfold thread_effect. f_equal.
    specialize (TH i). unfold thread_ok in TH. destruct (FI i ltac:(lia)) as [F1 F2]. rewrite F1, F2, app_nil_r in TH. destruct TH as [T1 T2]. rewrite T1, <- T2. unfold ops_of, outs_of.
    clear. induction l as [|[[j o] r] l IH]; [reflexivity|]. cbn [map filter fst snd]. destruct (Nat.eqb j i); [|exact IH]. cbn [map combine fst snd]. f_equal. exact IH.
  - intros e He. apply in_map_iff in He. destruct He as ([[i o] r] & <- & H). cbn [fst snd]. apply INI in H.
    destruct (Nat.lt_ge_cases i n) as [L|G]; [exact L|]. rewrite (PN i G) in H. destruct H.
Qed.
(** Overflow and underflow are reported, and only then. *)
Theorem C25_reports : forall max x v, v <= max -> 0 < x ->
  (snd (once max (OInc x) v) = Out 0 <-> max < v + x) /\ (snd (once max (ODec x) v) = Out max <-> v < x) /\
  (max < v + x -> fst (once max (OInc x) v) = v) /\ (v < x -> fst (once max (ODec x) v) = v).
Proof.
  intros max x v LE P. cbn [once]. destruct (N.leb_spec (v + x) max), (N.leb_spec x v); cbn [fst snd]; repeat split; intros H1; try lia; try reflexivity; exfalso; assert (E : forall a b, Out a = Out b -> a = b) by congruence; apply E in H1; lia.
Qed.
(** No thread can block another: from any state whatsoever a thread that runs alone completes its operation within four
    steps of its own. *)
Theorem C25_no_blocking : forall w v0 p sched i, let max := N.ones w in let s := run max sched (start v0 p) in
  v0 <= max -> (forall j o, In o (p j) -> fits max o) -> pcs s i <> Idle ->
  exists k, (1 <= k <= 4)%nat /\ pcs (run max (repeat i k) s) i = Idle /\ length (results (run max (repeat i k) s) i) = S (length (results s i)).
Proof.
  intros w v0 p sched i max s LE FT NI. generalize dependent s. intros s NI.
  assert (L1 : forall t o pre, pcs t i = Loaded o pre -> val t = pre -> exists k, (1 <= k <= 2)%nat /\ pcs (run max (repeat i k) t) i = Idle /\ length (results (run max (repeat i k) t) i) = S (length (results t i))).
  { intros t o pre E V. destruct (body max o pre) as [r|post r] eqn:EB.
    - exists 1%nat. split; [lia|]. cbn [repeat run fold_left]. unfold step. rewrite E, EB. cbn [pcs results]. rewrite !upd_same, app_length. cbn. split; [reflexivity|lia].
    - exists 2%nat. split; [lia|]. cbn [repeat run fold_left]. unfold step at 2 4. rewrite E, EB. unfold step. cbn [pcs progs results val]. rewrite upd_same, V, N.eqb_refl. cbn [pcs results]. rewrite !upd_same, app_length. cbn. split; [reflexivity|lia]. }
  assert (L2 : forall t o pre post r, pcs t i = Swapping o pre post r -> exists k, (1 <= k <= 3)%nat /\ pcs (run max (repeat i k) t) i = Idle /\ length (results (run max (repeat i k) t) i) = S (length (results t i))).
  { intros t o pre post r E. destruct (N.eqb_spec (val t) pre) as [V|V].
    - exists 1%nat. split; [lia|]. cbn [repeat run fold_left]. unfold step. rewrite E. rewrite (proj2 (N.eqb_eq _ _) V). cbn [pcs results]. rewrite !upd_same, app_length. cbn. split; [reflexivity|lia].
    - assert (ST : step max i t = mkS (val t) (upd (pcs t) i (Loaded o (val t))) (progs t) (results t)) by (unfold step; rewrite E; rewrite (proj2 (N.eqb_neq _ _) V); reflexivity).
      destruct (L1 (step max i t) o (val t)) as (k & K & A & B); [rewrite ST; cbn; apply upd_same|rewrite ST; reflexivity|].
      exists (S k). split; [lia|]. cbn [repeat run fold_left]. split; [exact A|]. unfold run in B. rewrite B, ST. reflexivity. }
  destruct (pcs s i) as [|o pre|o pre post r] eqn:E; [congruence| |destruct (L2 s o pre post r E) as (k & K & R); exists k; split; [lia|exact R]].
  destruct (N.eq_dec (val s) pre) as [V|V].
  - destruct (L1 s o pre E V) as (k & K & R). exists k. split; [lia|exact R].
  - destruct (body max o pre) as [r|post r] eqn:EB.
    + exists 1%nat. split; [lia|]. cbn [repeat run fold_left]. unfold step. rewrite E, EB. cbn [pcs results]. rewrite !upd_same, app_length. cbn. split; [reflexivity|lia].
    + (* the swap will fail once *)
      assert (ST : step max i s = mkS (val s) (upd (pcs s) i (Swapping o pre post r)) (progs s) (results s)) by (unfold step; rewrite E, EB; reflexivity).
      destruct (L2 (step max i s) o pre post r) as (k & K & A & B); [rewrite ST; cbn; apply upd_same|].
      exists (S k). split; [lia|]. cbn [repeat run fold_left]. split; [exact A|]. unfold run in B. rewrite B, ST. reflexivity.
Qed.

(** Two threads increment, a third decrements a 16-bit counter starting at 65534; schedule with two failed swaps. *)
Definition ex_prog (i : nat) : list op := match i with 0%nat => [OInc 1; OInc 1] | 1%nat => [OInc 1] | 2%nat => [ODec 1] | _ => [] end.
Definition ex_sched : list nat := [0;1;2;0;1;2;0;1;2;1;2;1;2;2;2;0;0;0]%nat.
Example C25_example :
  let s := run u16_max ex_sched (start 65534 ex_prog) in
  finished 3 s /\ val s = 65535 /\ results s 0%nat = [Out 65535; Out 65535] /\ results s 1%nat = [Out 0] /\ results s 2%nat = [Out 65534].
Proof. split; [|repeat split]. intros i Hi. do 3 (destruct i as [|i]; [split; reflexivity|]). lia. Qed.

Print Assumptions C25_linearizable.
Print Assumptions C25_counters_exact.
Print Assumptions C25_reports.
Print Assumptions C25_no_blocking.
