(** C26. *)
From Verif Require Import Base Links Table Refs RefsSpec RefsProofs.
Open Scope N_scope.

Lemma careful_legal s c : proper s c -> careful s c -> legal s c.
Proof.
  destruct c as [k [p|]|a|a|e a pr|e a|e x]; cbn; auto. intros H K. split; [exact H|]. intros o G E. specialize (K o G E).
  apply cnt_in. pose proof (cnt_remove1 _ _ a H) as C. rewrite cnt_cons, Pos.eqb_refl in C. fold (cnt (roots s) a) in K. lia.
Qed.
Lemma start_good : good start.
Proof. split; [|split; [|split]]; [split; [constructor|split; cbn; [discriminate|lia]]| | |]; cbn; try discriminate; auto; intros a o; cbn; discriminate. Qed.
Lemma reached_good s : reached careful s -> good s.
Proof.
  induction 1 as [|s c s' fr e R IH P C E]; [apply start_good|]. destruct (exec_good s c IH (careful_legal _ _ P C)) as (s2 & fr2 & e2 & E2 & G & _).
  rewrite E in E2. assert (s' = s2) by congruence. subst. exact G.
Qed.

(** The counter of every object is the number of references to it, and an object exists exactly while there is a reference
    to it.  (In particular deleting a table's entry frees nothing another reference is held to.) *)
Theorem C26_alive_iff_referenced_partial s : reached careful s ->
  forall a, (alive s a <-> (0 < references s a)%nat) /\ (forall o, get (hp s) a = Some o -> refs o = N.of_nat (references s a)).
Proof.
  intros R a. destruct (reached_good s R) as ((ND & RC & AL) & _ & Q & _). split; [split|].
  - intros A. destruct (get (hp s) a) as [o|] eqn:G; [|contradiction A; exact G]. pose proof (RC a o G) as H. pose proof (Q a o G). change (references s a) with (cnt (roots s ++ allkids (hp s)) a). lia.
  - intros H. apply AL. exact H.
  - intros o G. exact (RC a o G).
Qed.
(** No proper call touches freed memory, frees twice or recurses without end; dropping reports "freed" exactly when the
    dropped reference was the only one, and then, and only then, the object is gone. *)
Theorem C26_drop_frees_last_partial s c : reached careful s -> proper s c -> careful s c ->
  exists s' freed e, exec s c = Ret (s', freed, e) /\
  forall a, c = Drop a -> e = OK /\ (freed = true <-> references s a = 1%nat) /\ (freed = true <-> ~ alive s' a).
Proof.
  intros R P C. destruct (exec_good s c (reached_good s R) (careful_legal _ _ P C)) as (s' & fr & e & E & G & D). exists s', fr, e. split; [exact E|].
  intros a Ea. destruct (D a Ea) as (D1 & D2 & D3). split; [exact D1|]. split; [exact D2|]. rewrite D3. unfold alive. destruct (get (hp s') a); split; intros H; try congruence; try (intros K; congruence). exfalso; apply H; discriminate.
Qed.
(** Taking one reference more than the counter can hold is refused and changes nothing. *)
Theorem C26_overflow_refused s a o : get (hp s) a = Some o -> refs o <= u32_max ->
  exec s (Get a) = if refs o =? u32_max then Ret (s, false, OVERFLOW_AVERTED)
                   else Ret (mkst (set (hp s) a (mko (refs o + 1) (link o) (acts o) (okind o))) (a :: roots s) (next s), false, OK).
Proof.
  intros G L. cbn [exec]. unfold checkout. rewrite G. cbn [ub_none bind]. destruct (N.ltb_spec (u32_max - refs o) 1), (N.eqb_spec (refs o) u32_max); try lia; cbn [bind is_success]; [destruct s|]; reflexivity.
Qed.
(** Dropping a reference to an object without references is refused and changes nothing. *)
Theorem C26_underflow_refused s a o : get (hp s) a = Some o -> refs o = 0 -> exists s', exec s (Drop a) = Ret (s', false, INTERNAL_CHECK_FATAL) /\ hp s' = hp s.
Proof. intros G Z. cbn [exec]. unfold drop_. cbn [drop]. rewrite G. cbn [ub_none bind]. rewrite Z. cbn [N.eqb bind]. eexists. split; reflexivity. Qed.

Ltac step R c ok := match type of R with reached ?k ?s =>
  let R' := fresh "R" in
  match eval vm_compute in (exec s c) with Ret (?s', ?f, ?e) =>
    assert (R' : reached k s') by (refine (reached_call k s c s' f e R _ _ _); [solve [cbn; auto; ok]|solve [exact I | ok]|vm_compute; reflexivity]);
    clear R; rename R' into R end end.
Ltac nocfg := cbn; let o := fresh in let E := fresh in intros o E ?; injection E as <-; discriminate.
(** Without the restriction the claim is false: drop an event with its own configuration while a route still
    refers to it, then the route: the route reads the freed configuration (routes.c 599, 607, 612, 586). *)
Theorem C26_use_after_free_refuted :
  ~ (forall s c, reached any s -> proper s c -> exists s' freed e, exec s c = Ret (s', freed, e)).
Proof.
  intros H. pose proof (reached_start any) as R. unfold start in R.
  step R (New (KEvent true) None) idtac. step R (New KRoute (Some 1%positive)) idtac. step R (Drop 1%positive) idtac.
  destruct (H _ (Drop 2%positive) R) as (s' & fr & e & E); [left; reflexivity|]. vm_compute in E. discriminate.
Qed.
(** Objects that refer to each other keep each other alive: an event made its own auxiliary event stays allocated after the
    last outside reference is dropped (events.c 608-656 accepts it). *)
Theorem C26_cycle_leak_refuted :
  ~ (forall s a, reached any s -> ~ In a (roots s) -> (forall b o, get (hp s) b = Some o -> b <> a -> ~ In a (kids o)) -> ~ alive s a).
Proof.
  intros H. pose proof (reached_start any) as R. unfold start in R.
  step R (New (KEvent false) None) idtac. step R (SetAux 1%positive (Some 1%positive)) ltac:(split; [auto|intros a E; injection E as <-; auto]). step R (Drop 1%positive) idtac.
  refine (H _ 1%positive R _ _ _); cbn [roots hp].
  - intros [].
  - intros b o. cbn [get]. destruct (Pos.eqb_spec 1 b); [congruence|discriminate].
  - unfold alive. cbn. discriminate.
Qed.

(** A reached state with an event kept alive only by a route and an action kept alive only by the event: dropping the route
    takes down all three. *)
Example C26_case : exists s, reached careful s /\ references s 1%positive = 1%nat /\ references s 2%positive = 1%nat /\ alive s 2%positive /\
   proper s (Drop 3%positive) /\ careful s (Drop 3%positive) /\
   exists s', exec s (Drop 3%positive) = Ret (s', true, OK) /\ hp s' = [].
Proof.
  pose proof (reached_start careful) as R. unfold start in R.
  step R (New (KEvent false) None) idtac. step R (New KAction None) idtac. step R (New KRoute (Some 1%positive)) idtac.
  step R (AddAction 1%positive 2%positive false) idtac. step R (Drop 2%positive) nocfg. step R (Drop 1%positive) nocfg.
  eexists. split; [exact R|]. split; [reflexivity|]. split; [reflexivity|]. split; [discriminate|]. split; [left; reflexivity|]. split; [nocfg|eexists; split; vm_compute; reflexivity].
Qed.
Print Assumptions C26_alive_iff_referenced_partial.
Print Assumptions C26_drop_frees_last_partial.
Print Assumptions C26_overflow_refused.
Print Assumptions C26_underflow_refused.
Print Assumptions C26_use_after_free_refuted.
Print Assumptions C26_cycle_leak_refuted.
