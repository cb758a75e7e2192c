(** Route life cycle: plain and thrifty histories. *)
From Verif Require Import Base Links LinksProofs LLProofs Table TableSpec TableProofs Keyed Purge PurgeSpec PurgeProofs PurgeSteps PurgeLog.
Open Scope Z_scope.

Definition ans {A B} (m : out (A * B)) : option B := match m with Ret (_, s) => Some s | _ => None end.

(** ** Plain histories are calm *)
Definition idle_ok (r : robj) : Prop := r_conns r = 0%N /\ r_pend r = false.
Definition still (s : pst) : Prop := (forall a r, ob s a = Some r -> idle_ok r) /\ (forall e, 0 <= e_idle (evs s e)).
Lemma still_same s s' : ob s' = ob s -> evs s' = evs s -> still s -> still s'.
Proof. intros A B. unfold still. rewrite A, B. auto. Qed.
Lemma still_relinked s s' : relinked s s' -> still s -> still s'.
Proof. intros R. apply relinked_same in R. apply still_same; tauto. Qed.
Lemma still_obj s a r : still s -> idle_ok r -> still (set_obj s a (Some r)).
Proof. intros [A B] C. split; [|exact B]. intros x y. cbn. unfold upd. destruct (Pos.eqb x a); [intros X; injection X as <-; exact C|apply A]. Qed.
Lemma still_taken s s' a r : ob s a = Some r -> taken s s' a r -> still s -> still s'.
Proof.
  intros O TK [A B]. split; [|rewrite (t_evs _ _ _ _ TK); exact B]. intros x y OX. destruct (Pos.eq_dec x a) as [->|NE]; [|rewrite (t_ob _ _ _ _ TK) in OX by exact NE; exact (A x y OX)].
  destruct (t_a _ _ _ _ TK y OX) as [n ->]. exact (A a r O).
Qed.
Lemma still_takes P s g s' : takes P s g s' -> still s -> still s'.
Proof. induction 1 as [|s s1 s2 a r g O T PP TK _ IH]; intros K; [exact K|]. apply IH. exact (still_taken _ _ _ _ O TK K). Qed.
Lemma still_stale s mode now clock e s' : stale_purge s mode now clock = Ret (e, s') -> still s -> still s'.
Proof. intros H K. apply stale_purge_any in H. destruct H as [->|(t & g & _ & G)]; [exact K|exact (still_takes _ _ _ _ G K)]. Qed.
Lemma still_delete s a d e s' : delete_0 s a d = Ret (e, s') -> still s -> still s'.
Proof.
  intros H K. assert (D : delete_0 s a false = Ret (e, s')).
  { unfold delete_0 in *. inv_bind H. apply deref_ret in E. destruct (proj1 K a v E) as [C _]. rewrite C in H. cbn [N.ltb N.compare] in H. rewrite andb_false_r in H. exact H. }
  apply delete_any in D. destruct D as (r & O & [(_ & _ & ->)|(_ & _ & TK)]); [exact K|exact (still_taken _ _ _ _ O TK K)].
Qed.
Lemma still_drop s a s' : drop_ref s a = Ret s' -> still s -> still s'.
Proof.
  intros H [A B]. apply drop_any in H. destruct H as (r & O & _ & _ & _ & EV & _ & _ & F & G). split; [|rewrite EV; exact B]. intros x y OX. destruct (Pos.eq_dec x a) as [->|NE].
  - destruct (G y OX) as [n ->]. exact (A a r O).
  - rewrite F in OX by exact NE. exact (A x y OX).
Qed.
Lemma still_retime s a t s' : retime s a t = Ret s' -> still s -> still s'.
Proof.
  intros H K. unfold retime in H. inv_bind H. apply deref_ret in E. inv_bind H. apply cond_relinked in E0. assert (K1 : still (set_obj v0 a (Some (with_purge v t)))) by (apply still_obj; [exact (still_relinked _ _ E0 K)|exact (proj1 K a v E)]).
  destruct (t =? 0); [injection H as <-; exact K1|]. exact (still_relinked _ _ (pl_insert_relinked _ _ _ H) K1).
Qed.
Lemma still_actions s a stop hres e s' : run_insert_actions s a stop hres = Ret (e, s') -> still s -> still s'.
Proof.
  intros H K. unfold run_insert_actions in H. inv_bind H. apply deref_ret in E. destruct (e_ins _); cbn [negb] in H; [|injection H as _ <-; exact K]. destruct stop; [injection H as _ <-; exact K|]. destruct (r_ic v); injection H as _ <-; [exact K|].
  apply (still_same (set_obj s a (Some (with_ic v true)))); [reflexivity|reflexivity|]. apply still_obj; [exact K|exact (proj1 K a v E)].
Qed.
Lemma still_insert_1 s a clock stop hres e there s' : insert_1 s a false clock stop hres = Ret (e, there, s') -> still s -> still s'.
Proof.
  intros H K. unfold insert_1 in H. inv_bind H. apply deref_ret in E. destruct clock as [now|]; [|injection H as _ _ <-; exact K].
  destruct (negb (r_purge v =? 0) && (r_purge v <=? now)); [injection H as _ _ <-; exact K|]. cbv zeta in H. pose proof (proj1 K a v E) as IV.
  match type of H with context [set_obj s a (Some ?x)] => set (r2 := x) in * end.
  assert (I2 : idle_ok r2) by (unfold r2; match goal with |- context [if ?b then _ else _] => destruct b end; exact IV).
  inv_bind H. destruct v0 as [e1 s1].
  assert (K1 : still s1). { destruct (negb (r_purge r2 =? 0) && _ && _); [apply (still_stale _ _ _ _ _ _ E0)|injection E0 as _ <-]; apply still_obj; assumption. }
  destruct (is_success e1); cbn [negb] in H; [|injection H as _ _ <-; exact K1].
  destruct (kinsert rkey kcmp (tb s1) (r_key r2, a)) as [t|].
  - inv_bind H. destruct v0 as [e2 s2]. apply still_actions in E1; [|apply still_obj; [exact K1|exact I2]]. inv_bind H. apply deref_ret in E2. inv_bind H. injection H as _ _ <-.
    match type of E3 with (if _ then Ret ?x else _) = _ => set (s3 := x) in * end.
    assert (K3 : still s3). { unfold s3. destruct (is_success e2); [exact E1|]. apply (still_obj (set_tb s2 _)); [exact E1|exact (proj1 E1 a v0 E2)]. }
    destruct (r_purge v0 =? 0); [injection E3 as <-; exact K3|]. exact (still_relinked _ _ (pl_insert_relinked _ _ _ E3) K3).
  - destruct (kfind rkey kcmp (tb s1) (r_key r2)) as [[k' b]|]; [|injection H as _ _ <-; exact K1]. inv_bind H. apply deref_ret in E1. destruct (r_pend v0); [|injection H as _ _ <-; exact K1]. inv_bind H. injection H as _ _ <-.
    apply (still_retime _ _ _ _ E2). apply still_obj; [exact K1|]. destruct (proj1 K1 b v0 E1). split; [assumption|reflexivity].
Qed.
Lemma still_flush : forall L s e s', flush_loop L s = Ret (e, s') -> still s -> still s'.
Proof.
  induction L as [|[k a] L IH]; cbn [flush_loop]; intros s e s' H K; [injection H as _ <-; exact K|]. inv_bind H. destruct v as [e1 s1]. apply still_delete in E; [|exact K]. destruct (is_success e1); [exact (IH _ _ _ H E)|]. injection H as _ <-. exact E.
Qed.
Lemma still_bulk h : forall L stop s e s', bulk_loop L h stop s = Ret (e, s') -> still s -> still s'.
Proof.
  induction L as [|[k a] L IH]; cbn [bulk_loop]; intros stop s e s' H K; [injection H as _ <-; exact K|]. inv_bind H. inv_bind H. destruct v0 as [e1 s1]. apply still_actions in E0; [|exact K].
  destruct (is_success e1 || _); [exact (IH _ _ _ _ H E0)|]. injection H as _ <-. exact E0.
Qed.
Lemma still_clear : forall L s s', clear_loop L s = Ret s' -> still s -> still s'.
Proof.
  induction L as [|[k a] L IH]; cbn [clear_loop]; intros s s' H K; [injection H as <-; exact K|]. inv_bind H. apply deref_ret in E. apply (IH _ _ H). apply still_obj; [exact K|exact (proj1 K a v E)].
Qed.
Lemma still_step s o e s' : plain o -> step s o = Ret (e, s') -> still s -> still s'.
Proof.
  intros P H K. destruct o as [k ev t conn clock stop hres|k|k conns clock clock2|now clock2|a t|clock|clock|clock|n clock|t| |h| |k|a|x v]; cbn [step plain] in *; try contradiction.
  - destruct P as (_ & -> & _). unfold insert_2, alloc in H. inv_bind H. destruct v as [[e1 th] s1]. apply still_insert_1 in E.
    + inv_bind H. injection H as _ <-. destruct th, (is_success e1); try exact (still_drop _ _ _ E0 E). injection E0 as <-. exact E.
    + destruct K as [A B]. split; [|exact B]. cbn. intros x y. unfold upd. destruct (Pos.eqb x (brk s)); [|apply A]. intros X. injection X as <-. split; reflexivity.
  - destruct (kfind rkey kcmp (tb s) k) as [[k' a]|]; [exact (still_delete _ _ _ _ _ H K)|injection H as _ <-; exact K].
  - inv_bind H. destruct v as [e1 s1]. injection H as _ <-. exact (still_stale _ _ _ _ _ _ E K).
  - exact (still_stale _ _ _ _ _ _ H K).
  - exact (still_stale _ _ _ _ _ _ H K).
  - exact (still_stale _ _ _ _ _ _ H K).
  - destruct (_ && _); [exact (still_stale _ _ _ _ _ _ H K)|]. injection H as _ <-. exact K.
  - injection H as _ <-. exact K.
  - exact (still_flush _ _ _ _ H K).
  - exact (still_bulk _ _ _ _ _ _ H K).
  - inv_bind H. injection H as _ <-. exact (still_clear _ _ _ E K).
  - destruct (kfind rkey kcmp (tb s) k) as [[k' a]|]; [|injection H as _ <-; exact K]. inv_bind H. apply deref_ret in E. injection H as _ <-. apply still_obj; [exact K|exact (proj1 K a v E)].
  - injection H as _ <-. destruct K as [A B]. split; [exact A|]. intros y. cbn. destruct (N.eqb y x); [exact P|apply B].
Qed.
Lemma still_unblocked s now x : still s -> unblocked s now x.
Proof. intros [A _] a r [_ O] _ _ _. destruct (A a r O) as [C _]. unfold blocks. rewrite C. reflexivity. Qed.
Lemma plain_gentle s held o : still s -> plain o -> gentle s held o /\ orderly s o.
Proof.
  intros K P. assert (CK : forall now c, clock_ok s now c None) by (intros now c t _; exact (still_unblocked s t None K)).
  split; [|destruct o; try exact Logic.I; destruct P]. destruct o as [k ev t conn clock stop hres|k|k conns clock clock2|now clock2|a t|clock|clock|clock|n clock|t| |h| |k|a|x v]; cbn [plain gentle] in *; try contradiction; auto.
  - destruct P as (T0 & -> & NP & -> & HS). split; [|split].
    + intros _ [X|X]; congruence.
    + intros now a r _ [_ O] _ PD. destruct (proj1 K a r O). congruence.
    + intros now EN. specialize (NP now EN). unfold time_on_insert. pose proof (proj2 K ev). destruct (Z.ltb_spec 0 (e_idle (evs s ev))); cbn [andb]; [|intros ->; lia]. destruct (Z.eqb_spec t 0); lia.
  - intros a r [_ O] _ C. destruct (proj1 K a r O). lia.
Qed.
Lemma plain_calm : forall os s held l, still s -> inv s held l -> Forall plain os -> calm s held os /\ neat s os.
Proof.
  induction os as [|o os IH]; intros s held l K I F; [split; exact Logic.I|]. inversion F as [|? ? F1 F2]; subst. destruct (plain_gentle s held o K F1) as [G OR]. destruct (step_ok s held l o I G) as (e & s1 & l1 & E & I1 & _).
  cbn [calm neat]. rewrite E. destruct (IH s1 _ l1 (still_step _ _ _ _ F1 E K) I1 F2). auto.
Qed.
Lemma still_init ev : (forall e, 0 <= e_idle (ev e)) -> still (pinit ev).
Proof. intros H. split; [discriminate|exact H]. Qed.

(** ** Counting purgeable routes *)
Definition thin (s s' : pst) : Prop := exists f, tb s' = filter f (tb s) /\ forall x, In x (tb s') -> has_purge_time s' x = true -> has_purge_time s x = true.
Lemma filter_filter {A} (f g : A -> bool) l : filter f (filter g l) = filter (fun x => g x && f x) l.
Proof. induction l as [|x l IH]; cbn; [reflexivity|]. destruct (g x); cbn; [destruct (f x); rewrite IH; reflexivity|exact IH]. Qed.
Lemma thin_refl s s' : tb s' = tb s -> (forall x, In x (tb s') -> has_purge_time s' x = true -> has_purge_time s x = true) -> thin s s'.
Proof. intros E H. exists (fun _ => true). split; [rewrite E; clear E H; induction (tb s) as [|x l IH]; cbn; congruence|exact H]. Qed.
Lemma thin_trans s1 s2 s3 : thin s1 s2 -> thin s2 s3 -> thin s1 s3.
Proof.
  intros (f & A & B) (g & C & D). exists (fun x => f x && g x). split; [rewrite C, A, filter_filter; reflexivity|]. intros x I H. apply B; [|exact (D x I H)]. rewrite C in I. apply filter_In in I. tauto.
Qed.
Lemma thin_le s s' : thin s s' -> (n_purgeable s' <= n_purgeable s)%nat.
Proof.
  intros (f & A & B). unfold n_purgeable. rewrite A in *. clear A. assert (G : forall l, (forall x, In x (filter f l) -> has_purge_time s' x = true -> has_purge_time s x = true) -> (length (filter (has_purge_time s') (filter f l)) <= length (filter (has_purge_time s) l))%nat).
  { induction l as [|x l IH]; intros H; cbn; [lia|]. cbn in H. destruct (f x).
    - specialize (IH (fun y I => H y (or_intror I))). pose proof (H x (or_introl eq_refl)) as HX. cbn. destruct (has_purge_time s' x); [rewrite HX by reflexivity; cbn; lia|destruct (has_purge_time s x); cbn; lia].
    - specialize (IH H). destruct (has_purge_time s x); cbn; lia. }
  exact (G _ B).
Qed.
Lemma thin_obj s a r r' : ob s a = Some r -> (r_purge r' <> 0 -> r_purge r <> 0) -> thin s (set_obj s a (Some r')).
Proof.
  intros O P. apply thin_refl; [reflexivity|]. intros x _. unfold has_purge_time. cbn. unfold upd. change (@snd N positive x) with (@snd N addr x). destruct (Pos.eqb_spec (@snd N addr x) a) as [E|NE]; [|auto]. rewrite E, O.
  intros H. apply negb_true_iff, Z.eqb_neq in H. apply negb_true_iff, Z.eqb_neq. auto.
Qed.
Lemma thin_relinked s s' : relinked s s' -> thin s s'.
Proof. intros (h & d & n & ->). apply thin_refl; auto. Qed.
Lemma thin_taken s s' a r : taken s s' a r -> thin s s'.
Proof.
  intros TK. eexists. split; [exact (t_tb _ _ _ _ TK)|]. intros x I. unfold has_purge_time. rewrite (t_ob _ _ _ _ TK); [auto|]. rewrite (t_tb _ _ _ _ TK) in I. apply untable_in in I. tauto.
Qed.
Lemma thin_takes P s g s' : takes P s g s' -> thin s s'.
Proof. induction 1 as [|s s1 s2 a r g O T PP TK _ IH]; [apply thin_refl; auto|]. exact (thin_trans _ _ _ (thin_taken _ _ _ _ TK) IH). Qed.
Lemma thin_stale s mode now clock e s' : stale_purge s mode now clock = Ret (e, s') -> thin s s'.
Proof. intros H. apply stale_purge_any in H. destruct H as [->|(t & g & _ & G)]; [apply thin_refl; auto|exact (thin_takes _ _ _ _ G)]. Qed.
Lemma thin_eq s s' : tb s' = tb s -> ob s' = ob s -> thin s s'.
Proof. intros A B. apply thin_refl; [exact A|]. intros x _. unfold has_purge_time. rewrite B. auto. Qed.
Lemma thin_actions s a stop hres e s' : run_insert_actions s a stop hres = Ret (e, s') -> thin s s' /\ maxp s' = maxp s.
Proof.
  intros H. unfold run_insert_actions in H. inv_bind H. apply deref_ret in E. destruct (e_ins _); cbn [negb] in H; [|injection H as _ <-; split; [apply thin_eq; reflexivity|reflexivity]]. destruct stop; [injection H as _ <-; split; [apply thin_eq; reflexivity|reflexivity]|].
  destruct (r_ic v); injection H as _ <-; (split; [|reflexivity]); [apply thin_eq; reflexivity|]. apply (thin_trans _ (set_obj s a (Some (with_ic v true)))); [apply (thin_obj _ _ _ _ E); auto|apply thin_eq; reflexivity].
Qed.
Lemma thin_delete_now s a e s' : delete_0 s a false = Ret (e, s') -> thin s s' /\ maxp s' = maxp s.
Proof. intros H. apply delete_any in H. destruct H as (r & O & [(_ & _ & ->)|(_ & _ & TK)]); [split; [apply thin_eq; reflexivity|reflexivity]|split; [exact (thin_taken _ _ _ _ TK)|exact (t_max _ _ _ _ TK)]]. Qed.
Lemma thin_flush : forall L s e s', flush_loop L s = Ret (e, s') -> thin s s' /\ maxp s' = maxp s.
Proof.
  induction L as [|[k a] L IH]; cbn [flush_loop]; intros s e s' H; [injection H as _ <-; split; [apply thin_eq; reflexivity|reflexivity]|]. inv_bind H. destruct v as [e1 s1]. apply thin_delete_now in E. destruct E as [T1 M1].
  destruct (is_success e1); [|injection H as _ <-; auto]. destruct (IH _ _ _ H) as [T2 M2]. split; [exact (thin_trans _ _ _ T1 T2)|congruence].
Qed.
Lemma thin_bulk h : forall L stop s e s', bulk_loop L h stop s = Ret (e, s') -> thin s s' /\ maxp s' = maxp s.
Proof.
  induction L as [|[k a] L IH]; cbn [bulk_loop]; intros stop s e s' H; [injection H as _ <-; split; [apply thin_eq; reflexivity|reflexivity]|]. inv_bind H. inv_bind H. destruct v0 as [e1 s1]. apply thin_actions in E0. destruct E0 as [T1 M1].
  destruct (is_success e1 || _); [|injection H as _ <-; auto]. destruct (IH _ _ _ _ H) as [T2 M2]. split; [exact (thin_trans _ _ _ T1 T2)|congruence].
Qed.
Lemma thin_clear : forall L s s', clear_loop L s = Ret s' -> thin s s' /\ maxp s' = maxp s.
Proof.
  induction L as [|[k a] L IH]; cbn [clear_loop]; intros s s' H; [injection H as <-; split; [apply thin_eq; reflexivity|reflexivity]|]. inv_bind H. apply deref_ret in E. destruct (IH _ _ H) as [T2 M2]. split; [|exact M2].
  refine (thin_trans _ _ _ (thin_obj _ _ _ _ E _) T2). auto.
Qed.
Lemma thin_retime s a r t s' : ob s a = Some r -> (t = 0 \/ r_purge r <> 0) -> retime s a t = Ret s' -> thin s s' /\ maxp s' = maxp s.
Proof.
  intros O P H. unfold retime in H. unfold deref in H. rewrite O in H. cbn [ub_none bind] in H. inv_bind H. apply cond_relinked in E. pose proof (relinked_same _ _ E) as (A1 & _ & M1 & _).
  assert (T1 : thin s (set_obj v a (Some (with_purge r t)))). { apply (thin_trans _ v); [exact (thin_relinked _ _ E)|]. apply (thin_obj _ _ r); [rewrite A1; exact O|]. cbn. destruct P; [congruence|auto]. }
  destruct (t =? 0); [injection H as <-; auto|]. apply pl_insert_relinked in H. split; [exact (thin_trans _ _ _ T1 (thin_relinked _ _ H))|]. apply relinked_same in H. destruct H as (_ & _ & -> & _). exact M1.
Qed.
Lemma thin_step s o e s' : frugal s o -> (match o with Delete k => forall k' a, kfind rkey kcmp (tb s) k = Some (k', a) -> exists r, route s a r /\ r_key r = k | _ => True end) ->
  (match o with Insert _ _ _ _ _ _ _ => False | _ => True end) -> step s o = Ret (e, s') -> thin s s' /\ maxp s' = maxp s.
Proof.
  intros FG FK NI H. destruct o as [k ev t conn clock stop hres|k|k conns clock clock2|now clock2|a t|clock|clock|clock|n clock|t| |h| |k|a|x v]; cbn [step frugal] in *; try contradiction.
  - destruct (kfind rkey kcmp (tb s) k) as [[k' a]|]; [|injection H as _ <-; split; [apply thin_eq; reflexivity|reflexivity]]. destruct (FK k' a eq_refl) as (r & R & KR). specialize (FG a r R KR).
    destruct (0 <? r_conns r)%N eqn:B.
    + destruct FG as [X|NZ]; [rewrite X in B; discriminate|]. unfold delete_0, deref in H. rewrite (proj2 R) in H. cbn [ub_none bind] in H. rewrite B in H. cbn [andb] in H. unfold defer_delete in H.
      assert (T0 : thin s (set_obj s a (Some (with_pend r true)))) by (apply (thin_obj _ _ _ _ (proj2 R)); auto).
      destruct (_ <? _); [|injection H as _ <-; split; [exact T0|reflexivity]]. inv_bind H. apply cond_relinked in E. pose proof (relinked_same _ _ E) as (A1 & _ & M1 & _). inv_bind H. apply pl_insert_relinked in E0. injection H as _ <-.
      split; [|apply relinked_same in E0; destruct E0 as (_ & _ & -> & _); exact M1]. refine (thin_trans _ _ _ T0 (thin_trans _ _ _ (thin_relinked _ _ E) (thin_trans _ _ _ _ (thin_relinked _ _ E0)))).
      apply (thin_obj _ _ (with_pend r true)); [rewrite A1; cbn; apply upd_eq|]. cbn. auto.
    + assert (D : delete_0 s a false = Ret (e, s')). { unfold delete_0, deref in *. rewrite (proj2 R) in *. cbn [ub_none bind] in *. rewrite B in H. exact H. }
      exact (thin_delete_now _ _ _ _ D).
  - destruct (kfind rkey kcmp (tb s) k) as [[k' a]|]; [|injection H as _ <-; split; [apply thin_eq; reflexivity|reflexivity]]. unfold dispatch_hit in H. inv_bind H. apply deref_ret in E. inv_bind H. inv_bind H. destruct v1 as [e1 s1]. inv_bind H. apply deref_ret in E2. injection H as _ <-.
    pose proof (thin_stale _ _ _ _ _ _ E1) as T1. destruct (stale_frame _ _ _ _ _ _ E1) as (M1 & _).
    assert (T0 : thin s v0 /\ maxp v0 = maxp s).
    { unfold refresh in E0. inv_bind E0. apply deref_ret in E3. assert (v2 = v) by congruence. subst v2. set (r1 := match clock with Some t => with_hit v t | None => v end) in *.
      assert (T0 : thin s (set_obj s a (Some r1))) by (apply (thin_obj _ _ _ _ E); unfold r1; destruct clock; auto). cbv zeta in E0. destruct (Z.eqb_spec (r_purge r1) 0) as [Z0|NZ]; [injection E0 as <-; split; [exact T0|reflexivity]|].
      destruct (_ >=? _); [|injection E0 as <-; split; [exact T0|reflexivity]].
      assert (T2 : forall t, thin s (set_obj (set_obj s a (Some r1)) a (Some (with_purge r1 t)))) by (intros t; apply (thin_trans _ _ _ T0); apply (thin_obj _ _ r1); [cbn; apply upd_eq|auto]).
      destruct (eqo a _); [injection E0 as <-; split; [apply T2|reflexivity]|]. inv_bind E0. apply pl_delete_relinked in E4. apply pl_insert_relinked in E0. split; [exact (thin_trans _ _ _ (T2 _) (thin_trans _ _ _ (thin_relinked _ _ E4) (thin_relinked _ _ E0)))|].
      apply relinked_same in E4, E0. destruct E4 as (_ & _ & X & _), E0 as (_ & _ & -> & _). exact X. }
    destruct T0 as [T0 M0]. split; [|cbn; congruence]. refine (thin_trans _ _ _ T0 (thin_trans _ _ _ T1 (thin_obj _ _ _ _ E2 _))). auto.
  - inv_bind H. destruct v as [e1 s1]. injection H as _ <-. split; [exact (thin_stale _ _ _ _ _ _ E)|exact (proj1 (stale_frame _ _ _ _ _ _ E))].
  - inv_bind H. apply deref_ret in E. destruct (r_in v || _)%bool; [|discriminate]. inv_bind H. injection H as _ <-. apply (thin_retime _ _ _ _ _ E) in E0; [exact E0|]. destruct FG as [X|(r & O & NZ)]; [auto|right; congruence].
  - split; [exact (thin_stale _ _ _ _ _ _ H)|exact (proj1 (stale_frame _ _ _ _ _ _ H))].
  - split; [exact (thin_stale _ _ _ _ _ _ H)|exact (proj1 (stale_frame _ _ _ _ _ _ H))].
  - split; [exact (thin_stale _ _ _ _ _ _ H)|exact (proj1 (stale_frame _ _ _ _ _ _ H))].
  - injection H as _ <-. split; [apply thin_eq; reflexivity|reflexivity].
  - exact (thin_flush _ _ _ _ H).
  - exact (thin_bulk _ _ _ _ _ _ H).
  - inv_bind H. injection H as _ <-. exact (thin_clear _ _ _ E).
  - destruct (kfind rkey kcmp (tb s) k) as [[k' a]|]; [|injection H as _ <-; split; [apply thin_eq; reflexivity|reflexivity]]. inv_bind H. apply deref_ret in E. injection H as _ <-. split; [apply (thin_obj _ _ _ _ E); auto|reflexivity].
  - inv_bind H. injection H as _ <-. apply drop_any in E. destruct E as (r & O & TB & MX & _ & _ & _ & _ & F & G). split; [|exact MX]. apply thin_refl; [exact TB|]. intros x _. unfold has_purge_time.
    destruct (Pos.eq_dec (@snd N addr x) a) as [E|NE]; [|rewrite F by exact NE; auto]. rewrite E, O. destruct (ob v a) as [y|] eqn:OY; [|discriminate]. destruct (G y eq_refl) as [n ->]. auto.
  - injection H as _ <-. split; [apply thin_eq; reflexivity|reflexivity].
Qed.
Lemma limit_step s held l o e s' : inv s held l -> gentle s held o -> frugal s o -> 0 < maxp s -> Z.of_nat (n_purgeable s) <= maxp s -> step s o = Ret (e, s') ->
  Z.of_nat (n_purgeable s') <= maxp s' /\ maxp s' = maxp s.
Proof.
  intros I G FG MP LE E. assert (NI : (exists k ev t conn clock stop hres, o = Insert k ev t conn clock stop hres) \/ match o with Insert _ _ _ _ _ _ _ => False | _ => True end) by (destruct o; eauto 12).
  destruct NI as [(k & ev & t & conn & clock & stop & hres & ->)|NI].
  - destruct (insert_2_ok s held l k ev t conn clock stop hres I G) as (e' & s2 & l' & E' & I' & _ & BD & MX). cbn [step] in E. rewrite E' in E. injection E as <- <-. split; [|exact MX].
    rewrite (n_purgeable_len _ _ _ I'), MX. rewrite (n_purgeable_len _ _ _ I) in LE. specialize (BD MP). lia.
  - destruct (thin_step s o e s' FG) as [T M]; [|exact NI|exact E|split; [apply thin_le in T; lia|exact M]].
    destruct o; auto. intros k' a F. pose proof (core_find _ _ k (i_core _ _ _ I)) as C. rewrite F in C. destruct C as (_ & r & _ & _ & KR & R). eauto.
Qed.
Lemma limit_run : forall os s held l es s', inv s held l -> calm s held os -> thrifty s os -> 0 < maxp s -> Z.of_nat (n_purgeable s) <= maxp s -> run s os = Ret (es, s') ->
  Z.of_nat (n_purgeable s') <= maxp s' /\ maxp s' = maxp s.
Proof.
  induction os as [|o os IH]; intros s held l es s' I C T MP LE E; cbn [run calm thrifty] in *; [injection E as _ <-; auto|].
  destruct C as [G C], T as [FG T]. destruct (step_ok s held l o I G) as (e1 & s1 & l1 & E1 & I1 & _). rewrite E1 in *. cbn [bind] in E. inv_bind E. destruct v as [es2 s2]. injection E as _ <-.
  destruct (limit_step _ _ _ _ _ _ I G FG MP LE E1) as [LE1 M1]. destruct (IH _ _ _ _ _ I1 C T ltac:(lia) LE1 E0) as [LE2 M2]. split; [exact LE2|congruence].
Qed.
