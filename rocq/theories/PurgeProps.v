(** C20-C24: life cycle of the routes. *)
From Verif Require Import Base Links LinksProofs Table TableSpec TableProofs Keyed Purge PurgeSpec PurgeProofs PurgeSteps PurgeLog PurgeUse PurgeCheck.
From Coq Require Import Sorted.
Open Scope Z_scope.

Definition nobody : addr -> N := fun _ => 0%N.
Definition sec (n : Z) : Z := n * 1000000.
(** An event whose routes become stale after 100 s, one after 1 s, and one whose routes are permanent; all have insert and delete actions. *)
Definition evs0 : N -> pev := fun e => mkev (if N.eqb e 0 then sec 100 else if N.eqb e 1 then sec 1 else 0) true true.
Definition ins (k ev : N) (now : Z) : op := Insert k ev 0 false (Some (sec now)) false OK.
Definition ins_conn (k ev : N) (now : Z) : op := Insert k ev 0 true (Some (sec now)) false OK.
Definition hit (k : N) (now : Z) : op := Hit k (fun n => n) (Some (sec now)) None.
Definition final (ev : N -> pev) (os : list op) : out pst := let* (_, s) := run (pinit ev) os in Ret s.
Definition keys (m : out pst) : option (list N) := match m with Ret s => Some (map fst (tb s)) | _ => None end.
Lemma final_run ev os s : final ev os = Ret s -> exists es, run (pinit ev) os = Ret (es, s).
Proof. unfold final. destruct (run (pinit ev) os) as [[es s1]| |]; cbn; [|discriminate|discriminate]. intros H. injection H as <-. eauto. Qed.

(** ** C20 *)
(** In every history, whatever the state of the purge list: a route's insert actions are run at most once per insertion (plus once for each
    explicit reset of the status), its delete actions at most once, and it leaves the table at most once and before its delete actions. *)
Theorem C20_actions_at_most_once : forall ev os es s a, run (pinit ev) os = Ret (es, s) ->
  (times (Inserted a) (log s) <= 1 + clears os)%nat /\ (times (Deleted a) (log s) <= 1)%nat /\ (times (Gone a) (log s) <= 1)%nat
  /\ (times (Deleted a) (log s) <= times (Gone a) (log s))%nat.
Proof.
  intros ev os es s a H. assert (K : once false (clears os + 0) s).
  { apply (run_counts false os (pinit ev) 0 es s); [|apply once_init; discriminate|exact H]. apply Forall_forall. intros o _. destruct o; cbn; try exact I. discriminate. }
  destruct (o_few _ _ _ K a) as [A B C D _]. repeat split; try assumption. lia.
Qed.
(** If every event always has delete actions, they are run exactly once for each route that leaves the table. *)
Theorem C20_delete_actions_exactly_once : forall ev os es s a, (forall e, e_del (ev e) = true) ->
  (forall e v, In (SetEvent e v) os -> e_del v = true) -> run (pinit ev) os = Ret (es, s) -> times (Deleted a) (log s) = times (Gone a) (log s).
Proof.
  intros ev os es s a EV SE H. assert (K : once true (clears os + 0) s).
  { apply (run_counts true os (pinit ev) 0 es s); [|apply once_init; auto|exact H]. apply Forall_forall. intros o IO. destruct o; cbn; try exact I. intros _. exact (SE _ _ IO). }
  exact (f_eq _ _ _ _ (o_few _ _ _ K a) eq_refl).
Qed.
(** A new route of an event with insert actions does get them run, whatever the state. *)
Theorem C20_insert_actions_run : forall s k ev t conn clock hres e s', e_ins (evs s ev) = true -> is_success e = true ->
  step s (Insert k ev t conn clock false hres) = Ret (e, s') -> e <> S_ALREADY_OK -> In (Inserted (brk s)) (log s') /\ e = hres.
Proof.
  intros s k ev t conn clock hres e s' EI SC H NA. cbn [step] in H. unfold insert_2, alloc in H. inv_bind H. destruct v as [[e1 th] s1]. inv_bind H. injection H as <- <-.
  unfold insert_1 in E. unfold deref in E at 1. cbn [ob] in E. rewrite upd_eq in E. cbn [ub_none bind] in E. destruct clock as [now|]; [|injection E as <- _ _; discriminate SC].
  destruct (negb (r_purge _ =? 0) && (r_purge _ <=? now)); [injection E as <- _ _; discriminate SC|]. cbv zeta in E.
  match type of E with context [set_obj ?x (brk s) (Some _)] => set (s2 := x) in * end. match type of E with context [set_obj s2 (brk s) (Some ?y)] => set (r2 := y) in * end.
  assert (R2 : r_ic r2 = false /\ r_ev r2 = ev /\ r_in r2 = false). { unfold r2. destruct conn; match goal with |- context [if ?b then _ else _] => destruct b end; cbn; auto. } destruct R2 as (R2a & R2b & R2c).
  inv_bind E. destruct v0 as [e2 s3].
  assert (F : evs s3 = evs s). { match type of E1 with (if ?b then _ else _) = _ => destruct b end; [|injection E1 as _ <-; reflexivity]. destruct (stale_frame _ _ _ _ _ _ E1) as (_ & _ & X & _). exact X. }
  destruct (is_success e2) eqn:S2; cbn [negb] in E; [|injection E as <- _ _; congruence].
  destruct (kinsert rkey kcmp (tb s3) (r_key r2, brk s)) as [tb'|].
  - unfold run_insert_actions, deref in E. cbn [ob set_obj] in E. rewrite upd_eq in E. cbn [ub_none bind evs set_obj set_tb with_in r_ev r_ic] in E. rewrite F, R2b, EI, R2a in E. cbn [negb bind] in E.
    unfold say in E at 1. cbn [ob set_obj] in E. rewrite upd_eq in E. cbn [ub_none bind] in E. inv_bind E. injection E as <- <- <-. split; [|reflexivity]. rewrite SC in *.
    assert (L : In (Inserted (brk s)) (log v0)).
    { match type of E2 with (if ?b then _ else _) = _ => destruct b end; [injection E2 as <-; cbn; apply in_or_app; cbn; auto|]. apply pl_insert_relinked, relinked_same in E2. destruct E2 as (_ & _ & _ & _ & _ & _ & ->). cbn. apply in_or_app. cbn. auto. }
    injection E0 as <-. exact L.
  - destruct (kfind rkey kcmp (tb s3) (r_key r2)) as [[k' b]|]; [|injection E as <- _ _; discriminate SC]. inv_bind E. destruct (r_pend v0); [|injection E as <- _ _; discriminate SC]. inv_bind E. injection E as <- _ _. congruence.
Qed.
Example C20_use : match final evs0 [ins 1 0 1; BulkInsertActions (fun _ => (OK, false)); Delete 1; ins 1 0 2; BulkClear; BulkInsertActions (fun _ => (OK, false)); StalePurge (Some (sec 200))] with
  | Ret s => (log s, tb s) | _ => ([], []) end
  = ([Inserted 1; Gone 1; Deleted 1; Inserted 2; Inserted 2; Gone 2; Deleted 2]%positive, []).
Proof. vm_compute. reflexivity. Qed.

(** ** C21 *)
(** Deleting a route that has connections leaves it in the table, pending, to be purged 60 s after its last hit at the earliest; a route
    without connections is removed at once.  For the states reached by calm histories. *)
Theorem C21_delete_deferred_partial : forall ev os es s a r, calm (pinit ev) nobody os -> run (pinit ev) os = Ret (es, s) -> route s a r ->
  ((0 < r_conns r)%N -> (r_purge r < r_hit r + FIN_TIMEOUT -> r_hit r + FIN_TIMEOUT <> 0 /\ may_move s a (r_hit r + FIN_TIMEOUT)) ->
     exists s' r', step s (Delete (r_key r)) = Ret (S_DEFERRED, s') /\ tb s' = tb s /\ log s' = log s /\ (forall x, x <> a -> ob s' x = ob s x)
       /\ route s' a r' /\ r_pend r' = true /\ r_conns r' = r_conns r /\ r_purge r' = Z.max (r_purge r) (r_hit r + FIN_TIMEOUT))
  /\ (r_conns r = 0%N ->
     exists s', step s (Delete (r_key r)) = Ret (OK, s') /\ ~ in_table s' a /\ (forall x, In x (tb s') <-> In x (tb s) /\ snd x <> a)
       /\ (forall x, x <> a -> ob s' x = ob s x)).
Proof.
  intros ev os es s a r C H R. destruct (run_ok os _ _ _ (inv_init ev) C) as (es' & s1 & held & l & E & I & _). rewrite E in H. injection H as _ <-.
  assert (F : kfind rkey kcmp (tb s1) (r_key r) = Some (r_key r, a)) by (apply (kfind_in rkey kcmp kcmp_EQ _ _ _ (c_sorted _ _ (i_core _ _ _ I))); split; [exact (proj1 R)|reflexivity]).
  pose proof (route_in _ _ _ _ _ I R) as T. cbn [step]. rewrite F. split.
  - intros CP G. unfold delete_0, deref. rewrite (proj2 R). cbn [ub_none bind]. replace (0 <? r_conns r)%N with true by (symmetry; apply N.ltb_lt; exact CP). cbn [andb].
    destruct (defer_ok s1 held l a r I (proj2 R) T G) as (s' & l' & E' & I' & _ & (Q1 & Q2 & Q3 & Q4 & Q5 & Q6) & O'). rewrite E'. eexists s', _. split; [reflexivity|]. split; [exact Q1|]. split; [exact Q6|].
    split; [intros x NE; rewrite O'; destruct (Pos.eqb_spec x a); [contradiction|reflexivity]|]. split; [split; [|rewrite O', Pos.eqb_refl; reflexivity]|split; [reflexivity|split; reflexivity]]. rewrite Q1. exact (proj1 R).
  - intros C0. destruct (delete_now_ok s1 held l a r true I (proj2 R) T) as (s' & l' & E' & I' & _ & RM & _); [rewrite C0; reflexivity|]. rewrite E'. exists s'. split; [reflexivity|].
    assert (TB : forall x, In x (tb s') <-> In x (tb s1) /\ snd x <> a) by (intros x; rewrite (m_tb _ _ _ RM); apply untable_in).
    split; [intros (k & X); apply TB in X; cbn in X; tauto|]. split; [exact TB|exact (m_ob _ _ _ RM)].
Qed.
(** Inserting the key of a pending route again cancels the deletion. *)
Theorem C21_reinsertion_revives_partial : forall ev os es s k e t conn clock stop hres s', calm (pinit ev) nobody os -> run (pinit ev) os = Ret (es, s) ->
  gentle s nobody (Insert k e t conn clock stop hres) -> hres <> S_ALREADY_OK -> step s (Insert k e t conn clock stop hres) = Ret (S_ALREADY_OK, s') ->
  exists now b r r', clock = Some now /\ route s b r /\ r_key r = k /\ r_pend r = true /\ route s' b r' /\ r_pend r' = false /\ r_purge r' = time_on_insert s e t now /\ r_conns r' = r_conns r.
Proof.
  intros ev os es s k ee t conn clock stop hres s' C R G HR H. destruct (run_ok os _ _ _ (inv_init ev) C) as (es' & s0 & held & l & E0 & I & _). rewrite E0 in R. injection R as _ <-. rename s0 into s.
  cbn [step] in H. unfold insert_2, alloc in H. inv_bind H. destruct v as [[e1 th] s1]. inv_bind H. injection H as -> <-.
  unfold insert_1 in E. unfold deref in E at 1. cbn [ob] in E. rewrite upd_eq in E. cbn [ub_none bind] in E. destruct clock as [now|]; [|discriminate].
  destruct (negb (r_purge _ =? 0) && (r_purge _ <=? now)); [discriminate|]. cbv zeta in E.
  match type of E with context [set_obj ?x (brk s) (Some _)] => set (s2 := x) in * end. match type of E with context [set_obj s2 (brk s) (Some ?y)] => set (r2 := y) in * end.
  assert (R2 : r_ic r2 = false /\ r_key r2 = k /\ r_purge r2 = time_on_insert s ee t now).
  { unfold r2, time_on_insert. destruct conn; cbn [r_ev r_purge with_conns evs s2]; match goal with |- context [if ?b then with_purge _ _ else _] => destruct b end; cbn; auto. }
  destruct R2 as (R2a & R2b & R2c). inv_bind E. destruct v0 as [e2 s3].
  assert (F : thin (set_obj s2 (brk s) (Some r2)) s3 /\ (forall x y, x <> brk s -> In x (map snd (tb s3)) -> ob s3 x = Some y -> ob s x = Some y)).
  { match type of E2 with (if ?b then _ else _) = _ => destruct b end.
    - split; [exact (thin_stale _ _ _ _ _ _ E2)|]. apply stale_purge_any in E2. destruct E2 as [->|(t' & g & _ & TK)].
      + intros x y NE _. cbn. rewrite !upd_neq by exact NE. auto.
      + intros x y NE IX OX. cut (ob (set_obj s2 (brk s) (Some r2)) x = Some y); [cbn; rewrite !upd_neq by exact NE; auto|]. clear - TK IX OX.
        induction TK as [|sa sb sc b rb g OB TB PB TK TKS IH]; [exact OX|]. specialize (IH IX OX). rewrite <- IH. symmetry. apply (t_ob _ _ _ _ TK). intros ->.
        pose proof (thin_takes _ _ _ _ TKS) as (f & EF & _). rewrite EF in IX. apply in_map_iff in IX. destruct IX as (z & EZ & IZ). apply filter_In in IZ. destruct IZ as [IZ _]. rewrite (t_tb _ _ _ _ TK) in IZ. apply untable_in in IZ. tauto.
    - injection E2 as _ <-. split; [apply thin_eq; reflexivity|]. intros x y NE _. cbn. rewrite !upd_neq by exact NE. auto. }
  destruct F as ((f & TB & _) & OB3). change (tb (set_obj s2 (brk s) (Some r2))) with (tb s) in TB.
  destruct (is_success e2) eqn:S2; cbn [negb] in E; [|injection E as -> _ _; discriminate].
  destruct (kinsert rkey kcmp (tb s3) (r_key r2, brk s)) as [tb'|] eqn:KI.
  { exfalso. inv_bind E. destruct v0 as [e3 s4]. inv_bind E. inv_bind E. injection E as -> _ _. unfold run_insert_actions in E3. inv_bind E3. destruct (e_ins _); cbn [negb] in E3; [|discriminate]. destruct stop; [discriminate|]. destruct (r_ic _); [discriminate|]. injection E3 as X _. congruence. }
  rewrite R2b in E. destruct (kfind rkey kcmp (tb s3) k) as [[k' b]|] eqn:KF; [|discriminate]. inv_bind E. apply deref_ret in E3. destruct (r_pend v0) eqn:PD; [|discriminate]. inv_bind E. injection E as <- <-.
  assert (IB : In (k', b) (tb s)).
  { assert (X : In (k', b) (tb s3)) by (clear - KF; revert KF; generalize (tb s3); intros L; induction L as [|x L IHL]; cbn [kfind]; [discriminate|]; destruct (kcmp _ _ >=? 0); [destruct (kcmp _ _ =? 0); [intros X; injection X as ->; left; reflexivity|discriminate]|intros X; right; auto]).
    rewrite TB in X. apply filter_In in X. tauto. }
  assert (NB : b <> brk s). { intros ->. destruct (core_fun _ _ _ _ (i_core _ _ _ I) IB) as (y & O & _). rewrite (c_brk _ _ (i_core _ _ _ I) (brk s)) in O by lia. discriminate. }
  assert (OS : ob s b = Some v0). { apply (OB3 b v0 NB); [|exact E3]. apply in_map_iff. exists (k', b). split; [reflexivity|]. clear - KF. revert KF. generalize (tb s3). intros L. induction L as [|x L IHL]; cbn [kfind]; [discriminate|].
    destruct (kcmp _ _ >=? 0); [destruct (kcmp _ _ =? 0); [intros X; injection X as ->; left; reflexivity|discriminate]|intros X; right; auto]. }
  assert (KK : k' = k). { clear - KF. revert KF. generalize (tb s3). intros L. induction L as [|x L IHL]; cbn [kfind]; [discriminate|]. destruct (kcmp _ _ >=? 0); [destruct (Z.eqb_spec (kcmp (rkey x) k) 0) as [Z0|]; [intros X; injection X as ->; apply kcmp_EQ in Z0; exact Z0|discriminate]|exact IHL]. }
  subst k'. destruct (core_fun _ _ _ _ (i_core _ _ _ I) IB) as (y & O & _ & KY & RY). assert (y = v0) by congruence. subst y.
  unfold retime, deref in E4. cbn [ob set_obj] in E4. rewrite upd_eq in E4. cbn [ub_none bind] in E4. inv_bind E4. apply cond_relinked, relinked_same in E. destruct E as (A1 & A2 & _).
  set (r' := with_purge (with_pend v0 false) (r_purge r2)) in *.
  assert (W : ob v1 b = Some r' /\ tb v1 = tb s3).
  { destruct (r_purge r2 =? 0); [injection E4 as <-; cbn; rewrite upd_eq, A2; auto|]. apply pl_insert_relinked, relinked_same in E4. destruct E4 as (B1 & B2 & _). rewrite B1, B2. cbn. rewrite upd_eq, A2. auto. }
  destruct W as [W1 W2]. apply drop_any in E1. destruct E1 as (q & _ & D1 & _ & _ & _ & _ & _ & D2 & _).
  exists now, b, v0, r'. split; [reflexivity|]. split; [exact RY|]. split; [exact KY|]. split; [exact PD|]. split; [|split; [reflexivity|split; [exact R2c|reflexivity]]].
  split; [|rewrite D2 by exact NB; exact W1]. change (r_key r') with (r_key v0). rewrite D1, W2, KY. clear - KF. revert KF. generalize (tb s3). intros L. induction L as [|x L IHL]; cbn [kfind]; [discriminate|].
  destruct (kcmp _ _ >=? 0); [destruct (kcmp _ _ =? 0); [intros X; injection X as ->; left; reflexivity|discriminate]|intros X; right; auto].
Qed.
(** The removal does not follow the closing of the last connection: the route stays, pending and without connections, until it is stale. *)
Theorem C21_removed_with_last_connection_refuted : exists ev os es s a r, calm (pinit ev) nobody os /\ run (pinit ev) os = Ret (es, s)
  /\ route s a r /\ r_pend r = true /\ r_conns r = 0%N /\ In S_DEFERRED es.
Proof.
  set (os := [ins_conn 1 2 1; hit 1 2; Delete 1; Hit 1 N.pred (Some (sec 3)) None; StalePurge (Some (sec 60))]).
  destruct (ends_ok evs0 os (fun s => has_route s 1 (fun r => r_pend r && N.eqb (r_conns r) 0)) ltac:(vm_compute; reflexivity)) as (es & s & R & B). apply has_route_ok in B. destruct B as (a & r & RT & _ & B).
  apply andb_true_iff in B. destruct B as [B1 B2]. apply N.eqb_eq in B2. exists evs0, os, es, s, a, r. split; [apply calmb_ok; vm_compute; reflexivity|]. repeat (split; [assumption|]).
  assert (X : match run (pinit evs0) os with Ret (es, _) => existsb (fun e => match e with S_DEFERRED => true | _ => false end) es | _ => false end = true) by (vm_compute; reflexivity).
  rewrite R in X. apply existsb_exists in X. destruct X as (e & I & E). destruct e; try discriminate. exact I.
Qed.

(** ** C22 *)
(** the calls that purge, and the time they purge at *)
Definition purges (o : op) : option Z :=
  match o with
  | StalePurge c | StalePurgeOne c | StalePurgeOneOpp c => c
  | Miss now c => if now =? 0 then c else Some now
  | _ => None
  end.
(** Whatever the state: a purge takes nothing into the table, changes no route that stays, and takes out only routes whose purge time has come
    (and that do not, as the code has it, block the purge). *)
Theorem C22_purges_only_expired : forall s o e s' t, purges o = Some t -> step s o = Ret (e, s') ->
  (forall x, In x (tb s') -> In x (tb s) /\ ob s' (snd x) = ob s (snd x))
  /\ (forall k a, In (k, a) (tb s) -> ~ In (k, a) (tb s') -> exists r, ob s a = Some r /\ r_purge r <= t /\ blocks s t r = false).
Proof.
  intros s o e s' t P H.
  assert (G : exists g mode, (mode <> 3)%N /\ takes (stale_at mode t) s g s').
  { assert (G : forall mode now c e' s'', (mode <> 3)%N -> (if now =? 0 then c else Some now) = Some t -> stale_purge s mode now c = Ret (e', s'') -> exists g m, (m <> 3)%N /\ takes (stale_at m t) s g s'').
    { intros mode now c e' s'' M TT E. apply stale_purge_any in E. destruct E as [->|(t' & g & ET & TK)]; [exists [], 0%N; split; [discriminate|constructor]|]. exists g, mode. split; [exact M|].
      replace (negb (mode =? 3)%N) with true in ET by (symmetry; apply negb_true_iff, N.eqb_neq; exact M). cbn [andb] in ET. rewrite ET in TT. injection TT as <-. exact TK. }
    destruct o; cbn [purges step] in *; try discriminate.
    - inv_bind H. destruct v as [e1 s1]. injection H as _ <-. apply (G 2%N now clock2 e1); [discriminate|exact P|exact E].
    - apply (G 0%N 0 clock e); [discriminate|exact P|exact H].
    - apply (G 1%N 0 clock e); [discriminate|exact P|exact H].
    - apply (G 2%N 0 clock e); [discriminate|exact P|exact H]. }
  destruct G as (g & mode & M & TK). clear P H. induction TK as [|s s1 s2 a r g O T ST TK TKS IH].
  - split; [auto|]. intros k a A B. contradiction.
  - destruct IH as [IH1 IH2]. split.
    + intros x I. destruct (IH1 x I) as [A B]. rewrite (t_tb _ _ _ _ TK) in A. apply untable_in in A. split; [tauto|]. rewrite B. apply (t_ob _ _ _ _ TK). tauto.
    + intros k b I NI. destruct (Pos.eq_dec b a) as [->|NE]; [exists r; split; [exact O|]; destruct ST as [X|X]; [contradiction|exact X]|].
      destruct (IH2 k b) as (y & OY & PY & BY); [rewrite (t_tb _ _ _ _ TK); apply untable_in; split; [exact I|exact NE]|exact NI|]. exists y. rewrite (t_ob _ _ _ _ TK) in OY by exact NE. split; [exact OY|]. split; [exact PY|].
      unfold blocks in *. rewrite (t_idle _ _ _ _ TK) in BY. exact BY.
Qed.
(** In the states reached by calm histories, what is purged had a purge time, and the one-route variants remove one route at most. *)
Theorem C22_purge_exact_partial : forall ev os es s o e s' t, calm (pinit ev) nobody os -> run (pinit ev) os = Ret (es, s) -> unblocked s t None -> purges o = Some t -> step s o = Ret (e, s') ->
  (forall a r, route s a r -> ~ in_table s' a -> r_purge r <> 0 /\ r_purge r <= t)
  /\ (match o with StalePurge _ => True | _ => (length (tb s) <= 1 + length (tb s'))%nat end).
Proof.
  intros ev os es s o e s' t C R U P H. destruct (run_ok os _ _ _ (inv_init ev) C) as (es' & s0 & held & l & E0 & I & _). rewrite E0 in R. injection R as _ <-. rename s0 into s.
  assert (G : exists g, purged s s' g /\ (forall a, In a g -> exists r, route s a r /\ r_purge r <> 0 /\ r_purge r <= t) /\ (match o with StalePurge _ => True | _ => (length g <= 1)%nat end)).
  { assert (G : forall mode now c e' s'', (mode <> 3)%N -> (if now =? 0 then c else Some now) = Some t -> stale_purge s mode now c = Ret (e', s'') ->
              exists g, purged s s'' g /\ (forall a, In a g -> exists r, route s a r /\ r_purge r <> 0 /\ r_purge r <= t) /\ (mode <> 0%N -> (length g <= 1)%nat)).
    { intros mode now c e' s'' M TT E. destruct (stale_purge_ok mode now c s held l M I) as (e2 & s2 & l2 & g & E2 & _ & _ & PG & _ & W); [intros t' ET; rewrite ET in TT; injection TT as ->; exact U|].
      rewrite E2 in E. injection E as _ <-. rewrite TT in W. destruct W as (W1 & _ & _ & W2). exists g. split; [exact PG|]. split; [intros a J; destruct (W1 a J) as (r & A & B & D & _); exists r; auto|exact W2]. }
    destruct o; cbn [purges step] in *; try discriminate.
    - inv_bind H. destruct v as [e1 s1]. injection H as _ <-. destruct (G 2%N now clock2 e1 s1 ltac:(discriminate) P E) as (g & A & B & D). exists g. split; [exact A|]. split; [exact B|]. apply D. discriminate.
    - destruct (G 0%N 0 clock e s' ltac:(discriminate) P H) as (g & A & B & D). exists g. auto.
    - destruct (G 1%N 0 clock e s' ltac:(discriminate) P H) as (g & A & B & D). exists g. split; [exact A|]. split; [exact B|]. apply D. discriminate.
    - destruct (G 2%N 0 clock e s' ltac:(discriminate) P H) as (g & A & B & D). exists g. split; [exact A|]. split; [exact B|]. apply D. discriminate. }
  destruct G as (g & PG & GS & G1). split.
  - intros a r RT NT. destruct (in_dec Pos.eq_dec a g) as [J|J].
    + destruct (GS a J) as (y & RY & A & B). assert (y = r) by (destruct RY as [_ X], RT as [_ Y]; congruence). subst y. auto.
    + exfalso. apply NT. exists (r_key r). apply (g_tb _ _ _ PG). split; [exact (proj1 RT)|exact J].
  - assert (LE : (length g <= 1)%nat -> (length (tb s) <= 1 + length (tb s'))%nat).
    { intros L1. destruct (tb_nodup _ _ _ I) as [ND NDS]. destruct g as [|a [|b g]]; [| |cbn in L1; lia].
      - apply Nat.le_trans with (length (tb s')); [|lia]. apply NoDup_incl_length; [exact ND|]. intros x J. apply (g_tb _ _ _ PG). split; [exact J|intros []].
      - destruct (in_dec Pos.eq_dec a (map snd (tb s))) as [J|J].
        + apply in_map_iff in J. destruct J as (x & EX & IX). change (1 + length (tb s'))%nat with (length (x :: tb s')). apply NoDup_incl_length; [exact ND|]. intros y IY. destruct (Pos.eq_dec (@snd N addr y) a) as [E|NE].
          * left. assert (Q : forall L, NoDup (map snd L) -> In x L -> In y L -> @snd N addr x = @snd N addr y -> x = y).
            { clear. induction L as [|z L IH]; intros N0 A B E; [destruct A|]. cbn in N0. inversion N0 as [|? ? N1 N2]; subst. destruct A as [->|A], B as [->|B]; [reflexivity| | |exact (IH N2 A B E)].
              - destruct N1. apply in_map_iff. exists y. split; [symmetry; exact E|exact B].
              - destruct N1. apply in_map_iff. exists x. split; [exact E|exact A]. }
            apply (Q _ NDS IX IY). congruence.
          * right. apply (g_tb _ _ _ PG). split; [exact IY|]. intros [X|[]]. congruence.
        + apply Nat.le_trans with (length (tb s')); [|lia]. apply NoDup_incl_length; [exact ND|]. intros x K. apply (g_tb _ _ _ PG). split; [exact K|]. intros [X|[]]. apply J. rewrite X. apply in_map. exact K. }
    destruct o; auto.
Qed.
(** After a full purge in a calm and neat history no route whose purge time has come is left. *)
Theorem C22_full_purge_complete_partial : forall ev os es s t e s', calm (pinit ev) nobody os -> neat (pinit ev) os -> run (pinit ev) os = Ret (es, s) ->
  unblocked s t None -> step s (StalePurge (Some t)) = Ret (e, s') -> forall a r, route s' a r -> r_purge r = 0 \/ t < r_purge r.
Proof.
  intros ev os es s t e s' C NT R U H a r RT. destruct (run_ok os _ _ _ (inv_init ev) C) as (es' & s0 & held & l & E0 & I & S0). rewrite E0 in R. injection R as _ <-. rename s0 into s.
  assert (SS : srt s l) by (apply S0; [exact NT|constructor]). cbn [step] in H.
  destruct (stale_purge_ok 0 0 (Some t) s held l ltac:(discriminate) I) as (e2 & s2 & l2 & g & E2 & I2 & S2 & PG & _ & W); [intros t' ET; cbn in ET; injection ET as <-; exact U|].
  rewrite E2 in H. injection H as _ <-. cbn [Z.eqb] in W. destruct W as (_ & _ & W & _). specialize (W eq_refl). specialize (S2 SS).
  destruct (Z.eq_dec (r_purge r) 0) as [|NZ]; [auto|right]. assert (IL : In a l2) by (apply (i_listed _ _ _ I2), (listed_route _ _ _ _ I2); eauto).
  destruct (l_dll _ _ (i_links _ _ _ I2)) as (_ & _ & TL & _). rewrite TL in W. destruct (snoc_case l2) as [->|(l0 & b & ->)]; [destruct IL|]. rewrite lastor_app in W. cbn in W.
  rewrite <- (pt_at _ _ _ (proj2 RT)). apply in_app_or in IL. destruct IL as [IL|[->|[]]]; [|exact W]. unfold srt in S2. apply SS_app in S2. destruct S2 as (_ & _ & S2). specialize (S2 a b IL (or_introl eq_refl)). lia.
Qed.
(** Plain histories (no connection counting, no hits, no new purge times) are calm and neat: for them nothing else has to be asked. *)
Theorem C22_plain_full_purge_partial : forall ev os es s t, (forall e, 0 <= e_idle (ev e)) -> Forall plain os -> run (pinit ev) os = Ret (es, s) ->
  exists e s', step s (StalePurge (Some t)) = Ret (e, s')
    /\ (forall a r, route s' a r <-> route s a r /\ (r_purge r = 0 \/ t < r_purge r)).
Proof.
  intros ev os es s t EV F R. destruct (plain_calm os _ _ _ (still_init ev EV) (inv_init ev) F) as [C NT].
  assert (K : still s). { clear C NT. revert R. generalize (still_init ev EV). generalize (pinit ev). clear EV. revert es. induction F as [|o os P F IH]; intros es s0 K R; cbn [run] in R; [injection R as _ <-; exact K|].
    inv_bind R. destruct v as [e1 s1]. inv_bind R. destruct v as [es2 s2]. injection R as _ <-. exact (IH _ _ (still_step _ _ _ _ P E K) E0). }
  assert (U : unblocked s t None) by (apply still_unblocked; exact K).
  destruct (run_ok os _ _ _ (inv_init ev) C) as (es' & s0 & held & l & E0 & I & _). rewrite E0 in R. injection R as _ <-. rename s0 into s.
  destruct (stale_purge_ok 0 0 (Some t) s held l ltac:(discriminate) I) as (e2 & s2 & l2 & g & E2 & I2 & _ & PG & _ & W); [intros t' ET; cbn in ET; injection ET as <-; exact U|].
  exists e2, s2. split; [exact E2|]. intros a r. cbn [Z.eqb] in W. destruct W as (W1 & _). split.
  - intros RT. split; [|exact (C22_full_purge_complete_partial ev os es' s t e2 s2 C NT E0 U E2 a r RT)]. destruct RT as [IT OT]. apply (g_tb _ _ _ PG) in IT. cbn in IT. rewrite (g_ob _ _ _ PG) in OT by tauto. split; tauto.
  - intros [[IT OT] P]. assert (NG : ~ In a g). { intros J. destruct (W1 a J) as (y & [_ OY] & A & B & _). assert (y = r) by congruence. subst y. lia. }
    split; [apply (g_tb _ _ _ PG); split; [exact IT|exact NG]|rewrite (g_ob _ _ _ PG) by exact NG; exact OT].
Qed.
Example C22_use : keys (final evs0 [ins 1 0 1; ins 2 1 2; ins 3 2 3; StalePurge (Some (sec 50))]) = Some [1; 3]%N
  /\ keys (final evs0 [ins 1 0 1; ins 2 1 2; ins 3 2 3; StalePurge (Some (sec 200))]) = Some [3]%N
  /\ Forall plain [ins 1 0 1; ins 2 1 2; ins 3 2 3; StalePurge (Some (sec 200)); SetMax 1 None; Delete 1; Flush].
Proof. split; [vm_compute; reflexivity|]. split; [vm_compute; reflexivity|]. repeat constructor; try (unfold sec; lia); intros now X; injection X as <-; unfold sec; lia. Qed.
(** A history with hits and a new purge time that is calm and neat. *)
Definition calm_history : list op := [ins 1 0 1; ins 2 2 2; Hold 1; PurgeTimeSet 1%positive (sec 300); hit 1 3; hit 2 3; ins_conn 3 2 4; Delete 3; Hit 3 N.pred (Some (sec 5)) None; StalePurge (Some (sec 299)); Drop 1%positive].
Example C22_calm_history : calm (pinit evs0) nobody calm_history /\ neat (pinit evs0) calm_history /\ keys (final evs0 calm_history) = Some [1; 2]%N.
Proof. split; [apply calmb_ok; vm_compute; reflexivity|]. split; [apply neatb_ok; vm_compute; reflexivity|vm_compute; reflexivity]. Qed.
(** A route with live connections is purged: the idle limit is used the wrong way round (a route hit recently is purged, one idle beyond the
    limit blocks), a pending route is purged with its connections, and an insertion at the limit looks at neither. *)
Theorem C22_connected_never_purged_refuted :
  (exists ev os es s a r e s', run (pinit ev) os = Ret (es, s) /\ route s a r /\ (0 < r_conns r)%N /\ r_pend r = false /\ r_hit r = sec 90 /\ maxidle s = sec 50
     /\ step s (StalePurge (Some (sec 102))) = Ret (e, s') /\ tb s' = [])
  /\ (exists ev os es s a r e s', run (pinit ev) os = Ret (es, s) /\ route s a r /\ (0 < r_conns r)%N /\ maxidle s = 0 /\ step s (StalePurge (Some (sec 102))) = Ret (e, s') /\ tb s' = [])
  /\ (exists ev os es s a r e s', run (pinit ev) os = Ret (es, s) /\ route s a r /\ (0 < r_conns r)%N /\ r_purge r > sec 2 /\ step s (ins 2 0 2) = Ret (e, s') /\ ~ in_table s' a).
Proof.
  assert (CH : forall os o b, match run (pinit evs0) os with Ret (_, s) => match step s o with Ret (_, s') => b s s' | _ => false end | _ => false end = true ->
     exists es s e s', run (pinit evs0) os = Ret (es, s) /\ step s o = Ret (e, s') /\ b s s' = true).
  { intros os o b. destruct (run (pinit evs0) os) as [[es s]| |]; try discriminate. destruct (step s o) as [[e s']| |] eqn:E; try discriminate. eauto 10. }
  split; [|split].
  - destruct (CH [SetMaxIdle (sec 50); ins_conn 1 1 1; Hold 1; PurgeTimeSet 1%positive (sec 101); hit 1 90] (StalePurge (Some (sec 102)))
       (fun s s' => has_route s 1 (fun r => (0 <? r_conns r)%N && negb (r_pend r) && (r_hit r =? sec 90)) && (maxidle s =? sec 50) && match tb s' with [] => true | _ => false end) ltac:(vm_compute; reflexivity)) as (es & s & e & s' & R & ST & B).
    bust B. apply has_route_ok in A0. destruct A0 as (a & r & RT & _ & B1). bust B1. exists evs0. eexists _, es, s, a, r, e, s'. split; [exact R|]. split; [exact RT|]. split; [apply N.ltb_lt; assumption|]. split; [assumption|]. split; [lia|]. split; [lia|]. split; [exact ST|]. destruct (tb s'); [reflexivity|discriminate].
  - destruct (CH [ins_conn 1 0 1; Delete 1] (StalePurge (Some (sec 102))) (fun s s' => has_route s 1 (fun r => (0 <? r_conns r)%N) && (maxidle s =? 0) && match tb s' with [] => true | _ => false end) ltac:(vm_compute; reflexivity)) as (es & s & e & s' & R & ST & B).
    bust B. apply has_route_ok in A0. destruct A0 as (a & r & RT & _ & B1). exists evs0. eexists _, es, s, a, r, e, s'. split; [exact R|]. split; [exact RT|]. split; [apply N.ltb_lt; assumption|]. split; [lia|]. split; [exact ST|]. destruct (tb s'); [reflexivity|discriminate].
  - destruct (CH [SetMax 1 None; ins_conn 1 0 1] (ins 2 0 2) (fun s s' => match peek s 1 with Some (a, r) => (0 <? r_conns r)%N && (sec 2 <? r_purge r) && negb (in_tableb s' a) | None => false end) ltac:(vm_compute; reflexivity)) as (es & s & e & s' & R & ST & B).
    destruct (peek s 1) as [[a r]|] eqn:PK; [|discriminate]. apply peek_ok in PK. destruct PK as [RT _]. bust B. exists evs0. eexists _, es, s, a, r, e, s'. split; [exact R|]. split; [exact RT|]. split; [apply N.ltb_lt; assumption|]. split; [lia|]. split; [exact ST|].
    intros (k & IN). assert (X : in_tableb s' a = true) by (apply existsb_exists; exists (k, a); split; [exact IN|apply Pos.eqb_refl]). congruence.
Qed.
(** Expired routes are left behind: a hit on the stalest route changes its purge time in place, and those behind which it now hides are not
    reached; and a hit on another one breaks the list, so that a route inserted later is not reached at all. *)
Theorem C22_nothing_expired_left_refuted :
  (exists ev os es s a r, calm (pinit ev) nobody os /\ run (pinit ev) (os ++ [StalePurge (Some (sec 110))]) = Ret (es, s) /\ route s a r /\ r_purge r <> 0 /\ r_purge r < sec 110)
  /\ (exists ev os es s a r, (forall o, In o os -> match o with Insert _ _ _ _ _ _ _ | Hit _ _ _ _ => True | _ => False end)
      /\ run (pinit ev) (os ++ [StalePurge (Some (sec 1000)); StalePurge (Some (sec 2000))]) = Ret (es, s) /\ route s a r /\ r_purge r <> 0 /\ r_purge r < sec 1000).
Proof.
  split.
  - set (os := [ins 1 0 1; ins 2 0 2; hit 1 3]).
    destruct (ends_ok evs0 (os ++ [StalePurge (Some (sec 110))]) (fun s => has_route s 2 (fun r => negb (r_purge r =? 0) && (r_purge r <? sec 110))) ltac:(vm_compute; reflexivity)) as (es & s & R & B).
    apply has_route_ok in B. destruct B as (a & r & RT & _ & B). bust B. exists evs0, os, es, s, a, r. split; [apply calmb_ok; vm_compute; reflexivity|]. split; [exact R|]. split; [exact RT|]. split; [apply Z.eqb_neq; assumption|lia].
  - set (os := [ins 1 0 1; ins 2 0 2; ins 3 0 3; hit 2 4; ins 4 0 70]).
    destruct (ends_ok evs0 (os ++ [StalePurge (Some (sec 1000)); StalePurge (Some (sec 2000))]) (fun s => has_route s 4 (fun r => negb (r_purge r =? 0) && (r_purge r <? sec 1000))) ltac:(vm_compute; reflexivity)) as (es & s & R & B).
    apply has_route_ok in B. destruct B as (a & r & RT & _ & B). bust B. exists evs0, os, es, s, a, r. split; [unfold os; intros o IO; cbn in IO; repeat (destruct IO as [<- |IO]; [exact I|]); destruct IO|]. split; [exact R|]. split; [exact RT|]. split; [apply Z.eqb_neq; assumption|lia].
Qed.

(** ** C23 *)
(** Every call of a calm history returns, without undefined behaviour. *)
Theorem C23_calm_histories_return_partial : forall ev os, calm (pinit ev) nobody os -> exists es s, run (pinit ev) os = Ret (es, s).
Proof. intros ev os C. destruct (run_ok os _ _ _ (inv_init ev) C) as (es & s & _ & _ & E & _). eauto. Qed.
(** Every call of a plain history returns. *)
Theorem C23_plain_histories_return_partial : forall ev os, (forall e, 0 <= e_idle (ev e)) -> Forall plain os -> exists es s, run (pinit ev) os = Ret (es, s).
Proof. intros ev os EV F. apply C23_calm_histories_return_partial. exact (proj1 (plain_calm os _ _ _ (still_init ev EV) (inv_init ev) F)). Qed.
(** Whatever the state, a purge whose stalest route has expired, has connections, is not pending and has no idle limit never returns. *)
Theorem C23_blocked_purge_hangs : forall s a r t, ltail (hd s) = Some a -> ob s a = Some r -> r_purge r <= t -> (0 < r_conns r)%N -> r_pend r = false -> maxidle s = 0 -> t <> 0 ->
  step s (StalePurge (Some t)) = Diverge /\ step s (StalePurgeOne (Some t)) = Diverge /\ step s (StalePurgeOneOpp (Some t)) = Diverge /\ forall c, step s (Miss t c) = Diverge.
Proof.
  intros s a r t TL O P C PD MI NZ.
  assert (G : forall mode now c, (mode <> 3)%N -> (if now =? 0 then c else Some now) = Some t -> stale_purge s mode now c = Diverge).
  { intros mode now c M ET. unfold stale_purge. replace (negb (mode =? 3)%N) with true by (symmetry; apply negb_true_iff, N.eqb_neq; exact M). cbn [andb]. rewrite ET, TL. unfold deref. rewrite O. cbn [ub_none bind].
    destruct (Z.gtb_spec (r_purge r) t); [lia|]. cbn [purge_loop]. rewrite TL. unfold deref. rewrite O. cbn [ub_none bind]. replace (negb (mode =? 3)%N) with true by (symmetry; apply negb_true_iff, N.eqb_neq; exact M). cbn [andb].
    destruct (Z.gtb_spec (r_purge r) t); [lia|]. rewrite PD, MI. replace (0 <? r_conns r)%N with true by (symmetry; apply N.ltb_lt; exact C). reflexivity. }
  cbn [step]. split; [apply G; [discriminate|reflexivity]|]. split; [apply G; [discriminate|reflexivity]|]. split; [apply G; [discriminate|reflexivity]|].
  intros c. rewrite (G 2%N t c); [reflexivity|discriminate|]. destruct (Z.eqb_spec t 0); [contradiction|reflexivity].
Qed.
(** So it is reached: one route with a connection that outlives its idle time makes the explicit purge, and every dispatch, hang; hits and
    insertions alone can make the list circular, and an insertion then hangs. *)
Theorem C23_purge_returns_refuted : exists ev,
  run (pinit ev) [ins_conn 1 0 1; StalePurge (Some (sec 102))] = Diverge
  /\ run (pinit ev) [ins_conn 1 0 1; Miss (sec 102) None] = Diverge
  /\ run (pinit ev) [ins_conn 1 0 1; ins 2 2 2; hit 2 102] = Diverge
  /\ run (pinit ev) [ins 1 0 1; ins 2 0 2; ins 3 0 3; hit 2 4; ins 4 0 70; ins 5 1 71] = Diverge.
Proof. exists evs0. vm_compute. repeat split. Qed.
(** The calls can also touch freed routes: after hits and insertions alone; after a failed insert action; and by setting the purge time of a
    route that is held but no longer in the table. *)
Theorem C23_no_use_after_free_refuted : exists ev,
  run (pinit ev) [ins 1 0 1; ins 2 0 2; ins 3 0 3; hit 2 4; ins 4 0 70; StalePurge (Some (sec 1000)); Delete 4] = UB
  /\ run (pinit ev) [Insert 1 0 0 false (Some (sec 1)) false INVALID_ARG; StalePurge (Some (sec 102))] = UB
  /\ run (pinit ev) [ins 1 0 1; Hold 1; Delete 1; PurgeTimeSet 1%positive (sec 300)] = UB.
Proof. exists evs0. vm_compute. repeat split. Qed.

(** ** C24 *)
(** In a calm history an insertion does not take the number of purgeable routes beyond the limit, or beyond what it was. *)
Theorem C24_insert_within_limit_partial : forall ev os es s k e t conn clock stop hres res s', calm (pinit ev) nobody os -> run (pinit ev) os = Ret (es, s) ->
  gentle s nobody (Insert k e t conn clock stop hres) -> step s (Insert k e t conn clock stop hres) = Ret (res, s') -> 0 < maxp s ->
  Z.of_nat (n_purgeable s') <= Z.max (Z.of_nat (n_purgeable s)) (maxp s).
Proof.
  intros ev os es s k e t conn clock stop hres res s' C R G H MP. destruct (run_ok os _ _ _ (inv_init ev) C) as (es' & s0 & held & l & E0 & I & _). rewrite E0 in R. injection R as _ <-. rename s0 into s.
  destruct (insert_2_ok s held l k e t conn clock stop hres I G) as (e' & s2 & l' & E' & I' & _ & BD & MX). cbn [step] in H. rewrite E' in H. injection H as _ <-.
  rewrite (n_purgeable_len _ _ _ I'), (n_purgeable_len _ _ _ I). exact (BD MP).
Qed.
(** Once below the limit, a history that changes neither the limit nor purge times of permanent routes stays below it. *)
Theorem C24_limit_kept_partial : forall ev os1 os2 es1 es2 s1 s2, calm (pinit ev) nobody (os1 ++ os2) -> run (pinit ev) os1 = Ret (es1, s1) -> run s1 os2 = Ret (es2, s2) ->
  thrifty s1 os2 -> 0 < maxp s1 -> Z.of_nat (n_purgeable s1) <= maxp s1 -> Z.of_nat (n_purgeable s2) <= maxp s2 /\ maxp s2 = maxp s1.
Proof.
  intros ev os1 os2 es1 es2 s1 s2 C R1 R2 T MP LE.
  assert (G : forall os1 s held l es1 s1, inv s held l -> calm s held (os1 ++ os2) -> run s os1 = Ret (es1, s1) -> exists held' l', inv s1 held' l' /\ calm s1 held' os2).
  { clear. induction os1 as [|o os1 IH]; intros s held l es1 s1 I C R; cbn [run app calm] in *; [injection R as _ <-; eauto|]. destruct C as [G C]. destruct (step_ok s held l o I G) as (e & s' & l' & E & I' & _). rewrite E in *. cbn [bind] in R.
    inv_bind R. destruct v as [es2 s2]. injection R as _ <-. exact (IH _ _ _ _ _ I' C E0). }
  destruct (G os1 _ _ _ es1 s1 (inv_init ev) C R1) as (held & l & I & C2). exact (limit_run os2 s1 held l es2 s2 I C2 T MP LE R2).
Qed.
(** A plain history that begins by setting the limit, and does not change it, never exceeds it. *)
Theorem C24_plain_limit_partial : forall ev n c os es s, (forall e, 0 <= e_idle (ev e)) -> Forall plain os -> (forall m c', ~ In (SetMax m c') os) -> 0 < n ->
  run (pinit ev) (SetMax n c :: os) = Ret (es, s) -> Z.of_nat (n_purgeable s) <= n.
Proof.
  intros ev n c os es s EV F NS NP R. cbn [run] in R. inv_bind R. destruct v as [e1 s1]. inv_bind R. destruct v as [es2 s2]. injection R as _ <-.
  cbn [step] in E. cbn [maxp len pinit] in E. replace ((0 >? n) && (0 >? n)) with false in E by (destruct (Z.gtb_spec 0 n); [lia|reflexivity]). injection E as _ <-.
  assert (I : inv (set_max (pinit ev) n) nobody []). { destruct (inv_init ev) as [[] [] LS]. constructor; [constructor; assumption|constructor; assumption|exact LS]. }
  assert (K : still (set_max (pinit ev) n)) by exact (still_init ev EV).
  destruct (plain_calm os _ _ _ K I F) as [C _].
  assert (T : thrifty (set_max (pinit ev) n) os).
  { clear C I E0. revert K. generalize (set_max (pinit ev) n). induction F as [|o os P F IH]; intros s0 K; cbn [thrifty]; [exact Logic.I|]. split.
    - destruct o; cbn [frugal plain] in *; auto; try contradiction; [|exact (NS _ _ (or_introl eq_refl))]. intros a r [_ O] _. left. exact (proj1 (proj1 K a r O)).
    - destruct (step s0 o) as [[e s']| |] eqn:E; try exact Logic.I. apply IH; [intros m c' X; apply (NS m c'); right; exact X|exact (still_step _ _ _ _ P E K)]. }
  destruct (limit_run os _ _ _ _ _ I C T NP ltac:(cbn; lia) E0) as [LE MX]. rewrite MX in LE. exact LE.
Qed.
Example C24_use : match final evs0 [SetMax 2 None; ins 1 0 1; ins 2 2 2; ins 3 0 3; ins 4 0 4; ins 5 0 5] with Ret s => (map fst (tb s), n_purgeable s) | _ => ([], 0%nat) end = ([2; 4; 5]%N, 2%nat).
Proof. vm_compute. reflexivity. Qed.
(** The limit is not enforced when it is set from "none", when a deletion is deferred, or when a route is given a purge time. *)
Theorem C24_limit_enforced_refuted :
  (exists ev os es s, calm (pinit ev) nobody os /\ run (pinit ev) os = Ret (es, s) /\ maxp s = 1 /\ n_purgeable s = 3%nat /\ os = [ins 1 0 1; ins 2 0 2; SetMax 1 (Some (sec 3)); ins 3 1 3; ins 4 0 4; ins 5 2 4; Hold 5; PurgeTimeSet 5%positive (sec 50)])
  /\ (exists ev os es s, calm (pinit ev) nobody os /\ run (pinit ev) os = Ret (es, s) /\ maxp s = 1 /\ n_purgeable s = 2%nat /\ os = [SetMax 1 None; ins 1 0 1; ins_conn 2 2 2; Delete 2]).
Proof.
  split.
  - destruct (ends_ok evs0 [ins 1 0 1; ins 2 0 2; SetMax 1 (Some (sec 3)); ins 3 1 3; ins 4 0 4; ins 5 2 4; Hold 5; PurgeTimeSet 5%positive (sec 50)] (fun s => (maxp s =? 1) && Nat.eqb (n_purgeable s) 3) ltac:(vm_compute; reflexivity)) as (es & s & R & B).
    bust B. exists evs0. exists [ins 1 0 1; ins 2 0 2; SetMax 1 (Some (sec 3)); ins 3 1 3; ins 4 0 4; ins 5 2 4; Hold 5; PurgeTimeSet 5%positive (sec 50)], es, s. split; [apply calmb_ok; vm_compute; reflexivity|]. split; [exact R|]. split; [lia|]. split; [apply Nat.eqb_eq; assumption|reflexivity].
  - destruct (ends_ok evs0 [SetMax 1 None; ins 1 0 1; ins_conn 2 2 2; Delete 2] (fun s => (maxp s =? 1) && Nat.eqb (n_purgeable s) 2) ltac:(vm_compute; reflexivity)) as (es & s & R & B).
    bust B. exists evs0. exists [SetMax 1 None; ins 1 0 1; ins_conn 2 2 2; Delete 2], es, s. split; [apply calmb_ok; vm_compute; reflexivity|]. split; [exact R|]. split; [lia|]. split; [apply Nat.eqb_eq; assumption|reflexivity].
Qed.
(** An insertion that is refused because the route is there already still purges another route at the limit. *)
Theorem C24_refused_insertion_purges_nothing_refuted : exists ev os, Forall plain os
  /\ match run (pinit ev) os with Ret (es, s) => es = [OK; OK; OK; ITEM_ALREADY_PRESENT] /\ map fst (tb s) = [2%N] | _ => False end.
Proof. exists evs0, [SetMax 2 None; ins 1 0 1; ins 2 0 2; ins 2 0 3]. split; [repeat constructor; try (unfold sec; lia); intros now X; injection X as <-; unfold sec; lia|]. vm_compute. split; reflexivity. Qed.

Print Assumptions C20_actions_at_most_once.
Print Assumptions C20_delete_actions_exactly_once.
Print Assumptions C20_insert_actions_run.
Print Assumptions C21_delete_deferred_partial.
Print Assumptions C21_reinsertion_revives_partial.
Print Assumptions C21_removed_with_last_connection_refuted.
Print Assumptions C22_purges_only_expired.
Print Assumptions C22_purge_exact_partial.
Print Assumptions C22_full_purge_complete_partial.
Print Assumptions C22_plain_full_purge_partial.
Print Assumptions C22_connected_never_purged_refuted.
Print Assumptions C22_nothing_expired_left_refuted.
Print Assumptions C23_calm_histories_return_partial.
Print Assumptions C23_plain_histories_return_partial.
Print Assumptions C23_blocked_purge_hangs.
Print Assumptions C23_purge_returns_refuted.
Print Assumptions C23_no_use_after_free_refuted.
Print Assumptions C24_insert_within_limit_partial.
Print Assumptions C24_limit_kept_partial.
Print Assumptions C24_plain_limit_partial.
Print Assumptions C24_limit_enforced_refuted.
Print Assumptions C24_refused_insertion_purges_nothing_refuted.
