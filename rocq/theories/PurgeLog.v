(** Route life cycle: what holds in every history, whatever the state of the purge list. *)
From Verif Require Import Base Links LinksProofs Table Keyed Purge PurgeSpec.
Open Scope Z_scope.

Ltac inv_bind H := match type of H with bind ?m _ = Ret _ => let E := fresh "E" in let v := fresh "v" in destruct m as [v| |] eqn:E; cbn [bind] in H; [|discriminate|discriminate] end.

Definition relinked (s s' : pst) : Prop := exists h d n, s' = set_list s h d n.
Lemma relinked_refl s : relinked s s.
Proof. exists (lk s), (hd s), (len s). destruct s; reflexivity. Qed.
Lemma pl_delete_relinked s a s' : pl_delete s a = Ret s' -> relinked s s'.
Proof. unfold pl_delete. intros H. inv_bind H. destruct v as [h d]. injection H as <-. unfold relinked. eauto. Qed.
Lemma pl_insert_relinked s a s' : pl_insert s a = Ret s' -> relinked s s'.
Proof. unfold pl_insert. intros H. inv_bind H. inv_bind H. inv_bind H. destruct v1 as [h d]. injection H as <-. unfold relinked. eauto. Qed.
Lemma cond_relinked (b : bool) s a s' : (if b then Ret s else pl_delete s a) = Ret s' -> relinked s s'.
Proof. destruct b; intros H; [injection H as <-; apply relinked_refl|exact (pl_delete_relinked _ _ _ H)]. Qed.
Lemma relinked_same s s' : relinked s s' -> ob s' = ob s /\ tb s' = tb s /\ maxp s' = maxp s /\ maxidle s' = maxidle s /\ evs s' = evs s /\ brk s' = brk s /\ log s' = log s.
Proof. intros (h & d & n & ->). repeat split. Qed.
Lemma deref_ret s a r : deref s a = Ret r -> ob s a = Some r.
Proof. unfold deref. destruct (ob s a); cbn; congruence. Qed.

(** ** Deletion *)
Definition dels (s : pst) (a : addr) (r : robj) : list happening := if e_del (evs s (r_ev r)) && negb (r_dc r) then [Deleted a] else [].
Record taken (s s' : pst) (a : addr) (r : robj) : Prop := {
  t_tb : tb s' = untable (tb s) a; t_max : maxp s' = maxp s; t_idle : maxidle s' = maxidle s; t_evs : evs s' = evs s; t_brk : brk s' = brk s;
  t_ob : forall x, x <> a -> ob s' x = ob s x;
  t_log : log s' = log s ++ Gone a :: dels s a r;
  t_a : forall r', ob s' a = Some r' -> exists n, r' = with_refs (with_dc (with_in r false) (r_dc r || e_del (evs s (r_ev r)))%bool) n }.
Lemma drop_any s a s' : drop_ref s a = Ret s' -> exists r, ob s a = Some r /\ tb s' = tb s /\ maxp s' = maxp s /\ maxidle s' = maxidle s /\ evs s' = evs s /\ brk s' = brk s /\ log s' = log s
  /\ (forall x, x <> a -> ob s' x = ob s x) /\ (forall r', ob s' a = Some r' -> exists n, r' = with_refs r n).
Proof.
  unfold drop_ref. intros H. inv_bind H. apply deref_ret in E. exists v. split; [exact E|].
  destruct (r_refs v =? 0)%N; [injection H as <-; repeat split; intros r' X; rewrite E in X; injection X as <-; exists (r_refs v); destruct v; reflexivity|].
  destruct (r_refs v =? 1)%N; injection H as <-; cbn; repeat split; intros x X; try (apply upd_neq; exact X); rewrite upd_eq in X; [discriminate|]. injection X as <-. eauto.
Qed.
Lemma delete_any s a e s' : delete_0 s a false = Ret (e, s') -> exists r, ob s a = Some r /\ (r_in r = false /\ e = INVALID_ARG /\ s' = s \/ r_in r = true /\ e = OK /\ taken s s' a r).
Proof.
  unfold delete_0. intros H. inv_bind H. apply deref_ret in E. rename v into r. exists r. split; [exact E|]. cbn [andb] in H. destruct (r_in r) eqn:T; cbn [negb] in H; [|left; injection H as <- <-; auto]. right. split; [reflexivity|].
  inv_bind H. rename v into s1. inv_bind H. rename v into s2. inv_bind H. rename v into s3. injection H as <- <-. split; [reflexivity|].
  apply cond_relinked, relinked_same in E0. destruct E0 as (A1 & A2 & A3 & A4 & A5 & A6 & A7). cbn in A1, A2, A3, A4, A5, A6, A7.
  unfold run_delete_actions in E1. inv_bind E1. apply deref_ret in E0. rewrite A1, upd_eq in E0. injection E0 as <-. rewrite A5 in E1. cbn [r_ev r_dc with_in] in E1.
  apply drop_any in E2. destruct E2 as (r2 & B1 & B2 & B3 & B4 & B5 & B6 & B7 & B8 & B9).
  assert (G : exists r3, ob s2 a = Some r3 /\ tb s2 = tb s1 /\ maxp s2 = maxp s1 /\ maxidle s2 = maxidle s1 /\ evs s2 = evs s1 /\ brk s2 = brk s1 /\ (forall x, x <> a -> ob s2 x = ob s1 x)
     /\ log s2 = log s1 ++ dels s a r /\ r3 = with_dc (with_in r false) (r_dc r || e_del (evs s (r_ev r)))%bool).
  { unfold dels. destruct (e_del (evs s (r_ev r)) && negb (r_dc r)) eqn:B; injection E1 as <-.
    - eexists. cbn. split; [apply upd_eq|]. repeat split. { intros x X. apply upd_neq. exact X. } apply andb_true_iff in B. destruct B as [-> B]. rewrite orb_true_r. reflexivity.
    - eexists. rewrite A1. split; [apply upd_eq|]. rewrite app_nil_r. repeat (split; [reflexivity|]). destruct r as [q1 q2 q3 q4 q5 q6 q7 q8 q9 q10]. cbn in *. destruct q6, (e_del (evs s q2)); first [discriminate B|reflexivity]. }
  destruct G as (r3 & C1 & C2 & C3 & C4 & C5 & C6 & C7 & C8 & C9). assert (ER : r3 = r2) by congruence. rewrite ER in C1, C9.
  constructor; try congruence.
  - rewrite B2, C2, A2. reflexivity.
  - intros x X. rewrite B8, C7, A1 by exact X. apply upd_neq. exact X.
  - rewrite B7, C8, A7, <- app_assoc. reflexivity.
  - intros r' X. destruct (B9 r' X) as [n ->]. exists n. rewrite <- C9. reflexivity.
Qed.

(** ** Purging *)
(** [s'] is [s] after the routes [g] were taken out one after the other; each of them satisfied [P] before *)
Inductive takes (P : pst -> robj -> Prop) : pst -> list addr -> pst -> Prop :=
  | takes_nil s : takes P s [] s
  | takes_cons s s1 s2 a r g : ob s a = Some r -> r_in r = true -> P s r -> taken s s1 a r -> takes P s1 g s2 -> takes P s (a :: g) s2.
Definition stale_at (mode : N) (now : Z) (s : pst) (r : robj) : Prop := mode = 3%N \/ (r_purge r <= now /\ blocks s now r = false).
Lemma purge_loop_any mode now : forall fuel s n e s', purge_loop fuel s mode now n = Ret (e, s') -> exists g, takes (stale_at mode now) s g s'.
Proof.
  induction fuel as [|fuel IH]; cbn [purge_loop]; intros s n e s' H; [discriminate|]. destruct (ltail (hd s)) as [a|]; [|injection H as <- <-; exists []; constructor].
  inv_bind H. apply deref_ret in E. rename v into r.
  destruct (negb (mode =? 3)%N && (r_purge r >? now)) eqn:B1; [injection H as <- <-; exists []; constructor|]. fold (blocks s now r) in H.
  destruct (negb (mode =? 3)%N && blocks s now r) eqn:B2; [discriminate|]. inv_bind H. destruct v as [e1 s1]. apply delete_any in E0. destruct E0 as (r' & O & [(T & -> & ->)|(T & -> & TK)]).
  - cbn in H. injection H as <- <-. exists []; constructor.
  - assert (r' = r) by congruence. subst r'. cbn [is_success negb] in H.
    assert (ST : stale_at mode now s r). { unfold stale_at. destruct (N.eqb_spec mode 3) as [|NE]; [auto|right]. cbn in B1, B2. split; [|exact B2]. destruct (Z.gtb_spec (r_purge r) now); [discriminate|lia]. }
    destruct (1 <=? mode)%N; [injection H as <- <-; exists [a]; econstructor; eauto; constructor|]. destruct (IH _ _ _ _ H) as [g G]. exists (a :: g). econstructor; eauto.
Qed.
Lemma stale_purge_any s mode now clock e s' : stale_purge s mode now clock = Ret (e, s') ->
  s' = s \/ exists t g, (if negb (mode =? 3)%N && (now =? 0) then clock else Some now) = Some t /\ takes (stale_at mode t) s g s'.
Proof.
  unfold stale_purge. destruct (if negb (mode =? 3)%N && (now =? 0) then clock else Some now) as [t|]; [|intros H; injection H as <- <-; auto].
  destruct (ltail (hd s)) as [a|]; [|intros H; injection H as <- <-; auto]. intros H. inv_bind H. destruct (negb (mode =? 3)%N && (r_purge v >? t)); [injection H as <- <-; auto|].
  apply purge_loop_any in H. destruct H as [g G]. right. exists t, g. auto.
Qed.
(** routes outside the table are not touched *)
Lemma takes_frame P s g s' : takes P s g s' -> maxp s' = maxp s /\ maxidle s' = maxidle s /\ evs s' = evs s /\ brk s' = brk s
  /\ (forall x r, ob s x = Some r -> r_in r = false -> ob s' x = Some r) /\ (forall x, ob s x = None -> ob s' x = None).
Proof.
  induction 1 as [|s s1 s2 a r g O T PP TK _ IH]; [auto 12|]. destruct IH as (A & B & C & D & F & G). destruct TK as [T1 T2 T3 T4 T5 T6 T7 T8]. repeat (split; [congruence|]). split.
  - intros x y X Y. apply F; [|exact Y]. rewrite T6; [exact X|]. intros ->. congruence.
  - intros x X. apply G. rewrite T6; [exact X|]. intros ->. congruence.
Qed.

(** ** The counts *)
Lemma times_app h l l' : times h (l ++ l') = (times h l + times h l')%nat.
Proof. unfold times. rewrite filter_app, app_length. reflexivity. Qed.
Definition subject (h : happening) : addr := match h with Inserted a | Deleted a | Gone a => a end.
Lemma times_other h x : subject h <> subject x -> times h [x] = 0%nat.
Proof. unfold times. destruct h as [a|a|a], x as [b|b|b]; cbn; intros H; try reflexivity; (destruct (Pos.eqb_spec a b); [contradiction|reflexivity]). Qed.
Definition b2n (b : bool) : nat := if b then 1%nat else 0%nat.
Record counts (c : nat) (l : list happening) (a : addr) (r : robj) : Prop := {
  k_ins : (times (Inserted a) l + b2n (negb (r_ic r)) <= 1 + c)%nat;
  k_del : times (Deleted a) l = b2n (r_dc r);
  k_gone : (times (Gone a) l <= b2n (negb (r_in r)))%nat;
  k_dc : r_in r = true -> r_dc r = false }.
Section Every.
(** every parent event always has delete actions *)
Variable every : bool.
Record few (c : nat) (l : list happening) (a : addr) : Prop := {
  f_ins : (times (Inserted a) l <= 1 + c)%nat; f_del : (times (Deleted a) l <= 1)%nat; f_gone : (times (Gone a) l <= 1)%nat;
  f_le : (times (Deleted a) l <= times (Gone a) l)%nat; f_eq : every = true -> times (Deleted a) l = times (Gone a) l }.
Definition none (s : pst) (a : addr) : Prop := times (Inserted a) (log s) = 0%nat /\ times (Deleted a) (log s) = 0%nat /\ times (Gone a) (log s) = 0%nat.
Record once (c : nat) (s : pst) : Prop := {
  o_new : forall a, (brk s <= a)%positive -> ob s a = None /\ none s a;
  o_obj : forall a r, ob s a = Some r -> counts c (log s) a r;
  o_few : forall a, few c (log s) a;
  o_ev : every = true -> forall e, e_del (evs s e) = true }.
Lemma once_same c s s' : ob s' = ob s -> brk s' = brk s -> log s' = log s -> evs s' = evs s -> once c s -> once c s'.
Proof. intros A B C EE [N0 O0 F0 V0]. constructor; [| | |rewrite EE; exact V0]; intros a; rewrite ?A, ?B; unfold none; [intros LE; rewrite C; exact (N0 a LE)|intros r X; destruct (O0 a r X); constructor; rewrite ?C; assumption|rewrite C; exact (F0 a)]. Qed.
Lemma once_relinked c s s' : relinked s s' -> once c s -> once c s'.
Proof. intros R. apply relinked_same in R. destruct R as (A & _ & _ & _ & EE & B & C). exact (once_same c s s' A B C EE). Qed.
(** one object is rewritten, and something may have happened to it *)
Lemma once_upd c s s' a r : ob s a = Some r -> once c s -> brk s' = brk s /\ evs s' = evs s -> (forall x, x <> a -> ob s' x = ob s x) ->
  (forall h, subject h <> a -> times h (log s') = times h (log s)) -> few c (log s') a -> (forall r', ob s' a = Some r' -> counts c (log s') a r') -> once c s'.
Proof.
  intros O [N0 O0 F0 V0] [B EE] X H F CT.
  assert (LT : (a < brk s)%positive). { destruct (Pos.ltb_spec a (brk s)) as [L|L]; [exact L|]. destruct (N0 a L). congruence. }
  constructor; [| | |rewrite EE; exact V0]; intros x.
  - rewrite B. intros LE. assert (NE : x <> a) by (intros ->; lia). rewrite X by exact NE. destruct (N0 x LE) as (Y & Z). split; [exact Y|]. unfold none. rewrite !H by exact NE. exact Z.
  - intros y OY. destruct (Pos.eq_dec x a) as [->|NE]; [auto|]. rewrite X in OY by exact NE. destruct (O0 x y OY). constructor; rewrite ?H by exact NE; assumption.
  - destruct (Pos.eq_dec x a) as [->|NE]; [exact F|]. destruct (F0 x). constructor; rewrite ?H by exact NE; assumption.
Qed.
Lemma once_obj c s a r r' : once c s -> ob s a = Some r -> r_ic r' = r_ic r -> r_dc r' = r_dc r -> r_in r' = r_in r -> once c (set_obj s a (Some r')).
Proof.
  intros K O A B C. apply (once_upd c s _ a r O K); [split; reflexivity|intros x NE; cbn; apply upd_neq; exact NE|reflexivity|exact (o_few _ _ K a)|].
  cbn. rewrite upd_eq. intros y X. injection X as <-. destruct (o_obj _ _ K a r O). constructor; rewrite ?A, ?B, ?C; assumption.
Qed.
Lemma once_free c s a r : once c s -> ob s a = Some r -> once c (free s a).
Proof. intros K O. apply (once_upd c s _ a r O K); [split; reflexivity|intros x NE; cbn; apply upd_neq; exact NE|reflexivity|exact (o_few _ _ K a)|]. cbn. rewrite upd_eq. discriminate. Qed.
Lemma once_drop c s a s' : once c s -> drop_ref s a = Ret s' -> once c s'.
Proof.
  intros K H. unfold drop_ref in H. inv_bind H. apply deref_ret in E. destruct (r_refs v =? 0)%N; [injection H as <-; exact K|].
  destruct (r_refs v =? 1)%N; injection H as <-; [exact (once_free _ _ _ _ K E)|]. apply (once_obj _ _ _ _ _ K E); reflexivity.
Qed.
Lemma taken_counts c s s' a r : once c s -> ob s a = Some r -> r_in r = true -> taken s s' a r -> once c s'.
Proof.
  intros K O T TK. destruct (o_obj _ _ K a r O) as [K1 K2 K3 K4]. rewrite T in K3. specialize (K4 T). rewrite K4 in K2. cbn in K2, K3.
  assert (L1 : times (Inserted a) (log s') = times (Inserted a) (log s)). { rewrite (t_log _ _ _ _ TK), times_app. unfold dels. destruct (_ && _); cbn; lia. }
  assert (L2 : times (Gone a) (log s') = 1%nat). { rewrite (t_log _ _ _ _ TK), times_app. unfold dels. destruct (_ && _); unfold times at 2; cbn; rewrite Pos.eqb_refl; cbn; lia. }
  assert (L3 : times (Deleted a) (log s') = b2n (e_del (evs s (r_ev r)))). { rewrite (t_log _ _ _ _ TK), times_app. unfold dels. rewrite K4. destruct (e_del (evs s (r_ev r))); unfold times at 2; cbn; rewrite ?Pos.eqb_refl; cbn; lia. }
  apply (once_upd c s _ a r O K); [exact (conj (t_brk _ _ _ _ TK) (t_evs _ _ _ _ TK))|exact (t_ob _ _ _ _ TK)| | |].
  - intros h NE. rewrite (t_log _ _ _ _ TK), times_app. change (Gone a :: dels s a r) with ([Gone a] ++ dels s a r). rewrite times_app, times_other by (cbn; exact NE). unfold dels. destruct (_ && _); [rewrite times_other by (cbn; exact NE)|]; cbn; lia.
  - constructor; rewrite ?L1, ?L2, ?L3; [destruct (r_ic r); cbn in *; lia| |lia| |]; [destruct (e_del _); cbn; lia|destruct (e_del _); cbn; lia|]. intros EV. rewrite (o_ev _ _ K EV). reflexivity.
  - intros r' X. destruct (t_a _ _ _ _ TK r' X) as (n & ->). constructor; rewrite ?L1, ?L2, ?L3; cbn; rewrite ?K4; cbn; try lia; try reflexivity; try discriminate.
Qed.
Lemma takes_counts c P s g s' : takes P s g s' -> once c s -> once c s'.
Proof. induction 1 as [|s s1 s2 a r g O T PP TK _ IH]; intros K; [exact K|]. apply IH. exact (taken_counts _ _ _ _ _ K O T TK). Qed.
Lemma stale_counts c s mode now clock e s' : once c s -> stale_purge s mode now clock = Ret (e, s') -> once c s'.
Proof. intros K H. apply stale_purge_any in H. destruct H as [->|(t & g & _ & G)]; [exact K|]. exact (takes_counts _ _ _ _ _ G K). Qed.
Lemma stale_frame s mode now clock e s' : stale_purge s mode now clock = Ret (e, s') -> maxp s' = maxp s /\ maxidle s' = maxidle s /\ evs s' = evs s /\ brk s' = brk s
  /\ (forall x r, ob s x = Some r -> r_in r = false -> ob s' x = Some r) /\ (forall x, ob s x = None -> ob s' x = None).
Proof. intros H. apply stale_purge_any in H. destruct H as [->|(t & g & _ & G)]; [auto 12|]. exact (takes_frame _ _ _ _ G). Qed.
Lemma delete_counts c s a d e s' : once c s -> delete_0 s a d = Ret (e, s') -> once c s'.
Proof.
  intros K H. destruct (d && match ob s a with Some r => (0 <? r_conns r)%N | None => false end)%bool eqn:B.
  - unfold delete_0 in H. inv_bind H. apply deref_ret in E. rewrite E in B. rewrite B in H. unfold defer_delete in H.
    assert (K1 : once c (set_obj s a (Some (with_pend v true)))) by (apply (once_obj _ _ _ _ _ K E); reflexivity).
    destruct (r_purge (with_pend v true) <? r_hit (with_pend v true) + FIN_TIMEOUT); [|injection H as <- <-; exact K1].
    inv_bind H. apply cond_relinked in E0. pose proof (relinked_same _ _ E0) as (A1 & _). apply (once_relinked _ _ _ E0) in K1. inv_bind H. apply pl_insert_relinked in E1. injection H as <- <-. apply (once_relinked _ _ _ E1).
    apply (once_obj _ _ _ (with_pend v true) _ K1); try reflexivity. rewrite A1. cbn. apply upd_eq.
  - assert (D : delete_0 s a false = Ret (e, s')). { unfold delete_0 in *. inv_bind H. apply deref_ret in E. rewrite E in B. rewrite B in H. cbn [bind andb]. exact H. }
    apply delete_any in D. destruct D as (r & O & [(_ & _ & ->)|(T & _ & TK)]); [exact K|exact (taken_counts _ _ _ _ _ K O T TK)].
Qed.
Lemma retime_counts c s a t s' : once c s -> retime s a t = Ret s' -> once c s'.
Proof.
  intros K H. unfold retime in H. inv_bind H. apply deref_ret in E. inv_bind H. apply cond_relinked in E0. pose proof (relinked_same _ _ E0) as (A1 & _). apply (once_relinked _ _ _ E0) in K.
  assert (K1 : once c (set_obj v0 a (Some (with_purge v t)))) by (apply (once_obj _ _ _ v _ K); try reflexivity; rewrite A1; exact E).
  destruct (t =? 0); [injection H as <-; exact K1|]. exact (once_relinked _ _ _ (pl_insert_relinked _ _ _ H) K1).
Qed.
(** the insert actions of a route in [s] *)
Lemma actions_counts c s a stop hres e s' : once c s -> run_insert_actions s a stop hres = Ret (e, s') -> once c s' /\ exists r r', ob s a = Some r /\ ob s' a = Some r' /\ r_in r' = r_in r.
Proof.
  intros K H. unfold run_insert_actions in H. inv_bind H. apply deref_ret in E. rename v into r. destruct (e_ins (evs s (r_ev r))); cbn [negb] in H; [|injection H as <- <-; eauto 8]. destruct stop; [injection H as <- <-; eauto 8|].
  destruct (r_ic r) eqn:IC; [injection H as <- <-; eauto 8|]. injection H as <- <-. destruct (o_obj _ _ K a r E) as [K1 K2 K3 K4]. rewrite IC in K1. cbn in K1.
  split; [|exists r, (with_ic r true); cbn; rewrite upd_eq; auto].
  assert (L1 : times (Inserted a) (log s ++ [Inserted a]) = S (times (Inserted a) (log s))). { rewrite times_app. unfold times at 2. cbn. rewrite Pos.eqb_refl. cbn. lia. }
  assert (L2 : times (Deleted a) (log s ++ [Inserted a]) = times (Deleted a) (log s)) by (rewrite times_app; cbn; lia).
  assert (L3 : times (Gone a) (log s ++ [Inserted a]) = times (Gone a) (log s)) by (rewrite times_app; cbn; lia).
  apply (once_upd c s _ a r E K); [split; reflexivity|intros x NE; cbn; apply upd_neq; exact NE| | |].
  - intros h NE. cbn [log say]. rewrite times_app, times_other by (cbn; exact NE). apply Nat.add_0_r.
  - destruct (o_few _ _ K a). constructor; cbn [log say set_obj]; rewrite ?L1, ?L2, ?L3; try assumption; lia.
  - cbn. rewrite upd_eq. intros y X. injection X as <-. constructor; cbn [log say set_obj with_ic r_ic r_dc r_in negb b2n]; rewrite ?L1, ?L2, ?L3; try assumption. lia.
Qed.
(** a route that never was in a table enters or leaves it *)
Lemma once_in c s a r p : once c s -> ob s a = Some r -> times (Gone a) (log s) = 0%nat -> r_dc r = false -> once c (set_obj s a (Some (with_in r p))).
Proof.
  intros K O G D. apply (once_upd c s _ a r O K); [split; reflexivity|intros x NE; cbn; apply upd_neq; exact NE|reflexivity|exact (o_few _ _ K a)|].
  cbn. rewrite upd_eq. intros y X. injection X as <-. destruct (o_obj _ _ K a r O). constructor; cbn; try assumption; [rewrite G; lia|auto].
Qed.
Lemma once_tb c s t : once c s -> once c (set_tb s t).
Proof. apply once_same; reflexivity. Qed.
Lemma insert_1_counts c s a r conn clock stop hres e there s' : once c s -> ob s a = Some r -> r_in r = false -> r_dc r = false -> times (Gone a) (log s) = 0%nat ->
  insert_1 s a conn clock stop hres = Ret (e, there, s') -> once c s'.
Proof.
  intros K O T D G H. unfold insert_1 in H. unfold deref in H at 1. rewrite O in H. cbn [ub_none bind] in H. destruct clock as [now|]; [|injection H as _ _ <-; exact K].
  destruct (negb (r_purge r =? 0) && (r_purge r <=? now)); [injection H as _ _ <-; exact K|]. cbv zeta in H.
  match type of H with context [set_obj s a (Some ?x)] => set (r2 := x) in * end.
  assert (R2 : r_ic r2 = r_ic r /\ r_dc r2 = false /\ r_in r2 = false). { unfold r2. destruct conn; match goal with |- context [if ?b then _ else _] => destruct b end; cbn; auto. } destruct R2 as (R2a & R2b & R2c).
  assert (K1 : once c (set_obj s a (Some r2))) by (apply (once_obj _ _ _ _ _ K O); congruence).
  inv_bind H. destruct v as [e1 s1]. rename E into EP.
  assert (F : once c s1 /\ ob s1 a = Some r2 /\ times (Gone a) (log s1) = 0%nat).
  { destruct (negb (r_purge r2 =? 0) && (0 <? maxp (set_obj s a (Some r2))) && (maxp (set_obj s a (Some r2)) <=? len (set_obj s a (Some r2)))).
    - pose proof (stale_counts _ _ _ _ _ _ _ K1 EP) as K2. pose proof (stale_purge_any _ _ _ _ _ _ EP) as ST. destruct (stale_frame _ _ _ _ _ _ EP) as (_ & _ & _ & _ & FR & _).
      split; [exact K2|]. split; [apply FR; [cbn; apply upd_eq|exact R2c]|].
      destruct ST as [->|(t & g & _ & TK)]; [exact G|]. clear K1 K2 EP FR H. cut (forall x y, ob (set_obj s a (Some r2)) a = Some x -> r_in x = false -> times (Gone a) (log (set_obj s a (Some r2))) = y -> times (Gone a) (log s1) = y).
      { intros Q. apply (Q r2); [cbn; apply upd_eq|exact R2c|exact G]. }
      induction TK as [|sa sb sc b rb g OB TB PB TK TKS IH]; intros x y A B C; [exact C|]. apply (IH x y); [rewrite (t_ob _ _ _ _ TK); [exact A|intros ->; congruence]|exact B|].
      assert (NE : a <> b) by (intros ->; congruence). rewrite (t_log _ _ _ _ TK), times_app. change (Gone b :: dels sa b rb) with ([Gone b] ++ dels sa b rb). rewrite times_app, times_other by (cbn; exact NE). unfold dels. match goal with |- context [if ?b then _ else _] => destruct b end; [rewrite times_other by (cbn; exact NE)|]; cbn; lia.
    - injection EP as <- <-. split; [exact K1|]. split; [cbn; apply upd_eq|exact G]. }
  destruct F as (K2 & O2 & G2). destruct (is_success e1); cbn [negb] in H; [|injection H as _ _ <-; exact K2].
  destruct (kinsert rkey kcmp (tb s1) (r_key r2, a)) as [t|].
  - inv_bind H. destruct v as [e2 s2]. rename E into EA.
    assert (K3 : once c (set_obj (set_tb s1 t) a (Some (with_in r2 true)))) by (apply (once_in c (set_tb s1 t) a r2); [apply once_tb; exact K2|exact O2|exact G2|exact R2b]).
    destruct (actions_counts _ _ _ _ _ _ _ K3 EA) as (K4 & q & q' & _ & OQ & _). inv_bind H. apply deref_ret in E. assert (v = q') by congruence. subst v.
    inv_bind H. injection H as _ _ <-.
    assert (GQ : times (Gone a) (log s2) = 0%nat).
    { unfold run_insert_actions in EA. inv_bind EA. destruct (e_ins _); cbn [negb] in EA; [|injection EA as _ <-; exact G2]. destruct stop; [injection EA as _ <-; exact G2|]. destruct (r_ic v0); injection EA as _ <-; [exact G2|]. cbn [log say set_obj set_tb]. rewrite times_app, G2. reflexivity. }
    assert (DQ : r_dc q' = false).
    { unfold run_insert_actions in EA. inv_bind EA. apply deref_ret in E1. cbn in E1. rewrite upd_eq in E1. injection E1 as <-. destruct (e_ins _); cbn [negb] in EA; [|injection EA as _ <-; cbn in OQ; rewrite upd_eq in OQ; injection OQ as <-; exact R2b].
      destruct stop; [injection EA as _ <-; cbn in OQ; rewrite upd_eq in OQ; injection OQ as <-; exact R2b|]. destruct (r_ic (with_in r2 true)); injection EA as _ <-; cbn in OQ; rewrite ?upd_eq in OQ; injection OQ as <-; exact R2b. }
    match type of E0 with (if _ then Ret ?x else _) = _ => set (s3 := x) in * end.
    assert (K5 : once c s3). { unfold s3. destruct (is_success e2); [exact K4|]. apply (once_in c (set_tb s2 _) a q'); [apply once_tb; exact K4|exact OQ|exact GQ|exact DQ]. }
    destruct (r_purge q' =? 0); [injection E0 as <-; exact K5|]. exact (once_relinked _ _ _ (pl_insert_relinked _ _ _ E0) K5).
  - destruct (kfind rkey kcmp (tb s1) (r_key r2)) as [[k' b]|]; [|injection H as _ _ <-; exact K2]. inv_bind H. apply deref_ret in E. destruct (r_pend v); [|injection H as _ _ <-; exact K2]. inv_bind H. injection H as _ _ <-.
    refine (retime_counts _ _ _ _ _ _ E0). apply (once_obj _ _ _ _ _ K2 E); reflexivity.
Qed.
Lemma alloc_counts c s r : once c s -> r_in r = false -> r_dc r = false -> once c (snd (alloc s r)) /\ ob (snd (alloc s r)) (brk s) = Some r /\ times (Gone (brk s)) (log s) = 0%nat.
Proof.
  intros K T D. destruct (o_new _ _ K (brk s) ltac:(lia)) as (NB & N1 & N2 & N3). split; [|split; [cbn; apply upd_eq|exact N3]]. constructor; cbn [alloc snd ob brk log].
  - intros a LE. rewrite upd_neq by lia. apply (o_new _ _ K). lia.
  - intros a y. unfold upd. destruct (Pos.eqb_spec a (brk s)) as [->|NE]; [|apply (o_obj _ _ K)]. intros X. injection X as <-. constructor; cbn [log]; rewrite ?N1, ?N2, ?N3, ?T, ?D; cbn; try lia; try reflexivity. destruct (r_ic r); cbn; lia.
  - intros a. exact (o_few _ _ K a).
  - exact (o_ev _ _ K).
Qed.
Lemma flush_counts c : forall L s e s', once c s -> flush_loop L s = Ret (e, s') -> once c s'.
Proof.
  induction L as [|[k a] L IH]; cbn [flush_loop]; intros s e s' K H; [injection H as _ <-; exact K|]. inv_bind H. destruct v as [e1 s1]. apply (delete_counts _ _ _ _ _ _ K) in E. destruct (is_success e1); [exact (IH _ _ _ E H)|]. injection H as _ <-. exact E.
Qed.
Lemma bulk_counts c h : forall L stop s e s', once c s -> bulk_loop L h stop s = Ret (e, s') -> once c s'.
Proof.
  induction L as [|[k a] L IH]; cbn [bulk_loop]; intros stop s e s' K H; [injection H as _ <-; exact K|]. inv_bind H. inv_bind H. destruct v0 as [e1 s1]. apply (actions_counts _ _ _ _ _ _ _ K) in E0. destruct E0 as [K1 _].
  destruct (is_success e1 || _); [exact (IH _ _ _ _ K1 H)|]. injection H as _ <-. exact K1.
Qed.
Lemma once_weaken c s : once c s -> once (S c) s.
Proof. intros [A B C D]. constructor; [exact A|intros a r O; destruct (B a r O); constructor; try assumption; lia|intros a; destruct (C a); constructor; try assumption; lia|exact D]. Qed.
(** clearing: each flag is cleared at most once per call, however often the route occurs *)
Lemma clear_counts c : forall L s s', (forall a r, ob s a = Some r -> (times (Inserted a) (log s) <= 1 + c)%nat) -> once (S c) s -> clear_loop L s = Ret s' -> once (S c) s'.
Proof.
  induction L as [|[k a] L IH]; cbn [clear_loop]; intros s s' B K H; [injection H as <-; exact K|]. inv_bind H. apply deref_ret in E. refine (IH _ _ _ _ H).
  - intros x y. cbn. unfold upd. destruct (Pos.eqb_spec x a) as [->|]; [intros _; exact (B a v E)|apply B].
  - apply (once_upd _ s _ a v E K); [split; reflexivity|intros x NE; cbn; apply upd_neq; exact NE|reflexivity|exact (o_few _ _ K a)|]. cbn. rewrite upd_eq. intros y X. injection X as <-.
    destruct (o_obj _ _ K a v E). constructor; cbn; try assumption. specialize (B a v E). lia.
Qed.
Definition clr (o : op) : nat := match o with BulkClear => 1%nat | _ => 0%nat end.
Definition keeps_delete_lists (o : op) : Prop := match o with SetEvent _ v => every = true -> e_del v = true | _ => True end.
Lemma step_counts c s o e s' : keeps_delete_lists o -> once c s -> step s o = Ret (e, s') -> once (clr o + c) s'.
Proof.
  intros KD K H. destruct o as [k ev t conn clock stop hres|k|k conns clock clock2|now clock2|a t|clock|clock|clock|n clock|t| |h| |k|a|x v]; cbn [step clr plus] in *.
  - unfold insert_2 in H. destruct (alloc_counts c s (mkr k ev false false false false 0 t 0 1) K eq_refl eq_refl) as (K1 & O1 & G1). unfold alloc in *. cbn [snd] in *. inv_bind H. destruct v as [[e1 th] s1].
    apply (insert_1_counts c _ _ _ _ _ _ _ _ _ _ K1 O1 eq_refl eq_refl G1) in E. inv_bind H. injection H as _ <-. destruct th, (is_success e1); try exact (once_drop _ _ _ _ E E0). injection E0 as <-. exact E.
  - destruct (kfind rkey kcmp (tb s) k) as [[k' a]|]; [exact (delete_counts _ _ _ _ _ _ K H)|injection H as _ <-; exact K].
  - destruct (kfind rkey kcmp (tb s) k) as [[k' a]|]; [|injection H as _ <-; exact K]. unfold dispatch_hit in H. inv_bind H. apply deref_ret in E. inv_bind H. inv_bind H. destruct v1 as [e1 s1]. inv_bind H. apply deref_ret in E2. injection H as _ <-.
    apply (once_obj _ _ _ v1); try reflexivity; [|exact E2]. refine (stale_counts _ _ _ _ _ _ _ _ E1). unfold refresh in E0. inv_bind E0. apply deref_ret in E3. assert (v2 = v) by congruence. subst v2.
    set (r1 := match clock with Some t => with_hit v t | None => v end) in *. assert (R1 : r_ic r1 = r_ic v /\ r_dc r1 = r_dc v /\ r_in r1 = r_in v) by (unfold r1; destruct clock; auto). destruct R1 as (R1a & R1b & R1c).
    assert (K1 : once c (set_obj s a (Some r1))) by (apply (once_obj _ _ _ _ _ K E); assumption). cbv zeta in E0. destruct (r_purge r1 =? 0); [injection E0 as <-; exact K1|]. destruct (_ >=? _); [|injection E0 as <-; exact K1].
    assert (K2 : forall t, once c (set_obj (set_obj s a (Some r1)) a (Some (with_purge r1 t)))) by (intros t; apply (once_obj _ _ _ r1 _ K1); try reflexivity; cbn; apply upd_eq).
    destruct (eqo a _); [injection E0 as <-; apply K2|]. inv_bind E0. exact (once_relinked _ _ _ (pl_insert_relinked _ _ _ E0) (once_relinked _ _ _ (pl_delete_relinked _ _ _ E4) (K2 _))).
  - inv_bind H. destruct v as [e1 s1]. injection H as _ <-. exact (stale_counts _ _ _ _ _ _ _ K E).
  - inv_bind H. destruct (r_in v || _)%bool; [|discriminate]. inv_bind H. injection H as _ <-. exact (retime_counts _ _ _ _ _ K E0).
  - exact (stale_counts _ _ _ _ _ _ _ K H).
  - exact (stale_counts _ _ _ _ _ _ _ K H).
  - exact (stale_counts _ _ _ _ _ _ _ K H).
  - assert (K1 : once c (set_max s n)) by (revert K; apply once_same; reflexivity). destruct (_ && _); [exact (stale_counts _ _ _ _ _ _ _ K1 H)|]. injection H as _ <-. exact K1.
  - injection H as _ <-. revert K. apply once_same; reflexivity.
  - exact (flush_counts _ _ _ _ _ K H).
  - exact (bulk_counts _ _ _ _ _ _ _ K H).
  - inv_bind H. injection H as _ <-. refine (clear_counts c _ _ _ _ (once_weaken _ _ K) E). intros a r _. exact (f_ins _ _ _ (o_few _ _ K a)).
  - destruct (kfind rkey kcmp (tb s) k) as [[k' a]|]; [|injection H as _ <-; exact K]. inv_bind H. apply deref_ret in E. injection H as _ <-. apply (once_obj _ _ _ _ _ K E); reflexivity.
  - inv_bind H. injection H as _ <-. exact (once_drop _ _ _ _ K E).
  - injection H as _ <-. destruct K as [A B C D]. constructor; try assumption. cbn. intros EV y. destruct (N.eqb y x); [exact (KD EV)|exact (D EV y)].
Qed.
Lemma once_init ev : (every = true -> forall e, e_del (ev e) = true) -> once 0 (pinit ev).
Proof. intros EV. constructor; cbn; [intros; repeat split|discriminate|intros; constructor; cbn; try lia; reflexivity|exact EV]. Qed.
Lemma clears_cons o os : clears (o :: os) = (clr o + clears os)%nat.
Proof. unfold clears. destruct o; reflexivity. Qed.
Lemma run_counts : forall os s c es s', Forall keeps_delete_lists os -> once c s -> run s os = Ret (es, s') -> once (clears os + c) s'.
Proof.
  induction os as [|o os IH]; cbn [run]; intros s c es s' F K H; [injection H as _ <-; exact K|]. inversion F as [|? ? F1 F2]; subst. inv_bind H. destruct v as [e1 s1]. inv_bind H. destruct v as [es2 s2]. injection H as _ <-.
  apply (step_counts _ _ _ _ _ F1 K) in E. specialize (IH _ _ _ _ F2 E E0). rewrite clears_cons. replace (clr o + clears os + c)%nat with (clears os + (clr o + c))%nat by lia. exact IH.
Qed.
End Every.
