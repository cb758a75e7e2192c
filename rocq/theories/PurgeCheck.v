(** Route life cycle: deciding whether a concrete history is calm and neat, for the examples. *)
From Verif Require Import Base Links LinksProofs Table Keyed Purge PurgeSpec.
Open Scope Z_scope.

Definition all_routes (s : pst) (p : addr -> robj -> bool) : bool :=
  forallb (fun x => match ob s (snd x) with Some r => if N.eqb (r_key r) (fst x) then p (snd x) r else true | None => true end) (tb s).
Lemma all_routes_ok s p : all_routes s p = true -> forall a r, route s a r -> p a r = true.
Proof. unfold all_routes. rewrite forallb_forall. intros H a r [I O]. specialize (H _ I). cbn in H. rewrite O, N.eqb_refl in H. exact H. Qed.
Definition unblockedb (s : pst) (now : Z) (except : option addr) : bool :=
  all_routes s (fun a r => (r_purge r =? 0) || (now <? r_purge r) || eqo a except || negb (blocks s now r)).
Lemma unblockedb_ok s now x : unblockedb s now x = true -> unblocked s now x.
Proof.
  intros H a r R P L E. pose proof (all_routes_ok _ _ H a r R) as B. cbn beta in B. rewrite E, orb_false_r in B. apply orb_true_iff in B. destruct B as [B|B]; [|apply negb_true_iff; exact B].
  apply orb_true_iff in B. destruct B as [B|B]; [apply Z.eqb_eq in B; contradiction|apply Z.ltb_lt in B; lia].
Qed.
Definition clock_okb (s : pst) (now : Z) (clock : option Z) (x : option addr) : bool := match (if now =? 0 then clock else Some now) with Some t => unblockedb s t x | None => true end.
Lemma clock_okb_ok s now c x : clock_okb s now c x = true -> clock_ok s now c x.
Proof. unfold clock_okb, clock_ok. intros H t E. rewrite E in H. exact (unblockedb_ok _ _ _ H). Qed.
Definition may_moveb (s : pst) (a : addr) (t : Z) : bool :=
  eqo a (lhead (hd s)) || (match lk s a with Some l => match prv l with None => true | _ => false end | None => false end)
  || match lhead (hd s) with None => true | Some b => match ob s b with Some r => t <=? r_purge r | None => false end end.
Lemma may_moveb_ok s a t : may_moveb s a t = true -> may_move s a t.
Proof.
  unfold may_moveb, may_move. intros H. apply orb_true_iff in H. destruct H as [H|H]; [apply orb_true_iff in H; destruct H as [H|H]|].
  - left. unfold eqo in H. destruct (lhead (hd s)); [|discriminate]. apply Pos.eqb_eq in H. congruence.
  - right. left. destruct (lk s a) as [l|]; [|discriminate]. exists l. split; [reflexivity|]. destruct (prv l); [discriminate|reflexivity].
  - right. right. destruct (lhead (hd s)) as [b|]; [|exact I]. destruct (ob s b) as [r|]; [|discriminate]. exists r. split; [reflexivity|lia].
Qed.
Definition in_tableb (s : pst) (a : addr) : bool := existsb (fun x => Pos.eqb (snd x) a) (tb s).
Lemma in_tableb_ok s a : in_tableb s a = true -> in_table s a.
Proof. unfold in_tableb. intros H. apply existsb_exists in H. destruct H as ([k b] & I & E). cbn in E. apply Pos.eqb_eq in E. subst b. exists k. exact I. Qed.
Definition gentleb (s : pst) (held : addr -> N) (o : op) : bool :=
  match o with
  | Insert k ev t conn clock stop hres =>
    (negb (e_ins (evs s ev)) || (negb stop && is_success hres) || ((t =? 0) && (e_idle (evs s ev) <=? 0)))
    && match clock with
       | None => true
       | Some now => all_routes s (fun a r => negb (N.eqb (r_key r) k) || negb (r_pend r) || may_moveb s a (time_on_insert s ev t now))
                     && (negb (time_on_insert s ev t now =? 0) || ((t =? 0) && (e_idle (evs s ev) <=? 0)))
       end
  | Delete k => all_routes s (fun a r => negb (N.eqb (r_key r) k) || (N.eqb (r_conns r) 0) || (r_hit r + FIN_TIMEOUT <=? r_purge r)
      || (negb (r_hit r + FIN_TIMEOUT =? 0) && may_moveb s a (r_hit r + FIN_TIMEOUT)))
  | Hit k conns clock clock2 => all_routes s (fun a r => negb (N.eqb (r_key r) k) ||
      match clock with
      | None => match clock2 with None => (r_purge r =? 0) || (r_hit r + e_idle (evs s (r_ev r)) <? r_purge r) | Some _ => false end
      | Some now => (0 <? now) && (0 <=? e_idle (evs s (r_ev r)))
                    && ((r_purge r =? 0) || (now + e_idle (evs s (r_ev r)) <? r_purge r) || eqo a (ltail (hd s)) || may_moveb s a (now + e_idle (evs s (r_ev r)) + PURGE_MARGIN))
                    && unblockedb s now (Some a)
      end)
  | Miss now clock2 => clock_okb s now clock2 None
  | PurgeTimeSet a t => negb (N.eqb (held a) 0) && in_tableb s a && may_moveb s a t
  | StalePurge clock | StalePurgeOne clock | StalePurgeOneOpp clock => clock_okb s 0 clock None
  | SetMax n clock => (maxp s <=? n) || (len s <=? n) || clock_okb s 0 clock None
  | Drop a => negb (N.eqb (held a) 0)
  | _ => true
  end.
Ltac bust H := match type of H with
  | (_ && _)%bool = true => let A := fresh "A" in let B := fresh "B" in apply andb_true_iff in H; destruct H as [A B]; bust A; bust B
  | (_ || _)%bool = true => let A := fresh "A" in apply orb_true_iff in H; destruct H as [A|A]; bust A
  | negb _ = true => apply negb_true_iff in H
  | _ => idtac end.
Ltac tidy := repeat match goal with
  | H : N.eqb _ _ = true |- _ => apply N.eqb_eq in H | H : N.eqb _ _ = false |- _ => apply N.eqb_neq in H
  | H : Z.eqb _ _ = true |- _ => apply Z.eqb_eq in H | H : Z.eqb _ _ = false |- _ => apply Z.eqb_neq in H
  | H : Pos.eqb _ _ = true |- _ => apply Pos.eqb_eq in H end; try solve [contradiction|congruence|lia].
Lemma gentleb_ok s held o : gentleb s held o = true -> gentle s held o.
Proof.
  intros H. destruct o as [k ev t conn clock stop hres|k|k conns clock clock2|now clock2|a t|clock|clock|clock|n clock|t| |h| |k|a|e v]; cbn [gentle gentleb] in *; auto; try exact (clock_okb_ok _ _ _ _ H).
  - apply andb_true_iff in H. destruct H as [H1 H2]. split; [|split].
    + intros E X. bust H1; [congruence|destruct X as [X|X]; congruence|]. tidy; split; lia.
    + intros now a r -> R K P. apply andb_true_iff in H2. destruct H2 as [H2 _]. pose proof (all_routes_ok _ _ H2 a r R) as B. cbn beta in B. bust B; tidy; apply may_moveb_ok; assumption.
    + intros now -> Z0. apply andb_true_iff in H2. destruct H2 as [_ H2]. rewrite Z0 in H2. bust H2; [discriminate|]. tidy; split; lia.
  - intros a r R K C P. pose proof (all_routes_ok _ _ H a r R) as B. cbn beta in B. bust B; tidy; split; [assumption|apply may_moveb_ok; assumption].
  - intros a r R K. pose proof (all_routes_ok _ _ H a r R) as B. cbn beta in B. apply orb_true_iff in B. destruct B as [B|B]; [apply negb_true_iff, N.eqb_neq in B; contradiction|].
    destruct clock as [now|].
    + apply andb_true_iff in B. destruct B as [B UB]. apply andb_true_iff in B. destruct B as [B M]. apply andb_true_iff in B. destruct B as [B1 B2]. split; [lia|]. split; [lia|]. split; [|exact (unblockedb_ok _ _ _ UB)].
      intros NZ GE. bust M; tidy; [|right; apply may_moveb_ok; assumption]. left. match goal with H : eqo _ _ = true |- _ => unfold eqo in H; destruct (ltail (hd s)); [|discriminate]; apply Pos.eqb_eq in H; congruence end.
    + destruct clock2; [discriminate|]. split; [reflexivity|]. intros NZ. bust B; tidy.
  - apply andb_true_iff in H. destruct H as [H M]. apply andb_true_iff in H. destruct H as [H T]. apply negb_true_iff, N.eqb_neq in H. split; [exact H|]. split; [exact (in_tableb_ok _ _ T)|exact (may_moveb_ok _ _ _ M)].
  - intros G1 G2. bust H; tidy; apply clock_okb_ok; assumption.
  - apply negb_true_iff, N.eqb_neq in H. exact H.
Qed.
Definition orderlyb (s : pst) (o : op) : bool :=
  match o with
  | Hit k conns (Some now) clock2 => all_routes s (fun a r => negb (N.eqb (r_key r) k) || (r_purge r =? 0) || (now + e_idle (evs s (r_ev r)) <? r_purge r) || negb (eqo a (ltail (hd s)))
      || all_routes s (fun b rb => (r_purge rb =? 0) || Pos.eqb b a || (now + e_idle (evs s (r_ev r)) + PURGE_MARGIN <=? r_purge rb)))
  | _ => true
  end.
Lemma orderlyb_ok s o : orderlyb s o = true -> orderly s o.
Proof.
  intros H. destruct o as [k ev t conn clock stop hres|k|k conns clock clock2|now clock2|a t|clock|clock|clock|n clock|t| |h| |k|a|e v]; cbn [orderly orderlyb] in *; try exact I. destruct clock as [now|]; [|exact I].
  intros a r R K NZ GE T b rb RB PB NB. pose proof (all_routes_ok _ _ H a r R) as B. cbn beta in B. rewrite T in B. unfold eqo in B. rewrite Pos.eqb_refl in B. cbn [negb] in B. rewrite orb_false_r in B.
  bust B; tidy. match goal with H : all_routes _ _ = true |- _ => pose proof (all_routes_ok _ _ H b rb RB) as D end. cbn beta in D. bust D; tidy.
Qed.
Fixpoint calmb (s : pst) (held : addr -> N) (os : list op) : bool :=
  match os with [] => true | o :: os => gentleb s held o && match step s o with Ret (_, s') => calmb s' (holds_after s held o) os | _ => true end end.
Lemma calmb_ok : forall os s held, calmb s held os = true -> calm s held os.
Proof. induction os as [|o os IH]; intros s held H; cbn [calm calmb] in *; [exact I|]. apply andb_true_iff in H. destruct H as [G H]. split; [exact (gentleb_ok _ _ _ G)|]. destruct (step s o) as [[e s']| |]; auto. Qed.
Fixpoint neatb (s : pst) (os : list op) : bool :=
  match os with [] => true | o :: os => orderlyb s o && match step s o with Ret (_, s') => neatb s' os | _ => true end end.
Lemma neatb_ok : forall os s, neatb s os = true -> neat s os.
Proof. induction os as [|o os IH]; intros s H; cbn [neat neatb] in *; [exact I|]. apply andb_true_iff in H. destruct H as [G H]. split; [exact (orderlyb_ok _ _ G)|]. destruct (step s o) as [[e s']| |]; auto. Qed.

(** reading off the end of a concrete history *)
Definition peek (s : pst) (k : N) : option (addr * robj) :=
  match find (fun x => N.eqb (fst x) k) (tb s) with Some (_, a) => match ob s a with Some r => if N.eqb (r_key r) k then Some (a, r) else None | None => None end | None => None end.
Lemma peek_ok s k a r : peek s k = Some (a, r) -> route s a r /\ r_key r = k.
Proof.
  unfold peek. destruct (find _ (tb s)) as [[k' b]|] eqn:F; [|discriminate]. destruct (ob s b) as [y|] eqn:O; [|discriminate]. destruct (N.eqb_spec (r_key y) k) as [K|]; [|discriminate]. intros H. injection H as <- <-.
  apply find_some in F. destruct F as [I E]. cbn in E. apply N.eqb_eq in E. subst k'. split; [split; [rewrite K; exact I|exact O]|exact K].
Qed.
Definition has_route (s : pst) (k : N) (p : robj -> bool) : bool := match peek s k with Some (_, r) => p r | None => false end.
Lemma has_route_ok s k p : has_route s k p = true -> exists a r, route s a r /\ r_key r = k /\ p r = true.
Proof. unfold has_route. destruct (peek s k) as [[a r]|] eqn:P; [|discriminate]. intros H. apply peek_ok in P. exists a, r. tauto. Qed.
Definition ends (ev : N -> pev) (os : list op) (b : pst -> bool) : bool := match run (pinit ev) os with Ret (_, s) => b s | _ => false end.
Lemma ends_ok ev os b : ends ev os b = true -> exists es s, run (pinit ev) os = Ret (es, s) /\ b s = true.
Proof. unfold ends. destruct (run (pinit ev) os) as [[es s]| |]; [eauto|discriminate|discriminate]. Qed.
