(** Thread contexts: the theorems (C70). *)
From Verif Require Import Base TimeConv Thread ThreadSpec ThreadProofs.
Open Scope Z_scope.

(** While fewer than 2^24 - 1 initialisations fell back on an identity of the library's own, the identity of a context that did so
    is that of no other live context, whatever the interleaving and the order of destruction. *)
Theorem C70_ids_partial : forall tr s c d, runs boot tr s -> hosts_low tr -> fallbacks tr < 2 ^ 24 - 1 ->
  alive s c -> alive s d -> c <> d -> fell_back tr c false = true -> x_id (t_ctx s c) <> x_id (t_ctx s d).
Proof.
  intros tr s c d H L F A1 A2 N Q. change (2 ^ 24 - 1) with 16777215 in F.
  destruct (inv_runs _ _ _ H inv_boot L F) as [k [_ I]].
  apply (i_dist _ _ I); auto. eapply high_runs; eauto using inv_boot.
Qed.
(** And without bound on their number, if they are nested like interrupt handlers. *)
Theorem C70_nested : forall tr s stack c d, runs boot tr s -> hosts_low tr -> nest [] tr = Some stack ->
  alive s c -> alive s d -> c <> d -> fell_back tr c false = true -> x_id (t_ctx s c) <> x_id (t_ctx s d).
Proof.
  intros tr s l c d H L F A1 A2 N Q.
  pose proof (ninv_runs _ _ _ _ _ H ninv_boot L F) as I.
  pose proof (nhigh_runs _ _ _ _ _ H ninv_boot L F c Q A1) as HC.
  intros E. assert (HD : high (x_id (t_ctx s d))) by (rewrite <- E; exact HC).
  apply (n_high _ _ I) in HC. apply (n_high _ _ I) in HD.
  exact (placed_dist _ _ _ _ (n_placed _ _ I) HC HD N E).
Qed.

(** The discipline of [nest] implies that the counter is back where it was: no drift. *)
Theorem C70_nested_no_drift : forall tr s, runs boot tr s -> hosts_low tr -> nest [] tr = Some [] -> t_counter s = 0.
Proof. intros tr s H L F. pose proof (ninv_runs _ _ _ _ _ H ninv_boot L F) as I. rewrite (n_counter _ _ I). reflexivity. Qed.

(** Otherwise the identities repeat: a long-lived context and two that take turns. *)
Definition shape (k : Z) (s : st) (x y : nat) : Prop :=
  t_counter s = word - k /\ t_ctx s 0%nat = fresh (word - 1) 0 0 Settled /\
  t_ctx s x = fresh (word - k) 0 0 Settled /\ t_ctx s y = blank /\ t_ctx s 3%nat = blank /\ t_ctx s 4%nat = blank.
Definition of_few (p : ev * option err) : Prop :=
  match fst p with EInit c host _ _ => (c < 5)%nat /\ host = 0 | EDestroy c | EWrap c => (c < 5)%nat | _ => False end.

Lemma init_step : forall s c k, 0 < k < 16777216 -> t_counter s = word - k -> t_ctx s c = blank -> k + 1 <> 16777215 ->
  step s (EInit c 0 0 0) = Some (put (bump s (-1)) c (fresh (word - (k + 1)) 0 0 Settled), Some S_USED_FALLBACK) /\
  t_counter (put (bump s (-1)) c (fresh (word - (k + 1)) 0 0 Settled)) = word - (k + 1).
Proof.
  intros s c k K C B N.
  assert (X : t_counter (bump s (-1)) = word - (k + 1)).
  { cbn [bump t_counter]. rewrite C. symmetry. apply Z.mod_unique_pos with (q := 0); rewrite word_eq; lia. }
  split; [|rewrite counter_put; exact X].
  cbn [step]. unfold idle. rewrite B. cbn [x_busy blank]. unfold init. change (0 =? no_id) with true. cbv iota zeta. rewrite X.
  assert (E : (word - (k + 1) =? last_id) = false) by (rewrite word_eq, last_eq; lia). rewrite E. reflexivity.
Qed.

Lemma drift_step : forall k s x y, 2 <= k < 16777214 -> (x = 1 /\ y = 2 \/ x = 2 /\ y = 1)%nat -> shape k s x y ->
  exists s1 s2, step s (EInit y 0 0 0) = Some (s1, Some S_USED_FALLBACK) /\ step s1 (EDestroy x) = Some (s2, Some OK) /\
    shape (k + 1) s2 y x.
Proof.
  intros k s x y K XY (C & A & X & Y & B3 & B4).
  destruct (init_step s y k ltac:(lia) C Y ltac:(lia)) as [E1 E2].
  eexists. exists (put (put (bump s (-1)) y (fresh (word - (k + 1)) 0 0 Settled)) x blank).
  assert (NE : x <> y) by lia.
  assert (AX : t_ctx (put (bump s (-1)) y (fresh (word - (k + 1)) 0 0 Settled)) x = fresh (word - k) 0 0 Settled).
  { rewrite at_put. destruct (Nat.eqb_spec x y); [contradiction|]. exact X. }
  split; [exact E1|]. split.
  - cbn [step]. unfold idle. rewrite AX. cbn [x_busy fresh x_id].
    assert (Q1 : (word - k =? no_id) = false) by (unfold no_id; rewrite word_eq; lia). rewrite Q1.
    unfold destroy. rewrite AX, E2. cbn [locked x_shared x_mutex x_rec x_tracked fresh x_id].
    change (locked (fresh (word - k) 0 0 Settled)) with (@None err). cbv iota zeta. cbn [x_id fresh].
    assert (Q2 : (word - k =? word - (k + 1)) = false) by lia. rewrite Q2. reflexivity.
  - unfold shape. rewrite counter_put, E2. rewrite !at_put.
    change (t_ctx (bump s (-1))) with (t_ctx s).
    assert (T : forall a b : nat, a <> b -> Nat.eqb a b = false) by (intros a b; apply Nat.eqb_neq).
    rewrite (Nat.eqb_refl x), (Nat.eqb_refl y), !T by lia. auto 6.
Qed.

Lemma drift : forall n : nat, Z.of_nat n <= 16777212 ->
  exists tr s x y, runs boot tr s /\ (forall p, In p tr -> of_few p) /\ fell_back tr 0%nat false = true /\
    (x = 1 /\ y = 2 \/ x = 2 /\ y = 1)%nat /\ shape (2 + Z.of_nat n) s x y.
Proof.
  induction n as [|n IH]; intros L.
  - exists [(EInit 0 0 0 0, Some S_USED_FALLBACK); (EInit 1 0 0 0, Some S_USED_FALLBACK)].
    eexists. exists 1%nat, 2%nat. split; [|split; [|split; [|split]]].
    + change [(EInit 0 0 0 0, Some S_USED_FALLBACK); (EInit 1 0 0 0, Some S_USED_FALLBACK)] with
        ((([] ++ [(EInit 0 0 0 0, Some S_USED_FALLBACK)]) ++ [(EInit 1 0 0 0, Some S_USED_FALLBACK)])%list).
      eapply runs_snoc; [eapply runs_snoc; [apply runs_nil|]|]; reflexivity.
    + intros p [<-|[<-|[]]]; cbn; split; auto; lia.
    + reflexivity.
    + left. auto.
    + vm_compute. repeat split; reflexivity.
  - destruct IH as (tr & s & x & y & R & F & B & XY & SH); [lia|].
    destruct (drift_step (2 + Z.of_nat n) _ _ _ ltac:(lia) XY SH) as (s1 & s2 & E1 & E2 & SH').
    exists ((tr ++ [(EInit y 0 0 0, Some S_USED_FALLBACK)]) ++ [(EDestroy x, Some OK)])%list, s2, y, x.
    split; [|split; [|split; [|split]]].
    + eapply runs_snoc; [eapply runs_snoc; [exact R|exact E1]|exact E2].
    + intros p I. apply in_app_or in I as [I|[<-|[]]]; [apply in_app_or in I as [I|[<-|[]]]|]; [auto|cbn; split; auto; lia|cbn; lia].
    + rewrite !fell_snoc. cbn [fell1 fst]. rewrite B. destruct (Nat.eqb_spec y 0); [lia|reflexivity].
    + lia.
    + replace (2 + Z.of_nat (S n)) with (2 + Z.of_nat n + 1) by lia. exact SH'.
Qed.

Lemma drift_end : exists tr s x y, runs boot tr s /\ (forall p, In p tr -> of_few p) /\ fell_back tr 0%nat false = true /\
    (x = 1 /\ y = 2 \/ x = 2 /\ y = 1)%nat /\ shape 16777214 s x y.
Proof.
  destruct (drift (Z.to_nat 16777212)) as (tr & s & x & y & H); [rewrite Z2Nat.id; lia|].
  rewrite Z2Nat.id in H by lia. exists tr, s, x, y. exact H.
Qed.

Lemma last_step : forall s c, t_counter s = word - 16777214 -> t_ctx s c = blank ->
  step s (EInit c 0 0 0) = Some (put (bump s (-1)) c (fresh last_id 0 0 Wrapping), None) /\
  t_counter (bump s (-1)) = last_id.
Proof.
  intros s c C B. assert (X : t_counter (bump s (-1)) = last_id) by (cbn [bump t_counter]; rewrite C; reflexivity).
  split; [|exact X]. cbn [step]. unfold idle. rewrite B. cbn [x_busy blank]. unfold init.
  change (0 =? no_id) with true. cbv iota zeta. rewrite X, Z.eqb_refl. reflexivity.
Qed.

(** Never more than five contexts, all of them fallbacks: at the end two live ones have the same identity, one of them alive
    since the start. *)
Theorem C70_ids_refuted : exists tr s, runs boot tr s /\ (forall p, In p tr -> of_few p) /\
  fell_back tr 0%nat false = true /\ fell_back tr 3%nat false = true /\ alive s 0%nat /\ alive s 3%nat /\
  x_id (t_ctx s 0%nat) = x_id (t_ctx s 3%nat).
Proof.
  destruct drift_end as (tr & s & x & y & R & F & B & XY & (C & A & X & Y & B3 & B4)).
  destruct (last_step s y C Y) as [E1 E2]. set (s1 := put (bump s (-1)) y (fresh last_id 0 0 Wrapping)) in *.
  assert (AY : t_ctx s1 y = fresh last_id 0 0 Wrapping) by (unfold s1; rewrite at_put, Nat.eqb_refl; reflexivity).
  assert (T : forall a b : nat, a <> b -> Nat.eqb a b = false) by (intros a b; apply Nat.eqb_neq).
  set (s2 := fst (wrap s1 y)).
  assert (E3 : step s1 (EWrap y) = Some (s2, Some S_USED_FALLBACK)) by (cbn [step]; rewrite AY; reflexivity).
  assert (C2 : t_counter s2 = 0).
  { unfold s2, wrap. cbn [fst bump t_counter]. rewrite counter_put. unfold s1. rewrite counter_put, E2. reflexivity. }
  assert (D3 : t_ctx s2 3%nat = blank).
  { unfold s2, wrap. cbn [fst bump t_ctx]. rewrite at_put, T by lia. unfold s1. rewrite at_put, T by lia. exact B3. }
  assert (D0 : t_ctx s2 0%nat = fresh (word - 1) 0 0 Settled).
  { unfold s2, wrap. cbn [fst bump t_ctx]. rewrite at_put, T by lia. unfold s1. rewrite at_put, T by lia. exact A. }
  assert (E4 : step s2 (EInit 3 0 0 0) = Some (put (bump s2 (-1)) 3 (fresh (word - 1) 0 0 Settled), Some S_USED_FALLBACK)).
  { cbn [step]. unfold idle. rewrite D3. cbn [x_busy blank]. unfold init. change (0 =? no_id) with true. cbv iota zeta.
    assert (Q : t_counter (bump s2 (-1)) = word - 1) by (cbn [bump t_counter]; rewrite C2; reflexivity). rewrite Q.
    change (word - 1 =? last_id) with false. reflexivity. }
  set (s3 := put (bump s2 (-1)) 3 (fresh (word - 1) 0 0 Settled)) in *.
  assert (G3 : t_ctx s3 3%nat = fresh (word - 1) 0 0 Settled) by (unfold s3; rewrite at_put; reflexivity).
  assert (G0 : t_ctx s3 0%nat = fresh (word - 1) 0 0 Settled) by (unfold s3; rewrite at_put; exact D0).
  exists (((tr ++ [(EInit y 0 0 0, None)]) ++ [(EWrap y, Some S_USED_FALLBACK)]) ++ [(EInit 3 0 0 0, Some S_USED_FALLBACK)])%list, s3.
  split; [|split; [|split; [|split; [|split; [|split]]]]].
  - eapply runs_snoc; [eapply runs_snoc; [eapply runs_snoc; [exact R|exact E1]|exact E3]|exact E4].
  - intros p I. apply in_app_or in I as [I|[<-|[]]]; [apply in_app_or in I as [I|[<-|[]]]|];
      [apply in_app_or in I as [I|[<-|[]]]| |]; auto; cbn; try split; auto; lia.
  - rewrite !fell_snoc. cbn [fell1 fst]. rewrite B. cbn [Nat.eqb]. destruct (Nat.eqb_spec y 0); [lia|reflexivity].
  - rewrite !fell_snoc. reflexivity.
  - unfold alive. rewrite G0. discriminate.
  - unfold alive. rewrite G3. discriminate.
  - rewrite G0, G3. reflexivity.
Qed.

(** The counter is wound back in a second access: an initialisation in between leaves the range reserved for fallbacks, and gets
    an identity that the host may give to a thread of its own. *)
Theorem C70_wind_back_refuted : exists tr s, runs boot tr s /\ hosts_low tr /\ fell_back tr 3%nat false = true /\
  alive s 3%nat /\ alive s 4%nat /\ x_id (t_ctx s 3%nat) = x_id (t_ctx s 4%nat) /\ fallbacks tr = 2 ^ 24.
Proof.
  (* count the fallbacks along the drift *)
  assert (DR : forall n : nat, Z.of_nat n <= 16777212 ->
    exists tr s x y, runs boot tr s /\ (forall p, In p tr -> of_few p) /\ fallbacks tr = 2 + Z.of_nat n /\
      (x = 1 /\ y = 2 \/ x = 2 /\ y = 1)%nat /\ shape (2 + Z.of_nat n) s x y).
  { induction n as [|n IH]; intros L.
    - exists [(EInit 0 0 0 0, Some S_USED_FALLBACK); (EInit 1 0 0 0, Some S_USED_FALLBACK)].
      eexists. exists 1%nat, 2%nat. split; [|split; [|split; [|split]]].
      + change [(EInit 0 0 0 0, Some S_USED_FALLBACK); (EInit 1 0 0 0, Some S_USED_FALLBACK)] with
          ((([] ++ [(EInit 0 0 0 0, Some S_USED_FALLBACK)]) ++ [(EInit 1 0 0 0, Some S_USED_FALLBACK)])%list).
        eapply runs_snoc; [eapply runs_snoc; [apply runs_nil|]|]; reflexivity.
      + intros p [<-|[<-|[]]]; cbn; split; auto; lia.
      + reflexivity.
      + left. auto.
      + vm_compute. repeat split; reflexivity.
    - destruct IH as (tr & s & x & y & R & F & B & XY & SH); [lia|].
      destruct (drift_step (2 + Z.of_nat n) _ _ _ ltac:(lia) XY SH) as (s1 & s2 & E1 & E2 & SH').
      exists ((tr ++ [(EInit y 0 0 0, Some S_USED_FALLBACK)]) ++ [(EDestroy x, Some OK)])%list, s2, y, x.
      split; [|split; [|split; [|split]]].
      + eapply runs_snoc; [eapply runs_snoc; [exact R|exact E1]|exact E2].
      + intros p I. apply in_app_or in I as [I|[<-|[]]]; [apply in_app_or in I as [I|[<-|[]]]|]; [auto|cbn; split; auto; lia|cbn; lia].
      + rewrite !fallbacks_snoc, B. cbn [fb]. change (0 =? 0) with true. cbv iota. lia.
      + lia.
      + replace (2 + Z.of_nat (S n)) with (2 + Z.of_nat n + 1) by lia. exact SH'. }
  destruct (DR (Z.to_nat 16777212)) as (tr & s & x & y & R & F & B & XY & SH); [rewrite Z2Nat.id; lia|].
  rewrite Z2Nat.id in SH, B by lia. change (2 + 16777212) with 16777214 in *. destruct SH as (C & A & X & Y & B3 & B4).
  destruct (last_step s y C Y) as [E1 E2]. set (s1 := put (bump s (-1)) y (fresh last_id 0 0 Wrapping)) in *.
  assert (T : forall a b : nat, a <> b -> Nat.eqb a b = false) by (intros a b; apply Nat.eqb_neq).
  assert (C1 : t_counter s1 = word - 16777215) by (unfold s1; rewrite counter_put, E2; reflexivity).
  assert (D3 : t_ctx s1 3%nat = blank) by (unfold s1; rewrite at_put, T by lia; exact B3).
  destruct (init_step s1 3%nat 16777215 ltac:(lia) C1 D3 ltac:(lia)) as [E3 E4].
  change (16777215 + 1) with 16777216 in *.
  set (s2 := put (bump s1 (-1)) 3 (fresh (word - 16777216) 0 0 Settled)) in *.
  assert (D4 : t_ctx s2 4%nat = blank).
  { unfold s2. rewrite at_put. cbn [Nat.eqb]. change (t_ctx (bump s1 (-1))) with (t_ctx s1). unfold s1. rewrite at_put, T by lia. exact B4. }
  assert (E5 : step s2 (EInit 4 (word - 16777216) 0 0) = Some (put s2 4 (fresh (word - 16777216) 0 0 Settled), Some OK)).
  { cbn [step]. unfold idle. rewrite D4. reflexivity. }
  set (s3 := put s2 4 (fresh (word - 16777216) 0 0 Settled)) in *.
  assert (G4 : t_ctx s3 4%nat = fresh (word - 16777216) 0 0 Settled) by (unfold s3; rewrite at_put; reflexivity).
  assert (G3 : t_ctx s3 3%nat = fresh (word - 16777216) 0 0 Settled) by (unfold s3; rewrite at_put; unfold s2; cbn [Nat.eqb]; rewrite at_put; reflexivity).
  exists (((tr ++ [(EInit y 0 0 0, None)]) ++ [(EInit 3 0 0 0, Some S_USED_FALLBACK)]) ++ [(EInit 4 (word - 16777216) 0 0, Some OK)])%list, s3.
  split; [|split; [|split; [|split; [|split; [|split]]]]].
  - eapply runs_snoc; [eapply runs_snoc; [eapply runs_snoc; [exact R|exact E1]|exact E3]|exact E5].
  - change (2 ^ 64 - 2 ^ 24) with (word - 16777216). intros c host fl u r I.
    apply in_app_or in I as [I|[I|[]]]; [apply in_app_or in I as [I|[I|[]]]; [apply in_app_or in I as [I|[I|[]]]|]|].
    + apply F in I. cbn in I. destruct I as [_ ->]. split; discriminate.
    + assert (host = 0) by congruence. subst. split; discriminate.
    + assert (host = 0) by congruence. subst. split; discriminate.
    + assert (host = word - 16777216) by congruence. subst. split; discriminate.
  - rewrite !fell_snoc. reflexivity.
  - unfold alive. rewrite G3. discriminate.
  - unfold alive. rewrite G4. discriminate.
  - rewrite G3, G4. reflexivity.
  - rewrite !fallbacks_snoc, B. reflexivity.
Qed.

(** A context that holds a lock is not destroyed. *)
Theorem C70_busy : forall s c s' r, alive s c -> step s (EDestroy c) = Some (s', r) ->
  x_shared (t_ctx s c) <> 0 \/ x_mutex (t_ctx s c) <> 0 \/ x_rec (t_ctx s c) <> 0 \/ x_tracked (t_ctx s c) = true ->
  s' = s /\ (r = Some BUSY \/ r = Some INTERNAL_CHECK_FATAL) /\
  (0 < x_shared (t_ctx s c) -> r = Some BUSY) /\ (x_shared (t_ctx s c) = 0 -> 0 < x_mutex (t_ctx s c) -> r = Some BUSY).
Proof.
  intros s c s' r A H L. cbn [step] in H. destruct (idle s c); [|discriminate].
  destruct (x_id (t_ctx s c) =? no_id) eqn:E; [unfold alive, no_id in *; lia|].
  unfold destroy in H. cbv zeta in H.
  destruct (locked (t_ctx s c)) eqn:K.
  - assert (s' = s) by congruence. assert (r = Some e) by congruence. subst. split; [reflexivity|].
    unfold locked in K.
    destruct (0 <? x_shared (t_ctx s c)) eqn:K1; [assert (e = BUSY) by congruence; subst; repeat split; auto|].
    destruct (x_shared (t_ctx s c) <? 0) eqn:K2; [assert (e = INTERNAL_CHECK_FATAL) by congruence; subst; repeat split; auto; lia|].
    destruct (0 <? x_mutex (t_ctx s c)) eqn:K3; [assert (e = BUSY) by congruence; subst; repeat split; auto|].
    assert (e = INTERNAL_CHECK_FATAL).
    { destruct (x_mutex (t_ctx s c) <? 0); [congruence|]. destruct (negb (x_rec (t_ctx s c) =? 0)); [congruence|].
      destruct (x_tracked (t_ctx s c)); congruence. }
    subst. repeat split; auto; lia.
  - exfalso. unfold locked in K.
    destruct (0 <? x_shared (t_ctx s c)) eqn:K1; [discriminate|]. destruct (x_shared (t_ctx s c) <? 0) eqn:K2; [discriminate|].
    destruct (0 <? x_mutex (t_ctx s c)) eqn:K3; [discriminate|]. destruct (x_mutex (t_ctx s c) <? 0) eqn:K4; [discriminate|].
    destruct (negb (x_rec (t_ctx s c) =? 0)) eqn:K5; [discriminate|]. destruct (x_tracked (t_ctx s c)); [discriminate|].
    destruct L as [L|[L|[L|L]]]; solve [lia | discriminate].
Qed.

(** Destroyed, it is cleared, and refused by every call but another initialisation. *)
Theorem C70_destroyed : forall s c s' e, e = EDestroy c \/ e = EReclaim c -> step s e = Some (s', Some OK) ->
  ~ alive s' c /\ snd (get_id (t_ctx s' c)) = INVALID_ARG /\ snd (get_user (t_ctx s' c)) = INVALID_ARG /\
  snd (get_deadline (t_ctx s' c)) = INVALID_ARG /\ snd (get_flags (t_ctx s' c)) = INVALID_ARG /\
  (forall e', (e' = EDestroy c \/ (exists a b, e' = ERel c a b) \/ (exists a b, e' = EAbs c a b) \/ e' = EClear c \/
               e' = EReadOnly c \/ e' = EReadWrite c) -> step s' e' = Some (s', Some INVALID_ARG)).
Proof.
  intros s c s' e E H. assert (B : t_ctx s' c = blank).
  { apply step_kind in H. destruct E; subst; inversion H; subst; try (rewrite at_put, Nat.eqb_refl; reflexivity).
    - destruct H3 as [_ [_ H3]]. discriminate.
    - destruct H3 as [_ [_ H3]]. discriminate. }
  unfold alive. rewrite B. repeat split; auto.
  intros e' Q. assert (I : idle s' c = true) by (unfold idle; rewrite B; reflexivity).
  destruct Q as [->|[(a & b & ->)|[(a & b & ->)|[->|[->| ->]]]]]; cbn [step]; rewrite I; unfold on; rewrite B; reflexivity.
Qed.

(** A call touches no other context. *)
Definition about (e : ev) : nat :=
  match e with EInit c _ _ _ | EWrap c | EDestroy c | EReclaim c | ELocks c _ _ _ _ | ERel c _ _ | EAbs c _ _ | EClear c
             | EReadOnly c | EReadWrite c => c end.
Theorem C70_others : forall s e s' r d, step s e = Some (s', r) -> d <> about e -> t_ctx s' d = t_ctx s d.
Proof.
  assert (ON : forall s c f s' r d, on s c f = Some (s', r) -> d <> c -> t_ctx s' d = t_ctx s d).
  { intros s c f s' r d H N. unfold on in H. destruct (_ =? _); [assert (s' = s) by congruence; subst; auto|].
    destruct (f _) as [[x' er]|]; [|discriminate]. assert (s' = put s c x') by congruence. subst.
    rewrite at_put. destruct (Nat.eqb_spec d c); congruence. }
  intros s e s' r d H N.
  destruct e; cbn [about step] in *;
    try (destruct (idle s c); [|discriminate]; eapply ON; eauto; fail).
  - destruct (idle s c); [|discriminate]. unfold init in H. cbv zeta in H.
    destruct (host =? no_id); [destruct (_ =? last_id)|];
      match type of H with Some (?q, _) = _ => assert (s' = q) by congruence end; subst; rewrite at_put;
      destruct (Nat.eqb_spec d c); congruence || reflexivity.
  - destruct (x_busy (t_ctx s c)); try discriminate. assert (s' = fst (wrap s c)) by (unfold wrap in *; cbn [fst]; congruence). subst.
    unfold wrap. cbn [fst bump t_ctx]. rewrite at_put. destruct (Nat.eqb_spec d c); congruence.
  - destruct (idle s c); [|discriminate]. destruct (_ =? no_id); [assert (s' = s) by congruence; subst; auto|].
    unfold destroy in H. cbv zeta in H. destruct (locked _); [assert (s' = s) by congruence; subst; auto|].
    destruct (_ =? t_counter s); match type of H with Some (?q, _) = _ => assert (s' = q) by congruence end; subst; rewrite at_put;
      destruct (Nat.eqb_spec d c); congruence.
  - destruct (x_busy (t_ctx s c)); try discriminate. unfold reclaim in H. cbv zeta in H.
    match type of H with Some (?q, _) = _ => assert (s' = q) by congruence end. subst. rewrite at_put.
    destruct (Nat.eqb_spec d c); [congruence|]. destruct (t_counter s =? _); reflexivity.
  - destruct (idle s c && _); [|discriminate].
    match type of H with Some (?q, _) = _ => assert (s' = q) by congruence end. subst. rewrite at_put.
    destruct (Nat.eqb_spec d c); congruence.
Qed.

(** Deadlines: what was set is what is read back; a refused call changes nothing. *)
Lemma on_ok : forall s c f s' er, on s c f = Some (s', Some er) -> alive s c -> exists x', f (t_ctx s c) = Some (x', er) /\ s' = put s c x'.
Proof.
  intros s c f s' er H A. unfold on in H. destruct (x_id (t_ctx s c) =? no_id) eqn:E; [unfold alive, no_id in *; lia|].
  destruct (f (t_ctx s c)) as [[x' e']|]; [|discriminate]. exists x'. split; congruence.
Qed.
Lemma lor_bit0 : forall f, (N.land (N.lor f DEADLINE) DEADLINE =? 0)%N = false.
Proof.
  intros f. apply N.eqb_neq. intros E. assert (X : N.testbit (N.land (N.lor f DEADLINE) DEADLINE) 0 = true).
  { rewrite N.land_spec, N.lor_spec. cbn. rewrite Bool.orb_true_r. reflexivity. }
  rewrite E in X. discriminate.
Qed.
Lemma ldiff_bit0 : forall f, (N.land (N.ldiff f DEADLINE) DEADLINE =? 0)%N = true.
Proof. intros f. apply N.eqb_eq. rewrite N.land_ldiff. reflexivity. Qed.
Lemma get_set : forall x sec nsec fl, x_id x <> 0 -> get_deadline (with_deadline x sec nsec (N.lor fl DEADLINE)) = ((sec, nsec), OK).
Proof.
  intros x sec nsec fl A. unfold get_deadline. cbn [with_deadline x_id x_flags x_sec x_nsec].
  destruct (x_id x =? no_id) eqn:E; [unfold no_id in *; lia|]. rewrite lor_bit0. reflexivity.
Qed.

Theorem C70_deadline_relative : forall s c now usecs s' r, alive s c -> 0 <= now -> step s (ERel c now usecs) = Some (s', r) ->
  (usecs < 0 -> r = Some INVALID_ARG /\ t_ctx s' c = t_ctx s c) /\
  (usecs = 0 -> r = Some OK /\ get_deadline (t_ctx s' c) = ((NOW, NOW), OK)) /\
  (0 < usecs -> r = Some OK /\ exists sec nsec, get_deadline (t_ctx s' c) = ((sec, nsec), OK) /\
     0 <= sec /\ 0 <= nsec < 1000000000 /\ moment (sec, nsec) = (now + usecs) * 1000).
Proof.
  intros s c now u s' r A P H. cbn [step] in H. destruct (idle s c); [|discriminate].
  unfold on in H. destruct (x_id (t_ctx s c) =? no_id) eqn:E; [unfold alive, no_id in *; lia|].
  unfold set_rel in H.
  assert (AT : forall x, t_ctx (put s c x) c = x) by (intros; rewrite at_put, Nat.eqb_refl; reflexivity).
  destruct (u <? 0) eqn:U1.
  { assert (s' = put s c (t_ctx s c)) by congruence. assert (r = Some INVALID_ARG) by congruence. subst. rewrite AT.
    split; [auto|split; lia]. }
  destruct (0 <? u) eqn:U2.
  - split; [lia|split; [lia|intros _]]. unfold add_time in H. destruct (in_i64 (now + u)) eqn:I1; [|discriminate].
    unfold to_epoch_time in H.
    assert (RM : 0 <= Z.rem (now + u) 1000000 < 1000000) by (apply Z.rem_bound_pos; lia).
    pose proof (Z.quot_rem' (now + u) 1000000) as QR.
    assert (QP : 0 <= Z.quot (now + u) 1000000) by (apply Z.quot_pos; lia).
    assert (IM : now + u <= i64_max) by (unfold in_i64 in I1; lia).
    assert (G1 : (Z.quot (now + u) 1000000 >? i64_max) = false) by lia. rewrite G1 in H.
    assert (G2 : in_i64 (Z.rem (now + u) 1000000 * 1000) = true) by (unfold in_i64, i64_min, i64_max; lia). rewrite G2 in H.
    match type of H with Some (put s c ?q, _) = _ => assert (s' = put s c q) by congruence end.
    split; [congruence|]. subst. rewrite AT, get_set by exact A.
    do 2 eexists. split; [reflexivity|]. unfold moment. cbn [fst snd]. lia.
  - match type of H with Some (put s c ?q, _) = _ => assert (s' = put s c q) by congruence end.
    assert (r = Some OK) by congruence. subst. rewrite AT, get_set by exact A. split; [lia|split; [auto|lia]].
Qed.

Theorem C70_deadline_absolute : forall s c secs nsecs s' r, alive s c -> step s (EAbs c secs nsecs) = Some (s', r) ->
  ((0 <= nsecs < 1000000000 /\ secs <> NEVER /\ secs <> NOW) /\ r = Some OK /\ get_deadline (t_ctx s' c) = ((secs, nsecs), OK)) \/
  (~ (0 <= nsecs < 1000000000 /\ secs <> NEVER /\ secs <> NOW) /\ r = Some INVALID_ARG /\ t_ctx s' c = t_ctx s c).
Proof.
  intros s c a b s' r A H. cbn [step] in H. destruct (idle s c); [|discriminate].
  unfold on in H. destruct (x_id (t_ctx s c) =? no_id) eqn:E; [unfold alive, no_id in *; lia|].
  assert (AT : forall x, t_ctx (put s c x) c = x) by (intros; rewrite at_put, Nat.eqb_refl; reflexivity).
  unfold set_abs in H. destruct ((b <? 0) || (1000000000 <=? b)) eqn:B1.
  { right. assert (s' = put s c (t_ctx s c)) by congruence. subst. rewrite AT. split; [lia|split; congruence]. }
  destruct ((a =? NEVER) || (a =? NOW)) eqn:B2.
  { right. assert (s' = put s c (t_ctx s c)) by congruence. subst. rewrite AT. split; [lia|split; congruence]. }
  left. match type of H with Some (put s c ?q, _) = _ => assert (s' = put s c q) by congruence end.
  subst. rewrite AT, get_set by exact A. split; [lia|split; congruence].
Qed.

Theorem C70_deadline_clear : forall s c s' r, alive s c -> step s (EClear c) = Some (s', r) ->
  r = Some OK /\ get_deadline (t_ctx s' c) = ((NEVER, NEVER), OK).
Proof.
  intros s c s' r A H. cbn [step] in H. destruct (idle s c); [|discriminate].
  unfold on in H. destruct (x_id (t_ctx s c) =? no_id) eqn:E; [unfold alive, no_id in *; lia|].
  unfold clear_deadline in H.
  match type of H with Some (put s c ?q, _) = _ => assert (s' = put s c q) by congruence end.
  split; [congruence|]. subst. rewrite at_put, Nat.eqb_refl. unfold get_deadline. cbn [with_deadline x_id x_flags].
  rewrite E, ldiff_bit0. reflexivity.
Qed.

(** With a clock before 1970 a relative deadline can read "never". *)
Theorem C70_deadline_before_epoch_refuted : exists s s', alive s 0%nat /\ step s (ERel 0 (-1500000) 500000) = Some (s', Some OK) /\
  fst (fst (get_deadline (t_ctx s' 0%nat))) = NEVER.
Proof.
  exists (put boot 0 (fresh 7 0 0 Settled)). eexists. split; [discriminate|]. split; [reflexivity|reflexivity].
Qed.

(** A new context has the identity the host gave (or one from the counter, and the caller is told so), the flags and the user
    context asked for, no deadline and no locks. *)
Theorem C70_initialised : forall s c host fl user s' r, step s (EInit c host fl user) = Some (s', r) ->
  (host <> 0 -> x_id (t_ctx s' c) = host /\ r = Some OK /\ t_counter s' = t_counter s) /\
  (host = 0 -> x_id (t_ctx s' c) = (t_counter s - 1) mod 2 ^ 64 /\ t_counter s' = (t_counter s - 1) mod 2 ^ 64 /\ r <> Some OK) /\
  x_user (t_ctx s' c) = user /\ x_flags (t_ctx s' c) = fl /\
  (alive s' c -> get_deadline (t_ctx s' c) = ((NEVER, NEVER), OK) /\ get_flags (t_ctx s' c) = (fl, OK) /\ (user <> 0 -> get_user (t_ctx s' c) = (user, OK))) /\
  x_shared (t_ctx s' c) = 0 /\ x_mutex (t_ctx s' c) = 0 /\ x_rec (t_ctx s' c) = 0 /\ x_tracked (t_ctx s' c) = false.
Proof.
  intros s c host fl user s' r H. cbn [step] in H. destruct (idle s c); [|discriminate]. unfold init in H.
  assert (AT : forall q x, t_ctx (put q c x) c = x) by (intros; rewrite at_put, Nat.eqb_refl; reflexivity).
  assert (X : exists id b, t_ctx s' c = fresh id user fl b).
  { destruct (host =? no_id); [destruct (t_counter (bump s (-1)) =? last_id)|]; injection H as <- <-; rewrite AT; eauto. }
  destruct X as (id & b & X). split; [|split].
  - intros N. destruct (Z.eqb_spec host no_id) as [->|_]; [destruct (N eq_refl)|]. injection H as <- <-. rewrite AT. repeat split; reflexivity.
  - intros ->. change (0 =? no_id) with true in H. cbv zeta in H.
    destruct (t_counter (bump s (-1)) =? last_id); injection H as <- <-; rewrite AT; (split; [reflexivity|split; [reflexivity|discriminate]]).
  - rewrite X. cbn [fresh x_user x_flags x_shared x_mutex x_rec x_tracked]. split; [reflexivity|]. split; [reflexivity|]. split; [|repeat split; reflexivity].
    unfold alive. rewrite X. intros A. unfold get_deadline, get_flags, get_user. cbn [fresh x_id x_user x_flags x_sec x_nsec] in *.
    destruct (Z.eqb_spec id no_id) as [E|_]; [contradiction|]. split; [destruct (negb _); reflexivity|]. split; [reflexivity|].
    intros U. destruct (Z.eqb_spec user 0); [contradiction|reflexivity].
Qed.
Print Assumptions C70_initialised.
(** After the last identity of the range the counter starts again as at the beginning, if no one else moved it meanwhile. *)
Theorem C70_starts_again : forall s c fl user s1 s2 r, step s (EInit c 0 fl user) = Some (s1, None) -> step s1 (EWrap c) = Some (s2, r) ->
  r = Some S_USED_FALLBACK /\ t_counter s2 = t_counter boot /\ x_id (t_ctx s2 c) = x_id (t_ctx s1 c) /\ idle s2 c = true.
Proof.
  intros s c fl user s1 s2 r H1 H2. cbn [step] in H1. destruct (idle s c); [|discriminate]. unfold init in H1. change (0 =? no_id) with true in H1. cbv zeta in H1.
  destruct (Z.eqb_spec (t_counter (bump s (-1))) last_id) as [E|_]; [|discriminate H1]. injection H1 as <-.
  cbn [step] in H2. rewrite at_put, Nat.eqb_refl in H2. cbn [fresh x_busy] in H2. unfold wrap in H2. injection H2 as <- <-. split; [reflexivity|]. split; [|split].
  - cbn [bump put t_counter] in *. rewrite E. reflexivity.
  - cbn [bump put t_ctx]. rewrite Nat.eqb_refl. cbn. rewrite ?Nat.eqb_refl. reflexivity.
  - unfold idle. cbn [bump put t_ctx]. rewrite !Nat.eqb_refl. reflexivity.
Qed.
Print Assumptions C70_starts_again.
Example C70_starts_again_example : exists s s1, step s (EInit 0%nat 0 0 0) = Some (s1, None).
Proof. exists (mkT (last_id + 1) (fun _ => blank)). eexists. vm_compute. reflexivity. Qed.

(** Read-only mode: refused while a mutex is held; left only when no shared lock but the tracked one is held; no other flag changes. *)
Theorem C70_readonly : forall s c s' r, alive s c -> step s (EReadOnly c) = Some (s', r) ->
  (0 < x_mutex (t_ctx s c) /\ r = Some INCOMPATIBLE_STATE /\ t_ctx s' c = t_ctx s c) \/
  (x_mutex (t_ctx s c) <= 0 /\ r = Some OK /\
   forall i, N.testbit (x_flags (t_ctx s' c)) i = if (i =? 1)%N then true else N.testbit (x_flags (t_ctx s c)) i).
Proof.
  intros s c s' r A H. cbn [step] in H. destruct (idle s c); [|discriminate].
  unfold on in H. destruct (x_id (t_ctx s c) =? no_id) eqn:E; [unfold alive, no_id in *; lia|].
  unfold set_readonly in H. destruct (0 <? x_mutex (t_ctx s c)) eqn:M.
  - left. assert (s' = put s c (t_ctx s c)) by congruence. subst. rewrite at_put, Nat.eqb_refl. split; [lia|split; congruence].
  - right. match type of H with Some (put s c ?q, _) = _ => assert (s' = put s c q) by congruence end.
    split; [lia|split; [congruence|]]. intros i. subst. rewrite at_put, Nat.eqb_refl. cbn [with_flags with_deadline x_flags].
    rewrite N.lor_spec. change READONLY with (2 ^ 1)%N. rewrite N.pow2_bits_eqb, N.eqb_sym.
    destruct (i =? 1)%N; [apply Bool.orb_true_r|apply Bool.orb_false_r].
Qed.
Theorem C70_readwrite : forall s c s' r, alive s c -> step s (EReadWrite c) = Some (s', r) ->
  (x_rec (t_ctx s c) < x_shared (t_ctx s c) /\ r = Some INCOMPATIBLE_STATE /\ t_ctx s' c = t_ctx s c) \/
  (x_shared (t_ctx s c) <= x_rec (t_ctx s c) /\ r = Some OK /\
   forall i, N.testbit (x_flags (t_ctx s' c)) i = if (i =? 1)%N then false else N.testbit (x_flags (t_ctx s c)) i).
Proof.
  intros s c s' r A H. cbn [step] in H. destruct (idle s c); [|discriminate].
  unfold on in H. destruct (x_id (t_ctx s c) =? no_id) eqn:E; [unfold alive, no_id in *; lia|].
  unfold set_readwrite in H. destruct (x_rec (t_ctx s c) <? x_shared (t_ctx s c)) eqn:M.
  - left. assert (s' = put s c (t_ctx s c)) by congruence. subst. rewrite at_put, Nat.eqb_refl. split; [lia|split; congruence].
  - right. match type of H with Some (put s c ?q, _) = _ => assert (s' = put s c q) by congruence end.
    split; [lia|split; [congruence|]]. intros i. subst. rewrite at_put, Nat.eqb_refl. cbn [with_flags with_deadline x_flags].
    rewrite N.ldiff_spec. change READONLY with (2 ^ 1)%N. rewrite N.pow2_bits_eqb, N.eqb_sym.
    destruct (i =? 1)%N; cbn; [apply Bool.andb_false_r|apply Bool.andb_true_r].
Qed.

(** Concrete cases. *)
(* a host thread, two fallbacks out of order, the second destroyed first half-way, a third in between *)
Example C70_example :
  let run := fold_left (fun o e => match o with Some (s, rs) => match step s e with Some (s', r) => Some (s', (rs ++ [r])%list) | None => None end | None => None end) in
  match run [EInit 0 77 0 5; EInit 1 0 0 0; EInit 2 0 0 0; EDestroy 2; EInit 3 0 0 0; EReclaim 2; EInit 4 0 0 0; ERel 0 1000000 2500000; EDestroy 9]
        (Some (boot, [])) with
  | Some (s, rs) => map (fun c => x_id (t_ctx s c)) [0; 1; 2; 3; 4]%nat = [77; word - 1; 0; word - 3; word - 4] /\
      rs = [Some OK; Some S_USED_FALLBACK; Some S_USED_FALLBACK; None; Some S_USED_FALLBACK; Some OK; Some S_USED_FALLBACK; Some OK; Some INVALID_ARG] /\
      get_deadline (t_ctx s 0%nat) = ((3, 500000000), OK) /\ get_user (t_ctx s 0%nat) = (5, OK)
  | None => False
  end.
Proof. vm_compute. repeat split. Qed.
(* a handler interrupted between the read and the swap: nested, and the identity comes back *)
Example C70_nested_example :
  nest [] [(EInit 0 0 0 0, Some S_USED_FALLBACK); (EDestroy 0, None); (EInit 1 0 0 0, Some S_USED_FALLBACK); (EDestroy 1, None);
           (EReclaim 1, Some OK); (EReclaim 0, Some OK)] = Some [].
Proof. reflexivity. Qed.

Print Assumptions C70_ids_partial.
Print Assumptions C70_nested.
Print Assumptions C70_nested_no_drift.
Print Assumptions C70_ids_refuted.
Print Assumptions C70_wind_back_refuted.
Print Assumptions C70_busy.
Print Assumptions C70_destroyed.
Print Assumptions C70_others.
Print Assumptions C70_deadline_relative.
Print Assumptions C70_deadline_absolute.
Print Assumptions C70_deadline_clear.
Print Assumptions C70_deadline_before_epoch_refuted.
Print Assumptions C70_readonly.
Print Assumptions C70_readwrite.
