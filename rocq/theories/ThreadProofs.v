(** Proofs about thread contexts. *)
From Verif Require Import Base TimeConv Thread ThreadSpec.
Open Scope Z_scope.


Definition noop (p : ev * option err) : Prop :=
  is_fallback p = false /\ (forall c h fl u, fst p <> EInit c h fl u) /\ ends p = None.

(** What a step can do to identities and the counter. *)
Inductive kind (s : st) : ev -> option err -> st -> Prop :=
| k_same e r s' : t_counter s' = t_counter s -> (forall d, x_id (t_ctx s' d) = x_id (t_ctx s d)) ->
    (forall d, x_busy (t_ctx s' d) = x_busy (t_ctx s d)) -> noop (e, r) -> kind s e r s'
| k_host c host fl u x : host <> 0 -> x_id x = host -> x_busy x = Settled -> kind s (EInit c host fl u) (Some OK) (put s c x)
| k_fall c fl u x r : x_id x = (t_counter s - 1) mod word ->
    (if (t_counter s - 1) mod word =? last_id then x_busy x = Wrapping /\ r = None
     else x_busy x = Settled /\ r = Some S_USED_FALLBACK) ->
    kind s (EInit c 0 fl u) r (put (bump s (-1)) c x)
| k_wrap c s' : x_busy (t_ctx s c) = Wrapping -> s' = fst (wrap s c) -> kind s (EWrap c) (Some S_USED_FALLBACK) s'
| k_pend c x : x_id (t_ctx s c) <> 0 -> x_id (t_ctx s c) = t_counter s -> x_id x = x_id (t_ctx s c) ->
    x_busy x = Reclaiming -> x_busy (t_ctx s c) = Settled -> kind s (EDestroy c) None (put s c x)
| k_done c : x_id (t_ctx s c) <> 0 -> x_id (t_ctx s c) <> t_counter s -> kind s (EDestroy c) (Some OK) (put s c blank)
| k_recl c s1 : x_busy (t_ctx s c) = Reclaiming ->
    s1 = (if t_counter s =? x_id (t_ctx s c) then mkT ((x_id (t_ctx s c) + 1) mod word) (t_ctx s) else s) ->
    kind s (EReclaim c) (Some OK) (put s1 c blank).

Lemma at_put : forall s c x d, t_ctx (put s c x) d = if Nat.eqb d c then x else t_ctx s d.
Proof. reflexivity. Qed.
Lemma counter_put : forall s c x, t_counter (put s c x) = t_counter s.
Proof. reflexivity. Qed.

Lemma on_same : forall s c f s' r e,
  (forall x x' er, f x = Some (x', er) -> x_id x' = x_id x /\ x_busy x' = x_busy x) ->
  (forall r, noop (e, r)) -> on s c f = Some (s', r) -> kind s e r s'.
Proof.
  intros s c f s' r e F Q H. unfold on in H.
  destruct (x_id (t_ctx s c) =? no_id). { assert (s' = s) by congruence. subst. constructor; auto. }
  destruct (f (t_ctx s c)) as [[x' er]|] eqn:E; [|discriminate].
  assert (s' = put s c x') by congruence. subst. apply F in E as [E1 E2].
  constructor; try reflexivity; auto; intros d; rewrite at_put; destruct (Nat.eqb_spec d c); subst; auto.
Qed.

Lemma set_rel_id : forall x now u x' e, set_rel x now u = Some (x', e) -> x_id x' = x_id x /\ x_busy x' = x_busy x.
Proof.
  intros x now u x' e H. unfold set_rel in H. destruct (u <? 0). { assert (x' = x) by congruence. subst; auto. }
  destruct (0 <? u).
  - destruct (add_time now u) as [t|er|]; try discriminate; [|assert (x' = x) by congruence; subst; auto].
    destruct (to_epoch_time t) as [[sec nsec]|er|]; try discriminate.
    + assert (x' = with_deadline x sec nsec (N.lor (x_flags x) DEADLINE)) by congruence. subst; auto.
    + assert (x' = x) by congruence; subst; auto.
  - assert (x' = with_deadline x NOW NOW (N.lor (x_flags x) DEADLINE)) by congruence. subst; auto.
Qed.

Lemma idle_settled : forall s c, idle s c = true -> x_busy (t_ctx s c) = Settled.
Proof. intros s c. unfold idle. destruct (x_busy (t_ctx s c)); congruence. Qed.

Lemma step_kind : forall s e s' r, step s e = Some (s', r) -> kind s e r s'.
Proof.
  intros s e s' r H. destruct e; cbn [step] in H.
  - destruct (idle s c); [|discriminate]. unfold init in H.
    destruct (host =? no_id) eqn:E.
    + assert (host = 0) by (unfold no_id in E; lia). subst host.
      destruct (t_counter (bump s (-1)) =? last_id) eqn:L.
      * assert (s' = put (bump s (-1)) c (fresh (t_counter (bump s (-1))) user fl Wrapping)) by congruence.
        assert (r = None) by congruence. subst. apply k_fall; [reflexivity|].
        change (t_counter (bump s (-1))) with ((t_counter s - 1) mod word) in L. rewrite L. split; reflexivity.
      * assert (s' = put (bump s (-1)) c (fresh (t_counter (bump s (-1))) user fl Settled)) by congruence.
        assert (r = Some S_USED_FALLBACK) by congruence. subst. apply k_fall; [reflexivity|].
        change (t_counter (bump s (-1))) with ((t_counter s - 1) mod word) in L. rewrite L. split; reflexivity.
    + assert (s' = put s c (fresh host user fl Settled)) by congruence. assert (r = Some OK) by congruence. subst.
      apply k_host; try reflexivity. unfold no_id in E. lia.
  - destruct (x_busy (t_ctx s c)) eqn:B; try discriminate.
    assert (X : wrap s c = (s', r)) by congruence. clear H. assert (Y : snd (wrap s c) = r) by (rewrite X; reflexivity).
    cbn [snd wrap] in Y. subst r. apply k_wrap; [exact B|]. rewrite X. reflexivity.
  - destruct (idle s c) eqn:I; [|discriminate]. apply idle_settled in I.
    destruct (x_id (t_ctx s c) =? no_id) eqn:Z0.
    { assert (s' = s) by congruence. assert (r = Some INVALID_ARG) by congruence. subst. apply k_same; auto.
      repeat split; intros; discriminate. }
    unfold no_id in Z0. unfold destroy in H. destruct (locked (t_ctx s c)) eqn:L.
    { assert (s' = s) by congruence. assert (r = Some e) by congruence. subst. apply k_same; auto.
      repeat split; try (intros; discriminate). unfold locked in L. cbn.
      repeat match type of L with context [if ?b then _ else _] => destruct b end;
        try (assert (e = BUSY) by congruence; subst; reflexivity);
        try (assert (e = INTERNAL_CHECK_FATAL) by congruence; subst; reflexivity); discriminate. }
    destruct (x_id (t_ctx s c) =? t_counter s) eqn:K.
    + assert (s' = put s c (mark (t_ctx s c))) by congruence. assert (r = None) by congruence. subst.
      apply k_pend; auto; lia.
    + assert (s' = put s c blank) by congruence. assert (r = Some OK) by congruence. subst. apply k_done; lia.
  - destruct (x_busy (t_ctx s c)) eqn:B; try discriminate.
    assert (X : reclaim s c = (s', r)) by congruence. clear H. unfold reclaim in X. cbv zeta in X.
    match type of X with (?q, _) = _ => assert (s' = q) by congruence end. assert (r = Some OK) by congruence. subst.
    eapply k_recl; eauto.
  - destruct (idle s c && negb (x_id (t_ctx s c) =? no_id)) eqn:I; [|discriminate].
    apply andb_prop in I as [I _]. apply idle_settled in I.
    match type of H with Some (?q, _) = _ => assert (s' = q) by congruence end. subst.
    constructor; try reflexivity.
    + intros d. rewrite at_put. destruct (Nat.eqb_spec d c); subst; reflexivity.
    + intros d. rewrite at_put. destruct (Nat.eqb_spec d c); subst; cbn; congruence.
    + repeat split; intros; discriminate.
  - destruct (idle s c); [|discriminate]. eapply on_same; [| |exact H].
    + intros x x' er E. exact (set_rel_id _ _ _ _ _ E).
    + intros; repeat split; intros; discriminate.
  - destruct (idle s c); [|discriminate]. eapply on_same; [| |exact H].
    + intros x x' er E. cbv beta in E. assert (x' = fst (set_abs x secs nsecs)) by (destruct (set_abs x secs nsecs); cbn; congruence). subst.
      unfold set_abs. destruct (_ || _); auto. destruct (_ || _); auto.
    + intros; repeat split; intros; discriminate.
  - destruct (idle s c); [|discriminate]. eapply on_same; [| |exact H].
    + intros x x' er E. cbv beta in E. assert (x' = fst (clear_deadline x)) by (unfold clear_deadline in *; cbn; congruence). subst. auto.
    + intros; repeat split; intros; discriminate.
  - destruct (idle s c); [|discriminate]. eapply on_same; [| |exact H].
    + intros x x' er E. cbv beta in E. assert (x' = fst (set_readonly x)) by (destruct (set_readonly x); cbn; congruence). subst.
      unfold set_readonly. destruct (0 <? _); auto.
    + intros; repeat split; intros; discriminate.
  - destruct (idle s c); [|discriminate]. eapply on_same; [| |exact H].
    + intros x x' er E. cbv beta in E. assert (x' = fst (set_readwrite x)) by (destruct (set_readwrite x); cbn; congruence). subst.
      unfold set_readwrite. destruct (_ <? _); auto.
    + intros; repeat split; intros; discriminate.
Qed.

Lemma word_eq : word = 18446744073709551616. Proof. reflexivity. Qed.
Lemma last_eq : last_id = 18446744073692774401. Proof. reflexivity. Qed.

Lemma neg_mod : forall k, 0 <= k < 16777215 -> (k = 0 /\ (- k) mod word = 0) \/ (0 < k /\ (- k) mod word = word - k).
Proof.
  intros k H. destruct (Z.eq_dec k 0) as [->|N]; [left; auto|right]. split; [lia|].
  symmetry. apply Z.mod_unique_pos with (q := -1); rewrite word_eq; lia.
Qed.
Lemma neg_mod_pred : forall k, 0 <= k < 16777215 -> ((- k) mod word - 1) mod word = word - (k + 1).
Proof.
  intros k H. rewrite Zminus_mod_idemp_l. symmetry. apply Z.mod_unique_pos with (q := -1); rewrite word_eq; lia.
Qed.
Lemma neg_mod_eq : forall k z, 0 <= k < 16777215 -> z = (if k =? 0 then 0 else word - k) -> z = (- k) mod word.
Proof. intros k z H ->. destruct (neg_mod k H) as [[-> ->]|[P ->]]; auto. destruct (Z.eqb_spec k 0); lia. Qed.
Lemma succ_mod : forall k, 0 < k < 16777215 -> (word - k + 1) mod word = (- (k - 1)) mod word.
Proof.
  intros k H. apply neg_mod_eq; [lia|]. destruct (Z.eqb_spec (k - 1) 0) as [E|E].
  - replace (word - k + 1) with word by lia. apply Z_mod_same_full.
  - symmetry. apply Z.mod_unique_pos with (q := 0); rewrite word_eq; lia.
Qed.

Definition high (i : Z) : Prop := 18446744073692774400 < i.

Record inv (k : Z) (s : st) : Prop := mkInv {
  i_k : 0 <= k < 16777215;
  i_counter : t_counter s = (- k) mod word;
  i_range : forall c, 0 <= x_id (t_ctx s c) < word;
  i_high : forall c, high (x_id (t_ctx s c)) -> word - k <= x_id (t_ctx s c);
  i_busy : forall c, x_busy (t_ctx s c) <> Wrapping;
  i_recl : forall c, x_busy (t_ctx s c) = Reclaiming -> x_id (t_ctx s c) <> 0;
  i_dist : forall c d, c <> d -> high (x_id (t_ctx s c)) -> x_id (t_ctx s c) <> x_id (t_ctx s d) }.

Definition fb (e : ev) : Z := match e with EInit _ host _ _ => if host =? 0 then 1 else 0 | _ => 0 end.
Definition low (e : ev) : Prop := match e with EInit _ host _ _ => 0 <= host <= 2 ^ 64 - 2 ^ 24 | _ => True end.

Lemma inv_step : forall k s e s' r, inv k s -> step s e = Some (s', r) -> low e -> k + fb e < 16777215 ->
  exists k', k' <= k + fb e /\ inv k' s'.
Proof.
  intros k s e s' r I H L F. apply step_kind in H. destruct I as [K C R G B Q D].
  destruct H as [e r s' S1 S2 S3 S4 | c host fl u x H1 H2 H3 | c fl u x r H1 H2 | c s' H1 H2 | c x H1 H2 H3 H4 H5 | c H1 H2 | c s1 H1 H2].
  - exists k. split. { unfold noop, is_fallback in S4. destruct S4 as [_ [S4 _]]. destruct e; cbn [fb]; try (clear; lia); try lia. exfalso. eapply S4. reflexivity. }
    constructor.
    + exact K.
    + rewrite S1. exact C.
    + intros c0. rewrite S2. apply R.
    + intros c0. rewrite S2. apply G.
    + intros c0. rewrite S3. apply B.
    + intros c0. rewrite S2, S3. apply Q.
    + intros c0 d. rewrite !S2. apply D.
  - exists k. cbn [low] in L. change (2 ^ 64 - 2 ^ 24) with 18446744073692774400 in L.
    split. { cbn [fb]. destruct (host =? 0); lia. }
    assert (NH : ~ high host) by (unfold high; lia).
    constructor; auto; intros c0; rewrite ?at_put.
    + destruct (Nat.eqb_spec c0 c); [|apply R]. rewrite H2. rewrite word_eq. lia.
    + destruct (Nat.eqb_spec c0 c); [|apply G]. rewrite H2. intros; contradiction.
    + destruct (Nat.eqb_spec c0 c); [|apply B]. congruence.
    + destruct (Nat.eqb_spec c0 c); [|apply Q]. congruence.
    + intros d. rewrite ?at_put. destruct (Nat.eqb_spec c0 c), (Nat.eqb_spec d c); try congruence.
      auto.
  - cbn [fb] in F. change (0 =? 0) with true in F. cbv iota in F.
    assert (ID : (t_counter s - 1) mod word = word - (k + 1)) by (rewrite C; apply neg_mod_pred; lia).
    exists (k + 1). split; [cbn; lia|]. rewrite ID in *.
    assert (NL : (word - (k + 1) =? last_id) = false) by (rewrite word_eq, last_eq; lia).
    rewrite NL in H2. destruct H2 as [H2 _].
    assert (HI : high (word - (k + 1))) by (unfold high; rewrite word_eq; lia).
    constructor; try lia.
    + rewrite counter_put. cbn [bump t_counter]. change (t_counter s + -1) with (t_counter s - 1). rewrite ID.
      destruct (Z.eq_dec (k + 1) 16777215); [lia|]. apply neg_mod_eq; [lia|]. destruct (Z.eqb_spec (k + 1) 0); lia.
    + intros c0. rewrite at_put. destruct (Nat.eqb_spec c0 c); [|apply R]. rewrite H1. rewrite word_eq. lia.
    + intros c0. rewrite at_put. destruct (Nat.eqb_spec c0 c); [rewrite H1; lia|]. intros HH. apply G in HH. change (t_ctx (bump s (-1)) c0) with (t_ctx s c0). lia.
    + intros c0. rewrite at_put. destruct (Nat.eqb_spec c0 c); [congruence|apply B].
    + intros c0. rewrite at_put. destruct (Nat.eqb_spec c0 c); [congruence|apply Q].
    + intros c0 d. rewrite !at_put. change (t_ctx (bump s (-1))) with (t_ctx s).
      destruct (Nat.eqb_spec c0 c), (Nat.eqb_spec d c); try congruence; rewrite ?H1.
      * intros _ _ X. assert (HH : high (x_id (t_ctx s d))) by (rewrite <- X; exact HI). apply G in HH. lia.
      * intros _ HH X. apply G in HH. lia.
      * auto.
  - exfalso. exact (B c H1).
  - exists k. split; [cbn [fb]; lia|]. constructor; auto; intros c0; rewrite ?at_put.
    + destruct (Nat.eqb_spec c0 c); [subst; rewrite H3|]; apply R.
    + destruct (Nat.eqb_spec c0 c); [subst; rewrite H3|]; apply G.
    + destruct (Nat.eqb_spec c0 c); [congruence|apply B].
    + destruct (Nat.eqb_spec c0 c); [congruence|apply Q].
    + intros d. rewrite ?at_put. destruct (Nat.eqb_spec c0 c), (Nat.eqb_spec d c); subst; rewrite ?H3; try congruence; apply D.
  - exists k. split; [cbn [fb]; lia|]. assert (NH : ~ high (x_id blank)) by (change (x_id blank) with 0; unfold high; lia).
    constructor; auto; intros c0; rewrite ?at_put.
    + destruct (Nat.eqb_spec c0 c); [subst; change (x_id blank) with 0; rewrite word_eq; lia|]; apply R.
    + destruct (Nat.eqb_spec c0 c); [intros; contradiction|]; apply G.
    + destruct (Nat.eqb_spec c0 c); [discriminate|apply B].
    + destruct (Nat.eqb_spec c0 c); [discriminate|apply Q].
    + intros d. rewrite ?at_put. destruct (Nat.eqb_spec c0 c), (Nat.eqb_spec d c); subst;
        solve [congruence | apply D; assumption | intros; contradiction | intros _ HH X; apply NH; rewrite <- X; exact HH | intros _ HH X; apply NH; rewrite X in HH; exact HH | apply D].
  - assert (NH : ~ high (x_id blank)) by (change (x_id blank) with 0; unfold high; lia).
    pose proof (Q c H1) as NZ. pose proof (R c) as RC.
    destruct (t_counter s =? x_id (t_ctx s c)) eqn:E; subst s1.
    + assert (KP : 0 < k /\ x_id (t_ctx s c) = word - k).
      { rewrite C in E. apply Z.eqb_eq in E. destruct (neg_mod k K) as [[K0 X]|[K0 X]]; rewrite X in E; lia. }
      destruct KP as [KP IDC].
      assert (HC : high (x_id (t_ctx s c))). { unfold high. rewrite IDC, word_eq. lia. }
      exists (k - 1). split; [cbn [fb]; lia|]. constructor; try lia.
      * rewrite counter_put. cbn [t_counter]. rewrite IDC. apply succ_mod. lia.
      * intros c0. rewrite at_put. destruct (Nat.eqb_spec c0 c); [subst; change (x_id blank) with 0; rewrite word_eq; lia|]; apply R.
      * intros c0. rewrite at_put. destruct (Nat.eqb_spec c0 c); [intros; contradiction|]. cbn [t_ctx]. intros HH.
        pose proof (G _ HH). pose proof (D c c0 ltac:(congruence) HC). lia.
      * intros c0. rewrite at_put. destruct (Nat.eqb_spec c0 c); [discriminate|apply B].
      * intros c0. rewrite at_put. destruct (Nat.eqb_spec c0 c); [discriminate|apply Q].
      * intros c0 d. rewrite !at_put. cbn [t_ctx]. destruct (Nat.eqb_spec c0 c), (Nat.eqb_spec d c); subst;
        solve [congruence | apply D; assumption | intros; contradiction | intros _ HH X; apply NH; rewrite <- X; exact HH | intros _ HH X; apply NH; rewrite X in HH; exact HH | apply D].
    + exists k. split; [cbn [fb]; lia|]. constructor; auto; intros c0; rewrite ?at_put.
      * destruct (Nat.eqb_spec c0 c); [subst; change (x_id blank) with 0; rewrite word_eq; lia|]; apply R.
      * destruct (Nat.eqb_spec c0 c); [intros; contradiction|]; apply G.
      * destruct (Nat.eqb_spec c0 c); [discriminate|apply B].
      * destruct (Nat.eqb_spec c0 c); [discriminate|apply Q].
      * intros d. rewrite ?at_put. destruct (Nat.eqb_spec c0 c), (Nat.eqb_spec d c); subst;
        solve [congruence | apply D; assumption | intros; contradiction | intros _ HH X; apply NH; rewrite <- X; exact HH | intros _ HH X; apply NH; rewrite X in HH; exact HH | apply D].
Qed.

Lemma inv_boot : inv 0 boot.
Proof.
  constructor; try (intros; change (t_ctx boot c) with blank in *; change (x_id blank) with 0 in *; unfold high in *).
  - lia.
  - reflexivity.
  - rewrite word_eq. lia.
  - lia.
  - discriminate.
  - discriminate.
  - lia.
Qed.

Lemma filter_snoc : forall {A} (f : A -> bool) l x, List.filter f (l ++ [x]) = (List.filter f l ++ (if f x then [x] else []))%list.
Proof. intros. rewrite filter_app. cbn. destruct (f x); reflexivity. Qed.
Lemma fallbacks_snoc : forall tr e r, fallbacks (tr ++ [(e, r)]) = fallbacks tr + fb e.
Proof.
  intros. unfold fallbacks. rewrite filter_snoc, app_length. unfold is_fallback at 2. cbn [fst].
  unfold fb. destruct e; cbn; try lia. destruct (host =? 0); cbn; lia.
Qed.
Lemma fb_pos : forall e, 0 <= fb e. Proof. destruct e; cbn; try lia. destruct (_ =? 0); lia. Qed.
Lemma hosts_snoc : forall tr e r, hosts_low (tr ++ [(e, r)]) -> hosts_low tr /\ low e.
Proof.
  intros tr e r H. split.
  - intros c host fl u q I. eapply H. apply in_or_app. left. exact I.
  - destruct e; cbn; auto. eapply H. apply in_or_app. right. left. reflexivity.
Qed.

Lemma inv_runs : forall s tr s', runs s tr s' -> inv 0 s -> hosts_low tr -> fallbacks tr < 16777215 ->
  exists k, k <= fallbacks tr /\ inv k s'.
Proof.
  induction 1 as [s|s tr s1 e r s2 H IH ST]; intros I L F.
  - exists 0. split; [cbn; lia|exact I].
  - apply hosts_snoc in L as [L1 L2]. rewrite fallbacks_snoc in *. pose proof (fb_pos e).
    destruct IH as [k [K IK]]; auto; [lia|].
    destruct (inv_step _ _ _ _ _ IK ST L2) as [k' [K' IK']]; [lia|]. exists k'. split; [lia|exact IK'].
Qed.

(** Which contexts fell back. *)
Definition fell1 (p : ev * option err) (c : nat) (b : bool) : bool :=
  match fst p with EInit d host _ _ => if Nat.eqb d c then host =? 0 else b | _ => b end.
Lemma fell_snoc : forall tr p c b, fell_back (tr ++ [p]) c b = fell1 p c (fell_back tr c b).
Proof.
  induction tr as [|[e r] tr IH]; intros [e' r'] c b.
  - cbn. unfold fell1. cbn. destruct e'; reflexivity.
  - cbn. destruct e; apply IH.
Qed.

Lemma high_step : forall k s e s' r tr c, inv k s -> step s e = Some (s', r) -> k + fb e < 16777215 ->
  (fell_back tr c false = true -> alive s c -> high (x_id (t_ctx s c))) ->
  fell_back (tr ++ [(e, r)]) c false = true -> alive s' c -> high (x_id (t_ctx s' c)).
Proof.
  intros k s e s' r tr c I H F P Q A. rewrite fell_snoc in Q. unfold alive in *. apply step_kind in H.
  destruct I as [K C R G B Qr D]. unfold fell1 in Q. cbn [fst] in Q.
  destruct H as [e r s' S1 S2 S3 S4 | c0 host fl u x H1 H2 H3 | c0 fl u x r H1 H2 | c0 s' H1 H2 | c0 x H1 H2 H3 H4 H5 | c0 H1 H2 | c0 s1 H1 H2].
  - rewrite S2 in *. apply P; auto. destruct S4 as [_ [S4 _]]. destruct e; auto. exfalso. eapply S4. reflexivity.
  - rewrite at_put in *. rewrite (Nat.eqb_sym c c0) in *. destruct (Nat.eqb_spec c0 c); [lia|auto].
  - rewrite at_put in *. rewrite (Nat.eqb_sym c c0) in *. destruct (Nat.eqb_spec c0 c); [|auto]. rewrite H1.
    cbn [fb] in F. change (0 =? 0) with true in F. cbv iota in F. unfold high. rewrite C, neg_mod_pred by lia. rewrite word_eq. lia.
  - exfalso. exact (B c0 H1).
  - rewrite at_put in *. destruct (Nat.eqb_spec c c0); [|auto]. subst. rewrite H3 in *. auto.
  - rewrite at_put in *. destruct (Nat.eqb_spec c c0); [|auto]. exfalso. apply A. reflexivity.
  - rewrite at_put in *. destruct (Nat.eqb_spec c c0); [exfalso; apply A; reflexivity|].
    assert (X : t_ctx s1 c = t_ctx s c) by (subst s1; destruct (_ =? _); reflexivity). rewrite X in *. auto.
Qed.

Lemma high_runs : forall s tr s', runs s tr s' -> inv 0 s -> hosts_low tr -> fallbacks tr < 16777215 ->
  forall c, fell_back tr c false = true -> alive s' c -> high (x_id (t_ctx s' c)).
Proof.
  induction 1 as [s|s tr s1 e r s2 H IH ST]; intros I L F c Q A.
  - discriminate.
  - apply hosts_snoc in L as [L1 L2]. rewrite fallbacks_snoc in *. pose proof (fb_pos e).
    destruct (inv_runs _ _ _ H I L1) as [k [K IK]]; [lia|].
    eapply high_step; eauto; [lia|]. intros; apply IH; auto; lia.
Qed.

(** Nested use. *)
Fixpoint placed (s : st) (l : list nat) : Prop :=
  match l with [] => True | c :: r => x_id (t_ctx s c) = word - Z.of_nat (List.length l) /\ placed s r end.

Record ninv (l : list nat) (s : st) : Prop := mkN {
  n_len : Z.of_nat (List.length l) < 16777215;
  n_counter : t_counter s = (- Z.of_nat (List.length l)) mod word;
  n_placed : placed s l;
  n_nodup : NoDup l;
  n_high : forall c, high (x_id (t_ctx s c)) -> In c l;
  n_range : forall c, 0 <= x_id (t_ctx s c) < word;
  n_busy : forall c, x_busy (t_ctx s c) <> Wrapping;
  n_recl : forall c, x_busy (t_ctx s c) = Reclaiming -> x_id (t_ctx s c) <> 0 }.

Lemma placed_frame : forall s s' l, (forall c, In c l -> x_id (t_ctx s' c) = x_id (t_ctx s c)) -> placed s l -> placed s' l.
Proof.
  induction l as [|c l IH]; intros F P; [exact I|]. cbn [placed] in *. destruct P as [P1 P2]. split.
  - rewrite F; [exact P1|left; reflexivity].
  - apply IH; auto. intros; apply F; right; auto.
Qed.
Lemma placed_in : forall s l c, placed s l -> In c l -> word - Z.of_nat (List.length l) <= x_id (t_ctx s c) < word.
Proof.
  induction l as [|d l IH]; intros c P I; [contradiction|]. cbn [placed List.length] in *. destruct P as [P1 P2].
  destruct I as [->|I]; [lia|]. specialize (IH c P2 I). lia.
Qed.
Lemma placed_dist : forall s l c d, placed s l -> In c l -> In d l -> c <> d -> x_id (t_ctx s c) <> x_id (t_ctx s d).
Proof.
  induction l as [|a l IH]; intros c d P I J N; [contradiction|]. cbn [placed List.length] in *. destruct P as [P1 P2].
  destruct I as [->|I], J as [->|J]; try congruence.
  - pose proof (placed_in _ _ _ P2 J). lia.
  - pose proof (placed_in _ _ _ P2 I). lia.
  - apply IH; auto.
Qed.
Lemma existsb_in : forall c l, existsb (Nat.eqb c) l = true <-> In c l.
Proof.
  intros. rewrite existsb_exists. split.
  - intros [x [H1 H2]]. apply Nat.eqb_eq in H2. subst. exact H1.
  - intros H. exists c. split; auto. apply Nat.eqb_refl.
Qed.
Lemma existsb_out : forall c l, existsb (Nat.eqb c) l = false -> ~ In c l.
Proof. intros c l H I. apply existsb_in in I. congruence. Qed.

Lemma placed_high : forall s l c, placed s l -> Z.of_nat (List.length l) < 16777215 -> In c l -> high (x_id (t_ctx s c)).
Proof. intros s l c P L I. pose proof (placed_in _ _ _ P I). unfold high. rewrite word_eq in *. lia. Qed.

Lemma ninv_step : forall l s e s' r l', ninv l s -> step s e = Some (s', r) -> low e -> nest1 l (e, r) = Some l' -> ninv l' s'.
Proof.
  intros l s e s' r l' I H L ST. apply step_kind in H. destruct I as [LL C P ND G R B Q].
  destruct H as [e r s' S1 S2 S3 S4 | c host fl u x H1 H2 H3 | c fl u x r H1 H2 | c s' H1 H2 | c x H1 H2 H3 H4 H5 | c H1 H2 | c s1 H1 H2].
  - assert (l' = l). { destruct S4 as [_ [S4 S5]]. unfold nest1 in ST. rewrite S5 in ST.
      destruct e; try congruence; exfalso; eapply S4; reflexivity. }
    subst. constructor.
    + exact LL.
    + rewrite S1. exact C.
    + eapply placed_frame; [|exact P]. intros; apply S2.
    + exact ND.
    + intros c0. rewrite S2. apply G.
    + intros c0. rewrite S2. apply R.
    + intros c0. rewrite S3. apply B.
    + intros c0. rewrite S2, S3. apply Q.
  - cbn [low] in L. change (2 ^ 64 - 2 ^ 24) with 18446744073692774400 in L.
    unfold nest1 in ST. destruct (existsb (Nat.eqb c) l) eqn:EX; [discriminate|]. apply existsb_out in EX.
    destruct (host =? 0) eqn:HZ; [lia|]. assert (l' = l) by congruence. subst.
    assert (NH : ~ high (x_id x)) by (unfold high; lia).
    constructor; auto; try (intros c0; rewrite at_put).
    + eapply placed_frame; [|exact P]. intros d ID. rewrite at_put. destruct (Nat.eqb_spec d c); [subst; contradiction|reflexivity].
    + destruct (Nat.eqb_spec c0 c); [intros; contradiction|apply G].
    + destruct (Nat.eqb_spec c0 c); [rewrite word_eq; lia|apply R].
    + destruct (Nat.eqb_spec c0 c); [congruence|apply B].
    + destruct (Nat.eqb_spec c0 c); [congruence|apply Q].
  - unfold nest1 in ST. destruct (existsb (Nat.eqb c) l) eqn:EX; [discriminate|]. apply existsb_out in EX.
    change (0 =? 0) with true in ST. cbv iota in ST. change (2 ^ 24 - 2) with 16777214 in ST.
    destruct (Z.of_nat (List.length l) <? 16777214) eqn:LT; [|discriminate].
    assert (l' = c :: l) by congruence. subst.
    assert (ID : (t_counter s - 1) mod word = word - (Z.of_nat (List.length l) + 1)).
    { rewrite C. apply neg_mod_pred. lia. }
    rewrite ID in *.
    assert (NL : (word - (Z.of_nat (List.length l) + 1) =? last_id) = false) by (rewrite word_eq, last_eq; lia).
    rewrite NL in H2. destruct H2 as [H2 _].
    assert (LE : Z.of_nat (List.length (c :: l)) = Z.of_nat (List.length l) + 1) by (cbn [List.length]; lia).
    constructor; try (intros c0; rewrite at_put).
    + lia.
    + rewrite LE, counter_put. cbn [bump t_counter]. change (t_counter s + -1) with (t_counter s - 1). rewrite ID.
      apply neg_mod_eq; [lia|]. destruct (Z.eqb_spec (Z.of_nat (List.length l) + 1) 0); lia.
    + cbn [placed]. split.
      * rewrite at_put, Nat.eqb_refl, LE. exact H1.
      * eapply placed_frame; [|exact P]. intros d IDl. rewrite at_put. destruct (Nat.eqb_spec d c); [subst; contradiction|reflexivity].
    + constructor; auto.
    + destruct (Nat.eqb_spec c0 c); [left; congruence|]. intros HH. right. apply G. exact HH.
    + destruct (Nat.eqb_spec c0 c); [rewrite H1, word_eq; lia|apply R].
    + destruct (Nat.eqb_spec c0 c); [congruence|apply B].
    + destruct (Nat.eqb_spec c0 c); [congruence|apply Q].
  - exfalso. exact (B c H1).
  - assert (l' = l). { unfold nest1 in ST. cbn [ends] in ST. unfold over in ST. cbn [snd] in ST.
      destruct (existsb _ _); [|congruence]. destruct l as [|d l0]; [discriminate|]. destruct (Nat.eqb d c); congruence. }
    subst. constructor; auto; try (intros c0; rewrite at_put).
    + eapply placed_frame; [|exact P]. intros d _. rewrite at_put. destruct (Nat.eqb_spec d c); [subst; exact H3|reflexivity].
    + destruct (Nat.eqb_spec c0 c); [subst; rewrite H3|]; apply G.
    + destruct (Nat.eqb_spec c0 c); [subst; rewrite H3|]; apply R.
    + destruct (Nat.eqb_spec c0 c); [congruence|apply B].
    + destruct (Nat.eqb_spec c0 c); [congruence|apply Q].
  - unfold nest1 in ST. cbn [ends] in ST. unfold over in ST. cbn [snd] in ST.
    assert (NI : ~ In c l).
    { intros IC. apply existsb_in in IC as EX. rewrite EX in ST. destruct l as [|d l0]; [discriminate|].
      destruct (Nat.eqb_spec d c); [|discriminate]. subst d. destruct P as [P1 _]. apply H2. rewrite P1, C.
      apply neg_mod_eq; [lia|]. cbn [List.length]. destruct (Z.eqb_spec (Z.of_nat (S (List.length l0))) 0); lia. }
    assert (l' = l). { destruct (existsb _ _) eqn:EX; [apply existsb_in in EX; contradiction|congruence]. }
    subst. constructor; auto; try (intros c0; rewrite at_put).
    + eapply placed_frame; [|exact P]. intros d ID. rewrite at_put. destruct (Nat.eqb_spec d c); [subst; contradiction|reflexivity].
    + destruct (Nat.eqb_spec c0 c); [unfold high; change (x_id blank) with 0; lia|apply G].
    + destruct (Nat.eqb_spec c0 c); [change (x_id blank) with 0; rewrite word_eq; lia|apply R].
    + destruct (Nat.eqb_spec c0 c); [discriminate|apply B].
    + destruct (Nat.eqb_spec c0 c); [discriminate|apply Q].
  - unfold nest1 in ST. cbn [ends] in ST. unfold over in ST. cbn [snd] in ST.
    pose proof (Q c H1) as NZ. pose proof (R c) as RC.
    destruct (existsb (Nat.eqb c) l) eqn:EX.
    + destruct l as [|d l0]; [discriminate|]. destruct (Nat.eqb_spec d c); [|discriminate]. subst d.
      assert (l' = l0) by congruence. subst l'. destruct P as [P1 P2]. inversion ND as [|? ? N1 N2]; subst.
      cbn [List.length] in *.
      assert (E : (t_counter s =? x_id (t_ctx s c)) = true). { rewrite P1, C. apply Z.eqb_eq. symmetry. apply neg_mod_eq; [lia|].
        destruct (Z.eqb_spec (Z.of_nat (S (List.length l0))) 0); lia. }
      rewrite E in *.
      constructor; auto; try (intros c0; rewrite at_put; cbn [t_ctx]).
      * lia.
      * rewrite counter_put. cbn [t_counter]. rewrite P1, succ_mod by lia. f_equal. lia.
      * eapply placed_frame; [|exact P2]. intros d ID. rewrite at_put. cbn [t_ctx]. destruct (Nat.eqb_spec d c); [subst; contradiction|reflexivity].
      * destruct (Nat.eqb_spec c0 c); [unfold high; change (x_id blank) with 0; lia|]. intros HH. apply G in HH. destruct HH; congruence.
      * destruct (Nat.eqb_spec c0 c); [change (x_id blank) with 0; rewrite word_eq; lia|apply R].
      * destruct (Nat.eqb_spec c0 c); [discriminate|apply B].
      * destruct (Nat.eqb_spec c0 c); [discriminate|apply Q].
    + apply existsb_out in EX. assert (l' = l) by congruence. subst l'.
      assert (E : (t_counter s =? x_id (t_ctx s c)) = false).
      { destruct (_ =? _) eqn:E; auto. exfalso. apply EX. apply G. unfold high. rewrite C in E. apply Z.eqb_eq in E.
        destruct (neg_mod (Z.of_nat (List.length l)) ltac:(lia)) as [[K0 X]|[K0 X]]; rewrite X in E; [lia|]. rewrite word_eq in *. lia. }
      rewrite E in *. subst s1.
      constructor; auto; try (intros c0; rewrite at_put).
      * eapply placed_frame; [|exact P]. intros d ID. rewrite at_put. destruct (Nat.eqb_spec d c); [subst; contradiction|reflexivity].
      * destruct (Nat.eqb_spec c0 c); [unfold high; change (x_id blank) with 0; lia|apply G].
      * destruct (Nat.eqb_spec c0 c); [change (x_id blank) with 0; rewrite word_eq; lia|apply R].
      * destruct (Nat.eqb_spec c0 c); [discriminate|apply B].
      * destruct (Nat.eqb_spec c0 c); [discriminate|apply Q].
Qed.

Lemma ninv_boot : ninv [] boot.
Proof.
  constructor; try (intros c; change (t_ctx boot c) with blank in *; change (x_id blank) with 0 in *; unfold high in *).
  - cbn. lia.
  - reflexivity.
  - exact I.
  - constructor.
  - lia.
  - rewrite word_eq. lia.
  - discriminate.
  - discriminate.
Qed.

Lemma nest_snoc : forall tr l p l', nest l (tr ++ [p]) = Some l' -> exists l1, nest l tr = Some l1 /\ nest1 l1 p = Some l'.
Proof.
  induction tr as [|q tr IH]; intros l p l' H; cbn in *.
  - exists l. destruct (nest1 l p); auto.
  - destruct (nest1 l q); [|discriminate]. apply IH; auto.
Qed.

Lemma ninv_runs : forall s tr s' l l', runs s tr s' -> ninv l s -> hosts_low tr -> nest l tr = Some l' -> ninv l' s'.
Proof.
  intros s tr s' l l' H. revert l'. induction H as [s|s tr s1 e r s2 H IH ST]; intros l' I L F.
  - cbn in F. assert (l' = l) by congruence. subst; auto.
  - apply hosts_snoc in L as [L1 L2]. apply nest_snoc in F as [l1 [F1 F2]].
    eapply ninv_step; [|exact ST|exact L2|exact F2]. auto.
Qed.

Lemma nhigh_step : forall l s e s' r tr c l', ninv l s -> step s e = Some (s', r) -> nest1 l (e, r) = Some l' ->
  (fell_back tr c false = true -> alive s c -> high (x_id (t_ctx s c))) ->
  fell_back (tr ++ [(e, r)]) c false = true -> alive s' c -> high (x_id (t_ctx s' c)).
Proof.
  intros l s e s' r tr c l' I H F P Q A. rewrite fell_snoc in Q. unfold alive in *. apply step_kind in H.
  destruct I as [LL C PL ND G R B Qr]. unfold fell1 in Q. cbn [fst] in Q.
  destruct H as [e r s' S1 S2 S3 S4 | c0 host fl u x H1 H2 H3 | c0 fl u x r H1 H2 | c0 s' H1 H2 | c0 x H1 H2 H3 H4 H5 | c0 H1 H2 | c0 s1 H1 H2].
  - rewrite S2 in *. apply P; auto. destruct S4 as [_ [S4 _]]. destruct e; auto. exfalso. eapply S4. reflexivity.
  - rewrite at_put in *. rewrite (Nat.eqb_sym c c0) in *. destruct (Nat.eqb_spec c0 c); [lia|auto].
  - rewrite at_put in *. rewrite (Nat.eqb_sym c c0) in *. destruct (Nat.eqb_spec c0 c); [|auto]. rewrite H1.
    unfold nest1 in F. destruct (existsb _ _); [discriminate|].
    change (0 =? 0) with true in F. cbv iota in F. change (2 ^ 24 - 2) with 16777214 in F.
    destruct (Z.of_nat (List.length l) <? 16777214) eqn:LT; [|discriminate].
    unfold high. rewrite C, neg_mod_pred by lia. rewrite word_eq. lia.
  - exfalso. exact (B c0 H1).
  - rewrite at_put in *. destruct (Nat.eqb_spec c c0); [|auto]. subst. rewrite H3 in *. auto.
  - rewrite at_put in *. destruct (Nat.eqb_spec c c0); [|auto]. exfalso. apply A. reflexivity.
  - rewrite at_put in *. destruct (Nat.eqb_spec c c0); [exfalso; apply A; reflexivity|].
    assert (X : t_ctx s1 c = t_ctx s c) by (subst s1; destruct (_ =? _); reflexivity). rewrite X in *. auto.
Qed.

Lemma nhigh_runs : forall s tr s' l l', runs s tr s' -> ninv l s -> hosts_low tr -> nest l tr = Some l' ->
  forall c, fell_back tr c false = true -> alive s' c -> high (x_id (t_ctx s' c)).
Proof.
  intros s tr s' l l' H. revert l'. induction H as [s|s tr s1 e r s2 H IH ST]; intros l' I L F c Q A.
  - discriminate.
  - apply hosts_snoc in L as [L1 L2]. apply nest_snoc in F as [l1 [F1 F2]].
    eapply nhigh_step; [eapply ninv_runs; eauto|exact ST|exact F2| |exact Q|exact A].
    intros; eapply IH; eauto.
Qed.
