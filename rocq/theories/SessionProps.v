(** * C62: a configuration is loaded entirely or not at all *)
Require Import ZArith List Bool Lia.
From Verif Require Import Json JsonProps JsonSpec JsonGrammarProps Session SessionSpec SessionProofs.
Import ListNotations.
Open Scope Z_scope.

(** A dry run leaves the running configuration as it was, whatever the document, the failures and the other flags. *)
Theorem C62_dry_run : forall (C J : Type) (k : calls C J) cfg memory ia nm fl chunks a,
  config_ok cfg -> Z.testbit fl LF_DRY_RUN = true ->
  exists r w, load k cfg memory ia nm fl chunks a = Some (r, w) /\ w_actual w = a.
Proof.
  intros C J k cfg memory ia nm fl chunks a Hc D. unfold load, init.
  destruct (Z.testbit fl LF_FINI); [eexists _, _; split; reflexivity|].
  destruct (negb memory); [eexists _, _; split; reflexivity|].
  destruct (k_lock k <? 0); [eexists _, _; split; reflexivity|].
  unfold apart. rewrite D. cbn [orb]. destruct (k_clone k (kind fl) a) as [r c]. destruct (r <? 0); [eexists _, _; split; reflexivity|].
  destruct (k_start k fl (k_inhibit k c)) as [r1 j]. destruct (r1 <? 0); [eexists _, _; split; reflexivity|].
  destruct (load_ends cfg _ (cb k fl) (j, k_inhibit k c) chunks Hc) as (code & pos & (j' & c') & E & _).
  destruct (session_ends k cfg ia chunks fl j _ (Some a) code pos _ E) as (s & F & Fl & Ac & En). rewrite F, (fini_ended k cfg s code j' c' En), Ac, Fl, D.
  eexists _, _. split; [rewrite <- surjective_pairing; reflexivity|].
  destruct (fst_norm (if code <? 0 then fini_out k (k_translate k code) a (Some c') else fini_out k 0 a (Some c'))) as (A & _). cbv zeta. rewrite A.
  destruct (code <? 0); apply out_actual.
Qed.
Print Assumptions C62_dry_run.

(** Load-then-commit, success: the whole document has been read into a clone of the running configuration, and that clone
    has taken its place; then insert actions have been run. *)
Theorem C62_commit_success : forall (C J : Type) (k : calls C J) cfg memory ia nm fl chunks a w r,
  config_ok cfg -> ia < 0 -> nm < 0 -> errors_stay_errors k ->
  Z.testbit fl LF_DRY_RUN = false -> Z.testbit fl LF_LOAD_THEN_COMMIT = true ->
  load k cfg memory ia nm fl chunks a = Some (r, w) -> 0 <= r ->
  r = 0 /\
  exists r0 c0 r1 j code c1 r2 a1 old,
    k_clone k (starts_from fl) a = (r0, c0) /\ k_start k fl (k_inhibit k c0) = (r1, j) /\
    reads k cfg fl j (k_inhibit k c0) chunks code c1 /\ 0 <= code /\
    k_exchange k a c1 = (r2, a1, old) /\ 0 <= r2 /\ 0 <= fst (installed k fl a1) /\ w_actual w = snd (installed k fl a1).
Proof.
  intros C J k cfg memory ia nm fl chunks a w r Hc IA NM ES D L E0 Hr. unfold load, init in E0.
  destruct (Z.testbit fl LF_FINI); [injection E0 as <- <-; lia|].
  destruct (negb memory); [injection E0 as <- <-; lia|].
  destruct (k_lock k <? 0) eqn:E1; [injection E0 as <- <-; lia|].
  unfold apart in E0. rewrite D, L in E0. cbn [orb] in E0.
  assert (KF : kind fl = starts_from fl) by (unfold kind, starts_from; destruct (Z.testbit fl LF_NO_FLUSH), (Z.testbit fl LF_FLUSH_ONLY_ROUTES); reflexivity). rewrite KF in E0.
  destruct (k_clone k (starts_from fl) a) as [r0 c0]. destruct (r0 <? 0) eqn:E2; [cbn in E0; injection E0 as <- <-; lia|].
  destruct (k_start k fl (k_inhibit k c0)) as [r1 j] eqn:ST. destruct (r1 <? 0) eqn:E3; [injection E0 as <- <-; lia|].
  destruct (load_ends cfg _ (cb k fl) (j, k_inhibit k c0) chunks Hc) as (code & pos & (j' & c') & E & _).
  destruct (session_ends k cfg ia chunks fl j _ (Some a) code pos _ E) as (s & F & Fl & Ac & En).
  rewrite F, (fini_ended k cfg s code j' c' En), Ac, Fl, D, L in E0. cbv zeta in E0.
  match type of E0 with Some ?x = _ => assert (X : x = (r, w)) by congruence end. clear E0.
  set (res := if code <? 0 then _ else _) in X. destruct (fst_norm res) as (A & _ & _ & _ & M). rewrite X in A, M. cbn [fst snd] in A, M.
  assert (R : 0 <= fst res) by lia. split; [lia|].
  unfold res in A, R. clear X M res. destruct (code <? 0) eqn:E4.
  - exfalso. rewrite out_code in R. specialize (ES code). lia.
  - unfold commit in A, R. destruct (k_exchange k a c') as [[r2 a1] old] eqn:EX.
    exists r0, c0, r1, j, code, c', r2, a1, old. split; [reflexivity|]. split; [exact ST|].
    split; [eexists _, _; exact E|]. split; [lia|]. split; [exact EX|].
    destruct (r2 <? 0) eqn:E5; [rewrite out_code in R; lia|]. split; [lia|]. unfold installed.
    destruct (Z.testbit fl LF_NO_FLUSH); cbn [negb] in A, R.
    + change (0 <? 0) with false in A, R. cbv iota in A, R. destruct (k_bulk_insert k (k_enable k a1)) as [r3 a3]. cbn [fst snd].
      destruct (r3 <? 0) eqn:E6; [rewrite out_code in R; lia|]. split; [lia|]. destruct (k_free k old) as [r4 c4]. rewrite out_actual in A. exact A.
    + destruct (k_bulk_clear k a1) as [r3 a2]. cbn [snd]. destruct (r3 <? 0) eqn:E6; [rewrite out_code in R; lia|].
      destruct (k_flush k old) as [r4 c4]. destruct (r4 <? 0) eqn:E7; [rewrite out_code in R; lia|].
      destruct (k_bulk_insert k (k_enable k a2)) as [r5 a3]. cbn [fst snd]. destruct (r5 <? 0) eqn:E8; [rewrite out_code in R; lia|].
      split; [lia|]. destruct (k_free k c4) as [r6 c6]. rewrite out_actual in A. exact A.
Qed.
Print Assumptions C62_commit_success.

(** Load-then-commit, failure: the running configuration is unchanged.  Missing for the full claim: a failure in the last
    steps, when the new configuration has already been installed (C62_commit_refuted). *)
Theorem C62_commit_failure_partial : forall (C J : Type) (k : calls C J) cfg memory ia nm fl chunks a w r,
  config_ok cfg -> refused_exchange_is_nothing k -> last_steps_succeed k ->
  Z.testbit fl LF_DRY_RUN = false -> Z.testbit fl LF_LOAD_THEN_COMMIT = true ->
  load k cfg memory ia nm fl chunks a = Some (r, w) -> r < 0 -> w_actual w = a.
Proof.
  intros C J k cfg memory ia nm fl chunks a w r Hc XN (LS1 & LS2 & LS3) D L E0 Hr. unfold load, init in E0.
  destruct (Z.testbit fl LF_FINI); [injection E0 as <- <-; reflexivity|].
  destruct (negb memory); [injection E0 as <- <-; reflexivity|].
  destruct (k_lock k <? 0) eqn:E1; [injection E0 as <- <-; reflexivity|].
  unfold apart in E0. rewrite D, L in E0. cbn [orb] in E0.
  destruct (k_clone k (kind fl) a) as [r0 c0]. destruct (r0 <? 0) eqn:E2; [cbn in E0; injection E0 as <- <-; reflexivity|].
  destruct (k_start k fl (k_inhibit k c0)) as [r1 j]. destruct (r1 <? 0) eqn:E3; [injection E0 as <- <-; reflexivity|].
  destruct (load_ends cfg _ (cb k fl) (j, k_inhibit k c0) chunks Hc) as (code & pos & (j' & c') & E & _).
  destruct (session_ends k cfg ia chunks fl j _ (Some a) code pos _ E) as (s & F & Fl & Ac & En).
  rewrite F, (fini_ended k cfg s code j' c' En), Ac, Fl, D, L in E0. cbv zeta in E0.
  match type of E0 with Some ?x = _ => assert (X : x = (r, w)) by congruence end. clear E0.
  set (res := if code <? 0 then _ else _) in X. destruct (fst_norm res) as (A & _ & _ & _ & M). rewrite X in A, M. cbn [fst snd] in A, M.
  assert (R : fst res < 0) by lia. rewrite A. unfold res in *. clear X M A res. destruct (code <? 0) eqn:E4; [apply out_actual|].
  unfold commit in *. destruct (k_exchange k a c') as [[r2 a1] old] eqn:EX.
  destruct (r2 <? 0) eqn:E5; [rewrite out_actual; apply (XN _ _ _ _ _ EX); lia|]. exfalso.
  destruct (Z.testbit fl LF_NO_FLUSH); cbn [negb] in R.
  - change (0 <? 0) with false in R. cbv iota in R. specialize (LS3 (k_enable k a1)). destruct (k_bulk_insert k (k_enable k a1)) as [r3 a3]. cbn [fst] in LS3.
    destruct (r3 <? 0) eqn:E6; [lia|]. destruct (k_free k old) as [r4 c4]. rewrite out_code in R. lia.
  - specialize (LS1 a1). destruct (k_bulk_clear k a1) as [r3 a2]. cbn [fst] in LS1. destruct (r3 <? 0) eqn:E6; [lia|].
    specialize (LS2 old). destruct (k_flush k old) as [r4 c4]. cbn [fst] in LS2. destruct (r4 <? 0) eqn:E7; [lia|].
    specialize (LS3 (k_enable k a2)). destruct (k_bulk_insert k (k_enable k a2)) as [r5 a3]. cbn [fst] in LS3. destruct (r5 <? 0) eqn:E8; [lia|].
    destruct (k_free k c4) as [r6 c6]. rewrite out_code in R. lia.
Qed.
Print Assumptions C62_commit_failure_partial.

(** Loading in place: the running configuration is emptied first (unless the load is incremental) and then is what the
    document, as far as it was read, made of it; the answer tells whether all of it was read. *)
Theorem C62_in_place : forall (C J : Type) (k : calls C J) cfg ia nm fl chunks a r1 j a0,
  config_ok cfg -> errors_stay_errors k -> Z.testbit fl LF_FINI = false ->
  Z.testbit fl LF_DRY_RUN = false -> Z.testbit fl LF_LOAD_THEN_COMMIT = false ->
  0 <= k_lock k -> k_start k fl a = (r1, j) -> 0 <= r1 ->
  (if Z.testbit fl LF_NO_FLUSH then a0 = a
   else exists r2, (if Z.testbit fl LF_FLUSH_ONLY_ROUTES then k_flush_routes k a else k_flush k a) = (r2, a0) /\ 0 <= r2) ->
  exists code a1 r w, reads k cfg fl j a0 chunks code a1 /\ load k cfg true ia nm fl chunks a = Some (r, w) /\
    w_actual w = a1 /\ (r < 0 <-> code < 0) /\ (0 <= code -> r = 0).
Proof.
  intros C J k cfg ia nm fl chunks a r1 j a0 Hc ES NF D L HL ST R1 FL.
  destruct (load_ends cfg _ (cb k fl) (j, a0) chunks Hc) as (code & pos & (j' & a1) & E & _).
  exists code, a1. unfold load, init. rewrite NF. cbn [negb]. destruct (k_lock k <? 0) eqn:E1; [lia|]. unfold apart. rewrite D, L. cbn [orb]. rewrite ST.
  destruct (r1 <? 0) eqn:E2; [lia|]. destruct (session_ends k cfg ia chunks fl j a0 None code pos _ E) as (s & F & Fl & Ac & En).
  assert (X : exists r w, fini k cfg s = Some (r, w) /\ w_actual w = a1 /\ (r < 0 <-> code < 0) /\ (0 <= code -> r = 0)).
  { rewrite (fini_ended k cfg s code j' a1 En), Ac. cbv zeta. unfold fini_out. destruct (code <? 0) eqn:E4; cbn [fst snd].
    - specialize (ES code). destruct (k_translate k code <? 0) eqn:E5; [|lia]. eexists _, _. split; [reflexivity|]. cbn. repeat split; lia.
    - eexists _, _. split; [reflexivity|]. cbn. repeat split; lia. }
  destruct X as (r & w & X & X1 & X2 & X3). exists r, w. split; [eexists _, _; exact E|].
  split; [|split; [exact X1|split; [exact X2|exact X3]]].
  destruct (Z.testbit fl LF_NO_FLUSH).
  - subst a0. rewrite F. exact X.
  - destruct FL as (r2 & FL & R2). rewrite FL. destruct (r2 <? 0) eqn:E5; [lia|]. rewrite F. exact X.
Qed.
Print Assumptions C62_in_place.

(** For a well-formed document the callback gets exactly its members, in order, until it refuses one. *)
Theorem C62_document : forall (C J : Type) (k : calls C J) cfg fl j c doc pieces v,
  config_ok cfg -> List.concat pieces = doc -> not_too_long cfg doc -> document doc v -> JsonSpec.within cfg v ->
  reads k cfg fl j c pieces (fst (deliver (k_event k fl) 0 (j, c) (events v))) (snd (snd (deliver (k_event k fl) 0 (j, c) (events v)))).
Proof.
  intros C J k cfg fl j c doc pieces v Hc <- Hl Hd Hw. destruct (C53_wellformed_pieces_accepted _ cfg (k_event k fl) (j, c) pieces v Hc Hl Hd Hw) as (pos & E).
  exists pos, (fst (snd (deliver (k_event k fl) 0 (j, c) (events v)))). rewrite <- surjective_pairing. exact E.
Qed.
Print Assumptions C62_document.

(** The pieces in which a document is handed over do not matter, and the one-call form does the same. *)
Theorem C62_pieces : forall (C J : Type) (k : calls C J) cfg memory ia nm fl chunks a,
  config_ok cfg -> not_too_long cfg (List.concat chunks) ->
  load k cfg memory ia nm fl chunks a = oneshot k cfg memory ia nm fl (List.concat chunks) a.
Proof.
  intros C J k cfg memory ia nm fl chunks a Hc Hl. unfold load, oneshot. destruct (init k memory ia nm fl a) as [r w|s] eqn:EI; [reflexivity|].
  assert (X : exists j c, s_parser s = inl (json_init (j, c))).
  { unfold init in EI. destruct (Z.testbit fl LF_FINI); [discriminate EI|]. destruct (negb memory); [discriminate EI|].
    destruct (k_lock k <? 0); [discriminate EI|]. destruct (apart fl).
    - destruct (k_clone k (kind fl) a) as [r0 c0]. destruct (r0 <? 0); [discriminate EI|]. destruct (k_start k fl (k_inhibit k c0)) as [r1 j].
      destruct (r1 <? 0); [discriminate EI|]. injection EI as <-. eexists _, _. reflexivity.
    - destruct (k_start k fl a) as [r1 j]. destruct (r1 <? 0); [discriminate EI|].
      destruct (Z.testbit fl LF_NO_FLUSH); [injection EI as <-; eexists _, _; reflexivity|].
      destruct (if Z.testbit fl LF_FLUSH_ONLY_ROUTES then k_flush_routes k a else k_flush k a) as [r2 a2].
      destruct (r2 <? 0); [discriminate EI|]. injection EI as <-. eexists _, _. reflexivity. }
  destruct s as [fl' par ac]. cbn [s_parser] in X. destruct X as (j & c & ->).
  destruct (C52_chunking_irrelevant _ cfg (cb k fl') (j, c) chunks Hc Hl) as (((code & pos) & (j' & c')) & E1 & _ & E3).
  assert (E2 : load_chunks cfg (cb k fl') (j, c) [List.concat chunks] = Some (code, pos, (j', c'))).
  { destruct (C52_chunking_irrelevant _ cfg (cb k fl') (j, c) [List.concat chunks] Hc) as (r & A & _ & B); [cbn [List.concat]; rewrite app_nil_r; exact Hl|].
    cbn [List.concat] in A. rewrite app_nil_r in A. congruence. }
  destruct (session_ends k cfg ia chunks fl' j c ac code pos _ E3) as (s1 & F1 & Fl1 & Ac1 & En1).
  destruct (session_ends k cfg ia [List.concat chunks] fl' j c ac code pos _ E2) as (s2 & F2 & Fl2 & Ac2 & En2).
  rewrite F1. cbn [feeds] in F2. destruct (feed k cfg ia (Session fl' (inl (json_init (j, c))) ac) (List.concat chunks)) as [[r0 s0]|]; [|discriminate F2].
  injection F2 as ->. rewrite (fini_ended k cfg s1 code j' c' En1), (fini_ended k cfg s2 code j' c' En2), Ac1, Ac2, Fl1, Fl2. reflexivity.
Qed.
Print Assumptions C62_pieces.

(** After a failure nothing more is loaded: further feeds are refused and change nothing. *)
Theorem C62_after_failure : forall (C J : Type) (k : calls C J) cfg ia s chunk r s',
  config_ok cfg -> errors_stay_errors k -> feed k cfg ia s chunk = Some (r, s') -> r < 0 -> forall chunk', feed k cfg ia s' chunk' = Some (ia, s').
Proof.
  intros C J k cfg ia s chunk r s' Hc ES E R chunk'. unfold feed in E. destruct (s_parser s) as [p|[r0 u]] eqn:EP.
  - destruct (json_feed cfg (cb k (s_flags s)) p chunk) as [p1|]; [|discriminate E]. destruct (p_err p1 <? 0).
    + destruct (json_fini cfg (cb k (s_flags s)) p1) as [[[r1 pos] u]|]; [|discriminate E]. injection E as <- <-. reflexivity.
    + injection E as <- <-. lia.
  - injection E as <- <-. unfold feed. rewrite EP. reflexivity.
Qed.
Print Assumptions C62_after_failure.

(** A feed answers an error exactly if the session has ended (then, or before), and then the end of the session reports an
    error too. *)
Theorem C62_feed_answers : forall (C J : Type) (k : calls C J) cfg ia s chunk r s',
  config_ok cfg -> errors_stay_errors k -> ia < 0 -> feed k cfg ia s chunk = Some (r, s') -> (0 <= r <-> goes_on s') /\ (0 <= r -> r = 0).
Proof.
  intros C J k cfg ia s chunk r s' Hc ES IA E. unfold feed in E. destruct (s_parser s) as [p|[r0 u]] eqn:EP.
  - destruct (json_feed cfg (cb k (s_flags s)) p chunk) as [p1|]; [|discriminate E]. destruct (p_err p1 <? 0) eqn:PE.
    + destruct (json_fini cfg (cb k (s_flags s)) p1) as [[[r1 pos] u]|] eqn:FI; [|discriminate E]. injection E as <- <-.
      assert (R1 : r1 < 0) by (exact (fini_of_failed _ _ _ _ _ _ _ FI PE)). specialize (ES r1 R1). split; [split; [lia|intros (q & Q); discriminate Q]|lia].
    + injection E as <- <-. split; [split; [intros _; exists p1; reflexivity|lia]|lia].
  - injection E as <- <-. split; [split; [lia|intros (q & Q); rewrite EP in Q; discriminate Q]|lia].
Qed.
Print Assumptions C62_feed_answers.

(** Whatever the outcome, at the end the context is unlocked and clone and process state are released.  Missing: a lock that
    is refused, a default configuration that cannot be read and a clone that cannot be freed (C62_release_refuted). *)
Theorem C62_release_partial : forall (C J : Type) (k : calls C J) cfg memory ia nm fl chunks a r w,
  config_ok cfg -> 0 <= k_lock k -> (forall c, 0 <= fst (k_start k fl c)) -> (forall c, 0 <= fst (k_free k c)) ->
  load k cfg memory ia nm fl chunks a = Some (r, w) -> w_clone w = None /\ w_state w = false /\ w_locked w = false.
Proof.
  intros C J k cfg memory ia nm fl chunks a r w Hc HL HS HF E0. unfold load, init in E0.
  destruct (Z.testbit fl LF_FINI); [injection E0 as <- <-; repeat split|].
  destruct (negb memory); [injection E0 as <- <-; repeat split|].
  destruct (k_lock k <? 0) eqn:E1; [lia|].
  assert (Y : forall j c ac, match feeds k cfg ia (Session fl (inl (json_init (j, c))) ac) chunks with None => None | Some s => fini k cfg s end = Some (r, w) ->
    w_clone w = None /\ w_state w = false /\ w_locked w = false).
  { intros j c ac X. destruct (load_ends cfg _ (cb k fl) (j, c) chunks Hc) as (code & pos & (j' & c') & E & _).
    destruct (session_ends k cfg ia chunks fl j c ac code pos _ E) as (s & F & Fl & Ac & En).
    rewrite F, (fini_ended k cfg s code j' c' En) in X. cbv zeta in X. match type of X with Some ?x = _ => assert (Z0 : x = (r, w)) by congruence end. clear X.
    set (res := if code <? 0 then _ else _) in Z0. destruct (fst_norm res) as (_ & B & S1 & S2 & _). rewrite Z0 in B, S1, S2. cbn [snd] in B, S1, S2. rewrite B, S1, S2.
    unfold res. destruct (code <? 0); destruct (s_actual s) as [a1|].
    1,2,4: split; [apply out_clone; exact HF|apply out_released].
    destruct (Z.testbit (s_flags s) LF_DRY_RUN); [split; [apply out_clone; exact HF|apply out_released]|].
    destruct (Z.testbit (s_flags s) LF_LOAD_THEN_COMMIT); [split; [apply commit_clone; exact HF|apply commit_released]|].
    split; [apply out_clone; exact HF|apply out_released]. }
  destruct (apart fl).
  - destruct (k_clone k (kind fl) a) as [r0 c0]. destruct (r0 <? 0); [cbn in E0; injection E0 as <- <-; repeat split|].
    specialize (HS (k_inhibit k c0)). destruct (k_start k fl (k_inhibit k c0)) as [r1 j]. cbn [fst] in HS. destruct (r1 <? 0) eqn:E3; [lia|].
    exact (Y _ _ _ E0).
  - specialize (HS a). destruct (k_start k fl a) as [r1 j]. cbn [fst] in HS. destruct (r1 <? 0) eqn:E3; [lia|].
    destruct (Z.testbit fl LF_NO_FLUSH); [exact (Y _ _ _ E0)|].
    destruct (if Z.testbit fl LF_FLUSH_ONLY_ROUTES then k_flush_routes k a else k_flush k a) as [r2 a2]. destruct (r2 <? 0); [cbn in E0; injection E0 as <- <-; repeat split|].
    exact (Y _ _ _ E0).
Qed.
Print Assumptions C62_release_partial.

(** ** What the documentation says and the code does not do *)

(** A context as the list of its routes and whether its actions are inhibited; every number in the document is a route, and
    the insert action of route [bad] fails. *)
Definition toy (lock start bad : Z) : calls (list Z * bool) unit :=
  Calls lock
    (fun kd c => (0, match kd with CloneAll => c | _ => ([], snd c) end))
    (fun c => (fst c, true)) (fun c => (fst c, false))
    (fun _ _ => (start, tt))
    (fun c => (0, ([], snd c))) (fun c => (0, ([], snd c)))
    (fun a c => (0, c, a))
    (fun a => (0, a))
    (fun a => (if existsb (Z.eqb bad) (fst a) then -99 else 0, a))
    (fun c => (0, c))
    (fun _ t d u => match t with JSON_NUMBER => (0, (fst u, (fst (snd u) ++ d, snd (snd u)))) | _ => (0, u) end)
    (fun r => r).
Definition cfg0 : jconfig := JConfig 0 0 20 16384 32 16 15.
(** [7] *)
Definition doc7 : list Z := [91; 55; 93].

(** A failing insert action makes load-then-commit answer an error with the new configuration already running: the
    documentation's "On error, running configuration is unchanged" does not hold. *)
Theorem C62_commit_refuted : exists (C J : Type) (k : calls C J) fl doc a r w,
  refused_exchange_is_nothing k /\ errors_stay_errors k /\ Z.testbit fl LF_LOAD_THEN_COMMIT = true /\
  oneshot k cfg0 true (-1) (-2) fl doc a = Some (r, w) /\ r < 0 /\ w_actual w <> a.
Proof.
  exists (list Z * bool)%type, unit, (toy 0 0 55), 4, doc7, ([1; 2], false), (-99), (World ([55], false) None false false).
  split; [intros a c r a' c' E; injection E as <- <- <-; lia|]. split; [intros r; exact (fun x => x)|]. split; [reflexivity|].
  split; [vm_compute; reflexivity|]. split; [lia|discriminate].
Qed.
Print Assumptions C62_commit_refuted.

(** The same if the old configuration cannot be emptied; then, moreover, the running configuration is left with its actions
    switched off. *)
Definition toy_stuck : calls (list Z * bool) unit :=
  let k := toy 0 0 0 in
  Calls 0 (k_clone k) (k_inhibit k) (k_enable k) (k_start k) (fun c => (-98, c)) (k_flush_routes k) (k_exchange k) (k_bulk_clear k) (k_bulk_insert k) (k_free k) (k_event k) (k_translate k).
Theorem C62_inhibited_refuted : exists (k : calls (list Z * bool) unit) fl doc a r w,
  (forall c, snd (k_enable k c) = false) /\ (forall c, snd (k_inhibit k c) = true) /\
  Z.testbit fl LF_LOAD_THEN_COMMIT = true /\
  oneshot k cfg0 true (-1) (-2) fl doc a = Some (r, w) /\ r < 0 /\ snd a = false /\ snd (w_actual w) = true.
Proof.
  exists toy_stuck, 4, doc7, ([1; 2], false), (-98), (World ([55], true) None false false).
  split; [intros c; reflexivity|]. split; [intros c; reflexivity|]. split; [reflexivity|]. split; [vm_compute; reflexivity|]. split; [lia|]. split; reflexivity.
Qed.
Print Assumptions C62_inhibited_refuted.

(** Init gives up without releasing what it has: the process state if the lock is refused, all of it and the lock if the
    default configuration cannot be read. *)
Theorem C62_release_refuted :
  (exists (k : calls (list Z * bool) unit) fl doc a r w, oneshot k cfg0 true (-1) (-2) fl doc a = Some (r, w) /\ r < 0 /\ w_state w = true) /\
  (exists (k : calls (list Z * bool) unit) fl doc a r w, 0 <= k_lock k /\ oneshot k cfg0 true (-1) (-2) fl doc a = Some (r, w) /\
     w_locked w = true /\ w_state w = true /\ w_clone w <> None).
Proof.
  split.
  - exists (toy (-97) 0 0), 4, doc7, ([1; 2], false), (-97), (World ([1; 2], false) None true false). split; [vm_compute; reflexivity|]. split; [lia|reflexivity].
  - exists (toy 0 (-96) 0), 4, doc7, ([1; 2], false), (-96), (World ([1; 2], false) (Some ([], true)) true true).
    split; [cbn; lia|]. split; [vm_compute; reflexivity|]. split; [reflexivity|]. split; [reflexivity|discriminate].
Qed.
Print Assumptions C62_release_refuted.

(** The theorems apply: a dry run, a commit and a load in place of the same document, and a broken document. *)
Example C62_example :
  oneshot (toy 0 0 0) cfg0 true (-1) (-2) 2 doc7 ([1; 2], false) = Some (0, World ([1; 2], false) None false false) /\
  oneshot (toy 0 0 0) cfg0 true (-1) (-2) 4 doc7 ([1; 2], false) = Some (0, World ([55], false) None false false) /\
  oneshot (toy 0 0 0) cfg0 true (-1) (-2) 5 doc7 ([1; 2], false) = Some (0, World ([1; 2; 55], false) None false false) /\
  oneshot (toy 0 0 0) cfg0 true (-1) (-2) 1 doc7 ([1; 2], false) = Some (0, World ([1; 2; 55], false) None false false) /\
  oneshot (toy 0 0 0) cfg0 true (-1) (-2) 0 doc7 ([1; 2], false) = Some (0, World ([55], false) None false false) /\
  oneshot (toy 0 0 0) cfg0 true (-1) (-2) 4 (doc7 ++ [93]) ([1; 2], false) = Some (ERR_EXPECTEDEOF, World ([1; 2], false) None false false) /\
  config_ok cfg0.
Proof. do 6 (split; [vm_compute; reflexivity|]). unfold config_ok; cbn; lia. Qed.
