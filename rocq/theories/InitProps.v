(** C79: starting a context. *)
From Coq Require Import Permutation.
From Verif Require Import Base Table RouteKey EventConfig EventConfigSpec EventConfigProofs TimeConv Init InitSpec InitProofs.
Open Scope N_scope.

(** The settings of a caller are accepted exactly if the versions are the same, the caller knows no flags that the library does not know, and
    all flags that change the layout of structures agree. *)
Theorem C79_settings : forall lib caller, config caller < 2 ^ 32 -> (compatible lib caller = Code OK <-> compatible_builds lib caller).
Proof. exact compatible_spec. Qed.

Lemma the_allocator_spec lib hpi a : the_allocator lib hpi = Some a <-> uses_allocator lib hpi a.
Proof.
  unfold the_allocator. split.
  - destruct hpi as [p|].
    + destruct (a_malloc (p_alloc p)) eqn:M; [intros H; injection H as <-; constructor; exact M|].
      destruct (N.testbit (config lib) 4) eqn:T; [|discriminate]. intros H; injection H as <-. constructor; [exact T|]. intros q Q. injection Q as <-. exact M.
    + destruct (N.testbit (config lib) 4) eqn:T; [|discriminate]. intros H; injection H as <-. constructor; [exact T|]. intros q Q. discriminate.
  - intros [p M|h T F]; [rewrite M; reflexivity|]. destruct h as [p|]; [rewrite (F p eq_refl)|]; rewrite T; reflexivity.
Qed.
Lemma the_timecbs_spec lib hpi u t : (exists from, the_timecbs lib hpi u = Some (t, from)) <-> uses_timecbs lib hpi t.
Proof.
  unfold the_timecbs. split.
  - intros [from H]. destruct hpi as [p|].
    + destruct (t_get (p_time p)) eqn:M; [injection H as <- <-; constructor; exact M|].
      destruct (N.testbit (config lib) 3) eqn:T; [|discriminate]. injection H as <- <-. constructor; [exact T|]. intros q Q. injection Q as <-. exact M.
    + destruct (N.testbit (config lib) 3) eqn:T; [|discriminate]. injection H as <- <-. constructor; [exact T|]. intros q Q. discriminate.
  - intros [p M|h T F]; [rewrite M; eexists; reflexivity|]. destruct h as [p|]; [rewrite (F p eq_refl)|]; rewrite T; eexists; reflexivity.
Qed.
Lemma timecbs_fun lib hpi t t' : uses_timecbs lib hpi t -> uses_timecbs lib hpi t' -> t = t'.
Proof. intros [p M|h T F] H; inversion H as [q M' E|h' T' F' E]; subst; try reflexivity. - rewrite (F' p eq_refl) in M. discriminate. - rewrite (F q eq_refl) in M'. discriminate. Qed.
Lemma same_settings_spec p caller :
  (negb (version (p_settings p) =? 0) || negb (config (p_settings p) =? 0)) && (negb (version (p_settings p) =? version caller) || negb (config (p_settings p) =? config caller)) = false
  <-> p_settings p = mkS 0 0 \/ p_settings p = caller.
Proof.
  destruct (p_settings p) as [v c], caller as [v' c']. cbn [version config].
  destruct (N.eqb_spec v 0), (N.eqb_spec c 0), (N.eqb_spec v v'), (N.eqb_spec c c'); cbn; split; intros H; subst;
    try discriminate H; try reflexivity; try (left; reflexivity); try (right; reflexivity); try (destruct H as [H|H]; injection H; intros; congruence).
Qed.
Lemma init_cases off lib caller hpi conf grants sems u : typed_call caller conf ->
  (acceptable off lib caller hpi conf /\ exists t from, the_timecbs lib hpi u = Some (t, from) /\ init off lib caller hpi conf grants sems u = build_context off lib conf grants sems from start) \/
  (~ acceptable off lib caller hpi conf /\ exists e, e <> Code OK /\ init off lib caller hpi conf grants sems u = (e, start, None)).
Proof.
  intros (TC & TY). unfold init, acceptable. assert (CS := compatible_spec lib caller TC).
  destruct (compatible lib caller) as [e| |] eqn:CE; [|right; split; [intros (X & _); apply CS in X; discriminate|eexists; split; [|reflexivity]; discriminate]..].
  destruct (err_eq_dec e OK) as [->|NE]; [|right; split; [intros (X & _); apply CS in X; congruence|exists (Code e); split; [congruence|]; destruct e; try reflexivity; congruence]].
  assert (CB := proj1 CS eq_refl). clear CS CE.
  destruct (match hpi with Some p => _ | None => false end) eqn:HS.
  { right. split; [|eexists; split; [|reflexivity]; discriminate]. intros (_ & X & _). destruct hpi as [p|]; [|discriminate]. rewrite (proj2 (same_settings_spec p caller) (X p eq_refl)) in HS. discriminate. }
  assert (HS' : forall p, hpi = Some p -> p_settings p = mkS 0 0 \/ p_settings p = caller) by (intros p ->; apply same_settings_spec; exact HS). clear HS.
  assert (CC : (match conf with Some c => check_conf off c | None => OK end) = OK <-> forall c, conf = Some c -> consistent off c).
  { destruct conf as [c|]; [|split; [intros _ c X; discriminate|reflexivity]]. destruct (TY c eq_refl) as [T W]. rewrite (check_consistent off c T W). split; [intros X c' E; injection E as <-; exact X|intros X; apply X; reflexivity]. }
  destruct (err_eq_dec (match conf with Some c => check_conf off c | None => OK end) OK) as [K|K].
  2: { right. split; [intros (_ & _ & X & _); apply K, CC; exact X|]. eexists (Code _). split; [intros X; injection X; exact K|]. destruct (match conf with Some c => check_conf off c | None => OK end); try reflexivity. congruence. }
  rewrite K. assert (CO := proj1 CC K). clear CC K.
  assert (AS := the_allocator_spec lib hpi). destruct (the_allocator lib hpi) as [a|].
  2: { right. split; [intros (_ & _ & _ & (a & X & _) & _); apply AS in X; discriminate|]. eexists. split; [|reflexivity]. discriminate. }
  assert (UA := proj1 (AS a) eq_refl).
  assert (UF : forall a', uses_allocator lib hpi a' -> a' = a) by (intros a' X; apply AS in X; congruence). clear AS.
  destruct (negb (a_malloc a) || negb (a_free a) || negb (a_realloc a)) eqn:A1.
  { right. split; [|eexists; split; [|reflexivity]; discriminate]. intros (_ & _ & _ & (a' & X & (Y1 & Y2 & Y3 & _) & _) & _). apply UF in X; subst a'. rewrite Y1, Y2, Y3 in A1. discriminate. }
  destruct (xorb (negb (a_memalign a)) (negb (a_free_aligned a))) eqn:A2.
  { right. split; [|eexists; split; [|reflexivity]; discriminate]. intros (_ & _ & _ & (a' & X & (_ & _ & _ & Y) & _) & _). apply UF in X; subst a'. destruct (a_memalign a), (a_free_aligned a); cbn in A2; try discriminate; destruct Y as [Y1 Y2]; [specialize (Y1 eq_refl)|specialize (Y2 eq_refl)]; discriminate. }
  assert (AC : complete_allocator a).
  { unfold complete_allocator. destruct (a_malloc a), (a_free a), (a_realloc a), (a_memalign a), (a_free_aligned a); cbn in *; try discriminate; repeat split; tauto. }
  clear A1 A2. assert (TS := the_timecbs_spec lib hpi u). destruct (the_timecbs lib hpi u) as [[t from]|].
  2: { right. split; [intros (_ & _ & _ & _ & (t & X & _)); apply TS in X; destruct X; discriminate|]. eexists. split; [|reflexivity]. discriminate. }
  assert (UT := proj1 (TS t) (ex_intro _ from eq_refl)). clear TS.
  destruct (negb (t_get t) || negb (t_diff t) || negb (t_add t) || negb (t_to t) || negb (t_from t) || negb (t_ito t) || negb (t_ifrom t)) eqn:T1.
  { right. split; [|eexists; split; [|reflexivity]; discriminate]. intros (_ & _ & _ & _ & (t' & X & (Y1 & Y2 & Y3 & Y4 & Y5 & Y6 & Y7))). rewrite (timecbs_fun _ _ _ _ X UT) in *. rewrite Y1, Y2, Y3, Y4, Y5, Y6, Y7 in T1. discriminate. }
  assert (TCm : complete_timecbs t).
  { unfold complete_timecbs. destruct (t_get t), (t_diff t), (t_add t), (t_to t), (t_from t), (t_ito t), (t_ifrom t); cbn in T1; try discriminate. repeat split. }
  clear T1.
  destruct (negb (a_memalign a) && match conf with Some c => 0 <? e_align c | None => false end) eqn:M.
  { right. split; [|eexists; split; [|reflexivity]; discriminate]. intros (_ & _ & _ & (a' & X & _ & Y) & _). apply UF in X; subst a'. destruct (a_memalign a); [discriminate|]. destruct conf as [c|]; [|discriminate].
    specialize (Y eq_refl c eq_refl). rewrite Y in M. discriminate. }
  left. split; [|exists t, from; split; reflexivity]. split; [exact CB|]. split; [exact HS'|]. split; [exact CO|]. split; [|exists t; split; assumption].
  exists a. split; [exact UA|]. split; [exact AC|]. intros Y c ->. rewrite Y in M. cbn in M. destruct (N.ltb_spec 0 (e_align c)); [discriminate|lia].
Qed.

Lemma load_conf off lib caller hpi conf : typed_call caller conf -> acceptable off lib caller hpi conf ->
  exists i, load off conf (mkI zero_econf 0) = (OK, i) /\ get_conf i = (match conf with Some c => c | None => zero_econf end) /\ e_size (ic i) < szmod /\
    (small_area conf -> e_size (ic i) <= 65535) /\ (forall c, conf = Some c -> 65535 < e_size c -> e_size (ic i) = e_size c).
Proof.
  intros (_ & TY) (_ & _ & CO & _). destruct conf as [c|].
  - destruct (TY c eq_refl) as [T W]. destruct (load_ok off c T W (CO c eq_refl)) as (i & L & G & B & S1 & S2). exists i. split; [exact L|]. split; [exact G|]. split; [exact B|]. split; [intros S; apply S1, S; reflexivity|].
    intros c' E. injection E as <-. exact S2.
  - eexists. split; [reflexivity|]. split; [reflexivity|]. split; [reflexivity|]. split; [intros _; cbn; lia|intros c E; discriminate].
Qed.
Definition below_4G (conf : option econf) : Prop := forall c, conf = Some c -> e_size c < 2 ^ 32.
Lemma area_cases off lib caller hpi conf i : typed_call caller conf -> acceptable off lib caller hpi conf -> below_4G conf -> load off conf (mkI zero_econf 0) = (OK, i) ->
  e_size (ic i) < 2 ^ 32 /\ (e_size (ic i) <= 65535 <-> small_area conf).
Proof.
  intros T A B L. destruct (load_conf off lib caller hpi conf T A) as (i' & L' & _ & _ & S1 & S2). rewrite L in L'. injection L' as <-.
  destruct conf as [c|].
  - destruct (N.leb_spec (e_size c) 65535) as [S|S].
    + assert (SA : small_area (Some c)) by (intros c' E; injection E as <-; exact S). specialize (S1 SA). split; [lia|tauto].
    + specialize (S2 c eq_refl S). specialize (B c eq_refl). rewrite S2. split; [exact B|]. split; [lia|]. intros SA. specialize (SA c eq_refl). lia.
  - injection L as <-. split; [reflexivity|]. split; [intros _ c E; discriminate|intros _; cbn; lia].
Qed.

(** Arguments that do not fit are refused before anything is allocated, and the caller's variable keeps its value. *)
Theorem C79_refused : forall off lib caller hpi conf grants sems u, typed_call caller conf -> ~ acceptable off lib caller hpi conf ->
  exists e w, init off lib caller hpi conf grants sems u = (e, w, None) /\ e <> Code OK /\ asked w = 0%nat /\ live w = [] /\ Init.out w = AsBefore.
Proof.
  intros off lib caller hpi conf grants sems u T NA. destruct (init_cases off lib caller hpi conf grants sems u T) as [(A & _)|(_ & e & E & I)]; [contradiction|].
  exists e, start. split; [exact I|]. split; [exact E|]. repeat split.
Qed.
(** Otherwise a context is made exactly if every request to the allocator is granted, the semaphores of its lock can be made, and the private
    areas have at most 65535 bytes; the caller then has the new context, whose blocks are exactly the ones asked for, and its lock is free. *)
Theorem C79_started_partial : forall off lib caller hpi conf grants sems u, typed_call caller conf -> below_4G conf -> off <= 65535 ->
  ((exists w i, init off lib caller hpi conf grants sems u = (Code OK, w, Some i)) <->
   acceptable off lib caller hpi conf /\ granted lib grants /\ (threadsafe lib = true -> is_success sems = true) /\ small_area conf) /\
  forall w i, init off lib caller hpi conf grants sems u = (Code OK, w, Some i) ->
    Permutation (live w) (all_blocks lib) /\ asked w = length (all_blocks lib) /\ Init.out w = NewContext /\ (threadsafe lib = true -> lk w = Unlocked).
Proof.
  intros off lib caller hpi conf grants sems u T B O.
  destruct (init_cases off lib caller hpi conf grants sems u T) as [(A & t & from & _ & I)|(NA & e & E & I)].
  2: { rewrite I. split; [|intros w i X; injection X; intros; congruence]. split; [intros (w & i & X); injection X; intros; congruence|]. intros (A & _). contradiction. }
  destruct (load_conf off lib caller hpi conf T A) as (i & L & _). destruct (area_cases off lib caller hpi conf i T A B L) as [S4 SA].
  rewrite I. destruct (build_cases off lib conf grants sems from i O L S4) as [(G & SE & SZ & w & R & P & Q & N & K)|(NG & e & w & R & F & _)].
  - rewrite R. split.
    + split; [intros _|intros _; eexists _, _; reflexivity]. split; [exact A|]. split; [exact G|]. split; [exact SE|]. apply SA, SZ.
    + intros w' i' X. injection X as <- <-. split; [exact P|]. rewrite count_blocks. split; [exact N|]. split; [exact Q|]. intros TS. rewrite TS in K. exact K.
  - rewrite R. split; [|intros w' i' X; discriminate]. split; [intros (w' & i' & X); discriminate|]. intros (_ & G & SE & SM). exfalso. apply NG. split; [exact G|]. split; [exact SE|]. apply SA, SM.
Qed.

Lemma conversion lib hpi u t from s : the_timecbs lib hpi u = Some (t, from) -> expressible hpi u s -> converts lib hpi u s (converted from s).
Proof.
  unfold the_timecbs, converted. intros H [(p & -> & M & X)|(N & R)].
  - rewrite M in H. injection H as <- <-. destruct (u s) as [r|] eqn:E; [|congruence]. apply (cv_user _ _ _ _ _ p); [reflexivity|exact M|exact E].
  - apply cv_lib; [exact N|]. assert (X : from_epoch_time s 0 = TOk (s * 1000000)%Z).
    { unfold from_epoch_time, in_i64. change (Z.quot i64_max 1000000) with 9223372036854%Z. change (Z.quot 0 1000) with 0%Z. rewrite Z.add_0_r. unfold i64_min, i64_max. destruct (Z.gtb_spec s 9223372036854); [lia|].
      destruct (Z.leb_spec (-9223372036854775808) (s * 1000000)); [|lia]. destruct (Z.leb_spec (s * 1000000) 9223372036854775807); [reflexivity|lia]. }
    destruct hpi as [p|]; [rewrite (N p eq_refl) in H|]; (destruct (N.testbit (config lib) 3); [|discriminate]); injection H as <- <-; rewrite X; reflexivity.
Qed.
(** The new context has the given configuration (or zeros), with the durations converted from seconds. *)
Theorem C79_configuration_partial : forall off lib caller hpi conf grants sems u w i, typed_call caller conf ->
  let c := match conf with Some c => c | None => zero_econf end in
  init off lib caller hpi conf grants sems u = (Code OK, w, Some i) -> expressible hpi u (e_box c) -> expressible hpi u (e_idle c) ->
  exists box idle, converts lib hpi u (e_box c) box /\ converts lib hpi u (e_idle c) idle /\
    get_conf i = mkE (e_size c) (e_align c) (e_max_conns c) (e_threshold c) box idle (e_flags c) (e_radd c) (e_rclr c) (e_fset c) (e_funset c) (e_badd c) (e_bclr c).
Proof.
  intros off lib caller hpi conf grants sems u w i T c R XB XI.
  destruct (init_cases off lib caller hpi conf grants sems u T) as [(A & t & from & TB & I)|(NA & e & E & I)]; [|rewrite I in R; injection R; intros; congruence].
  destruct (load_conf off lib caller hpi conf T A) as (j & L & G & _). rewrite I in R. clear I.
  exists (converted from (e_box c)), (converted from (e_idle c)). split; [exact (conversion _ _ _ _ _ _ TB XB)|]. split; [exact (conversion _ _ _ _ _ _ TB XI)|].
  assert (V : i = with_times from j).
  { unfold build_context in R. rewrite L in R. cbn [is_success negb] in R.
    repeat match type of R with
    | context [let (e, w) := ?x in _] => destruct x as [? ?]
    | context [if ?b then _ else _] => destruct b
    end; try discriminate R. injection R as _ <-. reflexivity. }
  subst i. unfold c in *. rewrite <- G. destruct j as [jc jp]; destruct jc; reflexivity.
Qed.

(** A call that fails in a library without threads leaves nothing behind: all memory is given back, and the caller does not get a context. *)
Theorem C79_failed_partial : forall off lib caller hpi conf grants sems u e w, typed_call caller conf -> below_4G conf -> off <= 65535 -> threadsafe lib = false ->
  init off lib caller hpi conf grants sems u = (e, w, None) -> e <> Code OK /\ live w = [] /\ Init.out w <> NewContext.
Proof.
  intros off lib caller hpi conf grants sems u e w T B O TS R.
  destruct (init_cases off lib caller hpi conf grants sems u T) as [(A & t & from & _ & I)|(NA & e' & E & I)].
  2: { rewrite I in R. injection R as <- <-. split; [exact E|]. split; [reflexivity|discriminate]. }
  destruct (load_conf off lib caller hpi conf T A) as (i & L & _). destruct (area_cases off lib caller hpi conf i T A B L) as [S4 _]. rewrite I in R.
  destruct (build_cases off lib conf grants sems from i O L S4) as [(_ & _ & _ & w' & R' & _)|(_ & e' & w' & R' & F & C & _)]; rewrite R' in R; [discriminate|].
  injection R as <- <-. destruct (C TS) as [C1 C2]. split; [intros X; injection X as ->; discriminate|]. split; [exact C1|rewrite C2; discriminate].
Qed.
(** In a library with threads it is the other way round: once the first block has been granted, every failure leaves the context allocated
    and in the caller's variable, because the cleanup asks for the context's mutex, which nobody holds. *)
Theorem C79_abandoned : forall off lib caller hpi conf grants sems u e w, typed_call caller conf -> below_4G conf -> off <= 65535 -> threadsafe lib = true ->
  acceptable off lib caller hpi conf -> grants 0%nat = true ->
  init off lib caller hpi conf grants sems u = (e, w, None) -> In Context (live w) /\ Init.out w = NewContext.
Proof.
  intros off lib caller hpi conf grants sems u e w T B O TS A G0 R.
  destruct (init_cases off lib caller hpi conf grants sems u T) as [(_ & t & from & _ & I)|(NA & _)]; [|contradiction].
  destruct (load_conf off lib caller hpi conf T A) as (i & L & _). destruct (area_cases off lib caller hpi conf i T A B L) as [S4 _]. rewrite I in R.
  destruct (build_cases off lib conf grants sems from i O L S4) as [(_ & _ & _ & w' & R' & _)|(_ & e' & w' & R' & F & _ & C & _)]; rewrite R' in R; [discriminate|].
  injection R as <- <-. specialize (C TS). rewrite G0 in C. exact C.
Qed.

(** a build: version 1.6.2, threads, clock, allocator, error strings, protocol names, JSON trees *)
Definition lib0 : settings := mkS 67074 639.
Definition lib1 : settings := mkS 67074 635.
Lemma lib_accepts lib conf : In lib [lib0; lib1] -> (forall c, conf = Some c -> consistent 144 c) -> acceptable 144 lib lib None conf.
Proof.
  intros L C. split; [|split; [intros p H; discriminate|split; [exact C|]]].
  - apply C79_settings; destruct L as [<-|[<-|[]]]; reflexivity.
  - assert (B : N.testbit (config lib) 4 = true /\ N.testbit (config lib) 3 = true) by (destruct L as [<-|[<-|[]]]; split; reflexivity). destruct B as [B4 B3]. split.
    + eexists. split; [apply ua_lib; [exact B4|intros p H; discriminate]|]. split; [repeat split|]. intros X; discriminate X.
    + eexists. split; [apply ut_lib; [exact B3|intros p H; discriminate]|]. repeat split.
Qed.
Definition conf0 : econf := mkE 100 64 5 10 60 3600 1 1048576 2097152 1 2 4 8.
Definition big_area : econf := mkE 70000 0 5 10 60 3600 1 1048576 2097152 1 2 4 8.
Definition long_penalty : econf := mkE 100 64 5 10 10000000000000 3600 1 1048576 2097152 1 2 4 8.
Definition cut_area : econf := mkE 4294967297 0 5 10 60 3600 1 1048576 2097152 1 2 4 8.
Lemma conf_ok c : In c [conf0; big_area; long_penalty; cut_area] -> consistent 144 c.
Proof. intros [<-|[<-|[<-|[<-|[]]]]]; (apply check_consistent; [split; reflexivity|reflexivity|vm_compute; reflexivity]). Qed.

(** "A failed call leaves nothing behind" is false with threads: the second request is not granted. *)
Theorem C79_leak_refuted : exists lib conf grants w, acceptable 144 lib lib None conf /\ granted lib (fun _ => true) /\
  init 144 lib lib None conf grants OK (fun _ => None) = (Code SYS_RESOURCE_FAILED, w, None) /\ live w = [Context] /\ Init.out w = NewContext.
Proof.
  exists lib0, (Some conf0), (fun n => Nat.eqb n 0). eexists. split; [apply lib_accepts; [left; reflexivity|intros c E; injection E as <-; apply conf_ok; left; reflexivity]|].
  split; [intros n _; reflexivity|]. vm_compute. repeat split; reflexivity.
Qed.
(** "With a configuration that the check accepts, and memory enough, a context can be made" is false: the size of an area without alignment is not checked. *)
Theorem C79_big_area_refuted : exists lib c w, acceptable 144 lib lib None (Some c) /\
  init 144 lib lib None (Some c) (fun _ => true) OK (fun _ => None) = (Code NUMERIC_ARG_TOO_BIG, w, None) /\ Init.out w = NewContext.
Proof.
  exists lib0, big_area. eexists. split; [apply lib_accepts; [left; reflexivity|intros c E; injection E as <-; apply conf_ok; right; left; reflexivity]|]. vm_compute. split; reflexivity.
Qed.
(** "Private areas above 65535 bytes are refused" is false from 4 GiB on: the size is cut to 32 bits first. *)
Theorem C79_cut_area_refuted : exists lib c w i, acceptable 144 lib lib None (Some c) /\ ~ small_area (Some c) /\
  init 144 lib lib None (Some c) (fun _ => true) OK (fun _ => None) = (Code OK, w, Some i).
Proof.
  exists lib0, cut_area. eexists _, _. split; [apply lib_accepts; [left; reflexivity|intros c E; injection E as <-; apply conf_ok; do 3 right; left; reflexivity]|].
  split; [intros S; specialize (S _ eq_refl); cbn in S; lia|]. vm_compute. reflexivity.
Qed.
(** "Durations are converted from seconds, or the call fails" is false: ten million million seconds become as many microseconds. *)
Theorem C79_duration_refuted : exists lib c w i, acceptable 144 lib lib None (Some c) /\
  init 144 lib lib None (Some c) (fun _ => true) OK (fun _ => None) = (Code OK, w, Some i) /\ e_box c = 10000000000000%Z /\ e_box (ic i) = 10000000000000%Z /\ e_idle (ic i) = (e_idle c * 1000000)%Z.
Proof.
  exists lib0, long_penalty. eexists _, _. split; [apply lib_accepts; [left; reflexivity|intros c E; injection E as <-; apply conf_ok; do 2 right; left; reflexivity]|].
  split; [vm_compute; reflexivity|]. vm_compute. repeat split; reflexivity.
Qed.

Example C79_case : exists w i, typed_call lib0 (Some conf0) /\ below_4G (Some conf0) /\ acceptable 144 lib0 lib0 None (Some conf0) /\
  init 144 lib0 lib0 None (Some conf0) (fun _ => true) OK (fun _ => None) = (Code OK, w, Some i) /\ length (live w) = 9%nat /\ e_box (ic i) = 60000000%Z /\
  expressible None (fun _ => None) 60 /\ threadsafe lib1 = false /\
  exists w', init 144 lib1 lib1 None (Some conf0) (fun n => Nat.ltb n 7) OK (fun _ => None) = (Code SYS_RESOURCE_FAILED, w', None) /\ live w' = [] /\ Init.out w' = Null.
Proof.
  eexists _, _. split; [split; [reflexivity|intros c E; injection E as <-; split; [split; reflexivity|reflexivity]]|]. split; [intros c E; injection E as <-; reflexivity|].
  split; [apply lib_accepts; [left; reflexivity|intros c E; injection E as <-; apply conf_ok; left; reflexivity]|]. split; [vm_compute; reflexivity|]. split; [reflexivity|]. split; [reflexivity|].
  split; [right; split; [intros p E; discriminate|lia]|]. split; [reflexivity|]. eexists. split; [vm_compute; reflexivity|]. split; reflexivity.
Qed.
Example C79_mismatch : compatible lib0 lib1 = LIBCONFIG_MISMATCH /\ compatible lib0 (mkS 67073 639) = LIB_MISMATCH /\ compatible lib0 (mkS 67074 17023) = Code INVALID_ARG /\
  compatible lib0 (mkS 0 639) = Code INVALID_ARG /\ compatible lib0 (mkS 67074 614) = Code OK /\ ~ acceptable 144 lib0 lib1 None None.
Proof. repeat (split; [vm_compute; reflexivity|]). intros (X & _). apply C79_settings in X; [|reflexivity]. vm_compute in X. discriminate. Qed.
