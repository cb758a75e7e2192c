(** C42: cleanup hooks.  Handlers are arbitrary programs of cleanup calls ([beh h] lists the calls of hook h). *)
From Verif Require Import Base Links LinksProofs LLProofs Table Cleanup CleanupSpec CleanupProofs.

Section Quiet.
  Variable beh : hook -> list call.
  Hypothesis quiet : forall h, beh h = [].
  Lemma exec_quiet : forall f s st c, good s st -> (length st + 2 <= f)%nat ->
    exists s', exec beh f s c = Ret (fst (fst (spec st c)), s') /\ tr s' = tr s ++ snd (spec st c) /\ good s' (snd (fst (spec st c))).
  Proof.
    induction f as [|f IH]; intros s st c G L; [lia|]. assert (G0 := G). destruct G as ((al & I) & T & K). destruct c as [h mem|x|]; cbn [exec].
    - destruct (push_ok _ _ _ h mem I) as (e & s' & al' & st' & ev & E & SP & Tr & I' & C). exists s'. rewrite SP. cbn [fst snd]. split; [exact E|]. split; [exact Tr|].
      split; [eauto|]. rewrite Tr. cbn [spec] in SP. destruct (existsb (hook_eqb h) st) eqn:EX; [|destruct mem as [g|]]; injection SP as <- <- <-; try (rewrite app_nil_r; auto).
      split; [apply lifo_snoc; [exact T|]; cbn; rewrite K; intros Y; apply existsb_in in Y; congruence|]. rewrite stack_app, K. reflexivity.
    - rewrite (inv_head _ _ _ I). destruct al as [|a al]; cbn [hdor].
      + assert (st = []) by (destruct I as (_ & I2 & _); destruct st; [reflexivity|discriminate I2]). clear K. subst st. exists s. cbn [spec fst snd]. rewrite app_nil_r. auto.
      + destruct (inv_cons _ _ _ _ I) as (y & st' & -> & Ey). rewrite Ey. cbn [ub_none bind]. rewrite (quiet y). cbn [fold_left bind spec fst snd].
        destruct x.
        * destruct (drop_ok (say s (Ran y)) [] a al [] y st' I eq_refl) as (s'' & E2 & Tr & I2). rewrite E2. cbn [bind]. exists s''. split; [reflexivity|]. split; [exact Tr|].
          split; [eauto|]. rewrite Tr. cbn [say tr]. split; [apply lifo_snoc; [exact T|cbn; eauto]|rewrite stack_app, K; reflexivity].
        * destruct (drop_ok (say s (Dropped y)) [] a al [] y st' I eq_refl) as (s'' & E2 & Tr & I2). rewrite E2. cbn [bind]. exists s''. split; [reflexivity|]. split; [exact Tr|].
          split; [eauto|]. rewrite Tr. cbn [say tr]. split; [apply lifo_snoc; [exact T|cbn; eauto]|rewrite stack_app, K; reflexivity].
    - destruct f as [|f]; [lia|]. assert (E : exists s', exec beh (S f) s (Pop true) = Ret (fst (fst (spec st (Pop true))), s') /\ tr s' = tr s ++ snd (spec st (Pop true)) /\ good s' (snd (fst (spec st (Pop true))))).
      { clear IH. cbn [exec]. rewrite (inv_head _ _ _ I). destruct al as [|a al]; cbn [hdor].
        + assert (st = []) by (destruct I as (_ & I2 & _); destruct st; [reflexivity|discriminate I2]). clear K. subst st. exists s. cbn [spec fst snd]. rewrite app_nil_r. auto.
        + destruct (inv_cons _ _ _ _ I) as (y & st' & -> & Ey). rewrite Ey. cbn [ub_none bind]. rewrite (quiet y). cbn [fold_left bind spec fst snd].
          destruct (drop_ok (say s (Ran y)) [] a al [] y st' I eq_refl) as (s'' & E2 & Tr & I2). rewrite E2. cbn [bind]. exists s''. split; [reflexivity|]. split; [exact Tr|].
          split; [eauto|]. rewrite Tr. cbn [say tr]. split; [apply lifo_snoc; [exact T|cbn; eauto]|rewrite stack_app, K; reflexivity]. }
      destruct E as (s' & E & Tr & G'). rewrite E. cbn [bind]. destruct st as [|y st]; cbn [spec fst snd] in *.
      + exists s'. split; [reflexivity|]. auto.
      + cbn [is_success]. destruct (IH s' st All G') as (s2 & E2 & Tr2 & G2); [cbn in L; lia|]. cbn [spec fst snd] in *. exists s2. split; [exact E2|]. rewrite Tr2, Tr, <- app_assoc. auto.
  Qed.
  Lemma spec_len st c : (length (snd (fst (spec st c))) <= S (length st))%nat.
  Proof. destruct c as [h mem|x|]; cbn [spec]; [destruct (existsb _ st); [|destruct mem]|destruct st|]; cbn [fst snd length]; lia. Qed.
  Lemma run_quiet f : forall cs s st, good s st -> (length st + length cs + 2 <= f)%nat ->
    exists s', run beh f s cs = Ret (fst (fst (spec_run st cs)), s') /\ tr s' = tr s ++ snd (spec_run st cs) /\ good s' (snd (fst (spec_run st cs))).
  Proof.
    induction cs as [|c cs IH]; intros s st G L; [exists s; cbn; rewrite app_nil_r; auto|]. cbn [run spec_run length] in *.
    destruct (exec_quiet f s st c G) as (s1 & E & Tr & G1); [lia|]. rewrite E. cbn [bind]. pose proof (spec_len st c) as LN. destruct (spec st c) as [[e st1] ev]. cbn [fst snd] in *.
    destruct (IH s1 st1 G1) as (s2 & E2 & Tr2 & G2); [lia|]. rewrite E2. cbn [bind]. destruct (spec_run st1 cs) as [[es st2] evs]. cbn [fst snd] in *. exists s2. rewrite Tr2, Tr, <- app_assoc. auto.
  Qed.
End Quiet.

(** Handlers that make no cleanup calls: every history of calls gives exactly the results, the events and the list of the stack
    specification (nothing dangling, no divergence). *)
Theorem C42_lifo_history : forall beh, (forall h, beh h = []) -> forall cs f, (length cs + 2 <= f)%nat ->
  let '(es, st, evs) := spec_run [] cs in exists s, run beh f cinit cs = Ret (es, s) /\ tr s = evs /\ listed s st.
Proof.
  intros beh Q cs f L. destruct (run_quiet beh Q f cs cinit [] good_init L) as (s & E & Tr & G). destruct (spec_run [] cs) as [[es st] evs]. cbn [fst snd] in *. exists s. split; [exact E|]. split; [exact Tr|]. exact (good_listed _ _ G).
Qed.
(** Handlers that register further hooks while they run: every history is memory safe (a history may fail to end, if handlers keep
    registering), the events are in LIFO order, and the list at rest is what the events leave: the hooks registered and not yet run or popped. *)
Theorem C42_registering_handlers : forall beh, (forall h c, In c (beh h) -> is_push c = true) -> forall cs f,
  run beh f cinit cs = Diverge \/
  exists es s, run beh f cinit cs = Ret (es, s) /\ lifo (tr s) /\ listed s (stack_of (tr s)) /\ NoDup (stack_of (tr s)).
Proof.
  intros beh P cs f. destruct (run_ok beh P f cs cinit [] good_init) as [D|(es & s & st & E & G)]; [left; exact D|right]. exists es, s. split; [exact E|].
  assert (L := good_listed _ _ G). destruct G as ((al & I) & T & K). rewrite K. split; [exact T|]. split; [exact L|]. destruct I as (_ & _ & ND & _). exact ND.
Qed.
(** At shutdown every hook has run exactly as often as it was registered, less the times it was popped without being run. *)
Theorem C42_all_exactly_once : forall beh, (forall h c, In c (beh h) -> is_push c = true) -> forall cs f es s,
  run beh f cinit (cs ++ [All]) = Ret (es, s) -> last es NOT_OK = OK /\ listed s [] /\ forall h, times (Registered h) (tr s) = (times (Ran h) (tr s) + times (Dropped h) (tr s))%nat.
Proof.
  intros beh P cs f es s.
  assert (Q : forall cs s0 st es, good s0 st -> run beh f s0 (cs ++ [All]) = Ret (es, s) -> last es NOT_OK = OK /\ good s []).
  { clear cs es. induction cs as [|c cs IH]; intros s0 st es G.
    - cbn [app run]. destruct (exec_ok beh P f s0 st All G) as [D|(e & s' & st' & E & G' & -> & ->)]; [rewrite D; discriminate|]. rewrite E. cbn [bind]. intros X.
      assert (X1 : es = [OK]) by congruence. assert (X2 : s = s') by congruence. subst. auto.
    - cbn [app run]. destruct (exec_ok beh P f s0 st c G) as [D|(e & s' & st' & E & G' & _)]; [rewrite D; discriminate|]. rewrite E. cbn [bind].
      destruct (run beh f s' (cs ++ [All])) as [[es' s2]| |] eqn:R; [|discriminate|discriminate]. cbn [bind]. intros X. assert (X1 : es = e :: es') by congruence. assert (X2 : s2 = s) by congruence. subst s2 es.
      destruct (IH s' st' es' G' R) as (A & B). split; [|exact B]. destruct es'; [discriminate A|exact A]. }
  intros R. destruct (Q cs cinit [] es good_init R) as (A & G). split; [exact A|]. split; [exact (good_listed _ _ G)|]. intros h. destruct G as (_ & T & K). rewrite (lifo_count h _ T), K. cbn [count_occ]. lia.
Qed.
(** A handler that pops hooks (the API does not forbid it) makes the pop that runs it use freed memory: the entry is
    unlinked after its handler has run, when the handler has already popped and freed it. *)
Theorem C42_popping_handler_refuted : exists beh cs, run beh 10 cinit cs = UB.
Proof. exists (fun _ => [Pop false]), [Push (1, 1)%N (Some (mklnk None None)); All]. vm_compute. reflexivity. Qed.
(** A handler that registers itself again is told ALREADY_OK, and is not registered when it returns. *)
Theorem C42_reregistering_refuted : exists beh, (forall h c, In c (beh h) -> is_push c = true) /\
  exists s h, beh h = [Push h (Some (mklnk None None))] /\ exec beh 10 cinit (Push h (Some (mklnk None None))) = Ret (OK, s) /\
  push (say s (Ran h)) h (Some (mklnk None None)) = Ret (S_ALREADY_OK, say s (Ran h)) /\
  exists s2, exec beh 10 s (Pop true) = Ret (OK, s2) /\ listed s2 [].
Proof.
  exists (fun h => [Push h (Some (mklnk None None))]). split; [intros h c [<-|[]]; reflexivity|].
  eexists _, (1, 1)%N. split; [reflexivity|]. split; [vm_compute; reflexivity|]. split; [vm_compute; reflexivity|].
  eexists. split; [vm_compute; reflexivity|]. exists []. split; [exists O; reflexivity|reflexivity].
Qed.
(** Non-trivial histories within the theorems. *)
Example cleanup_case : let g := Some (mklnk (Some 9) (Some 7))%positive in
  exists s, run (fun h => if N.eqb (fst h) 2 then [Push (5, 0) g] else []) 10 cinit [Push (1, 0) g; Push (2, 0) g; Push (1, 0) g; Push (3, 0) g; Pop false; All]%N = Ret ([OK; OK; S_ALREADY_OK; OK; OK; OK], s) /\
  tr s = [Registered (1, 0); Registered (2, 0); Registered (3, 0); Dropped (3, 0); Ran (2, 0); Registered (5, 0); Ran (5, 0); Ran (1, 0)]%N.
Proof. eexists. split; vm_compute; reflexivity. Qed.

Print Assumptions C42_lifo_history.
Print Assumptions C42_registering_handlers.
Print Assumptions C42_all_exactly_once.
Print Assumptions C42_popping_handler_refuted.
Print Assumptions C42_reregistering_refuted.
