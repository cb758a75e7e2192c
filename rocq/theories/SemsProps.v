(** C80: making and destroying locks. *)
From Verif Require Import Base Sems SemsSpec.
Open Scope Z_scope.

Lemma flags_spec f : N.land f per_call_flags = 0%N <-> lock_flags f.
Proof.
  unfold lock_flags. change per_call_flags with (2 ^ 4 + (2 ^ 5 + (2 ^ 6 + 2 ^ 8)))%N.
  assert (B : forall i, N.testbit (2 ^ 4 + (2 ^ 5 + (2 ^ 6 + 2 ^ 8)))%N i = existsb (N.eqb i) [4; 5; 6; 8]%N).
  { intros i. change (2 ^ 4 + (2 ^ 5 + (2 ^ 6 + 2 ^ 8)))%N with (N.lor (2 ^ 4) (N.lor (2 ^ 5) (N.lor (2 ^ 6) (2 ^ 8))))%N. rewrite !N.lor_spec, !N.pow2_bits_eqb.
    cbn [existsb]. rewrite (N.eqb_sym 4 i), (N.eqb_sym 5 i), (N.eqb_sym 6 i), (N.eqb_sym 8 i), orb_false_r. reflexivity. }
  split.
  - intros H i Hi. assert (K := f_equal (fun x => N.testbit x i) H). cbn beta in K. rewrite N.land_spec, B, N.bits_0 in K.
    replace (existsb (N.eqb i) [4; 5; 6; 8]%N) with true in K; [rewrite andb_true_r in K; exact K|]. symmetry. apply existsb_exists. exists i. split; [exact Hi|apply N.eqb_refl].
  - intros H. apply N.bits_inj. intros i. rewrite N.land_spec, B, N.bits_0. destruct (existsb (N.eqb i) [4; 5; 6; 8]%N) eqn:E; [|apply andb_false_r].
    apply existsb_exists in E. destruct E as (j & J & Q). apply N.eqb_eq in Q. subst j. rewrite (H i J). reflexivity.
Qed.

Lemma sem_init_t ok s v va n tw st b : ok n = true ->
  sem_init ok s v (mkK va n tw st b) = (true, mkK (fun x => if sem_eqb x s then Some v else va x) (S n) (match va s with Some _ => s :: tw | None => tw end) st b).
Proof. intros E. unfold sem_init. cbn [calls]. rewrite E. reflexivity. Qed.
Lemma sem_init_f ok s v va n tw st b : ok n = false -> sem_init ok s v (mkK va n tw st b) = (false, mkK va (S n) tw st b).
Proof. intros E. unfold sem_init. cbn [calls]. rewrite E. reflexivity. Qed.
Lemma keeps_lock ok s v k : value k SLock <> None -> value (snd (sem_init ok s v k)) SLock <> None.
Proof. intros H. unfold sem_init. destruct (ok (calls k)); [|exact H]. cbn. destruct s; cbn; try exact H. discriminate. Qed.
Lemma keeps_rest ok s v k : state (snd (sem_init ok s v k)) = state k /\ block (snd (sem_init ok s v k)) = block k.
Proof. unfold sem_init. destruct (ok (calls k)); split; reflexivity. Qed.
Definition bad (r : err * lk) (k : lk) : Prop := is_success (fst r) = false /\ state (snd r) = state k /\ block (snd r) = block k /\ value (snd r) SLock <> None.
Lemma bad_init ok s v k : value k SLock <> None -> bad (SYS_RESOURCE_FAILED, snd (sem_init ok s v k)) k.
Proof. intros H. destruct (keeps_rest ok s v k). split; [reflexivity|]. split; [assumption|]. split; [assumption|]. apply keeps_lock. exact H. Qed.
Lemma bad_sem ok k : value k SLock <> None -> bad (free_sem ok SYS_RESOURCE_FAILED k) k.
Proof. intros H. assert (B := bad_init ok SLock 1 k H). unfold free_sem. destruct (sem_init ok SLock 1 k) as [[|] k']; exact B. Qed.
Lemma bad_read ok k : value k SLock <> None -> bad (free_read_waiters ok SYS_RESOURCE_FAILED k) k.
Proof.
  intros H. destruct (bad_init ok SRead 0 k H) as (B1 & B2 & B3 & B4). unfold free_read_waiters. destruct (sem_init ok SRead 0 k) as [[|] k']; cbn [fst snd] in *; [|repeat split; assumption].
  destruct (bad_sem ok k' B4) as (C1 & C2 & C3 & C4). split; [exact C1|]. split; [congruence|]. split; [congruence|exact C4].
Qed.
Lemma bad_write ok k : value k SLock <> None -> bad (free_write_waiters ok SYS_RESOURCE_FAILED k) k.
Proof.
  intros H. destruct (bad_init ok SWrite 0 k H) as (B1 & B2 & B3 & B4). unfold free_write_waiters. destruct (sem_init ok SWrite 0 k) as [[|] k']; cbn [fst snd] in *; [|repeat split; assumption].
  destruct (bad_read ok k' B4) as (C1 & C2 & C3 & C4). split; [exact C1|]. split; [congruence|]. split; [congruence|exact C4].
Qed.
Ltac unserved i n E := intros S; specialize (S i ltac:(lia)); cbn [calls] in S; replace (n + i)%nat with (Nat.add i n) in S by lia; cbn [Nat.add] in S; congruence.
Lemma from_bad r k b : bad r k -> state k = UNINITED -> block k = b -> exists e k', r = (e, k') /\ is_success e = false /\ state k' = UNINITED /\ block k' = b /\ value k' SLock <> None.
Proof. intros (A & B & C & D) E BK. destruct r as [e k']. cbn in *. exists e, k'. split; [reflexivity|]. split; [exact A|]. split; [congruence|]. split; [congruence|exact D]. Qed.
(** the outcome of wolfsentry_lock_init, call by call *)
Lemma init_outcome ok flags k : fresh k -> lock_flags flags ->
  (serves ok k 5 /\ exists k', lock_init ok flags k = (OK, k') /\ usable k' /\ twice k' = [] /\ block k' = block k) \/
  (~ serves ok k 5 /\ exists e k', lock_init ok flags k = (e, k') /\ is_success e = false /\ state k' = UNINITED /\ block k' = block k /\
     (if ok (calls k) then value k' SLock <> None else gone k')).
Proof.
  intros (G & ST & TW) F. apply flags_spec in F. destruct k as [v n tw st b]. unfold gone in G. cbn [value calls twice state block] in *. subst tw st.
  unfold lock_init. rewrite F. cbn [N.eqb negb]. destruct (ok n) eqn:E0.
  2: { right. split; [unserved 0%nat n E0|]. rewrite (sem_init_f ok SLock 0 v n [] UNINITED b E0). cbn [negb]. eexists _, _. split; [reflexivity|]. split; [reflexivity|]. split; [reflexivity|]. split; [reflexivity|]. exact G. }
  rewrite (sem_init_t ok SLock 0 v n [] UNINITED b E0). rewrite (G SLock). cbn [negb]. unfold sem_post. cbn [value sem_eqb calls]. destruct (ok (S n)) eqn:E1.
  2: { right. split; [unserved 1%nat n E1|]. cbn [negb]. eexists _, _. split; [reflexivity|]. cbn. repeat split. discriminate. }
  unfold tick, set. cbn [negb value calls twice state block sem_eqb]. destruct (ok (S (S n))) eqn:E2.
  2: { right. split; [unserved 2%nat n E2|]. rewrite sem_init_f by exact E2. cbn [negb]. eapply from_bad; [apply bad_sem; cbn; discriminate|reflexivity|reflexivity]. }
  rewrite sem_init_t by exact E2. cbn [negb sem_eqb]. rewrite (G SRead). destruct (ok (S (S (S n)))) eqn:E3.
  2: { right. split; [unserved 3%nat n E3|]. rewrite sem_init_f by exact E3. cbn [negb]. eapply from_bad; [apply bad_read; cbn; discriminate|reflexivity|reflexivity]. }
  rewrite sem_init_t by exact E3. cbn [negb sem_eqb]. rewrite (G SWrite). destruct (ok (S (S (S (S n))))) eqn:E4.
  2: { right. split; [unserved 4%nat n E4|]. rewrite sem_init_f by exact E4. cbn [negb]. eapply from_bad; [apply bad_write; cbn; discriminate|reflexivity|reflexivity]. }
  rewrite sem_init_t by exact E4. cbn [negb sem_eqb]. rewrite (G SUpgrade).
  left. split.
  - intros i Hi. cbn [calls]. do 5 (destruct i as [|i]; [rewrite ?Nat.add_succ_r, ?Nat.add_0_r; assumption|]). lia.
  - eexists. split; [reflexivity|]. cbn. repeat split.
Qed.

(** A lock is made exactly if the flags are flags of locks and the platform makes the semaphores; it then can be used. *)
Theorem C80_init : forall ok flags k, fresh k -> (fst (lock_init ok flags k) = OK <-> lock_flags flags /\ serves ok k 5) /\
  (fst (lock_init ok flags k) = OK -> usable (snd (lock_init ok flags k)) /\ twice (snd (lock_init ok flags k)) = []).
Proof.
  intros ok flags k F. destruct (N.eq_dec (N.land flags per_call_flags) 0) as [L|L].
  - apply flags_spec in L. destruct (init_outcome ok flags k F L) as [(S & k' & R & U & T & _)|(S & e & k' & R & E & _)]; rewrite R; cbn [fst snd].
    + split; [tauto|]. intros _. split; assumption.
    + split; [split; [intros ->; discriminate|tauto]|]. intros ->; discriminate.
  - assert (R : lock_init ok flags k = (INVALID_ARG, k)) by (unfold lock_init; destruct (N.eqb_spec (N.land flags per_call_flags) 0); [contradiction|reflexivity]).
    rewrite R. cbn. split; [split; [discriminate|intros (X & _); apply flags_spec in X; contradiction]|discriminate].
Qed.
(** A call that fails on its flags or on the first semaphore leaves no semaphore. *)
Theorem C80_init_failed_partial : forall ok flags k, fresh k -> fst (lock_init ok flags k) <> OK -> (~ lock_flags flags \/ ok (calls k) = false) -> gone (snd (lock_init ok flags k)) /\ state (snd (lock_init ok flags k)) = UNINITED.
Proof.
  intros ok flags k F R D. destruct (N.eq_dec (N.land flags per_call_flags) 0) as [L|L].
  - apply flags_spec in L. destruct D as [D|D]; [contradiction|]. destruct (init_outcome ok flags k F L) as [(S & k' & R' & _)|(S & e & k' & R' & E & ST & _ & G)]; rewrite R' in *; cbn [fst snd] in *; [congruence|]. rewrite D in G. split; assumption.
  - assert (R' : lock_init ok flags k = (INVALID_ARG, k)) by (unfold lock_init; destruct (N.eqb_spec (N.land flags per_call_flags) 0); [contradiction|reflexivity]). rewrite R'. cbn. destruct F as (G & ST & _). split; assumption.
Qed.
(** Every later failure leaves semaphores behind that nothing can give back: the lock counts as not initialised, and wolfsentry_lock_destroy refuses it. *)
Theorem C80_init_leaks : forall ok flags k corrupt, fresh k -> lock_flags flags -> ok (calls k) = true -> fst (lock_init ok flags k) <> OK ->
  let k' := snd (lock_init ok flags k) in value k' SLock <> None /\ lock_destroy ok corrupt k' = (INVALID_ARG, k').
Proof.
  intros ok flags k c F L O R. destruct (init_outcome ok flags k F L) as [(S & k' & R' & _)|(S & e & k' & R' & E & ST & _ & G)]; rewrite R' in *; cbn [fst snd] in *; [congruence|].
  cbn zeta. rewrite O in G. split; [exact G|]. unfold lock_destroy. rewrite ST. reflexivity.
Qed.
(** "A failed call leaves no semaphores" is false: when the last one cannot be made, the three others are initialised a second time. *)
Theorem C80_init_refuted : exists ok, let '(e, k') := lock_init ok 0 nothing in
  e = SYS_RESOURCE_FAILED /\ value k' SLock = Some 1 /\ value k' SRead = Some 0 /\ value k' SWrite = Some 0 /\ twice k' = [SLock; SRead; SWrite].
Proof. exists (fun n => negb (Nat.eqb n 4)). vm_compute. repeat split. Qed.

(** wolfsentry_lock_alloc: a lock that can be used, in allocated memory, or an error and no memory. *)
Theorem C80_alloc : forall ok room flags k, fresh k -> block k = false ->
  let '(e, k') := lock_alloc ok room flags k in
  (is_success e = true -> e = OK /\ usable k' /\ block k' = true) /\ (is_success e = false -> block k' = false) /\
  (e = OK <-> room = true /\ N.testbit flags 0 = false /\ lock_flags flags /\ serves ok k 5).
Proof.
  intros ok room flags k F B. unfold lock_alloc.
  assert (P : (N.land flags 1 =? 0)%N = negb (N.testbit flags 0)) by (destruct flags as [|[p|p|]]; reflexivity).
  rewrite P. destruct (N.testbit flags 0) eqn:T; cbn [negb].
  { cbn. split; [discriminate|]. split; [intros _; exact B|]. split; [discriminate|intros (_ & X & _); discriminate]. }
  destruct room; cbn [negb].
  2: { cbn. split; [discriminate|]. split; [intros _; exact B|]. split; [discriminate|intros (X & _); discriminate]. }
  assert (F' : fresh (with_block true k)) by exact F. destruct (C80_init ok flags (with_block true k) F') as [I U].
  destruct (N.eq_dec (N.land flags per_call_flags) 0) as [L|L].
  - apply flags_spec in L. destruct (init_outcome ok flags (with_block true k) F' L) as [(S & k' & R' & U' & _ & BK)|(S & e & k' & R' & E & _)]; rewrite R'; cbn [fst snd] in *.
    + cbn [is_success]. split; [intros _; split; [reflexivity|]; split; [exact U'|exact BK]|]. split; [discriminate|]. split; [intros _|reflexivity]. split; [reflexivity|]. split; [reflexivity|]. split; [exact L|exact S].
    + rewrite E. split; [rewrite E; discriminate|]. split; [reflexivity|]. split; [intros ->; discriminate|]. intros (_ & _ & _ & X). contradiction.
  - assert (R : lock_init ok flags (with_block true k) = (INVALID_ARG, with_block true k)) by (unfold lock_init; destruct (N.eqb_spec (N.land flags per_call_flags) 0); [contradiction|reflexivity]).
    rewrite R. cbn. split; [discriminate|]. split; [reflexivity|]. split; [discriminate|]. intros (_ & _ & X & _). apply flags_spec in X. contradiction.
Qed.

(** A lock that is not in use can be destroyed and freed: nothing is left. *)
Theorem C80_free : forall ok k, usable k -> serves ok k 4 ->
  exists k', lock_destroy ok false k = (OK, k') /\ gone k' /\ state k' = UNINITED /\ lock_free ok false k = (OK, with_block false k').
Proof.
  intros ok k (ST & V1 & V2 & V3 & V4) S. assert (E0 := S 0%nat ltac:(lia)). assert (E1 := S 1%nat ltac:(lia)). assert (E2 := S 2%nat ltac:(lia)). assert (E3 := S 3%nat ltac:(lia)). clear S.
  rewrite ?Nat.add_succ_r, Nat.add_0_r in *. destruct k as [v n tw st b]. cbn [value calls twice state block] in *. subst st.
  assert (D : exists k', lock_destroy ok false (mkK v n tw FREE b) = (OK, k') /\ gone k' /\ state k' = UNINITED).
  { unfold lock_destroy, sem_trywait, sem_destroy. cbn. rewrite V1. cbn. rewrite V2. cbn. rewrite V3. cbn. rewrite V4. cbn. rewrite E0. cbn. rewrite V2, E1. cbn. rewrite V3, E2. cbn. rewrite V4, E3. cbn.
    eexists. split; [reflexivity|]. split; [intros []; reflexivity|reflexivity]. }
  destruct D as (k' & D & G & U). exists k'. split; [exact D|]. split; [exact G|]. split; [exact U|]. unfold lock_free. cbn [state]. rewrite D. reflexivity.
Qed.
Lemma trywait_f s k k1 : sem_trywait s k = (false, k1) -> k1 = k /\ forall v, value k s = Some v -> v <= 0.
Proof.
  unfold sem_trywait. destruct (value k s) as [v|]; [|intros [= <-]; split; [reflexivity|discriminate]]. destruct (Z.ltb_spec 0 v); intros E; [discriminate|]. injection E as <-.
  split; [reflexivity|]. intros v' [= <-]. assumption.
Qed.
Lemma destroy_t ok s k k1 : sem_destroy ok s k = (true, k1) -> k1 = tick (set s None k).
Proof. unfold sem_destroy. destruct (value k s) as [v|]; [|discriminate]. destruct (ok (calls k)); intros E; [|discriminate]. injection E as <-. reflexivity. Qed.
(** A destruction that succeeds was of a lock that nobody used, and leaves nothing. *)
Theorem C80_destroyed : forall ok corrupt k k', lock_destroy ok corrupt k = (OK, k') -> state k = FREE /\ corrupt = false /\ value k SLock = Some 1 /\ (forall s v, s <> SLock -> value k s = Some v -> v <= 0) /\ gone k' /\ state k' = UNINITED.
Proof.
  intros ok corrupt k k' H. unfold lock_destroy in H. destruct (sem_trywait SLock k) as [g k0] eqn:T.
  assert (H' : (let (g, k) := (g, k0) in
      if negb g then (INCOMPATIBLE_STATE, k) else
      match state k with
      | FREE =>
        if corrupt then let (g, k) := sem_post ok SLock k in (if g then INTERNAL_CHECK_FATAL else SYS_OP_FATAL, k)
        else
          let (g, k) := sem_trywait SLock k in if g then (INTERNAL_CHECK_FATAL, k) else
          let (g, k) := sem_trywait SRead k in if g then (INTERNAL_CHECK_FATAL, k) else
          let (g, k) := sem_trywait SWrite k in if g then (INTERNAL_CHECK_FATAL, k) else
          let (g, k) := sem_trywait SUpgrade k in if g then (INTERNAL_CHECK_FATAL, k) else
          let (g, k) := sem_destroy ok SLock k in if negb g then (SYS_OP_FATAL, k) else
          let (g, k) := sem_destroy ok SRead k in if negb g then (SYS_OP_FATAL, k) else
          let (g, k) := sem_destroy ok SWrite k in if negb g then (SYS_OP_FATAL, k) else
          let (g, k) := sem_destroy ok SUpgrade k in if negb g then (SYS_OP_FATAL, k) else
          (OK, with_state UNINITED k)
      | _ => let (g, k) := sem_post ok SLock k in (if g then INCOMPATIBLE_STATE else SYS_OP_FATAL, k)
      end) = (OK, k')) by (destruct (state k); [discriminate|exact H|exact H]).
  clear H. destruct g; cbn [negb] in H'; [|discriminate].
  assert (A : exists v, value k SLock = Some v /\ 0 < v /\ k0 = set SLock (Some (v - 1)) k).
  { unfold sem_trywait in T. destruct (value k SLock) as [v|]; [|discriminate]. destruct (Z.ltb_spec 0 v); [|discriminate]. injection T as <-. exists v. split; [reflexivity|]. split; [assumption|reflexivity]. }
  destruct A as (v & V & P & ->). change (state (set SLock (Some (v - 1)) k)) with (state k) in H'.
  destruct (state k) eqn:ST; [destruct (sem_post _ _ _) as [[|] ?]; discriminate| |destruct (sem_post _ _ _) as [[|] ?]; discriminate].
  destruct corrupt; [destruct (sem_post _ _ _) as [[|] ?]; discriminate|].
  destruct (sem_trywait SLock (set SLock (Some (v - 1)) k)) as [[|] k1] eqn:T1; [discriminate|]. apply trywait_f in T1. destruct T1 as [-> Q1].
  destruct (sem_trywait SRead (set SLock (Some (v - 1)) k)) as [[|] k1] eqn:T2; [discriminate|]. apply trywait_f in T2. destruct T2 as [-> Q2].
  destruct (sem_trywait SWrite (set SLock (Some (v - 1)) k)) as [[|] k1] eqn:T3; [discriminate|]. apply trywait_f in T3. destruct T3 as [-> Q3].
  destruct (sem_trywait SUpgrade (set SLock (Some (v - 1)) k)) as [[|] k1] eqn:T4; [discriminate|]. apply trywait_f in T4. destruct T4 as [-> Q4].
  destruct (sem_destroy ok SLock _) as [[|] k1] eqn:D1; cbn [negb] in H'; [|discriminate]. apply destroy_t in D1.
  destruct (sem_destroy ok SRead _) as [[|] k2] eqn:D2; cbn [negb] in H'; [|discriminate]. apply destroy_t in D2.
  destruct (sem_destroy ok SWrite _) as [[|] k3] eqn:D3; cbn [negb] in H'; [|discriminate]. apply destroy_t in D3.
  destruct (sem_destroy ok SUpgrade _) as [[|] k4] eqn:D4; cbn [negb] in H'; [|discriminate]. apply destroy_t in D4.
  injection H' as <-. subst. split; [reflexivity|]. split; [reflexivity|]. specialize (Q1 (v - 1) eq_refl). split; [rewrite V; f_equal; lia|].
  split; [|split; [intros []; reflexivity|reflexivity]]. intros [] w N X; [congruence|apply Q2|apply Q3|apply Q4]; exact X.
Qed.
Lemma in_use : forall ok corrupt k v, state k = IN_USE -> value k SLock = Some v -> serves ok k 1 ->
  exists k', lock_destroy ok corrupt k = (INCOMPATIBLE_STATE, k') /\ state k' = IN_USE /\ block k' = block k /\ forall s, value k' s = value k s.
Proof.
  intros ok corrupt [va n tw st b] v ST V S. cbn [state value] in *. subst st. specialize (S 0%nat ltac:(lia)). cbn in S. rewrite Nat.add_0_r in S. unfold lock_destroy, sem_trywait. cbn [state value]. rewrite V.
  destruct (0 <? v); cbn; [|eexists; split; [reflexivity|]; repeat split]. unfold sem_post. cbn. rewrite S. eexists. split; [reflexivity|]. cbn. split; [reflexivity|]. split; [reflexivity|].
  intros []; cbn; try reflexivity. rewrite V. f_equal. lia.
Qed.
(** A lock in use is not touched. *)
Theorem C80_in_use : forall ok corrupt k v, state k = IN_USE -> value k SLock = Some v -> serves ok k 1 ->
  exists k', lock_destroy ok corrupt k = (INCOMPATIBLE_STATE, k') /\ lock_free ok corrupt k = (INCOMPATIBLE_STATE, k') /\
    state k' = IN_USE /\ block k' = block k /\ forall s, value k' s = value k s.
Proof.
  intros ok corrupt k v ST V S. destruct (in_use ok corrupt k v ST V S) as (k' & D & R). exists k'. split; [exact D|]. split; [unfold lock_free; rewrite ST, D; reflexivity|exact R].
Qed.
(** A lock that was never made, or is destroyed: it cannot be destroyed, and to free it is to free its memory. *)
Theorem C80_unmade : forall ok corrupt k, state k = UNINITED -> lock_destroy ok corrupt k = (INVALID_ARG, k) /\
  fst (lock_free ok corrupt k) = OK /\ block (snd (lock_free ok corrupt k)) = false /\ forall s, value (snd (lock_free ok corrupt k)) s = value k s.
Proof. intros ok corrupt k ST. unfold lock_destroy, lock_free. rewrite ST. repeat split. Qed.
(** "A lock that cannot be destroyed is as before" is false: when a waiters' semaphore has a count left, the lock's own semaphore stays taken. *)
Theorem C80_left_over_refuted : exists k, state k = FREE /\ value k SLock = Some 1 /\ value k SRead = Some 1 /\
  let '(e, k') := lock_destroy (fun _ => true) false k in
  e = INTERNAL_CHECK_FATAL /\ value k' SLock = Some 0 /\ value k' SRead = Some 0 /\ state k' = FREE /\ fst (lock_destroy (fun _ => true) false k') = INCOMPATIBLE_STATE.
Proof. exists (set SRead (Some 1) (snd (lock_init (fun _ => true) 0 nothing))). vm_compute. repeat split. Qed.

Example C80_case : fresh nothing /\ lock_flags 3 /\ ~ lock_flags 16 /\ serves (fun _ => true) nothing 5 /\
  (let '(e, k) := lock_alloc (fun _ => true) true 2 nothing in e = OK /\ usable k /\
   let '(e, k') := lock_free (fun _ => true) false k in e = OK /\ gone k' /\ block k' = false) /\
  fst (lock_alloc (fun _ => true) true 3 nothing) = IMPLEMENTATION_MISSING /\
  (exists k, state k = IN_USE /\ value k SLock = Some 1).
Proof.
  split; [repeat split|]. split; [intros i [<-|[<-|[<-|[<-|[]]]]]; reflexivity|]. split; [intros H; specialize (H 4%N (or_introl eq_refl)); discriminate|]. split; [intros i _; reflexivity|].
  split; [vm_compute; repeat (split; [first [reflexivity|repeat split; reflexivity]|]); try reflexivity; repeat split; intros []; reflexivity|]. split; [vm_compute; reflexivity|].
  exists (with_state IN_USE (snd (lock_init (fun _ => true) 0 nothing))). split; vm_compute; reflexivity.
Qed.
