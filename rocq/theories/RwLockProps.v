(** C27-C30, C50: the read/write lock. *)
From Verif Require Import Base RwLock RwLockSpec RwLockProofs RwLockInv RwLockTac RwLockReach RwLockReach2 RwLockUnl.
Open Scope Z_scope.

(** C27.  Every schedule of any number of threads, calls without a time limit (waiting for ever, or "try"). *)
Theorem C27_mutual_exclusion_partial : forall s, reach timeless s -> forall i j ti ci tj cj,
  thread s i ti ci -> thread s j tj cj -> i <> j -> mutex_held ci -> ~ mutex_held cj /\ ~ shared_held cj.
Proof.
  intros s R i j ti ci tj cj Hi Hj N (n & M). apply reach_inv in R. destruct s as [L l]. unfold thread in *. cbn [snd] in *. pose proof R as [_ I]. cbn [fst snd] in I.
  destruct (hold_mutex L i ti ci n (I i _ Hi) M) as (W & _). split; intros (m & H).
  - destruct (hold_mutex L j tj cj m (I j _ Hj) H) as (W' & _). congruence.
  - destruct (hold_shared L j tj cj m (I j _ Hj) H) as (A & B & _). pose proof (known_intro L l j _ R Hj) as K.
    destruct (rec_shared _ _ _ _ K) as [X|(_ & X & _)]; [unfold frec; cbn [fst]; lia| |congruence].
    pose proof (k_g _ _ _ _ K) as G. pose proof (wh_excl _ _ _ _ _ _ _ _ G) as WX. rewrite WX in W by congruence. discriminate.
Qed.

(** C28 *)
Theorem C28_unlock_succeeds_partial : forall s i t cl f, reach timeless s -> thread s i t cl -> calling cl = Some (Unlock f) ->
  exists L' t', step (fst s) t i Go = Some (L', t') /\ (at_ t' = Idle /\ ret t' = Some OK \/ at_ t = Pre (Unlock f) /\ at_ t' = Crit (SUnlock f) KRet).
Proof.
  intros s i t cl f R Hi C. apply reach_inv in R. destruct s as [L l]. unfold thread in *. cbn [fst snd] in *. apply (unlock_step L l i t cl f (known_intro L l i _ R Hi) C).
Qed.
(** What the questions answer, and when a thread may go away. *)
Theorem C28_answers_truthful_partial : forall s i ch s' t cl t' cl' c, reach timeless s -> sstep timeless s i ch s' -> thread s i t cl -> thread s' i t' cl' ->
  calling cl = Some c -> at_ t' = Idle ->
  match c with
  | HaveShared => ret t' = Some S_HAVE_READ_LOCK /\ shared_held cl \/ ret t' = Some LACKING_READ_LOCK /\ ~ shared_held cl
  | HaveMutex => ret t' = Some S_HAVE_MUTEX /\ mutex_held cl \/ (ret t' = Some NOT_PERMITTED \/ ret t' = Some LACKING_MUTEX) /\ ~ mutex_held cl
  | HaveResv => ret t' = Some OK /\ resv cl = true \/ ret t' = Some NOT_OK /\ resv cl = false
  | DestroyThread => ret t' = Some OK /\ holds cl = HNone \/ ret t' = Some BUSY /\ holds cl <> HNone
  | _ => True
  end.
Proof.
  intros s i ch s' t cl t' cl' c R ST Hi Hi' C A. apply reach_inv in R. destruct ST as [L l i ch u ul L' u' HN PR ST]. unfold thread in *. cbn [snd] in *.
  rewrite HN in Hi. injection Hi as -> ->. rewrite (nth_upd_same l i (t, cl) _ HN) in Hi'. injection Hi' as -> _.
  pose proof (known_intro L l i _ R HN) as K. pose proof (k_l _ _ _ _ K) as LL. pose proof LL as (L1 & L2 & L3 & LD & _). cbn [fst snd] in *. unfold place, promoting in LD.
  assert (Q : query c = true -> at_ t = Pre c /\ base (is (wh L) i) (is (rh L) i) t cl).
  { intros Qc. destruct (at_ t) as [|c'|s k|w f'|f'|w| |p w k|p k|e|e|p e k]; try contradiction; hyps; try congruence.
    - split; [congruence|assumption].
    - exfalso. destruct s, k; try contradiction; hyps; try congruence; repeat match goal with H : _ \/ _ |- _ => destruct H; hyps end; subst; try discriminate; rewrite C in *; repeat match goal with H : Some _ = Some _ |- _ => injection H as H; subst end; discriminate.
    - rewrite C in *. hyps. subst. discriminate.
    - rewrite C in *. hyps. subst. discriminate.
    - rewrite C in *. hyps. subst. discriminate.
    - rewrite C in *. hyps. subst. discriminate.
    - exfalso. destruct p, k; try contradiction; hyps; repeat match goal with H : _ \/ _ |- _ => destruct H; hyps end; rewrite C in *; repeat match goal with H : Some _ = Some _ |- _ => injection H as H; subst end; discriminate.
    - exfalso. destruct p, k; try contradiction; hyps; repeat match goal with H : _ \/ _ |- _ => destruct H; hyps end; rewrite C in *; repeat match goal with H : Some _ = Some _ |- _ => injection H as H; subst end; discriminate. }
  destruct (query c) eqn:Qc; [|destruct c; try exact I; discriminate Qc]. destruct (Q eq_refl) as [P B]. clear Q LD.
  unfold step in ST. rewrite P in ST. destruct ch; try discriminate. injection ST as ST. 
  pose proof (k_g _ _ _ _ K) as G.
  assert (SH : 1 <= rec t -> is (wh L) i = false -> ls L = SHARED).
  { intros Q1 Q2. destruct (rec_shared _ _ _ _ K) as [X|(_ & X & _)]; [unfold frec; cbn [fst]; lia|exact X|]. rewrite X, is_refl in Q2. discriminate. }
  assert (EX : is (wh L) i = true -> ls L = EXCLUSIVE).
  { intros Q1. apply is_true in Q1. pose proof (wh_excl _ _ _ _ _ _ _ _ G) as WX. destruct (ls L); try reflexivity; rewrite WX in Q1 by discriminate; discriminate. }
  unfold base in B. unfold mutex_held, shared_held.
  destruct c; try exact I; try discriminate Qc; cbn [pre] in ST; injection ST as <- <-; cbn [back ret].
  - unfold have_shared. rewrite L2, L3. destruct (holds cl) as [|n|n]; destruct B as (B1 & B2 & B3 & B4 & B5).
    + right. split; [|intros (m & X); discriminate X]. destruct (ls L); try reflexivity. replace (0 <? rec t) with false by (symmetry; apply Z.ltb_ge; lia). destruct (ro t); reflexivity.
    + left. rewrite SH by (try assumption; lia). replace (0 <? rec t) with true by (symmetry; apply Z.ltb_lt; lia). split; [reflexivity|eauto].
    + right. rewrite EX by assumption. split; [reflexivity|intros (m & X); discriminate X].
  - unfold have_mutex. destruct (holds cl) as [|n|n]; destruct B as (B1 & B2 & B3 & B4 & B5).
    + right. rewrite B3. split; [destruct (ls L); auto|intros (m & X); discriminate X].
    + right. rewrite B4. split; [destruct (ls L); auto|intros (m & X); discriminate X].
    + left. rewrite EX, B4 by assumption. split; [reflexivity|eauto].
  - destruct (holds cl) as [|n|n]; destruct B as (B1 & B2 & B3 & B4 & B5).
    + right. rewrite B4. split; [reflexivity|assumption].
    + destruct (is (rh L) i); [left|right]; split; congruence.
    + destruct B5 as [-> B6]. right. split; [reflexivity|assumption].
  - destruct (holds cl) as [|n|n]; destruct B as (B1 & B2 & B3 & B4 & B5).
    + left. rewrite L2, L3, B1, B2. split; reflexivity.
    + right. rewrite L3. replace (0 <? rec t) with true by (symmetry; apply Z.ltb_lt; lia). split; [reflexivity|discriminate].
    + right. rewrite L3, B2. cbn [Z.ltb Z.compare]. replace (0 <? mrc t) with true by (symmetry; apply Z.ltb_lt; lia). split; [reflexivity|discriminate].
Qed.
(** When every thread has given back what it took, the lock can be destroyed. *)
Theorem C28_destroy_partial : forall s, reach timeless s -> (forall i t cl, thread s i t cl -> calling cl = None /\ holds cl = HNone) -> lock_destroy (fst s) false = OK.
Proof.
  intros [L l] R H. apply reach_inv in R. pose proof R as [G I]. cbn [fst snd] in *. apply (proj1 (ginv_Gs L l)) in G.
  assert (Z : forall f, (forall i t cl, nth_error l i = Some (t, cl) -> f (t, cl) = 0) -> sum f l = 0) by (intros f Hf; apply sum_zero; intros j [t cl] Hj; eapply Hf; eassumption).
  assert (Q : forall i t cl, nth_error l i = Some (t, cl) -> at_ t = Idle /\ rec t = 0 /\ wh L <> Some i /\ rh L <> Some i).
  { intros i t cl N. destruct (H i t cl N) as [C HN]. specialize (I i _ N). destruct (idle_or_calling L i t cl I) as [A|X]; [|congruence]. destruct (hold_none L i t cl I HN) as (_ & X & Y). repeat split; try assumption.
    destruct I as (_ & _ & _ & LD & _). cbn [fst snd] in LD. unfold place in LD. rewrite A in LD. destruct LD as [B _]. unfold base in B. rewrite HN in B. apply B. }
  rewrite !Z in G; try (intros i t cl N; destruct (Q i t cl N) as (A & B & _); unfold frec, fR, fW, fGW, fP, fGP; cbn [fst]; rewrite ?A; auto; fail).
  unfold Gs in G. destruct G as (G1 & G2 & G3 & G4 & G5 & G6 & G7 & G8 & G9 & G).
  assert (W : wh L = None) by (destruct (wh L) as [a|] eqn:E; [|reflexivity]; destruct (G8 a eq_refl) as ([t cl] & N); destruct (Q a t cl N) as (_ & _ & X & _); exfalso; apply X; first [exact E|reflexivity]).
  assert (RR : rh L = None) by (destruct (rh L) as [a|] eqn:E; [|reflexivity]; destruct (G9 a eq_refl) as ([t cl] & N); destruct (Q a t cl N) as (_ & _ & _ & X); exfalso; apply X; first [exact E|reflexivity]).
  rewrite W, RR in G. unfold lock_destroy. destruct (ls L).
  - destruct G as (E1 & _ & _ & _ & E5 & E6 & E7 & E8 & E9 & _ & _ & E12 & E13). rewrite W, RR, E1, E5, E6, E7, E8, E9, E12, E13. reflexivity.
  - lia.
  - lia.
Qed.

(** C29: nobody sleeps while the lock could be had.  If no thread inside a call can go on, a thread that is not in a call holds
    the lock. *)
Theorem C29_no_deadlock_partial : forall s, reach timeless s -> stuck s -> (exists i t cl, thread s i t cl /\ calling cl <> None) ->
  exists j t cl, thread s j t cl /\ calling cl = None /\ holds cl <> HNone.
Proof.
  intros [L l] R ST (i & t & cl & N & C). apply reach_inv in R. pose proof (stuck_place L l) as SP. unfold thread in *. cbn [snd] in *.
  pose proof R as [G I]. cbn [fst snd] in *. apply (proj1 (ginv_Gs L l)) in G. unfold Gs in G. destruct G as (G1 & G2 & G3 & G4 & G5 & G6 & G7 & G8 & G9 & G).
  assert (F0 : forall f, (forall x, 0 <= f x) -> 0 <= sum f l) by (intros f Hf; apply sum_nonneg; auto).
  pose proof (F0 fR (fun x => proj1 (proj1 (f_bounds x)))) as NR. pose proof (F0 fW (fun x => proj1 (proj1 (proj2 (f_bounds x))))) as NW.
  pose proof (F0 fGW (fun x => proj1 (proj1 (proj2 (proj2 (f_bounds x)))))) as NGW. pose proof (F0 fP (fun x => proj1 (proj1 (proj2 (proj2 (proj2 (f_bounds x))))))) as NP.
  pose proof (F0 fGP (fun x => proj1 (proj2 (proj2 (proj2 (proj2 (f_bounds x))))))) as NGP. clear F0.
  assert (W0 : sum fGW l = 0 /\ sum fGP l = 0).
  { split; apply sum_zero; intros j [u ul] Hj; destruct (SP j u ul R ST Hj) as [[A _]|[(w & f & A & _)|[(w & A & _)|(p & w & k & A & _)]]]; unfold fGW, fGP; cbn [fst]; rewrite A; reflexivity. }
  destruct W0 as [W1 W2].
  assert (SR : sr L = 0). { destruct (Z.eq_dec (sr L) 0) as [E|E]; [exact E|]. destruct (sum_pos_ex fR l) as (j & [u ul] & Hj & P); [lia|]. destruct (SP j u ul R ST Hj) as [[A _]|[(w & f & A & B)|[(w & A & _)|(p & w & k & A & _)]]]; unfold fR in P; cbn [fst] in P; rewrite A in P; lia. }
  destruct (ls L) eqn:LS.
  - (* free: no waiters *) exfalso. destruct G as (_ & _ & _ & _ & E1 & E2 & E3 & E4 & E5 & _).
    destruct (SP i t cl R ST N) as [[_ A]|[(w & f & A & _)|[(w & A & _)|(p & w & k & A & _)]]]; [congruence| | |].
    + pose proof (sum_bound fR l i (t, cl) (fun x => proj1 (proj1 (f_bounds x))) N) as [B _]. unfold fR in B at 1. cbn [fst] in B. rewrite A in B. lia.
    + pose proof (sum_bound fW l i (t, cl) (fun x => proj1 (proj1 (proj2 (f_bounds x)))) N) as [B _]. unfold fW in B at 1. cbn [fst] in B. rewrite A in B. lia.
    + pose proof (sum_bound fP l i (t, cl) (fun x => proj1 (proj1 (proj2 (proj2 (proj2 (f_bounds x)))))) N) as [B _]. unfold fP in B at 1. cbn [fst] in B. rewrite A in B. lia.
  - destruct G as (_ & _ & _ & _ & _ & _ & _ & E1 & E2). destruct (sum_pos_ex frec l) as (j & [u ul] & Hj & P); [lia|]. unfold frec in P. cbn [fst] in P.
    destruct (SP j u ul R ST Hj) as [[A CA]|[(w & f & A & _)|[(w & A & _)|(p & w & k & A & _)]]].
    + exists j, u, ul. split; [exact Hj|]. split; [exact CA|]. destruct (idle_rec L j u ul (I j _ Hj) A ltac:(lia)) as (n & ->). discriminate.
    + destruct (wait_rec L j u ul (I j _ Hj)) as [X _]; [left; eauto|lia].
    + destruct (wait_rec L j u ul (I j _ Hj)) as [X _]; [right; eauto|lia].
    + (* only the promoting thread: somebody else *)
      pose proof (waitP_resv L j u ul p w k (I j _ Hj) A) as RH. rewrite RH in E2. destruct (own_P L l j (u, ul) R Hj) as (_ & OP & _). destruct (OP RH) as [OP1 _].
      assert (FP : fP (u, ul) = 1) by (unfold fP; cbn [fst]; rewrite A; reflexivity). destruct E2 as [E2 E3].
      destruct (I j _ Hj) as (_ & _ & _ & _ & LE & _). cbn [fst snd] in LE. rewrite RH, is_refl in LE. specialize (LE eq_refl LS).
      destruct (other_pos frec l j (u, ul) (rec_nonneg L l R) Hj) as (j' & [v vl] & NE & Hv & Pv); [unfold frec at 1; cbn [fst]; lia|]. unfold frec in Pv. cbn [fst] in Pv.
      destruct (SP j' v vl R ST Hv) as [[A' CA]|[(w' & f & A' & _)|[(w' & A' & _)|(p' & w' & k' & A' & _)]]].
      * exists j', v, vl. split; [exact Hv|]. split; [exact CA|]. destruct (idle_rec L j' v vl (I j' _ Hv) A' ltac:(lia)) as (n & ->). discriminate.
      * destruct (wait_rec L j' v vl (I j' _ Hv)) as [X _]; [left; eauto|lia].
      * destruct (wait_rec L j' v vl (I j' _ Hv)) as [X _]; [right; eauto|lia].
      * pose proof (waitP_resv L j' v vl p' w' k' (I j' _ Hv) A'). congruence.
  - destruct G as (_ & _ & G). destruct (wh L) as [a|] eqn:WH, (rh L) as [b|] eqn:RH.
    + (* being promoted *) exfalso. destruct G as (-> & E1 & E2 & _). destruct (sum_pos_ex fP l) as (j & [u ul] & Hj & P); [lia|]. unfold fP in P. cbn [fst] in P.
      destruct (SP j u ul R ST Hj) as [[A CA]|[(w & f & A & _)|[(w & A & _)|(p & w & k & A & E)]]]; rewrite A in P; lia.
    + destruct (G8 a eq_refl) as ([u ul] & Hj). exists a, u, ul. split; [exact Hj|].
      destruct (SP a u ul R ST Hj) as [[A CA]|[(w & f & A & _)|[(w & A & _)|(p & w & k & A & _)]]].
      * split; [exact CA|]. intros HN. destruct (hold_none L a u ul (I a _ Hj) HN) as (_ & X & _). exfalso; apply X; first [exact WH|reflexivity].
      * destruct (wait_rec L a u ul (I a _ Hj)) as [_ X]; [left; eauto|exfalso; apply X; first [exact WH|reflexivity]].
      * destruct (wait_rec L a u ul (I a _ Hj)) as [_ X]; [right; eauto|exfalso; apply X; first [exact WH|reflexivity]].
      * pose proof (waitP_resv L a u ul p w k (I a _ Hj) A). congruence.
    + destruct G.
    + (* granted to a writer *) exfalso. destruct G as (E1 & _ & _ & _ & E2 & _). destruct (sum_pos_ex fW l) as (j & [u ul] & Hj & P).
      * destruct (own_P L l i (t, cl) R N) as (OP & _). destruct (OP RH). lia.
      * unfold fW in P. cbn [fst] in P. destruct (SP j u ul R ST Hj) as [[A CA]|[(w & f & A & _)|[(w & A & E)|(p & w & k & A & _)]]]; rewrite A in P; lia.
Qed.
(** A reader is kept waiting only by a thread that has the mutex or is asking for it. *)
Definition writer (cl : client) : Prop :=
  mutex_held cl \/ exists w, (exists f, calling cl = Some (LockMutex w f)) \/ calling cl = Some (Redeem w) \/ calling cl = Some (Shared2Mutex w).
Theorem C29_readers_wait_for_writers_partial : forall s i t cl w f, reach timeless s -> thread s i t cl -> at_ t = WaitR w f -> step (fst s) t i Go = None ->
  exists j tj cj, thread s j tj cj /\ writer cj.
Proof.
  intros [L l] i t cl w f R N A ST. apply reach_inv in R. unfold thread in *. cbn [fst snd] in *. unfold step in ST. rewrite A in ST. destruct (0 <? sr L) eqn:E; [discriminate|]. zb.
  pose proof R as [G I]. cbn [fst snd] in *. apply (proj1 (ginv_Gs L l)) in G. unfold Gs in G. destruct G as (G1 & G2 & G3 & G4 & G5 & G6 & G7 & G8 & G9 & G).
  pose proof (sum_bound fR l i (t, cl) (fun x => proj1 (proj1 (f_bounds x))) N) as [B _]. unfold fR in B at 1. cbn [fst] in B. rewrite A in B.
  assert (WP : forall j u ul, nth_error l j = Some (u, ul) -> (exists w, at_ u = WaitW w) \/ at_ u = GotW \/ (exists p w k, at_ u = WaitP p w k) \/ (exists p k, at_ u = GotP p k) -> writer ul).
  { intros j u ul Hj Q. destruct (I j _ Hj) as (_ & _ & _ & LD & _). cbn [fst snd] in LD. unfold place, promoting in LD. right.
    destruct Q as [(w' & Q)|[Q|[(p & w' & k & Q)|(p & k & Q)]]]; rewrite Q in LD.
    - destruct LD as (_ & _ & (f' & X) & _). eauto.
    - destruct LD as (_ & _ & (w' & f' & X)). eauto.
    - destruct LD as ((_ & _ & _ & X) & _). destruct p, k; try contradiction; destruct X as [_ X]; hyps; repeat match goal with H : _ \/ _ |- _ => destruct H end; eauto 6.
    - destruct LD as (_ & _ & _ & X). destruct p, k; try contradiction; destruct X as [_ X]; hyps; repeat match goal with H : _ \/ _ |- _ => destruct H end; eauto 6. }
  assert (WS : 0 < sum fW l \/ 0 < sum fGW l \/ 0 < sum fP l \/ 0 < sum fGP l -> exists j tj cj, nth_error l j = Some (tj, cj) /\ writer cj).
  { intros Q. destruct Q as [Q|[Q|[Q|Q]]]; apply sum_pos_ex in Q; destruct Q as (j & [u ul] & Hj & P); exists j, u, ul; (split; [exact Hj|]); apply (WP j u ul Hj); unfold fW, fGW, fP, fGP in P; cbn [fst] in P; destruct (at_ u); try lia; eauto 8. }
  assert (NN : 0 <= sum fP l /\ 0 <= sum fW l) by (split; apply sum_nonneg; intros x _; apply f_bounds). 
  assert (NG : 0 <= sum fGP l /\ 0 <= sum fGW l) by (split; apply sum_nonneg; intros x _; apply f_bounds).
  destruct (ls L).
  - exfalso. lia.
  - apply WS. destruct G as (_ & E1 & E2 & _ & _ & _ & E3 & _). assert (wwc L <> 0) by (intros Z; specialize (E3 Z); lia). lia.
  - destruct G as (_ & _ & G). destruct (wh L) as [a|] eqn:WH, (rh L) as [b|] eqn:RH; [apply WS; lia| |destruct G|apply WS; lia].
    destruct (G8 a eq_refl) as ([u ul] & Hj). exists a, u, ul. split; [exact Hj|]. destruct (holds ul) as [|n|n] eqn:H.
    + destruct (hold_none L a u ul (I a _ Hj) H) as (_ & X & _). exfalso; apply X; first [exact WH|reflexivity].
    + pose proof (hold_shared L a u ul n (I a _ Hj) H) as (X & Y & _). pose proof (rec_bound L l a _ R Hj) as Z. unfold frec in Z at 1 2. cbn [fst] in Z. lia.
    + left. exists n. exact H.
Qed.

(** C30 *)
Theorem C30_reservation_exclusive_partial : forall s, reach timeless s -> forall i j ti ci tj cj,
  thread s i ti ci -> thread s j tj cj -> i <> j -> resv ci = true -> resv cj = false /\ ~ mutex_held cj.
Proof.
  intros s R i j ti ci tj cj Hi Hj N RV. pose proof R as RC. apply reach_inv in R. destruct s as [L l]. unfold thread in *. cbn [snd] in *. pose proof R as [_ I]. cbn [fst snd] in I.
  destruct (resv_holder L i ti ci (I i _ Hi) RV) as (RH & n & HS). split.
  - destruct (resv cj) eqn:RV2; [|reflexivity]. destruct (resv_holder L j tj cj (I j _ Hj) RV2) as (RH2 & _). congruence.
  - intros M. destruct (C27_mutual_exclusion_partial (L, l) RC j i tj cj ti ci Hj Hi (not_eq_sym N) M) as [_ X]. apply X. exists n. exact HS.
Qed.

Lemma resv_facts L l i t cl : inv (L, l) -> nth_error l i = Some (t, cl) -> resv cl = true -> calling cl <> None -> (forall p w k, at_ t <> WaitP p w k) -> (forall p k, at_ t <> GotP p k) ->
  ls L = SHARED /\ rh L = Some i /\ hc L = sum frec l + sr L + 1 /\ rec t = r2wc L /\ 1 <= rec t <= sum frec l /\ 0 <= sr L.
Proof.
  intros Iv N RV C NP NG. pose proof (known_intro L l i _ Iv N) as K. pose proof (k_l _ _ _ _ K) as LL. destruct (resv_holder L i t cl LL RV) as (RH & n & HS). destruct (hold_shared L i t cl n LL HS) as (RN & N1 & _ & _).
  assert (SH : ls L = SHARED).
  { destruct (rec_shared _ _ _ _ K) as [X|(X & W & _)]; [unfold frec; cbn [fst]; lia|exact X|]. exfalso. pose proof (k_g _ _ _ _ K) as G. unfold Gs in G. rewrite X, W, RH in G. destruct G as (_ & _ & _ & _ & _ & _ & _ & _ & _ & _ & _ & _ & G1 & G2 & _).
    destruct (own_P L l i _ Iv N) as (_ & OP & _). destruct (OP RH) as [O1 O2].
    assert (F0 : fP (t, cl) = 0) by (unfold fP; cbn [fst]; destruct (at_ t) eqn:A; try reflexivity; exfalso; eapply NP; reflexivity).
    assert (F1 : fGP (t, cl) = 0) by (unfold fGP; cbn [fst]; destruct (at_ t) eqn:A; try reflexivity; exfalso; eapply NG; reflexivity). lia. }
  destruct (own_P L l i _ Iv N) as (_ & OP & _). destruct (OP RH) as [O1 O2]. assert (F0 : fP (t, cl) = 0) by (unfold fP; cbn [fst]; destruct (at_ t) eqn:A; try reflexivity; exfalso; eapply NP; reflexivity).
  pose proof (k_g _ _ _ _ K) as G. unfold Gs in G. rewrite SH, RH in G. destruct G as (_ & _ & G3 & _ & _ & _ & _ & _ & _ & _ & _ & _ & _ & _ & _ & _ & _ & G1 & _).
  destruct LL as (_ & _ & _ & _ & LE & _). cbn [fst snd] in LE. rewrite RH, is_refl in LE. pose proof (rec_bound L l i _ Iv N) as Z. unfold frec in Z at 1 2. cbn [fst] in Z.
  specialize (LE eq_refl SH). repeat split; try assumption; lia.
Qed.
(** A thread that has the reservation gets the mutex from redeem; only "try" may say BUSY. *)
Theorem C30_redeem_outcome_partial : forall s i ch s' t cl t' cl' w, reach timeless s -> sstep timeless s i ch s' -> thread s i t cl -> thread s' i t' cl' ->
  calling cl = Some (Redeem w) -> resv cl = true -> at_ t' = Idle -> ret t' = Some OK \/ w = Try /\ ret t' = Some BUSY.
Proof.
  intros s i ch s' t cl t' cl' w R ST Hi Hi' C RV A. apply reach_inv in R. destruct ST as [L l i ch u ul L' u' HN PR ST]. unfold thread in *. cbn [snd] in *.
  rewrite HN in Hi. injection Hi as -> ->. rewrite (nth_upd_same l i (t, cl) _ HN) in Hi'. injection Hi' as -> _.
  pose proof R as [_ I]. destruct (I i _ HN) as (_ & _ & _ & LD & _). cbn [fst snd] in LD. unfold place, promoting in LD.
  pose proof (resv_facts L l i t cl R HN RV ltac:(congruence)) as RS. unfold step in ST.
  destruct (at_ t) as [|c|s k|w' f'|f'|w'| |p w' k|p k|e|e|p e k]; try contradiction.
  - destruct LD; congruence.
  - destruct ch; try discriminate. assert (c = Redeem w) by (destruct LD as (_ & X & _); congruence). subst c. cbn [pre] in ST. destruct RS as (SH & _); [discriminate..|]. rewrite SH in ST. injection ST as <- <-. discriminate A.
  - destruct s, k; try contradiction; try (exfalso; hyps; congruence).
    assert (U : w0 = w /\ unt w) by (destruct LD as (_ & _ & [X|[X _]] & U); split; congruence). destruct U as [-> U]. clear LD. destruct RS as (SH & RH & HC & RC & RB & S0); [discriminate..|]. destruct ch; try discriminate.
    + injection ST as ST. unfold crit in ST. rewrite SH, RH, is_refl in ST. cbn [none negb] in ST. replace (hc L <? 2) with false in ST by (symmetry; apply Z.ltb_ge; lia).
      destruct (hc L =? r2wc L + 1); [injection ST as <- <-; left; reflexivity|]. destruct (is_try w) eqn:TR; injection ST as <- <-; [|discriminate A]. right. split; [destruct w; try discriminate; reflexivity|reflexivity].
    + destruct (may_fail (SRedeem w) e) eqn:MF; [|discriminate]. injection ST as <- <-. right. destruct w, e; try discriminate MF; try (exfalso; apply U; reflexivity). split; reflexivity.
  - exfalso. hyps; congruence.
  - exfalso. hyps; congruence.
  - exfalso. hyps; congruence.
  - exfalso. hyps; congruence.
  - destruct ch; try discriminate; [destruct (0 <? sp L); [|discriminate]; injection ST as <- <-; discriminate A|]. exfalso. destruct (wait_err w' e) eqn:W; [|discriminate]. destruct LD as [_ U]. destruct w', e; try discriminate; apply U; reflexivity.
  - destruct ch; try discriminate. injection ST as ST. destruct LD as (_ & _ & _ & LD). destruct p, k; try contradiction; cbn [leave] in ST; try (exfalso; hyps; congruence); injection ST as <- <-; left; reflexivity.
Qed.
(** A promotion waits only for other readers (or readers just being let in). *)
Definition other_reader (s : sys) (i : nat) : Prop :=
  exists j tj cj, j <> i /\ thread s j tj cj /\ (shared_held cj \/ exists w f, calling cj = Some (LockShared w f)).
Theorem C30_promotion_waits_only_for_readers_partial : forall s i t cl p w k, reach timeless s -> thread s i t cl -> at_ t = WaitP p w k -> step (fst s) t i Go = None -> other_reader s i.
Proof.
  intros [L l] i t cl p w k R N A ST. apply reach_inv in R. unfold other_reader, thread in *. cbn [fst snd] in *. unfold step in ST. rewrite A in ST. destruct (0 <? sp L) eqn:E; [discriminate|]. zb.
  pose proof R as [G I]. cbn [fst snd] in *. apply (proj1 (ginv_Gs L l)) in G. unfold Gs in G. destruct G as (G1 & G2 & G3 & G4 & G5 & G6 & G7 & G8 & G9 & G).
  pose proof (waitP_resv L i t cl p w k (I i _ N) A) as RH. destruct (own_P L l i _ R N) as (_ & OP & _). destruct (OP RH) as [O1 O2]. assert (F1 : fP (t, cl) = 1) by (unfold fP; cbn [fst]; rewrite A; reflexivity). assert (F2 : fGP (t, cl) = 0) by (unfold fGP; cbn [fst]; rewrite A; reflexivity).
  rewrite RH in G. destruct (ls L) eqn:LS.
  - exfalso. destruct G as (_ & _ & X & _). discriminate X.
  - destruct G as (_ & _ & _ & _ & _ & _ & _ & _ & E1 & E2). destruct (I i _ N) as (_ & _ & _ & _ & LE & _). cbn [fst snd] in LE. rewrite RH, is_refl in LE. specialize (LE eq_refl LS).
    destruct (Z.eq_dec (sr L) 0) as [Z|Z].
    + destruct (other_pos frec l i (t, cl) (rec_nonneg L l R) N) as (j & [u ul] & NE & Hj & P); [unfold frec at 1; cbn [fst]; lia|]. unfold frec in P. cbn [fst] in P. exists j, u, ul. split; [exact NE|]. split; [exact Hj|].
      destruct (I j _ Hj) as (_ & _ & _ & LD & _). cbn [fst snd] in LD. unfold shared_held.
      assert (Q : base (is (wh L) j) (is (rh L) j) u ul \/ fresh (is (wh L) j) (is (rh L) j) u ul /\ (exists w f, calling ul = Some (LockShared w f)) \/ exists n, holds ul = HShared n).
      { unfold place, promoting in LD. destruct (at_ u); try tauto; hyps; eauto 8. destruct s, k0; try tauto; hyps; eauto 8. }
      destruct Q as [Q|[[Q X]|X]]; [|right; exact X|left; exact X]. unfold base in Q. destruct (holds ul); hyps; [lia|left; eauto|lia].
    + destruct (sum_pos_ex fR l) as (j & [u ul] & Hj & P); [lia|]. unfold fR in P. cbn [fst] in P. destruct (at_ u) eqn:AU; try lia. exists j, u, ul. destruct (I j _ Hj) as (_ & _ & _ & LD & _). cbn [fst snd] in LD. unfold place in LD. rewrite AU in LD.
      split; [intros ->; assert (u = t) by congruence; congruence|]. split; [exact Hj|]. right. destruct LD as (_ & _ & X & _). eauto.
  - exfalso. destruct G as (_ & _ & G). destruct (wh L); [|exact G]. lia.
Qed.
Theorem C30_try_redeem_partial : forall s i s' t cl t' cl' w, reach timeless s -> sstep timeless s i Go s' -> thread s i t cl -> thread s' i t' cl' ->
  calling cl = Some (Redeem w) -> resv cl = true -> at_ t' = Idle -> ret t' = Some BUSY -> other_reader s i.
Proof.
  intros s i s' t cl t' cl' w R ST Hi Hi' C RV A B. apply reach_inv in R. remember Go as ch eqn:GO. destruct ST as [L l i ch u ul L' u' HN PR ST]. subst ch. unfold other_reader, thread in *. cbn [snd] in *.
  rewrite HN in Hi. injection Hi as -> ->. rewrite (nth_upd_same l i (t, cl) _ HN) in Hi'. injection Hi' as -> _.
  pose proof R as [_ I]. cbn [fst snd] in I. destruct (I i _ HN) as (_ & _ & _ & LD & _). cbn [fst snd] in LD. unfold place, promoting in LD.
  pose proof (resv_facts L l i t cl R HN RV ltac:(congruence)) as RS. unfold step in ST.
  destruct (at_ t) as [|c|s k|w' f'|f'|w'| |p w' k|p k|e|e|p e k] eqn:AT; try contradiction; try discriminate.
  - exfalso. destruct LD as (_ & X & _). assert (c = Redeem w) by congruence. subst c. cbn [pre] in ST. destruct RS as (SH & _); [discriminate..|]. rewrite SH in ST. injection ST as <- <-. discriminate A.
  - destruct s, k; try contradiction; try (exfalso; hyps; congruence).
    assert (w0 = w) by (destruct LD as (_ & _ & [X|[X _]] & _); congruence). subst w0. clear LD. destruct RS as (SH & RH & HC & RC & RB & S0); [discriminate..|].
    injection ST as ST. unfold crit in ST. rewrite SH, RH, is_refl in ST. cbn [none negb] in ST. replace (hc L <? 2) with false in ST by (symmetry; apply Z.ltb_ge; lia).
    destruct (hc L =? r2wc L + 1) eqn:E; [injection ST as <- <-; discriminate B|]. zb.
    destruct (Z.eq_dec (sr L) 0) as [Z|Z].
    + destruct (other_pos frec l i (t, cl) (rec_nonneg L l R) HN) as (j & [u ul] & NE & Hj & P); [unfold frec at 1; cbn [fst]; lia|]. unfold frec in P. cbn [fst] in P. exists j, u, ul. split; [exact NE|]. split; [exact Hj|].
      destruct (I j _ Hj) as (_ & _ & _ & LD & _). cbn [fst snd] in LD. unfold shared_held.
      assert (Q : base (is (wh L) j) (is (rh L) j) u ul \/ fresh (is (wh L) j) (is (rh L) j) u ul /\ (exists w f, calling ul = Some (LockShared w f)) \/ exists n, holds ul = HShared n).
      { unfold place, promoting in LD. destruct (at_ u); try tauto; hyps; eauto 8. destruct s, k; try tauto; hyps; eauto 8. }
      destruct Q as [Q|[[Q X]|X]]; [|right; exact X|left; exact X]. unfold base in Q. destruct (holds ul); hyps; [lia|left; eauto|lia].
    + pose proof (known_intro L l i _ R HN) as K. pose proof (k_g _ _ _ _ K) as G. unfold Gs in G. destruct (sum_pos_ex fR l) as (j & [u ul] & Hj & P); [lia|]. unfold fR in P. cbn [fst] in P. destruct (at_ u) eqn:AU; try lia. exists j, u, ul. destruct (I j _ Hj) as (_ & _ & _ & LD & _). cbn [fst snd] in LD. unfold place in LD. rewrite AU in LD.
      split; [intros ->; assert (u = t) by congruence; congruence|]. split; [exact Hj|]. right. destruct LD as (_ & _ & X & _). eauto.
  - exfalso. hyps; congruence.
  - exfalso. hyps; congruence.
  - exfalso. hyps; congruence.
  - exfalso. hyps; congruence.
  - exfalso. destruct (0 <? sp L); [|discriminate]. injection ST as <- <-. discriminate A.
  - exfalso. injection ST as ST. destruct p, k; try (hyps; contradiction); cbn [leave is_success] in ST; injection ST as <- <-; discriminate B.
Qed.

(** Executions with time limits, as data: [x] calls [c] and runs until its own next stop. *)
Definition cl1 (x : nat) (c : call) : list (nat * choice) := [(x, Do c); (x, Go); (x, Go)].
Definition shr := LockShared Untimed nofl.
Definition ul := Unlock nofl.
Definition ul1 (x : nat) := cl1 x ul.
Definition four : list bool := [false; false; false; false].
Ltac trace tr := match goal with |- context [start four] => idtac | _ => idtac end;
  let s := eval vm_compute in (run (start four) tr) in
  match s with Some ?s => exists s; split; [apply (run_reach any tr (start four)); [constructor|apply any_trace|vm_compute; reflexivity]|] end.

(** A writer whose time limit expires lets the next unlock post one wakeup too many; later a reader enters beside a writer. *)
Definition t_surplus : list (nat * choice) :=
  cl1 0 shr ++ cl1 0 shr ++ cl1 1 (LockMutex Timed nofl) ++ cl1 2 shr ++ [(1%nat, Expire TIMED_OUT); (1%nat, Go)] ++ cl1 0 ul ++ [(2%nat, Go); (2%nat, Go)] ++
  cl1 0 ul ++ cl1 2 ul ++ cl1 1 (LockMutex Untimed nofl) ++ cl1 3 shr ++ [(3%nat, Go); (3%nat, Go)].
Theorem C27_timed_refuted : exists s, reach any s /\ exists t1 c1 t3 c3, thread s 1 t1 c1 /\ thread s 3 t3 c3 /\ mutex_held c1 /\ shared_held c3 /\ calling c1 = None /\ calling c3 = None.
Proof.
  trace t_surplus. unfold thread, mutex_held, shared_held. cbn [snd nth_error]. do 4 eexists. split; [reflexivity|]. split; [reflexivity|]. cbn. split; [eauto|]. split; [eauto|]. split; reflexivity.
Qed.
(** A writer that is granted the mutex just as its time runs out gets OK, but can then not unlock, and nobody ever can. *)
Definition t_race : list (nat * choice) :=
  cl1 0 (LockMutex Untimed nofl) ++ cl1 1 (LockMutex Timed nofl) ++ [(1%nat, Expire TIMED_OUT)] ++ cl1 0 ul ++ [(1%nat, Go)].
Theorem C28_timed_refuted : exists s, reach any s /\ exists s', reach any s' /\ exists t1 c1, thread s 1 t1 c1 /\ mutex_held c1 /\ calling c1 = None /\ ret t1 = Some OK /\
  run s (cl1 1 ul) = Some s' /\ exists t1' c1', thread s' 1 t1' c1' /\ calling c1' = None /\ ret t1' = Some NOT_PERMITTED /\ holds c1' = holds c1.
Proof.
  trace t_race. trace (t_race ++ cl1 1 ul). unfold thread, mutex_held. cbn [snd nth_error]. do 2 eexists. split; [reflexivity|]. cbn [holds calling ret]. split; [eauto|]. split; [reflexivity|]. split; [reflexivity|].
  split; [vm_compute; reflexivity|]. do 2 eexists. split; [reflexivity|]. cbn. auto.
Qed.
(** A promotion that times out leaves its mark on the lock: when everybody has left, the lock cannot be destroyed. *)
Definition t_stale : list (nat * choice) :=
  cl1 0 shr ++ cl1 1 shr ++ cl1 0 (Shared2Mutex Timed) ++ [(0%nat, Expire TIMED_OUT); (0%nat, Go)] ++ cl1 0 ul ++ cl1 1 ul.
Theorem C28_destroy_timed_refuted : exists s, reach any s /\ (forall i t cl, thread s i t cl -> calling cl = None /\ holds cl = HNone) /\ lock_destroy (fst s) false = INTERNAL_CHECK_FATAL.
Proof.
  trace t_stale. split; [|vm_compute; reflexivity]. unfold thread. cbn [snd]. intros i t cl. do 4 (destruct i as [|i]; [cbn; intros E; injection E as <- <-; split; reflexivity|]). destruct i; discriminate.
Qed.
(** A writer whose time limit expires leaves the readers behind it asleep although only readers hold the lock. *)
Definition t_asleep : list (nat * choice) := cl1 0 shr ++ cl1 1 (LockMutex Timed nofl) ++ cl1 2 shr ++ [(1%nat, Expire TIMED_OUT); (1%nat, Go)].
Theorem C29_timed_refuted : exists s, reach any s /\ stuck s /\ (exists t2 c2, thread s 2 t2 c2 /\ calling c2 = Some shr) /\ forall i t cl, thread s i t cl -> ~ writer cl.
Proof.
  trace t_asleep. unfold stuck, thread, writer, mutex_held. cbn [fst snd]. split; [|split].
  - intros i t cl. do 4 (destruct i as [|i]; [cbn [nth_error]; intros E; injection E as <- <-; intros C ch; try (exfalso; apply C; reflexivity); destruct ch as [c| |e]; try reflexivity; destruct e; reflexivity|]). destruct i; discriminate.
  - do 2 eexists. split; reflexivity.
  - intros i t cl. do 4 (destruct i as [|i]; [cbn [nth_error]; intros E; injection E as <- <-; cbn [calling holds]; intros [(n & X)|(w & [(f & X)|[X|X]])]; try discriminate X; injection X as X; discriminate X|]). destruct i; discriminate.
Qed.
(** A redemption granted just as its time runs out leaves the reservation recorded for good: when nobody holds anything, every
    other thread's request for a reservation is still refused. *)
Definition t_ghost : list (nat * choice) :=
  cl1 0 shr ++ cl1 0 Reserve ++ cl1 1 shr ++ cl1 0 (Redeem Timed) ++ [(0%nat, Expire TIMED_OUT)] ++ cl1 1 ul ++ [(0%nat, Go)] ++ cl1 0 ul.
Theorem C30_timed_refuted : exists s, reach any s /\ (forall i t cl, thread s i t cl -> calling cl = None /\ holds cl = HNone /\ resv cl = false) /\
  exists s', run s (cl1 1 shr ++ cl1 1 Reserve) = Some s' /\ exists t1 c1, thread s' 1 t1 c1 /\ ret t1 = Some BUSY.
Proof.
  trace t_ghost. split; [|].
  - unfold thread. cbn [snd]. intros i t cl. do 4 (destruct i as [|i]; [cbn; intros E; injection E as <- <-; repeat split; reflexivity|]). destruct i; discriminate.
  - eexists. split; [vm_compute; reflexivity|]. unfold thread. cbn [snd nth_error]. do 2 eexists. split; reflexivity.
Qed.

(** C50: AUTO_DOWNGRADE.  Even without time limits the flag has no effect. *)
Definition autod := mkF false false false false false true.
Definition t_auto : list (nat * choice) := cl1 0 shr ++ cl1 0 (LockMutex Untimed nofl) ++ cl1 0 (Unlock autod).
Theorem C50_auto_downgrade_refuted : exists s, run (start four) (cl1 0 shr ++ cl1 0 (LockMutex Untimed nofl)) = Some s /\
  (exists t c, thread s 0 t c /\ ret t = Some OK /\ holds c = HMutex 2) /\
  exists s', run s [(0%nat, Do (Unlock autod)); (0%nat, Go)] = Some s' /\ exists t c, thread s' 0 t c /\ calling c = None /\ ret t = Some OK /\ have_mutex (fst s') 0%nat = S_HAVE_MUTEX /\ have_shared (fst s') t = LACKING_READ_LOCK.
Proof.
  eexists. split; [vm_compute; reflexivity|]. split; [do 2 eexists; split; [reflexivity|split; reflexivity]|]. eexists. split; [vm_compute; reflexivity|]. do 2 eexists. split; [reflexivity|]. repeat split; reflexivity.
Qed.
(** What unlock does to a thread that has the mutex more than once, whatever the flags: it keeps the mutex. *)
Theorem C50_unlock_keeps_mutex_partial : forall s i t cl f n, reach timeless s -> thread s i t cl -> at_ t = Pre (Unlock f) -> holds cl = HMutex n -> 1 < n ->
  exists L' t', step (fst s) t i Go = Some (L', t') /\ at_ t' = Idle /\ ret t' = Some OK /\ ls L' = EXCLUSIVE /\ wh L' = Some i /\ hc L' = n - 1.
Proof.
  intros [L l] i t cl f n R N A H N1. apply reach_inv in R. unfold thread in N. cbn [fst snd] in *. pose proof (known_intro L l i _ R N) as K.
  destruct (hold_mutex L i t cl n (k_l _ _ _ _ K) H) as (W & _ & _ & _ & E & _). unfold step. rewrite A. cbn [pre]. rewrite W, is_refl. replace (1 <? hc L) with true by (symmetry; apply Z.ltb_lt; lia). cbn [andb].
  eexists _, _. split; [reflexivity|]. cbn. pose proof (wh_excl _ _ _ _ _ _ _ _ (k_g _ _ _ _ K)) as WX. repeat split; try lia; try assumption. destruct (ls L); try reflexivity; rewrite WX in W by discriminate; discriminate.
Qed.

(** Reachable, non-trivial cases. *)
Example timeless_case : exists s, reach timeless s /\ exists t0 c0 t1 c1 t2 c2, thread s 0 t0 c0 /\ thread s 1 t1 c1 /\ thread s 2 t2 c2 /\
  holds c0 = HShared 1 /\ resv c0 = true /\ at_ t0 = WaitP PRedeem Untimed KRet /\ holds c1 = HShared 2 /\ at_ t2 = WaitR Untimed nofl.
Proof.
  pose (tr := cl1 0 shr ++ cl1 0 Reserve ++ cl1 1 shr ++ cl1 1 shr ++ cl1 0 (Redeem Untimed) ++ cl1 2 shr).
  let s := eval vm_compute in (run (start four) tr) in match s with Some ?s => exists s end.
  split; [apply (run_reach timeless tr (start four)); [constructor|repeat constructor; cbn; intros c E; try discriminate E; injection E as <-; cbn; try discriminate; exact I|vm_compute; reflexivity]|].
  unfold thread. cbn [snd nth_error]. do 6 eexists. repeat (split; [reflexivity|]). reflexivity.
Qed.
Example timeless_mutex : exists s, reach timeless s /\ exists t0 c0 t1 c1, thread s 0 t0 c0 /\ thread s 1 t1 c1 /\ mutex_held c0 /\ at_ t1 = WaitW Untimed.
Proof.
  pose (tr := cl1 0 shr ++ cl1 0 (LockMutex Untimed nofl) ++ cl1 1 (LockMutex Untimed nofl)).
  let s := eval vm_compute in (run (start four) tr) in match s with Some ?s => exists s end.
  split; [apply (run_reach timeless tr (start four)); [constructor|repeat constructor; cbn; intros c E; try discriminate E; injection E as <-; cbn; try discriminate; exact I|vm_compute; reflexivity]|].
  unfold thread, mutex_held. cbn [snd nth_error]. do 4 eexists. split; [reflexivity|]. split; [reflexivity|]. cbn. eauto.
Qed.

Print Assumptions C27_mutual_exclusion_partial.
Print Assumptions C28_unlock_succeeds_partial.
Print Assumptions C28_answers_truthful_partial.
Print Assumptions C28_destroy_partial.
Print Assumptions C29_no_deadlock_partial.
Print Assumptions C29_readers_wait_for_writers_partial.
Print Assumptions C30_reservation_exclusive_partial.
Print Assumptions C30_redeem_outcome_partial.
Print Assumptions C30_promotion_waits_only_for_readers_partial.
Print Assumptions C30_try_redeem_partial.
Print Assumptions C27_timed_refuted.
Print Assumptions C28_timed_refuted.
Print Assumptions C28_destroy_timed_refuted.
Print Assumptions C29_timed_refuted.
Print Assumptions C30_timed_refuted.
Print Assumptions C50_auto_downgrade_refuted.
Print Assumptions C50_unlock_keeps_mutex_partial.
