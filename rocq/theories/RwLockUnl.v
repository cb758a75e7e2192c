(** Unlocking, waiting and redeeming under the invariant. *)
From Verif Require Import Base RwLock RwLockSpec RwLockProofs RwLockInv RwLockTac RwLockReach RwLockReach2.
Open Scope Z_scope.

Lemma unlock_ok L l i t cl f : known L l i (t, cl) -> at_ t = Crit (SUnlock f) KRet -> exists L' t', crit L t i (SUnlock f) KRet = (L', t') /\ at_ t' = Idle /\ ret t' = Some OK.
Proof.
  intros K A. pose proof (k_l _ _ _ _ K) as LL. pose proof LL as (_ & _ & _ & LD & _). cbn [fst snd] in LD. unfold place in LD. rewrite A in LD. destruct LD as (B & (PH & PA) & CC & HM).
  pose proof (k_R _ _ _ _ K) as KR. pose proof (k_g _ _ _ _ K) as G. pose proof (k_P _ _ _ _ K) as (P0 & PI & PN). pose proof (k_F _ _ _ _ K) as FF.
  unfold crit, crit_unlock. destruct (holds cl) as [|n|n] eqn:H; [congruence| |].
  - destruct (hold_shared L i t cl n LL H) as (RN & N1 & RV & MR).
    assert (BR : is (rh L) i = resv cl) by (unfold base in B; rewrite H in B; apply B).
    assert (NW : wh L <> Some i). { unfold base in B. rewrite H in B. destruct B as (_ & _ & _ & B & _). apply is_false. exact B. }
    destruct (rec_shared _ _ _ _ K) as [X|(_ & X & _)]; [cbn; lia| |congruence]. rewrite X in *.
    assert (NL : negb (abandon_too f) && negb (none (rh L)) && (hc L + wwc L =? 2) = false).
    { destruct (abandon_too f) eqn:EA; [reflexivity|]. unfold Gs in G. rewrite X in G. destruct (rh L) as [R|]; [|reflexivity]. cbn [none negb andb]. apply Z.eqb_neq. intros Q. hyps. destruct (Nat.eq_dec R i) as [->|N].
      - specialize (PI eq_refl). assert (FZ : fP (t, cl) = 0) by (unfold fP; cbn [fst]; rewrite A; reflexivity). rewrite is_refl in BR. assert (RT : frec (t, cl) = rec t) by reflexivity.
        assert (n = 1) by lia. subst n. assert (false = true) by (apply PA; congruence). discriminate.
      - destruct (KR R eq_refl N) as (y & HY & LY & PY & GY & FY & Y1). pose proof (f_bounds y). assert (RT : frec (t, cl) = rec t) by reflexivity. pose proof (k_B _ _ _ _ K) as BB. lia. }
    rewrite NL. cbn [andb orb]. rewrite orb_false_r.
    repeat match goal with |- context [if ?b then _ else _] => destruct b end; cbn [leave]; eexists _, _; (split; [reflexivity|split; reflexivity]).
  - destruct (hold_mutex L i t cl n LL H) as (WH & RH & N1 & MR & NH & R0 & RV).
    assert (X : ls L = EXCLUSIVE). { pose proof (wh_excl _ _ _ _ _ _ _ _ G) as W. destruct (ls L); [|rewrite W in WH by discriminate; discriminate|reflexivity]. rewrite W in WH by discriminate. discriminate. }
    rewrite X, WH, is_refl. cbn [negb]. rewrite <- NH, (HM n eq_refl). cbn [Z.sub Z.opp Z.add Z.pos_sub Z.ltb Z.compare Z.eqb leave]. eexists _, _; (split; [reflexivity|split; reflexivity]).
Qed.
Lemma unlock_place L i t cl f : linv L i (t, cl) -> calling cl = Some (Unlock f) -> at_ t = Pre (Unlock f) \/ at_ t = Crit (SUnlock f) KRet.
Proof.
  intros (_ & _ & _ & LD & _) C. cbn [fst snd] in LD. unfold place, promoting in LD. destruct (at_ t) as [|c|s k|w f'|f'|w| |p w k|p k|e|e|p e k]; try contradiction; hyps; try congruence.
  - left. congruence.
  - destruct s, k; try contradiction; hyps; try congruence; repeat match goal with H : _ \/ _ |- _ => destruct H; hyps end; try congruence. right. congruence.
  - destruct p, k; try contradiction; hyps; repeat match goal with H : _ \/ _ |- _ => destruct H; hyps end; congruence.
  - destruct p, k; try contradiction; hyps; repeat match goal with H : _ \/ _ |- _ => destruct H; hyps end; congruence.
Qed.
Lemma unlock_step L l i t cl f : known L l i (t, cl) -> calling cl = Some (Unlock f) ->
  exists L' t', step L t i Go = Some (L', t') /\ (at_ t' = Idle /\ ret t' = Some OK \/ at_ t = Pre (Unlock f) /\ at_ t' = Crit (SUnlock f) KRet).
Proof.
  intros K C. unfold step. destruct (unlock_place L i t cl f (k_l _ _ _ _ K) C) as [A|A]; rewrite A.
  - cbn [pre]. destruct (is (wh L) i && (1 <? hc L)); eexists _, _; (split; [reflexivity|]); [left; split; reflexivity|right; split; reflexivity].
  - destruct (unlock_ok L l i t cl f K A) as (L' & t' & E & Q). rewrite E. eauto.
Qed.

(** Nobody in a call can move. *)
Definition stuck (s : sys) : Prop := forall i t cl, thread s i t cl -> calling cl <> None -> forall ch, step (fst s) t i ch = None.
Lemma idle_or_calling L i t cl : linv L i (t, cl) -> at_ t = Idle \/ calling cl <> None.
Proof.
  intros (_ & _ & _ & LD & _). cbn [fst snd] in LD. unfold place, promoting in LD. destruct (at_ t) as [|c|s k|w f'|f'|w| |p w k|p k|e|e|p e k]; [left; reflexivity|right..]; try contradiction; hyps; try congruence.
  - destruct s, k; try contradiction; hyps; try congruence; repeat match goal with H : _ \/ _ |- _ => destruct H; hyps end; congruence.
  - destruct p, k; try contradiction; hyps; repeat match goal with H : _ \/ _ |- _ => destruct H; hyps end; congruence.
  - destruct p, k; try contradiction; hyps; repeat match goal with H : _ \/ _ |- _ => destruct H; hyps end; congruence.
Qed.
Lemma stuck_place L l i t cl : inv (L, l) -> stuck (L, l) -> nth_error l i = Some (t, cl) ->
  (at_ t = Idle /\ calling cl = None) \/ (exists w f, at_ t = WaitR w f /\ sr L = 0) \/ (exists w, at_ t = WaitW w /\ sw L = 0) \/ (exists p w k, at_ t = WaitP p w k /\ sp L = 0).
Proof.
  intros Iv S N. pose proof Iv as [G I]. specialize (I i (t, cl) N). cbn [fst] in I. destruct G as (_ & _ & G3 & G4 & G5 & _). cbn [fst] in *.
  destruct (idle_or_calling L i t cl I) as [A|C]; [left; split; [exact A|]; destruct I as (_ & _ & _ & LD & _); cbn [fst snd] in LD; unfold place in LD; rewrite A in LD; apply LD|].
  pose proof (S i t cl N C Go) as SG. unfold step in SG. cbn [fst] in SG. destruct (at_ t) as [|c|s k|w f'|f'|w| |p w k|p k|e|e|p e k] eqn:A; try discriminate SG.
  - left. split; [reflexivity|]. destruct I as (_ & _ & _ & LD & _); cbn [fst snd] in LD; unfold place in LD; rewrite A in LD; apply LD.
  - destruct (0 <? sr L) eqn:E; [discriminate|]. zb. right. left. exists w, f'. split; [reflexivity|lia].
  - exfalso. destruct (want_resv f' && negb (ro t)); [destruct (negb (none (rh L)))|]; try discriminate; destruct (get_resv f'); discriminate.
  - destruct (0 <? sw L) eqn:E; [discriminate|]. zb. right. right. left. exists w. split; [reflexivity|lia].
  - destruct (0 <? sp L) eqn:E; [discriminate|]. zb. right. right. right. exists p, w, k. split; [reflexivity|lia].
  - destruct I as (_ & _ & _ & LD & _); cbn [fst snd] in LD; unfold place in LD; rewrite A in LD. contradiction.
  - destruct I as (_ & _ & _ & LD & _); cbn [fst snd] in LD; unfold place in LD; rewrite A in LD. contradiction.
  - destruct I as (_ & _ & _ & LD & _); cbn [fst snd] in LD; unfold place in LD; rewrite A in LD. contradiction.
Qed.
Lemma idle_rec L i t cl : linv L i (t, cl) -> at_ t = Idle -> 1 <= rec t -> exists n, holds cl = HShared n.
Proof. intros (_ & _ & _ & LD & _) A R. cbn [fst snd] in LD. unfold place in LD. rewrite A in LD. destruct LD as [B _]. unfold base in B. destruct (holds cl); hyps; [lia|eauto|lia]. Qed.
Lemma wait_rec L i t cl : linv L i (t, cl) -> (exists w f, at_ t = WaitR w f) \/ (exists w, at_ t = WaitW w) -> rec t = 0 /\ wh L <> Some i.
Proof.
  intros (_ & _ & _ & LD & _) A. cbn [fst snd] in LD. unfold place in LD. rewrite <- is_false.
  destruct A as [(w & f & A)|(w & A)]; rewrite A in LD; destruct LD as (B & H & _); unfold base in B; rewrite H in B; tauto.
Qed.
Lemma waitP_resv L i t cl p w k : linv L i (t, cl) -> at_ t = WaitP p w k -> rh L = Some i.
Proof. intros (_ & _ & _ & LD & _) A. cbn [fst snd] in LD. unfold place in LD. rewrite A in LD. destruct LD as ((_ & _ & R & _) & _). apply is_true. exact R. Qed.
(** Another thread with a counted read lock. *)
Lemma other_pos f l : forall i x, (forall y, In y l -> 0 <= f y) -> nth_error l i = Some x -> f x < sum f l -> exists j y, j <> i /\ nth_error l j = Some y /\ 1 <= f y.
Proof.
  induction l as [|z l IH]; intros i x P N H; destruct i; cbn [nth_error] in N; try discriminate; cbn [sum fold_right] in H; fold (sum f l) in H.
  - assert (z = x) by congruence. subst z. destruct (sum_pos_ex f l) as (j & y & Nj & Fj); [lia|]. exists (S j), y. split; [discriminate|]. split; [exact Nj|lia].
  - destruct (Z_lt_dec 0 (f z)) as [Q|Q]; [exists 0%nat, z; split; [discriminate|]; split; [reflexivity|lia]|].
    destruct (IH i x) as (j & y & A & B & C); [intros y Hy; apply P; right; exact Hy|exact N|lia|]. exists (S j), y. split; [congruence|]. split; assumption.
Qed.
