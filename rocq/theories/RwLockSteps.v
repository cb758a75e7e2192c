From Verif Require Import Base RwLock RwLockSpec RwLockProofs RwLockInv RwLockTac.
Open Scope Z_scope.
Lemma case_pre L l i t cl c : known L l i (t, cl) -> at_ t = Pre c -> forall L' t', pre L t i c = (L', t') -> inv (L', upd l i (t', after_step Go t' cl)).
Proof.
  intros K A L' t' ST. pose proof (k_l _ _ _ _ K) as (LA & LB & LC & LD & LE & LF & LG). cbn [fst snd] in *. pose proof (k_g _ _ _ _ K) as G.
  pose proof (wh_excl _ _ _ _ _ _ _ _ G) as WX.
  unfold place in LD. rewrite A in LD. destruct LD as (B & CC & PR & TL).
  assert (RF : forall e, linv L i (refused t cl e)) by (intros e; apply refused_linv; [apply (k_l _ _ _ _ K)|exact B]).
  destruct (query c) eqn:Q.
  { destruct (query_pre L t i c Q) as (e & E). rewrite E in ST. injection ST as <- <-. unfold after_step. cbn [at_ back ret]. rewrite CC, (query_returned c e _ _ Q).
    apply (still _ _ _ _ _ K); try (unfold fR, fW, fGW, fP, fGP, frec; cbn [fst back at_ rec]; rewrite ?A; reflexivity). apply RF. }
  destruct L as [ls0 hc0 rwc0 wwc0 r2wc0 wh0 rh0 pac0 sr0 sw0 sp0]; destruct t as [pc0 rec0 trk0 sc0 mrc0 ro0 ret0]; destruct cl as [h0 r0 c0].
  flds. subst pc0 c0 trk0 sc0.
  unfold base in B. cbn [holds rec mrc resv] in B.
  destruct c; try discriminate; clear Q; cbn [pre] in ST; unfold pre_mutex, pre_reserve, leave in ST; cbn [ls hc rwc wwc r2wc wh rh pac sr sw sp ro trk rec] in ST;
  break ST; injection ST as <- <-; flds;
  try (apply (still _ _ _ _ _ K); [reflexivity..|]; first [solve [apply RF] | idtac]).
  all: cbn [timeless proper holds resv] in *; destruct h0 as [|n|n]; hyps; norm; try discriminate; try (specialize (WX ltac:(discriminate)); first [discriminate WX|subst wh0; norm; try discriminate]).
  all: match goal with |- linv _ _ _ => unfold linv; flds; split_all; try easy1; unfold place, base; flds; norm; split_all; try easy1 | _ => idtac end.
  all: try (exfalso; destruct (rec_shared _ _ _ _ K) as [X|X]; unfold frec in *; flds; hyps; first [lia|congruence]).
  all: try (mv K G).
  all: try match goal with |- proper _ _ => cbn; split; assumption end.
  all: try rewrite is_refl in *; try discriminate.
  - exfalso. destruct (rec_shared _ _ _ _ K) as [X|(_ & X & _)]; [unfold frec; cbn; lia|discriminate X|]. cbn in X. subst. rewrite is_refl in *. discriminate.
  - specialize (LF eq_refl eq_refl). destruct (n =? 1) eqn:N1; [apply Z.eqb_eq in N1; repeat match goal with H : (_ <? _) = true |- _ => apply Z.ltb_lt in H end; lia|]. apply Z.eqb_neq in N1. split_all; easy1.
  - specialize (LF eq_refl eq_refl). repeat match goal with H : (_ <? _) = false |- _ => apply Z.ltb_ge in H end. intros m [= <-]. unfold Gs in G. cbn in G. lia.
Qed.

Lemma case_shared L l i t cl w f k : known L l i (t, cl) -> at_ t = Crit (SShared w f) k -> forall L' t', crit L t i (SShared w f) k = (L', t') -> inv (L', upd l i (t', after_step Go t' cl)).
Proof.
  intros K A L' t' ST. prelude K A. destruct k; try contradiction. destruct LD as (B & O & CC & TL). flds. subst c0.
  assert (RF' := fun e => RF e B). clear RF.
  assert (HH : h0 = HNone /\ rec0 = 0 \/ exists n, h0 = HShared n /\ rec0 = n /\ 1 <= n /\ ls0 = SHARED).
  { unfold base in B. flds. destruct h0 as [|n|n]; hyps; [left; auto| |norm; discriminate]. right. exists n. split_all; try easy1.
    destruct (rec_shared _ _ _ _ K) as [X|(_ & X & _)]; [cbn; lia|exact X|]. cbn in X. subst. rewrite is_refl in *. discriminate. }
  unfold crit, leave in ST. unfold shared_up in ST. flds. rewrite up_rec in ST by lia. 
  destruct ls0; gdes G.
  - (* UNLOCKED *) subst. flds. norm. destruct HH as [[-> ->]|(n & _ & _ & _ & X)]; [|discriminate X]. specialize (P0 eq_refl). unfold base in B. flds. hyps. flds.
    destruct (want_resv f && negb ro0); injection ST as <- <-; flds.
    + mv2 K.
    + mv2 K.
  - (* SHARED *) subst.
    destruct ((0 <? wwc0) && negb (0 <? rec0)) eqn:W.
    + destruct (is_try w) eqn:TR; injection ST as <- <-; flds; [stay K; apply RF'|]. zb. destruct HH as [[-> ->]|(n & -> & -> & X & _)]; [|lia]. unfold base in B. flds. hyps.
      destruct rh0; hyps; mv2 K.
    + destruct rh0 as [R|].
      * hyps. subst. bs ST. bs ST. destruct (Nat.eq_dec R i) as [->|N].
        -- rewrite is_refl in *. bs ST. injection ST as <- <-. flds.
           destruct HH as [[-> ->]|(n & -> & -> & X & _)]; [|]; unfold base in B; flds; hyps; try discriminate.
           mv2 K.
        -- rewrite (is_ne R i N) in *. bs ST. bs ST. 
           destruct ((want_resv f && negb ro0) && get_resv f); injection ST as <- <-; flds; [stay K; apply RF'|].
           destruct HH as [[-> ->]|(n & -> & -> & X & _)]; unfold base in B; flds; hyps; subst; mv2 K.
      * hyps. subst. bs ST. bs ST. cbn [andb] in ST.
        destruct HH as [[-> ->]|(n & -> & -> & X & _)]; unfold base in B; flds; hyps; subst; destruct (want_resv f && negb ro0); injection ST as <- <-; flds; mv2 K.
  - (* EXCLUSIVE *) destruct (is_try w) eqn:TR; injection ST as <- <-; flds; [stay K; apply RF'|]. destruct HH as [[-> ->]|(n & _ & _ & _ & X)]; [|discriminate X]. unfold base in B. flds. hyps. destruct wh0, rh0; hyps; mv2 K.
Qed.

Lemma case_mutex L l i t cl w k : known L l i (t, cl) -> at_ t = Crit (SMutex w) k -> forall L' t', crit L t i (SMutex w) k = (L', t') -> inv (L', upd l i (t', after_step Go t' cl)).
Proof.
  intros K A L' t' ST. prelude K A. destruct k; try contradiction. destruct LD as (B & HN & (f & CC) & TL). flds. subst c0 h0.
  assert (RF' := fun e => RF e B). clear RF. unfold base in B. flds. hyps.
  unfold crit, leave in ST. flds.
  destruct ls0; gdes G.
  - subst. cbn in ST. injection ST as <- <-. flds. specialize (P0 eq_refl). mv2 K.
  - destruct (is_try w) eqn:TR; injection ST as <- <-; flds; [stay K; apply RF'|]. subst. destruct rh0; hyps; mv2 K.
  - destruct (is_try w) eqn:TR; injection ST as <- <-; flds; [stay K; apply RF'|]. subst. destruct wh0, rh0; hyps; mv2 K.
Qed.
Lemma case_m2s L l i t cl f k : known L l i (t, cl) -> at_ t = Crit (SM2S f) k -> forall L' t', crit L t i (SM2S f) k = (L', t') -> inv (L', upd l i (t', after_step Go t' cl)).
Proof.
  intros K A L' t' ST. prelude K A. destruct k; try contradiction. destruct LD as (B & HN & CC). flds. subst c0.
  assert (RF' := fun e => RF e B). clear RF.
  unfold crit, crit_m2s, leave in ST. flds.
  destruct ls0; try (injection ST as <- <-; flds; stay K; apply RF').
  destruct (is wh0 i) eqn:WI; cbn [negb] in ST; [|injection ST as <- <-; flds; stay K; apply RF'].
  destruct ((1 <? hc0) && nonrec_shared f); [injection ST as <- <-; flds; stay K; apply RF'|].
  destruct (want_resv f && negb (none rh0)); [injection ST as <- <-; flds; stay K; apply RF'|].
  unfold base in B. flds. destruct h0 as [|n|n]; hyps; norm; try discriminate. gdes G. subst.
  destruct rh0 as [R|]; hyps; [exfalso; subst; rewrite is_refl in *; discriminate|]. specialize (P0 eq_refl). specialize (LF eq_refl eq_refl).
  unfold want_resv in ST. fold (want_resv f) in ST. 
  destruct (want_resv f) eqn:WR; destruct ((wwc0 =? 0) && (0 <? rwc0)) eqn:WW; injection ST as <- <-; unfold want_resv in WR; flds; rewrite ?WR; zb; subst; mv2 K.
Qed.
Lemma case_reserve L l i t cl k : known L l i (t, cl) -> at_ t = Crit SReserve k -> forall L' t', crit L t i SReserve k = (L', t') -> inv (L', upd l i (t', after_step Go t' cl)).
Proof.
  intros K A L' t' ST. prelude K A. destruct k; try contradiction.
  - destruct LD as (B & (n & HN) & CC). flds. subst c0 h0.
    assert (RF' := fun e => RF e B). clear RF.
    unfold crit, leave in ST. flds. destruct ls0; try (injection ST as <- <-; flds; stay K; apply RF').
    destruct rh0 as [R|]; cbn [none negb] in ST; injection ST as <- <-; flds; [stay K; apply RF'|].
    unfold base in B. flds. hyps. norm. gdes G. subst. mv2 K.
  - destruct LD as (FR & (w & CC) & WR). flds. subst c0. unfold fresh in FR. flds. hyps. subst. flds. norm.
    unfold crit, leave in ST. flds. 
    assert (ls0 = SHARED). { destruct (rec_shared _ _ _ _ K) as [X|(_ & X & _)]; [cbn; lia|exact X|]. cbn in X. subst. rewrite is_refl in *. discriminate. }
    subst. gdes G. subst.
    destruct rh0 as [R|]; cbn [none negb is_success] in ST; hyps.
    + destruct (get_resv f) eqn:GR; injection ST as <- <-; flds; mv2 K.
    + injection ST as <- <-; flds. mv2 K.
Qed.
Lemma case_redeem L l i t cl w k : known L l i (t, cl) -> at_ t = Crit (SRedeem w) k -> forall L' t', crit L t i (SRedeem w) k = (L', t') -> inv (L', upd l i (t', after_step Go t' cl)).
Proof.
  intros K A L' t' ST. prelude K A. unfold crit in ST.
  assert (KK : base (is wh0 i) (is rh0 i) (mkT (Crit (SRedeem w) k) rec0 (0 <? rec0) rec0 mrc0 ro0 ret0) (mkC h0 r0 c0) /\ is wh0 i = false /\ unt w /\ (k = KRet /\ (c0 = Some (Redeem w) \/ c0 = Some (Shared2Mutex w)) \/ k = KIncr /\ exists f, c0 = Some (LockMutex w f))).
  { destruct k; try contradiction.
    - destruct LD as (B & O & [CC|[CC _]] & TL); flds; split_all; try easy1; left; auto.
    - destruct LD as (B & O & (f & CC) & TL); flds; split_all; try easy1. unfold base in B. flds. rewrite O in B. destruct h0; hyps; try discriminate. assumption. }
  clear LD. destruct KK as (B & O & TL & CC).
  assert (RF' := fun e => RF e B). clear RF.
  assert (RR : forall e, is_success e = false -> forall L' t', leave (mkL ls0 hc0 rwc0 wwc0 r2wc0 wh0 rh0 pac0 sr0 sw0 sp0) (mkT (Crit (SRedeem w) k) rec0 (0 <? rec0) rec0 mrc0 ro0 ret0) k e = (L', t') -> inv (L', upd l i (t', after_step Go t' (mkC h0 r0 c0)))).
  { intros e He L0 t0. unfold leave. destruct CC as [[-> CC]|[-> (f & CC)]]; rewrite ?He; intros E; injection E as <- <-; unfold after_step; cbn [back at_ calling ret holds RwLockSpec.resv]; [destruct CC as [->| ->]|subst c0]; unfold RwLockSpec.returned; rewrite He; cbn [negb]; stay K; apply RF'. }
  flds. destruct ls0; try (refine (RR _ _ _ _ ST); reflexivity).
  destruct rh0 as [R|]; cbn [none] in ST; try (refine (RR _ _ _ _ ST); reflexivity).
  destruct (Nat.eq_dec R i) as [->|N]; [rewrite is_refl in *|rewrite (is_ne R i N) in *; refine (RR _ _ _ _ ST); reflexivity]. cbn [negb] in ST.
  destruct (hc0 <? 2) eqn:HLT; [refine (RR _ _ _ _ ST); reflexivity|].
  specialize (LE eq_refl eq_refl). specialize (PI eq_refl). unfold base in B. flds. gdes G. hyps.  destruct h0; hyps; norm; try discriminate.
  destruct (hc0 =? r2wc0 + 1) eqn:HE.
  + unfold leave in ST. destruct CC as [[-> CC]|[-> (f & CC)]]; injection ST as <- <-.
    * destruct CC as [->| ->]; flds; subst; zb; flds; (replace (0 <? n) with true in * by (symmetry; apply Z.ltb_lt; lia)); mv2 K.
    * subst; flds; subst; zb; flds; (replace (0 <? n) with true in * by (symmetry; apply Z.ltb_lt; lia)); mv2 K.
  + destruct (is_try w); [refine (RR _ _ _ _ ST); reflexivity|]. injection ST as <- <-. flds. subst; zb; flds; (replace (0 <? n) with true in * by (symmetry; apply Z.ltb_lt; lia)); mv2 K. destruct CC as [[-> [->| ->]]|[-> (f & ->)]]; eauto.
Qed.

Lemma case_abandon L l i t cl k : known L l i (t, cl) -> at_ t = Crit SAbandon k -> forall L' t', crit L t i SAbandon k = (L', t') -> inv (L', upd l i (t', after_step Go t' cl)).
Proof.
  intros K A L' t' ST. prelude K A. destruct k; try contradiction. destruct LD as (B & RI & CC). flds. subst c0.
  assert (RF' := fun e => RF e B). clear RF. apply is_true in RI. subst rh0. rewrite is_refl in *. specialize (PI eq_refl). unfold base in B. flds. destruct h0; hyps; try discriminate. subst.
  unfold crit, leave in ST. flds. destruct ls0; injection ST as <- <-; flds; try (stay K; apply RF'). gdes G. subst. mv2 K.
Qed.
Lemma case_s2m L l i t cl w k : known L l i (t, cl) -> at_ t = Crit (SS2M w) k -> forall L' t', crit L t i (SS2M w) k = (L', t') -> inv (L', upd l i (t', after_step Go t' cl)).
Proof.
  intros K A L' t' ST. prelude K A. unfold crit in ST.
  assert (KK : base (is wh0 i) (is rh0 i) (mkT (Crit (SS2M w) k) rec0 (0 <? rec0) rec0 mrc0 ro0 ret0) (mkC h0 r0 c0) /\ (exists n, h0 = HShared n) /\ is rh0 i = false /\ unt w /\ (k = KRet /\ c0 = Some (Shared2Mutex w) \/ k = KIncr /\ exists f, c0 = Some (LockMutex w f))).
  { destruct k; try contradiction.
    - destruct LD as (B & HN & O & CC & TL); flds; split_all; try easy1; left; auto.
    - destruct LD as (B & HN & O & (f & CC) & TL); flds; split_all; try easy1. }
  clear LD. destruct KK as (B & (n & ->) & O & TL & CC).
  assert (RF' := fun e => RF e B). clear RF.
  assert (RR : forall e, is_success e = false -> forall L' t', leave (mkL ls0 hc0 rwc0 wwc0 r2wc0 wh0 rh0 pac0 sr0 sw0 sp0) (mkT (Crit (SS2M w) k) rec0 (0 <? rec0) rec0 mrc0 ro0 ret0) k e = (L', t') -> inv (L', upd l i (t', after_step Go t' (mkC (HShared n) r0 c0)))).
  { intros e He L0 t0. unfold leave. destruct CC as [[-> ->]|[-> (f & ->)]]; rewrite ?He; intros E; injection E as <- <-; unfold after_step; cbn [back at_ calling ret holds RwLockSpec.resv]; unfold RwLockSpec.returned; rewrite He; cbn [negb]; stay K; apply RF'. }
  flds. destruct ls0; try (refine (RR _ _ _ _ ST); reflexivity).
  destruct rh0 as [R|]; cbn [none negb] in ST; try (refine (RR _ _ _ _ ST); reflexivity).
  unfold base in B. flds. gdes G. hyps. subst. flds. norm. specialize (P0 eq_refl).
  replace (0 <? n) with true in * by (symmetry; apply Z.ltb_lt; lia). cbn [andb] in ST.
  destruct ((sum frec l + sr0 =? 1) || (sum frec l + sr0 =? n)) eqn:HE.
  + apply orb_true_iff in HE. assert (sum frec l + sr0 = n) by (destruct HE; zb; lia). clear HE.
    unfold leave in ST. destruct CC as [[-> ->]|[-> (f & ->)]]; injection ST as <- <-; unfold promote_thr; flds; mv2 K.
  + destruct (is_try w); [refine (RR _ _ _ _ ST); reflexivity|]. injection ST as <- <-. flds. zb. mv2 K. destruct CC as [[-> ->]|[-> (f & ->)]]; eauto.
Qed.
Lemma case_waitR L l i t cl w f : known L l i (t, cl) -> at_ t = WaitR w f -> forall L' t', step L t i Go = Some (L', t') -> inv (L', upd l i (t', after_step Go t' cl)).
Proof.
  intros K A L' t' ST. unfold step in ST. rewrite A in ST. prelude K A. destruct LD as (B & HN & CC & TL). flds. subst. unfold base in B. flds. hyps. subst. norm.
  destruct (0 <? sr0) eqn:E; [|discriminate]. unfold shared_up in ST. flds. rewrite up_rec in ST by lia. injection ST as <- <-. flds. zb. gdes G. destruct ls0; hyps; try lia. subst. destruct rh0; hyps; mv2 K.
Qed.
Lemma case_waitW L l i t cl w : known L l i (t, cl) -> at_ t = WaitW w -> forall L' t', step L t i Go = Some (L', t') -> inv (L', upd l i (t', after_step Go t' cl)).
Proof.
  intros K A L' t' ST. unfold step in ST. rewrite A in ST. prelude K A. destruct LD as (B & HN & (f & CC) & TL). flds. subst. unfold base in B. flds. hyps. subst. norm.
  destruct (0 <? sw0) eqn:E; [|discriminate]. injection ST as <- <-. flds. zb. gdes G. destruct ls0; hyps; try lia. destruct wh0, rh0; hyps; try lia. subst.  mv2 K.
Qed.
Lemma case_gotW L l i t cl : known L l i (t, cl) -> at_ t = GotW -> forall L' t', step L t i Go = Some (L', t') -> inv (L', upd l i (t', after_step Go t' cl)).
Proof.
  intros K A L' t' ST. unfold step in ST. rewrite A in ST. injection ST as <- <-. prelude K A. destruct LD as (B & HN & (w & f & CC)). flds. subst. unfold base in B. flds. hyps. subst. norm.
  gdes G. destruct ls0; hyps; try lia. destruct wh0, rh0; hyps; try lia. subst. mv2 K.
Qed.
Lemma case_gotR L l i t cl f : known L l i (t, cl) -> at_ t = GotR f -> forall L' t', step L t i Go = Some (L', t') -> inv (L', upd l i (t', after_step Go t' cl)).
Proof.
  intros K A L' t' ST. unfold step in ST. rewrite A in ST. prelude K A. destruct LD as (FR & (w & CC)). flds. subst c0. unfold fresh in FR. flds. hyps. subst. flds. norm.
  assert (ls0 = SHARED). { destruct (rec_shared _ _ _ _ K) as [X|(_ & X & _)]; [cbn; lia|exact X|]. cbn in X. subst. rewrite is_refl in *. discriminate. }
  subst. unfold pre_reserve in ST. flds.
  destruct (want_resv f && negb ro0) eqn:WR; [apply andb_prop in WR; destruct WR as [WR RO]; apply negb_true_iff in RO; subst ro0; destruct rh0 as [R|]; cbn [none negb] in ST; [destruct (get_resv f) eqn:GR|]|]; injection ST as <- <-; flds; stay K; unfold linv; flds; norm; split_all; try easy1; unfold place, base, fresh; flds; norm; split_all; try easy1.
Qed.
Lemma case_waitP L l i t cl p w k : known L l i (t, cl) -> at_ t = WaitP p w k -> forall L' t', step L t i Go = Some (L', t') -> inv (L', upd l i (t', after_step Go t' cl)).
Proof.
  intros K A L' t' ST. unfold step in ST. rewrite A in ST. prelude K A. destruct LD as (PP & TL).
  destruct (0 <? sp0) eqn:E; [|discriminate]. injection ST as <- <-. flds. zb. pose proof PP as (_ & _ & RI & _). apply is_true in RI. subst rh0. specialize (PI eq_refl). gdes G. destruct ls0; hyps; try lia. destruct wh0; hyps; try lia. subst. rewrite is_refl in *.
  mv2 K.
Qed.
Lemma case_gotP L l i t cl p k : known L l i (t, cl) -> at_ t = GotP p k -> forall L' t', step L t i Go = Some (L', t') -> inv (L', upd l i (t', after_step Go t' cl)).
Proof.
  intros K A L' t' ST. unfold step in ST. rewrite A in ST. cbv zeta in ST. injection ST as ST. prelude K A. pose proof LD as ((n & HN & N1 & RN) & M1 & RI & PK). flds. subst h0 rec0. apply is_true in RI. subst rh0. specialize (PI eq_refl).
  gdes G. destruct ls0; hyps; try lia. destruct wh0; hyps; try lia. subst t wh0 || subst t || idtac. rewrite is_refl in *. specialize (LG eq_refl eq_refl).
  replace (0 <? n) with true in * by (symmetry; apply Z.ltb_lt; lia).
  unfold leave, promote_thr in ST. flds.
  destruct p, k; hyps; try contradiction; repeat match goal with H : _ \/ _ |- _ => destruct H end; subst c0 r0; injection ST as <- <-; flds; mv2 K.
Qed.

Lemma case_unlock L l i t cl f k : known L l i (t, cl) -> at_ t = Crit (SUnlock f) k -> forall L' t', crit L t i (SUnlock f) k = (L', t') -> inv (L', upd l i (t', after_step Go t' cl)).
Proof.
  intros K A L' t' ST. pose proof (k_R _ _ _ _ K) as KR. prelude K A. clear RF. unfold crit, crit_unlock in ST. flds.
  destruct ls0.
  - (* UNLOCKED *) exfalso. gdes G. subst. norm.
    assert (rec0 = 0) by lia. subst. destruct k; try contradiction; destruct LD as (B & PR); [|unfold fresh in B; flds; lia].
    unfold base in B. flds. destruct PR as ((X & _) & _). flds. destruct h0; hyps; try congruence; try discriminate; lia.
  - (* SHARED *)
    assert (KK : 1 <= rec0 /\ (is rh0 i = true -> rec0 = 1 -> abandon_too f = true) /\ mrc0 = b2z (is rh0 i) /\ is wh0 i = false /\
                 forall L t2, exists e, leave L t2 k OK = (L, back t2 e) /\ 
                  after_step Go (back t2 e) (mkC h0 r0 c0) = mkC (if rec0 =? 1 then HNone else HShared (rec0 - 1)) (is rh0 i && negb (abandon_too f) && negb (rec0 =? 1)) None).
    { gdes G. subst. norm. destruct k; try contradiction.
      - destruct LD as (B & (X & Y) & CC & HM). flds. subst c0. unfold base in B. flds. destruct h0; hyps; try congruence; try discriminate. split; [lia|]. split; [intros Q1 Q2; apply Y; congruence|]. split; [congruence|]. split; [reflexivity|].
        intros L t2. exists OK. split; [reflexivity|]. unfold after_step. flds. subst rec0. match goal with H : is rh0 i = _ |- _ => rewrite H end. destruct (n =? 1), r0, (abandon_too f); reflexivity.
      - destruct LD as (FR & (w & f' & CC)). unfold fresh in FR. flds. hyps. subst. match goal with H : is rh0 i = _ |- _ => rewrite H end. split; [lia|]. split; [discriminate|]. split; [reflexivity|]. split; [reflexivity|].
        intros L t2. exists BUSY. split; [reflexivity|]. reflexivity. }
    clear LD. destruct KK as (N1 & AB & M & O & LV).
    gdes G. subst.
    (* not the last reference of somebody's reservation *)
    assert (NL : negb (abandon_too f) && negb (none rh0) && (hc0 + wwc0 =? 2) = false).
    { destruct (abandon_too f) eqn:EA; [reflexivity|]. destruct rh0 as [R|]; [|reflexivity]. cbn [none negb andb]. apply Z.eqb_neq. intros Q. hyps. destruct (Nat.eq_dec R i) as [->|N].
      - rewrite is_refl in *. specialize (PI eq_refl). assert (rec0 = 1) by lia. specialize (AB eq_refl ltac:(lia)). discriminate.
      - destruct (KR R eq_refl N) as (y & HY & LY & PY & GY & FY & Y1). pose proof (f_bounds y). feats. lia. }
    rewrite NL in ST. cbn [andb orb] in ST. rewrite orb_false_r in ST.
    replace (0 <? rec0) with true in * by (symmetry; apply Z.ltb_lt; lia).
    destruct rh0 as [R|].
    + destruct (Nat.eq_dec R i) as [->|N].
      * (* own reservation *) rewrite is_refl in *. specialize (PI eq_refl). specialize (LE eq_refl eq_refl). hyps. rewrite andb_true_r in ST. destruct (abandon_too f) eqn:EA; flds.
        -- destruct (hc0 - 1 - 1 =? 0) eqn:HZ.
           ++ match type of ST with leave ?L ?t k OK = _ => destruct (LV L t) as (e & E1 & E2) end. rewrite E1 in ST. injection ST as <- <-. flds. rewrite E2. clear LV E1 E2. zb. assert (rec0 = 1) by lia. rewrite (proj2 (Z.eqb_eq rec0 1)) in * by lia. unfold notify. flds. 
              destruct (0 <? wwc0) eqn:HW; flds; zb; [mv2 K|]. assert (rwc0 = 0) by (match goal with H : wwc0 = 0 -> rwc0 = 0 |- _ => apply H; lia end). subst rwc0. cbn [Z.ltb Z.compare]. mv2 K.
           ++ cbn [none negb is] in ST. rewrite ?andb_false_r in ST. cbn [andb] in ST.
              match type of ST with leave ?L ?t k OK = _ => destruct (LV L t) as (e & E1 & E2) end. rewrite E1 in ST. injection ST as <- <-. flds. rewrite E2. clear LV E1 E2. zb. unfold notify. flds.
              assert (HN : (0 <? wwc0) = true \/ (0 <? rwc0) = false) by (destruct (0 <? wwc0) eqn:HW; [auto|right]; zb; apply Z.ltb_ge; lia).
              match goal with |- inv (?L', _) => replace L' with (mkL SHARED (hc0 - 1 - 1) rwc0 wwc0 0 None None 0 sr0 0 0) by (destruct HN as [-> |HN]; [reflexivity|rewrite HN; destruct (0 <? wwc0); reflexivity]) end.
              rewrite ?andb_false_r. cbn [andb]. destruct (rec0 =? 1) eqn:R1; zb; mv2 K.
        -- destruct (hc0 - 1 =? 0) eqn:HZ; [zb; lia|]. rewrite is_refl in ST; cbn [negb none] in ST; rewrite ?andb_false_r in ST.
           match type of ST with leave ?L ?t k OK = _ => destruct (LV L t) as (e & E1 & E2) end. rewrite E1 in ST. injection ST as <- <-. flds. rewrite E2. clear LV E1 E2. zb. unfold notify. flds.
           assert (HN : (0 <? wwc0) = true \/ (0 <? rwc0) = false) by (destruct (0 <? wwc0) eqn:HW; [auto|right]; zb; apply Z.ltb_ge; lia).
           match goal with |- inv (?L', _) => replace L' with (mkL SHARED (hc0 - 1) rwc0 wwc0 (r2wc0 - 1) None (Some i) 0 sr0 0 0) by (destruct HN as [-> |HN]; [reflexivity|rewrite HN; destruct (0 <? wwc0); reflexivity]) end.
           destruct (rec0 =? 1) eqn:R1; zb; [exfalso; specialize (AB eq_refl R1); discriminate|]. cbn [negb andb]. mv2 K.
      * (* somebody else's *) rewrite (is_ne R i N) in *. rewrite ?andb_false_r in ST. hyps. destruct (KR R eq_refl N) as (y & HY & LY & PY & GY & FY & Y1). pose proof (f_bounds y) as FB. 
        feats. assert (F1 : 0 <= sum fP l <= 1) by lia. flds. destruct (hc0 - 1 =? 0) eqn:HZ; [zb; feats; lia|].
        pose proof LY as (_ & _ & _ & LYP & LYE & _). flds. rewrite is_refl in LYP, LYE. specialize (LYE eq_refl eq_refl).
        match type of ST with (if ?b then _ else _) = _ => destruct b eqn:HB end.
        -- (* promotion *) zb. assert (sum fP l = 1) by (feats; lia).
           match type of ST with leave ?L ?t k OK = _ => destruct (LV L t) as (e & E1 & E2) end. rewrite E1 in ST. injection ST as <- <-. flds. rewrite E2. clear LV E1 E2. 
           feats. assert (rec0 = 1) by lia. rewrite (proj2 (Z.eqb_eq rec0 1)) in * by lia.
           apply (move _ _ _ _ _ _ (k_inv _ _ _ _ K) (k_at _ _ _ _ K)).
           ++ unfold Gs; feats; norm; split_all; try easy1. 
           ++ intros j z Hj Hz Lz. destruct (Nat.eq_dec R j) as [<-|NR].
              ** assert (z = y) by congruence. subst z. unfold linv in Lz |- *. flds. rewrite is_refl in *. hyps. split_all; try easy1. unfold place in *. destruct (at_ (fst y)); cbn in PY; try lia. assumption.
              ** eapply linv_same; [..|exact Lz]; flds; rewrite ?is_none, ?(is_ne R j NR); try easy1.
           ++ unfold linv; flds; norm; split_all; try easy1; unfold place, base, fresh, promoting; flds; norm; split_all; try easy1.
        -- match type of ST with leave ?L ?t k OK = _ => destruct (LV L t) as (e & E1 & E2) end. rewrite E1 in ST. injection ST as <- <-. flds. rewrite E2. clear LV E1 E2. zb. unfold notify. flds.
           assert (HN : (0 <? wwc0) = true \/ (0 <? rwc0) = false) by (destruct (0 <? wwc0) eqn:HW; [auto|right]; zb; apply Z.ltb_ge; lia).
           rewrite ?(proj2 (Nat.eqb_neq R i) N). match goal with |- inv (?L', _) => replace L' with (mkL SHARED (hc0 - 1) rwc0 wwc0 r2wc0 None (Some R) 0 sr0 0 0) by (destruct HN as [-> |HN]; [reflexivity|rewrite HN; destruct (0 <? wwc0); reflexivity]) end.
           cbn [none negb] in HB. rewrite !andb_true_r in HB. zb. destruct (rec0 =? 1) eqn:R1; zb; feats; mv2 K.
    + (* no reservation *) hyps. specialize (P0 eq_refl). cbn [none negb is] in *. rewrite ?andb_false_r in ST. cbn [andb] in ST. flds. destruct (hc0 - 1 =? 0) eqn:HZ.
      * match type of ST with leave ?L ?t k OK = _ => destruct (LV L t) as (e & E1 & E2) end. rewrite E1 in ST. injection ST as <- <-. flds. rewrite E2. clear LV E1 E2. zb. assert (rec0 = 1) by lia. rewrite (proj2 (Z.eqb_eq rec0 1)) in * by lia. unfold notify. flds. 
        destruct (0 <? wwc0) eqn:HW; flds; zb; [mv2 K|]. assert (rwc0 = 0) by (match goal with H : wwc0 = 0 -> rwc0 = 0 |- _ => apply H; lia end). subst rwc0. cbn [Z.ltb Z.compare]. mv2 K.
      * rewrite ?andb_false_r in ST. cbn [andb] in ST. match type of ST with leave ?L ?t k OK = _ => destruct (LV L t) as (e & E1 & E2) end. rewrite E1 in ST. injection ST as <- <-. flds. rewrite E2. clear LV E1 E2. zb. unfold notify. flds.
        assert (HN : (0 <? wwc0) = true \/ (0 <? rwc0) = false) by (destruct (0 <? wwc0) eqn:HW; [auto|right]; zb; apply Z.ltb_ge; lia).
        match goal with |- inv (?L', _) => replace L' with (mkL SHARED (hc0 - 1) rwc0 wwc0 r2wc0 None None 0 sr0 0 0) by (destruct HN as [-> |HN]; [reflexivity|rewrite HN; destruct (0 <? wwc0); reflexivity]) end.
        destruct (rec0 =? 1) eqn:R1; zb; mv2 K.
  - (* EXCLUSIVE *)
    assert (NR : 1 <= rec0 -> is wh0 i = true). { intros Q. destruct (rec_shared _ _ _ _ K) as [X|(_ & X & _)]; [cbn; lia|discriminate X|]. cbn in X. subst. apply is_refl. }
    destruct k; try contradiction.
    2:{ exfalso. destruct LD as (FR & _). unfold fresh in FR. flds. hyps. rewrite NR in * by lia. discriminate. }
    destruct LD as (B & (X & Y) & CC & HM). flds. subst c0. unfold base in B. flds. destruct h0; hyps; try congruence; [exfalso; rewrite NR in * by lia; discriminate|].
    specialize (HM n eq_refl). subst n. gdes G. norm. specialize (LF eq_refl eq_refl). subst mrc0. hyps.
    destruct rh0 as [R|]; hyps; [exfalso; subst; rewrite is_refl in *; discriminate|]. specialize (P0 eq_refl).
    cbn [negb] in ST. replace (hc0 - 1) with 0 in ST by lia. cbn [Z.ltb Z.compare Z.eqb] in ST. unfold leave in ST. injection ST as <- <-. flds. cbn [Z.eqb Pos.eqb].
    unfold notify. flds. destruct (0 <? wwc0) eqn:HW; [|destruct (0 <? rwc0) eqn:HR]; zb; flds; [mv2 K| |mv2 K]. rewrite Z.max_r by lia. mv2 K.
Qed.
