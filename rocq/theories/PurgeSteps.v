(** Route life cycle: each call preserves the invariant. *)
From Verif Require Import Base Links LinksProofs LLProofs Table TableSpec TableProofs Keyed Purge PurgeSpec PurgeProofs.
From Coq Require Import Sorted.
Open Scope Z_scope.

Lemma inv_alloc s held l r : inv s held l -> r_in r = false -> r_refs r = 1%N ->
  inv (snd (alloc s r)) (hadd held (brk s)) l /\ ~ In (brk s) l /\ (srt s l -> srt (snd (alloc s r)) l) /\ held (brk s) = 0%N.
Proof.
  intros [C L LS] T R. pose proof (c_brk _ _ C (brk s) ltac:(lia)) as NB.
  assert (NI : ~ In (brk s) l) by (intros X; apply (links_alive _ _ _ L X); exact NB).
  assert (H0 : held (brk s) = 0%N). { destruct (N.eq_dec (held (brk s)) 0) as [X|X]; [exact X|]. destruct (c_held _ _ C _ X NB). }
  split; [|split; [exact NI|split; [|exact H0]]].
  - constructor.
    + constructor; cbn.
      * exact (c_sorted _ _ C).
      * intros k a. rewrite (c_tb _ _ C). unfold upd. destruct (Pos.eqb_spec a (brk s)) as [->|NE]; [|reflexivity]. rewrite NB. split; intros (y & A & B & _); [discriminate|]. congruence.
      * intros a LE. rewrite upd_neq by lia. apply (c_brk _ _ C). lia.
      * intros a y. unfold upd. destruct (Pos.eqb_spec a (brk s)) as [->|NE]; [|rewrite hadd_neq by exact NE; apply (c_refs _ _ C)]. intros X. injection X as <-. rewrite hadd_eq, T, R, H0. reflexivity.
      * intros a y. unfold upd. destruct (Pos.eqb_spec a (brk s)) as [->|NE]; [|apply (c_alive _ _ C)]. intros X. injection X as <-. rewrite R. discriminate.
      * intros a H. unfold upd. destruct (Pos.eqb_spec a (brk s)) as [->|NE]; [discriminate|]. rewrite hadd_neq in H by exact NE. apply (c_held _ _ C). exact H.
    + destruct (l_dll _ _ L) as (ND & HD & TL & SG). constructor; cbn.
      * split; [exact ND|]. split; [exact HD|]. split; [exact TL|]. eapply seg_frame; [|exact SG]. intros x I. apply upd_neq. intros ->. tauto.
      * exact (l_len _ _ L).
      * intros a. unfold upd. destruct (Pos.eqb_spec a (brk s)); [split; discriminate|apply (l_dom _ _ L)].
      * intros a LE. rewrite upd_neq by lia. apply (l_brk _ _ L). lia.
    + intros a. rewrite LS. unfold listed. cbn. unfold upd. destruct (Pos.eqb_spec a (brk s)) as [->|NE]; [|reflexivity]. rewrite NB. split; intros (y & A & B & _); [discriminate|]. congruence.
  - apply srt_ext. intros a I. unfold pt. cbn. rewrite upd_neq; [reflexivity|]. intros ->. tauto.
Qed.
(** a rewrite that keeps the listing *)
Lemma inv_obj s held l a r r' : inv s held l -> ob s a = Some r -> rewritten r r' -> r_in r = false \/ (r_purge r' = 0 <-> r_purge r = 0) -> inv (set_obj s a (Some r')) held l.
Proof.
  intros [C L LS] OA (RI & RK & RR) P. constructor; [exact (core_obj _ _ _ _ _ C OA RI RK RR)|exact (links_obj _ _ _ _ _ L OA)|]. intros x. rewrite LS. unfold listed. cbn. unfold upd.
  destruct (Pos.eqb_spec x a) as [->|NE]; [|reflexivity]. rewrite OA. split; intros (y & A & B & D); injection A as <-; eexists; (split; [reflexivity|]); (destruct P as [P|P]; [congruence|]); (split; [congruence|]); tauto.
Qed.
Lemma srt_obj s l a r r' : ob s a = Some r -> r_purge r' = r_purge r \/ ~ In a l -> srt s l -> srt (set_obj s a (Some r')) l.
Proof.
  intros OA P. apply srt_ext. intros x I. unfold pt. cbn. unfold upd. destruct (Pos.eqb_spec x a) as [->|NE]; [|reflexivity]. rewrite OA. destruct P; [assumption|contradiction].
Qed.
Lemma inv_drop s held l a r : inv s held l -> held a <> 0%N -> ob s a = Some r ->
  exists s', drop_ref s a = Ret s' /\ inv s' (hsub held a) l /\ (srt s l -> srt s' l) /\ quiet s s'
    /\ (forall x, x <> a -> ob s' x = ob s x) /\ (forall y, ob s' a = Some y -> y = with_refs r (r_refs r - 1)) /\ (ob s' a = None -> r_in r = false).
Proof.
  intros [C L LS] H OA. destruct (core_drop _ _ _ _ C H OA) as (s' & E & C' & SH). exists s'. split; [exact E|].
  destruct SH as [(-> & T & _)| ->].
  - assert (NI : ~ In a l) by (intros X; apply LS in X; destruct X as (y & A & B & _); congruence). split; [|split; [|split; [repeat split|]]].
    + constructor; [exact C'|apply links_free; assumption|]. intros x. rewrite LS. unfold listed. cbn. unfold upd. destruct (Pos.eqb_spec x a) as [->|NE]; [|reflexivity].
      split; intros (y & A & B & _); [congruence|discriminate].
    + apply srt_ext. intros x I. unfold pt. cbn. rewrite upd_neq; [reflexivity|]. intros ->. tauto.
    + cbn. split; [intros x NE; apply upd_neq; exact NE|]. rewrite upd_eq. split; [discriminate|auto].
  - split; [|split; [|split; [repeat split|]]].
    + constructor; [exact C'|exact (links_obj _ _ _ _ _ L OA)|]. intros x. rewrite LS. unfold listed. cbn. unfold upd. destruct (Pos.eqb_spec x a) as [->|NE]; [|reflexivity].
      rewrite OA. split; intros (y & A & B & D); injection A as <-; eexists; (split; [reflexivity|]); auto.
    + apply (srt_obj _ _ _ r); [exact OA|left; reflexivity].
    + cbn. split; [intros x NE; apply upd_neq; exact NE|]. rewrite upd_eq. split; [intros y X; congruence|discriminate].
Qed.
Lemma inv_ext s held held' l : (forall x, held' x = held x) -> inv s held l -> inv s held' l.
Proof. intros H []. constructor; try assumption. exact (core_ext _ _ _ H i_core). Qed.
Lemma core_enter s held a r t : core s (hadd held a) -> ob s a = Some r -> r_in r = false -> kinsert rkey kcmp (tb s) (r_key r, a) = Some t ->
  core (set_obj (set_tb s t) a (Some (with_in r true))) held.
Proof.
  intros C OA T E. pose proof (kinsert_spec rkey kcmp kcmp_TO kcmp_EQ (tb s) (r_key r, a) (c_sorted _ _ C)) as K. rewrite E in K. destruct K as (_ & KS & KI).
  constructor; cbn.
  - exact KS.
  - intros k x. rewrite KI, (c_tb _ _ C). unfold upd. destruct (Pos.eqb_spec x a) as [->|NE].
    + split.
      * intros [X|(y & A & B & _)]; [|congruence]. injection X as ->. eexists. repeat split.
      * intros (y & A & B & D). injection A as <-. left. cbn in D. congruence.
    + split; [intros [X|X]; [congruence|exact X]|auto].
  - intros x LE. rewrite upd_neq; [apply (c_brk _ _ C); exact LE|]. intros ->. rewrite (c_brk _ _ C a LE) in OA. discriminate.
  - intros x y. unfold upd. destruct (Pos.eqb_spec x a) as [->|NE].
    + intros X. injection X as <-. cbn [with_in r_refs r_in]. rewrite (c_refs _ _ C a r OA), T, hadd_eq. lia.
    + intros X. rewrite (c_refs _ _ C x y X), hadd_neq by exact NE. reflexivity.
  - intros x y. unfold upd. destruct (Pos.eqb_spec x a) as [->|NE]; [|apply (c_alive _ _ C)]. intros X. injection X as <-. cbn. exact (c_alive _ _ C a r OA).
  - intros x H. unfold upd. destruct (Pos.eqb_spec x a) as [->|NE]; [discriminate|]. apply (c_held _ _ C). rewrite hadd_neq by exact NE. exact H.
Qed.
Lemma may_move_purge s s' held l0 c b t : inv s held (l0 ++ [c]) -> inv s' held l0 -> removed s s' c -> (forall x, ~ In x (l0 ++ [c]) -> lk s' x = lk s x) -> b <> c ->
  may_move s b t -> may_move s' b t.
Proof.
  intros I I' RM FR NE M. destruct (l_dll _ _ (i_links _ _ _ I)) as (ND & HD & TL & SG). destruct (l_dll _ _ (i_links _ _ _ I')) as (ND' & HD' & TL' & SG').
  unfold may_move in *. rewrite HD in M. rewrite HD'. destruct l0 as [|h l0]; [right; right; exact Logic.I|]. cbn [app hdor] in *. destruct M as [M|[(le & LE & PN)|M]].
  - left. exact M.
  - destruct (in_dec Pos.eq_dec b (h :: l0 ++ [c])) as [IN|NI].
    + destruct IN as [->|IN]; [left; reflexivity|]. exfalso. destruct (in_split _ _ IN) as (m1 & m2 & EM). rewrite EM in SG. change (h :: m1 ++ b :: m2) with ((h :: m1) ++ b :: m2) in SG.
      apply seg_app in SG. destruct SG as [_ SG]. cbn [seg] in SG. destruct SG as [SG _]. rewrite LE in SG. injection SG as ->. cbn in PN. cbn [lastor] in PN. destruct (snoc_case m1) as [->|(m & q & ->)]; [discriminate|].
      rewrite lastor_app in PN. discriminate.
    + right. left. exists le. rewrite FR by exact NI. auto.
  - right. right. destruct M as (r & O & LE). exists r. split; [|exact LE]. rewrite (m_ob _ _ _ RM); [exact O|]. intros ->. apply NoDup_cons_iff in ND. destruct ND as [X _]. apply X. apply in_or_app. cbn. auto.
Qed.

(** what every call does to the invariant *)
Definition steps_to (s : pst) (held held' : addr -> N) (l : list addr) (sorted : Prop) (m : out (err * pst)) (s' : pst) (l' : list addr) : Prop :=
  (exists e, m = Ret (e, s')) /\ inv s' held' l' /\ (sorted -> srt s l -> srt s' l').

(** the end of insert_2: the new route is released *)
Lemma insert_fail s held l a r : inv s (hadd held a) l -> ob s a = Some r ->
  exists s', drop_ref s a = Ret s' /\ inv s' held l /\ (srt s l -> srt s' l) /\ quiet s s' /\ (forall x, x <> a -> ob s' x = ob s x).
Proof.
  intros I OA. destruct (inv_drop s (hadd held a) l a r I) as (s' & E & I' & S' & Q & O' & _); [rewrite hadd_eq; lia|exact OA|].
  exists s'. split; [exact E|]. split; [|auto]. exact (inv_ext _ _ _ _ (fun x => eq_sym (sub_hadd held a x)) I').
Qed.

Definition bound (n : Z) (l l' : list addr) : Prop := 0 < n -> Z.of_nat (length l') <= Z.max (Z.of_nat (length l)) n.
Lemma insert_2_ok s held l k ev t conn clock stop hres : inv s held l -> gentle s held (Insert k ev t conn clock stop hres) ->
  exists e s' l', insert_2 s k ev t conn clock stop hres = Ret (e, s') /\ inv s' held l' /\ (srt s l -> srt s' l') /\ bound (maxp s) l l' /\ maxp s' = maxp s.
Proof.
  intros I (G1 & G2 & G3). unfold insert_2.
  destruct (inv_alloc s held l (mkr k ev false false false false 0 t 0 1) I eq_refl eq_refl) as (IA & NI & SA & H0).
  set (a := brk s) in *. set (r0 := mkr k ev false false false false 0 t 0 1) in *. set (s0 := snd (alloc s r0)) in *. change (alloc s r0) with (a, s0). cbn iota beta.
  assert (OA0 : ob s0 a = Some r0) by (cbn; apply upd_eq).
  assert (B0 : bound (maxp s) l l) by (intros P; lia).
  (* a failure before anything happened *)
  assert (FAIL : forall e : err, exists e' s' l', (let* s1 := drop_ref s0 a in Ret (e, s1)) = Ret (e', s') /\ inv s' held l' /\ (srt s l -> srt s' l') /\ bound (maxp s) l l' /\ maxp s' = maxp s).
  { intros e. destruct (insert_fail _ _ _ _ _ IA OA0) as (s' & E & I' & S' & Q & _). exists e, s', l. rewrite E. cbn [bind]. split; [reflexivity|]. split; [exact I'|]. split; [auto|]. split; [exact B0|exact (proj1 (proj2 Q))]. }
  unfold insert_1, deref. rewrite OA0. cbn [ub_none bind]. destruct clock as [now|]; [|cbn [bind is_success]; apply FAIL].
  change (r_purge r0) with t. destruct (negb (t =? 0) && (t <=? now)) eqn:BAD; [cbn [bind is_success]; apply FAIL|]. clear BAD.
  set (r1 := if conn then with_conns r0 (r_conns r0 + 1) else r0). change (evs s0) with (evs s).
  assert (R1 : rewritten r0 r1 /\ r_purge r1 = t /\ r_ev r1 = ev) by (unfold r1; destruct conn; repeat split). destruct R1 as ((R1a & R1b & R1c) & R1p & R1e). rewrite R1e, R1p.
  set (T := time_on_insert s ev t now).
  set (r2 := if (0 <? e_idle (evs s ev)) && (t =? 0) then with_purge r1 (now + e_idle (evs s ev)) else r1).
  assert (R2 : rewritten r0 r2 /\ r_purge r2 = T /\ r_ev r2 = ev /\ r_ic r2 = false).
  { unfold r2, T, time_on_insert. destruct ((0 <? e_idle (evs s ev)) && (t =? 0)); (split; [repeat split; assumption|]); (split; [first [reflexivity|exact R1p]|]); (split; [exact R1e|]); unfold r1; destruct conn; reflexivity. }
  destruct R2 as (R2r & R2p & R2e & R2i). set (s1 := set_obj s0 a (Some r2)).
  assert (I1 : inv s1 (hadd held a) l) by (apply (inv_obj _ _ _ _ _ _ IA OA0 R2r); left; reflexivity).
  assert (S1 : srt s l -> srt s1 l) by (intros S0; apply (srt_obj _ _ _ _ _ OA0); [right; exact NI|auto]).
  assert (OA1 : ob s1 a = Some r2) by (cbn; apply upd_eq).
  assert (LK1 : lk s1 a = Some (mklnk None None)) by (cbn; apply upd_eq).
  assert (MM1 : forall b rb, route s1 b rb -> r_key rb = k -> r_pend rb = true -> b <> a -> may_move s1 b T).
  { intros b rb [IB OB] KB PB NE. cbn in IB, OB. rewrite !upd_neq in OB by exact NE. pose proof (G2 now b rb eq_refl (conj IB OB) KB PB) as M. unfold may_move in *. cbn. fold T in M.
    destruct M as [M|[M|M]]; [left; exact M|right; left; rewrite upd_neq by exact NE; exact M|right; right]. destruct (lhead (hd s)) as [h|] eqn:EH; [|exact Logic.I]. destruct M as (y & O & LE). exists y. split; [|exact LE].
    assert (h <> a) by (intros ->; rewrite (c_brk _ _ (i_core _ _ _ I) a) in O by (unfold a; lia); discriminate). rewrite !upd_neq by assumption. exact O. }
  rewrite R2p. change (maxp s1) with (maxp s). change (len s1) with (len s).
  (* purging one *)
  assert (P : exists s2 l2, (if negb (T =? 0) && (0 <? maxp s) && (maxp s <=? len s) then stale_purge s1 3 0 None else Ret (OK, s1)) = Ret (OK, s2)
      /\ inv s2 (hadd held a) l2 /\ (srt s1 l -> srt s2 l2) /\ ob s2 a = Some r2 /\ lk s2 a = Some (mklnk None None) /\ maxp s2 = maxp s /\ evs s2 = evs s /\ ~ In a l2
      /\ (forall b rb, route s2 b rb -> r_key rb = k -> r_pend rb = true -> b <> a -> may_move s2 b T)
      /\ bound (maxp s) l l2 /\ (T <> 0 -> 0 < maxp s -> Z.of_nat (length l2) + 1 <= Z.max (Z.of_nat (length l)) (maxp s))).
  { pose proof (l_len _ _ (i_links _ _ _ I)) as LEN. destruct (negb (T =? 0) && (0 <? maxp s) && (maxp s <=? len s)) eqn:EC.
    - apply andb_true_iff in EC. destruct EC as [EC ML]. apply andb_true_iff in EC. destruct EC as [TZ MP]. apply Z.ltb_lt in MP. apply Z.leb_le in ML.
      destruct (stale_purge3_ok s1 (hadd held a) l I1) as (s2 & l0 & c & E & EL & I2 & SR & RM & LK). { intros ->. cbn in LEN. lia. }
      assert (NC : a <> c) by (intros ->; apply NI; rewrite EL; apply in_or_app; cbn; auto).
      exists s2, l0. split; [exact E|]. split; [exact I2|]. split; [exact SR|]. split; [rewrite (m_ob _ _ _ RM) by exact NC; exact OA1|]. split; [rewrite LK by exact NI; exact LK1|].
      split; [exact (m_max _ _ _ RM)|]. split; [exact (m_evs _ _ _ RM)|]. split; [intros X; apply NI; rewrite EL; apply in_or_app; auto|]. split; [|split].
      + intros b rb [IB OB] KB PB NE. rewrite (m_tb _ _ _ RM) in IB. apply untable_in in IB. destruct IB as [IB NB]. cbn in NB. rewrite (m_ob _ _ _ RM) in OB by exact NB. rewrite EL in I1.
        apply (may_move_purge s1 s2 (hadd held a) l0 c b T I1 I2 RM); [rewrite <- EL; exact LK|exact NB|]. apply (MM1 b rb); try assumption. split; assumption.
      + intros _. rewrite EL, app_length. cbn. lia.
      + intros _ _. rewrite EL, app_length. cbn. lia.
    - exists s1, l. split; [reflexivity|]. split; [exact I1|]. split; [auto|]. split; [exact OA1|]. split; [exact LK1|]. split; [reflexivity|]. split; [reflexivity|]. split; [exact NI|]. split; [exact MM1|]. split; [exact B0|].
      intros TZ MP. apply andb_false_iff in EC. destruct EC as [EC|EC]; [apply andb_false_iff in EC; destruct EC as [EC|EC]|]; [apply negb_false_iff, Z.eqb_eq in EC; contradiction|apply Z.ltb_ge in EC; lia|apply Z.leb_gt in EC; lia]. }
  destruct P as (s2 & l2 & EP & I2 & S2 & OA2 & LK2 & MX2 & EV2 & NI2 & MM2 & BD2 & BD3). rewrite EP. cbn [bind is_success negb].
  destruct R2r as (R2a & R2b & R2c). change (r_key r0) with k in R2b. change (r_in r0) with false in R2a. rewrite R2b.
  pose proof (core_find s2 (hadd held a) k (i_core _ _ _ I2)) as FD.
  pose proof (kinsert_spec rkey kcmp kcmp_TO kcmp_EQ (tb s2) (k, a) (c_sorted _ _ (i_core _ _ _ I2))) as KS. cbn [rkey fst] in KS.
  destruct (kinsert rkey kcmp (tb s2) (k, a)) as [tb'|] eqn:KI.
  - (* a new key *)
    clear FD KS. set (s3 := set_obj (set_tb s2 tb') a (Some (with_in r2 true))).
    assert (C3 : core s3 held). { apply core_enter; [exact (i_core _ _ _ I2)|exact OA2|exact R2a|]. rewrite R2b. exact KI. }
    assert (L3 : links s3 l2) by (apply (links_obj _ _ _ r2); [apply links_tb; exact (i_links _ _ _ I2)|exact OA2]).
    assert (OA3 : ob s3 a = Some (with_in r2 true)) by (cbn; apply upd_eq).
    assert (S3 : srt s2 l2 -> srt s3 l2). { apply srt_ext. intros x J. unfold pt. cbn. rewrite upd_neq; [reflexivity|]. intros ->. contradiction. }
    assert (LS3 : forall x, x <> a -> (In x l2 <-> listed s3 x)). { intros x NE. rewrite (i_listed _ _ _ I2). unfold listed. cbn. rewrite upd_neq by exact NE. reflexivity. }
    unfold run_insert_actions, deref. rewrite OA3. cbn [ub_none bind]. change (evs s3) with (evs s2). rewrite EV2. change (r_ev (with_in r2 true)) with (r_ev r2). rewrite R2e. change (r_ic (with_in r2 true)) with (r_ic r2). rewrite R2i.
    (* the common success *)
    assert (WIN : forall s4 r4 e, core s4 held -> links s4 l2 -> ob s4 a = Some r4 -> r_in r4 = true -> r_purge r4 = T -> (srt s3 l2 -> srt s4 l2) -> (forall x, x <> a -> (In x l2 <-> listed s4 x)) -> lk s4 = lk s3 -> maxp s4 = maxp s -> is_success e = true ->
       exists e' s' l', (let* (e0, there, s5) := (let* s6 := if r_purge r4 =? 0 then Ret s4 else pl_insert s4 a in Ret (e, @None addr, s6)) in
                     let* s6 := match there, is_success e0 with None, true => Ret s5 | _, _ => drop_ref s5 a end in Ret (e0, s6)) = Ret (e', s') /\ inv s' held l' /\ (srt s l -> srt s' l') /\ bound (maxp s) l l' /\ maxp s' = maxp s).
    { intros s4 r4 e C4 L4 O4 T4 P4 S4 LS4 LK4 MX4 SU. rewrite P4. destruct (Z.eqb_spec T 0) as [Z0|NZ].
      - cbn [bind]. rewrite SU. cbn [bind]. exists e, s4, l2. split; [reflexivity|]. split; [|split; [auto|split; [exact BD2|exact MX4]]]. constructor; [exact C4|exact L4|]. intros x. destruct (Pos.eq_dec x a) as [->|NE]; [|auto].
        split; [tauto|]. intros (y & A & _ & B). congruence.
      - destruct (pl_insert_ok s4 l2 a r4 L4 NI2 O4) as (s5 & m1 & m2 & E5 & EL & AT & L5 & Q5). { left. rewrite LK4. cbn. rewrite LK2. eexists. split; reflexivity. }
        rewrite E5. cbn [bind]. rewrite SU. cbn [bind]. destruct (quiet_list _ _ Q5) as [Q6 EO5]. exists e, s5, (m1 ++ a :: m2). split; [reflexivity|]. split; [|split; [|split]].
        + constructor; [exact (core_quiet _ _ _ Q6 EO5 C4)|exact L5|]. intros x. unfold listed. rewrite EO5, in_app_iff. cbn. destruct (Pos.eq_dec x a) as [->|NE].
          * split; [|auto]. intros _. exists r4. rewrite P4. auto.
          * specialize (LS4 x NE). unfold listed in LS4. rewrite <- LS4, EL, in_app_iff. split; [intros [X|[X|X]]; [auto|congruence|auto]|tauto].
        + intros S0. apply (srt_ext s4); [intros x _; unfold pt; rewrite EO5; reflexivity|]. apply srt_insert; [rewrite (pt_at _ _ _ O4); exact AT|]. rewrite <- EL. auto.
        + intros MP. specialize (BD3 NZ MP). rewrite EL in BD3. rewrite app_length in *. cbn. lia.
        + destruct Q6 as (_ & Q6 & _). rewrite Q6. exact MX4. }
    destruct (e_ins (evs s ev)) eqn:EI; cbn [negb].
    2: { cbn [bind]. unfold deref. rewrite OA3. cbn [ub_none bind is_success]. apply (WIN s3 (with_in r2 true) OK); try assumption; try reflexivity; auto. }
    destruct stop eqn:ST; [|destruct (is_success hres) eqn:SH].
    + cbn [bind]. unfold deref. rewrite OA3. cbn [ub_none bind is_success].
      destruct (G1 eq_refl (or_introl eq_refl)) as [T0 I0]. assert (TZ : T = 0). { unfold T, time_on_insert. destruct (Z.ltb_spec 0 (e_idle (evs s ev))); [lia|]. cbn. exact T0. }
      change (r_purge (with_in r2 true)) with (r_purge r2). rewrite R2p, TZ. cbn [Z.eqb bind].
      assert (I4 : inv (set_obj (set_tb s3 (untable (tb s3) a)) a (Some (with_in (with_in r2 true) false))) (hadd held a) l2).
      { constructor; [apply core_leave; [exact C3|exact OA3|reflexivity]|apply (links_obj _ _ _ (with_in r2 true)); [apply links_tb; exact L3|exact OA3]|]. intros x. unfold listed. cbn. unfold upd. destruct (Pos.eqb_spec x a) as [->|NE].
        - split; [contradiction|]. intros (y & A & B & _). injection A as <-. discriminate.
        - specialize (LS3 x NE). unfold listed in LS3. cbn in LS3. rewrite upd_neq in LS3 by exact NE. exact LS3. }
      destruct (insert_fail _ _ _ _ (with_in (with_in r2 true) false) I4) as (s5 & E5 & I5 & S5 & Q5 & _); [cbn; apply upd_eq|]. rewrite E5. cbn [bind]. exists ALREADY_STOPPED, s5, l2. split; [reflexivity|]. split; [exact I5|]. split; [|split; [exact BD2|]].
      * intros S0. apply S5. apply (srt_ext s3); [|auto]. intros x J. unfold pt. cbn. rewrite !upd_neq by (intros ->; contradiction). reflexivity.
      * destruct Q5 as (_ & Q5 & _). rewrite Q5. exact MX2.
    + cbn [bind]. unfold deref. cbn [ob say set_obj]. rewrite upd_eq. cbn [ub_none bind]. rewrite SH.
      apply (WIN _ (with_ic (with_in r2 true) true) hres); try reflexivity; try assumption.
      * apply core_say. apply (core_obj _ _ _ _ _ C3 OA3); reflexivity.
      * apply links_say. exact (links_obj _ _ _ _ _ L3 OA3).
      * cbn. apply upd_eq.
      * intros S0. apply (srt_ext s3); [|exact S0]. intros x J. unfold pt. cbn. rewrite !upd_neq by (intros ->; contradiction). reflexivity.
      * intros x NE. rewrite (LS3 x NE). unfold listed. cbn. rewrite !upd_neq by exact NE. reflexivity.
    + cbn [bind]. unfold deref. cbn [ob say set_obj]. rewrite upd_eq. cbn [ub_none bind]. rewrite SH.
      destruct (G1 eq_refl (or_intror eq_refl)) as [T0 I0]. assert (TZ : T = 0). { unfold T, time_on_insert. destruct (Z.ltb_spec 0 (e_idle (evs s ev))); [lia|]. cbn. exact T0. }
      change (r_purge (with_ic (with_in r2 true) true)) with (r_purge r2). rewrite R2p, TZ. cbn [Z.eqb bind]. rewrite SH.
      set (s4 := say (set_obj s3 a (Some (with_ic (with_in r2 true) true))) (Inserted a)).
      assert (C4 : core s4 held) by (apply core_say, (core_obj _ _ _ _ _ C3 OA3); reflexivity). assert (L4 : links s4 l2) by (apply links_say; exact (links_obj _ _ _ _ _ L3 OA3)). assert (OA4 : ob s4 a = Some (with_ic (with_in r2 true) true)) by (cbn; apply upd_eq).
      assert (I4 : inv (set_obj (set_tb s4 (untable (tb s4) a)) a (Some (with_in (with_ic (with_in r2 true) true) false))) (hadd held a) l2).
      { constructor; [apply core_leave; [exact C4|exact OA4|reflexivity]|apply (links_obj _ _ _ (with_ic (with_in r2 true) true)); [apply links_tb; exact L4|exact OA4]|]. intros x. unfold listed. cbn. unfold upd. destruct (Pos.eqb_spec x a) as [->|NE].
        - split; [contradiction|]. intros (y & A & B & _). injection A as <-. discriminate.
        - specialize (LS3 x NE). unfold listed in LS3. cbn in LS3. rewrite upd_neq in LS3 by exact NE. exact LS3. }
      destruct (insert_fail _ _ _ _ (with_in (with_ic (with_in r2 true) true) false) I4) as (s5 & E5 & I5 & S5 & Q5 & _); [cbn; apply upd_eq|]. rewrite E5. cbn [bind]. exists hres, s5, l2. split; [reflexivity|]. split; [exact I5|]. split; [|split; [exact BD2|]].
      * intros S0. apply S5. apply (srt_ext s3); [|auto]. intros x J. unfold pt. cbn. rewrite !upd_neq by (intros ->; contradiction). reflexivity.
      * destruct Q5 as (_ & Q5 & _). rewrite Q5. exact MX2.
  - (* the key is there already *)
    destruct KS as [y KF]. rewrite KF in FD |- *. destruct y as [k' b]. destruct FD as (-> & rb & OB & TB & KB & RB).
    assert (NE : b <> a) by (intros ->; congruence). unfold deref. rewrite OB. cbn [ub_none bind].
    destruct (r_pend rb) eqn:PB.
    + set (s3 := set_obj s2 b (Some (with_pend rb false))).
      assert (I3 : inv s3 (hadd held a) l2) by (apply (inv_obj _ _ _ _ _ _ I2 OB); [repeat split|right; reflexivity]).
      assert (OB3 : ob s3 b = Some (with_pend rb false)) by (cbn; apply upd_eq).
      destruct (relist_ok s3 (hadd held a) l2 b (with_pend rb false) (with_purge (with_pend rb false) T) I3 OB3 TB) as (s4 & l4 & E4 & I4 & S4 & Q4 & O4); [repeat split| |].
      { intros _. pose proof (MM2 b rb RB KB PB NE) as M. unfold may_move in *. cbn. destruct M as [M|[M|M]]; [auto|auto|right; right]. destruct (lhead (hd s2)) as [h|]; [|exact Logic.I]. destruct M as (y & O & LE).
        destruct (Pos.eq_dec h b) as [->|NH]; [exists (with_pend rb false); rewrite upd_eq; split; [reflexivity|]; cbn; congruence|]. exists y. rewrite upd_neq by exact NH. auto. }
      unfold retime, deref. rewrite OB3. cbn [ub_none bind]. cbn [r_purge with_purge] in E4. rewrite E4. cbn [bind is_success].
      assert (OA4 : ob s4 a = Some r2). { rewrite O4. destruct (Pos.eqb_spec a b) as [X|_]; [congruence|]. cbn. rewrite upd_neq by congruence. exact OA2. }
      destruct (insert_fail _ _ _ _ _ I4 OA4) as (s5 & E5 & I5 & S5 & Q5 & _). rewrite E5. cbn [bind]. exists S_ALREADY_OK, s5, l4. split; [reflexivity|]. split; [exact I5|]. split; [|split].
      * intros S0. apply S5, S4. apply (srt_obj _ _ _ _ _ OB); [left; reflexivity|auto].
      * assert (IN4 : forall x, In x l4 -> x = b /\ T <> 0 \/ In x l2).
        { intros x J. apply (i_listed _ _ _ I4) in J. destruct J as (y & A & B & P). rewrite O4 in A. destruct (Pos.eqb_spec x b) as [->|NX].
          - left. split; [reflexivity|]. injection A as <-. exact P.
          - right. apply (i_listed _ _ _ I2). cbn in A. rewrite upd_neq in A by exact NX. exists y. auto. }
        assert (ND4 : NoDup l4) by exact (proj1 (l_dll _ _ (i_links _ _ _ I4))).
        destruct (Z.eq_dec T 0) as [TZ|TZ].
        { assert (LE : (length l4 <= length l2)%nat) by (apply NoDup_incl_length; [exact ND4|]; intros x J; destruct (IN4 x J) as [[_ X]|X]; [contradiction|exact X]). intros MP. specialize (BD2 MP). lia. }
        assert (LE : (length l4 <= length (b :: l2))%nat) by (apply NoDup_incl_length; [exact ND4|]; intros x J; destruct (IN4 x J) as [[-> _]|X]; cbn; auto). cbn in LE.
        intros MP. specialize (BD3 TZ MP). lia.
      * destruct Q5 as (_ & Q5 & _). destruct Q4 as (_ & Q4 & _). rewrite Q5, Q4. exact MX2.
    + cbn [bind is_success]. destruct (insert_fail _ _ _ _ _ I2 OA2) as (s5 & E5 & I5 & S5 & Q5 & _). rewrite E5. cbn [bind]. exists ITEM_ALREADY_PRESENT, s5, l2. split; [reflexivity|]. split; [exact I5|]. split; [auto|]. split; [exact BD2|].
      destruct Q5 as (_ & Q5 & _). rewrite Q5. exact MX2.
Qed.

Lemma defer_ok s held l a r : inv s held l -> ob s a = Some r -> r_in r = true ->
  (r_purge r < r_hit r + FIN_TIMEOUT -> r_hit r + FIN_TIMEOUT <> 0 /\ may_move s a (r_hit r + FIN_TIMEOUT)) ->
  exists s' l', defer_delete s a r = Ret (S_DEFERRED, s') /\ inv s' held l' /\ (srt s l -> srt s' l') /\ quiet s s'
    /\ forall x, ob s' x = if Pos.eqb x a then Some (with_purge (with_pend r true) (Z.max (r_purge r) (r_hit r + FIN_TIMEOUT))) else ob s x.
Proof.
  intros I OA T G. unfold defer_delete. cbn [r_purge r_hit with_pend]. set (r1 := with_pend r true). set (s1 := set_obj s a (Some r1)).
  assert (I1 : inv s1 held l) by (apply (inv_obj _ _ _ _ _ _ I OA); [repeat split|right; reflexivity]).
  assert (S1 : srt s l -> srt s1 l) by (apply (srt_obj _ _ _ _ _ OA); left; reflexivity).
  assert (OA1 : ob s1 a = Some r1) by (cbn; apply upd_eq).
  destruct (Z.ltb_spec (r_purge r) (r_hit r + FIN_TIMEOUT)) as [LT|GE].
  - destruct (G LT) as [NZ MM].
    destruct (relist_ok s1 held l a r1 (with_purge r1 (r_hit r + FIN_TIMEOUT)) I1 OA1 T) as (s2 & l2 & E2 & I2 & S2 & Q2 & O2); [repeat split| |].
    { intros _. cbn [r_purge with_purge]. unfold may_move in *. cbn. destruct MM as [M|[M|M]]; [auto|auto|right; right]. destruct (lhead (hd s)) as [h|]; [|exact Logic.I]. destruct M as (y & O & LE).
      destruct (Pos.eq_dec h a) as [->|NH]; [exists r1; rewrite upd_eq; split; [reflexivity|]; cbn; congruence|]. exists y. rewrite upd_neq by exact NH. auto. }
    cbn [r_purge with_purge r1 with_pend] in E2. destruct (Z.eqb_spec (r_hit r + FIN_TIMEOUT) 0) as [X|_]; [contradiction|].
    destruct (if r_purge r =? 0 then Ret s1 else pl_delete s1 a) as [s3| |]; cbn [bind] in E2 |- *; try discriminate. rewrite E2. cbn [bind].
    exists s2, l2. split; [reflexivity|]. split; [exact I2|]. split; [auto|]. split; [exact (quiet_trans _ _ _ (quiet_obj s a (Some r1)) Q2)|]. intros x. rewrite O2, Z.max_r by lia. cbn. unfold upd. destruct (Pos.eqb_spec x a); reflexivity.
  - exists s1, l. split; [reflexivity|]. split; [exact I1|]. split; [exact S1|]. split; [apply quiet_obj|]. intros x. rewrite Z.max_l by lia. cbn. unfold upd. destruct (Pos.eqb_spec x a); [|reflexivity]. destruct r; reflexivity.
Qed.

Lemma delete_key_ok s held l k : inv s held l -> gentle s held (Delete k) ->
  exists e s' l', step s (Delete k) = Ret (e, s') /\ inv s' held l' /\ (srt s l -> srt s' l').
Proof.
  intros I G. cbn [step gentle] in *. pose proof (core_find _ _ k (i_core _ _ _ I)) as F. destruct (kfind rkey kcmp (tb s) k) as [[k' a]|]; [|exists ITEM_NOT_FOUND, s, l; auto].
  destruct F as (-> & r & OA & T & K & R). destruct (true && (0 <? r_conns r)%N) eqn:D.
  - unfold delete_0, deref. rewrite OA. cbn [ub_none bind]. rewrite D. apply andb_true_iff in D. destruct D as [_ D]. apply N.ltb_lt in D.
    destruct (defer_ok s held l a r I OA T) as (s' & l' & E & I' & S' & _); [intros LT; exact (G a r R K D LT)|]. exists S_DEFERRED, s', l'. auto.
  - destruct (delete_now_ok s held l a r true I OA T D) as (s' & l' & E & I' & S' & _). exists OK, s', l'. auto.
Qed.

Lemma refresh_ok s held l a r now : inv s held l -> ob s a = Some r -> r_in r = true -> 0 < now -> 0 <= e_idle (evs s (r_ev r)) ->
  (r_purge r <> 0 -> now + e_idle (evs s (r_ev r)) >= r_purge r -> ltail (hd s) = Some a \/ may_move s a (now + e_idle (evs s (r_ev r)) + PURGE_MARGIN)) ->
  exists s' l' r', refresh s a (e_idle (evs s (r_ev r))) (Some now) = Ret s' /\ inv s' held l' /\ quiet s s'
    /\ (forall x, ob s' x = if Pos.eqb x a then Some r' else ob s x) /\ r_conns r' = r_conns r /\ r_key r' = r_key r /\ r_ev r' = r_ev r /\ r_pend r' = r_pend r
    /\ (r_purge r = 0 -> r_purge r' = 0) /\ (r_purge r <> 0 -> now < r_purge r')
    /\ ((r_purge r <> 0 -> now + e_idle (evs s (r_ev r)) >= r_purge r -> ltail (hd s) = Some a ->
         forall b, listed s b -> b <> a -> now + e_idle (evs s (r_ev r)) + PURGE_MARGIN <= pt s b) -> srt s l -> srt s' l').
Proof.
  intros I OA T NP IP G. set (idle := e_idle (evs s (r_ev r))) in *. unfold refresh, deref. rewrite OA. cbn [ub_none bind]. set (r1 := with_hit r now). set (s1 := set_obj s a (Some r1)).
  assert (I1 : inv s1 held l) by (apply (inv_obj _ _ _ _ _ _ I OA); [repeat split|right; reflexivity]).
  assert (S1 : srt s l -> srt s1 l) by (apply (srt_obj _ _ _ _ _ OA); left; reflexivity).
  assert (OA1 : ob s1 a = Some r1) by (cbn; apply upd_eq).
  cbn [r_purge r_hit r1 with_hit].
  assert (O1 : forall x, ob s1 x = if Pos.eqb x a then Some r1 else ob s x) by (intros x; reflexivity).
  destruct (Z.eqb_spec (r_purge r) 0) as [Z0|NZ].
  { exists s1, l, r1. split; [reflexivity|]. split; [exact I1|]. split; [apply quiet_obj|]. split; [exact O1|]. cbn. repeat (split; [reflexivity|]). split; [auto|]. split; [congruence|auto]. }
  assert (EQC : (now + idle + PURGE_MARGIN - r_purge r >=? PURGE_MARGIN) = (now + idle >=? r_purge r)).
  { destruct (Z.geb_spec (now + idle + PURGE_MARGIN - r_purge r) PURGE_MARGIN), (Z.geb_spec (now + idle) (r_purge r)); try reflexivity; lia. }
  rewrite EQC. clear EQC. destruct (Z.geb_spec (now + idle) (r_purge r)) as [GE|LT].
  2: { exists s1, l, r1. split; [reflexivity|]. split; [exact I1|]. split; [apply quiet_obj|]. split; [exact O1|]. cbn. repeat (split; [reflexivity|]). split; [congruence|]. split; [lia|auto]. }
  set (r2 := with_purge r1 (now + idle + PURGE_MARGIN)).
  assert (NZ2 : r_purge r2 <> 0) by (cbn; unfold PURGE_MARGIN; lia).
  assert (OBF : forall x, ob (set_obj s1 a (Some r2)) x = if Pos.eqb x a then Some r2 else ob s x) by (intros x; cbn; unfold upd; destruct (Pos.eqb x a); reflexivity).
  change (hd (set_obj s1 a (Some r2))) with (hd s). destruct (eqo a (ltail (hd s))) eqn:ET.
  - assert (TL : ltail (hd s) = Some a). { unfold eqo in ET. destruct (ltail (hd s)) as [b|]; [|discriminate]. apply Pos.eqb_eq in ET. congruence. }
    exists (set_obj s1 a (Some r2)), l, r2. split; [reflexivity|]. split.
    { apply (inv_obj _ _ _ _ _ _ I1 OA1); [repeat split|right]. cbn [r_purge r2 r1 with_purge with_hit] in *. tauto. }
    split; [repeat split|]. split; [exact OBF|]. cbn [r_purge r2 r1 with_purge with_hit r_conns r_key r_ev r_pend]. repeat (split; [reflexivity|]). split; [congruence|]. split; [unfold PURGE_MARGIN; lia|].
    intros OR S0. specialize (OR NZ ltac:(lia) TL). destruct (inv_tail _ _ _ _ I TL) as (l0 & r' & -> & _). unfold srt in *.
    pose proof (proj1 (l_dll _ _ (i_links _ _ _ I))) as ND. assert (NA : ~ In a l0). { apply NoDup_remove_2 in ND. rewrite app_nil_r in ND. exact ND. }
    apply SS_app in S0. destruct S0 as (SA & _ & _). apply SS_app. split; [|split; [repeat constructor|]].
    + assert (SA' : srt s l0) by exact SA. apply (srt_ext s); [|exact SA']. intros x J. unfold pt. rewrite OBF. destruct (Pos.eqb_spec x a) as [->|]; [contradiction|reflexivity].
    + intros x y J [<- |[]]. unfold pt. rewrite !OBF, Pos.eqb_refl. destruct (Pos.eqb_spec x a) as [->|NE]; [contradiction|]. cbn. apply (OR x); [|exact NE]. apply (i_listed _ _ _ I). apply in_or_app. auto.
  - assert (MM : may_move s a (now + idle + PURGE_MARGIN)). { destruct (G NZ ltac:(lia)) as [X|X]; [|exact X]. rewrite X in ET. cbn in ET. rewrite Pos.eqb_refl in ET. discriminate. }
    destruct (relist_ok s1 held l a r1 r2 I1 OA1 T) as (s2 & l2 & E2 & I2 & S2 & Q2 & O2); [repeat split| |].
    { intros _. cbn [r_purge r2 with_purge]. unfold may_move in *. cbn. destruct MM as [M|[M|M]]; [auto|auto|right; right]. destruct (lhead (hd s)) as [h|]; [|exact Logic.I]. destruct M as (y & O & LE).
      destruct (Pos.eq_dec h a) as [->|NH]; [exists r1; rewrite upd_eq; split; [reflexivity|]; cbn; congruence|]. exists y. rewrite upd_neq by exact NH. auto. }
    cbn [r_purge r1 with_hit] in E2. destruct (Z.eqb_spec (r_purge r) 0) as [X|_]; [contradiction|]. destruct (Z.eqb_spec (r_purge r2) 0) as [X|_]; [contradiction|].
    (* the object is written before the entry is unlinked: the list does not look at it *)
    unfold pl_delete in E2 |- *. change (lk (set_obj s1 a (Some r2))) with (lk s1). change (hd (set_obj s1 a (Some r2))) with (hd s1). destruct (ll_delete (lk s1) (hd s1) a) as [[h hdr]|]; cbn [ub_none bind] in E2 |- *; [|discriminate].
    change (set_list (set_obj s1 a (Some r2)) h hdr (len (set_obj s1 a (Some r2)) - 1)) with (set_obj (set_list s1 h hdr (len s1 - 1)) a (Some r2)). rewrite E2.
    exists s2, l2, r2. split; [reflexivity|]. split; [exact I2|]. split; [exact (quiet_trans _ _ _ (quiet_obj s a (Some r1)) Q2)|]. split; [intros x; rewrite O2; cbn; unfold upd; destruct (Pos.eqb_spec x a); reflexivity|].
    cbn [r_purge r2 r1 with_purge with_hit r_conns r_key r_ev r_pend]. repeat (split; [reflexivity|]). split; [congruence|]. split; [unfold PURGE_MARGIN; lia|]. auto.
Qed.

Lemma route_obj s held l a r : inv s held l -> ob s a = Some r -> r_in r = true -> route s a r.
Proof. intros I O T. split; [exact (core_in _ _ _ _ (i_core _ _ _ I) O T)|exact O]. Qed.
Lemma route_in s held l a r : inv s held l -> route s a r -> r_in r = true.
Proof. intros I [J O]. apply (c_tb _ _ (i_core _ _ _ I)) in J. destruct J as (y & A & B & _). congruence. Qed.
Lemma listed_route s held l a : inv s held l -> (listed s a <-> exists r, route s a r /\ r_purge r <> 0).
Proof.
  intros I. split.
  - intros (r & O & T & P). exists r. split; [exact (route_obj _ _ _ _ _ I O T)|exact P].
  - intros (r & R & P). exists r. split; [exact (proj2 R)|]. split; [exact (route_in _ _ _ _ _ I R)|exact P].
Qed.

Lemma hit_ok s held l k conns clock clock2 : inv s held l -> gentle s held (Hit k conns clock clock2) ->
  exists e s' l', step s (Hit k conns clock clock2) = Ret (e, s') /\ inv s' held l' /\ (orderly s (Hit k conns clock clock2) -> srt s l -> srt s' l').
Proof.
  intros I G. cbn [step gentle orderly] in *. pose proof (core_find _ _ k (i_core _ _ _ I)) as F. destruct (kfind rkey kcmp (tb s) k) as [[k' a]|]; [|exists ITEM_NOT_FOUND, s, l; auto].
  destruct F as (-> & r & OA & T & K & R). specialize (G a r R K). unfold dispatch_hit, deref. rewrite OA. cbn [ub_none bind].
  (* the connection count, at the end *)
  assert (FIN : forall s1 l1 r1, inv s1 held l1 -> ob s1 a = Some r1 -> exists s2, (let* r := ub_none (ob s1 a) in Ret (OK, set_obj s1 a (Some (with_conns r (conns (r_conns r)))))) = Ret (OK, s2) /\ inv s2 held l1 /\ (srt s1 l1 -> srt s2 l1)).
  { intros s1 l1 r1 I1 O1. rewrite O1. cbn [ub_none bind]. eexists. split; [reflexivity|]. split; [apply (inv_obj _ _ _ _ _ _ I1 O1); [repeat split|right; reflexivity]|]. apply (srt_obj _ _ _ _ _ O1). left. reflexivity. }
  destruct clock as [now|].
  - destruct G as (NP & IP & MM & UB). destruct (refresh_ok s held l a r now I OA T NP IP MM) as (s1 & l1 & r1 & E1 & I1 & Q1 & O1 & RC & RK & RE & RP & RZ & RN & S1). rewrite E1. cbn [bind].
    assert (OA1 : ob s1 a = Some r1) by (rewrite O1, Pos.eqb_refl; reflexivity).
    destruct Q1 as (Q1t & Q1m & Q1i & Q1e & Q1b & Q1l).
    assert (CK : clock_ok s1 now clock2 None).
    { intros t ET. destruct (Z.eqb_spec now 0) as [|_]; [lia|]. injection ET as <-. intros x y RX PX LX _. destruct (Pos.eq_dec x a) as [->|NE].
      - destruct RX as [_ OX]. assert (y = r1) by congruence. subst y. destruct (Z.eq_dec (r_purge r) 0) as [X|X]; [rewrite (RZ X) in PX; lia|]. specialize (RN X). lia.
      - destruct RX as [IX OX]. rewrite Q1t in IX. rewrite O1 in OX. destruct (Pos.eqb_spec x a); [contradiction|]. unfold blocks. rewrite Q1i. apply (UB x y (conj IX OX) PX LX). cbn. destruct (Pos.eqb_spec x a); [contradiction|reflexivity]. }
    destruct (stale_purge_ok 2 now clock2 s1 held l1 ltac:(discriminate) I1 CK) as (e & s2 & l2 & g & E2 & I2 & S2 & PG & EL & W). rewrite E2. cbn [bind].
    assert (NG : ~ In a g). { destruct (Z.eqb_spec now 0) as [|_]; [lia|]. destruct W as [W _]. intros X. destruct (W a X) as (y & [_ OY] & PY & LY & _). assert (y = r1) by congruence. subst y. destruct (Z.eq_dec (r_purge r) 0) as [Z0|Z0]; [rewrite (RZ Z0) in PY; lia|]. specialize (RN Z0). lia. }
    assert (OA2 : ob s2 a = Some r1) by (rewrite (g_ob _ _ _ PG) by exact NG; exact OA1).
    destruct (FIN s2 l2 r1 I2 OA2) as (s3 & E3 & I3 & S3). exists OK, s3, l2. split; [exact E3|]. split; [exact I3|].
    intros OR S0. apply S3, S2, S1; [|exact S0]. intros NZ GE TL b LB NB. apply (listed_route _ _ _ _ I) in LB. destruct LB as (rb & RB & PB). rewrite (pt_at _ _ _ (proj2 RB)).
    exact (OR a r R K NZ GE TL b rb RB PB NB).
  - destruct G as (-> & GP).
    assert (I1 : inv (set_obj s a (Some r)) held l) by (apply (inv_obj _ _ _ _ _ _ I OA); [repeat split|right; reflexivity]).
    assert (S1 : srt s l -> srt (set_obj s a (Some r)) l) by (apply (srt_obj _ _ _ _ _ OA); left; reflexivity).
    assert (E1 : refresh s a (e_idle (evs s (r_ev r))) None = Ret (set_obj s a (Some r))).
    { unfold refresh, deref. rewrite OA. cbn [ub_none bind]. cbv zeta. destruct (Z.eqb_spec (r_purge r) 0) as [|NZ]; [reflexivity|]. specialize (GP NZ).
      destruct (Z.geb_spec (r_hit r + e_idle (evs s (r_ev r)) + PURGE_MARGIN - r_purge r) PURGE_MARGIN); [lia|reflexivity]. }
    rewrite E1. cbn [bind]. unfold stale_purge at 1. cbn [N.eqb Pos.eqb negb andb Z.eqb bind].
    destruct (FIN (set_obj s a (Some r)) l r I1) as (s3 & E3 & I3 & S3); [cbn; apply upd_eq|]. exists OK, s3, l. split; [exact E3|]. split; [exact I3|]. auto.
Qed.

Lemma flush_ok : forall L s held l, inv s held l -> NoDup (map snd L) -> (forall x, In x L -> In x (tb s)) ->
  exists s' l', flush_loop L s = Ret (OK, s') /\ inv s' held l' /\ (srt s l -> srt s' l') /\ (forall x, In x (tb s') <-> In x (tb s) /\ ~ In (snd x) (map snd L)).
Proof.
  induction L as [|[k a] L IH]; intros s held l I ND SUB; cbn [flush_loop].
  - exists s, l. split; [reflexivity|]. split; [exact I|]. split; [auto|]. cbn. tauto.
  - destruct (core_fun _ _ k a (i_core _ _ _ I) (SUB _ (or_introl eq_refl))) as (r & OA & T & K & R).
    destruct (delete_now_ok s held l a r false I OA T eq_refl) as (s1 & l1 & E1 & I1 & S1 & RM & _). rewrite E1. cbn [bind is_success].
    cbn [map snd] in ND. apply NoDup_cons_iff in ND. destruct ND as [NA ND].
    destruct (IH s1 held l1 I1 ND) as (s2 & l2 & E2 & I2 & S2 & TB).
    { intros x J. rewrite (m_tb _ _ _ RM). apply untable_in. split; [apply SUB; right; exact J|]. intros X. apply NA. rewrite <- X. apply in_map. exact J. }
    exists s2, l2. split; [exact E2|]. split; [exact I2|]. split; [auto|]. intros x. rewrite TB, (m_tb _ _ _ RM), untable_in. cbn. split; [intros ((A & B) & D); split; [exact A|intros [X|X]; [congruence|tauto]]|].
    intros (A & B). split; [split; [exact A|]|]; intros X; apply B; auto.
Qed.
Lemma tb_nodup s held l : inv s held l -> NoDup (tb s) /\ NoDup (map snd (tb s)).
Proof.
  intros I. assert (ND : NoDup (tb s)).
  { pose proof (c_sorted _ _ (i_core _ _ _ I)) as S0. induction S0 as [|x t S1 IH F]; constructor; [|exact IH]. rewrite Forall_forall in F. intros X. specialize (F x X). unfold kcmp in F. lia. }
  split; [exact ND|]. assert (INJ : forall x y, In x (tb s) -> In y (tb s) -> snd x = snd y -> x = y).
  { intros [k a] [k' a'] A B E. cbn in E. subst a'. apply (c_tb _ _ (i_core _ _ _ I)) in A, B. destruct A as (r & OA & _ & KA), B as (r' & OB & _ & KB). assert (r = r') by congruence. subst. congruence. }
  clear I. induction ND as [|x t NX ND IH]; cbn; constructor.
  - intros X. apply in_map_iff in X. destruct X as (y & E & J). apply NX. rewrite (INJ x y); cbn; auto.
  - apply IH. intros; apply INJ; cbn; auto.
Qed.
(** the flag INSERT_ACTIONS_CALLED is of no concern to the rest *)
Lemma bulk_ok h : forall L stop s held l, inv s held l -> (forall x, In x L -> In x (tb s)) ->
  exists e s', bulk_loop L h stop s = Ret (e, s') /\ inv s' held l /\ (srt s l -> srt s' l) /\ tb s' = tb s.
Proof.
  induction L as [|[k a] L IH]; intros stop s held l I SUB; cbn [bulk_loop].
  - exists OK, s. auto.
  - destruct (core_fun _ _ k a (i_core _ _ _ I) (SUB _ (or_introl eq_refl))) as (r & OA & T & K & R). unfold run_insert_actions, deref. rewrite OA. cbn [ub_none bind].
    assert (GO : forall s1 st e, inv s1 held l -> (srt s l -> srt s1 l) -> tb s1 = tb s ->
        exists e' s', (if is_success e || match e with ALREADY => true | _ => false end then bulk_loop L h st s1 else Ret (e, s1)) = Ret (e', s') /\ inv s' held l /\ (srt s l -> srt s' l) /\ tb s' = tb s).
    { intros s1 st e I1 S1 TB. destruct (is_success e || match e with ALREADY => true | _ => false end); [|exists e, s1; auto].
      destruct (IH st s1 held l I1) as (e' & s' & E & I' & S' & TB'); [intros x J; rewrite TB; apply SUB; right; exact J|]. exists e', s'. split; [exact E|]. split; [exact I'|]. split; [auto|congruence]. }
    destruct (e_ins (evs s (r_ev r))); cbn [negb andb]; [|cbn [bind]; apply (GO s _ OK); auto].
    destruct stop; cbn [negb andb]; [cbn [bind]; apply (GO s _ ALREADY_STOPPED); auto|].
    destruct (r_ic r); cbn [negb andb bind]; [apply (GO s _ ALREADY); auto|].
    apply GO; [|intros S0|reflexivity].
    + assert (X : inv (set_obj s a (Some (with_ic r true))) held l) by (apply (inv_obj _ _ _ _ _ _ I OA); [repeat split|right; reflexivity]). destruct X as [XC XL XS]. constructor; [apply core_say; exact XC|apply links_say; exact XL|exact XS].
    + apply (srt_ext (set_obj s a (Some (with_ic r true)))); [intros; reflexivity|]. apply (srt_obj _ _ _ _ _ OA); [left; reflexivity|exact S0].
Qed.
Lemma clear_ok : forall L s held l, inv s held l -> (forall x, In x L -> In x (tb s)) ->
  exists s', clear_loop L s = Ret s' /\ inv s' held l /\ (srt s l -> srt s' l) /\ tb s' = tb s.
Proof.
  induction L as [|[k a] L IH]; intros s held l I SUB; cbn [clear_loop].
  - exists s. auto.
  - destruct (core_fun _ _ k a (i_core _ _ _ I) (SUB _ (or_introl eq_refl))) as (r & OA & T & K & R). unfold deref. rewrite OA. cbn [ub_none bind].
    destruct (IH (set_obj s a (Some (with_ic r false))) held l) as (s' & E & I' & S' & TB).
    + apply (inv_obj _ _ _ _ _ _ I OA); [repeat split|right; reflexivity].
    + intros x J. apply SUB. right. exact J.
    + exists s'. split; [exact E|]. split; [exact I'|]. split; [|exact TB]. intros S0. apply S'. apply (srt_obj _ _ _ _ _ OA); [left; reflexivity|exact S0].
Qed.

Lemma step_ok s held l o : inv s held l -> gentle s held o ->
  exists e s' l', step s o = Ret (e, s') /\ inv s' (holds_after s held o) l' /\ (orderly s o -> srt s l -> srt s' l').
Proof.
  intros I G. destruct o as [k ev t conn clock stop hres|k|k conns clock clock2|now clock2|a t|clock|clock|clock|n clock|t| |h| |k|a|e v]; cbn [holds_after].
  - destruct (insert_2_ok s held l k ev t conn clock stop hres I G) as (e & s' & l' & E & I' & S' & _). exists e, s', l'. auto.
  - destruct (delete_key_ok s held l k I G) as (e & s' & l' & E & I' & S'). exists e, s', l'. auto.
  - exact (hit_ok s held l k conns clock clock2 I G).
  - destruct (stale_purge_ok 2 now clock2 s held l ltac:(discriminate) I G) as (e & s' & l' & g & E & I' & S' & _). cbn [step]. rewrite E. cbn [bind]. exists OK, s', l'. auto.
  - destruct G as (_ & (k & IN) & MM). destruct (core_fun _ _ k a (i_core _ _ _ I) IN) as (r & OA & T & K & R). cbn [step]. unfold retime, deref. rewrite OA. cbn [ub_none bind]. rewrite T. cbn [orb].
    destruct (relist_ok s held l a r (with_purge r t) I OA T) as (s' & l' & E & I' & S' & _); [repeat split|intros _; exact MM|]. cbn [r_purge with_purge] in E. rewrite E. cbn [bind]. exists OK, s', l'. auto.
  - destruct (stale_purge_ok 0 0 clock s held l ltac:(discriminate) I G) as (e & s' & l' & g & E & I' & S' & _). exists e, s', l'. auto.
  - destruct (stale_purge_ok 1 0 clock s held l ltac:(discriminate) I G) as (e & s' & l' & g & E & I' & S' & _). exists e, s', l'. auto.
  - destruct (stale_purge_ok 2 0 clock s held l ltac:(discriminate) I G) as (e & s' & l' & g & E & I' & S' & _). exists e, s', l'. auto.
  - cbn [step gentle] in *. assert (IM : inv (set_max s n) held l) by (destruct I as [[] [] LS]; constructor; [constructor; assumption|constructor; assumption|exact LS]).
    destruct (Z.gtb_spec (maxp s) n) as [A|A]; [|cbn [andb]; exists OK, (set_max s n), l; auto]. destruct (Z.gtb_spec (len s) n) as [B|B]; [|cbn [andb]; exists OK, (set_max s n), l; auto]. cbn [andb].
    destruct (stale_purge_ok 0 0 clock (set_max s n) held l ltac:(discriminate) IM) as (e & s' & l' & g & E & I' & S' & _); [exact (G ltac:(lia) ltac:(lia))|]. exists e, s', l'. auto.
  - exists OK, (set_maxidle s t), l. split; [reflexivity|]. split; [|auto]. destruct I as [[] [] LS]. constructor; [constructor; assumption|constructor; assumption|exact LS].
  - destruct (flush_ok (tb s) s held l I (proj2 (tb_nodup _ _ _ I)) (fun x H => H)) as (s' & l' & E & I' & S' & _). exists OK, s', l'. auto.
  - destruct (bulk_ok h (tb s) false s held l I (fun x H => H)) as (e & s' & E & I' & S' & _). exists e, s', l. auto.
  - destruct (clear_ok (tb s) s held l I (fun x H => H)) as (s' & E & I' & S' & _). exists OK, s', l. cbn [step]. rewrite E. auto.
  - cbn [step]. pose proof (core_find _ _ k (i_core _ _ _ I)) as F. destruct (kfind rkey kcmp (tb s) k) as [[k' a]|]; [|exists ITEM_NOT_FOUND, s, l; auto].
    destruct F as (-> & r & OA & T & K & R). unfold deref. rewrite OA. cbn [ub_none bind]. exists OK, (set_obj s a (Some (with_refs r (r_refs r + 1)))), l. split; [reflexivity|]. split.
    + destruct I as [C L LS]. constructor; [|exact (links_obj _ _ _ _ _ L OA)|].
      * constructor; cbn.
        -- exact (c_sorted _ _ C).
        -- intros q x. rewrite (c_tb _ _ C). unfold upd. destruct (Pos.eqb_spec x a) as [->|NE]; [|reflexivity]. rewrite OA. split; intros (y & A & B & D); injection A as <-; eexists; (split; [reflexivity|]); auto.
        -- intros x LE. rewrite upd_neq; [apply (c_brk _ _ C); exact LE|]. intros ->. rewrite (c_brk _ _ C a LE) in OA. discriminate.
        -- intros x y. unfold upd. destruct (Pos.eqb_spec x a) as [->|NE]; [|rewrite hadd_neq by exact NE; apply (c_refs _ _ C)]. intros X. injection X as <-. rewrite hadd_eq. cbn [r_refs with_refs r_in]. rewrite (c_refs _ _ C a r OA). lia.
        -- intros x y. unfold upd. destruct (Pos.eqb_spec x a) as [->|NE]; [|apply (c_alive _ _ C)]. intros X. injection X as <-. cbn [r_refs with_refs]. lia.
        -- intros x H. unfold upd. destruct (Pos.eqb_spec x a) as [->|NE]; [discriminate|]. rewrite hadd_neq in H by exact NE. apply (c_held _ _ C). exact H.
      * intros x. rewrite LS. unfold listed. cbn. unfold upd. destruct (Pos.eqb_spec x a) as [->|NE]; [|reflexivity]. rewrite OA. split; intros (y & A & B & D); injection A as <-; eexists; (split; [reflexivity|]); auto.
    + intros _. apply (srt_obj _ _ _ _ _ OA). left. reflexivity.
  - cbn [step gentle] in *. destruct (ob s a) as [r|] eqn:OA; [|destruct (c_held _ _ (i_core _ _ _ I) a G OA)].
    destruct (inv_drop s held l a r I G OA) as (s' & E & I' & S' & _). rewrite E. cbn [bind]. exists OK, s', l. auto.
  - eexists OK, _, l. split; [reflexivity|]. split; [|auto]. destruct I as [[] [] LS]. constructor; [constructor; assumption|constructor; assumption|exact LS].
Qed.

Lemma inv_init ev : inv (pinit ev) (fun _ => 0%N) [].
Proof.
  constructor; [constructor; cbn| |].
  - constructor.
  - intros k a. split; [tauto|]. intros (r & X & _). discriminate.
  - reflexivity.
  - discriminate.
  - discriminate.
  - congruence.
  - constructor; cbn; [split; [constructor|]; repeat split|reflexivity|intros a; tauto|reflexivity].
  - intros a. split; [intros []|]. intros (r & X & _). discriminate.
Qed.
Lemma run_ok : forall os s held l, inv s held l -> calm s held os ->
  exists es s' held' l', run s os = Ret (es, s') /\ inv s' held' l' /\ (neat s os -> srt s l -> srt s' l').
Proof.
  induction os as [|o os IH]; intros s held l I C; cbn [run calm] in *.
  - exists [], s, held, l. auto.
  - destruct C as [G C]. destruct (step_ok s held l o I G) as (e & s1 & l1 & E & I1 & S1). rewrite E in C |- *. cbn [bind].
    destruct (IH s1 _ l1 I1 C) as (es & s2 & held2 & l2 & E2 & I2 & S2). rewrite E2. cbn [bind]. exists (e :: es), s2, held2, l2. split; [reflexivity|]. split; [exact I2|].
    cbn [neat]. rewrite E. intros [OR NT] S0. auto.
Qed.
Lemma n_purgeable_len s held l : inv s held l -> n_purgeable s = length l.
Proof.
  intros I. destruct (tb_nodup _ _ _ I) as [_ ND]. unfold n_purgeable. rewrite <- (map_length snd (filter (has_purge_time s) (tb s))).
  assert (ND2 : NoDup (map snd (filter (has_purge_time s) (tb s)))).
  { clear I. induction (tb s) as [|x t IH]; cbn; [constructor|]. cbn in ND. apply NoDup_cons_iff in ND. destruct ND as [A B]. destruct (has_purge_time s x); [|exact (IH B)]. cbn. constructor; [|exact (IH B)].
    intros X. apply A. apply in_map_iff in X. destruct X as (y & E & J). apply filter_In in J. rewrite <- E. apply in_map. tauto. }
  assert (EQ : forall a, In a (map snd (filter (has_purge_time s) (tb s))) <-> In a l).
  { intros a. rewrite (i_listed _ _ _ I), (listed_route _ _ _ _ I), in_map_iff. split.
    - intros ([k b] & E & J). cbn in E. subst b. apply filter_In in J. destruct J as [J H]. destruct (core_fun _ _ _ _ (i_core _ _ _ I) J) as (r & O & _ & _ & R). exists r. split; [exact R|]. unfold has_purge_time in H. cbn in H. rewrite O in H.
      apply negb_true_iff, Z.eqb_neq in H. exact H.
    - intros (r & [J O] & P). exists (r_key r, a). split; [reflexivity|]. apply filter_In. split; [exact J|]. unfold has_purge_time. cbn. rewrite O. apply negb_true_iff, Z.eqb_neq. exact P. }
  apply Nat.le_antisymm; apply NoDup_incl_length; try assumption; [intros a J; apply EQ; exact J|exact (proj1 (l_dll _ _ (i_links _ _ _ I)))|intros a J; apply EQ; exact J].
Qed.
