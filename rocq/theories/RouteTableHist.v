(** History invariants: bitmask reference counts and the wildcard-family pointer. *)
From Verif Require Import Base Labels LabelsProofs Addr AddrSpec RouteFlags RouteKey RouteKeySpec RouteKeyProofs RouteTable TableSpec Lookup LookupSpec LookupMatch LookupProofs RouteTableProofs LookupStart LookupFacts.
Open Scope N_scope.

(** Number of bitmask routes of a family. *)
Definition is_bm (af : N) (r : route) : bool := has_bitmask r && (r_family r =? af).
Fixpoint bm_routes (l : list route) (af : N) : N := match l with [] => 0 | r :: t => (if is_bm af r then 1 else 0) + bm_routes t af end.
Lemma bm_routes_app l1 l2 af : bm_routes (l1 ++ l2) af = bm_routes l1 af + bm_routes l2 af.
Proof. induction l1 as [|r l IH]; [reflexivity|]. cbn [bm_routes app]. rewrite IH. lia. Qed.
Fixpoint bm_get (bm : list (N * N)) (af : N) : N := match bm with [] => 0 | (a, n) :: t => if a =? af then n else bm_get t af end.
Record bm_ok (bm : list (N * N)) (l : list route) : Prop := {
  bo_nodup : NoDup (map fst bm);
  bo_pos : Forall (fun x => 1 <= snd x <= u16_max) bm;
  bo_len : (length bm <= max_bitmask_afs)%nat;
  bo_get : forall af, bm_get bm af = bm_routes l af }.

Lemma bm_get_in bm af : NoDup (map fst bm) -> forall n, In (af, n) bm -> bm_get bm af = n.
Proof.
  induction bm as [|[a m] bm IH]; intros ND n H; [contradiction|]. cbn [map fst] in ND. inversion ND as [|? ? NI ND']; subst. cbn [bm_get].
  destruct H as [H|H].
  - assert (a = af) by congruence. assert (m = n) by congruence. subst. rewrite N.eqb_refl. reflexivity.
  - destruct (N.eqb_spec a af) as [->|E]; [|apply IH; assumption]. destruct NI. apply (in_map fst) in H. exact H.
Qed.
Lemma bm_get_pos bm af : Forall (fun x => 1 <= snd x <= u16_max) bm -> (bm_get bm af <> 0 <-> In af (map fst bm)).
Proof.
  intros F. induction F as [|[a n] bm H F IH]; cbn [bm_get map fst]; [cbn; tauto|]. cbn [snd] in H.
  destruct (N.eqb_spec a af) as [->|E]; [cbn; split; [auto|lia]|]. rewrite IH. cbn. split; [auto|intros [Q|Q]; [contradiction|exact Q]].
Qed.
Lemma bm_matching bm af : is_bitmask_matching bm af = true <-> In af (map fst bm).
Proof.
  unfold is_bitmask_matching. rewrite existsb_exists, in_map_iff. split.
  - intros ([a n] & H & E). exists (a, n). split; [apply N.eqb_eq; exact E|exact H].
  - intros ([a n] & E & H). exists (a, n). split; [exact H|apply N.eqb_eq; exact E].
Qed.

Lemma bm_incr_spec bm af : NoDup (map fst bm) -> Forall (fun x => 1 <= snd x <= u16_max) bm ->
  match bm_incr bm af with
  | None => ~ In af (map fst bm)
  | Some (e, bm') => In af (map fst bm) /\ map fst bm' = map fst bm /\
      if is_success e then e = OK /\ Forall (fun x => 1 <= snd x <= u16_max) bm' /\ bm_get bm' af = bm_get bm af + 1 /\ (forall g, g <> af -> bm_get bm' g = bm_get bm g)
      else bm_get bm af = u16_max
  end.
Proof.
  induction bm as [|[a n] bm IH]; intros ND F; cbn [bm_incr map fst]; [cbn; tauto|].
  cbn [map fst] in ND. inversion ND as [|? ? NI ND']; subst. inversion F as [|? ? Hn F']; subst. cbn [snd] in Hn.
  destruct (N.eqb_spec a af) as [->|E].
  - destruct (N.eqb_spec n u16_max) as [->|U].
    + change (is_success OVERFLOW_AVERTED) with false. cbn [bm_get]. rewrite N.eqb_refl. repeat split. left. reflexivity.
    + change (is_success OK) with true. cbn [map fst bm_get]. rewrite N.eqb_refl. repeat split; [left; reflexivity| |].
      * constructor; [cbn [snd]; lia|exact F'].
      * intros g Hg. destruct (N.eqb_spec af g); [congruence|reflexivity].
  - specialize (IH ND' F'). destruct (bm_incr bm af) as [[e bm']|].
    + destruct IH as (I1 & I2 & I3). cbn [map fst bm_get]. destruct (N.eqb_spec a af); [contradiction|]. rewrite I2. split; [right; exact I1|]. split; [reflexivity|].
      destruct (is_success e); [|exact I3]. destruct I3 as (J0 & J1 & J2 & J3). repeat split; [exact J0|constructor; assumption|exact J2|].
      intros g Hg. destruct (a =? g); [reflexivity|apply J3; exact Hg].
    + intros [Q|Q]; [congruence|contradiction].
Qed.
Lemma bm_get_notin bm af : ~ In af (map fst bm) -> bm_get bm af = 0.
Proof.
  induction bm as [|[a n] bm IH]; cbn [map fst bm_get]; intros H; [reflexivity|]. destruct (N.eqb_spec a af) as [->|E]; [destruct H; left; reflexivity|].
  apply IH. intros Q. apply H. right. exact Q.
Qed.
Lemma bm_get_app bm af g n : bm_get (bm ++ [(g, n)]) af = if existsb (fun x => fst x =? af) bm then bm_get bm af else if g =? af then n else 0.
Proof. induction bm as [|[a m] bm IH]; cbn [app bm_get existsb fst]; [reflexivity|]. destruct (a =? af); [reflexivity|exact IH]. Qed.

Lemma upref_ok bm l r l' : bm_ok bm l -> has_bitmask r = true -> is_success (fst (bm_upref bm (r_family r))) = true ->
  (forall af, bm_routes l' af = bm_routes l af + (if is_bm af r then 1 else 0)) -> bm_ok (snd (bm_upref bm (r_family r))) l'.
Proof.
  intros [ND F LN G] HB HS HL. unfold bm_upref in *. pose proof (bm_incr_spec bm (r_family r) ND F) as SP.
  assert (IB : forall af, is_bm af r = (r_family r =? af)) by (intros af; unfold is_bm; rewrite HB; reflexivity).
  destruct (bm_incr bm (r_family r)) as [[e bm']|].
  - destruct SP as (I1 & I2 & I3). cbn [fst] in HS. rewrite HS in I3. destruct I3 as (_ & J1 & J2 & J3). cbn [snd]. split.
    + rewrite I2. exact ND.
    + exact J1.
    + assert (length bm' = length bm) by (rewrite <- (map_length fst), I2, map_length; reflexivity). lia.
    + intros af. rewrite HL, IB, <- G. destruct (N.eqb_spec (r_family r) af) as [<-|E]; [exact J2|]. rewrite J3 by congruence. lia.
  - destruct (Nat.leb_spec max_bitmask_afs (length bm)) as [L|L]; [discriminate|]. cbn [snd]. split.
    + rewrite map_app. cbn [map fst]. apply NoDup_rev in ND. rewrite <- (rev_involutive (map fst bm ++ [r_family r])), rev_app_distr. apply NoDup_rev. cbn [rev app].
      constructor; [rewrite <- in_rev; exact SP|exact ND].
    + apply Forall_app. split; [exact F|]. constructor; [cbn [snd]; unfold u16_max; lia|constructor].
    + rewrite app_length. cbn [length]. lia.
    + intros af. rewrite HL, IB, bm_get_app, <- G. destruct (existsb (fun x => fst x =? af) bm) eqn:E.
      * destruct (N.eqb_spec (r_family r) af) as [<-|NE]; [|lia]. destruct SP. apply bm_matching. exact E.
      * assert (NI : ~ In af (map fst bm)) by (intros Q; apply bm_matching in Q; unfold is_bitmask_matching in Q; congruence).
        rewrite (bm_get_notin bm af NI). destruct (_ =? _); reflexivity.
Qed.

Lemma bm_decr_spec bm af : forall i, match bm_decr bm af i with
  | None => ~ In af (map fst bm)
  | Some (j, n) => (i <= j)%nat /\ nth_error bm (j - i) = Some (af, n)
  end.
Proof.
  induction bm as [|[a n] bm IH]; intros i; cbn [bm_decr map fst]; [cbn; tauto|].
  destruct (N.eqb_spec a af) as [->|E].
  - rewrite Nat.sub_diag. split; [lia|reflexivity].
  - specialize (IH (S i)). destruct (bm_decr bm af (S i)) as [[j m]|].
    + destruct IH as [I1 I2]. split; [lia|]. replace (j - i)%nat with (S (j - S i)) by lia. exact I2.
    + intros [Q|Q]; [congruence|contradiction].
Qed.
Lemma set_nth_split {A} (l1 l2 : list A) x v : set_nth (l1 ++ x :: l2) (length l1) v = l1 ++ v :: l2.
Proof. induction l1 as [|y l1 IH]; [reflexivity|]. cbn [app length set_nth]. rewrite IH. reflexivity. Qed.
Lemma bm_get_mid l1 l2 a n af : ~ In a (map fst l1) -> bm_get (l1 ++ (a, n) :: l2) af = if a =? af then n else bm_get (l1 ++ l2) af.
Proof.
  induction l1 as [|[b m] l1 IH]; intros NI; cbn [app bm_get]; [destruct (a =? af); reflexivity|].
  cbn [map fst] in NI. destruct (N.eqb_spec b af) as [->|E].
  - destruct (N.eqb_spec a af) as [->|]; [destruct NI; left; reflexivity|reflexivity].
  - apply IH. intros Q. apply NI. right. exact Q.
Qed.
(** Permutation-like: moving an entry. *)
Lemma bm_get_move l1 l2 x af : NoDup (map fst (l1 ++ x :: l2)) -> bm_get (l1 ++ x :: l2) af = bm_get (l1 ++ l2 ++ [x]) af.
Proof.
  destruct x as [a n]. rewrite map_app. cbn [map fst]. intros ND. apply NoDup_remove in ND. destruct ND as [_ NI]. rewrite in_app_iff in NI.
  rewrite bm_get_mid by tauto. rewrite app_assoc. rewrite bm_get_app.
  destruct (N.eqb_spec a af) as [->|E].
  - destruct (existsb (fun x => fst x =? af) (l1 ++ l2)) eqn:EX; [|reflexivity]. exfalso. apply NI.
    apply existsb_exists in EX. destruct EX as ([b m] & H & Q). apply N.eqb_eq in Q. cbn [fst] in Q. subst b. apply in_app_iff in H.
    destruct H as [H|H]; apply (in_map fst) in H; tauto.
  - destruct (existsb (fun x => fst x =? af) (l1 ++ l2)) eqn:EX; [reflexivity|]. apply bm_get_notin. intros Q. apply bm_matching in Q. unfold is_bitmask_matching in Q. congruence.
Qed.

Lemma downref_ok bm l r l' : bm_ok bm l -> has_bitmask r = true ->
  (forall af, bm_routes l af = bm_routes l' af + (if is_bm af r then 1 else 0)) -> bm_ok (snd (bm_downref bm (r_family r))) l'.
Proof.
  intros [ND F LN G] HB HL. unfold bm_downref.
  assert (IB : forall af, is_bm af r = (r_family r =? af)) by (intros af; unfold is_bm; rewrite HB; reflexivity).
  assert (IN : In (r_family r) (map fst bm)).
  { apply bm_get_pos; [exact F|]. rewrite G, HL, IB, N.eqb_refl. lia. }
  pose proof (bm_decr_spec bm (r_family r) 0) as SP. destruct (bm_decr bm (r_family r) 0) as [[i n]|]; [|contradiction].
  destruct SP as [_ SP]. rewrite Nat.sub_0_r in SP. apply nth_error_split in SP. destruct SP as (l1 & l2 & -> & <-).
  set (a := r_family r) in *.
  assert (GN : n = bm_routes l a).
  { rewrite <- G. symmetry. apply bm_get_in; [exact ND|]. apply in_or_app. right. left. reflexivity. }
  assert (NP : 1 <= n <= u16_max) by (rewrite Forall_forall in F; apply (F (a, n)); apply in_or_app; right; left; reflexivity).
  assert (ND' := ND). rewrite map_app in ND'. cbn [map fst] in ND'. apply NoDup_remove in ND'. destruct ND' as [ND1 NI]. rewrite <- map_app in ND1. rewrite in_app_iff in NI.
  assert (F' : Forall (fun x => 1 <= snd x <= u16_max) (l1 ++ l2)) by (apply Forall_app; apply Forall_app in F; destruct F as [F1 F2]; split; [exact F1|inversion F2; assumption]).
  assert (G' : forall af, a <> af -> bm_get (l1 ++ l2) af = bm_routes l' af).
  { intros af NE. pose proof (HL af) as E. rewrite <- G, IB in E. rewrite bm_get_mid in E by tauto. fold a in E. destruct (N.eqb_spec a af); [contradiction|]. lia. }
  destruct (N.eqb_spec (n - 1) 0) as [Z|Z]; cbn [snd].
  - (* the family disappears *)
    assert (ZA : bm_routes l' a = 0) by (pose proof (HL a) as E; rewrite IB in E; fold a in E; rewrite N.eqb_refl in E; lia).
    assert (RES : bm_ok (l1 ++ l2) l').
    { split; [exact ND1|exact F'|rewrite app_length in *; cbn [length] in LN; lia|]. intros af. destruct (N.eq_dec a af) as [<-|NE]; [|apply G'; exact NE].
      rewrite ZA. apply bm_get_notin. rewrite map_app, in_app_iff. exact NI. }
    rewrite app_length. cbn [length]. replace (length l1 + S (length l2) - 1)%nat with (length l1 + length l2)%nat by lia.
    destruct (Nat.ltb_spec (length l1) (length l1 + length l2)) as [L|L].
    + (* move the last one *)
      destruct (exists_last (l := l2)) as (l3 & x & ->); [intros ->; cbn [length] in L; lia|].
      rewrite set_nth_split.
      assert (EX : nth (length l1 + length (l3 ++ [x])) (l1 ++ (a, n) :: l3 ++ [x]) (0, 0) = x).
      { rewrite app_nth2 by lia. rewrite app_length. cbn [length]. replace (length l1 + (length l3 + 1) - length l1)%nat with (S (length l3)) by lia. cbn [nth].
        rewrite app_nth2, Nat.sub_diag by lia. reflexivity. }
      rewrite EX. rewrite app_length. cbn [length].
      replace (firstn (length l1 + (length l3 + 1)) (l1 ++ x :: l3 ++ [x])) with (l1 ++ x :: l3).
      2:{ rewrite firstn_app. rewrite firstn_all2 by lia. f_equal. replace (length l1 + (length l3 + 1) - length l1)%nat with (S (length l3)) by lia. cbn [firstn]. f_equal.
          rewrite firstn_app, firstn_all, Nat.sub_diag. cbn [firstn]. symmetry. apply app_nil_r. }
      destruct RES as [R1 R2 R3 R4].
      assert (NDX : NoDup (map fst (l1 ++ x :: l3))).
      { apply (Permutation.Permutation_NoDup (l := map fst (l1 ++ l3 ++ [x]))); [|exact R1]. apply Permutation.Permutation_map.
        apply Permutation.Permutation_app_head. symmetry. apply Permutation.Permutation_cons_append. }
      split; [exact NDX| | |].
      * apply Forall_app in R2. destruct R2 as [Q1 Q2]. apply Forall_app in Q2. destruct Q2 as [Q2 Q3]. apply Forall_app. split; [exact Q1|]. constructor; [inversion Q3; assumption|exact Q2].
      * rewrite !app_length in *. cbn [length] in *. lia.
      * intros af. rewrite bm_get_move by exact NDX. apply R4.
    + assert (l2 = []) by (destruct l2; [reflexivity|cbn [length] in L; lia]). subst l2. cbn [length]. rewrite Nat.add_0_r.
      rewrite firstn_app, firstn_all, Nat.sub_diag. cbn [firstn]. exact RES.
  - rewrite set_nth_split. split.
    + rewrite map_app in *. exact ND.
    + apply Forall_app in F. destruct F as [F1 F2]. apply Forall_app. split; [exact F1|]. inversion F2; subst. constructor; [cbn [snd]; lia|assumption].
    + rewrite app_length in *. exact LN.
    + intros af. rewrite bm_get_mid by tauto. destruct (N.eqb_spec a af) as [<-|NE]; [|apply G'; exact NE].
      pose proof (HL a) as E. rewrite IB in E. fold a in E. rewrite N.eqb_refl in E. lia.
Qed.

(** The reference counts of a clone are rebuilt exactly. *)
Lemma rebuild_ok bm l : bm_ok bm l -> bm_ok (rebuild_bm l) l.
Proof.
  intros [ND F LN G]. unfold rebuild_bm.
  enough (H : forall l2 l1 acc, l = l1 ++ l2 -> bm_ok acc l1 ->
     bm_ok (fold_left (fun bm r => if has_bitmask r then snd (bm_upref bm (r_family r)) else bm) l2 acc) l).
  { apply (H l []); [reflexivity|]. split; [constructor|constructor|cbn; lia|reflexivity]. }
  induction l2 as [|r l2 IH]; intros l1 acc E [ND1 F1 LN1 G1]; cbn [fold_left].
  - rewrite E, app_nil_r. split; assumption.
  - assert (E' : l = (l1 ++ [r]) ++ l2) by (rewrite <- app_assoc; exact E). apply (IH (l1 ++ [r]) _ E').
    assert (C : forall af, bm_routes (l1 ++ [r]) af = bm_routes l1 af + (if is_bm af r then 1 else 0)) by (intros af; rewrite bm_routes_app; cbn [bm_routes]; lia).
    destruct (has_bitmask r) eqn:HB.
    2:{ split; try assumption. intros af. rewrite C, G1. unfold is_bm. rewrite HB. cbn [andb]. lia. }
    assert (TOT : bm_routes l (r_family r) = bm_routes l1 (r_family r) + 1 + bm_routes l2 (r_family r)).
    { rewrite E, bm_routes_app. cbn [bm_routes]. unfold is_bm. rewrite HB, N.eqb_refl. cbn [andb]. lia. }
    apply (upref_ok acc l1 r); [split; assumption|exact HB| |exact C].
    unfold bm_upref. pose proof (bm_incr_spec acc (r_family r) ND1 F1) as SP. destruct (bm_incr acc (r_family r)) as [[e bm']|].
    + destruct SP as (I1 & _ & I3). cbn [fst]. destruct (is_success e); [reflexivity|]. exfalso. rewrite G1 in I3.
      assert (bm_get bm (r_family r) <= u16_max); [|rewrite G in *; lia].
      clear -F. induction F as [|[b m] bm H F IH]; cbn [bm_get]; [unfold u16_max; lia|]. destruct (b =? _); [cbn [snd] in H; lia|exact IH].
    + destruct (Nat.leb_spec max_bitmask_afs (length acc)) as [L|L]; [|reflexivity]. exfalso.
      assert (INC : incl (r_family r :: map fst acc) (map fst bm)).
      { intros g [<-|Hg]; apply bm_get_pos; try exact F; rewrite G.
        - lia.
        - apply bm_get_pos in Hg; [|exact F1]. rewrite G1 in Hg. rewrite E, bm_routes_app. lia. }
      apply NoDup_incl_length in INC; [|constructor; assumption]. cbn [length] in INC. rewrite !map_length in INC. lia.
Qed.

Definition op_succeeds (o : rop) : Prop := match o with RInsert _ ok => ok = true | _ => True end.
Lemma bm_routes_insert l p x af : bm_routes (firstn p l ++ x :: skipn p l) af = bm_routes l af + (if is_bm af x then 1 else 0).
Proof. rewrite bm_routes_app. cbn [bm_routes]. rewrite <- (firstn_skipn p l) at 3. rewrite bm_routes_app. lia. Qed.
Lemma bm_routes_delete l p x af : nth_error l p = Some x -> bm_routes l af = bm_routes (firstn p l ++ skipn (S p) l) af + (if is_bm af x then 1 else 0).
Proof.
  intros H. apply nth_error_split in H. destruct H as (l1 & l2 & -> & <-). rewrite firstn_app, firstn_all, Nat.sub_diag. cbn [firstn]. rewrite app_nil_r.
  replace (skipn (S (length l1)) (l1 ++ x :: l2)) with l2.
  - rewrite !bm_routes_app. cbn [bm_routes]. lia.
  - rewrite skipn_app, skipn_all2 by lia. replace (S (length l1) - length l1)%nat with 1%nat by lia. reflexivity.
Qed.
Lemma bm_step t o : bm_ok (t_bm t) (t_routes t) -> op_succeeds o -> bm_ok (t_bm (snd (rt_step t o))) (t_routes (snd (rt_step t o))).
Proof.
  intros B HO. destruct o as [r ok|r|]; cbn [rt_step].
  - pose proof (insert_cases t r ok) as IC. destruct (rt_insert t r ok) as [e t']. cbn [snd].
    destruct IC as [->|(p & c & bm & last & _ & _ & EB & HS & _ & ET & _)]; [exact B|].
    cbn in HO. subst ok. destruct ET as [(_ & _ & ->)|(Q & _)]; [|discriminate]. cbn [t_bm t_routes].
    destruct (has_bitmask (stored r)) eqn:HB; subst bm.
    + eapply upref_ok; [exact B|exact HB|apply HS; reflexivity|]. intros af. apply bm_routes_insert.
    + destruct B as [B1 B2 B3 B4]. split; try assumption. intros af. rewrite bm_routes_insert, B4. unfold is_bm. rewrite HB. cbn [andb]. lia.
  - unfold rt_delete. destruct (seek _ _) as [p c]. destruct (c =? 0)%Z; cbn [snd]; [|exact B]. unfold rt_delete_at.
    destruct (nth_error (t_routes t) p) as [x|] eqn:E; [|exact B]. cbn [t_bm t_routes]. destruct (has_bitmask x) eqn:HB.
    + eapply downref_ok; [exact B|exact HB|]. intros af. apply bm_routes_delete. exact E.
    + destruct B as [B1 B2 B3 B4]. split; try assumption. intros af. rewrite B4, (bm_routes_delete _ _ _ af E). unfold is_bm. rewrite HB. cbn [andb]. lia.
  - cbn [snd rt_clone t_bm t_routes]. eapply rebuild_ok. exact B.
Qed.
Lemma bm_run ops : forall t, bm_ok (t_bm t) (t_routes t) -> Forall op_succeeds ops -> bm_ok (t_bm (snd (rt_run t ops))) (t_routes (snd (rt_run t ops))).
Proof.
  induction ops as [|o ops IH]; intros t HI HO; [exact HI|]. inversion HO; subst. cbn [rt_run].
  pose proof (bm_step t o HI ltac:(assumption)) as HS. destruct (rt_step t o) as [e t1]. cbn [snd] in HS.
  specialize (IH t1 HS ltac:(assumption)). destruct (rt_run t1 ops) as [es t2]. exact IH.
Qed.
Lemma bm_routes_exists l af : bm_routes l af <> 0 <-> exists r, In r l /\ has_bitmask r = true /\ r_family r = af.
Proof.
  induction l as [|x l IH]; cbn [bm_routes]; [split; [lia|intros (r & [] & _)]|]. unfold is_bm at 1. split.
  - intros H. destruct (has_bitmask x) eqn:HB; cbn [andb] in H.
    + destruct (N.eqb_spec (r_family x) af); [exists x; repeat split; auto; left; reflexivity|]. destruct (proj1 IH ltac:(lia)) as (r & R1 & R2). exists r. split; [right; exact R1|exact R2].
    + destruct (proj1 IH ltac:(lia)) as (r & R1 & R2). exists r. split; [right; exact R1|exact R2].
  - intros (r & [<-|Hr] & HB & HF); [rewrite HB, HF, N.eqb_refl; cbn [andb]; lia|]. assert (bm_routes l af <> 0) by (apply IH; exists r; auto). lia.
Qed.

(** The wildcard-family pointer at the front. *)
Definition front_ok (o : rop) : Prop :=
  match o with
  | RInsert r ok => ok = true /\ (has (r_flags r) RF_FAMILY_WILD = true \/ r_family r <> 0)
  | RDelete r => has (r_flags r) RF_FAMILY_WILD = false /\ r_family r <> 0
  | RClone => False
  end.
Definition wildp (r : route) : bool := has (r_flags r) RF_FAMILY_WILD.
Record front_inv (t : rtable) : Prop := {
  fi_fam : forall r, In r (t_routes t) -> if wildp r then r_family r = 0 else r_family r <> 0;
  fi_last : (t_last_af t = PNull /\ forall r, In r (t_routes t) -> wildp r = false) \/
            (t_last_af t = PAt 0 /\ exists r l, t_routes t = r :: l /\ wildp r = true) }.
Lemma family_lt a b : r_family a < r_family b -> (rcmp a b < 0)%Z.
Proof.
  intros H. unfold rcmp. assert (E : ncmp (r_family a) (r_family b) = (-1)%Z).
  { unfold ncmp. destruct (N.eqb_spec (r_family a) (r_family b)); [lia|]. destruct (N.ltb_spec (r_family a) (r_family b)); lia. }
  rewrite E. unfold lexc at 1. cbn [Z.eqb]. lia.
Qed.
Lemma front_step t o : rt_inv t -> rop_ok o -> front_inv t -> front_ok o -> front_inv (snd (rt_step t o)).
Proof.
  intros INV HR [FF FL] HO. pose proof INV as [So Fo _]. destruct o as [r ok|r|]; cbn [rt_step]; [| |contradiction].
  - pose proof (insert_cases t r ok) as IC. destruct (rt_insert t r ok) as [e t']. cbn [snd].
    destruct IC as [->|(p & c & bm & last & ES & C & _ & _ & _ & ET & EL)]; [split; assumption|].
    destruct HO as [-> HF]. destruct ET as [(_ & _ & ->)|(Q & _)]; [|discriminate].
    assert (WS : wildp (stored r) = has (r_flags r) RF_FAMILY_WILD).
    { unfold wildp, stored, has. cbn [with_flags r_flags]. apply N.setbit_neq. discriminate. }
    assert (FS : if wildp (stored r) then r_family (stored r) = 0 else r_family (stored r) <> 0).
    { rewrite WS. unfold stored, clamp_wildcard_fields. cbn [with_flags r_family]. destruct (has (r_flags r) RF_FAMILY_WILD); [reflexivity|]. destruct HF; [discriminate|assumption]. }
    pose proof (seek_spec _ _ So Fo (stored_ok r HR)) as SP. rewrite ES in SP. destruct SP as (P1 & P2 & P3).
    split; cbn [t_routes t_last_af].
    { intros x Hx. apply in_insert in Hx. destruct Hx as [->|Hx]; [exact FS|apply FF; exact Hx]. }
    unfold has in EL. fold (has (r_flags (stored r)) RF_FAMILY_WILD) in EL. fold (wildp (stored r)) in EL. cbv zeta in EL.
    destruct FL as [[LA NW]|[LA (x & l & EX & WX)]]; rewrite LA in EL; cbn [ptr_shift_insert] in EL.
    + destruct (wildp (stored r)) eqn:W.
      * right. assert (p = O).
        { destruct p as [|p]; [reflexivity|]. exfalso. destruct (t_routes t) as [|y l] eqn:ET; [cbn [length] in P1; lia|].
          cbn [firstn] in P2. inversion P2; subst. pose proof (FF y (or_introl eq_refl)) as FY. rewrite (NW y (or_introl eq_refl)) in FY.
          pose proof (family_lt (stored r) y ltac:(lia)). pose proof (rc_anti (stored r) y). lia. }
        subst p. split; [exact EL|]. cbn [firstn app skipn]. exists (stored r), (t_routes t). split; [reflexivity|exact W].
      * left. split; [exact EL|]. intros y Hy. apply in_insert in Hy. destruct Hy as [->|Hy]; [exact W|apply NW; exact Hy].
    + right. assert (FX : r_family x = 0) by (pose proof (FF x) as Q; rewrite EX, WX in Q; apply Q; left; reflexivity).
      assert (OKX : route_ok x) by (rewrite EX in Fo; inversion Fo; assumption).
      rewrite EX in *. destruct p as [|p].
      * (* before x *)
        cbn [nth_error] in P3. destruct P3 as [-> P3].
        assert (W : wildp (stored r) = true).
        { destruct (wildp (stored r)); [reflexivity|]. exfalso. pose proof (family_lt x (stored r) ltac:(lia)). lia. }
        rewrite W in EL. cbn [Nat.leb firstn app skipn nth_error] in EL. rewrite route_key_cmp_eq in EL by (try apply stored_ok; assumption).
        assert (LT : (rcmp (stored r) x <? 0)%Z = true) by (apply Z.ltb_lt; pose proof (rc_anti (stored r) x); lia). rewrite LT in EL.
        split; [exact EL|]. cbn [firstn app skipn]. exists (stored r), (x :: l). split; [reflexivity|exact W].
      * cbn [firstn] in P2. inversion P2; subst. cbn [Nat.leb firstn app skipn nth_error].
        rewrite route_key_cmp_eq by (try apply stored_ok; assumption).
        assert (LT : (rcmp (stored r) x <? 0)%Z = false) by (apply Z.ltb_ge; pose proof (rc_anti (stored r) x); lia). rewrite LT.
        split; [destruct (wildp (stored r)); reflexivity|]. exists x. eexists. split; [reflexivity|exact WX].
  - destruct HO as [NW NZ]. unfold rt_delete.
    assert (OKC : route_ok (clamp_wildcard_fields r)) by (apply clamp_ok; exact HR).
    pose proof (seek_spec _ _ So Fo OKC) as SP. destruct (seek _ _) as [p c]. destruct SP as (P1 & P2 & P3).
    destruct (Z.eqb_spec c 0) as [->|C]; cbn [snd]; [|split; assumption]. unfold rt_delete_at.
    destruct (nth_error (t_routes t) p) as [y|] eqn:EY; [|split; assumption]. destruct P3 as [P3 _].
    assert (FY : r_family y <> 0).
    { symmetry in P3. apply rcmp_0 in P3. destruct P3 as [P3 _]. rewrite P3. unfold clamp_wildcard_fields. cbn [r_family]. rewrite NW. exact NZ. }
    cbv zeta.
    assert (INC : forall x, In x (firstn p (t_routes t) ++ skipn (S p) (t_routes t)) -> In x (t_routes t)).
    { intros x Hx. apply in_app_or in Hx. destruct Hx as [Hx|Hx].
      - rewrite <- (firstn_skipn p). apply in_or_app. left. exact Hx.
      - rewrite <- (firstn_skipn (S p)). apply in_or_app. right. exact Hx. }
    split; cbn [t_routes t_last_af]; [intros x Hx; apply FF, INC; exact Hx|].
    destruct FL as [[LA NWA]|[LA (x & l & EX & WX)]]; rewrite LA.
    + left. split; [reflexivity|]. intros x Hx. apply NWA, INC. exact Hx.
    + right. rewrite EX in *. destruct p as [|p].
      * exfalso. assert (y = x) by (cbn in EY; congruence). subst y. pose proof (FF x (or_introl eq_refl)) as Q. rewrite WX in Q. contradiction.
      * cbn. split; [reflexivity|]. exists x. eexists. split; [reflexivity|exact WX].
Qed.
Lemma front_run ops : forall t, rt_inv t -> front_inv t -> Forall rop_ok ops -> Forall front_ok ops -> front_inv (snd (rt_run t ops)).
Proof.
  induction ops as [|o ops IH]; intros t INV HI HO HF; [exact HI|]. inversion HO; subst. inversion HF; subst. cbn [rt_run].
  pose proof (front_step t o INV ltac:(assumption) HI ltac:(assumption)) as HS. pose proof (inv_step t o INV ltac:(assumption)) as HV.
  destruct (rt_step t o) as [e t1]. cbn [snd] in HS, HV.
  specialize (IH t1 HV HS ltac:(assumption) ltac:(assumption)). destruct (rt_run t1 ops) as [es t2]. exact IH.
Qed.
Lemma front_init : front_inv t_init.
Proof. split; [intros r []|left; split; [reflexivity|intros r []]]. Qed.
