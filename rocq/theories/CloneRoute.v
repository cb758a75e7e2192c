(** The clone of a route table: lemmas for C36.  And the fields of the route table's header:
    src/routes.c 4612-4668 (wolfsentry_route_table_clone_header). *)
From Verif Require Import Base Labels Addr RouteFlags RouteKey RouteTable TableSpec Lookup RouteTableProofs RouteTableHist.
From Coq Require Import Permutation.
Open Scope N_scope.

(** ** Header fields.  struct wolfsentry_route_table (wolfsentry_internal.h 402-425): the default event by its label, the
    fallthrough route by its reference count (one object shared with the original). *)
Record rhdr := mkRH { h_max_routes : N; h_max_idle : Z; h_policy : N; h_default_event : option (list N); h_fallthrough : option N; h_highest : N }.
(** A table just initialised (routes.c 4596-4609; zeroed allocation). *)
Definition rh_init : rhdr := mkRH 0 0 0 None None u16_max.
(** [event_exists]: the clone's event table has an event with that label; [no_routes]: WOLFSENTRY_CLONE_FLAG_NO_ROUTES. *)
Definition clone_header (event_exists : list N -> bool) (no_routes : bool) (s d : rhdr) : err * rhdr :=
  let d := mkRH (h_max_routes s) (h_max_idle d) (h_policy s) (h_default_event d) (h_fallthrough d) (h_highest d) in
  let ev := match h_default_event s with
            | None => (OK, d)
            | Some l => let d := mkRH (h_max_routes d) (h_max_idle d) (h_policy d) None (h_fallthrough d) (h_highest d) in
                        if event_exists l then (OK, mkRH (h_max_routes d) (h_max_idle d) (h_policy d) (Some l) (h_fallthrough d) (h_highest d))
                        else (ITEM_NOT_FOUND, d)
            end in
  let '(e, d) := ev in
  if negb (is_success e) then (e, d) else
  let ft := match h_fallthrough s with
            | None => (OK, d)
            | Some n => if n =? u16_max then (OVERFLOW_AVERTED, mkRH (h_max_routes d) (h_max_idle d) (h_policy d) (h_default_event d) (Some n) (h_highest d))
                        else (OK, mkRH (h_max_routes d) (h_max_idle d) (h_policy d) (h_default_event d) (Some (n + 1)) (h_highest d))
            end in
  let '(e, d) := ft in
  if negb (is_success e) then (e, d) else
  if no_routes then (OK, d) else
  (OK, mkRH (h_max_routes d) (h_max_idle d) (h_policy d) (h_default_event d) (h_fallthrough d) (h_highest s)).

(** ** Bitmask families of the original and the clone *)
Lemma bm_same_matching bm1 bm2 l af : bm_ok bm1 l -> bm_ok bm2 l -> is_bitmask_matching bm1 af = is_bitmask_matching bm2 af.
Proof.
  intros [N1 F1 L1 G1] [N2 F2 L2 G2]. apply eq_true_iff_eq. rewrite !bm_matching, <- !bm_get_pos by assumption. rewrite G1, G2. reflexivity.
Qed.
Lemma bm_same_length bm1 bm2 l : bm_ok bm1 l -> bm_ok bm2 l -> length bm1 = length bm2.
Proof.
  intros [N1 F1 L1 G1] [N2 F2 L2 G2]. rewrite <- (map_length fst bm1), <- (map_length fst bm2). apply Permutation_length. apply NoDup_Permutation; [assumption|assumption|].
  intros af. rewrite <- !bm_get_pos by assumption. rewrite G1, G2. reflexivity.
Qed.
Lemma bm_upref_same bm1 bm2 l af : bm_ok bm1 l -> bm_ok bm2 l -> fst (bm_upref bm1 af) = fst (bm_upref bm2 af).
Proof.
  intros B1 B2. pose proof (bm_same_length _ _ _ B1 B2) as HL. destruct B1 as [N1 F1 L1 G1], B2 as [N2 F2 L2 G2].
  pose proof (bm_incr_spec bm1 af N1 F1) as S1. pose proof (bm_incr_spec bm2 af N2 F2) as S2.
  assert (E : In af (map fst bm1) <-> In af (map fst bm2)) by (rewrite <- !bm_get_pos by assumption; rewrite G1, G2; reflexivity).
  assert (OV : forall bm e b, Forall (fun x => 1 <= snd x <= u16_max) bm -> bm_incr bm af = Some (e, b) -> e = if bm_get bm af =? u16_max then OVERFLOW_AVERTED else OK).
  { clear. induction bm as [|[a n] bm IH]; intros e b F H; [discriminate|]. inversion F; subst. cbn [bm_incr bm_get] in *. destruct (a =? af).
    - destruct (n =? u16_max); congruence.
    - destruct (bm_incr bm af) as [[e' t']|]; [|discriminate]. injection H as <- <-. eapply IH; [assumption|reflexivity]. }
  unfold bm_upref. destruct (bm_incr bm1 af) as [[e1 b1]|] eqn:E1, (bm_incr bm2 af) as [[e2 b2]|] eqn:E2.
  - cbn [fst]. rewrite (OV _ _ _ F1 E1), (OV _ _ _ F2 E2), G1, G2. reflexivity.
  - exfalso. apply S2, E, S1.
  - exfalso. apply S1, E, S2.
  - rewrite HL. destruct (_ <=? _)%nat; reflexivity.
Qed.

(** Two tables that differ only in the order of the bitmask families. *)
Record rtwin (t d : rtable) : Prop := {
  rw_r : t_routes d = t_routes t; rw_l : t_last_af d = t_last_af t; rw_h : t_highest d = t_highest t;
  rw_b : bm_ok (t_bm t) (t_routes t); rw_b' : bm_ok (t_bm d) (t_routes d) }.

Lemma rtwin_step t d o : rtwin t d -> op_succeeds o -> fst (rt_step d o) = fst (rt_step t o) /\ rtwin (snd (rt_step t o)) (snd (rt_step d o)).
Proof.
  intros [R L H B B'] HO. pose proof (bm_step t o B HO) as S1. pose proof (bm_step d o B' HO) as S2.
  assert (U : forall af, fst (bm_upref (t_bm d) af) = fst (bm_upref (t_bm t) af)) by (intros af; rewrite R in B'; eapply bm_upref_same; eassumption).
  enough (X : fst (rt_step d o) = fst (rt_step t o) /\ t_routes (snd (rt_step d o)) = t_routes (snd (rt_step t o)) /\ t_last_af (snd (rt_step d o)) = t_last_af (snd (rt_step t o))
    /\ t_highest (snd (rt_step d o)) = t_highest (snd (rt_step t o))) by (destruct X as (X1 & X2 & X3 & X4); split; [exact X1|]; constructor; assumption).
  clear S1 S2 B B'. destruct o as [r ok|r|]; cbn [rt_step].
  - unfold rt_insert. destruct (negb _); [repeat split; assumption|]. destruct (has (r_flags r) RF_IN_TABLE); [repeat split; assumption|].
    cbv zeta. rewrite R, L, H. set (x := with_flags _ _). destruct (seek (t_routes t) x) as [p c]. destruct (c =? 0)%Z; [repeat split; assumption|].
    destruct (has_bitmask x).
    + specialize (U (r_family x)). destruct (bm_upref (t_bm d) (r_family x)) as [e1 b1], (bm_upref (t_bm t) (r_family x)) as [e2 b2]. cbn [fst] in U. subst e1.
      destruct (negb (is_success e2)); [repeat split; assumption|]. destruct ok; repeat split.
    + change (is_success OK) with true. cbn [negb]. destruct ok; repeat split.
  - unfold rt_delete. rewrite R. destruct (seek _ _) as [p c]. destruct (c =? 0)%Z; [|repeat split; assumption]. cbn [fst snd]. unfold rt_delete_at. rewrite R.
    destruct (nth_error (t_routes t) p); [|repeat split; assumption]. cbn [t_routes t_last_af t_highest]. rewrite L, H. repeat split.
  - cbn [fst snd rt_clone t_routes t_last_af t_highest]. rewrite R, H. repeat split.
Qed.
Lemma rtwin_run ops : forall t d, rtwin t d -> Forall op_succeeds ops -> fst (rt_run d ops) = fst (rt_run t ops) /\ rtwin (snd (rt_run t ops)) (snd (rt_run d ops)).
Proof.
  induction ops as [|o ops IH]; intros t d T F; cbn [rt_run]; [split; [reflexivity|exact T]|]. inversion F; subst.
  destruct (rtwin_step t d o T ltac:(assumption)) as [E T']. destruct (rt_step d o) as [e1 d1], (rt_step t o) as [e2 t1]. cbn [fst snd] in *.
  destruct (IH t1 d1 T' ltac:(assumption)) as [E2 T2]. destruct (rt_run d1 ops) as [es1 d2], (rt_run t1 ops) as [es2 t2]. cbn [fst snd] in *. subst. split; [reflexivity|exact T2].
Qed.
Lemma rtwin_lookup t d fuel target ar : rtwin t d -> lookup fuel d target ar = lookup fuel t target ar.
Proof.
  intros [R L H B B']. assert (M : forall af, is_bitmask_matching (t_bm d) af = is_bitmask_matching (t_bm t) af) by (intros af; rewrite R in B'; eapply bm_same_matching; eassumption).
  assert (SS : forall tg c b i s x, scan_step d tg ar c b i s x = scan_step t tg ar c b i s x) by (intros; unfold scan_step; rewrite R, L, H; reflexivity).
  assert (SC : forall f tg c b i s x, scan f d tg ar c b i s x = scan f t tg ar c b i s x).
  { induction f as [|f IH]; intros; [reflexivity|]. cbn [scan]. rewrite SS. destruct (scan_step t tg ar c b i s x); auto. }
  assert (ST : forall tg c, lookup_start d tg c = lookup_start t tg c) by (intros; unfold lookup_start; rewrite R, L, M; reflexivity).
  unfold lookup. cbv zeta. rewrite R, H. destruct (seek _ _) as [p c]. destruct (if contiguous _ && (c =? 0)%Z then _ else _); [reflexivity|].
  rewrite ST. destruct (lookup_start t _ _); try reflexivity. rewrite SC, M. reflexivity.
Qed.

(** Without wildcard-family routes the pointer stays null. *)
Definition no_family_wildcard (o : rop) : Prop := match o with RInsert r _ => N.testbit (r_flags r) RF_FAMILY_WILD = false | _ => True end.
Definition nowild (t : rtable) : Prop := t_last_af t = PNull /\ Forall (fun r => has (r_flags r) RF_FAMILY_WILD = false) (t_routes t).
Lemma last_wild_none l : Forall (fun r => has (r_flags r) RF_FAMILY_WILD = false) l -> forall i q, last_wild l i q = q.
Proof. induction 1 as [|r l H F IH]; intros i q; [reflexivity|]. cbn [last_wild]. rewrite H. apply IH. Qed.
Lemma nowild_step t o : nowild t -> no_family_wildcard o -> nowild (snd (rt_step t o)).
Proof.
  intros [P F] HO. destruct o as [r ok|r|]; cbn [rt_step].
  - assert (HW : has (r_flags (with_flags (clamp_wildcard_fields r) (N.setbit (r_flags r) RF_IN_TABLE))) RF_FAMILY_WILD = false).
    { cbn [r_flags with_flags]. unfold has. rewrite N.setbit_neq by (unfold RF_IN_TABLE, RF_FAMILY_WILD; lia). exact HO. }
    unfold rt_insert. destruct (negb _); [split; assumption|]. destruct (has (r_flags r) RF_IN_TABLE); [split; assumption|]. cbv zeta. set (x := with_flags _ _) in *.
    destruct (seek _ _) as [p c]. destruct (c =? 0)%Z; [split; assumption|]. destruct (if has_bitmask x then _ else _) as [e bm]. destruct (negb (is_success e)); [split; assumption|].
    rewrite HW, P. cbn [ptr_shift_insert].
    assert (F' : Forall (fun r => has (r_flags r) RF_FAMILY_WILD = false) (firstn p (t_routes t) ++ x :: skipn p (t_routes t))).
    { rewrite <- (firstn_skipn p (t_routes t)) in F. apply Forall_app in F. destruct F. apply Forall_app. split; [assumption|constructor; assumption]. }
    destruct ok; split; cbn [snd t_last_af t_routes ptr_shift_delete]; auto.
  - unfold rt_delete. destruct (seek _ _) as [p c]. destruct (c =? 0)%Z; [|split; assumption]. cbn [snd]. unfold rt_delete_at. destruct (nth_error (t_routes t) p) eqn:E; [|split; assumption].
    split; cbn [t_last_af t_routes]; [rewrite P; reflexivity|]. apply nth_error_split in E. destruct E as (l1 & l2 & E & <-). rewrite E in *. apply Forall_app in F. destruct F as [F1 F2]. inversion F2; subst.
    rewrite firstn_app, firstn_all, Nat.sub_diag. cbn [firstn]. rewrite app_nil_r. apply Forall_app. split; [exact F1|].
    rewrite skipn_app, skipn_all2 by lia. replace (S (length l1) - length l1)%nat with 1%nat by lia. cbn [skipn app]. assumption.
  - split; cbn [snd rt_clone t_last_af t_routes]; [apply last_wild_none; exact F|exact F].
Qed.
Lemma nowild_run ops : forall t, nowild t -> Forall no_family_wildcard ops -> nowild (snd (rt_run t ops)).
Proof.
  induction ops as [|o ops IH]; intros t HI HO; [exact HI|]. inversion HO; subst. cbn [rt_run].
  pose proof (nowild_step t o HI ltac:(assumption)) as HS. destruct (rt_step t o) as [e t1]. cbn [snd] in HS.
  specialize (IH t1 HS ltac:(assumption)). destruct (rt_run t1 ops) as [es t2]. exact IH.
Qed.
