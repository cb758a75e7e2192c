(** From acceptance by the loop to the specification and back. *)
From Verif Require Import Base Labels LabelsProofs Addr AddrSpec AddrProofs RouteFlags RouteKey RouteKeySpec RouteKeyProofs RouteTable TableSpec Lookup LookupSpec LookupMatch LookupProofs RouteTableProofs LookupStart.
Open Scope Z_scope.
Ltac Zify.zify_post_hook ::= Z.to_euclidean_division_equations.

Lemma land_nonzero a b : N.land a b <> 0%N <-> exists k, N.testbit a k = true /\ N.testbit b k = true.
Proof.
  split.
  - intros H. exists (N.log2 (N.land a b)). pose proof (N.bit_log2 _ H) as B. rewrite N.land_spec in B. apply andb_true_iff. exact B.
  - intros (k & Ha & Hb) E. assert (B : N.testbit (N.land a b) k = true) by (rewrite N.land_spec, Ha, Hb; reflexivity). rewrite E, N.bits_0 in B. discriminate.
Qed.
Lemma dir_bits k : N.testbit DIRECTION_FLAGS k = true <-> (k = 10 \/ k = 11)%N.
Proof.
  split; [|intros [->| ->]; reflexivity]. intros H. destruct (N.lt_ge_cases k 12) as [L|G].
  - assert (E : (k = 0 \/ k = 1 \/ k = 2 \/ k = 3 \/ k = 4 \/ k = 5 \/ k = 6 \/ k = 7 \/ k = 8 \/ k = 9 \/ k = 10 \/ k = 11)%N) by lia.
    repeat (destruct E as [-> |E]; [try discriminate; auto|]). auto.
  - exfalso. rewrite N.bits_above_log2 in H; [discriminate|]. change (N.log2 DIRECTION_FLAGS) with 11%N. lia.
Qed.
Lemma direction_spec r t : anybit (r_flags r) (N.land (r_flags t) DIRECTION_FLAGS) = true <-> direction_agrees r t.
Proof.
  unfold anybit, direction_agrees. rewrite negb_true_iff, N.eqb_neq, land_nonzero. unfold RF_IN, RF_OUT. split.
  - intros (k & H1 & H2). rewrite N.land_spec in H2. apply andb_true_iff in H2. destruct H2 as [H2 H3]. apply dir_bits in H3. destruct H3; subst; tauto.
  - intros [[H1 H2]|[H1 H2]]; eexists; (split; [exact H1|]); rewrite N.land_spec, H2; reflexivity.
Qed.
Lemma as_target_bit t k : (k <> 8)%N -> N.testbit (r_flags (as_target t)) k = N.testbit (r_flags t) k.
Proof. intros H. cbn [as_target with_flags r_flags]. apply N.setbit_neq. unfold RF_EVENT_WILD. lia. Qed.
Lemma direction_as_target r t : direction_agrees r (as_target t) <-> direction_agrees r t.
Proof. unfold direction_agrees. rewrite !as_target_bit by discriminate. tauto. Qed.
Lemma agrees_as_target r t : agrees r (as_target t) <-> agrees r t.
Proof.
  assert (I : forall b, (b < 8)%N -> ignored r (as_target t) b <-> ignored r t b) by (intros b Hb; unfold ignored; rewrite as_target_bit by lia; tauto).
  assert (FA : forall b x y, (b < 8)%N -> field_agrees r (as_target t) b x y <-> field_agrees r t b x y) by (intros b x y Hb; unfold field_agrees; rewrite I by exact Hb; tauto).
  assert (AA : forall b bm a n c m, (b < 8)%N -> (bm <> 8)%N -> addr_agrees r (as_target t) b bm a n c m <-> addr_agrees r t b bm a n c m).
  { intros b bm a n c m Hb Hbm. unfold addr_agrees. rewrite I by exact Hb. unfold has. rewrite !N.lor_spec, as_target_bit by exact Hbm. tauto. }
  split; intros [A1 A2 A3 A4 A5 A6 A7 A8]; split.
  all: first [apply FA; [reflexivity|exact A1] | apply FA in A1; [exact A1|reflexivity] | idtac].
  all: first [apply FA; [reflexivity|assumption] | apply AA; [reflexivity|discriminate|assumption] | idtac].
  all: first [eapply FA; [|eassumption]; reflexivity | eapply AA; [| |eassumption]; [reflexivity|discriminate] ].
Qed.

Lemma land_all a m : N.land a m = m <-> forall i, N.testbit m i = true -> N.testbit a i = true.
Proof.
  split.
  - intros H i Hi. rewrite <- H, N.land_spec in Hi. apply andb_true_iff in Hi. tauto.
  - intros H. apply N.bits_inj. intros i. rewrite N.land_spec. destruct (N.testbit m i) eqn:E; [rewrite (H i E); reflexivity|apply andb_false_r].
Qed.
Lemma not32_bit a i : (i < 32)%N -> N.testbit (not32 a) i = negb (N.testbit a i).
Proof.
  intros H. unfold not32. rewrite N.ldiff_spec. change 4294967295%N with (N.ones 32). rewrite N.ones_spec_low by exact H. reflexivity.
Qed.
Lemma filter_spec ar r : (forall e s u, r_event r = Some e -> ev_filter e = Some (s, u) -> forall i, N.testbit u i = true -> (i < 32)%N) ->
  filter_passes ar (r_event r) = true <-> passes_filter ar r.
Proof.
  intros HU. unfold filter_passes, passes_filter. destruct ar as [a|]; [|split; [intros; discriminate|reflexivity]].
  destruct (r_event r) as [ev|]; [|split; [intros; discriminate|reflexivity]].
  specialize (HU ev). destruct (ev_filter ev) as [[s u]|] eqn:EF.
  - specialize (HU s u eq_refl eq_refl). rewrite andb_true_iff, !N.eqb_eq, !land_all. split.
    + intros [H1 H2] a' e' s' u' Ha He Hf. assert (a' = a) by congruence. assert (e' = ev) by congruence. subst.
      assert (s' = s) by congruence. assert (u' = u) by congruence. subst. split; [exact H1|].
      intros i Hi Hu. specialize (H2 i Hu). rewrite not32_bit in H2 by exact Hi. apply negb_true_iff. exact H2.
    + intros H. destruct (H a ev s u eq_refl eq_refl EF) as [H1 H2]. split; [exact H1|]. intros i Hu. pose proof (HU i Hu). rewrite not32_bit by assumption.
      apply negb_true_iff. apply H2; assumption.
  - split; [|reflexivity]. intros _ a' e' s' u' Ha He Hf. assert (e' = ev) by congruence. subst. congruence.
Qed.
Lemma filter_sound ar r : filter_passes ar (r_event r) = true -> passes_filter ar r.
Proof.
  unfold filter_passes, passes_filter. intros H a e s u -> He Hf. rewrite He, Hf in H. apply andb_true_iff in H. destruct H as [H1 H2].
  apply N.eqb_eq in H1, H2. rewrite land_all in H1, H2. split; [exact H1|]. intros i Hi Hu. specialize (H2 i Hu). rewrite not32_bit in H2 by exact Hi. apply negb_true_iff. exact H2.
Qed.
Lemma exclude_bits k : N.testbit RES_EXCLUDE_REJECT_ROUTES k = true <-> (k = 4 \/ k = 5)%N.
Proof.
  split; [|intros [->| ->]; reflexivity]. intros H. destruct (N.lt_ge_cases k 6) as [L|G].
  - assert (E : (k = 0 \/ k = 1 \/ k = 2 \/ k = 3 \/ k = 4 \/ k = 5)%N) by lia.
    repeat (destruct E as [-> |E]; [try discriminate; auto|]). auto.
  - exfalso. rewrite N.bits_above_log2 in H; [discriminate|]. change (N.log2 RES_EXCLUDE_REJECT_ROUTES) with 5%N. lia.
Qed.
Lemma excl_spec ar r : excl ar r = false <-> not_excluded ar r.
Proof.
  unfold excl, not_excluded, excludes_rejecting, check_bits, has. destruct ar as [a|]; [|split; [intros _ (a & H & _); discriminate|reflexivity]].
  rewrite andb_false_iff, N.eqb_neq, land_all. split.
  - intros [H|H]; [|auto]. intros (a' & Ea & H4 & H5). assert (a' = a) by congruence. subst. exfalso. apply H. intros i Hi. apply exclude_bits in Hi. destruct Hi; subst; assumption.
  - intros H. destruct (N.testbit (r_flags r) RF_PENALTYBOXED) eqn:P; [|right; reflexivity]. left. intros Q. enough (true = false) by discriminate. apply H.
    exists a. split; [reflexivity|]. split; apply Q, exclude_bits; tauto.
Qed.

Lemma same_key_agrees r t : has (r_flags t) RF_RADDR_BITMASK = false -> has (r_flags t) RF_LADDR_BITMASK = false ->
  same_key r t -> agrees r t.
Proof.
  intros B1 B2 (E1 & E2 & E3 & E4 & E5 & E6 & E7 & E8 & E9 & E10 & EF & _).
  assert (C1 : has (r_flags r) RF_RADDR_BITMASK = false) by (unfold has in *; rewrite EF by reflexivity; exact B1).
  assert (C2 : has (r_flags r) RF_LADDR_BITMASK = false) by (unfold has in *; rewrite EF by reflexivity; exact B2).
  assert (L : forall b, has (r_flags r) b = false -> has (r_flags t) b = false -> has (N.lor (r_flags r) (r_flags t)) b = false)
    by (intros b H1 H2; unfold has in *; rewrite N.lor_spec, H1, H2; reflexivity).
  split; try (left; assumption); right; rewrite L by assumption; right; right; left; split; assumption.
Qed.

(** The target names every field. *)
Definition no_wildcards (t : route) : Prop := forall b, (b < 8)%N -> N.testbit (r_flags t) b = false.
Lemma no_wildcards_contiguous t : no_wildcards t -> contiguous (r_flags (as_target t)) = true.
Proof.
  intros H. unfold contiguous. cbv zeta. assert (E : N.ldiff WILDCARD_FLAGS (r_flags (as_target t)) = 255%N).
  { apply N.bits_inj. intros b. rewrite N.ldiff_spec. change WILDCARD_FLAGS with (N.ones 8). change 255%N with (N.ones 8).
    destruct (N.lt_ge_cases b 8) as [L|G].
    - rewrite as_target_bit by lia. rewrite H by exact L. rewrite N.ones_spec_low by exact L. reflexivity.
    - rewrite N.ones_spec_high by exact G. reflexivity. }
  rewrite E. reflexivity.
Qed.

(** Event filters are 32-bit words. *)
Definition filter_ok (r : route) : Prop := forall e s u, r_event r = Some e -> ev_filter e = Some (s, u) -> (u < 2 ^ 32)%N.
Lemma filter_ok_bits r : filter_ok r -> forall e s u, r_event r = Some e -> ev_filter e = Some (s, u) -> forall i, N.testbit u i = true -> (i < 32)%N.
Proof.
  intros H e s u He Hf i Hi. specialize (H e s u He Hf). destruct (N.lt_ge_cases i 32) as [L|G]; [exact L|].
  assert (T : N.testbit u i = false); [|congruence]. destruct (N.eq_dec u 0) as [->|NZ]; [apply N.bits_0|]. apply N.bits_above_log2.
  apply N.log2_lt_pow2 in H; lia.
Qed.

Lemma cand_applies t target ar i inx prio : Forall route_ok (t_routes t) -> route_ok target -> cand t (as_target target) ar (i, inx, prio) ->
  exists r, nth_error (t_routes t) i = Some r /\ applies ar r target /\ prio = eff_prio (r_event r).
Proof.
  intros F OKT (r & Er & D & FP & X & K & P). exists r. split; [exact Er|]. split; [|exact P].
  assert (OKR : route_ok r) by (rewrite Forall_forall in F; apply F; eapply nth_error_In; exact Er). split.
  - apply agrees_as_target. eapply match_sound; [exact OKR|apply as_target_ok; exact OKT|exact K].
  - apply direction_as_target, direction_spec. exact D.
  - apply filter_sound. exact FP.
  - apply excl_spec. exact X.
Qed.
Definition no_bitmask (t : route) : Prop := has (r_flags t) RF_RADDR_BITMASK = false /\ has (r_flags t) RF_LADDR_BITMASK = false.
Lemma applies_cand t target ar i r : Forall route_ok (t_routes t) -> route_ok target -> no_bitmask target -> filter_ok r ->
  nth_error (t_routes t) i = Some r -> sizes_ok r target -> applies ar r target ->
  exists inx, route_key_cmp_1 r (as_target target) true = Some (0, inx) /\ cand t (as_target target) ar (i, inx, eff_prio (r_event r)).
Proof.
  intros F OKT [B1 B2] FO Er SZ [AG DI FI EX].
  assert (OKR : route_ok r) by (rewrite Forall_forall in F; apply F; eapply nth_error_In; exact Er).
  destruct (match_complete r (as_target target) OKR (as_target_ok _ OKT) SZ) as (inx & K).
  - unfold has in *. rewrite as_target_bit by discriminate. exact B1.
  - unfold has in *. rewrite as_target_bit by discriminate. exact B2.
  - unfold has. cbn [as_target with_flags r_flags]. apply N.setbit_eq.
  - apply agrees_as_target. exact AG.
  - exists inx. split; [exact K|]. exists r. repeat split; try assumption.
    + apply direction_spec, direction_as_target. exact DI.
    + apply filter_spec; [apply filter_ok_bits; exact FO|exact FI].
    + apply excl_spec. exact EX.
Qed.

(** Everything in a reachable table went through wolfsentry_route_insert_1. *)
Definition all_stored (t : rtable) : Prop := Forall (fun r => exists r0, route_ok r0 /\ r = stored r0) (t_routes t).
Lemma all_stored_step t o : all_stored t -> rop_ok o -> all_stored (snd (rt_step t o)).
Proof.
  intros AS HO. destruct o as [r ok|r|]; cbn [rt_step].
  - pose proof (insert_cases t r ok) as IC. destruct (rt_insert t r ok) as [e t']. cbn [snd].
    destruct IC as [->|(p & c & bm & last & _ & _ & _ & _ & _ & ET & _)]; [exact AS|].
    destruct ET as [(_ & _ & ->)|(_ & ->)]; [|exact AS]. unfold all_stored in *. cbn [t_routes]. rewrite Forall_forall in *.
    intros y Hy. apply in_insert in Hy. destruct Hy as [->|Hy]; [|auto]. exists r. split; [exact HO|reflexivity].
  - unfold rt_delete. destruct (seek _ _) as [p c]. destruct (c =? 0); cbn [snd]; [|exact AS]. unfold rt_delete_at.
    destruct (nth_error (t_routes t) p); [|exact AS]. unfold all_stored in *. cbn [t_routes]. rewrite Forall_forall in *. intros x Hx. apply AS. apply in_app_or in Hx. destruct Hx as [Hx|Hx].
    + rewrite <- (firstn_skipn p). apply in_or_app. left. exact Hx.
    + rewrite <- (firstn_skipn (Datatypes.S p)). apply in_or_app. right. exact Hx.
  - exact AS.
Qed.
Lemma all_stored_run ops : forall t, all_stored t -> Forall rop_ok ops -> all_stored (snd (rt_run t ops)).
Proof.
  induction ops as [|o ops IH]; intros t HI HO; [exact HI|]. inversion HO; subst. cbn [rt_run].
  pose proof (all_stored_step t o HI ltac:(assumption)) as HS. destruct (rt_step t o) as [e t1]. cbn [snd] in HS.
  specialize (IH t1 HS ltac:(assumption)). destruct (rt_run t1 ops) as [es t2]. exact IH.
Qed.

(** A matching route that is not more specific than the target comes first in key order. *)
Definition shorter_address (a : list N) (n : nat) (b : list N) (m : nat) : Prop := (n mod 8 = 0 /\ n <= m)%nat.
Lemma lcmp_zeros n : forall b, (n <= length b)%nat -> lcmp (repeat 0%N n) b <= 0.
Proof.
  induction n as [|n IH]; intros [|x b] H; cbn [repeat lcmp] in *; cbn [length] in *; try lia.
  destruct (N.eqb_spec 0 x) as [E|E]; [apply IH; lia|lia].
Qed.
Lemma lcmp_firstn n : forall b, (n <= length b)%nat -> lcmp (firstn n b) b <= 0.
Proof.
  induction n as [|n IH]; intros [|x b] H; cbn [firstn lcmp] in *; cbn [length] in *; try lia. rewrite N.eqb_refl. apply IH. lia.
Qed.
Lemma ncmp_le a b : (a <= b)%N -> ncmp a b <= 0.
Proof. unfold ncmp. destruct (N.eqb_spec a b), (N.ltb_spec a b); lia. Qed.
Lemma acmp_le a n b m : (n <= m)%nat -> lcmp a b <= 0 -> acmp (a, n) (b, m) <= 0.
Proof. intros H L. unfold acmp, lexc. cbn [fst snd]. rewrite label_cmp_lcmp. destruct (lcmp a b =? 0); [|exact L]. apply ncmp_le. lia. Qed.
Lemma prefix_acmp a n b m : addr_ok a n -> addr_ok b m -> (n mod 8 = 0)%nat -> (n <= m)%nat -> prefix_agrees a n b m -> acmp (a, n) (b, m) <= 0.
Proof.
  intros [La Ba] [Lb Bb] M NM H. apply acmp_le; [exact NM|].
  destruct H as [->|[->|[[-> ->]|[NE SB]]]].
  - cbn in La. destruct a; [|discriminate]. destruct b; cbn; lia.
  - replace n with O in * by lia. cbn in La. destruct a; [|discriminate]. destruct b; cbn; lia.
  - pose proof (proj2 (proj1 (proj2 (lcmp_spec b b))) eq_refl). lia.
  - rewrite Nat.min_l in SB by exact NM. unfold compared_bits in SB. rewrite M in SB. cbn [Nat.eqb] in SB.
    replace n with (8 * (n / 8))%nat in SB by lia. pose proof (proj1 (same_bits_bytes (n / 8) a b Ba Bb) SB) as SB'.
    assert (E : a = firstn (n / 8) b).
    { apply (bytes_eq_nth a (firstn (n / 8) b) (n / 8)); [lia|rewrite firstn_length; lia|]. intros i Hi. rewrite SB' by exact Hi.
      rewrite <- (firstn_skipn (n / 8) b) at 1. rewrite app_nth1; [reflexivity|rewrite firstn_length; lia]. }
    rewrite E. apply lcmp_firstn. lia.
Qed.
Definition same_fields (a b : route) : Prop :=
  r_proto a = r_proto b /\ r_raddr a = r_raddr b /\ r_rlen a = r_rlen b /\ r_rport a = r_rport b /\ r_riface a = r_riface b /\
  r_laddr a = r_laddr b /\ r_llen a = r_llen b /\ r_lport a = r_lport b /\ r_liface a = r_liface b.
Lemma lexc_le a b : a <= 0 -> b <= 0 -> lexc a b <= 0.
Proof. unfold lexc. destruct (a =? 0); auto. Qed.
Lemma lexc_lt a b : a <= 0 -> (a = 0 -> b < 0) -> lexc a b < 0.
Proof. unfold lexc. destruct (Z.eqb_spec a 0); intros; auto; lia. Qed.
Lemma less_specific_first r0 target : route_ok r0 -> route_ok target -> no_wildcards target -> no_bitmask target ->
  let r := stored r0 in
  agrees r target -> r_family r = r_family target -> no_bitmask r ->
  (r_rlen r mod 8 = 0 /\ r_rlen r <= r_rlen target)%nat -> (r_llen r mod 8 = 0 /\ r_llen r <= r_llen target)%nat ->
  ~ same_fields r target -> rcmp r (as_target target) <= 0.
Proof.
  intros OK0 OKT NW [TB1 TB2] r [A1 A2 A3 A4 A5 A6 A7 A8] EF [RB1 RB2] [M1 L1] [M2 L2] NS.
  assert (OKR : route_ok r) by (apply stored_ok; exact OK0).
  assert (NB : forall b, has (r_flags r) b = false -> has (r_flags target) b = false -> has (N.lor (r_flags r) (r_flags target)) b = false)
    by (intros b H1 H2; unfold has in *; rewrite N.lor_spec, H1, H2; reflexivity).
  assert (IG : forall b, (b < 8)%N -> ignored r target b -> has (r_flags r0) b = true).
  { intros b Hb [H|H]; [|rewrite NW in H by exact Hb; discriminate]. unfold r, stored in H. cbn [with_flags r_flags] in H. unfold has.
    rewrite N.setbit_neq in H; [exact H|]. unfold RF_IN_TABLE. lia. }
  assert (FL : forall b x y (proj : N), (b < 8)%N -> proj = (if has (r_flags r0) b then 0%N else x) -> field_agrees r target b proj y -> ncmp proj y <= 0).
  { intros b x y proj Hb HP [E|H]; [apply ncmp_le; lia|]. apply IG in H; [|exact Hb]. rewrite H in HP. subst proj. apply ncmp_le. lia. }
  assert (CP : ncmp (r_proto r) (r_proto target) <= 0) by (eapply (FL RF_PROTO_WILD (r_proto r0)); [reflexivity|reflexivity|exact A3]).
  assert (C4 : ncmp (r_lport r) (r_lport target) <= 0) by (eapply (FL RF_LPORT_WILD (r_lport r0)); [reflexivity|reflexivity|exact A4]).
  assert (C6 : ncmp (r_rport r) (r_rport target) <= 0) by (eapply (FL RF_RPORT_WILD (r_rport r0)); [reflexivity|reflexivity|exact A6]).
  assert (C7 : ncmp (r_riface r) (r_riface target) <= 0) by (eapply (FL RF_RIFACE_WILD (r_riface r0)); [reflexivity|reflexivity|exact A7]).
  assert (C8 : ncmp (r_liface r) (r_liface target) <= 0) by (eapply (FL RF_LIFACE_WILD (r_liface r0)); [reflexivity|reflexivity|exact A8]).
  assert (C2 : acmp (r_raddr r, r_rlen r) (r_raddr target, r_rlen target) <= 0).
  { destruct A2 as [H|H].
    - apply IG in H; [|reflexivity]. apply acmp_le; [exact L1|]. unfold r, stored, clamp_wildcard_fields. cbn [with_flags r_raddr]. rewrite H. apply lcmp_zeros.
      destruct OK0 as [[O _] _ _ _], OKT as [[T _] _ _ _]. rewrite O, T. cbn in L1. lia.
    - rewrite NB in H by assumption. apply prefix_acmp; try assumption; [apply OKR|apply OKT]. }
  assert (C5 : acmp (r_laddr r, r_llen r) (r_laddr target, r_llen target) <= 0).
  { destruct A5 as [H|H].
    - apply IG in H; [|reflexivity]. apply acmp_le; [exact L2|]. unfold r, stored, clamp_wildcard_fields. cbn [with_flags r_laddr]. rewrite H. apply lcmp_zeros.
      destruct OK0 as [_ [O _] _ _], OKT as [_ [T _] _ _]. rewrite O, T. cbn in L2. lia.
    - rewrite NB in H by assumption. apply prefix_acmp; try assumption; [apply OKR|apply OKT]. }
  apply Z.lt_le_incl. unfold rcmp. cbn [as_target with_flags r_family r_raddr r_rlen r_proto r_lport r_laddr r_llen r_rport r_riface r_liface].
  apply lexc_lt; [rewrite EF; apply ncmp_le; lia|intros _].
  apply lexc_lt; [exact C2|intros Z2]. apply lexc_lt; [exact CP|intros Z3]. apply lexc_lt; [exact C4|intros Z4]. apply lexc_lt; [exact C5|intros Z5].
  apply lexc_lt; [exact C6|intros Z6]. apply lexc_lt; [exact C7|intros Z7]. apply lexc_lt; [exact C8|intros Z8].
  exfalso. apply NS. apply acmp_0 in Z2, Z5. apply ncmp_0 in Z3, Z4, Z6, Z7, Z8. cbn [fst snd] in Z2, Z5.
  unfold same_fields. tauto.
Qed.

(** Without bitmask routes no lookup reads out of bounds. *)
Lemma cmp_field_some wild wf bit a b k inx : (forall i, k i <> None) -> cmp_field wild wf bit a b k inx <> None.
Proof. intros H. unfold cmp_field. destruct (N.eqb a b); [apply H|]. destruct (wild && has wf bit)%bool; [apply H|]. destruct (N.ltb a b); discriminate. Qed.
Lemma cmp_addr_field_some wild wf bit bm l ln r rn k inx : addr_ok l ln -> addr_ok r rn -> has wf bm = false -> (forall i, k i <> None) ->
  cmp_addr_field wild wf bit bm l ln r rn k inx <> None.
Proof.
  intros Hl Hr HB H. unfold cmp_addr_field. rewrite HB. unfold cmp_addr.
  pose proof (prefixful_safe l ln r rn (wild && has wf bit) wild Hl Hr) as S. destruct (cmp_addrs_prefixful _ _ _ _ _ _) as [[c i]|]; [|contradiction].
  destruct (negb (c =? 0)); [discriminate|apply H].
Qed.
Lemma key_cmp_some r t wild : route_ok r -> route_ok t -> no_bitmask r -> no_bitmask t -> route_key_cmp_1 r t wild <> None.
Proof.
  intros [R1 R2 _ _] [T1 T2 _ _] [B1 B2] [D1 D2]. unfold route_key_cmp_1. cbv zeta.
  assert (NB : forall b, has (r_flags r) b = false -> has (r_flags t) b = false -> has (N.lor (r_flags r) (r_flags t)) b = false)
    by (intros b H1 H2; unfold has in *; rewrite N.lor_spec, H1, H2; reflexivity).
  apply cmp_field_some; intros. apply cmp_addr_field_some; auto; intros. do 2 (apply cmp_field_some; intros).
  apply cmp_addr_field_some; auto; intros. do 3 (apply cmp_field_some; intros).
  destruct (_ && _)%bool; [destruct (N.ltb _ _); discriminate|]. unfold cmp_event. apply cmp_field_some. intros j.
  destruct (event_eqb _ _); [discriminate|]. destruct (wild && has j RF_EVENT_WILD)%bool; [discriminate|].
  destruct (r_event r), (r_event t); cbv zeta; repeat match goal with |- context [if ?b then _ else _] => destruct b end; discriminate.
Qed.
Lemma exactness_some target l li r ri : route_ok target -> route_ok l -> route_ok r -> no_bitmask l -> no_bitmask r ->
  compare_match_exactness target l li r ri <> None.
Proof.
  intros [T1 T2 _ _] [L1 L2 _ _] [R1 R2 _ _] [B1 B2] [D1 D2]. unfold compare_match_exactness, score. rewrite B1, B2, D1, D2.
  destruct (negb _); [discriminate|].
  destruct (prefix_size_some _ _ _ _ T1 L1) as (k1 & -> & _). destruct (prefix_size_some _ _ _ _ T2 R2) as (k2 & -> & _).
  destruct (negb _); [discriminate|]. destruct (prefix_size_some _ _ _ _ T2 L2) as (k3 & -> & _). discriminate.
Qed.
Record plain_table (t : rtable) : Prop := {
  pt_nobm : forall r, In r (t_routes t) -> no_bitmask r;
  pt_last : t_last_af t = PNull \/ exists j, t_last_af t = PAt j /\ (j < length (t_routes t))%nat }.
Lemma scan_step_safe t target ar contig bmaf i seen b : Forall route_ok (t_routes t) -> route_ok target -> no_bitmask target -> plain_table t ->
  (forall x, b = Some x -> cand t target ar x) -> scan_step t target ar contig bmaf i seen b <> SUB.
Proof.
  intros F OKT NBT [NB LA] HB. unfold scan_step. destruct (nth_error (t_routes t) i) as [r0|] eqn:E0; [|discriminate]. cbv zeta.
  assert (PV : forall (k : nat) (s : bool) (b0 : best), match k with O => SDone b0 | S k' => SNext k' s b0 end <> SUB) by (intros [|k] s b0; discriminate).
  match goal with |- match ?j with Some _ => _ | None => _ end <> SUB => set (jump := j) end.
  assert (J : match jump with Some (k, r) => nth_error (t_routes t) k = Some r | None => t_last_af t = PNull end).
  { unfold jump. destruct (_ =? _)%N; [exact E0|]. destruct (_ && _)%bool; [|exact E0].
    destruct LA as [->|(j & -> & Hj)]; [reflexivity|]. destruct (nth_error (t_routes t) j) eqn:EJ; [exact EJ|]. apply nth_error_None in EJ. lia. }
  destruct jump as [[k r]|]; [|rewrite J; discriminate].
  assert (OKR : route_ok r /\ no_bitmask r) by (split; [rewrite Forall_forall in F; apply F|apply NB]; eapply nth_error_In; exact J).
  destruct (negb (anybit _ _)); [apply PV|]. destruct (negb (filter_passes _ _)); [apply PV|].
  destruct (match ar with Some _ => _ | None => _ end); [apply PV|].
  destruct (route_key_cmp_1 r target true) as [[c inx]|] eqn:EC; [|exfalso; revert EC; apply key_cmp_some; tauto].
  match goal with |- match ?x with Some _ => _ | None => SUB end <> SUB => set (b' := x); assert (B : b' <> None) end.
  { unfold b'. destruct (c =? 0); [|discriminate]. destruct b as [[[j jinx] jp]|]; [|discriminate]. destruct (_ <? _)%N; [discriminate|]. destruct (_ =? _)%N; [|discriminate].
    destruct (HB _ eq_refl) as (rj & Ej & _). rewrite Ej.
    assert (OKJ : route_ok rj /\ no_bitmask rj) by (split; [rewrite Forall_forall in F; apply F|apply NB]; eapply nth_error_In; exact Ej).
    pose proof (exactness_some target r inx rj jinx OKT ltac:(tauto) ltac:(tauto) ltac:(tauto) ltac:(tauto)) as X.
    destruct (compare_match_exactness _ _ _ _ _); [|contradiction]. destruct (_ <? 0); discriminate. }
  destruct b' as [bb|]; [|contradiction]. match goal with |- (if ?s then _ else _) <> SUB => destruct s end; [discriminate|apply PV].
Qed.
Lemma scan_safe fuel : forall t target ar contig bmaf i seen b, Forall route_ok (t_routes t) -> route_ok target -> no_bitmask target -> plain_table t ->
  (forall x, b = Some x -> cand t target ar x) -> scan fuel t target ar contig bmaf i seen b <> Some None.
Proof.
  induction fuel as [|f IH]; intros t target ar contig bmaf i seen b F OKT NBT PT HB; [discriminate|]. cbn [scan].
  pose proof (scan_step_safe t target ar contig bmaf i seen b F OKT NBT PT HB) as NS.
  pose proof (scan_step_spec t target ar contig bmaf i seen b) as SP.
  destruct SP as [E|r0 E1 E2 E3 E4 E5| |r0 j r1 b' res E1 E2 E3 B1 B2 B3 R]; try discriminate; [contradiction|].
  destruct res as [k s bb|bb|]; try discriminate; [|contradiction].
  destruct R as (_ & _ & ->). apply IH; try assumption.
  destruct B1 as [->|(z & -> & _ & Z)]; [exact HB|]. intros y Hy. assert (y = z) by congruence. subst y. exact Z.
Qed.
