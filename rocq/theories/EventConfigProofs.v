From Verif Require Import Base Table RouteFlags RouteKey EventConfig EventConfigSpec.
Open Scope N_scope.
Ltac Zify.zify_post_hook ::= Z.to_euclidean_division_equations.

Lemma disjoint_land a b : N.land a b = 0 <-> disjoint a b.
Proof.
  split.
  - intros H i [A B]. assert (X : N.testbit (N.land a b) i = true) by (rewrite N.land_spec, A, B; reflexivity). rewrite H, N.bits_0 in X. discriminate.
  - intros H. apply N.bits_inj_0. intros i. rewrite N.land_spec. destruct (N.testbit a i) eqn:A, (N.testbit b i) eqn:B; try reflexivity. exfalso. apply (H i). auto.
Qed.
Lemma pow2_land a : a <> 0 -> (N.land a (a - 1) = 0 <-> exists k, a = 2 ^ k).
Proof.
  intros NZ. split.
  - intros H. exists (N.log2 a). destruct (N.log2_spec a) as [L U]; [lia|]. destruct (N.eq_dec a (2 ^ N.log2 a)) as [E|E]; [exact E|]. exfalso.
    assert (L1 : N.log2 (a - 1) = N.log2 a) by (apply N.log2_unique; [lia|split; lia]).
    assert (A : N.testbit a (N.log2 a) = true) by (apply N.bit_log2; exact NZ). assert (B : N.testbit (a - 1) (N.log2 a) = true) by (rewrite <- L1; apply N.bit_log2; intros X; assert (a = 1) by lia; subst a; apply E; reflexivity).
    assert (X : N.testbit (N.land a (a - 1)) (N.log2 a) = true) by (rewrite N.land_spec, A, B; reflexivity). rewrite H, N.bits_0 in X. discriminate.
  - intros (k & ->). replace (2 ^ k - 1) with (N.ones k) by (rewrite N.ones_equiv; lia). rewrite N.land_ones. apply N.mod_same. apply N.pow_nonzero. discriminate.
Qed.
Lemma ssub_1 a : 0 < a -> a < szmod -> ssub a 1 = a - 1.
Proof. intros A B. unfold ssub, szmod in *. lia. Qed.
Lemma sensible_spec f : flags_sensical f = true <-> wildcards_sensible f.
Proof.
  unfold flags_sensical, wildcards_sensible, has, flag, RF_FAMILY_WILD, RF_RADDR_WILD, RF_PROTO_WILD, RF_LPORT_WILD, RF_LADDR_WILD, RF_RPORT_WILD.
  destruct (N.testbit f 0), (N.testbit f 1), (N.testbit f 2), (N.testbit f 3), (N.testbit f 4), (N.testbit f 5); cbn; intuition congruence.
Qed.
Lemma check_cases off c : check_conf off c = OK \/ check_conf off c = INVALID_ARG \/ check_conf off c = NUMERIC_ARG_TOO_BIG.
Proof. unfold check_conf. repeat match goal with |- context [if ?b then _ else _] => destruct b end; auto. Qed.
Lemma check_ok off c : check_conf off c = OK <->
  N.land (e_radd c) (e_rclr c) = 0 /\ N.land (e_fset c) (e_funset c) = 0 /\ N.land (e_badd c) (e_bclr c) = 0 /\ e_threshold c <= 65535 /\ flags_sensical (e_radd c) = true /\
  (e_align c = 0 \/ 8 <= e_align c /\ N.land (e_align c) (ssub (e_align c) 1) = 0 /\ e_align c <= e_size c /\ (off mod e_align c = 0 \/ sadd (e_size c) (e_align c - off mod e_align c) <= 65535)).
Proof.
  unfold check_conf.
  destruct (N.eqb_spec (N.land (e_radd c) (e_rclr c)) 0); cbn [negb]; [|split; [discriminate|tauto]].
  destruct (N.eqb_spec (N.land (e_fset c) (e_funset c)) 0); cbn [negb]; [|split; [discriminate|tauto]].
  destruct (N.eqb_spec (N.land (e_badd c) (e_bclr c)) 0); cbn [negb]; [|split; [discriminate|tauto]].
  destruct (N.ltb_spec 65535 (e_threshold c)); [split; [discriminate|intuition lia]|].
  destruct (flags_sensical (e_radd c)); cbn [negb]; [|split; [discriminate|intuition discriminate]].
  destruct (N.eqb_spec (e_align c) 0) as [A|A].
  - rewrite A. cbn [negb andb]. destruct (e_size c =? 0); cbn; intuition.
  - cbn [negb andb]. destruct (N.eqb_spec (e_size c) 0) as [Z|Z]; cbn; [split; [discriminate|intuition lia]|].
    destruct (N.ltb_spec (e_align c) 8); cbn [orb]; [split; [discriminate|intuition lia]|].
    destruct (N.eqb_spec (N.land (e_align c) (ssub (e_align c) 1)) 0); cbn [negb orb]; [|split; [discriminate|intuition lia]].
    destruct (N.ltb_spec (e_size c) (e_align c)); [split; [discriminate|intuition lia]|].
    destruct (N.ltb_spec 0 (e_align c)); [|lia]. cbn [andb]. destruct (N.ltb_spec 0 (off mod e_align c)); cbn [andb]; [|split; [intros _; repeat (split; [assumption || reflexivity|]); right; repeat (split; [assumption|]); left; lia|reflexivity]].
    destruct (N.ltb_spec 65535 (sadd (e_size c) (e_align c - off mod e_align c))); [split; [discriminate|intuition lia]|]. split; [intros _; repeat (split; [assumption || reflexivity|]); right; repeat (split; [assumption|]); right; assumption|reflexivity].
Qed.
Lemma padding_unique off a p : a <> 0 -> 0 < p -> p < a -> (off + p) mod a = 0 -> 0 < off mod a /\ p = a - off mod a.
Proof.
  intros A P L M. pose proof (N.mod_lt off a A) as U. rewrite <- N.add_mod_idemp_l in M by exact A. set (r := off mod a) in *. assert (r + p < 2 * a) by lia.
  destruct (N.lt_ge_cases (r + p) a) as [X|X]; [rewrite N.mod_small in M by exact X; lia|].
  replace (r + p) with (r + p - a + 1 * a) in M by lia. rewrite N.mod_add in M by exact A. rewrite N.mod_small in M by lia. lia.
Qed.
Lemma padding_aligns off a : a <> 0 -> (off + (a - off mod a)) mod a = 0.
Proof. intros A. pose proof (N.mod_lt off a A) as U. rewrite <- N.add_mod_idemp_l by exact A. replace (off mod a + (a - off mod a)) with a by lia. apply N.mod_same. exact A. Qed.
Lemma check_consistent off c : typed c -> e_size c + e_align c < szmod -> (check_conf off c = OK <-> consistent off c).
Proof.
  intros (T1 & T2) NW. rewrite check_ok. unfold consistent. rewrite (disjoint_land (e_radd c)), (disjoint_land (e_fset c)), (disjoint_land (e_badd c)), sensible_spec.
  assert (Q : (e_align c = 0 \/ 8 <= e_align c /\ N.land (e_align c) (ssub (e_align c) 1) = 0 /\ e_align c <= e_size c /\ (off mod e_align c = 0 \/ sadd (e_size c) (e_align c - off mod e_align c) <= 65535)) <->
    (e_align c = 0 \/ (8 <= e_align c <= e_size c /\ (exists k, e_align c = 2 ^ k) /\ forall p, p < e_align c -> (off + p) mod e_align c = 0 -> 0 < p -> e_size c + p <= 65535))); [|tauto].
  destruct (N.eq_dec (e_align c) 0) as [A|A]; [tauto|]. rewrite ssub_1 by lia. rewrite pow2_land by exact A.
  assert (PP : (off mod e_align c = 0 \/ sadd (e_size c) (e_align c - off mod e_align c) <= 65535) <-> forall p, p < e_align c -> (off + p) mod e_align c = 0 -> 0 < p -> e_size c + p <= 65535).
  { pose proof (N.mod_lt off _ A) as U. assert (SA : sadd (e_size c) (e_align c - off mod e_align c) = e_size c + (e_align c - off mod e_align c)) by (unfold sadd; apply N.mod_small; lia). rewrite SA. split.
    - intros H p P1 P2 P3. destruct (padding_unique off _ p A P3 P1 P2) as (R & ->). lia.
    - intros H. destruct (N.eq_dec (off mod e_align c) 0) as [R|R]; [left; exact R|right]. apply H; [lia|apply padding_aligns; exact A|lia]. }
  intuition.
Qed.
Lemma ssub_sadd a p : a < szmod -> p < szmod -> ssub (sadd a p) p = a.
Proof.
  intros A P. unfold ssub, sadd. destruct (N.lt_ge_cases (a + p) szmod) as [X|X].
  - rewrite (N.mod_small (a + p)) by exact X. replace (a + p + szmod - p) with (a + 1 * szmod) by lia. rewrite N.mod_add by discriminate. apply N.mod_small. exact A.
  - assert (E : (a + p) mod szmod = a + p - szmod). { replace (a + p) with (a + p - szmod + 1 * szmod) at 1 by lia. rewrite N.mod_add by discriminate. apply N.mod_small. lia. }
    rewrite E. replace (a + p - szmod + szmod - p) with a by lia. apply N.mod_small. exact A.
Qed.
Lemma with_size_id c : with_size c (e_size c) = c.
Proof. destruct c; reflexivity. Qed.
