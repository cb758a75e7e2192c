(** C41: event configurations; C51: the private data of routes.  [off] is the offset of the data in a route (144 on LP64). *)
From Verif Require Import Base Table RouteFlags RouteKey EventConfig EventConfigSpec EventConfigProofs.
Open Scope N_scope.

(** Configurations are accepted exactly if consistent, provided size plus alignment does not exceed SIZE_MAX. *)
Theorem C41_check_partial : forall off c, typed c -> e_size c + e_align c < szmod ->
  (check_conf off c = OK <-> consistent off c) /\ (check_conf off c <> OK -> check_conf off c = INVALID_ARG \/ check_conf off c = NUMERIC_ARG_TOO_BIG).
Proof. intros off c T W. split; [apply check_consistent; assumption|]. destruct (check_cases off c) as [?|[?|?]]; tauto. Qed.
(** Whatever the sizes, bits both set and cleared, bad thresholds, wildcards and alignments are refused. *)
Theorem C41_contradictions_refused : forall off c, typed c -> check_conf off c = OK ->
  disjoint (e_radd c) (e_rclr c) /\ disjoint (e_fset c) (e_funset c) /\ disjoint (e_badd c) (e_bclr c) /\
  e_threshold c <= 65535 /\ wildcards_sensible (e_radd c) /\ (e_align c = 0 \/ 8 <= e_align c <= e_size c /\ exists k, e_align c = 2 ^ k).
Proof.
  intros off c (T1 & T2) H. apply check_ok in H. destruct H as (A & B & C & D & E & F). apply disjoint_land in A, B, C. apply sensible_spec in E. repeat (split; [assumption|]).
  destruct F as [F|(F1 & F2 & F3 & _)]; [left; exact F|right]. split; [lia|]. rewrite ssub_1 in F2 by lia. apply pow2_land; [lia|exact F2].
Qed.
(** A size close to SIZE_MAX wraps around in the check and is accepted; the routes then get 8 bytes of private data, and the
    accessor tells the application it may use 2^64 - 8 bytes from offset 16 on. *)
Theorem C41_size_overflow_refuted : exists c i, typed c /\ ~ consistent 144 c /\ load 144 (Some c) (mkI zero_econf 0) = (OK, i) /\
  private_alloc i = 8 /\ private_data i = Some (16, 18446744073709551608).
Proof.
  exists (mkE 18446744073709551608 32 0 0 0 0 0 0 0 0 0 0 0). eexists. split; [split; reflexivity|]. split; [|split; [vm_compute; reflexivity|split; vm_compute; reflexivity]].
  intros (_ & _ & _ & _ & _ & [H|(_ & _ & H)]); [discriminate H|]. specialize (H 16 eq_refl eq_refl eq_refl). revert H. vm_compute. intros H. apply H. reflexivity.
Qed.
(** An accepted configuration (of a context at creation, of an event at creation or by wolfsentry_event_update_config) is returned
    unchanged by the getter; a refused one changes nothing. *)
Theorem C41_load_get : forall off c i e i', typed c -> load off (Some c) i = (e, i') -> (e = OK /\ get_conf i' = c) \/ (e <> OK /\ i' = i).
Proof.
  intros off c i e i' (T1 & T2) H. unfold load in H. destruct (check_conf off c) eqn:K; try (right; assert (e = check_conf off c) by congruence; assert (i' = i) by congruence; subst; split; [congruence|reflexivity]).
  left. destruct (N.ltb_spec 0 (e_align c)) as [A|A].
  - assert (NZ : e_align c <> 0) by lia. pose proof (N.mod_lt off _ NZ). cbn zeta in H. destruct (N.ltb_spec 0 (off mod e_align c)); assert (e = OK) by congruence; split; try assumption.
    + assert (X : i' = mkI (with_size c (sadd (e_size c) (e_align c - off mod e_align c))) (e_align c - off mod e_align c)) by congruence. subst i'. unfold get_conf. cbn [ic pad e_size with_size].
      rewrite ssub_sadd by (unfold szmod in *; lia). destruct c; reflexivity.
    + assert (X : i' = mkI c 0) by congruence. subst i'. unfold get_conf. cbn [ic pad]. unfold ssub. rewrite N.sub_0_r. rewrite <- (N.mul_1_l szmod) at 1. rewrite N.mod_add by discriminate. rewrite N.mod_small by exact T1. apply with_size_id.
  - assert (X : i' = mkI c 0) by congruence. split; [congruence|]. subst i'. unfold get_conf. cbn [ic pad]. unfold ssub. rewrite N.sub_0_r. rewrite <- (N.mul_1_l szmod) at 1. rewrite N.mod_add by discriminate. rewrite N.mod_small by exact T1. apply with_size_id.
Qed.
(** Updating the default configuration keeps the private-data layout and takes over everything else. *)
Theorem C41_update_get_partial : forall off c i, check_conf off c = OK -> exists i', update_1 off (Some c) i = (OK, i') /\
  e_size (get_conf i') = e_size (get_conf i) /\ e_align (get_conf i') = e_align (get_conf i) /\
  get_conf i' = mkE (e_size (get_conf i)) (e_align (get_conf i)) (e_max_conns c) (e_threshold c) (e_box c) (e_idle c) (e_flags c) (e_radd c) (e_rclr c) (e_fset c) (e_funset c) (e_badd c) (e_bclr c).
Proof. intros off c i K. unfold update_1. rewrite K. eexists. split; [reflexivity|]. repeat split; reflexivity. Qed.
Theorem C41_update_refused : forall off c i, (match c with Some c => check_conf off c <> OK | None => True end) ->
  exists e, e <> OK /\ update_1 off c i = (e, i) /\ e = match c with Some c => check_conf off c | None => INVALID_ARG end.
Proof.
  intros off [c|] i K; unfold update_1; [|exists INVALID_ARG; repeat split; discriminate]. exists (check_conf off c). split; [exact K|]. split; [|reflexivity]. destruct (check_conf off c); try reflexivity. congruence.
Qed.
(** So an accepted update is not always returned unchanged: a changed private-data size is dropped without an error. *)
Theorem C41_update_private_data_refuted : forall off, exists c i, typed c /\ consistent off c /\ exists i', update_1 off (Some c) i = (OK, i') /\ get_conf i' <> c.
Proof.
  intros off. exists (mkE 64 0 0 0 0 0 0 0 0 0 0 0 0), (mkI zero_econf 0). split; [split; reflexivity|]. split; [|eexists; split; [reflexivity|discriminate]].
  repeat split; cbn; try (intros j [X Y]; rewrite N.bits_0 in X; discriminate); try (intros X; unfold flag in X; rewrite N.bits_0 in X; discriminate); auto. discriminate.
Qed.
(** Initialising a configuration from a context and passing it back (to a new event, say) gives back the same, if no padding was needed ... *)
Theorem C41_init_partial : forall off i i', pad i = 0 -> typed (ic i) -> load off (Some (init_conf (Some i))) (mkI zero_econf 0) = (OK, i') -> get_conf i' = get_conf i.
Proof.
  intros off i i' P T H. destruct (C41_load_get off (init_conf (Some i)) _ _ _ T H) as [(_ & G)|(X & _)]; [|congruence]. rewrite G. unfold get_conf. cbn [init_conf]. rewrite P. unfold ssub. rewrite N.sub_0_r.
  rewrite <- (N.mul_1_l szmod) at 1. rewrite N.mod_add by discriminate. rewrite N.mod_small by exact (proj1 T). symmetry. apply with_size_id.
Qed.
(** ... but with padding the size grows each time. *)
Theorem C41_init_padding_refuted : exists c i i', consistent 144 c /\ load 144 (Some c) (mkI zero_econf 0) = (OK, i) /\ get_conf i = c /\
  load 144 (Some (init_conf (Some i))) (mkI zero_econf 0) = (OK, i') /\ e_size (get_conf i') = e_size c + 16.
Proof.
  exists (mkE 64 32 0 0 0 0 0 0 0 0 0 0 0). eexists _, _. split; [|split; [vm_compute; reflexivity|split; [vm_compute; reflexivity|split; vm_compute; reflexivity]]].
  apply check_consistent; [split; reflexivity|reflexivity|vm_compute; reflexivity].
Qed.
(** wolfsentry_event_update_config with a NULL configuration succeeds and leaves an event configuration that was never written. *)
Theorem C41_event_update_null_refuted : forall off ctx, exists ec, event_update_config off None NoConf = Ret (OK, ec) /\ event_get_config ctx ec = UB.
Proof. intros off ctx. exists Garbage. split; reflexivity. Qed.
(** With a configuration given, the event's configuration is what was given, or what it was before. *)
Theorem C41_event_update_get : forall off ctx c ec, typed c -> ec <> Garbage -> exists e ec', event_update_config off (Some c) ec = Ret (e, ec') /\
  (e = OK /\ event_get_config ctx ec' = Ret c \/ e <> OK /\ event_get_config ctx ec' = event_get_config ctx ec).
Proof.
  intros off ctx c ec T NG. destruct ec as [| |i]; [|congruence|]; cbn [event_update_config].
  - destruct (load off (Some c) (mkI zero_econf 0)) as [e i'] eqn:L. assert (L' := L). unfold load in L'.
    destruct (check_conf off c) eqn:K; try (eexists _, _; split; [reflexivity|]; right; split; [discriminate|reflexivity]).
    destruct (C41_load_get off c _ _ _ T L) as [(-> & G)|(X & _)]; [|exfalso; apply X; destruct (0 <? e_align c); [destruct (0 <? off mod e_align c)|]; congruence].
    eexists _, _. split; [reflexivity|]. left. split; [reflexivity|]. cbn [snd]. unfold event_get_config. cbn [in_force bind]. rewrite G. reflexivity.
  - destruct (load off (Some c) i) as [e i'] eqn:L. eexists _, _. split; [reflexivity|]. destruct (C41_load_get off c _ _ _ T L) as [(-> & G)|(X & ->)]; [left|right].
    + split; [reflexivity|]. unfold event_get_config. cbn [in_force bind]. rewrite G. reflexivity.
    + split; [exact X|reflexivity].
Qed.

(** C51.  A route created under a configuration has a private area of the configured size, inside the allocation, and aligned as
    configured (the route itself is allocated at a multiple [base] of the alignment), as long as that configuration stays. *)
Theorem C51_private_data_partial : forall off c i, typed c -> e_size c + e_align c < szmod -> load off (Some c) (mkI zero_econf 0) = (OK, i) ->
  match private_data i with
  | None => e_size c = 0
  | Some (o, n) => n = e_size c /\ o + n = private_alloc i /\ (e_align c <> 0 -> forall base, base mod e_align c = 0 -> (base + off + o) mod e_align c = 0)
  end.
Proof.
  intros off c i T W L. assert (K : check_conf off c = OK) by (unfold load in L; destruct (check_conf off c); congruence). unfold load in L. rewrite K in L. assert (K' := proj1 (check_ok off c) K).
  assert (D : e_align c = 0 \/ e_align c <= e_size c /\ e_align c <> 0) by (destruct K' as (_ & _ & _ & _ & _ & [X|(X & _ & Y & _)]); [left; exact X|right; lia]).
  unfold private_data, private_alloc. destruct T as [T1 T2].
  assert (Z : forall a, a < szmod -> ssub a 0 = a) by (intros a A; unfold ssub; rewrite N.sub_0_r; rewrite <- (N.mul_1_l szmod) at 1; rewrite N.mod_add by discriminate; apply N.mod_small; exact A).
  destruct (N.ltb_spec 0 (e_align c)) as [A|A].
  - assert (NZ : e_align c <> 0) by lia. pose proof (N.mod_lt off _ NZ) as U. destruct (N.ltb_spec 0 (off mod e_align c)) as [S0|S0].
    + assert (X : i = mkI (with_size c (sadd (e_size c) (e_align c - off mod e_align c))) (e_align c - off mod e_align c)) by congruence. subst i. cbn [ic pad e_size with_size].
      rewrite ssub_sadd by lia. assert (SA : sadd (e_size c) (e_align c - off mod e_align c) = e_size c + (e_align c - off mod e_align c)) by (unfold sadd; apply N.mod_small; lia). rewrite SA.
      destruct (N.eqb_spec (e_size c + (e_align c - off mod e_align c)) 0); [lia|]. split; [reflexivity|]. split; [lia|]. intros _ base B.
      rewrite <- N.add_assoc, <- N.add_mod_idemp_l, B by exact NZ. rewrite N.add_0_l. apply padding_aligns. exact NZ.
    + assert (X : i = mkI c 0) by congruence. subst i. cbn [ic pad]. rewrite Z by exact T1. destruct (N.eqb_spec (e_size c) 0) as [E|E]; [exact E|]. split; [reflexivity|]. split; [lia|]. intros _ base B.
      rewrite N.add_0_r, <- N.add_mod_idemp_l, B by exact NZ. rewrite N.add_0_l. lia.
  - assert (X : i = mkI c 0) by congruence. subst i. cbn [ic pad]. rewrite Z by exact T1. destruct (N.eqb_spec (e_size c) 0) as [E|E]; [exact E|]. split; [reflexivity|]. split; [lia|]. intros X. lia.
Qed.
(** If the event's configuration is updated while the route lives, the accessor hands out memory the route does not have: with the
    first configuration a route gets 16 bytes; after a successful wolfsentry_event_update_config the accessor offers 4096. *)
Theorem C51_private_data_after_update_refuted : forall off ctx, exists c1 c2 ec1 ec2 i1 i2 n,
  event_update_config off (Some c1) NoConf = Ret (OK, ec1) /\ in_force ctx ec1 = Ret i1 /\
  event_update_config off (Some c2) ec1 = Ret (OK, ec2) /\ in_force ctx ec2 = Ret i2 /\
  private_data i2 = Some (0, n) /\ private_alloc i1 < n.
Proof.
  intros off ctx. exists (mkE 16 0 0 0 0 0 0 0 0 0 0 0 0), (mkE 4096 0 0 0 0 0 0 0 0 0 0 0 0). eexists _, _, _, _, _. split; [reflexivity|]. split; [reflexivity|]. split; [reflexivity|]. split; [reflexivity|]. split; vm_compute; reflexivity.
Qed.

Example config_case : let c := mkE 100 64 5 10 60 3600 1 1048576 2097152 1 2 4 8 in typed c /\ consistent 144 c /\ exists i, load 144 (Some c) (mkI zero_econf 0) = (OK, i) /\
  private_alloc i = 148 /\ private_data i = Some (48, 100) /\ check_conf 144 (mkE 100 24 5 10 60 3600 1 0 0 0 0 0 0) = INVALID_ARG /\ check_conf 144 (mkE 65530 32 5 10 60 3600 1 0 0 0 0 0 0) = NUMERIC_ARG_TOO_BIG.
Proof.
  cbn zeta. split; [split; reflexivity|]. split; [apply check_consistent; [split; reflexivity|reflexivity|vm_compute; reflexivity]|]. eexists. split; [vm_compute; reflexivity|]. vm_compute. repeat split; reflexivity.
Qed.

Print Assumptions C41_check_partial.
Print Assumptions C41_contradictions_refused.
Print Assumptions C41_size_overflow_refuted.
Print Assumptions C41_load_get.
Print Assumptions C41_update_get_partial.
Print Assumptions C41_update_refused.
Print Assumptions C41_update_private_data_refuted.
Print Assumptions C41_init_partial.
Print Assumptions C41_init_padding_refuted.
Print Assumptions C41_event_update_null_refuted.
Print Assumptions C41_event_update_get.
Print Assumptions C51_private_data_partial.
Print Assumptions C51_private_data_after_update_refuted.
