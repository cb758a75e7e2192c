(** C45: exporting a route and inserting the export. *)
From Verif Require Import Base Labels Addr AddrSpec AddrProofs RouteFlags RouteKey RouteKeySpec RouteKeyProofs RouteTable RouteTableProofs RouteTableHist Exchange EventConfig Table Export ExportSpec ExportProofs.
From Verif Require Dispatch.
From Coq Require Import Lia.
Open Scope N_scope.

(** The export of any route of [A] can be turned into a route in any context [B] that has the parent event and room for the same
    private data (in particular in [A] itself). The new route has the same key, the same flags but for the internal ones, the same
    purge time and counts. *)
Theorem C45_export_rebuilds_partial : forall A B r,
  mild_ctx A -> live A r -> receives A B r ->
  exists r', rebuild B (export A r) = (OK, Some r') /\
    same_key (f_route r') (f_route r) /\
    (forall b, N.testbit (r_flags (f_route r')) b = N.testbit (r_flags (f_route r)) b && negb ((14 <=? b) && (b <? 18))) /\
    m_purge (f_meta r') = m_purge (f_meta r) /\ m_conn (f_meta r') = m_conn (f_meta r) /\
    m_derog (f_meta r') = m_derog (f_meta r) /\ m_comm (f_meta r') = m_comm (f_meta r).
Proof.
  intros A B r MC L R. destruct (live_settled A r MC L) as [F _ _]. destruct (rebuild_ok A B r MC F R) as (r' & e' & E & SE & _ & K & M & _ & _).
  exists r'. split; [exact E|]. rewrite K, M. cbn [m_purge m_conn m_derog m_comm]. split; [|split; [|repeat split]].
  - unfold same_key. cbn [r_family r_proto r_raddr r_rlen r_rport r_riface r_laddr r_llen r_lport r_liface r_flags r_event]. repeat (split; [reflexivity|]). split; [|exact SE]. exact (ldiff_same14 _).
  - cbn [r_flags]. intros b. rewrite N.ldiff_spec, internal_bits. reflexivity.
Qed.
Print Assumptions C45_export_rebuilds_partial.

(** Where no padding precedes the private data, the user's private data is the same too. *)
Theorem C45_private_data_partial : forall A B r,
  mild_ctx A -> live A r -> receives A B r ->
  pad (conf_of B (r_event (f_route r))) = 0 -> e_size (ic (conf_of A (r_event (f_route r)))) <> 0 ->
  exists r', rebuild B (export A r) = (OK, Some r') /\
    private_bytes (conf_of B (r_event (f_route r))) r' = private_bytes (conf_of A (r_event (f_route r))) r /\
    private_bytes (conf_of A (r_event (f_route r))) r <> None.
Proof.
  intros A B r MC L R P0 NZ. destruct (live_settled A r MC L) as [F _ _]. destruct (rebuild_ok A B r MC F R) as (r' & e' & E & _ & _ & _ & _ & _ & D).
  exists r'. split; [exact E|]. destruct R as (_ & SB & _ & PS). specialize (PS NZ).
  set (a := conf_of A (r_event (f_route r))) in *. set (b := conf_of B (r_event (f_route r))) in *.
  assert (NN : e_size (ic a) <= 65535) by apply F. pose proof (MC (r_event (f_route r))) as (_ & _ & _ & _ & PA & PP). fold a in PA, PP.
  destruct (private_bytes a r) as [p|] eqn:PE; [|exfalso; unfold private_bytes, private_data in PE; destruct (N.eqb_spec (e_size (ic a)) 0); congruence].
  split; [|discriminate]. destruct (private_len a r p PA NN (w_data _ _ F) PE) as [LP _]. rewrite P0, N.sub_0_r in PS.
  unfold private_bytes, private_data. rewrite P0. destruct (N.eqb_spec (e_size (ic b)) 0) as [Z|Z].
  - exfalso. specialize (PP NZ). rewrite Z in PS. lia.
  - rewrite ssub_le by lia. rewrite N.sub_0_r. cbn [skipn N.to_nat]. rewrite D.
    assert (LE : N.to_nat (e_size (ic b)) = length p) by lia. rewrite LE, Nat.sub_diag. cbn [repeat]. rewrite app_nil_r, firstn_all. reflexivity.
Qed.
Print Assumptions C45_private_data_partial.

(** The export of a route inserted again, with the same flags to add and to clear on insertion: as long as the route has not expired it
    is accepted up to the table, with the same key. A table that holds the route refuses it as already present; a table without that key
    takes it, unless a bitmask family is refused. *)
Theorem C45_export_inserts_partial : forall A B now r,
  mild_ctx A -> live A r -> receives A B r ->
  (let a := ic (conf_of A (r_event (f_route r))) in let b := ic (conf_of B (r_event (f_route r))) in
   e_radd b = e_radd a /\ e_rclr b = e_rclr a /\ has (e_radd a) RF_IN_TABLE = false) ->
  (m_purge (f_meta r) = 0 \/ now < m_purge (f_meta r))%Z ->
  exists r', import B now (export A r) = Ret (OK, Some r') /\ same_key (f_route r') (f_route r) /\
    (forall t, rt_inv t -> In (f_route r) (t_routes t) -> rt_insert t (f_route r') true = (ITEM_ALREADY_PRESENT, t)) /\
    (forall t, rt_inv t -> (forall x, In x (t_routes t) -> ~ same_key x (f_route r)) -> has_bitmask (f_route r) = false ->
       exists t' k, rt_insert t (f_route r') true = (OK, t') /\ In k (t_routes t') /\ same_key k (f_route r)).
Proof.
  intros A B now r MC L R CF NE. destruct (live_settled A r MC L) as [F SF SC].
  pose proof (rebuild_ok A B r MC F R) as RB. cbv zeta in RB, CF. set (a := ic (conf_of A (r_event (f_route r)))) in *. set (b := conf_of B (r_event (f_route r))) in *.
  destruct RB as (r0 & e' & E & SE & KE & K & M & _ & D). destruct CF as (CA & CC & NI). unfold import. rewrite E.
  assert (CE : conf_of B (r_event (f_route r0)) = b).
  { rewrite K. cbn [r_event]. subst b. unfold conf_of. destruct e' as [w|], (r_event (f_route r)) as [v|]; cbn in SE; try contradiction; [|reflexivity]. destruct SE as [LE _]. rewrite LE. reflexivity. }
  unfold prepare. rewrite CE. cbv zeta. rewrite CA, CC. set (f := N.lor (N.ldiff (r_flags (f_route r0)) (e_rclr a)) (e_radd a)).
  assert (S14 : same14 f (r_flags (f_route r))).
  { intros x X. unfold f. rewrite K. cbn [r_flags]. rewrite N.lor_spec, N.ldiff_spec, (ldiff_same14 _ x X). specialize (SF x X). cbv zeta in SF. rewrite N.lor_spec, N.ldiff_spec in SF. exact SF. }
  assert (SN : flags_sensical f = true) by (rewrite (same14_sens _ _ S14); apply F).
  assert (IT : has f RF_IN_TABLE = false).
  { unfold has, f. rewrite K. cbn [r_flags]. rewrite N.lor_spec, !N.ldiff_spec, internal_bits. unfold has in NI. rewrite NI. change ((14 <=? RF_IN_TABLE) && (RF_IN_TABLE <? 18)) with true. cbn [negb]. rewrite andb_false_r. reflexivity. }
  rewrite SN, IT. cbn [negb]. assert (PM : (negb (m_purge (f_meta r0) =? 0) && (m_purge (f_meta r0) <=? now))%Z = false).
  { rewrite M. cbn [m_purge]. destruct NE as [NE|NE]; [rewrite NE; reflexivity|]. destruct (Z.leb_spec (m_purge (f_meta r)) now); [lia|]. apply andb_false_r. }
  rewrite PM. eexists. split; [reflexivity|]. cbn [f_route].
  set (k := clamp_wildcard_fields (with_flags (f_route r0) f)).
  assert (KR : k = {| r_family := r_family (f_route r); r_proto := r_proto (f_route r); r_raddr := r_raddr (f_route r); r_rlen := r_rlen (f_route r);
                    r_rport := r_rport (f_route r); r_riface := r_riface (f_route r); r_laddr := r_laddr (f_route r); r_llen := r_llen (f_route r);
                    r_lport := r_lport (f_route r); r_liface := r_liface (f_route r); r_flags := f; r_event := e' |}).
  { subst k. rewrite K. clear -SC S14. unfold with_flags. cbn [r_family r_proto r_raddr r_rlen r_rport r_riface r_laddr r_llen r_lport r_liface r_flags r_event].
    pose proof SC as SC'. unfold clamp_wildcard_fields in *. cbn [r_family r_proto r_raddr r_rlen r_rport r_riface r_laddr r_llen r_lport r_liface r_flags r_event] in *.
    rewrite !(same14_has f (r_flags (f_route r))) by (exact S14 || reflexivity). destruct (f_route r) as [v1 v2 v3 v4 v5 v6 v7 v8 v9 v10 v11 v12].
    cbn [r_family r_proto r_raddr r_rlen r_rport r_riface r_laddr r_llen r_lport r_liface r_flags r_event] in *. congruence. }
  assert (SK : same_key k (f_route r)).
  { rewrite KR. unfold same_key. cbn [r_family r_proto r_raddr r_rlen r_rport r_riface r_laddr r_llen r_lport r_liface r_flags r_event]. repeat (split; [reflexivity|]). split; [exact S14|exact SE]. }
  assert (KF : r_flags k = f) by (rewrite KR; reflexivity).
  assert (KO : route_ok k).
  { rewrite KR. destruct (w_ok _ _ F) as [R1 R2 R3 R4]. split; cbn [r_raddr r_rlen r_laddr r_llen r_flags]; try assumption; rewrite (same14_has f (r_flags (f_route r))) by (exact S14 || reflexivity); assumption. }
  assert (ST : same_key (stored k) (f_route r)).
  { unfold stored, k. rewrite clamp_idem. fold k. rewrite KR. unfold same_key, with_flags. cbn [r_family r_proto r_raddr r_rlen r_rport r_riface r_laddr r_llen r_lport r_liface r_flags r_event].
    repeat (split; [reflexivity|]). split; [|exact SE]. intros x X. rewrite (in_table_14 f x X). apply S14. exact X. }
  split; [exact SK|]. split.
  - intros t TI IN. unfold rt_insert. rewrite KF, SN, IT. cbn [negb]. rewrite <- KF. fold (stored k).
    pose proof (seek_spec (t_routes t) (stored k) (ri_sorted _ TI) (ri_ok _ TI) (stored_ok _ KO)) as SP.
    destruct (seek (t_routes t) (stored k)) as [p c]. destruct SP as (P1 & P2 & P3).
    assert (Z : c = 0%Z); [|rewrite Z; reflexivity].
    assert (RZ : rcmp (f_route r) (stored k) = 0%Z). { rewrite <- (rcmp_0 (stored k)) in ST. pose proof (rc_anti (stored k) (f_route r)) as AN. rewrite ST in AN. cbn in AN. lia. }
    rewrite <- (firstn_skipn p (t_routes t)) in IN. apply in_app_or in IN. destruct IN as [IN|IN].
    { rewrite Forall_forall in P2. specialize (P2 _ IN). lia. }
    destruct (nth_error (t_routes t) p) as [x|] eqn:NX.
    + destruct P3 as [P3 P4]. destruct (Z.eq_dec c 0) as [Z0|Z0]; [exact Z0|]. exfalso.
      assert (SL : skipn p (t_routes t) = x :: skipn (S p) (t_routes t)). { revert NX. generalize (t_routes t) as l. clear. induction p as [|p IH]; intros [|y l] NX; cbn in *; try discriminate; [congruence|apply IH; exact NX]. }
      rewrite SL in IN. destruct IN as [IN|IN]; [subst x; lia|]. pose proof (ri_sorted _ TI) as TS. rewrite <- (firstn_skipn p (t_routes t)), SL in TS.
      apply sorted_split in TS. destruct TS as (_ & TS & _). inversion TS as [|y l Y1 Y2]; subst. rewrite Forall_forall in Y2. specialize (Y2 _ IN). unfold rlt in Y2.
      pose proof (rc_anti x (stored k)) as AN1. pose proof (rc_lt_le x (f_route r) (stored k) Y2 ltac:(lia)) as Q. lia.
    + destruct P3 as [P3 _]. rewrite P3, skipn_all in IN. destruct IN.
  - intros t TI AB NB. assert (HB : has_bitmask (stored k) = false).
    { unfold has_bitmask, stored. cbn [with_flags r_flags]. rewrite KF. unfold has_bitmask in NB. assert (S15 : same14 (N.setbit f RF_IN_TABLE) (r_flags (f_route r))) by (intros x X; rewrite (in_table_14 f x X); apply S14; exact X). rewrite !(same14_has _ _ _ S15) by reflexivity. exact NB. }
    unfold rt_insert. rewrite KF, SN, IT. cbn [negb]. rewrite <- KF. fold (stored k).
    pose proof (seek_spec (t_routes t) (stored k) (ri_sorted _ TI) (ri_ok _ TI) (stored_ok _ KO)) as SP.
    destruct (seek (t_routes t) (stored k)) as [p c]. destruct SP as (P1 & P2 & P3).
    destruct (Z.eqb_spec c 0) as [Z|Z].
    { exfalso. destruct (nth_error (t_routes t) p) as [x|] eqn:NX; [|destruct P3; lia]. destruct P3 as [P3 _]. rewrite Z in P3. symmetry in P3. apply rcmp_0 in P3.
      apply (AB x (nth_error_In _ _ NX)). clear -P3 ST. apply rcmp_0. apply rcmp_0 in P3, ST. pose proof (rc_trans x (stored k) (f_route r) ltac:(lia) ltac:(lia)).
      pose proof (rc_anti x (stored k)). pose proof (rc_anti (stored k) (f_route r)). pose proof (rc_trans (f_route r) (stored k) x ltac:(lia) ltac:(lia)). pose proof (rc_anti x (f_route r)). lia. }
    rewrite HB. cbn [is_success negb]. eexists. exists (stored k). split; [reflexivity|]. cbn [t_routes]. split; [|exact ST]. apply in_or_app. right. left. reflexivity.
Qed.
Print Assumptions C45_export_inserts_partial.

(** Witnesses: a context whose only configuration has 4 bytes of private data, unaligned. *)
Definition conf0 : econf := mkE 4 0 0 0 0 0 0 0 0 0 0 0 0.
Definition ctx0 : xctx := mkC (mkI conf0 0) [].
Lemma const_mild i : mild i -> mild_ctx (mkC i []).
Proof. intros M e. unfold conf_of, find_event. cbn [c_events c_conf find]. destruct e; exact M. Qed.
Lemma addr4_ok a b c d : a < 256 -> b < 256 -> c < 256 -> d < 256 -> addr_ok [a; b; c; d] 32.
Proof. intros. split; [reflexivity|]. repeat constructor; assumption. Qed.
(** inbound TCP from 192.168.1.0/24 (as 32 bits for brevity) to port 443 *)
Definition made (c : xctx) : out (err * option froute) := create c 1000 None 2 6 [192; 168; 1; 7] 32 0 1 [10; 0; 0; 1] 32 443 1 1024.
Definition kept (c : xctx) : option froute := match made c with Ret (OK, Some r) => Some (set_flags r (N.setbit (r_flags (f_route r)) RF_IN_TABLE)) | _ => None end.
Lemma kept_live c r : kept c = Some r -> live c r.
Proof.
  unfold kept. destruct (made c) as [[x [k|]]| |] eqn:E; try discriminate; destruct x; try discriminate. intros Q. injection Q as <-.
  eapply live_create with (now := 1000%Z) (e := None); [| | |exact E]; [apply addr4_ok; reflexivity|apply addr4_ok; reflexivity|exact Logic.I].
Qed.
Definition with_data (r : froute) (d : list N) : froute := mkF (f_route r) (f_meta r) (f_hits r) d.

(** A used route with private data 1,2,3,4: the hypotheses of the theorems above are met, in its own context. *)
Example C45_case : exists r r', mild_ctx ctx0 /\ live ctx0 r /\ receives ctx0 ctx0 r /\
  private_bytes (conf_of ctx0 None) r = Some [1; 2; 3; 4] /\ m_conn (f_meta r) = 3 /\
  rebuild ctx0 (export ctx0 r) = (OK, Some r') /\ private_bytes (conf_of ctx0 None) r' = Some [1; 2; 3; 4] /\ m_conn (f_meta r') = 3 /\
  r_lport (f_route r') = 443.
Proof.
  destruct (kept ctx0) as [r|] eqn:E; [|vm_compute in E; discriminate]. pose proof (kept_live _ _ E) as L.
  exists (with_data (mkF (f_route r) (mkMeta 1000 1500 0 0 3 0 0) 17 (f_data r)) [1; 2; 3; 4]). eexists.
  split; [apply const_mild; vm_compute; repeat split; congruence|].
  vm_compute in E. injection E as <-.
  split; [apply live_data; [apply live_meta; exact L|reflexivity]|].
  split; [vm_compute; repeat split; congruence|]. split; [reflexivity|]. split; [reflexivity|]. split; [vm_compute; reflexivity|].
  repeat split; reflexivity.
Qed.

(** Not the whole of the export is carried: times and hit count of the route start again from zero. *)
Theorem C45_hits_and_times_refuted : ~ (forall A r r',
  mild_ctx A -> live A r -> rebuild A (export A r) = (OK, Some r') ->
  f_hits r' = f_hits r /\ m_hit (f_meta r') = m_hit (f_meta r)).
Proof.
  intros H. destruct (kept ctx0) as [r|] eqn:E; [|vm_compute in E; discriminate]. pose proof (kept_live _ _ E) as L.
  assert (L2 : live ctx0 (mkF (f_route r) (mkMeta 1000 1500 0 0 3 0 0) 17 (f_data r))) by (apply live_meta; exact L).
  assert (MC : mild_ctx ctx0) by (apply const_mild; vm_compute; repeat split; congruence).
  vm_compute in E. injection E as <-. specialize (H _ _ _ MC L2 eq_refl). destruct H as [H _]. discriminate H.
Qed.
Print Assumptions C45_hits_and_times_refuted.

(** With aligned private data the export is read after the padding but written before it: the user's bytes come back displaced.
    64-byte alignment of 64 bytes, offset of the data area 144: 48 bytes of padding. *)
Definition conf_al : iconf := snd (load 144 (Some (mkE 64 64 0 0 0 0 0 0 0 0 0 0 0)) (mkI zero_econf 0)).
Definition ctx_al : xctx := mkC conf_al [].
Theorem C45_private_data_refuted : ~ (forall A r r',
  mild_ctx A -> live A r -> rebuild A (export A r) = (OK, Some r') ->
  private_bytes (conf_of A (r_event (f_route r))) r' = private_bytes (conf_of A (r_event (f_route r))) r).
Proof.
  intros H. destruct (kept ctx_al) as [r|] eqn:E; [|vm_compute in E; discriminate]. pose proof (kept_live _ _ E) as L.
  assert (MC : mild_ctx ctx_al) by (apply const_mild; vm_compute; repeat split; congruence).
  vm_compute in E. injection E as <-.
  pose proof (live_data _ _ (repeat 7 112) L eq_refl) as L2. specialize (H _ _ _ MC L2 eq_refl). vm_compute in H. discriminate H.
Qed.
Print Assumptions C45_private_data_refuted.

(** A configuration may take both directions away on insertion; such a route is stored, but inserting its export dereferences a null
    pointer, because wolfsentry_route_new_by_exports reports success without a route. *)
Definition ctx_nodir : xctx := mkC (mkI (mkE 0 0 0 0 0 0 0 0 3072 0 0 0 0) 0) [].
Theorem C45_import_crash_refuted : ~ (forall A now r, live A r -> check_conf 144 (ic (conf_of A (r_event (f_route r)))) = OK -> import A now (export A r) <> UB).
Proof.
  intros H. destruct (kept ctx_nodir) as [r|] eqn:E; [|vm_compute in E; discriminate]. pose proof (kept_live _ _ E) as L.
  vm_compute in E. injection E as <-. apply (H _ 2000%Z _ L); reflexivity.
Qed.
Print Assumptions C45_import_crash_refuted.

(** A configuration may make every route a bitmask route on insertion, whatever its address length; the export is then refused. *)
Definition ctx_bm : xctx := mkC (mkI (mkE 0 0 0 0 0 0 0 4096 0 0 0 0 0) 0) [].
Theorem C45_forced_bitmask_refuted : ~ (forall A r, live A r -> check_conf 144 (ic (conf_of A (r_event (f_route r)))) = OK -> fst (rebuild A (export A r)) = OK).
Proof.
  intros H.
  destruct (create ctx_bm 1000 None 2 6 [192; 168; 1] 24 0 1 [10; 0; 0; 1] 32 443 1 1024) as [[x [k|]]| |] eqn:E; try (vm_compute in E; discriminate).
  destruct x; try (vm_compute in E; discriminate).
  assert (L : live ctx_bm (set_flags k (N.setbit (r_flags (f_route k)) RF_IN_TABLE))).
  { eapply live_create with (now := 1000%Z) (e := None); [| | |exact E]; [split; [reflexivity|repeat constructor]|apply addr4_ok; reflexivity|exact Logic.I]. }
  vm_compute in E. injection E as <-. specialize (H _ _ L eq_refl). vm_compute in H. discriminate H.
Qed.
Print Assumptions C45_forced_bitmask_refuted.

(** Changing flags here is what C19 is about. *)
Theorem C45_flag_updates_as_C19 : forall r set clr clock ar st,
  Dispatch.s_flags st = r_flags (f_route r) ->
  fst (update_flags r set clr) = fst (fst (fst (Dispatch.update_flags st set clr clock ar))) /\
  r_flags (f_route (snd (update_flags r set clr))) = Dispatch.s_flags (snd (fst (fst (Dispatch.update_flags st set clr clock ar)))) /\
  with_flags (f_route (snd (update_flags r set clr))) 0 = with_flags (f_route r) 0.
Proof.
  intros r set clr clock ar st E. unfold update_flags, Dispatch.update_flags. rewrite E.
  assert (P : anybit (N.lor set clr) Dispatch.PROTECTED_FLAGS = has (N.lor set clr) RF_PENDING_DELETE || has (N.lor set clr) RF_IN_TABLE).
  { generalize (N.lor set clr). intros x. unfold anybit. change Dispatch.PROTECTED_FLAGS with (N.lor (N.setbit 0 RF_PENDING_DELETE) (N.setbit 0 RF_IN_TABLE)).
    destruct (N.eqb_spec (N.land x (N.lor (N.setbit 0 RF_PENDING_DELETE) (N.setbit 0 RF_IN_TABLE))) 0) as [Z|Z]; cbn [negb]; symmetry.
    - assert (B : forall k, N.testbit (N.land x (N.lor (N.setbit 0 RF_PENDING_DELETE) (N.setbit 0 RF_IN_TABLE))) k = false) by (intros k; rewrite Z; apply N.bits_0).
      pose proof (B RF_PENDING_DELETE) as B1. pose proof (B RF_IN_TABLE) as B2. rewrite N.land_spec in B1, B2.
      replace (N.testbit (N.lor (N.setbit 0 RF_PENDING_DELETE) (N.setbit 0 RF_IN_TABLE)) RF_PENDING_DELETE) with true in B1 by reflexivity.
      replace (N.testbit (N.lor (N.setbit 0 RF_PENDING_DELETE) (N.setbit 0 RF_IN_TABLE)) RF_IN_TABLE) with true in B2 by reflexivity.
      rewrite andb_true_r in B1, B2. unfold has. rewrite B1, B2. reflexivity.
    - destruct (has x RF_PENDING_DELETE) eqn:B1; [reflexivity|]. destruct (has x RF_IN_TABLE) eqn:B2; [reflexivity|]. exfalso. apply Z. apply N.bits_inj_0. intros k.
      rewrite N.land_spec, N.lor_spec, !N.setbit_eqb, N.bits_0. unfold has in B1, B2. destruct (N.eqb_spec RF_PENDING_DELETE k) as [<- |]; [rewrite B1; reflexivity|].
      destruct (N.eqb_spec RF_IN_TABLE k) as [<- |]; [rewrite B2; reflexivity|]. apply andb_false_r. }
  rewrite P. destruct (has set RF_PENALTYBOXED && has set RF_GREENLISTED); [repeat split; symmetry; exact E|].
  destruct (has (N.lor set clr) RF_PENDING_DELETE || has (N.lor set clr) RF_IN_TABLE); [repeat split; symmetry; exact E|].
  destruct (has (r_flags (f_route r)) RF_IN_TABLE && anybit (N.lor set clr) IMMUTABLE_FLAGS); [repeat split; symmetry; exact E|].
  cbv zeta. cbn [fst snd f_route]. split; [reflexivity|]. split; [|destruct (f_route r); reflexivity].
  destruct (_ && negb _); [destruct clock|]; destruct (f_route r); reflexivity.
Qed.
Print Assumptions C45_flag_updates_as_C19.
