(** Proofs for Export.v. *)
From Verif Require Import Base Labels Addr AddrSpec AddrProofs RouteFlags RouteKey RouteKeySpec RouteKeyProofs RouteTable RouteTableProofs Exchange EventConfig Table Export ExportSpec.
From Coq Require Import Lia.
Open Scope N_scope.

(** Masking an address twice is masking it once. *)
Lemma prefix_idem a n : addr_ok a n -> init_prefix_addr (init_prefix_addr a n) n = init_prefix_addr a n.
Proof.
  intros [L B]. unfold init_prefix_addr. destruct (n mod 8 =? 0)%nat eqn:E0; [reflexivity|]. cbv zeta.
  destruct (N.eqb_spec (N.land (nth (bits_to_bytes n - 1) a 0) (shr 255 (8 - n mod 8))) 0) as [E|E].
  - rewrite E. reflexivity.
  - apply Nat.eqb_neq in E0. pose proof (Nat.mod_upper_bound n 8 ltac:(lia)) as M.
    assert (LB : (bits_to_bytes n - 1 < length a)%nat).
    { rewrite L. unfold bits_to_bytes. pose proof (Nat.div_mod n 8 ltac:(lia)). assert (1 <= (n + 7) / 8)%nat; [|lia].
      apply Nat.div_le_lower_bound; lia. }
    rewrite set_byte_same by exact LB.
    assert (Z0 : N.land (N.land (nth (bits_to_bytes n - 1) a 0) (N.shiftl 255 (N.of_nat (n mod 8)) mod 256)) (shr 255 (8 - n mod 8)) = 0).
    { apply N.bits_inj. intros j. rewrite !N.land_spec, N.bits_0. rewrite <- (N2Nat.id j). rewrite high_mask, low_mask by lia.
      destruct (n mod 8 <=? N.to_nat j)%nat eqn:X; [|rewrite andb_false_r; reflexivity].
      apply Nat.leb_le in X. destruct (N.to_nat j <? n mod 8)%nat eqn:Y; [apply Nat.ltb_lt in Y; lia|]. apply andb_false_r. }
    rewrite Z0, N.eqb_refl. reflexivity.
Qed.
Lemma double_half n : (n mod 16 = 0)%nat -> (bits_to_bytes n = n / 16 + n / 16 /\ bits_to_bytes n / 2 = n / 16)%nat.
Proof.
  intros M. assert (E : (bits_to_bytes n = n / 16 + n / 16)%nat).
  { unfold bits_to_bytes. pose proof (Nat.div_mod n 16 ltac:(lia)) as D. rewrite M, Nat.add_0_r in D. rewrite D at 1.
    replace (16 * (n / 16) + 7)%nat with (7 + (2 * (n / 16)) * 8)%nat by lia. rewrite Nat.div_add by lia. cbn [Nat.div Nat.divmod fst]. lia. }
  split; [exact E|]. rewrite E. replace (n / 16 + n / 16)%nat with ((n / 16) * 2)%nat by lia. apply Nat.div_mul. lia.
Qed.
Lemma land_idem x y : N.land (N.land x y) y = N.land x y.
Proof. rewrite <- N.land_assoc, N.land_diag. reflexivity. Qed.
Lemma land_bytes_idem a : forall m, land_bytes (land_bytes a m) m = land_bytes a m.
Proof. induction a as [|x a IH]; intros [|y m]; cbn; try reflexivity. rewrite land_idem, IH. reflexivity. Qed.
Lemma bitmask_idem a n : addr_ok a n -> (n mod 16 = 0)%nat -> init_bitmask_addr (init_bitmask_addr a n) n = init_bitmask_addr a n.
Proof.
  intros [L B] M. destruct (double_half n M) as [E1 E2]. unfold init_bitmask_addr. rewrite E2. fold (bits_to_bytes n) in L. rewrite E1 in L.
  set (h := (n / 16)%nat) in *.
  assert (L1 : length (firstn h a) = h) by (rewrite firstn_length; lia).
  assert (L2 : length (skipn h a) = h) by (rewrite skipn_length; lia).
  assert (L3 : length (land_bytes (firstn h a) (skipn h a)) = h) by (rewrite land_bytes_len; lia).
  rewrite firstn_app, L3, Nat.sub_diag, firstn_O, app_nil_r. rewrite firstn_all2 by lia.
  rewrite skipn_app, L3, Nat.sub_diag. rewrite (skipn_all2 (land_bytes _ _)) by lia. cbn [app skipn]. rewrite land_bytes_idem. reflexivity.
Qed.
Lemma init_addr_ok bm a n : addr_ok a n -> (bm = true -> (n mod 16 = 0)%nat) -> addr_ok (init_addr bm a n) n.
Proof.
  intros Ha Hm. destruct bm; unfold init_addr; [|apply init_prefix_ok; exact Ha].
  specialize (Hm eq_refl). destruct Ha as [L B]. destruct (double_half n Hm) as [E1 E2]. unfold init_bitmask_addr. rewrite E2. fold (bits_to_bytes n) in L. rewrite E1 in L. split.
  - fold (bits_to_bytes n). rewrite E1, app_length, land_bytes_len by (rewrite firstn_length, skipn_length; lia). rewrite firstn_length, skipn_length. lia.
  - apply Forall_app. split; [apply land_bytes_ok; apply firstn_ok; exact B|apply skipn_ok; exact B].
Qed.
Lemma init_addr_idem bm a n : addr_ok a n -> (bm = true -> (n mod 16 = 0)%nat) -> init_addr bm (init_addr bm a n) n = init_addr bm a n.
Proof. intros Ha Hm. destruct bm; unfold init_addr; [apply bitmask_idem; auto|apply prefix_idem; exact Ha]. Qed.
Lemma nth_zeros k i : nth i (repeat 0 k) 0 = 0.
Proof. revert i. induction k as [|k IH]; intros [|i]; cbn; auto. Qed.
Lemma land_zeros k m : land_bytes (repeat 0 k) m = repeat 0 (Nat.min k (length m)).
Proof. revert m. induction k as [|k IH]; intros [|y m]; cbn; try reflexivity. rewrite IH. reflexivity. Qed.
Lemma firstn_zeros k h : firstn h (repeat 0 k) = repeat 0 (Nat.min h k).
Proof. revert h. induction k as [|k IH]; intros [|h]; cbn; try reflexivity. rewrite IH. reflexivity. Qed.
Lemma skipn_zeros k h : skipn h (repeat 0 k) = repeat 0 (k - h).
Proof. revert h. induction k as [|k IH]; intros [|h]; cbn; try reflexivity. apply IH. Qed.
Lemma init_zeros bm k n : addr_ok (repeat 0 k) n -> (bm = true -> (n mod 16 = 0)%nat) -> init_addr bm (repeat 0 k) n = repeat 0 k.
Proof.
  intros A Hm. destruct bm; unfold init_addr.
  - specialize (Hm eq_refl). destruct (double_half n Hm) as [E1 E2]. destruct A as [L _]. rewrite repeat_length in L. fold (bits_to_bytes n) in L. rewrite E1 in L.
    unfold init_bitmask_addr. rewrite E2, firstn_zeros, skipn_zeros, land_zeros, repeat_length, <- repeat_app. f_equal. lia.
  - unfold init_prefix_addr. destruct (n mod 8 =? 0)%nat; [reflexivity|]. rewrite nth_zeros, N.land_0_l. reflexivity.
Qed.
(** Dropping the bitmask flag leaves an address as it is. *)
Lemma init_drop a n : (n mod 16 = 0)%nat -> init_addr false a n = a.
Proof.
  intros M. unfold init_addr, init_prefix_addr. assert (E : (n mod 8 = 0)%nat).
  { pose proof (Nat.div_mod n 16 ltac:(lia)) as D. rewrite M, Nat.add_0_r in D. rewrite D. replace (16 * (n / 16))%nat with ((2 * (n / 16)) * 8)%nat by lia. apply Nat.mod_mul. lia. }
  rewrite E. reflexivity.
Qed.

(** Flags. *)
Lemma dir_bits f : anybit f DIRECTION_FLAGS = has f RF_IN || has f RF_OUT.
Proof.
  unfold anybit, has. assert (T : forall b, N.testbit DIRECTION_FLAGS b = (b =? 10) || (b =? 11)).
  { intros b. destruct (N.eqb_spec b 10) as [->|N1]; [reflexivity|]. destruct (N.eqb_spec b 11) as [->|N2]; [reflexivity|]. cbn [orb].
    unfold DIRECTION_FLAGS. destruct b as [|p]; [reflexivity|]. do 5 (destruct p as [p|p|]; try reflexivity; try (exfalso; congruence)). }
  destruct (N.eqb_spec (N.land f DIRECTION_FLAGS) 0) as [E|E]; cbn [negb].
  - symmetry. apply orb_false_iff. split.
    + assert (X : N.testbit (N.land f DIRECTION_FLAGS) RF_IN = false) by (rewrite E; apply N.bits_0). rewrite N.land_spec, T in X. cbn in X. rewrite andb_true_r in X. exact X.
    + assert (X : N.testbit (N.land f DIRECTION_FLAGS) RF_OUT = false) by (rewrite E; apply N.bits_0). rewrite N.land_spec, T in X. cbn in X. rewrite andb_true_r in X. exact X.
  - symmetry. destruct (N.testbit f RF_IN || N.testbit f RF_OUT) eqn:X; [reflexivity|]. exfalso. apply E. apply orb_false_iff in X. destruct X as [X1 X2].
    apply N.bits_inj. intros b. rewrite N.land_spec, T, N.bits_0. destruct (N.eqb_spec b 10) as [->|N1]; [unfold RF_IN in X1; rewrite X1; reflexivity|]. destruct (N.eqb_spec b 11) as [->|N2]; [unfold RF_OUT in X2; rewrite X2; reflexivity|]. apply andb_false_r.
Qed.
Definition same14 (f g : N) : Prop := forall b, b < 14 -> N.testbit f b = N.testbit g b.
Lemma same14_has f g b : same14 f g -> b < 14 -> has f b = has g b.
Proof. intros H B. apply H. exact B. Qed.
Lemma same14_sens f g : same14 f g -> flags_sensical f = flags_sensical g.
Proof. intros H. unfold flags_sensical. rewrite !(same14_has f g) by (exact H || reflexivity). reflexivity. Qed.
Lemma same14_dir f g : same14 f g -> anybit f DIRECTION_FLAGS = anybit g DIRECTION_FLAGS.
Proof. intros H. rewrite !dir_bits, !(same14_has f g) by (exact H || reflexivity). reflexivity. Qed.
Lemma internal_bits b : N.testbit INTERNAL_FLAGS b = (14 <=? b) && (b <? 18).
Proof.
  destruct (N.ltb_spec b 18) as [L|L].
  - rewrite andb_true_r. assert (C : forallb (fun i => Bool.eqb (N.testbit INTERNAL_FLAGS (N.of_nat i)) (14 <=? N.of_nat i)) (seq 0 18) = true) by (vm_compute; reflexivity).
    rewrite forallb_forall in C. specialize (C (N.to_nat b)). rewrite N2Nat.id in C. apply eqb_prop, C, in_seq. lia.
  - rewrite andb_false_r. destruct (N.eq_dec b 0) as [->|Z0]; [lia|]. apply N.bits_above_log2. apply N.lt_le_trans with 18; [reflexivity|exact L].
Qed.
Lemma ldiff_same14 f : same14 (N.ldiff f INTERNAL_FLAGS) f.
Proof. intros b B. rewrite N.ldiff_spec, internal_bits. destruct (N.leb_spec 14 b); [lia|]. cbn. apply andb_true_r. Qed.
Lemma clamp_same14 k f g : same14 f g -> with_flags (clamp_wildcard_fields (with_flags k f)) g = clamp_wildcard_fields (with_flags k g).
Proof. intros H. unfold clamp_wildcard_fields, with_flags. cbn [r_family r_proto r_raddr r_rlen r_rport r_riface r_laddr r_llen r_lport r_liface r_flags r_event]. rewrite !(same14_has f g) by (exact H || reflexivity). reflexivity. Qed.
Lemma clamp_idem k : clamp_wildcard_fields (clamp_wildcard_fields k) = clamp_wildcard_fields k.
Proof.
  unfold clamp_wildcard_fields. cbn [r_family r_proto r_raddr r_rlen r_rport r_riface r_laddr r_llen r_lport r_liface r_flags r_event].
  f_equal; repeat match goal with |- context [if ?b then _ else _] => destruct b end; rewrite ?repeat_length; reflexivity.
Qed.

(** What holds of every route of the context. *)
Record fine (c : xctx) (r : froute) : Prop := {
  w_dir : anybit (r_flags (f_route r)) DIRECTION_FLAGS = true;
  w_sens : flags_sensical (r_flags (f_route r)) = true;
  w_ok : route_ok (f_route r);
  w_ra : init_addr (has (r_flags (f_route r)) RF_RADDR_BITMASK) (r_raddr (f_route r)) (r_rlen (f_route r)) = r_raddr (f_route r);
  w_la : init_addr (has (r_flags (f_route r)) RF_LADDR_BITMASK) (r_laddr (f_route r)) (r_llen (f_route r)) = r_laddr (f_route r);
  w_sz : N.of_nat (bits_to_bytes (r_rlen (f_route r)) + bits_to_bytes (r_llen (f_route r))) <= 65535;
  w_n : e_size (ic (conf_of c (r_event (f_route r)))) <= 65535;
  w_data : length (f_data r) = N.to_nat (e_size (ic (conf_of c (r_event (f_route r)))));
  w_ev : event_known c (r_event (f_route r)) }.
Record settled (c : xctx) (r : froute) : Prop := {
  s_fine : fine c r;
  s_flags : forall b, b < 14 -> let i := ic (conf_of c (r_event (f_route r))) in
    N.testbit (N.lor (N.ldiff (r_flags (f_route r)) (e_rclr i)) (e_radd i)) b = N.testbit (r_flags (f_route r)) b;
  s_clamp : clamp_wildcard_fields (f_route r) = f_route r }.

Lemma andb_negb_false (a b : bool) : a && negb b = false -> a = true -> b = true.
Proof. destruct a, b; cbn; congruence. Qed.

Lemma new_fine c e family proto raddr rlen rport riface laddr llen lport liface flags r :
  addr_ok raddr rlen -> addr_ok laddr llen -> event_known c e ->
  route_new c e family proto raddr rlen rport riface laddr llen lport liface flags = (OK, Some r) -> fine c r.
Proof.
  intros Ar Al K. unfold route_new. cbv zeta.
  destruct (_ && _) eqn:E1 at 1; [discriminate|]. destruct (_ && _) eqn:E2 at 1; [discriminate|].
  destruct (N.ltb_spec 65535 (N.of_nat (bits_to_bytes rlen + bits_to_bytes llen))) as [Z1|Z1]; [discriminate|].
  destruct (N.ltb_spec 65535 (e_size (ic (conf_of c e)))) as [Z2|Z2]; [discriminate|].
  unfold route_init. destruct (anybit flags DIRECTION_FLAGS) eqn:D; cbn [negb]; [|discriminate].
  rewrite E1, E2. destruct (flags_sensical flags) eqn:SF; cbn [negb]; [|discriminate].
  intros Q. match type of Q with (OK, Some ?x) = _ => assert (R : r = x) by congruence end. clear Q.
  assert (M1 : has flags RF_RADDR_BITMASK = true -> (rlen mod 16 = 0)%nat) by (intros H; apply Nat.eqb_eq; exact (andb_negb_false _ _ E1 H)).
  assert (M2 : has flags RF_LADDR_BITMASK = true -> (llen mod 16 = 0)%nat) by (intros H; apply Nat.eqb_eq; exact (andb_negb_false _ _ E2 H)).
  subst r. split; cbn [f_route f_data r_raddr r_rlen r_laddr r_llen r_flags r_event]; try assumption.
  - split; cbn [r_raddr r_rlen r_laddr r_llen r_flags]; try assumption; apply init_addr_ok; assumption.
  - apply init_addr_idem; assumption.
  - apply init_addr_idem; assumption.
  - apply repeat_length.
Qed.
Lemma by_exports_fine c e ex r :
  addr_ok (x_raddr ex) (x_rlen ex) -> addr_ok (x_laddr ex) (x_llen ex) -> event_known c e ->
  new_by_exports c e ex = (OK, Some r) -> fine c r.
Proof.
  intros Ar Al K. unfold new_by_exports. cbv zeta.
  destruct (_ && _) at 1; [discriminate|]. destruct (_ && _) eqn:E1 at 1; [discriminate|]. destruct (_ && _) eqn:E2 at 1; [discriminate|].
  destruct (N.ltb_spec 65535 (N.of_nat (bits_to_bytes (x_rlen ex) + bits_to_bytes (x_llen ex)))) as [Z1|Z1]; [discriminate|].
  unfold init_by_exports. destruct (N.ltb_spec 65535 (N.of_nat (bits_to_bytes (x_rlen ex) + bits_to_bytes (x_llen ex)))) as [Z1'|_]; [discriminate|].
  destruct (N.ltb_spec (e_size (ic (conf_of c e))) (N.of_nat (match x_private ex with Some b => length b | None => O end))) as [Z3|Z3]; [discriminate|].
  destruct (N.ltb_spec 65535 (e_size (ic (conf_of c e)))) as [Z2|Z2]; [discriminate|].
  destruct (anybit (x_flags ex) DIRECTION_FLAGS) eqn:D; cbn [negb]; [|discriminate].
  rewrite E1, E2. destruct (flags_sensical (x_flags ex)) eqn:SF; cbn [negb]; [|discriminate].
  intros Q. match type of Q with (OK, Some ?x) = _ => assert (R : r = x) by congruence end. clear Q.
  pose proof (ldiff_same14 (x_flags ex)) as S14.
  assert (M1 : has (x_flags ex) RF_RADDR_BITMASK = true -> (x_rlen ex mod 16 = 0)%nat) by (intros H; apply Nat.eqb_eq; exact (andb_negb_false _ _ E1 H)).
  assert (M2 : has (x_flags ex) RF_LADDR_BITMASK = true -> (x_llen ex mod 16 = 0)%nat) by (intros H; apply Nat.eqb_eq; exact (andb_negb_false _ _ E2 H)).
  assert (B1 : has (N.ldiff (x_flags ex) INTERNAL_FLAGS) RF_RADDR_BITMASK = has (x_flags ex) RF_RADDR_BITMASK) by (apply same14_has; [exact S14|reflexivity]).
  assert (B2 : has (N.ldiff (x_flags ex) INTERNAL_FLAGS) RF_LADDR_BITMASK = has (x_flags ex) RF_LADDR_BITMASK) by (apply same14_has; [exact S14|reflexivity]).
  subst r. split; cbn [f_route f_data r_raddr r_rlen r_laddr r_llen r_flags r_event]; rewrite ?B1, ?B2; try assumption.
  - rewrite (same14_dir _ _ S14). exact D.
  - rewrite (same14_sens _ _ S14). exact SF.
  - split; cbn [r_raddr r_rlen r_laddr r_llen r_flags]; rewrite ?B1, ?B2; try assumption; apply init_addr_ok; assumption.
  - apply init_addr_idem; assumption.
  - apply init_addr_idem; assumption.
  - destruct (x_private ex) as [b|]; [|apply repeat_length]. rewrite app_length, repeat_length. lia.
Qed.
Lemma clamped_addr (bm w : bool) a n : addr_ok a n -> (bm = true -> (n mod 16 = 0)%nat) ->
  init_addr bm a n = a -> init_addr bm (if w then repeat 0 (length a) else a) n = (if w then repeat 0 (length a) else a).
Proof. intros A M I. destruct w; [|exact I]. apply init_zeros; [|exact M]. apply zeros_ok. destruct A as [L _]. exact L. Qed.
Lemma prepare_ok c now r r' : mild (conf_of c (r_event (f_route r))) -> fine c r -> prepare c now (Some r) = Ret (OK, Some r') ->
  settled c r' /\ f_data r' = f_data r /\ r_event (f_route r') = r_event (f_route r).
Proof.
  intros (MR & ML & MI & MO & _) Fn. unfold prepare. cbv zeta. set (i := ic (conf_of c (r_event (f_route r)))) in *.
  set (f := N.lor (N.ldiff (r_flags (f_route r)) (e_rclr i)) (e_radd i)).
  destruct (flags_sensical f) eqn:SF; cbn [negb]; [|discriminate]. destruct (has f RF_IN_TABLE); [discriminate|]. destruct (_ && _)%bool at 1; [discriminate|].
  intros Q. match type of Q with Ret (OK, Some ?x) = _ => assert (R : r' = x) by congruence end. clear Q.
  destruct Fn as [D Sn RO RA LA SZ NN DA EV].
  assert (HF : forall b, has f b = (has (r_flags (f_route r)) b && negb (has (e_rclr i) b)) || has (e_radd i) b) by (intros b; unfold has, f; rewrite N.lor_spec, N.ldiff_spec; reflexivity).
  assert (BR : has f RF_RADDR_BITMASK = true -> has (r_flags (f_route r)) RF_RADDR_BITMASK = true) by (rewrite HF, MR, orb_false_r; intros X; apply andb_true_iff in X; tauto).
  assert (BL : has f RF_LADDR_BITMASK = true -> has (r_flags (f_route r)) RF_LADDR_BITMASK = true) by (rewrite HF, ML, orb_false_r; intros X; apply andb_true_iff in X; tauto).
  assert (RO' : route_ok (with_flags (f_route r) f)) by (destruct RO as [R1 R2 R3 R4]; split; cbn [with_flags r_raddr r_rlen r_laddr r_llen r_flags]; auto).
  assert (RA' : init_addr (has f RF_RADDR_BITMASK) (r_raddr (f_route r)) (r_rlen (f_route r)) = r_raddr (f_route r)).
  { destruct (has (r_flags (f_route r)) RF_RADDR_BITMASK) eqn:X; destruct (has f RF_RADDR_BITMASK) eqn:Y; auto; [|specialize (BR eq_refl); discriminate].
    apply init_drop. destruct RO as [_ _ R3 _]. exact (R3 X). }
  assert (LA' : init_addr (has f RF_LADDR_BITMASK) (r_laddr (f_route r)) (r_llen (f_route r)) = r_laddr (f_route r)).
  { destruct (has (r_flags (f_route r)) RF_LADDR_BITMASK) eqn:X; destruct (has f RF_LADDR_BITMASK) eqn:Y; auto; [|specialize (BL eq_refl); discriminate].
    apply init_drop. destruct RO as [_ _ _ R4]. exact (R4 X). }
  subst r'. split; [|split; reflexivity]. split.
  - split; cbn [f_route f_data]; unfold clamp_wildcard_fields; cbn [with_flags r_raddr r_rlen r_laddr r_llen r_flags r_event]; try assumption.
    + rewrite dir_bits in *. rewrite !HF, MI, MO. cbn [negb]. rewrite !andb_true_r. apply orb_true_iff in D. destruct D as [D|D]; rewrite D; rewrite ?orb_true_l, ?orb_true_r; reflexivity.
    + exact (clamp_ok _ RO').
    + apply clamped_addr; [apply RO'|apply RO'|exact RA'].
    + apply clamped_addr; [apply RO'|apply RO'|exact LA'].
  - intros b B. cbv zeta. cbn [f_route]. unfold clamp_wildcard_fields. cbn [with_flags r_flags r_event]. fold i.
    rewrite N.lor_spec, N.ldiff_spec. unfold f. rewrite N.lor_spec, N.ldiff_spec. destruct (N.testbit (r_flags (f_route r)) b), (N.testbit (e_rclr i) b), (N.testbit (e_radd i) b); reflexivity.
  - cbn [f_route]. apply clamp_idem.
Qed.

(** Flags may change from bit 14 up. *)
Lemma set_flags_settled c r f : settled c r -> same14 f (r_flags (f_route r)) -> settled c (set_flags r f).
Proof.
  intros [[D Sn RO RA LA SZ NN DA EV] SF SC] S14.
  assert (B1 : has f RF_RADDR_BITMASK = has (r_flags (f_route r)) RF_RADDR_BITMASK) by (apply same14_has; [exact S14|reflexivity]).
  assert (B2 : has f RF_LADDR_BITMASK = has (r_flags (f_route r)) RF_LADDR_BITMASK) by (apply same14_has; [exact S14|reflexivity]).
  split; [split|..]; cbn [set_flags f_route f_data with_flags r_raddr r_rlen r_laddr r_llen r_flags r_event]; rewrite ?B1, ?B2; try assumption.
  - rewrite (same14_dir _ _ S14). exact D.
  - rewrite (same14_sens _ _ S14). exact Sn.
  - apply with_flags_ok; assumption.
  - intros b B. cbv zeta. specialize (SF b B). cbv zeta in SF. rewrite N.lor_spec, N.ldiff_spec in *. rewrite (S14 b B). exact SF.
  - assert (E : with_flags (f_route r) (r_flags (f_route r)) = f_route r) by (destruct (f_route r); reflexivity).
    rewrite <- (clamp_same14 (f_route r) (r_flags (f_route r)) f) by (intros b B; symmetry; apply S14; exact B). rewrite E, SC. reflexivity.
Qed.
Lemma in_table_14 f : same14 (N.setbit f RF_IN_TABLE) f.
Proof. intros b B. apply N.setbit_neq. unfold RF_IN_TABLE. lia. Qed.
Lemma bytes_eqb_eq a b : bytes_eqb a b = true <-> a = b.
Proof. unfold bytes_eqb. destruct (list_eq_dec N.eq_dec a b); split; congruence. Qed.
Lemma find_event_label c l e i : find_event c l = Some (e, i) -> ev_label e = l.
Proof. unfold find_event. intros H. apply find_some in H. destruct H as [_ H]. cbn [fst] in H. apply bytes_eqb_eq in H. exact H. Qed.
Lemma event_get_known c l e : event_get c l = (OK, e) -> event_known c e.
Proof.
  unfold event_get. destruct (length l =? 0)%nat eqn:E0; [discriminate|]. destruct (Nat.ltb_spec 32 (length l)) as [L|L]; [discriminate|].
  destruct (find_event c l) as [[v i]|] eqn:F; [|discriminate]. intros Q. injection Q as <-. exists i.
  pose proof (find_event_label _ _ _ _ F) as X. rewrite X. apply Nat.eqb_neq in E0. split; [exact F|lia].
Qed.
Lemma live_settled c r : mild_ctx c -> live c r -> settled c r.
Proof.
  intros MC H. induction H as [now e family proto raddr rlen rport riface laddr llen lport liface flags r Ar Al K E|now ex r Ar Al E|r m h H IH|r f H IH S15|r d H IH LD].
  - apply set_flags_settled; [|apply in_table_14]. unfold create in E.
    destruct (route_new _ _ _ _ _ _ _ _ _ _ _ _ _) as [x [r0|]] eqn:RN.
    + destruct x; try discriminate E. eapply prepare_ok; [apply MC| |exact E]. eapply new_fine; [exact Ar|exact Al|exact K|exact RN].
    + destruct x; discriminate E.
  - apply set_flags_settled; [|apply in_table_14]. unfold import in E.
    destruct (rebuild c ex) as [x [r0|]] eqn:RN; destruct x; try discriminate E. eapply prepare_ok; [apply MC| |exact E]. unfold rebuild in RN.
    destruct (match x_label ex with None => (OK, None) | Some l => event_get c l end) as [x e] eqn:G. destruct x; try discriminate RN.
    assert (K : event_known c e). { destruct (x_label ex); [eapply event_get_known; exact G|injection G as <-; exact Logic.I]. }
    eapply by_exports_fine; [exact Ar|exact Al|exact K|exact RN].
  - destruct IH as [[D Sn RO RA LA SZ NN DA EV] SF SC]. split; [split|..]; assumption.
  - apply set_flags_settled; [exact IH|]. intros b B. apply S15. lia.
  - destruct IH as [[D Sn RO RA LA SZ NN DA EV] SF SC]. split; [split|..]; try assumption. cbn [f_data f_route]. rewrite LD. exact DA.
Qed.

(** Building a route from the export of a fine route. *)
Lemma ssub_le a b : b <= a -> a <= 65535 -> ssub a b = a - b.
Proof. intros H L. unfold ssub, szmod. replace (a + 18446744073709551616 - b) with (a - b + 1 * 18446744073709551616) by lia. rewrite N.mod_add by discriminate. apply N.mod_small. lia. Qed.
Lemma private_len i r b : pad i <= e_size (ic i) -> e_size (ic i) <= 65535 -> length (f_data r) = N.to_nat (e_size (ic i)) ->
  private_bytes i r = Some b -> N.of_nat (length b) = e_size (ic i) - pad i /\ e_size (ic i) <> 0.
Proof.
  intros P L D. unfold private_bytes, private_data. destruct (N.eqb_spec (e_size (ic i)) 0) as [E|E]; [discriminate|]. rewrite ssub_le by assumption. intros Q. injection Q as <-.
  split; [|exact E]. rewrite firstn_length, skipn_length, D. lia.
Qed.
Lemma rebuild_ok A B r : mild_ctx A -> fine A r -> receives A B r ->
  let b := conf_of B (r_event (f_route r)) in
  exists r' e', rebuild B (export A r) = (OK, Some r') /\ same_event e' (r_event (f_route r)) /\ event_known B e' /\
    f_route r' = {| r_family := r_family (f_route r); r_proto := r_proto (f_route r); r_raddr := r_raddr (f_route r); r_rlen := r_rlen (f_route r);
                    r_rport := r_rport (f_route r); r_riface := r_riface (f_route r); r_laddr := r_laddr (f_route r); r_llen := r_llen (f_route r);
                    r_lport := r_lport (f_route r); r_liface := r_liface (f_route r); r_flags := N.ldiff (r_flags (f_route r)) INTERNAL_FLAGS; r_event := e' |} /\
    f_meta r' = mkMeta 0 0 0 (m_purge (f_meta r)) (m_conn (f_meta r)) (m_derog (f_meta r)) (m_comm (f_meta r)) /\ f_hits r' = 0 /\
    f_data r' = (match private_bytes (conf_of A (r_event (f_route r))) r with
                 | Some p => p ++ repeat 0 (N.to_nat (e_size (ic b)) - length p) | None => repeat 0 (N.to_nat (e_size (ic b))) end)%list.
Proof.
  intros MC [D Sn RO RA LA SZ NN DA EV] (RE & SB & PB & PS) b. subst b.
  set (a := conf_of A (r_event (f_route r))) in *. set (b := conf_of B (r_event (f_route r))) in *.
  assert (EG : exists e', match x_label (export A r) with None => (OK, None) | Some l => event_get B l end = (OK, e') /\ same_event e' (r_event (f_route r)) /\
             event_known B e' /\ conf_of B e' = b).
  { unfold export. cbn [x_label]. subst b. destruct (r_event (f_route r)) as [v|] eqn:EVR.
    - destruct RE as (w & i & F & PR). destruct EV as (i0 & _ & LL). exists (Some w). pose proof (find_event_label _ _ _ _ F) as LB.
      assert (GE : event_get B (ev_label v) = (OK, Some w)).
      { unfold event_get. destruct (Nat.eqb_spec (length (ev_label v)) 0); [lia|]. destruct (Nat.ltb_spec 32 (length (ev_label v))); [lia|]. rewrite F. reflexivity. }
      split; [exact GE|]. split; [split; assumption|]. split; [eapply event_get_known; exact GE|]. cbn [conf_of]. rewrite LB. reflexivity.
    - exists None. repeat split. }
  destruct EG as (e' & EG & SE & KE & CE). unfold rebuild. rewrite EG. unfold new_by_exports. rewrite CE. cbv zeta.
  assert (PL : match private_bytes a r with Some p => N.of_nat (length p) = e_size (ic b) - pad b | None => True end).
  { destruct (private_bytes a r) as [p|] eqn:PE; [|exact Logic.I]. pose proof (MC (r_event (f_route r))) as (_ & _ & _ & _ & PA & _). destruct (private_len _ _ _ PA NN DA PE) as [X1 X2]. rewrite (PS X2). exact X1. }
  assert (C1 : (negb (match x_private (export A r) with Some b => N.of_nat (length b) | None => 0 end =? 0) &&
          negb (match x_private (export A r) with Some b => N.of_nat (length b) | None => 0 end =? ssub (e_size (ic b)) (pad b))) = false).
  { unfold export. cbn [x_private]. fold a. destruct (private_bytes a r) as [p|]; [|reflexivity]. rewrite ssub_le by assumption. rewrite PL, N.eqb_refl. apply andb_false_r. }
  rewrite C1. unfold export at 1 2 3 4 5 6. cbn [x_flags x_rlen x_llen].
  assert (M1 : (has (r_flags (f_route r)) RF_RADDR_BITMASK && negb (r_rlen (f_route r) mod 16 =? 0)%nat) = false).
  { destruct (has _ _) eqn:X; [|reflexivity]. destruct RO as [_ _ R3 _]. rewrite (R3 X). reflexivity. }
  assert (M2 : (has (r_flags (f_route r)) RF_LADDR_BITMASK && negb (r_llen (f_route r) mod 16 =? 0)%nat) = false).
  { destruct (has (r_flags (f_route r)) RF_LADDR_BITMASK) eqn:X; [|reflexivity]. destruct RO as [_ _ _ R4]. rewrite (R4 X). reflexivity. }
  rewrite M1, M2. destruct (N.ltb_spec 65535 (N.of_nat (bits_to_bytes (r_rlen (f_route r)) + bits_to_bytes (r_llen (f_route r))))) as [X|_]; [lia|].
  unfold init_by_exports. cbn [export x_flags x_rlen x_llen x_private x_raddr x_laddr x_family x_proto x_rport x_riface x_lport x_liface x_meta]. fold a.
  destruct (N.ltb_spec 65535 (N.of_nat (bits_to_bytes (r_rlen (f_route r)) + bits_to_bytes (r_llen (f_route r))))) as [X|_]; [lia|].
  destruct (N.ltb_spec (e_size (ic b)) (N.of_nat (match private_bytes a r with Some p => length p | None => O end))) as [X|_].
  { destruct (private_bytes a r) as [p|]; [rewrite PL in X|]; lia. }
  destruct (N.ltb_spec 65535 (e_size (ic b))) as [X|_]; [lia|]. rewrite D, M1, M2, Sn, RA, LA. cbn [negb].
  eexists. exists e'. split; [reflexivity|]. split; [exact SE|]. split; [exact KE|]. cbn [f_route f_meta f_hits f_data]. repeat split; reflexivity.
Qed.

(** Configurations loaded by wolfsentry_eventconfig_load have their padding before a non-empty area. *)
Lemma load_pad off c i i' : load off (Some c) i = (OK, i') -> e_size c + e_align c < szmod -> pad i' <= e_size (ic i') /\ (e_size (ic i') <> 0 -> pad i' < e_size (ic i')).
Proof.
  unfold load. destruct (check_conf off c) eqn:C; try discriminate. intros H SZ. unfold check_conf in C.
  repeat match type of C with (if ?b then _ else _) = _ => destruct b eqn:?; try discriminate C end.
  destruct (N.ltb_spec 0 (e_align c)) as [A|A]; [|injection H as <-; cbn [pad ic]; lia].
  destruct (N.ltb_spec 0 (off mod e_align c)) as [B|B]; [|injection H as <-; cbn [pad ic]; lia].
  injection H as <-. cbn [pad ic with_size e_size].
  match goal with X : (true && true && (65535 <? _)) = false |- _ => cbn [andb] in X; apply N.ltb_ge in X end.
  match goal with X : (if e_size c =? 0 then _ else _) = false |- _ => rename X into Y end.
  destruct (N.eqb_spec (e_size c) 0) as [Z|Z].
  { apply negb_false_iff, N.eqb_eq in Y. lia. }
  destruct (N.eqb_spec (e_align c) 0) as [W|W]; [lia|]. cbn [negb andb] in Y. apply orb_false_iff in Y. destruct Y as [_ Y]. apply N.ltb_ge in Y.
  assert (S0 : off mod e_align c < e_align c) by (apply N.mod_lt; lia).
  assert (SM : sadd (e_size c) (e_align c - off mod e_align c) <= 65535) by assumption.
  unfold sadd in *. destruct (N.lt_ge_cases (e_size c + (e_align c - off mod e_align c)) szmod) as [Q|Q].
  - rewrite (N.mod_small _ _ Q) in *. lia.
  - lia.
Qed.
