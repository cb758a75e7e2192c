From Verif Require Import Base Labels LabelsSpec LabelsProofs Addr AddrSpec AddrProofs RouteFlags RouteKey RouteKeySpec TableSpec.
Open Scope Z_scope.
Ltac Zify.zify_post_hook ::= Z.to_euclidean_division_equations.

(** Total orders: product and pull-back. *)
Definition lexc (a b : Z) : Z := if a =? 0 then b else a.
Definition ncmp (a b : N) : Z := if N.eqb a b then 0 else if N.ltb a b then -1 else 1.

Lemma to_eq {K} (c : K -> K -> Z) : total_order c -> forall a b d, c a b = 0 -> c b d = 0 -> c a d = 0.
Proof.
  intros [R A T] a b d H1 H2. pose proof (T a b d ltac:(lia) ltac:(lia)).
  pose proof (A a b); pose proof (A b d); pose proof (A a d).
  pose proof (T d b a ltac:(lia) ltac:(lia)). lia.
Qed.
Lemma lex_total_order {K} (c d : K -> K -> Z) : total_order c -> total_order d -> total_order (fun a b => lexc (c a b) (d a b)).
Proof.
  intros Hc Hd. pose proof Hc as [Rc Ac Tc]. pose proof Hd as [Rd Ad Td]. unfold lexc. split.
  - intros a. rewrite Rc. apply Rd.
  - intros a b. specialize (Ac a b). specialize (Ad a b).
    destruct (Z.eqb_spec (c a b) 0), (Z.eqb_spec (c b a) 0); lia.
  - intros a b e. pose proof (Tc a b e). pose proof (Td a b e). pose proof (to_eq c Hc a b e).
    pose proof (Ac a b); pose proof (Ac b e); pose proof (Ac a e). pose proof (Tc e a b). pose proof (Tc b e a).
    destruct (Z.eqb_spec (c a b) 0), (Z.eqb_spec (c b e) 0), (Z.eqb_spec (c a e) 0); lia.
Qed.
Lemma map_total_order {K L} (f : K -> L) (c : L -> L -> Z) : total_order c -> total_order (fun a b => c (f a) (f b)).
Proof. intros [R A T]. split; intros; eauto. Qed.
Lemma ncmp_total_order : total_order ncmp.
Proof.
  unfold ncmp. split.
  - intros a. rewrite N.eqb_refl. reflexivity.
  - intros a b. destruct (N.eqb_spec a b), (N.eqb_spec b a), (N.ltb_spec a b), (N.ltb_spec b a); lia.
  - intros a b d. destruct (N.eqb_spec a b), (N.eqb_spec b d), (N.eqb_spec a d), (N.ltb_spec a b), (N.ltb_spec b d), (N.ltb_spec a d); lia.
Qed.
Lemma ncmp_0 a b : ncmp a b = 0 <-> a = b.
Proof. unfold ncmp. destruct (N.eqb_spec a b), (N.ltb a b); split; intros; try congruence; try lia. Qed.
Lemma lexc_0 a b : lexc a b = 0 <-> a = 0 /\ b = 0.
Proof. unfold lexc. destruct (Z.eqb_spec a 0); lia. Qed.

(** The order of addresses: dictionary order of the bytes, then length. *)
Definition acmp (x y : list N * nat) : Z := lexc (label_cmp (fst x) (fst y)) (ncmp (N.of_nat (snd x)) (N.of_nat (snd y))).
Lemma acmp_total_order : total_order acmp.
Proof.
  unfold acmp. apply (lex_total_order (fun x y => label_cmp (fst x) (fst y)) (fun x y => ncmp (N.of_nat (snd x)) (N.of_nat (snd y)))).
  - apply (map_total_order fst), label_total_order.
  - apply (map_total_order (fun x => N.of_nat (snd x))), ncmp_total_order.
Qed.

Lemma memcmp_first l r n : (n <= length l)%nat -> (n <= length r)%nat -> (n = length l \/ n = length r) ->
  exists m, memcmp n l r = Some m /\ (m <> 0 -> m = label_cmp l r) /\ (m = 0 -> label_cmp l r = lcmp (skipn n l) (skipn n r)).
Proof.
  intros H1 H2 H3. rewrite label_cmp_lcmp. apply memcmp_lcmp. lia.
Qed.

Lemma sgn_same a b : a = b -> Z.sgn a = Z.sgn b.
Proof. congruence. Qed.

Lemma addr_empty a : addr_ok a 0 -> a = [].
Proof. intros [L _]. destruct a; [reflexivity|discriminate]. Qed.
Lemma lcmp_nil_pos r : (0 < length r)%nat -> lcmp [] r = -1.
Proof. destruct r; cbn; [lia|reflexivity]. Qed.
Lemma lcmp_pos_nil r : (0 < length r)%nat -> lcmp r [] = 1.
Proof. destruct r; cbn; [lia|reflexivity]. Qed.

Lemma exact_tail l ln r rn : addr_ok l ln -> addr_ok r rn -> ln <> rn ->
  exists c, (match memcmp (bits_to_bytes (Nat.min ln rn)) l r with
      | None => None
      | Some c => if negb (c =? 0) then Some (c, false)
                  else if (ln <? rn)%nat then Some (-1, false) else Some (1, false)
      end) = Some (c, false) /\ c = acmp (l, ln) (r, rn).
Proof.
  intros [Ll _] [Lr _] NE. fold (bits_to_bytes ln) in Ll. fold (bits_to_bytes rn) in Lr. unfold acmp. cbn [fst snd].
  assert (HB : (bits_to_bytes (Nat.min ln rn) <= length l)%nat) by (unfold bits_to_bytes in *; lia).
  assert (HB2 : (bits_to_bytes (Nat.min ln rn) <= length r)%nat) by (unfold bits_to_bytes in *; lia).
  destruct (memcmp_first l r (bits_to_bytes (Nat.min ln rn)) HB HB2) as (m & Hm & H1 & H2).
  { destruct (Nat.min_dec ln rn) as [E|E]; rewrite E; lia. }
  rewrite Hm. destruct (Z.eqb_spec m 0) as [E|E]; cbn [negb].
  - specialize (H2 E). unfold lexc, ncmp.
    destruct (Nat.ltb_spec ln rn) as [Q|Q].
    + eexists. split; [reflexivity|]. rewrite Nat.min_l in * by lia.
      rewrite <- Ll in H2 at 1. rewrite skipn_all in H2.
      destruct (Nat.eq_dec (bits_to_bytes ln) (length r)) as [W|W].
      * rewrite W, skipn_all in H2. cbn [lcmp] in H2. rewrite H2. cbn [Z.eqb].
        destruct (N.eqb_spec (N.of_nat ln) (N.of_nat rn)); [lia|]. destruct (N.ltb_spec (N.of_nat ln) (N.of_nat rn)); lia.
      * rewrite lcmp_nil_pos in H2 by (rewrite skipn_length; lia). rewrite H2. reflexivity.
    + eexists. split; [reflexivity|]. rewrite Nat.min_r in * by lia.
      rewrite <- Lr in H2 at 2. rewrite skipn_all in H2.
      destruct (Nat.eq_dec (bits_to_bytes rn) (length l)) as [W|W].
      * rewrite W, skipn_all in H2. cbn [lcmp] in H2. rewrite H2. cbn [Z.eqb].
        destruct (N.eqb_spec (N.of_nat ln) (N.of_nat rn)); [lia|]. destruct (N.ltb_spec (N.of_nat ln) (N.of_nat rn)); lia.
      * rewrite lcmp_pos_nil in H2 by (rewrite skipn_length; lia). rewrite H2. reflexivity.
  - exists m. split; [reflexivity|]. rewrite <- (H1 E). unfold lexc. destruct (Z.eqb_spec m 0); [contradiction|reflexivity].
Qed.

Lemma exact_same l n r : addr_ok l n -> addr_ok r n ->
  exists c, (match memcmp (bits_to_bytes n) l r with
    | None => None
    | Some c => if c =? 0 then Some (0, false) else Some (c, false)
    end) = Some (c, false) /\ c = acmp (l, n) (r, n).
Proof.
  intros [Ll _] [Lr _]. fold (bits_to_bytes n) in Ll, Lr. unfold acmp. cbn [fst snd].
  destruct (memcmp_first l r (bits_to_bytes n)) as (m & Hm & H1 & H2); [lia|lia|lia|]. rewrite Hm.
  assert (NN : ncmp (N.of_nat n) (N.of_nat n) = 0) by (apply ncmp_0; reflexivity). rewrite NN.
  destruct (Z.eqb_spec m 0) as [E|E].
  - eexists. split; [reflexivity|]. specialize (H2 E). rewrite <- Ll in H2 at 1. rewrite <- Lr in H2. rewrite !skipn_all in H2.
    rewrite H2. reflexivity.
  - exists m. split; [reflexivity|]. rewrite <- (H1 E). unfold lexc. destruct (Z.eqb_spec m 0); [contradiction|reflexivity].
Qed.

Lemma exact_zero l ln r rn : addr_ok l ln -> addr_ok r rn -> Nat.min ln rn = 0%nat ->
  (if (ln =? rn)%nat then 0 else if negb (ln =? 0)%nat then 1 else -1) = acmp (l, ln) (r, rn).
Proof.
  intros Hl Hr M. unfold acmp. cbn [fst snd]. rewrite label_cmp_lcmp.
  destruct (Nat.eqb_spec ln rn) as [E|E].
  - assert (ln = 0%nat) by lia. assert (rn = 0%nat) by lia. subst ln rn. rewrite (addr_empty _ Hl), (addr_empty _ Hr). reflexivity.
  - destruct (Nat.eqb_spec ln 0) as [Z|Z]; cbn [negb].
    + subst ln. rewrite (addr_empty _ Hl). destruct Hr as [Lr _]. rewrite lcmp_nil_pos by lia. reflexivity.
    + assert (rn = 0%nat) by lia. subst rn. rewrite (addr_empty _ Hr). destruct Hl as [Ll _]. rewrite lcmp_pos_nil by lia. reflexivity.
Qed.

Lemma cmp_addr_exact bm l ln r rn : addr_ok l ln -> addr_ok r rn ->
  cmp_addr bm l ln r rn false false = Some (acmp (l, ln) (r, rn), false).
Proof.
  intros Hl Hr. unfold cmp_addr, cmp_addrs_bitmaskful, cmp_addrs_prefixful. cbv zeta. cbn [andb orb].
  destruct bm; destruct (Nat.eqb_spec (Nat.min ln rn) 0) as [Z|Z].
  - rewrite <- (exact_zero l ln r rn Hl Hr Z). destruct (ln =? rn)%nat, (ln =? 0)%nat; reflexivity.
  - destruct (Nat.eqb_spec ln rn) as [E|E].
    + subst rn. destruct (exact_same l ln r Hl Hr) as (c & -> & ->). reflexivity.
    + destruct (exact_tail l ln r rn Hl Hr E) as (c & -> & ->). reflexivity.
  - rewrite <- (exact_zero l ln r rn Hl Hr Z). destruct (ln =? rn)%nat, (ln =? 0)%nat; reflexivity.
  - destruct (Nat.eqb_spec ln rn) as [E|E]; cbn [negb].
    + subst rn. destruct (exact_same l ln r Hl Hr) as (c & -> & ->). reflexivity.
    + destruct (exact_tail l ln r rn Hl Hr E) as (c & -> & ->). reflexivity.
Qed.

(** The order of events. *)
Definition optcmp (a b : option (list N)) : Z :=
  match a, b with None, None => 0 | None, Some _ => -1 | Some _, None => 1 | Some x, Some y => label_cmp x y end.
Lemma optcmp_total_order : total_order optcmp.
Proof.
  destruct label_total_order as [R A T]. unfold optcmp. split.
  - intros [a|]; auto.
  - intros [a|] [b|]; auto.
  - intros [a|] [b|] [d|]; try lia. apply T.
Qed.
Definition evcmp (a b : option event) : Z := lexc (ncmp (eff_prio a) (eff_prio b)) (optcmp (option_map ev_label a) (option_map ev_label b)).
Lemma evcmp_total_order : total_order evcmp.
Proof.
  unfold evcmp. apply (lex_total_order (fun a b => ncmp (eff_prio a) (eff_prio b)) (fun a b => optcmp (option_map ev_label a) (option_map ev_label b))).
  - apply (map_total_order eff_prio), ncmp_total_order.
  - apply (map_total_order (option_map ev_label)), optcmp_total_order.
Qed.
Lemma evcmp_0 a b : evcmp a b = 0 <-> same_event a b.
Proof.
  unfold evcmp. rewrite lexc_0, ncmp_0. unfold same_event, optcmp, eff_prio.
  destruct a as [x|], b as [y|]; cbn [option_map]; try (split; intros; intuition; lia).
  rewrite (proj1 (proj2 (label_cmp_spec _ _))). tauto.
Qed.
Lemma bytes_eqb_spec a b : bytes_eqb a b = true <-> a = b.
Proof. unfold bytes_eqb. destruct (list_eq_dec N.eq_dec a b); intuition congruence. Qed.
Lemma event_eqb_spec a b : event_eqb a b = true <-> same_event a b.
Proof.
  unfold event_eqb, same_event. destruct a, b; try (intuition; discriminate).
  rewrite andb_true_iff, bytes_eqb_spec, N.eqb_eq. tauto.
Qed.

Lemma cmp_field_exact wf bit a b k inx :
  cmp_field false wf bit a b k inx = if ncmp a b =? 0 then k inx else Some (ncmp a b, inx).
Proof. unfold cmp_field, ncmp. cbn [andb]. destruct (N.eqb a b); [reflexivity|]. destruct (N.ltb a b); reflexivity. Qed.
Lemma cmp_event_exact wf l r inx : cmp_event false wf l r inx = Some (evcmp l r, inx).
Proof.
  unfold cmp_event. rewrite cmp_field_exact. unfold evcmp, lexc.
  destruct (Z.eqb_spec (ncmp (eff_prio l) (eff_prio r)) 0) as [E|E]; [|reflexivity].
  cbn [andb]. destruct (event_eqb l r) eqn:EV.
  - apply event_eqb_spec in EV. unfold same_event in EV. destruct l as [x|], r as [y|]; try contradiction; [|reflexivity].
    destruct EV as [EL _]. cbn [option_map optcmp]. rewrite (proj2 (proj1 (proj2 (label_cmp_spec _ _))) EL). reflexivity.
  - destruct l as [x|], r as [y|]; cbn [option_map optcmp]; try reflexivity; [|discriminate EV].
    destruct (Z.eqb_spec (label_cmp (ev_label x) (ev_label y)) 0) as [Q|Q]; [rewrite Q|]; reflexivity.
Qed.
Lemma cmp_addr_field_exact wf bit bm l ln r rn k inx : addr_ok l ln -> addr_ok r rn ->
  cmp_addr_field false wf bit bm l ln r rn k inx =
  if acmp (l, ln) (r, rn) =? 0 then k inx else Some (acmp (l, ln) (r, rn), inx).
Proof.
  intros Hl Hr. unfold cmp_addr_field. cbn [andb]. rewrite cmp_addr_exact by assumption. destruct (acmp _ _ =? 0); reflexivity.
Qed.

(** The order of route keys as a lexicographic product. *)
Definition imm (r : route) : N := N.land (r_flags r) IMMUTABLE_FLAGS.
Definition rcmp (l r : route) : Z :=
  lexc (ncmp (r_family l) (r_family r))
 (lexc (acmp (r_raddr l, r_rlen l) (r_raddr r, r_rlen r))
 (lexc (ncmp (r_proto l) (r_proto r))
 (lexc (ncmp (r_lport l) (r_lport r))
 (lexc (acmp (r_laddr l, r_llen l) (r_laddr r, r_llen r))
 (lexc (ncmp (r_rport l) (r_rport r))
 (lexc (ncmp (r_riface l) (r_riface r))
 (lexc (ncmp (r_liface l) (r_liface r))
 (lexc (ncmp (imm l) (imm r)) (evcmp (r_event l) (r_event r)))))))))).

Lemma rcmp_total_order : total_order rcmp.
Proof.
  unfold rcmp.
  repeat (match goal with |- total_order (fun l r => lexc (@?c l r) (@?d l r)) => apply (lex_total_order c d) end;
    [ first [ match goal with |- total_order (fun l r => ncmp (@?f l) _) => exact (map_total_order f _ ncmp_total_order) end
            | match goal with |- total_order (fun l r => acmp (@?f l) _) => exact (map_total_order f _ acmp_total_order) end ] |]).
  exact (map_total_order r_event _ evcmp_total_order).
Qed.

Lemma route_key_cmp_rcmp l r : route_ok l -> route_ok r -> exists inx, route_key_cmp_1 l r false = Some (rcmp l r, inx).
Proof.
  intros [L1 L2 _ _] [R1 R2 _ _]. exists 0%N. unfold route_key_cmp_1, rcmp. cbv zeta.
  Ltac lexstep := match goal with |- _ = Some (lexc ?a _, _) => unfold lexc at 1; destruct (a =? 0); [|reflexivity] end.
  rewrite cmp_field_exact. lexstep.
  rewrite cmp_addr_field_exact by assumption. lexstep.
  rewrite cmp_field_exact. lexstep.
  rewrite cmp_field_exact. lexstep.
  rewrite cmp_addr_field_exact by assumption. lexstep.
  rewrite cmp_field_exact. lexstep.
  rewrite cmp_field_exact. lexstep.
  rewrite cmp_field_exact. lexstep.
  cbn [negb andb]. fold (imm l) (imm r). unfold lexc at 1. unfold ncmp.
  destruct (N.eqb_spec (imm l) (imm r)) as [E|E]; cbn [negb Z.eqb].
  - apply cmp_event_exact.
  - destruct (N.ltb (imm l) (imm r)); reflexivity.
Qed.

Lemma route_key_cmp_eq l r : route_ok l -> route_ok r -> route_key_cmp l r = rcmp l r.
Proof. intros Hl Hr. unfold route_key_cmp. destruct (route_key_cmp_rcmp l r Hl Hr) as (i & ->). reflexivity. Qed.

Lemma imm_eq a b : imm a = imm b <-> (forall i, (i < 14)%N -> N.testbit (r_flags a) i = N.testbit (r_flags b) i).
Proof.
  unfold imm. change IMMUTABLE_FLAGS with (N.ones 14). rewrite !N.land_ones. split.
  - intros H i Hi. rewrite <- (N.mod_pow2_bits_low (r_flags a) 14 i Hi), <- (N.mod_pow2_bits_low (r_flags b) 14 i Hi), H. reflexivity.
  - intros H. apply N.bits_inj. intros i. destruct (N.lt_ge_cases i 14).
    + rewrite !N.mod_pow2_bits_low by assumption. apply H. assumption.
    + rewrite !N.mod_pow2_bits_high by assumption. reflexivity.
Qed.
Lemma acmp_0 x y : acmp x y = 0 <-> fst x = fst y /\ snd x = snd y.
Proof. unfold acmp. rewrite lexc_0, ncmp_0, (proj1 (proj2 (label_cmp_spec _ _))). split; intros [H1 H2]; (split; [exact H1|lia]). Qed.

Lemma rcmp_0 a b : rcmp a b = 0 <-> same_key a b.
Proof.
  unfold rcmp, same_key. rewrite !lexc_0, !ncmp_0, !acmp_0, evcmp_0, imm_eq. cbn [fst snd]. tauto.
Qed.
