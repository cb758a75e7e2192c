(** Selection among remote-bitmask routes. *)
From Verif Require Import Base Labels LabelsProofs Addr AddrSpec AddrProofs RouteFlags RouteKey RouteKeySpec RouteKeyProofs RouteTable Lookup LookupSpec LookupMatch TableSpec LookupProofs RouteTableProofs LookupStart LookupFacts.
Open Scope Z_scope.
Ltac Zify.zify_post_hook ::= Z.to_euclidean_division_equations.

(** The number of zero bits of a list of bytes. *)
Definition zero_bits (l : list N) : Z := fold_right (fun b n => zeros8 b + n) 0 l.

Lemma masksize_zero fuel : forall i pad longer shorter ret,
  (i + fuel <= length longer)%nat -> pad < 0 ->
  masksize_loop fuel i pad longer shorter ret = Some (ret + zero_bits (firstn fuel (skipn i longer))).
Proof.
  induction fuel as [|k IH]; intros i pad longer shorter ret H P.
  - cbn [masksize_loop firstn zero_bits fold_right]. f_equal. lia.
  - cbn [masksize_loop]. assert (EN : nth_error longer i = Some (nth i longer 0%N)) by (apply nth_error_nth'; lia). rewrite EN.
    replace (pad <? 0) with true by (symmetry; apply Z.ltb_lt; exact P). cbn [orb].
    rewrite IH by lia. f_equal.
    assert (E : skipn i longer = nth i longer 0%N :: skipn (S i) longer).
    { clear - H. revert longer H. induction i as [|i IH]; intros [|x l] H; cbn [length] in H; try lia; [reflexivity|].
      cbn [skipn nth]. apply IH. lia. }
    rewrite E. cbn [firstn zero_bits fold_right]. fold (zero_bits (firstn k (skipn (S i) longer))). lia.
Qed.

(** A remote-bitmask route for addresses of [n] bits. *)
Definition mask_route (n : nat) (r : route) : Prop :=
  N.testbit (r_flags r) RF_RADDR_BITMASK = true /\ r_rlen r = (2 * n)%nat.
(** The zero bits of its (masked) address. *)
Definition mask_zeros (r : route) : Z := zero_bits (firstn (length (r_raddr r) / 2) (r_raddr r)).

Lemma score_zero target r : route_ok r -> (0 < r_rlen target)%nat -> (r_rlen target mod 8 = 0)%nat -> mask_route (r_rlen target) r ->
  score (has (r_flags r) RF_RADDR_BITMASK) (r_raddr target) (r_rlen target) (r_raddr r) (r_rlen r) = Some (mask_zeros r).
Proof.
  intros OKR HP H8 [HB HL]. unfold has, score. rewrite HB. unfold addr_bitmask_match_size.
  replace (r_rlen target <? r_rlen r)%nat with true by (symmetry; apply Nat.ltb_lt; lia).
  destruct OKR as [[L1 _] _ _ _].
  assert (EX : exists m, (r_rlen target = 8 * m)%nat) by (exists (r_rlen target / 8)%nat; lia). destruct EX as [m EM].
  assert (LR : length (r_raddr r) = (2 * m)%nat) by (rewrite L1; unfold bits_to_bytes; rewrite HL, EM; lia).
  assert (M : bits_to_bytes (r_rlen r / 2) = m) by (unfold bits_to_bytes; rewrite HL, EM; lia).
  rewrite M. unfold mask_zeros. rewrite LR. replace (2 * m / 2)%nat with m by lia.
  rewrite masksize_zero; [reflexivity|lia|lia].
Qed.

Section P.
Variable t : rtable. Variable target : route. Variable ar : option N.
Hypothesis ALL : forall i inx prio r, cand t target ar (i, inx, prio) -> nth_error (t_routes t) i = Some r ->
  has (r_flags r) RF_RADDR_BITMASK = true /\
  score true (r_raddr target) (r_rlen target) (r_raddr r) (r_rlen r) = Some (mask_zeros r).

Definition zat (i : nat) : Z := match nth_error (t_routes t) i with Some r => mask_zeros r | None => 0 end.
(** Lower priority value, then fewer ignored fields, then more zero bits. *)
Definition better3 (x y : nat * N * N) : Prop :=
  let '(i, xi, xp) := x in let '(j, yi, yp) := y in
  (xp < yp)%N \/ (xp = yp /\ ((pop xi < pop yi)%N \/ (pop xi = pop yi /\ zat j <= zat i))).
Lemma better3_refl x : better3 x x.
Proof. destruct x as [[i a] p]. cbn. lia. Qed.
Lemma better3_trans x y z : better3 x y -> better3 y z -> better3 x z.
Proof. destruct x as [[i a] p], y as [[j b] q], z as [[k c] s]. cbn. lia. Qed.

Lemma exactness_zero i r inx j rj jinx z : nth_error (t_routes t) i = Some r -> nth_error (t_routes t) j = Some rj ->
  cand t target ar (i, inx, eff_prio (r_event r)) -> cand t target ar (j, jinx, eff_prio (r_event rj)) ->
  compare_match_exactness target r inx rj jinx = Some z -> forall p,
  (z < 0 -> better3 (i, inx, p) (j, jinx, p)) /\ (0 <= z -> better3 (j, jinx, p) (i, inx, p)).
Proof.
  intros E1 E2 C1 C2 H p. destruct (ALL _ _ _ _ C1 E1) as [A1 A2]. destruct (ALL _ _ _ _ C2 E2) as [A3 A4].
  unfold better3, zat. rewrite E1, E2. unfold compare_match_exactness in H. rewrite A1, A3, A2 in H. unfold score in A4.
  rewrite A4 in H.
  assert (WS : wild_score inx = 8 - Z.of_N (pop inx) /\ wild_score jinx = 8 - Z.of_N (pop jinx)) by (split; reflexivity).
  destruct (Z.eqb_spec (wild_score inx) (wild_score jinx)) as [W|W]; cbn [negb] in H.
  - destruct (Z.eqb_spec (mask_zeros r) (mask_zeros rj)) as [Z|Z]; cbn [negb] in H.
    + lia.
    + assert (H' : z = cmp_scores (mask_zeros r) (mask_zeros rj)) by congruence. subst z. unfold cmp_scores.
      destruct (Z.gtb_spec (mask_zeros r) (mask_zeros rj)), (Z.ltb_spec (mask_zeros r) (mask_zeros rj)); lia.
  - assert (H' : z = cmp_scores (wild_score inx) (wild_score jinx)) by congruence. subst z. unfold cmp_scores.
    destruct (Z.gtb_spec (wild_score inx) (wild_score jinx)), (Z.ltb_spec (wild_score inx) (wild_score jinx)); lia.
Qed.

(** One step in a family with bitmask routes, for a target with a family. *)
Inductive step3 (i0 : nat) (seen : bool) (b : best) : step_res -> Prop :=
| s3_end : nth_error (t_routes t) i0 = None -> step3 i0 seen b (SDone b)
| s3_leave r0 : nth_error (t_routes t) i0 = Some r0 -> r_family r0 <> r_family target -> seen = true -> step3 i0 seen b (SDone b)
| s3_ub : step3 i0 seen b SUB
| s3_go r0 i r b' res : nth_error (t_routes t) i0 = Some r0 -> nth_error (t_routes t) i = Some r ->
    (i = i0 \/ (r_family r0 <> r_family target /\ seen = true)) ->
    (b' = b \/ exists x, b' = Some x /\ cand t target ar x) ->
    (forall x, b = Some x -> exists y, b' = Some y /\ better3 y x) ->
    (forall inx prio, cand t target ar (i, inx, prio) -> exists y, b' = Some y /\ better3 y (i, inx, prio)) ->
    (match res with
     | SNext k s bb => i = S k /\ s = (seen || (r_family r0 =? r_family target)%N)%bool /\ bb = b'
     | SDone bb => bb = b' /\ (i = O \/ (r_family r <> r_family target /\ (seen || (r_family r0 =? r_family target)%N)%bool = true))
     | SUB => False
     end) -> step3 i0 seen b res.

Lemma scan_step3 contig i0 seen b : has (r_flags target) RF_FAMILY_WILD = false ->
  (forall x, b = Some x -> cand t target ar x) ->
  step3 i0 seen b (scan_step t target ar contig true i0 seen b).
Proof.
  intros NW HCB. unfold scan_step. destruct (nth_error (t_routes t) i0) as [r0|] eqn:E0; [|apply s3_end; exact E0].
  cbv zeta.
  set (same0 := (r_family r0 =? r_family target)%N). set (seen' := (seen || same0)%bool).
  set (jump := if same0 then Some (i0, r0) else _).
  assert (J : match jump with
              | Some (i, r) => nth_error (t_routes t) i = Some r /\
                 (i = i0 \/ (r_family r0 <> r_family target /\ seen = true))
              | None => r_family r0 <> r_family target /\ seen = true
              end).
  { unfold jump, seen', same0. destruct (N.eqb_spec (r_family r0) (r_family target)) as [F|F]; [split; [exact E0|left; reflexivity]|].
    rewrite orb_false_r. rewrite NW. destruct seen; cbn [andb negb].
    - destruct (t_last_af t) as [|j|] eqn:LA; try (repeat split; assumption).
      destruct (nth_error (t_routes t) j) eqn:EJ; [|repeat split; assumption].
      split; [exact EJ|]. right. repeat split; assumption.
    - split; [exact E0|left; reflexivity]. }
  destruct jump as [[i r]|].
  2:{ destruct J as (F & S). destruct (t_last_af t) eqn:LA; try apply s3_ub. eapply s3_leave; eassumption. }
  destruct J as [Er J].
  assert (PREV : forall b', (b' = b \/ exists x, b' = Some x /\ cand t target ar x) ->
    (forall x, b = Some x -> exists y, b' = Some y /\ better3 y x) ->
    (forall inx prio, cand t target ar (i, inx, prio) -> exists y, b' = Some y /\ better3 y (i, inx, prio)) ->
    step3 i0 seen b match i with O => SDone b' | S k => SNext k seen' b' end).
  { intros b' H1 H2 H3. eapply s3_go; try eassumption. destruct i as [|k]; [split; [reflexivity|left; reflexivity]|repeat split; reflexivity]. }
  assert (NOC : (forall inx prio, ~ cand t target ar (i, inx, prio)) -> step3 i0 seen b match i with O => SDone b | S k => SNext k seen' b end).
  { intros NC. apply PREV; [left; reflexivity| |intros inx prio H; destruct (NC _ _ H)].
    intros x ->. exists x. split; [reflexivity|apply better3_refl]. }
  destruct (anybit (r_flags r) (N.land (r_flags target) DIRECTION_FLAGS)) eqn:ED; cbn [negb].
  2:{ apply NOC. intros inx prio (r' & Q & D & _). congruence. }
  destruct (filter_passes ar (r_event r)) eqn:EF; cbn [negb].
  2:{ apply NOC. intros inx prio (r' & Q & D & F & _). congruence. }
  change (match ar with Some a => _ | None => false end) with (excl ar r).
  destruct (excl ar r) eqn:EX.
  { apply NOC. intros inx prio (r' & Q & D & F & X & _). congruence. }
  destruct (route_key_cmp_1 r target true) as [[c inx]|] eqn:EC; [|apply s3_ub].
  match goal with |- step3 _ _ _ (match ?x with Some _ => _ | None => SUB end) => set (b' := x) end.
  assert (B : match b' with
              | None => True
              | Some b' => (b' = b \/ exists x, b' = Some x /\ cand t target ar x) /\
                   (forall x, b = Some x -> exists y, b' = Some y /\ better3 y x) /\
                   (forall inx prio, cand t target ar (i, inx, prio) -> exists y, b' = Some y /\ better3 y (i, inx, prio))
              end).
  { unfold b'. destruct (Z.eqb_spec c 0) as [C|C].
    2:{ split; [left; reflexivity|]. split.
        - intros x ->. exists x. split; [reflexivity|apply better3_refl].
        - intros inx' prio (r' & Q & _ & _ & _ & K & _). exfalso. congruence. }
    subst c.
    assert (CD : cand t target ar (i, inx, eff_prio (r_event r))) by (exists r; repeat split; assumption).
    assert (CU : forall inx' prio, cand t target ar (i, inx', prio) -> inx' = inx /\ prio = eff_prio (r_event r)).
    { intros inx' prio (r' & Q & _ & _ & _ & K & P). assert (r' = r) by congruence. subst r'. split; congruence. }
    assert (TAKE : (forall x, b = Some x -> better3 (i, inx, eff_prio (r_event r)) x) ->
       (Some (i, inx, eff_prio (r_event r)) = b \/ exists x, Some (i, inx, eff_prio (r_event r)) = Some x /\ cand t target ar x) /\
       (forall x, b = Some x -> exists y, Some (i, inx, eff_prio (r_event r)) = Some y /\ better3 y x) /\
       (forall inx' prio, cand t target ar (i, inx', prio) -> exists y, Some (i, inx, eff_prio (r_event r)) = Some y /\ better3 y (i, inx', prio))).
    { intros HB. split; [right; eexists; split; [reflexivity|exact CD]|]. split.
      - intros x Hx. eexists. split; [reflexivity|]. apply HB. exact Hx.
      - intros inx' prio HC. apply CU in HC. destruct HC as [-> ->]. eexists. split; [reflexivity|apply better3_refl]. }
    assert (KEEP : forall x, b = Some x -> better3 x (i, inx, eff_prio (r_event r)) ->
       (b = b \/ exists x, b = Some x /\ cand t target ar x) /\
       (forall x, b = Some x -> exists y, b = Some y /\ better3 y x) /\
       (forall inx' prio, cand t target ar (i, inx', prio) -> exists y, b = Some y /\ better3 y (i, inx', prio))).
    { intros x Hx HB. split; [left; reflexivity|]. split.
      - intros y Hy. exists y. split; [exact Hy|apply better3_refl].
      - intros inx' prio HC. apply CU in HC. destruct HC as [-> ->]. exists x. split; assumption. }
    destruct b as [[[j jinx] jprio]|]; [|apply TAKE; discriminate].
    destruct (N.ltb_spec (eff_prio (r_event r)) jprio) as [P|P].
    { apply TAKE. intros x Hx. assert (x = (j, jinx, jprio)) by congruence. subst x. left. exact P. }
    destruct (N.eqb_spec (eff_prio (r_event r)) jprio) as [Q|Q].
    2:{ apply (KEEP (j, jinx, jprio)); [reflexivity|]. left. lia. }
    destruct (nth_error (t_routes t) j) as [rj|] eqn:Ej; [|exact I].
    destruct (compare_match_exactness target r inx rj jinx) as [z|] eqn:EZ; [|exact I].
    pose proof (HCB _ eq_refl) as CJ.
    assert (JP : jprio = eff_prio (r_event rj)) by (destruct CJ as (q & Q1 & _ & _ & _ & _ & Q2); congruence).
    rewrite JP in CJ. pose proof (exactness_zero i r inx j rj jinx z Er Ej CD CJ EZ jprio) as XZ. rewrite Q in *.
    destruct (Z.ltb_spec z 0) as [Z0|Z0].
    - apply TAKE. intros x Hx. assert (x = (j, jinx, jprio)) by congruence. subst x. apply XZ; exact Z0.
    - apply (KEEP (j, jinx, jprio)); [reflexivity|]. apply XZ; exact Z0. }
  destruct b' as [b'|]; [|apply s3_ub]. destruct B as (B1 & B2 & B3).
  match goal with |- step3 _ _ _ (if ?s then _ else _) => destruct s eqn:ES end; [|apply PREV; assumption].
  eapply s3_go; try eassumption. split; [reflexivity|]. right.
  apply andb_true_iff in ES. destruct ES as [_ ES]. apply andb_true_iff in ES. destruct ES as [S1 S2].
  split; [|exact S1]. apply negb_true_iff in S2. apply N.eqb_neq in S2. exact S2.
Qed.

Lemma scan_mono3 fuel : forall contig i seen x r, has (r_flags target) RF_FAMILY_WILD = false -> cand t target ar x ->
  scan fuel t target ar contig true i seen (Some x) = Some (Some r) -> exists y, r = Some y /\ better3 y x.
Proof.
  induction fuel as [|f IH]; intros contig i seen x r NW CX H; [discriminate|]. cbn [scan] in H.
  assert (HX : forall y, Some x = Some y -> cand t target ar y) by (intros y E; congruence).
  pose proof (scan_step3 contig i seen (Some x) NW HX) as SP.
  destruct SP as [E|r0 E1 E2 E3| |r0 k r1 b' res E1 E2 E3 B1 B2 B3 R].
  1,2: exists x; split; [congruence|apply better3_refl].
  - discriminate.
  - destruct (B2 x eq_refl) as (y & -> & Hy). destruct res as [k' s bb|bb|]; [| |contradiction].
    + destruct R as (_ & _ & ->). apply IH in H; [|exact NW|].
      * destruct H as (w & -> & Hw). exists w. split; [reflexivity|]. eapply better3_trans; eassumption.
      * destruct B1 as [B1|(z & B1 & Z)]; [assert (y = x) by congruence; subst; exact CX|assert (y = z) by congruence; subst; exact Z].
    + destruct R as (-> & _). exists y. split; [congruence|exact Hy].
Qed.

Lemma scan_visits3 fuel : forall contig i seen b r kinx kprio k rk,
  has (r_flags target) RF_FAMILY_WILD = false -> (forall x, b = Some x -> cand t target ar x) ->
  family_sorted (t_routes t) ->
  (k <= i)%nat -> (i < length (t_routes t))%nat -> nth_error (t_routes t) k = Some rk ->
  r_family rk = r_family target ->
  (seen = true -> forall x, nth_error (t_routes t) i = Some x -> (r_family x <= r_family target)%N) ->
  cand t target ar (k, kinx, kprio) ->
  scan fuel t target ar contig true i seen b = Some (Some r) -> exists y, r = Some y /\ better3 y (k, kinx, kprio).
Proof.
  induction fuel as [|f IH]; intros contig i seen b r kinx kprio k rk NW HCB SO Hk Hi Ek HF HS HC H; [discriminate|]. cbn [scan] in H.
  assert (NOJUMP : forall r0, nth_error (t_routes t) i = Some r0 -> r_family r0 <> r_family target -> seen = true -> False).
  { intros r0 E NE S. pose proof (SO k i rk r0 Hk Ek E) as LE. pose proof (HS S r0 E). lia. }
  pose proof (scan_step3 contig i seen b NW HCB) as SP.
  destruct SP as [E|r0 E1 E2 E3| |r0 j r1 b' res E1 E2 E3 B1 B2 B3 R].
  - apply nth_error_None in E. lia.
  - destruct (NOJUMP r0 E1 E2 E3).
  - discriminate.
  - destruct E3 as [->|(F & S)]; [|destruct (NOJUMP r0 E1 F S)].
    assert (r1 = r0) by congruence. subst r1.
    assert (HERE : k = i -> exists y, b' = Some y /\ better3 y (k, kinx, kprio)) by (intros ->; apply B3; exact HC).
    assert (CB : forall x, b' = Some x -> cand t target ar x).
    { intros x Hx. destruct B1 as [B1|(z & B1 & Z)]; [apply HCB; congruence|assert (x = z) by congruence; subst; exact Z]. }
    destruct res as [k' s bb|bb|]; [| |contradiction].
    + destruct R as (-> & -> & ->). destruct (Nat.eq_dec k (S k')) as [EQ|NE].
      * destruct (HERE EQ) as (y & -> & Hy). apply scan_mono3 in H; [|exact NW|apply CB; reflexivity].
        destruct H as (w & -> & Hw). exists w. split; [reflexivity|]. eapply better3_trans; eassumption.
      * eapply (IH contig k' _ b' r kinx kprio k rk); try eassumption; [lia|lia|].
        intros Sn x Ex. pose proof (SO k' (S k') x r0 ltac:(lia) Ex E1) as LE.
        apply orb_true_iff in Sn. destruct Sn as [Sn|Sn].
        -- pose proof (HS Sn r0 E1). lia.
        -- apply N.eqb_eq in Sn. lia.
    + destruct R as (-> & [D|(D1 & D2)]).
      * destruct (HERE ltac:(lia)) as (y & -> & Hy). exists y. split; [congruence|exact Hy].
      * exfalso. assert (Sn : seen = true).
        { destruct seen; [reflexivity|]. cbn [orb] in D2. apply N.eqb_eq in D2. congruence. }
        exact (NOJUMP r0 E1 D1 Sn).
Qed.
End P.
