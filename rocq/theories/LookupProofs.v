(** Facts about the scanning loop of a lookup. *)
From Verif Require Import Base Labels LabelsProofs Addr AddrSpec AddrProofs RouteFlags RouteKey RouteKeySpec RouteKeyProofs RouteTable Lookup LookupSpec LookupMatch TableSpec.
Open Scope Z_scope.
Ltac Zify.zify_post_hook ::= Z.to_euclidean_division_equations.

Definition excl (ar : option N) (r : route) : bool :=
  match ar with Some a => check_bits a RES_EXCLUDE_REJECT_ROUTES && has (r_flags r) RF_PENALTYBOXED | None => false end.
(** Position [i] holds a route that the loop accepts, with these inexact flags and priority. *)
Definition cand (t : rtable) (target : route) (ar : option N) (x : nat * N * N) : Prop :=
  let '(i, inx, prio) := x in
  exists r, nth_error (t_routes t) i = Some r /\ anybit (r_flags r) (N.land (r_flags target) DIRECTION_FLAGS) = true /\
    filter_passes ar (r_event r) = true /\ excl ar r = false /\ route_key_cmp_1 r target true = Some (0, inx) /\ prio = eff_prio (r_event r).

(** Lower priority value and then fewer ignored fields. *)
Definition pop (inx : N) : N := popcount (N.land inx WILDCARD_FLAGS).
Definition better (x y : nat * N * N) : Prop :=
  let '(_, xi, xp) := x in let '(_, yi, yp) := y in (xp < yp)%N \/ (xp = yp /\ (pop xi <= pop yi)%N).
Lemma better_refl x : better x x.
Proof. destruct x as [[i a] p]. cbn. right. lia. Qed.
Lemma better_trans x y z : better x y -> better y z -> better x z.
Proof. destruct x as [[i a] p], y as [[i' a'] p'], z as [[i'' a''] p'']. cbn. lia. Qed.

Lemma exactness_pop target l li r ri z : compare_match_exactness target l li r ri = Some z ->
  (z < 0 -> (pop li <= pop ri)%N) /\ (0 <= z -> (pop ri <= pop li)%N).
Proof.
  unfold compare_match_exactness. destruct (Z.eqb_spec (wild_score li) (wild_score ri)) as [E|E]; cbn [negb].
  - intros _. unfold wild_score in E. fold (pop li) in E. fold (pop ri) in E. lia.
  - intros H. assert (H' : z = cmp_scores (wild_score li) (wild_score ri)) by congruence. subst z.
    unfold cmp_scores, wild_score. fold (pop li). fold (pop ri).
    destruct (Z.gtb_spec (8 - Z.of_N (pop li)) (8 - Z.of_N (pop ri))), (Z.ltb_spec (8 - Z.of_N (pop li)) (8 - Z.of_N (pop ri))); lia.
Qed.

(** One step, described. *)
Inductive step_spec (t : rtable) (target : route) (ar : option N) (i0 : nat) (seen : bool) (b : best) : step_res -> Prop :=
| ss_end : nth_error (t_routes t) i0 = None -> step_spec t target ar i0 seen b (SDone b)
| ss_leave r0 : nth_error (t_routes t) i0 = Some r0 -> r_family r0 <> r_family target -> seen = true ->
    has (r_flags target) RF_FAMILY_WILD = false -> t_last_af t = PNull -> step_spec t target ar i0 seen b (SDone b)
| ss_ub : step_spec t target ar i0 seen b SUB
| ss_go r0 i r b' res : nth_error (t_routes t) i0 = Some r0 -> nth_error (t_routes t) i = Some r ->
    (i = i0 \/ (r_family r0 <> r_family target /\ seen = true /\ has (r_flags target) RF_FAMILY_WILD = false /\ t_last_af t = PAt i)) ->
    (b' = b \/ exists x, b' = Some x /\ fst (fst x) = i /\ cand t target ar x) ->
    (forall x, b = Some x -> exists y, b' = Some y /\ better y x) ->
    (forall inx prio, cand t target ar (i, inx, prio) -> exists y, b' = Some y /\ better y (i, inx, prio)) ->
    (match res with
     | SNext k s bb => i = S k /\ s = (seen || (r_family r0 =? r_family target)%N)%bool /\ bb = b'
     | SDone bb => bb = b' /\ (i = O \/ exists y, bb = Some y /\ (snd y <= t_highest t)%N /\ pop (snd (fst y)) = 0%N)
     | SUB => False
     end) -> step_spec t target ar i0 seen b res.

Lemma pop_zero inx : N.land inx WILDCARD_FLAGS = 0%N -> pop inx = 0%N.
Proof. unfold pop. intros ->. reflexivity. Qed.

Lemma scan_step_spec t target ar contig bmaf i0 seen b : step_spec t target ar i0 seen b (scan_step t target ar contig bmaf i0 seen b).
Proof.
  unfold scan_step. destruct (nth_error (t_routes t) i0) as [r0|] eqn:E0; [|apply ss_end; exact E0].
  cbv zeta.
  set (same0 := (r_family r0 =? r_family target)%N). set (seen' := (seen || same0)%bool).
  set (jump := if same0 then Some (i0, r0) else _).
  assert (J : match jump with
              | Some (i, r) => nth_error (t_routes t) i = Some r /\
                 (i = i0 \/ (r_family r0 <> r_family target /\ seen = true /\ has (r_flags target) RF_FAMILY_WILD = false /\ t_last_af t = PAt i))
              | None => r_family r0 <> r_family target /\ seen = true /\ has (r_flags target) RF_FAMILY_WILD = false
              end).
  { unfold jump, seen', same0. destruct (N.eqb_spec (r_family r0) (r_family target)) as [F|F]; [split; [exact E0|left; reflexivity]|].
    rewrite orb_false_r. destruct seen; cbn [andb].
    - destruct (has (r_flags target) RF_FAMILY_WILD) eqn:W; cbn [negb]; [split; [exact E0|left; reflexivity]|].
      destruct (t_last_af t) as [|j|] eqn:LA; try (repeat split; assumption).
      destruct (nth_error (t_routes t) j) eqn:EJ; [|repeat split; assumption].
      split; [exact EJ|]. right. repeat split; assumption.
    - split; [exact E0|left; reflexivity]. }
  destruct jump as [[i r]|].
  2:{ destruct J as (F & S & W). destruct (t_last_af t) eqn:LA; try apply ss_ub. eapply ss_leave; eassumption. }
  destruct J as [Er J].
  assert (PREV : forall b', (b' = b \/ exists x, b' = Some x /\ fst (fst x) = i /\ cand t target ar x) ->
    (forall x, b = Some x -> exists y, b' = Some y /\ better y x) ->
    (forall inx prio, cand t target ar (i, inx, prio) -> exists y, b' = Some y /\ better y (i, inx, prio)) ->
    step_spec t target ar i0 seen b match i with O => SDone b' | S k => SNext k seen' b' end).
  { intros b' H1 H2 H3. eapply ss_go; try eassumption. destruct i as [|k]; [split; [reflexivity|left; reflexivity]|repeat split; reflexivity]. }
  assert (NOC : (forall inx prio, ~ cand t target ar (i, inx, prio)) -> step_spec t target ar i0 seen b match i with O => SDone b | S k => SNext k seen' b end).
  { intros NC. apply PREV; [left; reflexivity| |intros inx prio H; destruct (NC _ _ H)].
    intros x ->. exists x. split; [reflexivity|apply better_refl]. }
  destruct (anybit (r_flags r) (N.land (r_flags target) DIRECTION_FLAGS)) eqn:ED; cbn [negb].
  2:{ apply NOC. intros inx prio (r' & Q & D & _). congruence. }
  destruct (filter_passes ar (r_event r)) eqn:EF; cbn [negb].
  2:{ apply NOC. intros inx prio (r' & Q & D & F & _). congruence. }
  change (match ar with Some a => _ | None => false end) with (excl ar r).
  destruct (excl ar r) eqn:EX.
  { apply NOC. intros inx prio (r' & Q & D & F & X & _). congruence. }
  destruct (route_key_cmp_1 r target true) as [[c inx]|] eqn:EC; [|apply ss_ub].
  match goal with |- step_spec _ _ _ _ _ _ (match ?x with Some _ => _ | None => SUB end) => set (b' := x) end.
  assert (B : match b' with
              | None => True
              | Some b' => (b' = b \/ exists x, b' = Some x /\ fst (fst x) = i /\ cand t target ar x) /\
                   (forall x, b = Some x -> exists y, b' = Some y /\ better y x) /\
                   (forall inx prio, cand t target ar (i, inx, prio) -> exists y, b' = Some y /\ better y (i, inx, prio))
              end).
  { unfold b'. destruct (Z.eqb_spec c 0) as [C|C].
    2:{ split; [left; reflexivity|]. split.
        - intros x ->. exists x. split; [reflexivity|apply better_refl].
        - intros inx' prio (r' & Q & _ & _ & _ & K & _). exfalso. congruence. }
    subst c.
    assert (CD : cand t target ar (i, inx, eff_prio (r_event r))) by (exists r; repeat split; assumption).
    assert (CU : forall inx' prio, cand t target ar (i, inx', prio) -> inx' = inx /\ prio = eff_prio (r_event r)).
    { intros inx' prio (r' & Q & _ & _ & _ & K & P). assert (r' = r) by congruence. subst r'. split; congruence. }
    assert (TAKE : (forall x, b = Some x -> better (i, inx, eff_prio (r_event r)) x) ->
       (Some (i, inx, eff_prio (r_event r)) = b \/ exists x, Some (i, inx, eff_prio (r_event r)) = Some x /\ fst (fst x) = i /\ cand t target ar x) /\
       (forall x, b = Some x -> exists y, Some (i, inx, eff_prio (r_event r)) = Some y /\ better y x) /\
       (forall inx' prio, cand t target ar (i, inx', prio) -> exists y, Some (i, inx, eff_prio (r_event r)) = Some y /\ better y (i, inx', prio))).
    { intros HB. split; [right; eexists; split; [reflexivity|split; [reflexivity|exact CD]]|]. split.
      - intros x Hx. eexists. split; [reflexivity|]. apply HB. exact Hx.
      - intros inx' prio HC. apply CU in HC. destruct HC as [-> ->]. eexists. split; [reflexivity|apply better_refl]. }
    assert (KEEP : forall x, b = Some x -> better x (i, inx, eff_prio (r_event r)) ->
       (b = b \/ exists x, b = Some x /\ fst (fst x) = i /\ cand t target ar x) /\
       (forall x, b = Some x -> exists y, b = Some y /\ better y x) /\
       (forall inx' prio, cand t target ar (i, inx', prio) -> exists y, b = Some y /\ better y (i, inx', prio))).
    { intros x Hx HB. split; [left; reflexivity|]. split.
      - intros y Hy. exists y. split; [exact Hy|apply better_refl].
      - intros inx' prio HC. apply CU in HC. destruct HC as [-> ->]. exists x. split; assumption. }
    destruct b as [[[j jinx] jprio]|]; [|apply TAKE; discriminate].
    destruct (N.ltb_spec (eff_prio (r_event r)) jprio) as [P|P].
    { apply TAKE. intros x Hx. assert (x = (j, jinx, jprio)) by congruence. subst x. left. exact P. }
    destruct (N.eqb_spec (eff_prio (r_event r)) jprio) as [Q|Q].
    2:{ apply (KEEP (j, jinx, jprio)); [reflexivity|]. left. lia. }
    destruct (nth_error (t_routes t) j) as [rj|]; [|exact I].
    destruct (compare_match_exactness target r inx rj jinx) as [z|] eqn:EZ; [|exact I].
    apply exactness_pop in EZ. destruct (Z.ltb_spec z 0) as [Z0|Z0].
    - apply TAKE. intros x Hx. assert (x = (j, jinx, jprio)) by congruence. subst x. right. split; [exact Q|]. apply EZ; exact Z0.
    - apply (KEEP (j, jinx, jprio)); [reflexivity|]. right. split; [symmetry; exact Q|]. apply EZ; exact Z0. }
  destruct b' as [b'|]; [|apply ss_ub]. destruct B as (B1 & B2 & B3).
  match goal with |- step_spec _ _ _ _ _ _ (if ?s then _ else _) => destruct s eqn:ES end; [|apply PREV; assumption].
  eapply ss_go; try eassumption. split; [reflexivity|]. right.
  apply andb_true_iff in ES. destruct ES as [ES _]. destruct b' as [[[j jinx] jprio]|]; [|discriminate].
  apply andb_true_iff in ES. destruct ES as [ES PR]. apply andb_true_iff in ES. destruct ES as [_ IX].
  exists (j, jinx, jprio). split; [reflexivity|]. split; [apply N.leb_le; exact PR|]. apply pop_zero, N.eqb_eq. exact IX.
Qed.

(** Whatever is found was accepted. *)
Lemma scan_sound fuel : forall t target ar contig bmaf i seen b x,
  (forall y, b = Some y -> cand t target ar y) ->
  scan fuel t target ar contig bmaf i seen b = Some (Some (Some x)) -> cand t target ar x.
Proof.
  induction fuel as [|f IH]; intros t target ar contig bmaf i seen b x HB H; [discriminate|]. cbn [scan] in H.
  pose proof (scan_step_spec t target ar contig bmaf i seen b) as SP.
  destruct SP as [E|r0 E1 E2 E3 E4 E5| |r0 k r b' res E1 E2 E3 B1 B2 B3 R]; try (apply HB; congruence); try discriminate.
  assert (HB' : forall y, b' = Some y -> cand t target ar y).
  { destruct B1 as [->|(z & -> & _ & Z)]; [exact HB|]. intros y Hy. assert (y = z) by congruence. subst y. exact Z. }
  destruct res as [k' s bb|bb|]; [| |contradiction].
  - destruct R as (_ & _ & ->). eapply IH; [|exact H]. exact HB'.
  - destruct R as (-> & _). apply HB'. congruence.
Qed.

(** What is found only gets better. *)
Lemma scan_mono fuel : forall t target ar contig bmaf i seen x r,
  scan fuel t target ar contig bmaf i seen (Some x) = Some (Some r) -> exists y, r = Some y /\ better y x.
Proof.
  induction fuel as [|f IH]; intros t target ar contig bmaf i seen x r H; [discriminate|]. cbn [scan] in H.
  pose proof (scan_step_spec t target ar contig bmaf i seen (Some x)) as SP.
  destruct SP as [E|r0 E1 E2 E3 E4 E5| |r0 k r1 b' res E1 E2 E3 B1 B2 B3 R].
  1,2: exists x; split; [congruence|apply better_refl].
  - discriminate.
  - destruct (B2 x eq_refl) as (y & -> & Hy). destruct res as [k' s bb|bb|]; [| |contradiction].
    + destruct R as (_ & _ & ->). apply IH in H. destruct H as (w & -> & Hw). exists w. split; [reflexivity|]. eapply better_trans; eassumption.
    + destruct R as (-> & _). exists y. split; [congruence|exact Hy].
Qed.

(** A route of the target's family at or before the starting position is considered, or what is found is as good.
    (The table is sorted by family.) *)
Definition family_sorted (l : list route) : Prop :=
  forall i j a b, (i <= j)%nat -> nth_error l i = Some a -> nth_error l j = Some b -> (r_family a <= r_family b)%N.

Lemma scan_visits fuel : forall t target ar contig bmaf i seen b r kinx kprio k rk,
  family_sorted (t_routes t) ->
  (forall x, In x (t_routes t) -> (t_highest t <= eff_prio (r_event x))%N) ->
  (k <= i)%nat -> (i < length (t_routes t))%nat -> nth_error (t_routes t) k = Some rk ->
  (has (r_flags target) RF_FAMILY_WILD = true \/ r_family rk = r_family target) ->
  (seen = true -> has (r_flags target) RF_FAMILY_WILD = false -> forall x, nth_error (t_routes t) i = Some x -> (r_family x <= r_family target)%N) ->
  cand t target ar (k, kinx, kprio) ->
  scan fuel t target ar contig bmaf i seen b = Some (Some r) -> exists y, r = Some y /\ better y (k, kinx, kprio).
Proof.
  induction fuel as [|f IH]; intros t target ar contig bmaf i seen b r kinx kprio k rk SO HI Hk Hi Ek HF HS HC H; [discriminate|]. cbn [scan] in H.
  assert (NOJUMP : forall r0, nth_error (t_routes t) i = Some r0 -> r_family r0 <> r_family target -> seen = true ->
            has (r_flags target) RF_FAMILY_WILD = false -> False).
  { intros r0 E NE S W. destruct HF as [HF|HF]; [congruence|]. pose proof (SO k i rk r0 Hk Ek E) as LE. pose proof (HS S W r0 E). lia. }
  pose proof (scan_step_spec t target ar contig bmaf i seen b) as SP.
  destruct SP as [E|r0 E1 E2 E3 E4 E5| |r0 j r1 b' res E1 E2 E3 B1 B2 B3 R].
  - apply nth_error_None in E. lia.
  - destruct (NOJUMP r0 E1 E2 E3 E4).
  - discriminate.
  - destruct E3 as [->|(F & S & W & _)]; [|destruct (NOJUMP r0 E1 F S W)].
    assert (r1 = r0) by congruence. subst r1.
    assert (HERE : k = i -> exists y, b' = Some y /\ better y (k, kinx, kprio)) by (intros ->; apply B3; exact HC).
    destruct res as [k' s bb|bb|]; [| |contradiction].
    + destruct R as (-> & -> & ->). destruct (Nat.eq_dec k (S k')) as [EQ|NE].
      * destruct (HERE EQ) as (y & -> & Hy). apply scan_mono in H. destruct H as (w & -> & Hw). exists w. split; [reflexivity|]. eapply better_trans; eassumption.
      * eapply (IH t target ar contig bmaf k' _ b' r kinx kprio k rk); try eassumption; [lia|lia|].
        intros Sn W x Ex. pose proof (SO k' (S k') x r0 ltac:(lia) Ex E1) as LE.
        apply orb_true_iff in Sn. destruct Sn as [Sn|Sn].
        -- pose proof (HS Sn W r0 E1). lia.
        -- apply N.eqb_eq in Sn. lia.
    + destruct R as (-> & [D|(y & D & P & Q)]).
      * destruct (HERE ltac:(lia)) as (y & -> & Hy). exists y. split; [congruence|exact Hy].
      * exists y. split; [congruence|]. destruct HC as (r2 & Er2 & _ & _ & _ & _ & ->). destruct y as [[yi yinx] yp]. cbn [fst snd] in *.
        pose proof (HI r2 (nth_error_In _ _ Er2)) as HP. unfold better. destruct (N.eq_dec yp (eff_prio (r_event r2))); [right; split; [assumption|lia]|left; lia].
Qed.

(** Termination when there is nothing to jump to behind the first position. *)
Definition no_far_wild (t : rtable) : Prop := forall i, t_last_af t = PAt i -> i = O.
Lemma scan_terminates fuel : forall t target ar contig bmaf i seen b,
  no_far_wild t \/ has (r_flags target) RF_FAMILY_WILD = true ->
  (i < fuel)%nat -> scan fuel t target ar contig bmaf i seen b <> None.
Proof.
  induction fuel as [|f IH]; intros t target ar contig bmaf i seen b NW Hi; [lia|]. cbn [scan].
  pose proof (scan_step_spec t target ar contig bmaf i seen b) as SP.
  destruct SP as [E|r0 E1 E2 E3 E4 E5| |r0 j r1 b' res E1 E2 E3 B1 B2 B3 R]; try discriminate.
  destruct res as [k s bb|bb|]; [|discriminate|discriminate].
  destruct R as (-> & _). apply IH; [exact NW|]. destruct E3 as [E3|(_ & _ & W & L)]; [lia|].
  destruct NW as [NW|NW]; [|congruence]. specialize (NW _ L). discriminate.
Qed.
