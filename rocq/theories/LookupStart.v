(** Where a lookup starts, and what follows for the routes it considers. *)
From Verif Require Import Base Labels LabelsProofs Addr AddrSpec AddrProofs RouteFlags RouteKey RouteKeySpec RouteKeyProofs RouteTable TableSpec Lookup LookupSpec LookupMatch LookupProofs RouteTableProofs.
Open Scope Z_scope.

(** The target as lookup_0 sees it (routes.c 1673). *)
Definition as_target (t : route) : route := with_flags t (N.setbit (r_flags t) RF_EVENT_WILD).
Lemma as_target_ok t : route_ok t -> route_ok (as_target t).
Proof. intros H. apply with_flags_ok; [exact H| |]; unfold has; rewrite N.setbit_neq by discriminate; reflexivity. Qed.

Lemma span_end_ge n : forall i l af, (i <= span_end n i l af)%nat.
Proof.
  induction n as [|n IH]; intros i l af; cbn [span_end]; [lia|].
  destruct (nth_error l i); [|lia]. destruct (nth_error l (S i)); [|lia]. destruct (_ && _); [|lia]. specialize (IH (S i) l af). lia.
Qed.
Lemma span_end_lt n : forall i l af, (i < length l)%nat -> (span_end n i l af < length l)%nat.
Proof.
  induction n as [|n IH]; intros i l af Hi; cbn [span_end]; [lia|].
  destruct (nth_error l i); [|lia]. destruct (nth_error l (S i)) eqn:E; [|lia]. destruct (_ && _); [|lia].
  apply IH. apply nth_error_Some. congruence.
Qed.
Lemma span_end_reach n : forall i l af k, (i <= k)%nat -> (k <= i + n)%nat -> (k < length l)%nat ->
  (forall j x, (i <= j <= k)%nat -> nth_error l j = Some x -> r_family x = af) -> (k <= span_end n i l af)%nat.
Proof.
  induction n as [|n IH]; intros i l af k H1 H2 H3 HF; cbn [span_end]; [lia|].
  destruct (Nat.eq_dec i k) as [->|NE].
  { pose proof (span_end_ge (S n) k l af) as G. cbn [span_end] in G. exact G. }
  destruct (nth_error l i) as [x|] eqn:Ex; [|apply nth_error_None in Ex; lia].
  destruct (nth_error l (S i)) as [y|] eqn:Ey; [|apply nth_error_None in Ey; lia].
  rewrite (HF i x ltac:(lia) Ex), (HF (S i) y ltac:(lia) Ey), N.eqb_refl. cbn [andb].
  apply IH; [lia|lia|lia|]. intros j z Hj. apply HF. lia.
Qed.

(** The position the loop starts from, if the cursor is near the target's family. *)
Definition fam_at (t : rtable) (af : N) (i : nat) : Prop := exists x, nth_error (t_routes t) i = Some x /\ r_family x = af.
Lemma start_at t target i : (i < length (t_routes t))%nat ->
  has (r_flags target) RF_FAMILY_WILD = true \/ fam_at t (r_family target) i \/ (exists k, i = S k /\ fam_at t (r_family target) k) ->
  lookup_start t target (Some i) =
    StAt (if is_bitmask_matching (t_bm t) (r_family target) then span_end (length (t_routes t)) i (t_routes t) (r_family target) else i).
Proof.
  intros Hi H. unfold lookup_start. cbv zeta. destruct (has (r_flags target) RF_FAMILY_WILD) eqn:W.
  - destruct (is_bitmask_matching _ _); reflexivity.
  - assert (E : (match nth_error (t_routes t) i with Some x => (r_family x =? r_family target)%N | None => false end
        || match i with O => false | S k => match nth_error (t_routes t) k with Some x => (r_family x =? r_family target)%N | None => false end end)%bool = true).
    { apply orb_true_iff. destruct H as [H|[(x & Ex & Fx)|(k & -> & x & Ex & Fx)]]; [discriminate|left|right]; rewrite Ex; apply N.eqb_eq; exact Fx. }
    rewrite E. destruct (is_bitmask_matching _ _); reflexivity.
Qed.

(** Starting position for a lookup. *)
Definition tailpos (l : list route) : option nat := match l with [] => None | _ :: _ => Some (length l - 1)%nat end.
Definition cursor_of (t : rtable) (target : route) : option nat :=
  let '(p, c) := seek (t_routes t) target in
  if contiguous (r_flags target) then (if (c =? -1) && (p =? length (t_routes t))%nat then tailpos (t_routes t) else Some p) else tailpos (t_routes t).

Lemma lookup_eq fuel t target ar :
  let tg := as_target target in
  let '(p, c) := seek (t_routes t) tg in
  (exists r, nth_error (t_routes t) p = Some r /\ c = 0 /\ contiguous (r_flags tg) = true /\
     filter_passes ar (r_event r) = true /\ (eff_prio (r_event r) <= t_highest t)%N /\ lookup fuel t target ar = Some (LFound p 0)) \/
  lookup fuel t target ar = match lookup_start t tg (cursor_of t tg) with
    | StNone => Some LNotFound
    | StUB => Some LUB
    | StAt i => match scan fuel t tg ar (contiguous (r_flags tg)) (is_bitmask_matching (t_bm t) (r_family tg)) i false None with
                | None => None
                | Some None => Some LUB
                | Some (Some None) => Some LNotFound
                | Some (Some (Some (j, inx, _))) => Some (LFound j inx)
                end
    end.
Proof.
  cbv zeta. unfold lookup, cursor_of. fold (as_target target). destruct (seek (t_routes t) (as_target target)) as [p c]. fold (tailpos (t_routes t)).
  destruct (contiguous (r_flags (as_target target))) eqn:CT; cbn [andb].
  - destruct (Z.eqb_spec c 0) as [C|C].
    + destruct (nth_error (t_routes t) p) as [r|].
      * destruct (filter_passes ar (r_event r) && (eff_prio (r_event r) <=? t_highest t)%N)%bool eqn:H.
        -- left. exists r. apply andb_true_iff in H. destruct H as [H1 H2]. apply N.leb_le in H2. repeat split; assumption.
        -- right. reflexivity.
      * right. reflexivity.
    + right. reflexivity.
  - right. reflexivity.
Qed.

Lemma cursor_lt t tg i : rt_inv t -> route_ok tg -> cursor_of t tg = Some i -> (i < length (t_routes t))%nat.
Proof.
  intros [So F _] OKT. unfold cursor_of. pose proof (seek_spec _ _ So F OKT) as SP. destruct (seek (t_routes t) tg) as [p c]. destruct SP as (P1 & _ & P3).
  assert (TP : forall i, tailpos (t_routes t) = Some i -> (i < length (t_routes t))%nat).
  { intros j. unfold tailpos. destruct (t_routes t); [discriminate|]. intros H. assert (j = length (r :: l) - 1)%nat by congruence. cbn [length] in *. lia. }
  destruct (contiguous (r_flags tg)); [|apply TP]. destruct ((c =? -1) && (p =? length (t_routes t))%nat)%bool eqn:E; [apply TP|].
  intros H. assert (i = p) by congruence. subst i. destruct (nth_error (t_routes t) p) eqn:EP; [apply nth_error_Some; congruence|].
  destruct P3 as [-> ->]. rewrite Nat.eqb_refl in E. discriminate.
Qed.

(** All routes of the target's family not after the target in key order (all routes of that family if bitmask
    matching is in use) are at or before the starting position. *)
Lemma start_covers t tg k rk : rt_inv t -> route_ok tg -> contiguous (r_flags tg) = true ->
  nth_error (t_routes t) k = Some rk -> r_family rk = r_family tg ->
  (rcmp rk tg <= 0 \/ is_bitmask_matching (t_bm t) (r_family tg) = true) ->
  exists i, lookup_start t tg (cursor_of t tg) = StAt i /\ (k <= i)%nat /\ (i < length (t_routes t))%nat.
Proof.
  intros INV OKT CT Ek Fk HK. destruct (cursor_of t tg) as [i|] eqn:EC.
  2:{ exfalso. unfold cursor_of in EC. destruct INV as [So F _]. destruct (seek (t_routes t) tg) as [p c]. rewrite CT in EC.
      destruct (_ && _)%bool; [|discriminate]. unfold tailpos in EC. destruct (t_routes t); [destruct k; discriminate|discriminate]. }
  pose proof (cursor_lt t tg i INV OKT EC) as Hi. destruct INV as [So F _]. pose proof (sorted_family _ So) as FS.
  unfold cursor_of in EC. pose proof (seek_spec _ _ So F OKT) as SP. destruct (seek (t_routes t) tg) as [p c]. destruct SP as (P1 & P2 & P3). rewrite CT in EC.
  assert (KL : (k < length (t_routes t))%nat) by (apply nth_error_Some; congruence).
  (* position of the cursor relative to p *)
  assert (IP : i = p /\ (exists x, nth_error (t_routes t) p = Some x /\ 0 <= rcmp x tg) \/ (p = length (t_routes t) /\ S i = p)).
  { destruct (nth_error (t_routes t) p) as [x|] eqn:EP.
    - destruct P3 as [-> P3]. replace ((rcmp x tg =? -1) && _)%bool with false in EC by (symmetry; apply andb_false_iff; left; apply Z.eqb_neq; lia).
      left. split; [congruence|]. exists x. split; [reflexivity|exact P3].
    - destruct P3 as [-> ->]. rewrite Nat.eqb_refl in EC. cbn [andb Z.eqb Pos.eqb] in EC. unfold tailpos in EC.
      destruct (t_routes t); [discriminate|]. right. split; [reflexivity|]. assert (i = length (r :: l) - 1)%nat by congruence. cbn [length] in *. lia. }
  assert (BEF : forall j x, (j < p)%nat -> nth_error (t_routes t) j = Some x -> rcmp x tg < 0).
  { intros j x Hj Ex. rewrite Forall_forall in P2. apply P2. rewrite <- (firstn_skipn p (t_routes t)) in Ex.
    rewrite nth_error_app1 in Ex by (rewrite firstn_length; lia). eapply nth_error_In. exact Ex. }
  destruct (Nat.le_gt_cases k i) as [KI|KI].
  - (* at or before the cursor *)
    exists (if is_bitmask_matching (t_bm t) (r_family tg) then span_end (length (t_routes t)) i (t_routes t) (r_family tg) else i).
    split.
    + apply start_at; [exact Hi|]. right. destruct (Nat.eq_dec k i) as [->|NE]; [left; exists rk; split; assumption|].
      destruct i as [|i']; [lia|]. right. exists i'. split; [reflexivity|].
      destruct (nth_error (t_routes t) i') as [y|] eqn:EY; [|apply nth_error_None in EY; lia].
      exists y. split; [exact EY|]. pose proof (FS k i' rk y ltac:(lia) Ek EY). pose proof (rc_family y tg). pose proof (BEF i' y ltac:(lia) EY). lia.
    + destruct (is_bitmask_matching _ _); [|lia].
      pose proof (span_end_ge (length (t_routes t)) i (t_routes t) (r_family tg)). pose proof (span_end_lt (length (t_routes t)) i (t_routes t) (r_family tg) Hi). lia.
  - (* after the cursor: bitmask matching *)
    destruct IP as [[-> (x & Ex & GE)]|[-> IP]]; [|lia].
    assert (RK : 0 < rcmp rk tg).
    { pose proof (sorted_nth _ So p k x rk KI Ex Ek) as LT. destruct (Z.lt_ge_cases 0 (rcmp rk tg)); [assumption|].
      pose proof (rc_lt_le x rk tg LT ltac:(lia)). lia. }
    destruct HK as [HK|HK]; [lia|].
    exists (span_end (length (t_routes t)) p (t_routes t) (r_family tg)).
    assert (FX : forall j y, (p <= j <= k)%nat -> nth_error (t_routes t) j = Some y -> r_family y = r_family tg).
    { intros j y Hj Ey. pose proof (FS j k y rk ltac:(lia) Ey Ek). pose proof (FS p j x y ltac:(lia) Ex Ey).
      pose proof (rc_family tg x). pose proof (rc_anti tg x). lia. }
    rewrite start_at, HK; [|exact Hi|right; left; exists x; split; [exact Ex|apply (FX p x); [lia|exact Ex]]].
    split; [reflexivity|]. split; [|apply span_end_lt; exact Hi].
    apply span_end_reach; [lia|lia|exact KL|exact FX].
Qed.

(** Non-contiguous wildcard-family target: everything is considered. *)
Lemma start_tail t tg k rk : contiguous (r_flags tg) = false -> has (r_flags tg) RF_FAMILY_WILD = true ->
  nth_error (t_routes t) k = Some rk ->
  exists i, lookup_start t tg (cursor_of t tg) = StAt i /\ (k <= i)%nat /\ (i < length (t_routes t))%nat.
Proof.
  intros CT W Ek. assert (KL : (k < length (t_routes t))%nat) by (apply nth_error_Some; congruence).
  assert (EC : cursor_of t tg = Some (length (t_routes t) - 1)%nat).
  { unfold cursor_of. destruct (seek _ _). rewrite CT. unfold tailpos. destruct (t_routes t); [destruct k; discriminate|reflexivity]. }
  rewrite EC. rewrite start_at; [|lia|left; exact W]. eexists. split; [reflexivity|].
  destruct (is_bitmask_matching _ _); [|lia].
  pose proof (span_end_ge (length (t_routes t)) (length (t_routes t) - 1) (t_routes t) (r_family tg)).
  pose proof (span_end_lt (length (t_routes t)) (length (t_routes t) - 1) (t_routes t) (r_family tg) ltac:(lia)). lia.
Qed.

(** The start is inside the table. *)
Lemma start_lt t tg i : rt_inv t -> route_ok tg -> (forall j, t_last_af t = PAt j -> (j < length (t_routes t))%nat) ->
  lookup_start t tg (cursor_of t tg) = StAt i -> (i < length (t_routes t))%nat.
Proof.
  intros INV OKT HL H. unfold lookup_start in H. cbv zeta in H.
  match type of H with match ?h with _ => _ end = _ => destruct h as [j| |] eqn:EH; try discriminate end.
  assert (HJ : (j < length (t_routes t))%nat).
  { destruct (has (r_flags tg) RF_FAMILY_WILD).
    - destruct (cursor_of t tg) as [c|] eqn:EC; [|discriminate]. apply (cursor_lt t tg); [assumption|assumption|]. congruence.
    - match type of EH with (if ?b then _ else _) = _ => destruct b end.
      + destruct (cursor_of t tg) as [c|] eqn:EC; [|discriminate]. apply (cursor_lt t tg); [assumption|assumption|]. congruence.
      + destruct (t_last_af t) as [|q|]; try discriminate. apply HL. congruence. }
  destruct (is_bitmask_matching _ _); [|congruence].
  assert (i = span_end (length (t_routes t)) j (t_routes t) (r_family tg)) by congruence. subst i. apply span_end_lt. exact HJ.
Qed.

(** A candidate at a position the loop covers cannot be missed, nor beaten by something worse. *)
Lemma lookup_covers fuel t target ar k rk inx prio i res :
  let tg := as_target target in
  rt_inv t -> route_ok target ->
  lookup_start t tg (cursor_of t tg) = StAt i -> (k <= i)%nat -> (i < length (t_routes t))%nat ->
  nth_error (t_routes t) k = Some rk -> has (r_flags tg) RF_FAMILY_WILD = true \/ r_family rk = r_family tg ->
  cand t tg ar (k, inx, prio) ->
  lookup fuel t target ar = Some res ->
  res = LUB \/ exists j jinx rj, res = LFound j jinx /\ nth_error (t_routes t) j = Some rj /\ better (j, jinx, eff_prio (r_event rj)) (k, inx, prio).
Proof.
  intros tg INV OKT ES Hk Hi Ek HF HC HR. pose proof (lookup_eq fuel t target ar) as LE. fold tg in LE. cbv zeta in LE.
  pose proof INV as [So F HI].
  destruct (seek (t_routes t) tg) as [p c]. destruct LE as [(r & Er & _ & _ & _ & HP & LE)|LE]; rewrite LE in HR.
  - right. exists p, 0%N, r. split; [congruence|]. split; [exact Er|]. destruct HC as (r2 & Er2 & _ & _ & _ & _ & ->).
    pose proof (HI r2 (nth_error_In _ _ Er2)). unfold better. destruct (N.eq_dec (eff_prio (r_event r)) (eff_prio (r_event r2))); [right|left; lia].
    split; [assumption|]. change (pop 0) with 0%N. lia.
  - rewrite ES in HR. destruct (scan fuel t tg ar _ _ i false None) as [[b|]|] eqn:SC; [| |discriminate]; [|left; congruence].
    right. assert (SV := SC). eapply (scan_visits fuel t tg ar _ _ i false None b inx prio k rk) in SV;
      [|apply sorted_family; exact So|exact HI|exact Hk|exact Hi|exact Ek|exact HF|discriminate|exact HC].
    destruct SV as ([[j jinx] jp] & -> & BT).
    apply scan_sound in SC; [|discriminate]. destruct SC as (rj & Erj & _ & _ & _ & _ & ->).
    exists j, jinx, rj. split; [congruence|]. split; assumption.
Qed.
