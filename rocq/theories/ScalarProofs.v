Require Import ZArith List Bool Lia.
From Verif Require Import Scalar ScalarSpec.
Import ListNotations.
Open Scope Z_scope.

Lemma skipn_skipn {A} : forall a b (l : list A), skipn a (skipn b l) = skipn (a + b) l.
Proof.
  intros a b. revert a. induction b as [|b IH]; intros a l; [rewrite Nat.add_0_r; reflexivity|]. destruct l as [|x l]; [rewrite !skipn_nil; reflexivity|].
  rewrite Nat.add_succ_r. cbn [skipn]. apply IH.
Qed.
Lemma wr_ok : forall l i x, (i < length l)%nat -> wr l i x = Some (firstn i l ++ x :: skipn (S i) l).
Proof.
  induction l as [|y l IH]; intros i x L; cbn [length] in L; [lia|]. destruct i as [|i]; cbn [wr firstn skipn app]; [reflexivity|].
  rewrite IH by lia. reflexivity.
Qed.
Lemma wrs_ok : forall xs l i, (i + length xs <= length l)%nat -> wrs l i xs = Some (firstn i l ++ xs ++ skipn (i + length xs) l).
Proof.
  induction xs as [|x xs IH]; intros l i L; cbn [wrs length] in *.
  - rewrite Nat.add_0_r. cbn [app]. rewrite firstn_skipn. reflexivity.
  - rewrite wr_ok by lia. rewrite IH by (rewrite app_length, firstn_length; cbn [length]; rewrite skipn_length; lia).
    f_equal. replace (i + S (length xs))%nat with (S i + length xs)%nat by lia.
    assert (LI : length (firstn i l) = i) by (rewrite firstn_length; lia).
    rewrite firstn_app, LI. replace (S i - i)%nat with 1%nat by lia. rewrite firstn_all2 by lia. cbn [firstn].
    rewrite skipn_app, LI. replace (S i + length xs - i)%nat with (S (length xs)) by lia. rewrite skipn_all2 by lia.
    change (skipn (S (length xs)) (x :: skipn (S i) l)) with (skipn (length xs) (skipn (S i) l)). cbn [app].
    rewrite skipn_skipn. rewrite <- app_assoc. cbn [app]. rewrite (Nat.add_comm (length xs)). reflexivity.
Qed.
Lemma rds_at : forall xs a b, rds (a ++ xs ++ b) (length a) (length xs) = Some xs.
Proof.
  induction xs as [|x xs IH]; intros a b; cbn [rds length]; [reflexivity|]. unfold rd. rewrite nth_error_app2 by lia. rewrite Nat.sub_diag. cbn [nth_error app].
  specialize (IH (a ++ [x]) b). rewrite app_length in IH. cbn [length] in IH. replace (length a + 1)%nat with (S (length a)) in IH by lia. rewrite <- app_assoc in IH. cbn [app] in IH.
  rewrite IH. reflexivity.
Qed.
Lemma rd_at a x b : rd (a ++ x :: b) (length a) = Some x.
Proof. unfold rd. rewrite nth_error_app2 by lia. rewrite Nat.sub_diag. reflexivity. Qed.

(** ** The length in front of a string *)
Fixpoint venc (fuel : nat) (len : Z) : list Z :=
  match fuel with
  | O => []
  | S fuel => if 128 <=? len then (128 + len mod 128) :: venc fuel (len / 128) else [len]
  end.
Lemma small_bits x : 0 <= x < 128 -> Z.lor 128 x = 128 + x /\ Z.land (128 + x) 128 = 128 /\ Z.land (128 + x) 127 = x /\ Z.land x 127 = x /\ Z.land x 128 = 0.
Proof.
  intros R. assert (A : forallb (fun n => let x := Z.of_nat n in (Z.lor 128 x =? 128 + x) && (Z.land (128 + x) 128 =? 128) && (Z.land (128 + x) 127 =? x) && (Z.land x 127 =? x) && (Z.land x 128 =? 0)) (seq 0 128) = true) by (vm_compute; reflexivity).
  rewrite forallb_forall in A. specialize (A (Z.to_nat x)). rewrite Z2Nat.id in A by lia.
  assert (I : In (Z.to_nat x) (seq 0 128)) by (apply in_seq; lia). specialize (A I). cbv zeta in A. rewrite !andb_true_iff, !Z.eqb_eq in A. tauto.
Qed.
Lemma land127 x : Z.land x 127 = x mod 128.
Proof. exact (Z.land_ones x 7 ltac:(lia)). Qed.
Lemma shr7 x : Z.shiftr x 7 = x / 128.
Proof. rewrite Z.shiftr_div_pow2 by lia. reflexivity. Qed.

Definition fits (fuel : nat) (len : Z) : Prop := 0 <= len < 128 ^ Z.of_nat fuel /\ fuel <> 0%nat.
Lemma fits_next fuel len : fits (S fuel) len -> 128 <= len -> fits fuel (len / 128).
Proof.
  intros [R _] G. rewrite Nat2Z.inj_succ, Z.pow_succ_r in R by lia. split; [split; [apply Z.div_pos; lia|apply Z.div_lt_upper_bound; lia]|].
  intros ->. cbn in R. lia.
Qed.
Lemma fits_pos fuel len : fits fuel len -> 0 <= len.
Proof. intros [R _]. lia. Qed.
Lemma head_venc : forall fuel len, fits fuel len -> head_size fuel len = Some (length (venc fuel len)) /\ venc fuel len <> [].
Proof.
  induction fuel as [|fuel IH]; intros len R; [destruct R as [_ []]; reflexivity|]. cbn [head_size venc]. destruct (Z.leb_spec 128 len); [|split; [reflexivity|discriminate]].
  rewrite shr7. destruct (IH (len / 128)) as [E _].
  { exact (fits_next _ _ R ltac:(assumption)). }
  rewrite E. split; [reflexivity|discriminate].
Qed.
Lemma put_venc : forall fuel len p off, fits fuel len -> (off + length (venc fuel len) <= length p)%nat ->
  exists p', put_head fuel len p off = Some (p', (off + length (venc fuel len))%nat) /\ wrs p off (venc fuel len) = Some p'.
Proof.
  induction fuel as [|fuel IH]; intros len p off R L; [destruct R as [_ []]; reflexivity|]. cbn [put_head venc] in *. destruct (Z.leb_spec 128 len) as [G|G].
  - rewrite shr7, land127. cbn [length wrs] in *. destruct (small_bits (len mod 128) (Z.mod_pos_bound len 128 eq_refl)) as [-> _].
    rewrite wr_ok by lia. destruct (IH (len / 128) (firstn off p ++ (128 + len mod 128) :: skipn (S off) p) (S off)) as (p' & E & W).
    { exact (fits_next _ _ R ltac:(assumption)). }
    { rewrite app_length, firstn_length. cbn [length]. rewrite skipn_length. lia. }
    exists p'. rewrite E, W. split; [|reflexivity]. do 2 f_equal. lia.
  - cbn [length wrs] in *. destruct (small_bits len ltac:(pose proof (fits_pos _ _ R); lia)) as (_ & _ & _ & -> & _). rewrite wr_ok by lia. eexists. split; [|reflexivity]. do 2 f_equal. lia.
Qed.
Lemma skip_venc : forall fuel len a b g, fits fuel len -> (length (venc fuel len) <= g)%nat ->
  skip_head g (a ++ venc fuel len ++ b) (length a) = Some (length a + length (venc fuel len))%nat.
Proof.
  induction fuel as [|fuel IH]; intros len a b g R L; [destruct R as [_ []]; reflexivity|]. cbn [venc] in *. destruct (Z.leb_spec 128 len) as [G|G].
  - cbn [length] in *. destruct g as [|g]; [lia|]. cbn [skip_head app]. rewrite rd_at.
    destruct (small_bits (len mod 128) (Z.mod_pos_bound len 128 eq_refl)) as (_ & -> & _). cbn [Z.eqb].
    specialize (IH (len / 128) (a ++ [128 + len mod 128]) b g). rewrite app_length in IH. cbn [length] in IH.
    rewrite <- app_assoc in IH. cbn [app] in IH. replace (S (length a)) with (length a + 1)%nat by lia. rewrite IH; [f_equal; lia| |lia].
    exact (fits_next _ _ R ltac:(assumption)).
  - cbn [length] in *. destruct g as [|g]; [lia|]. cbn [skip_head app]. rewrite rd_at. destruct (small_bits len ltac:(pose proof (fits_pos _ _ R); lia)) as (_ & _ & _ & _ & ->). cbn [Z.eqb]. f_equal. lia.
Qed.
Lemma lor_add acc x k : 0 <= k -> 0 <= acc < 2 ^ k -> Z.lor acc (Z.shiftl x k) = acc + x * 2 ^ k.
Proof.
  intros K R. assert (D : Z.land acc (Z.shiftl x k) = 0).
  { apply Z.bits_inj'. intros n N. rewrite Z.land_spec, Z.bits_0. destruct (Z.lt_ge_cases n k) as [L|L].
    - rewrite Z.shiftl_spec_low by lia. apply andb_false_r.
    - replace (Z.testbit acc n) with false; [reflexivity|]. symmetry.
      rewrite <- (Z.mod_small acc (2 ^ k)) by lia. apply Z.mod_pow2_bits_high. lia. }
  rewrite <- Z.lxor_lor by exact D. rewrite <- Z.add_nocarry_lxor by exact D. rewrite Z.shiftl_mul_pow2 by lia. reflexivity.
Qed.
Lemma get_venc : forall fuel len a b g acc sh, fits fuel len -> (length (venc fuel len) <= g)%nat ->
  0 <= sh -> 0 <= acc < 2 ^ sh -> len * 2 ^ sh < 2 ^ 64 -> 1 <= len \/ sh = 0 ->
  get_head g (a ++ venc fuel len ++ b) (length a) acc sh = Some (acc + len * 2 ^ sh).
Proof.
  induction fuel as [|fuel IH]; intros len a b g acc sh R L S0 A U P; [destruct R as [_ []]; reflexivity|].
  pose proof (fits_pos _ _ R) as NN. assert (SH : sh < 64). { destruct P as [P| ->]; [|lia]. apply (Z.pow_lt_mono_r_iff 2); [lia|lia|]. nia. }
  cbn [venc] in *. destruct (Z.leb_spec 128 len) as [G|G].
  - cbn [length] in *. destruct g as [|g]; [lia|]. cbn [get_head app]. destruct (Z.leb_spec 64 sh); [lia|]. rewrite rd_at.
    pose proof (Z.mod_pos_bound len 128 ltac:(lia)) as MB. pose proof (Z.div_mod len 128 ltac:(lia)) as DM.
    destruct (small_bits (len mod 128) MB) as (_ & -> & -> & _). cbn [Z.eqb].
    assert (PS : 0 < 2 ^ sh) by (apply Z.pow_pos_nonneg; lia).
    rewrite (Z.mod_small (Z.shiftl _ sh)) by (rewrite Z.shiftl_mul_pow2 by lia; nia). rewrite lor_add by lia.
    assert (P7 : 2 ^ (sh + 7) = 128 * 2 ^ sh) by (rewrite Z.pow_add_r by lia; change (2 ^ 7) with 128; lia).
    specialize (IH (len / 128) (a ++ [128 + len mod 128]) b g (acc + len mod 128 * 2 ^ sh) (sh + 7)). rewrite app_length in IH. cbn [length] in IH.
    rewrite <- app_assoc in IH. cbn [app] in IH. replace (S (length a)) with (length a + 1)%nat by lia. rewrite P7 in IH.
    assert (Q1 : 1 <= len / 128) by (apply Z.div_le_lower_bound; lia).
    rewrite IH; [f_equal; nia| |lia|lia|nia|nia|left; lia].
    exact (fits_next _ _ R ltac:(assumption)).
  - cbn [length] in *. destruct g as [|g]; [lia|]. cbn [get_head app]. destruct (Z.leb_spec 64 sh); [lia|]. rewrite rd_at.
    destruct (small_bits len ltac:(pose proof (fits_pos _ _ R); lia)) as (_ & _ & _ & _ & ->). cbn [Z.eqb].
    assert (PS : 0 < 2 ^ sh) by (apply Z.pow_pos_nonneg; lia).
    rewrite (Z.mod_small (Z.shiftl _ sh)) by (rewrite Z.shiftl_mul_pow2 by lia; nia). rewrite lor_add by lia. reflexivity.
Qed.

(** ** Strings *)
Definition same_payload (v w : jv) : Prop := payload v = payload w /\ (forall t, type_is v t = type_is w t).
Lemma holds_of_payload v s rest : type_is v TString = true -> Z.of_nat (length s) < 2 ^ 63 ->
  payload v = venc 10 (Z.of_nat (length s)) ++ (s ++ [0]) ++ rest -> holds_string v s.
Proof.
  intros T L P. assert (R : fits 10 (Z.of_nat (length s))) by (split; [split; [lia|]; eapply Z.lt_trans; [exact L|]; vm_compute; reflexivity|discriminate]).
  unfold holds_string. split; [exact T|]. split.
  - unfold string_length. rewrite T. cbn [negb]. rewrite P. assert (G := get_venc 10 (Z.of_nat (length s)) [] ((s ++ [0]) ++ rest)). cbn [app length] in G.
    rewrite G; [f_equal; lia|exact R|rewrite !app_length; lia|lia|cbn; lia| |right; reflexivity].
    change (2 ^ 0) with 1. lia.
  - exists (length (venc 10 (Z.of_nat (length s)))). split.
    + unfold get_string. rewrite T. cbn [negb]. rewrite P. assert (G := skip_venc 10 (Z.of_nat (length s)) [] ((s ++ [0]) ++ rest)). cbn [app length] in G.
      rewrite G; [reflexivity|exact R|rewrite !app_length; lia].
    + rewrite P. replace (length s + 1)%nat with (length (s ++ [0])) by (rewrite app_length; reflexivity). apply rds_at.
Qed.
Lemma skipn_S {A} (l : list A) n : (n < length l)%nat -> skipn n l = firstn 1 (skipn n l) ++ skipn (S n) l.
Proof.
  revert n. induction l as [|x l IH]; intros n L; cbn [length] in L; [lia|]. destruct n as [|n]; [reflexivity|]. cbn [skipn]. apply IH. lia.
Qed.
(** What is written into a payload with enough room. *)
Lemma fill s p : Z.of_nat (length s) < 2 ^ 63 -> (length (venc 10 (Z.of_nat (length s))) + length s + 1 <= length p)%nat ->
  exists p1 o, put_head 10 (Z.of_nat (length s)) p 0 = Some (p1, o) /\ exists p2, wrs p1 o s = Some p2 /\
  wr p2 (o + length s) 0 = Some (venc 10 (Z.of_nat (length s)) ++ (s ++ [0]) ++ skipn (length (venc 10 (Z.of_nat (length s))) + length s + 1) p).
Proof.
  intros L R0. set (e := venc 10 (Z.of_nat (length s))) in *.
  assert (R : fits 10 (Z.of_nat (length s))) by (split; [split; [lia|]; eapply Z.lt_trans; [exact L|]; vm_compute; reflexivity|discriminate]).
  destruct (put_venc 10 (Z.of_nat (length s)) p 0 R) as (p1 & E & W); [fold e; lia|]. fold e in E, W. rewrite wrs_ok in W by lia. cbn [firstn app plus] in W. injection W as <-.
  eexists; eexists; split; [exact E|]. cbn [plus]. rewrite wrs_ok by (rewrite app_length, skipn_length; lia). eexists; split; [reflexivity|].
  rewrite firstn_app, Nat.sub_diag. cbn [firstn]. rewrite app_nil_r, firstn_all.
  rewrite skipn_app, skipn_all2 by lia. cbn [app]. replace (length e + length s - length e)%nat with (length s) by lia. rewrite skipn_skipn.
  rewrite wr_ok by (rewrite !app_length, skipn_length; lia). f_equal.
  rewrite app_assoc. rewrite firstn_app. rewrite app_length, Nat.sub_diag. cbn [firstn]. rewrite app_nil_r, firstn_all2 by (rewrite app_length; lia).
  rewrite skipn_app, skipn_all2 by (rewrite app_length; lia). rewrite app_length. replace (S (length e + length s) - (length e + length s))%nat with 1%nat by lia. rewrite skipn_skipn.
  cbn [app]. rewrite <- !app_assoc. cbn [app]. replace (1 + (length s + length e))%nat with (length e + length s + 1)%nat by lia. reflexivity.
Qed.

Lemma string_stored heap v s : variable v -> allocator heap -> Z.of_nat (length s) < 2 ^ 63 ->
  exists n v' ok, init_string heap v s = Some (v', ok) /\ variable v' /\ (length s + 1 < n <= length s + 11)%nat /\
    if ok then exists rest, payload v' = venc 10 (Z.of_nat (length s)) ++ (s ++ [0]) ++ rest /\
                 (if Nat.leb n 15 then v_tag v' = code TString else v_tag v' = Z.lor (code TString) IS_MALLOCED /\ length (v_block v') = n /\ heap n <> None)
    else v_tag v' = code TNull /\ heap n = None /\ (15 < n)%nat.
Proof.
  intros V A L. set (e := venc 10 (Z.of_nat (length s))).
  assert (R : fits 10 (Z.of_nat (length s))) by (split; [split; [lia|]; eapply Z.lt_trans; [exact L|]; vm_compute; reflexivity|discriminate]).
  destruct (head_venc _ _ R) as [HS NE]. fold e in HS, NE. exists (length e + length s + 1)%nat.
  assert (LE : (1 <= length e <= 10)%nat).
  { split; [destruct e; [congruence|cbn; lia]|]. unfold e. clear. generalize (Z.of_nat (length s)). generalize 10%nat. induction n; intros z; cbn [venc]; [cbn; lia|]. destruct (128 <=? z); cbn [length]; [specialize (IHn (z / 128)); lia|lia]. }
  unfold init_string. rewrite HS. unfold init. destruct (Nat.leb_spec (length e + length s + 1 + 1) 16) as [I|I].
  - cbn [negb]. destruct (fill s (v_in v)) as (p1 & o & E & p2 & W & Z0); [exact L|fold e; unfold variable in V; lia|].
    assert (M : forall a b, malloced (mkV (code TString) a b) = false) by reflexivity.
    unfold payload. rewrite M. cbn [v_in]. rewrite E, W, Z0. unfold with_payload. rewrite M. cbn [v_tag v_in v_block].
    eexists; exists true; split; [reflexivity|]. split; [|split; [lia|]].
    + unfold variable in *. cbn [v_in]. rewrite !app_length, skipn_length. cbn [length]. fold e. lia.
    + rewrite M. cbn [v_in v_tag]. eexists; split; [reflexivity|]. destruct (Nat.leb_spec (length e + length s + 1) 15); [reflexivity|lia].
  - destruct (heap (length e + length s + 1)%nat) as [junk|] eqn:H.
    + cbn [negb]. pose proof (A _ _ H) as LJ. destruct (fill s junk) as (p1 & o & E & p2 & W & Z0); [exact L|fold e; lia|].
      assert (M : forall a b, malloced (mkV (Z.lor (code TString) IS_MALLOCED) a b) = true) by reflexivity.
      unfold payload. rewrite M. cbn [v_block]. rewrite E, W, Z0. unfold with_payload. rewrite M. cbn [v_tag v_in v_block].
      eexists; exists true; split; [reflexivity|]. split; [exact V|]. split; [lia|].
      rewrite M. cbn [v_in v_tag v_block]. eexists; split; [reflexivity|]. destruct (Nat.leb_spec (length e + length s + 1) 15); [lia|].
      split; [reflexivity|]. split; [|congruence]. rewrite !app_length, skipn_length. cbn [length]. fold e. lia.
    + cbn [negb]. eexists; exists false; split; [reflexivity|]. split; [exact V|]. split; [lia|]. split; [reflexivity|]. split; [reflexivity|lia].
Qed.

(** ** Integers *)
Lemma encode_length n z : length (encode n z) = n.
Proof. revert z. induction n; intros z; cbn [encode length]; [reflexivity|]. rewrite IHn. reflexivity. Qed.
Lemma decode_encode n : forall z, decode (encode n z) = z mod 256 ^ Z.of_nat n.
Proof.
  induction n as [|n IH]; intros z; cbn [encode decode]; [cbn; rewrite Z.mod_1_r; reflexivity|].
  rewrite IH, Nat2Z.inj_succ, Z.pow_succ_r by lia. rewrite Z.rem_mul_r by (try lia; apply Z.pow_pos_nonneg; lia). lia.
Qed.
Lemma cast_range t z : is_int t = true -> in_range t (cast t z).
Proof.
  intros I. destruct t; try discriminate; unfold cast, in_range; cbn [width signed andb];
    match goal with |- context[z mod ?m] => pose proof (Z.mod_pos_bound z m eq_refl) end;
    try destruct (Z.leb_spec (2 ^ (32 - 1)) (z mod 2 ^ 32)); try destruct (Z.leb_spec (2 ^ (64 - 1)) (z mod 2 ^ 64)); cbn [Z.sub] in *; lia.
Qed.
Lemma cast_mod t z : is_int t = true -> exists k, cast t z = z + k * 2 ^ bits t.
Proof.
  intros I. unfold cast. replace (bits t) with (width t) by (destruct t; reflexivity).
  pose proof (Z.div_mod z (2 ^ width t)) as D. destruct (signed t && _).
  - exists (- (z / 2 ^ width t) - 1). assert (2 ^ width t <> 0) by (destruct t; discriminate). specialize (D H). lia.
  - exists (- (z / 2 ^ width t)). assert (2 ^ width t <> 0) by (destruct t; discriminate). specialize (D H). lia.
Qed.
Lemma range_unique t a b k : in_range t a -> in_range t b -> a = b + k * 2 ^ bits t -> a = b.
Proof. destruct t; cbn [in_range bits]; try contradiction; intros A B E; assert (k = 0) by lia; subst k; lia. Qed.
Lemma range_int t z : in_range t z -> is_int t = true.
Proof. destruct t; cbn; tauto. Qed.
Lemma cast_id t z : in_range t z -> cast t z = z.
Proof.
  intros R. pose proof (range_int _ _ R) as I. destruct (cast_mod t z I) as [k E]. exact (range_unique t _ _ k (cast_range t z I) R E).
Qed.
Lemma cast_stored t z : in_range t z -> cast t (decode (encode (bytes_of t) z)) = z.
Proof.
  intros R. pose proof (range_int _ _ R) as I. rewrite decode_encode.
  destruct (cast_mod t (z mod 256 ^ Z.of_nat (bytes_of t)) I) as [k E]. pose proof (Z.div_mod z (2 ^ bits t)) as D.
  replace (256 ^ Z.of_nat (bytes_of t)) with (2 ^ bits t) in * by (destruct t; try discriminate I; reflexivity).
  assert (NZ : 2 ^ bits t <> 0) by (destruct t; discriminate). specialize (D NZ).
  refine (range_unique t _ _ (k - z / 2 ^ bits t) (cast_range t _ I) R _). rewrite E. lia.
Qed.

Lemma int_stored heap v t z : variable v -> in_range t z ->
  exists v', init_int heap v t z = Some (v', true) /\ variable v' /\ v_tag v' = code t /\ rds (payload v') 0 (bytes_of t) = Some (encode (bytes_of t) z) /\ malloced v' = false.
Proof.
  intros V R. pose proof (range_int _ _ R) as I. unfold init_int, init.
  assert (B : (bytes_of t <= 8)%nat) by (destruct t; cbn; lia). destruct (Nat.leb_spec (bytes_of t + 1) 16); [|lia].
  assert (M : forall a b, malloced (mkV (code t) a b) = false) by (intros; destruct t; try discriminate I; reflexivity).
  unfold payload. rewrite M. cbn [v_in]. rewrite wrs_ok by (rewrite encode_length; unfold variable in V; lia). cbn [firstn app plus].
  unfold with_payload. rewrite M. cbn [v_tag v_in v_block]. eexists; split; [reflexivity|]. rewrite M. cbn [v_tag v_in v_block]. split; [|split; [reflexivity|split; [|reflexivity]]].
  - unfold variable in *. cbn [v_in]. rewrite app_length, skipn_length, encode_length. lia.
  - rewrite <- (encode_length (bytes_of t) z) at 3. change O with (@length Z []). exact (rds_at (encode (bytes_of t) z) [] _).
Qed.
Lemma tag_type v t : v_tag v = code t -> has_type v t.
Proof.
  intros E u. unfold type_is. rewrite E. rewrite Z.eqb_eq. split; [|intros ->; destruct t; reflexivity].
  destruct t, u; cbn; intros H; try discriminate H; reflexivity.
Qed.
Lemma get_stored v t u z : v_tag v = code t -> in_range t z -> rds (payload v) 0 (bytes_of t) = Some (encode (bytes_of t) z) -> get_int u v = Some (cast u z).
Proof.
  intros T R P. pose proof (range_int _ _ R) as I. unfold get_int, type_is. rewrite T. unfold read_as.
  destruct t; try discriminate I; cbn [code Z.land TYPE_MASK Pos.land Z.eqb Pos.eqb]; rewrite P; rewrite cast_stored by exact R; reflexivity.
Qed.
Lemma por_some a b : por (Some a) (Some b) = Some (a || b).
Proof. destruct a; reflexivity. Qed.
Lemma check_some t u z p : check t u (Some z) p = Some ((code t =? code u) && p z).
Proof. unfold check. destruct (code t =? code u); reflexivity. Qed.
Lemma compatible_stored v t u z : v_tag v = code t -> in_range t z -> is_int u = true -> rds (payload v) 0 (bytes_of t) = Some (encode (bytes_of t) z) ->
  exists b, compatible v u = Some b /\ (b = true <-> in_range u z).
Proof.
  intros T R J P. pose proof (range_int _ _ R) as I. pose proof (fun w => get_stored v t w z T R P) as G. pose proof (cast_id _ _ R) as CI.
  unfold compatible, type_is. rewrite T, !G, !check_some, !por_some. clear G P T.
  assert (PW : 2 ^ 31 = 2147483648 /\ 2 ^ 32 = 4294967296 /\ 2 ^ 63 = 9223372036854775808 /\ 2 ^ 64 = 18446744073709551616) by (repeat split; reflexivity).
  destruct PW as (P31 & P32 & P63 & P64).
  destruct t; try discriminate I; destruct u; try discriminate J; cbn [code among existsb];
    repeat match goal with |- context[Z.land ?a TYPE_MASK =? ?b] => let r := eval vm_compute in (Z.land a TYPE_MASK =? b) in change (Z.land a TYPE_MASK =? b) with r end;
    cbn [Z.eqb Pos.eqb andb orb]; rewrite ?CI; (eexists; split; [reflexivity|]); unfold in_range in *;
    rewrite ?P31, ?P32, ?P63, ?P64 in *; rewrite ?orb_true_iff, ?andb_true_iff, ?orb_false_r, ?Z.leb_le; try lia.
Qed.
