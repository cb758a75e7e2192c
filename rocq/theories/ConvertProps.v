(** * C56: numbers and durations in configurations are stored exactly or refused *)
Require Import ZArith List Bool Lia.
From Verif Require Import Base Json JsonSpec TimeConv Convert ConvertSpec ConvertProofs.
Import ListNotations.
Open Scope Z_scope.

Definition refused (r : cres) : Prop := r = CInvalid \/ r = CTooBig.
(** Stored exactly or refused: a number in the range of the field is stored with its value, any other is refused. *)
Definition exact (f : jtype -> list Z -> cres) (lo hi : Z) : Prop :=
  forall text, number text ->
    (forall v, json_integer text v -> lo <= v <= hi -> f JSON_NUMBER text = CSet v) /\
    ((forall v, json_integer text v -> ~ lo <= v <= hi) -> refused (f JSON_NUMBER text)).

Lemma digits_lower : forall ds acc, 0 <= acc -> Forall (fun d => 0 <= d < 10) ds -> acc * 10 ^ Z.of_nat (length ds) <= digits_value 10 acc ds.
Proof.
  induction ds as [|d ds IH]; intros acc A F; cbn [digits_value length].
  - change (Z.of_nat 0) with 0. lia.
  - inversion F as [|? ? F1 F2]; subst. specialize (IH (10 * acc + d) ltac:(lia) F2). rewrite Nat2Z.inj_succ, Z.pow_succ_r by lia.
    assert (0 < 10 ^ Z.of_nat (length ds)) by (apply Z.pow_pos_nonneg; lia). nia.
Qed.
Lemma int_length : forall i n, int_part i -> (0 < n)%nat -> decimal i < 10 ^ Z.of_nat n -> (length i <= n)%nat.
Proof.
  intros i n HI NP HL. destruct HI as [|c l R F]; [cbn; lia|].
  destruct (Nat.le_gt_cases (length (c :: l)) n) as [L|L]; [exact L|exfalso].
  unfold decimal in HL. cbn [map digits_value] in HL.
  pose proof (digits_lower (map (fun c => c - 48) l) (10 * 0 + (c - 48)) ltac:(lia)) as D.
  assert (FF : Forall (fun d => 0 <= d < 10) (map (fun c => c - 48) l)).
  { clear -F. induction F as [|x l H _ IH]; cbn [map]; constructor; [unfold digit in H; lia|exact IH]. }
  specialize (D FF). rewrite map_length in D. cbn [length] in L.
  pose proof (Z.pow_le_mono_r 10 (Z.of_nat n) (Z.of_nat (length l)) ltac:(lia) ltac:(lia)).
  assert (0 < 10 ^ Z.of_nat (length l)) by (apply Z.pow_pos_nonneg; lia). nia.
Qed.
Lemma decimal_nonneg : forall i, int_part i -> 0 <= decimal i.
Proof. intros i H. apply int_magnitude in H. apply magnitude_bound in H. lia. Qed.
Lemma json_length : forall text v n, json_integer text v -> (0 < n)%nat -> Z.abs v < 10 ^ Z.of_nat n ->
  (length text <= S n)%nat /\ (0 < v -> (length text <= n)%nat).
Proof.
  intros text v n (i & HI & E) NP HL. pose proof (decimal_nonneg i HI) as D.
  pose proof (int_length i n HI NP) as L.
  destruct E as [[-> ->]|[-> ->]]; rewrite ?Z.abs_opp, Z.abs_eq in HL by lia; specialize (L HL); cbn [length]; split; lia.
Qed.
Lemma number_nonempty : forall text, number text -> text <> [].
Proof.
  intros text (m & i & f & e & -> & HM & HI & _) K. apply app_eq_nil in K. destruct K as [_ K]. apply app_eq_nil in K. destruct K as [-> _].
  inversion HI.
Qed.
Lemma json_unique : forall text v v', json_integer text v -> json_integer text v' -> v = v'.
Proof.
  intros text v v' (i & HI & E) (i' & HI' & E').
  destruct (int_head i HI) as (c & r & -> & RC). destruct (int_head i' HI') as (c' & r' & -> & RC').
  destruct E as [[-> ->]|[-> ->]]; destruct E' as [[E1 ->]|[E1 ->]]; injection E1 as E2 E3; try lia; subst; reflexivity.
Qed.
Lemma not_set_refused : forall size fit max t data, (forall c, convert size fit max t data <> CSet c) -> refused (convert size fit max t data).
Proof.
  intros. unfold refused. pose proof (convert_no_ub size fit max t data). destruct (convert size fit max t data) eqn:E; auto; [|congruence].
  exfalso. apply (H v). reflexivity.
Qed.

(** ** Unsigned fields of up to 32 bits *)
Lemma some_inj : forall (a b : Z), Some a = Some b -> a = b.
Proof. congruence. Qed.
Lemma fit_u : forall v, 0 <= v < 2 ^ 64 -> fit_unsigned v = Some v.
Proof.
  intros v H. unfold fit_unsigned. destruct (Z.leb_spec (2 ^ 64) (Z.abs v)) as [L|L]; [rewrite Z.abs_eq in L by lia; lia|].
  rewrite Z.mod_small by exact H. reflexivity.
Qed.
Lemma fit_u_neg : forall v, - 2 ^ 64 < v < 0 -> fit_unsigned v = Some (2 ^ 64 + v).
Proof.
  intros v H. unfold fit_unsigned. destruct (Z.leb_spec (2 ^ 64) (Z.abs v)) as [L|L]; [rewrite Z.abs_neq in L by lia; lia|].
  f_equal. rewrite <- (Z.mod_add v 1 (2 ^ 64)) by lia. rewrite Z.mod_small by lia. lia.
Qed.
Lemma in_size : forall text v n size, json_integer text v -> (0 < n)%nat -> Z.of_nat n < size -> 2 < size -> 0 <= v < 10 ^ Z.of_nat n -> Z.of_nat (length text) < size.
Proof.
  intros text v n size HJ NP NS S2 R. destruct (Z.eq_dec v 0) as [->|NZ].
  - pose proof (json_length text 0 1 HJ ltac:(lia) ltac:(cbn; lia)) as [L _]. lia.
  - pose proof (json_length text v n HJ NP ltac:(lia)) as [_ L]. specialize (L ltac:(lia)). lia.
Qed.
Lemma exact_unsigned : forall size n max, 2 < size <= 16 -> (0 < n)%nat -> Z.of_nat n < size -> 0 <= max < 2 ^ 32 -> max < 10 ^ Z.of_nat n ->
  exact (convert size fit_unsigned max) 0 max.
Proof.
  intros size n max SZ NP NS M1 M2 text HT. split.
  - intros v HJ R. apply convert_spec; [lia|reflexivity|lia|]. split; [left; reflexivity|].
    split; [apply (in_size text v n size HJ NP NS); lia|]. split; [lia|]. right. exists v. split; [apply json_integer_numeral; exact HJ|apply fit_u; lia].
  - intros HN. apply not_set_refused. intros c HC. apply convert_spec in HC; [|lia|reflexivity|lia].
    destruct HC as (_ & L & CM & [[E _]|(v & HV & HF)]); [exact (number_nonempty text HT E)|].
    pose proof (number_numeral text v HT HV) as HJ. apply (HN v HJ).
    pose proof (numeral_bound text v HV) as B. pose proof (Z.pow_le_mono_r 16 (Z.of_nat (length text)) 15 ltac:(lia) ltac:(lia)) as B2.
    assert (P : 16 ^ 15 = 1152921504606846976) by reflexivity. rewrite P in B2.
    destruct (Z_lt_le_dec v 0) as [NV|NV].
    + rewrite fit_u_neg in HF by lia. apply some_inj in HF. lia.
    + rewrite fit_u in HF by lia. apply some_inj in HF. lia.
Qed.
Lemma exact_signed : exact convert_sint64 i64_min i64_max.
Proof.
  assert (MN : i64_min = - 9223372036854775808) by reflexivity. assert (MX : i64_max = 9223372036854775807) by reflexivity.
  intros text HT. unfold convert_sint64. split.
  - intros v HJ R. apply convert_spec; [lia|reflexivity|lia|]. split; [left; reflexivity|].
    assert (P : 10 ^ Z.of_nat 19 = 10000000000000000000) by reflexivity.
    pose proof (json_length text v 19 HJ ltac:(lia) ltac:(lia)) as [L _]. split; [lia|]. split; [lia|].
    right. exists v. split; [apply json_integer_numeral; exact HJ|]. unfold fit_signed, in_i64.
    destruct (Z.leb_spec i64_min v); [|lia]. destruct (Z.leb_spec v i64_max); [|lia]. reflexivity.
  - intros HN. apply not_set_refused. intros c HC. apply convert_spec in HC; [|lia|reflexivity|lia].
    destruct HC as (_ & L & CM & [[E _]|(v & HV & HF)]); [exact (number_nonempty text HT E)|].
    apply (HN v (number_numeral text v HT HV)). unfold fit_signed, in_i64 in HF.
    destruct (Z.leb_spec i64_min v); [|discriminate HF]. destruct (Z.leb_spec v i64_max); [lia|discriminate HF].
Qed.

(** An integer of a configuration (priorities, counts, ports, families, limits, user values) is stored exactly, or refused. *)
Theorem C56_integers_exact_partial :
  exact convert_uint8 0 (2 ^ 8 - 1) /\ exact convert_uint16 0 (2 ^ 16 - 1) /\ exact convert_uint32 0 (2 ^ 32 - 1) /\
  exact convert_sint64 (- 2 ^ 63) (2 ^ 63 - 1).
Proof.
  split; [apply (exact_unsigned 4 3); [lia|lia|lia|lia|reflexivity]|].
  split; [apply (exact_unsigned 8 5); [lia|lia|lia|lia|reflexivity]|].
  split; [apply (exact_unsigned 16 10); [lia|lia|lia|lia|reflexivity]|exact exact_signed].
Qed.
(** Unsigned user values of 64 bits: exact on natural numbers ... *)
Theorem C56_uint64_naturals_partial : forall text, number text ->
  (forall v, json_integer text v -> 0 <= v < 2 ^ 64 -> convert_uint64 JSON_NUMBER text = CSet v) /\
  ((forall v, json_integer text v -> 2 ^ 64 <= Z.abs v) -> refused (convert_uint64 JSON_NUMBER text)).
Proof.
  intros text HT. unfold convert_uint64. split.
  - intros v HJ R. apply convert_spec; [lia|reflexivity|lia|]. split; [left; reflexivity|].
    assert (P : 10 ^ Z.of_nat 20 = 100000000000000000000) by reflexivity.
    split; [apply (in_size text v 20 24 HJ); lia|]. split; [lia|]. right. exists v. split; [apply json_integer_numeral; exact HJ|apply fit_u; exact R].
  - intros HN. apply not_set_refused. intros c HC. apply convert_spec in HC; [|lia|reflexivity|lia].
    destruct HC as (_ & L & CM & [[E _]|(v & HV & HF)]); [exact (number_nonempty text HT E)|].
    pose proof (HN v (number_numeral text v HT HV)) as B. unfold fit_unsigned in HF. destruct (Z.leb_spec (2 ^ 64) (Z.abs v)); [discriminate HF|lia].
Qed.
(** ... but every negative one wraps around: -1 is stored as 18446744073709551615. *)
Theorem C56_uint64_refuted : ~ exact convert_uint64 0 (2 ^ 64 - 1) /\
  forall text v, json_integer text v -> - 2 ^ 64 < v < 0 -> convert_uint64 JSON_NUMBER text = CSet (2 ^ 64 + v).
Proof.
  assert (W : forall text v, json_integer text v -> - 2 ^ 64 < v < 0 -> convert_uint64 JSON_NUMBER text = CSet (2 ^ 64 + v)).
  { intros text v HJ R. unfold convert_uint64. apply convert_spec; [lia|reflexivity|lia|]. split; [left; reflexivity|].
    assert (P : 10 ^ Z.of_nat 20 = 100000000000000000000) by reflexivity.
    pose proof (json_length text v 20 HJ ltac:(lia) ltac:(lia)) as [L _]. split; [lia|]. split; [lia|].
    right. exists v. split; [apply json_integer_numeral; exact HJ|apply fit_u_neg; exact R]. }
  split; [|exact W]. intros H.
  assert (I1 : int_part [49]) by (apply (int_nonzero 49 []); [lia|constructor]).
  assert (HJ : json_integer [45; 49] (- 1)) by (exists [49]; split; [exact I1|right; split; reflexivity]).
  assert (HT : number [45; 49]).
  { exists [45], [49], [], []. split; [reflexivity|]. split; [constructor|]. split; [exact I1|]. split; constructor. }
  destruct (H _ HT) as [_ B]. specialize (B (fun v K => ltac:(rewrite (json_unique _ _ _ K HJ); lia))).
  rewrite (W _ _ HJ ltac:(lia)) in B. destruct B as [B|B]; discriminate B.
Qed.

(** Strings: exactly the C numerals (decimal, 0octal, 0xhex, sign, leading blanks) are taken, with their values. *)
Definition string_field (f : jtype -> list Z -> cres) (size max : Z) (fit : Z -> Z -> Prop) : Prop :=
  forall text c, text <> [] ->
    (f JSON_STRING text = CSet c <-> Z.of_nat (length text) < size /\ c <= max /\ exists v, c_numeral text v /\ fit v c).
Lemma string_spec : forall size fit max R, 0 < size -> fit 0 = Some 0 -> 0 <= max -> (forall v c, fit v = Some c <-> R v c) ->
  string_field (convert size fit max) size max R.
Proof.
  intros size fit max R S0 F0 M HR text c NE. rewrite convert_spec by assumption. split.
  - intros (_ & L & CM & [[E _]|(v & HV & HF)]); [contradiction|]. split; [exact L|]. split; [exact CM|]. exists v. split; [exact HV|apply HR; exact HF].
  - intros (L & CM & v & HV & HF). split; [right; reflexivity|]. split; [exact L|]. split; [exact CM|]. right. exists v. split; [exact HV|apply HR; exact HF].
Qed.
Definition wrapped (v c : Z) : Prop := Z.abs v < 2 ^ 64 /\ c = v mod 2 ^ 64.
Definition fits (v c : Z) : Prop := - 2 ^ 63 <= v <= 2 ^ 63 - 1 /\ c = v.
Theorem C56_strings_partial :
  string_field convert_uint8 4 (2 ^ 8 - 1) wrapped /\ string_field convert_uint16 8 (2 ^ 16 - 1) wrapped /\
  string_field convert_uint32 16 (2 ^ 32 - 1) wrapped /\ string_field convert_uint64 24 (2 ^ 64 - 1) wrapped /\
  string_field convert_sint64 24 (2 ^ 63 - 1) fits.
Proof.
  assert (W : forall v c, fit_unsigned v = Some c <-> wrapped v c).
  { intros v c. unfold fit_unsigned, wrapped. destruct (Z.leb_spec (2 ^ 64) (Z.abs v)); [split; [discriminate|lia]|].
    split; [intros E; injection E as <-; auto|intros [_ ->]; reflexivity]. }
  assert (F : forall v c, fit_signed v = Some c <-> fits v c).
  { assert (MN : i64_min = - 2 ^ 63) by reflexivity. assert (MX : i64_max = 2 ^ 63 - 1) by reflexivity.
    intros v c. unfold fit_signed, fits, in_i64. rewrite MN, MX. destruct (Z.leb_spec (- 2 ^ 63) v); [|split; [discriminate|lia]].
    destruct (Z.leb_spec v (2 ^ 63 - 1)); cbn [andb]; [split; [intros E; injection E as <-; auto|intros [_ ->]; reflexivity]|split; [discriminate|lia]]. }
  split; [apply string_spec; [lia|reflexivity|lia|exact W]|].
  split; [apply string_spec; [lia|reflexivity|lia|exact W]|].
  split; [apply string_spec; [lia|reflexivity|lia|exact W]|].
  split; [apply string_spec; [lia|reflexivity|lia|exact W]|].
  apply string_spec; [lia|reflexivity| |exact F]. assert (MX : i64_max = 2 ^ 63 - 1) by reflexivity. lia.
Qed.
(** No input of any length makes an integer converter read past its buffer, and other JSON types are refused. *)
Theorem C56_safe_partial : forall f, In f [convert_uint8; convert_uint16; convert_uint32; convert_uint64; convert_sint64] ->
  forall t data, f t data <> CUB /\ (t <> JSON_NUMBER -> t <> JSON_STRING -> f t data = CInvalid).
Proof.
  intros f HF t data.
  assert (K : exists size fit max, f = convert size fit max).
  { cbn [In] in HF. destruct HF as [<-|[<-|[<-|[<-|[<-|[]]]]]]; do 3 eexists; reflexivity. }
  destruct K as (size & fit & max & ->). split; [apply convert_no_ub|]. intros A B. unfold convert. destruct t; try reflexivity; contradiction.
Qed.
(** The empty string counts as 0, and an 8-bit field refuses "0xff". *)
Theorem C56_strings_refuted :
  convert_uint16 JSON_STRING [] = CSet 0 /\
  (c_numeral [48; 120; 102; 102] 255 /\ refused (convert_uint8 JSON_STRING [48; 120; 102; 102])).
Proof.
  split; [reflexivity|]. split; [|right; reflexivity]. exists [], [48; 120; 102; 102]. split; [reflexivity|]. split; [constructor|].
  apply s_none. apply (m_hex 120 102 [102] [15; 15]); [auto|].
  constructor; [apply (d_low 16 102); lia|]. constructor; [apply (d_low 16 102); lia|constructor].
Qed.

(** ** Durations *)
Lemma in_i64_spec : forall v, in_i64 v = true <-> - 2 ^ 63 <= v <= 2 ^ 63 - 1.
Proof.
  assert (MN : i64_min = - 2 ^ 63) by reflexivity. assert (MX : i64_max = 2 ^ 63 - 1) by reflexivity.
  intros v. unfold in_i64. rewrite MN, MX, andb_true_iff, !Z.leb_le. tauto.
Qed.
Lemma mul64_spec : forall a b c, mul64 a b = Some c <-> c = a * b /\ in_i64 (a * b) = true.
Proof. intros. unfold mul64. destruct (in_i64 (a * b)); [split; [intros E; injection E as <-; auto|intros [-> _]; reflexivity]|split; [discriminate|intros [_ K]; discriminate K]]. Qed.
Lemma mul64_ok : forall a b, - 2 ^ 63 <= a * b <= 2 ^ 63 - 1 -> mul64 a b = Some (a * b).
Proof. intros a b H. apply mul64_spec. split; [reflexivity|apply in_i64_spec; exact H]. Qed.
Lemma scale_inv : forall u v w b, scale u v = Some (w, b) ->
  if b then exists k, unit_suffix [u] k /\ w = v * k else w = v.
Proof.
  intros u v w b H. unfold scale in H. cbv zeta in H.
  destruct (Z.eqb_spec u 100) as [->|]; [|destruct (Z.eqb_spec u 104) as [->|]; [|destruct (Z.eqb_spec u 109) as [->|]; [|destruct (Z.eqb_spec u 115) as [->|]]]].
  - destruct (mul64 v 24) as [a|] eqn:E1; [|discriminate H]. destruct (mul64 a 60) as [d|] eqn:E2; [|discriminate H]. destruct (mul64 d 60) as [e|] eqn:E3; [|discriminate H].
    injection H as <- <-. apply mul64_spec in E1, E2, E3. exists 86400. split; [constructor|lia].
  - destruct (mul64 v 60) as [a|] eqn:E2; [|discriminate H]. destruct (mul64 a 60) as [d|] eqn:E3; [|discriminate H].
    injection H as <- <-. apply mul64_spec in E2, E3. exists 3600. split; [constructor|lia].
  - destruct (mul64 v 60) as [a|] eqn:E2; [|discriminate H].
    injection H as <- <-. apply mul64_spec in E2. exists 60. split; [constructor|lia].
  - injection H as <- <-. exists 1. split; [constructor|lia].
  - injection H as <- <-. reflexivity.
Qed.
Lemma scale_unit : forall u k v, unit_suffix [u] k -> - 2 ^ 63 <= v * k <= 2 ^ 63 - 1 -> scale u v = Some (v * k, true).
Proof.
  intros u k v H R. unfold scale. cbv zeta. inversion H; subst.
  - rewrite Z.mul_1_r. reflexivity.
  - change (109 =? 100) with false. change (109 =? 104) with false. change (109 =? 109) with true. cbv iota. rewrite mul64_ok by lia. reflexivity.
  - change (104 =? 100) with false. change (104 =? 104) with true. cbv iota. rewrite mul64_ok by lia. rewrite mul64_ok by lia. f_equal. f_equal. lia.
  - change (100 =? 100) with true. cbv iota. rewrite mul64_ok by lia. rewrite mul64_ok by lia. rewrite mul64_ok by lia. f_equal. f_equal. lia.
Qed.
Lemma scale_other : forall u v, (forall k, ~ unit_suffix [u] k) -> scale u v = Some (v, false).
Proof.
  intros u v H. unfold scale. cbv zeta.
  destruct (Z.eqb_spec u 100) as [->|]; [exfalso; apply (H 86400); constructor|].
  destruct (Z.eqb_spec u 104) as [->|]; [exfalso; apply (H 3600); constructor|].
  destruct (Z.eqb_spec u 109) as [->|]; [exfalso; apply (H 60); constructor|].
  destruct (Z.eqb_spec u 115) as [->|]; [exfalso; apply (H 1); constructor|]. reflexivity.
Qed.
Lemma epoch_ok : forall v, - 2 ^ 63 <= v * 1000000 <= 2 ^ 63 - 1 -> from_epoch_time v 0 = TOk (v * 1000000).
Proof.
  intros v H. unfold from_epoch_time. change (Z.quot 0 1000) with 0. rewrite Z.add_0_r.
  assert (Q : Z.quot i64_max 1000000 = 9223372036854) by reflexivity. rewrite Q. rewrite Z.gtb_ltb. destruct (Z.ltb_spec 9223372036854 v); [lia|].
  apply in_i64_spec in H. rewrite H. reflexivity.
Qed.
Lemma epoch_inv : forall v r, from_epoch_time v 0 = TOk r -> r = v * 1000000.
Proof.
  intros v r H. unfold from_epoch_time in H. change (Z.quot 0 1000) with 0 in H. rewrite Z.add_0_r in H. destruct (v >? _); [discriminate H|].
  destruct (_ && _); [|discriminate H]. injection H as <-. reflexivity.
Qed.

(** Soundness, whatever memory holds behind the text: a stored duration is the numeral of the text in its unit, in
    microseconds, and the text consists of nothing else.  (Nothing before the unit counts as 0.) *)
Theorem C56_duration_sound_partial : forall t data after c, convert_duration t data after = CSet c ->
  (t = JSON_NUMBER \/ t = JSON_STRING) /\
  exists text suffix v k, data = text ++ suffix /\ unit_suffix suffix k /\ (c_numeral text v \/ text = [] /\ v = 0) /\ c = v * k * 1000000.
Proof.
  intros t data after c H. unfold convert_duration in H.
  destruct (numeric_type t) eqn:ET; [|discriminate H]. cbn [negb] in H. split; [destruct t; try discriminate ET; auto|].
  destruct (strto (data ++ after)) as [[v e]|] eqn:ES; [|discriminate H]. unfold fit_signed in H.
  destruct (in_i64 v) eqn:EV; [|discriminate H].
  destruct (nth_error (data ++ after) e) as [u|] eqn:EU; [|discriminate H].
  destruct (scale u v) as [[w b]|] eqn:EW; [|discriminate H].
  destruct (Nat.eqb_spec (if b then S e else e) (length data)) as [EL|EL]; [|discriminate H]. cbn [negb] in H.
  destruct (from_epoch_time w 0) as [r| |] eqn:EF; try discriminate H. injection H as ->. apply epoch_inv in EF. apply scale_inv in EW.
  assert (TX : exists text r, data ++ after = text ++ r /\ e = length text /\ (c_numeral text v \/ text = [] /\ v = 0)).
  { apply strto_inv in ES. destruct ES as [[-> ->]|(text & r & E & N1 & E1 & _)]; [exists [], (data ++ after); auto|exists text, r; auto]. }
  destruct TX as (text & r & E & -> & HV).
  assert (LE : (length text <= length data)%nat) by (destruct b; lia).
  assert (FT : text = firstn (length text) data).
  { transitivity (firstn (length text) (data ++ after)).
    - rewrite E, firstn_app, Nat.sub_diag, firstn_all. cbn [firstn]. rewrite app_nil_r. reflexivity.
    - rewrite firstn_app. replace (length text - length data)%nat with 0%nat by lia. cbn [firstn]. apply app_nil_r. }
  destruct b.
  - destruct EW as (k & HK & ->). exists text, [u], v, k. split; [|split; [exact HK|split; [exact HV|lia]]].
    rewrite nth_error_app1 in EU by lia. rewrite FT.
    pose proof (firstn_skipn (length text) data) as FS.
    assert (SK : skipn (length text) data = [u]).
    { rewrite <- FS in EU. rewrite nth_error_app2 in EU by (rewrite firstn_length; lia).
      rewrite firstn_length, Nat.min_l, Nat.sub_diag in EU by lia.
      pose proof (skipn_length (length text) data) as SL. destruct (skipn (length text) data) as [|x [|y q]]; [discriminate EU|injection EU as ->; reflexivity|cbn [length] in SL; lia]. }
    rewrite SK in FS. rewrite FT in FS at 1. rewrite firstn_length, Nat.min_l in FS by lia. symmetry. rewrite <- FT in FS at 1.
    rewrite <- FT. exact FS.
  - subst w. exists text, [], v, 1. split; [|split; [constructor|split; [exact HV|lia]]]. rewrite app_nil_r. rewrite FT, EL, firstn_all. reflexivity.
Qed.
(** Completeness, when the byte behind the text can continue neither a numeral nor a unit: every numeral with a unit is
    stored exactly, as long as the number of microseconds fits. *)
Definition neutral (z : Z) : Prop := ~ (48 <= z <= 57) /\ ~ (65 <= z <= 90) /\ ~ (97 <= z <= 122).
Theorem C56_duration_partial : forall t text suffix v k z rest,
  t = JSON_NUMBER \/ t = JSON_STRING -> c_numeral text v -> unit_suffix suffix k ->
  (suffix = [] \/ ~ In 120 text /\ ~ In 88 text) -> neutral z ->
  - 2 ^ 63 <= v * k * 1000000 <= 2 ^ 63 - 1 ->
  convert_duration t (text ++ suffix) (z :: rest) = CSet (v * k * 1000000).
Proof.
  intros t text suffix v k z rest HT HV HK HX (NZ1 & NZ2 & NZ3) R. unfold convert_duration.
  replace (numeric_type t) with true by (destruct HT as [-> | ->]; reflexivity). cbn [negb].
  assert (DZ : forall b, c_digit b z = None).
  { intros b. destruct (c_digit b z) as [d|] eqn:E; [|reflexivity]. apply digit_spec in E. inversion E; subst; lia. }
  assert (RK : - 2 ^ 63 <= v * k <= 2 ^ 63 - 1) by lia.
  assert (KP : 1 <= k) by (inversion HK; lia).
  assert (RV : in_i64 v = true) by (apply in_i64_spec; nia).
  destruct suffix as [|u suffix].
  - assert (k = 1) by (inversion HK; reflexivity). subst k. rewrite app_nil_r.
    rewrite (strto_app text v z rest HV) by (split; [apply DZ|split; [lia|split; [lia|left; apply DZ]]]).
    unfold fit_signed. rewrite RV. rewrite nth_error_app2, Nat.sub_diag by lia. cbn [nth_error].
    rewrite scale_other by (intros k HK'; inversion HK'; subst; lia). rewrite Nat.eqb_refl. cbn [negb].
    rewrite epoch_ok by lia. f_equal. lia.
  - assert (suffix = []) by (inversion HK; reflexivity). subst suffix. rewrite <- app_assoc. cbn [app].
    destruct HX as [K|HX]; [discriminate K|].
    rewrite (strto_app text v u (z :: rest) HV).
    2:{ split; [inversion HK; reflexivity|]. split; [inversion HK; lia|]. split; [inversion HK; lia|]. right. exact HX. }
    unfold fit_signed. rewrite RV. rewrite nth_error_app2, Nat.sub_diag by lia. cbn [nth_error].
    rewrite (scale_unit u k v HK RK). rewrite app_length. cbn [length].
    replace (length text + 1)%nat with (S (length text)) by lia. rewrite Nat.eqb_refl. cbn [negb].
    rewrite epoch_ok by lia. reflexivity.
Qed.
(** What goes wrong otherwise: the text is not terminated, so what follows it in memory decides ("10" is 10 seconds, or
    refused, or read past the end); a number of days or a negative number of seconds overflows a signed type; a unit alone
    is 0; and the d of "0x5d" is a digit. *)
Theorem C56_duration_refuted :
  (convert_duration JSON_NUMBER [49; 48] [125] = CSet 10000000 /\
   convert_duration JSON_NUMBER [49; 48] [55; 0] = CInvalid /\ convert_duration JSON_NUMBER [49; 48] [104; 0] = CInvalid /\
   convert_duration JSON_NUMBER [49; 48] [] = CUB) /\
  (forall v text rest, c_numeral text v -> ~ In 120 text -> ~ In 88 text -> 2 ^ 63 <= v * 24 -> v <= 2 ^ 63 - 1 ->
    convert_duration JSON_STRING (text ++ [100]) rest = CUB) /\
  convert_duration JSON_NUMBER [45; 57; 50; 50; 51; 51; 55; 50; 48; 51; 54; 56; 53; 53] [125] = CUB /\
  convert_duration JSON_STRING [100] [34] = CSet 0 /\
  convert_duration JSON_STRING [48; 120; 53; 100] [34] = CSet 93000000.
Proof.
  split; [split; [reflexivity|split; [reflexivity|split; reflexivity]]|].
  split; [|split; [vm_compute; reflexivity|split; reflexivity]].
  intros v text rest HV HX1 HX2 R1 R2. unfold convert_duration. cbn [numeric_type negb]. rewrite <- app_assoc. cbn [app].
  rewrite (strto_app text v 100 rest HV) by (split; [reflexivity|split; [lia|split; [lia|right; split; assumption]]]).
  unfold fit_signed. replace (in_i64 v) with true by (symmetry; apply in_i64_spec; lia).
  rewrite nth_error_app2, Nat.sub_diag by lia. cbn [nth_error]. unfold scale. cbv zeta. change (100 =? 100) with true. cbv iota.
  unfold mul64 at 1. destruct (in_i64 (v * 24)) eqn:E; [apply in_i64_spec in E; lia|]. reflexivity.
Qed.

(** ** The hypotheses are met *)
Example C56_number : number [52; 50] /\ json_integer [52; 50] 42.
Proof.
  assert (II : int_part [52; 50]) by (apply int_nonzero; [lia|constructor; [unfold digit; lia|constructor]]).
  split; [exists [], [52; 50], [], []; split; [reflexivity|]; split; [constructor|]; split; [exact II|]; split; constructor|].
  exists [52; 50]. split; [exact II|left; split; reflexivity].
Qed.
Example C56_runs : convert_uint16 JSON_NUMBER [52; 50] = CSet 42 /\ convert_uint8 JSON_NUMBER [51; 48; 48] = CTooBig /\
  convert_uint16 JSON_STRING [48; 120; 102; 102; 102; 102] = CSet 65535 /\ convert_uint16 JSON_NUMBER [45; 49] = CTooBig /\
  convert_uint16 JSON_NUMBER [49; 101; 49] = CInvalid /\ convert_duration JSON_STRING [50; 104] [34] = CSet 7200000000.
Proof. vm_compute. split; [reflexivity|]. split; [reflexivity|]. split; [reflexivity|]. split; [reflexivity|]. split; reflexivity. Qed.
Example C56_duration_hyp : c_numeral [50] 2 /\ unit_suffix [104] 3600 /\ neutral 34.
Proof.
  split; [|split; [constructor|unfold neutral; lia]]. exists [], [50]. split; [reflexivity|]. split; [constructor|]. apply s_none.
  apply (m_dec 50 [] [2]); [lia|]. constructor; [apply (d_num 10 50); lia|constructor].
Qed.

Print Assumptions C56_integers_exact_partial.
Print Assumptions C56_uint64_naturals_partial.
Print Assumptions C56_uint64_refuted.
Print Assumptions C56_strings_partial.
Print Assumptions C56_safe_partial.
Print Assumptions C56_strings_refuted.
Print Assumptions C56_duration_sound_partial.
Print Assumptions C56_duration_partial.
Print Assumptions C56_duration_refuted.
