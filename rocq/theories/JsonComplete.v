(** * Every JSON text within the limits is accepted, with its callbacks *)
Require Import ZArith List Bool Lia.
From Verif Require Import Json JsonSpec JsonProofs JsonChunks JsonLength JsonStrings JsonNumbers.
Import ListNotations.
Open Scope Z_scope.

Section P.
Context {U : Type}.
Variable cfg : jconfig.
Variable cb : jtype -> list Z -> U -> Z * U.
Hypothesis Hcfg : 0 <= max_number_len cfg /\ 0 <= max_string_len cfg /\ 0 <= max_key_len cfg.
Implicit Types p q : parser U.

(** The main automaton is in charge, unless a callback has failed. *)
Definition M (st : Z) (nest : list Z) (vc : Z) (r : Z * U) p : Prop :=
  p_err p = fst r /\ p_user p = snd r /\ p_st p <> 0 /\
  (0 <= fst r -> p_auto p = A_MAIN /\ p_st p = st /\ p_nest p = nest /\ p_vcount p = vc /\
     p_cp0 p = 0 /\ p_cp1 p = 0).

Definition dl (r : Z * U) (evs : list event) : Z * U := deliver cb (fst r) (snd r) evs.

Lemma dl_app : forall a b r, dl r (a ++ b) = dl (dl r a) b.
Proof.
  unfold dl. induction a as [|[t d] a IH]; intros b [c u]; [reflexivity|].
  cbn [deliver app fst snd]. destruct (c <? 0) eqn:E.
  - cbn [fst snd]. destruct b as [|[t' d'] b]; cbn; [reflexivity|]. rewrite E. reflexivity.
  - destruct (cb t d u) as [c' u']. apply (IH b (c', u')).
Qed.

Lemma dl_neg : forall evs r, fst r < 0 -> dl r evs = r.
Proof.
  intros [|[t d] evs] [c u] H; unfold dl; cbn [deliver fst snd]; [reflexivity|].
  cbn in H. replace (c <? 0) with true by (symmetry; apply Z.ltb_lt; exact H). reflexivity.
Qed.

Lemma dl_one : forall t d r, 0 <= fst r -> dl r [(t, d)] = cb t d (snd r).
Proof.
  intros t d [c u] H. unfold dl. cbn in *.
  replace (c <? 0) with false by (symmetry; apply Z.ltb_ge; exact H).
  destruct (cb t d u). reflexivity.
Qed.

Lemma M_neg : forall st nest vc r p l, M st nest vc r p -> fst r < 0 -> bsteps cfg cb p l = p.
Proof. intros st nest vc r p l (A & _) H. apply bsteps_err. lia. Qed.

Lemma M_neg_any : forall st nest vc st' nest' vc' r p, M st nest vc r p -> fst r < 0 -> M st' nest' vc' r p.
Proof. intros st nest vc st' nest' vc' r p (A & B & C & _) H. repeat split; try assumption; lia. Qed.

Lemma M_keep : forall st nest vc r p q, M st nest vc r p ->
  p_err q = p_err p -> p_user q = p_user p -> p_auto q = p_auto p -> p_st q = p_st p ->
  p_nest q = p_nest p -> p_vcount q = p_vcount p -> p_cp0 q = p_cp0 p -> p_cp1 q = p_cp1 p ->
  M st nest vc r q.
Proof.
  intros st nest vc r p q (A & B & C & D). intros. unfold M.
  repeat match goal with H : _ q = _ |- _ => rewrite H; clear H end.
  split; [exact A|]. split; [exact B|]. split; [exact C|exact D].
Qed.

Lemma M_new_line : forall st nest vc r p ch, M st nest vc r p -> M st nest vc r (new_line (advance p 1) ch).
Proof.
  intros st nest vc r p ch H. eapply M_keep; [exact H| | | | | | | |];
    unfold new_line; destruct (ch =? 13); try reflexivity; destruct (ch =? 10); reflexivity.
Qed.

Lemma state_after_nz : forall t nest, state_after t nest <> 0.
Proof. intros t [|n l]; destruct t; discriminate. Qed.

Definition counts (t : jtype) : Z := if is_closer_type t then 0 else 1.

Lemma M_process : forall p t d,
  0 <= p_err p -> p_cp0 p = 0 -> p_cp1 p = 0 -> p_st p <> 0 ->
  (is_closer_type t = false -> p_vcount p = 0 -> root_refused cfg t = false) ->
  0 <= p_vcount p ->
  (is_closer_type t = false -> at_most (p_vcount p + 1) (max_total_values cfg)) ->
  M (state_after t (p_nest p)) (p_nest p) (p_vcount p + counts t) (cb t d (p_user p))
    (process cfg cb p t d).
Proof.
  intros p t d He H0 H1 Hst Hr Hv Hm. unfold process, counts.
  replace (p_err p <? 0) with false by (symmetry; apply Z.ltb_ge; exact He).
  assert (forall q, p_user q = p_user p -> p_nest q = p_nest p -> p_cp0 q = 0 -> p_cp1 q = 0 ->
    M (state_after t (p_nest p)) (p_nest p) (p_vcount q) (cb t d (p_user p)) (process_call cb q t d)) as K.
  { intros q E1 E2 E3 E4. unfold process_call. rewrite E1. destruct (cb t d (p_user p)) as [e u].
    cbn [p_nest with_callback]. rewrite E2.
    split; [reflexivity|]. split; [reflexivity|]. split; [apply state_after_nz|].
    intros _. repeat split; cbn; assumption. }
  destruct (is_closer_type t) eqn:Ec.
  - rewrite Z.add_0_r. apply K; (reflexivity || assumption).
  - replace ((p_vcount p =? 0) && root_refused cfg t) with false.
    2:{ symmetry. destruct (p_vcount p =? 0) eqn:E0; [|reflexivity]. apply Z.eqb_eq in E0. cbn.
        apply Hr; [reflexivity|exact E0]. }
    specialize (Hm eq_refl).
    replace (negb (max_total_values cfg =? 0) && (max_total_values cfg <=? p_vcount p)) with false.
    2:{ symmetry. destruct Hm as [->|Hm]; [reflexivity|]. apply andb_false_iff. right. apply Z.leb_gt. lia. }
    apply (K (with_vcount p (p_vcount p + 1))); (reflexivity || assumption).
Qed.

(** ** White space *)

Lemma M_step : forall st nest vc r p ch, M st nest vc r p -> 0 <= fst r -> bstep cfg cb p ch = main_byte cfg cb p ch.
Proof.
  intros st nest vc r p ch (A & B & C & D) H. destruct (D H) as (E & _). unfold bstep.
  replace (p_err p <? 0) with false by (symmetry; apply Z.ltb_ge; lia). rewrite E. reflexivity.
Qed.

Lemma ws_main : forall p ch, ws_byte ch -> main_iter cfg cb p ch = MNext p.
Proof.
  intros p ch H. unfold main_iter, ws_byte in *.
  assert ((ch =? 91) = false /\ (ch =? 123) = false /\ (ch =? 93) = false /\ (ch =? 125) = false /\
    (ch =? 44) = false /\ (ch =? 58) = false /\ (ch =? 34) = false /\ (ch =? 45) = false /\
    is_in ch 97 122 = false /\ is_in ch 65 90 = false /\ is_digit ch = false /\ is_ws ch = true) as K.
  { unfold is_digit, is_in, is_ws. lia. }
  destruct K as (-> & -> & -> & -> & -> & -> & -> & -> & -> & -> & -> & ->).
  cbn [orb negb]. rewrite !andb_false_r. reflexivity.
Qed.

Lemma M_ws : forall w, ws w -> forall st nest vc r p, M st nest vc r p -> M st nest vc r (bsteps cfg cb p w).
Proof.
  induction 1 as [|c w Hc Hw IH]; intros st nest vc r p H; [exact H|].
  change (bsteps cfg cb p (c :: w)) with (bsteps cfg cb (bstep cfg cb p c) w). apply IH.
  destruct (Z_lt_le_dec (fst r) 0) as [E|E].
  - rewrite bstep_err; [exact H|]. destruct H as (A & _). lia.
  - rewrite (M_step _ _ _ _ _ _ H E). unfold main_byte. rewrite (ws_main p c Hc).
    apply M_new_line. exact H.
Qed.

(** ** Structural characters *)

Lemma M_with_st : forall st st' nest vc r p, st' <> 0 -> M st nest vc r p -> 0 <= fst r ->
  M st' nest vc r (with_st p st').
Proof.
  intros st st' nest vc r p Hn (A & B & C & D) H. destruct (D H) as (E1 & E2 & E3 & E4 & E5 & E6).
  split; [exact A|]. split; [exact B|]. split; [exact Hn|]. intros _. repeat split; assumption.
Qed.

Lemma M_comma : forall b nest vc r p, b = 93 \/ b = 125 -> M (CAN_SEE_COMMA + CAN_SEE_CLOSER) (b :: nest) vc r p ->
  M (if b =? 93 then CAN_SEE_VALUE else CAN_SEE_KEY) (b :: nest) vc r (bstep cfg cb p 44).
Proof.
  intros b nest vc r p Hb H. destruct (Z_lt_le_dec (fst r) 0) as [E|E].
  - rewrite bstep_err; [eapply M_neg_any; eassumption|]. destruct H as (A & _). lia.
  - rewrite (M_step _ _ _ _ _ _ H E). unfold main_byte, main_iter.
    pose proof H as (A & B & C & D). destruct (D E) as (E1 & E2 & E3 & E4 & E5 & E6).
    rewrite E2, E3.
    change (has (CAN_SEE_COMMA + CAN_SEE_CLOSER) CAN_SEE_VALUE) with false.
    change (has (CAN_SEE_COMMA + CAN_SEE_CLOSER) CAN_SEE_CLOSER) with true.
    change (has (CAN_SEE_COMMA + CAN_SEE_CLOSER) CAN_SEE_COMMA) with true.
    cbn [andb orb Z.eqb hd Pos.eqb]. apply M_new_line. eapply M_with_st; [|exact H|exact E].
    destruct Hb as [-> | ->]; discriminate.
Qed.

Lemma M_colon : forall nest vc r p, M CAN_SEE_COLON nest vc r p ->
  M CAN_SEE_VALUE nest vc r (bstep cfg cb p 58).
Proof.
  intros nest vc r p H. destruct (Z_lt_le_dec (fst r) 0) as [E|E].
  - rewrite bstep_err; [eapply M_neg_any; eassumption|]. destruct H as (A & _). lia.
  - rewrite (M_step _ _ _ _ _ _ H E). unfold main_byte, main_iter.
    pose proof H as (A & B & C & D). destruct (D E) as (E1 & E2 & E3 & E4 & E5 & E6).
    rewrite E2.
    change (has CAN_SEE_COLON CAN_SEE_VALUE) with false.
    change (has CAN_SEE_COLON CAN_SEE_CLOSER) with false.
    change (has CAN_SEE_COLON CAN_SEE_COMMA) with false.
    change (has CAN_SEE_COLON CAN_SEE_COLON) with true.
    cbn [andb orb Z.eqb hd Pos.eqb]. apply M_new_line. eapply M_with_st; [discriminate|exact H|exact E].
Qed.

Definition value_state (st : Z) : Prop := st = CAN_SEE_VALUE \/ st = CAN_SEE_VALUE + CAN_SEE_CLOSER.

Lemma value_state_has : forall st, value_state st -> has st CAN_SEE_VALUE = true.
Proof. intros st [-> | ->]; reflexivity. Qed.

Definition begin_type (o : Z) : jtype := if o =? 91 then JSON_ARRAY_BEG else JSON_OBJECT_BEG.
Definition end_type (b : Z) : jtype := if b =? 93 then JSON_ARRAY_END else JSON_OBJECT_END.
Definition closer_of (o : Z) : Z := if o =? 91 then 93 else 125.

Lemma M_open : forall o st nest vc r p, o = 91 \/ o = 123 -> value_state st -> M st nest vc r p ->
  0 <= vc -> (vc = 0 -> root_refused cfg (begin_type o) = false) ->
  at_most (vc + 1) (max_total_values cfg) -> at_most (len nest + 1) (max_nesting_level cfg) ->
  M (state_after (begin_type o) (closer_of o :: nest)) (closer_of o :: nest) (vc + 1)
    (dl r [(begin_type o, [])]) (bstep cfg cb p o).
Proof.
  intros o st nest vc r p Ho Hs H Hv Hr Hm Hn. destruct (Z_lt_le_dec (fst r) 0) as [E|E].
  - rewrite bstep_err, dl_neg; [eapply M_neg_any; eassumption|exact E|]. destruct H as (A & _). lia.
  - rewrite dl_one by exact E. rewrite (M_step _ _ _ _ _ _ H E). unfold main_byte, main_iter.
    pose proof H as (A & B & C & D). destruct (D E) as (E1 & E2 & E3 & E4 & E5 & E6).
    rewrite E2, (value_state_has _ Hs), E3.
    replace ((o =? 91) || (o =? 123)) with true by (destruct Ho as [-> | ->]; reflexivity). cbn [andb].
    replace (negb (max_nesting_level cfg =? 0) && (max_nesting_level cfg <=? Z.of_nat (length nest))) with false.
    2:{ symmetry. destruct Hn as [->|Hn]; [reflexivity|]. apply andb_false_iff. right. apply Z.leb_gt.
        unfold len in Hn. lia. }
    apply M_new_line. fold (closer_of o). fold (begin_type o).
    pose proof (M_process (with_nest p (closer_of o :: nest)) (begin_type o) []) as K.
    cbn [p_err p_cp0 p_cp1 p_st p_vcount with_nest p_nest p_user] in K.
    rewrite E4, E2, B in K. replace (counts (begin_type o)) with 1 in K by (destruct Ho as [-> | ->]; reflexivity).
    assert (st <> 0) by (destruct Hs as [-> | ->]; discriminate).
    apply K; try assumption; try lia.
    + intros _. exact Hr.
    + intros _. exact Hm.
Qed.

Definition close_state (st : Z) : Prop :=
  st = CAN_SEE_VALUE + CAN_SEE_CLOSER \/ st = CAN_SEE_KEY + CAN_SEE_CLOSER \/ st = CAN_SEE_COMMA + CAN_SEE_CLOSER.

Definition after (nest : list Z) : Z := match nest with [] => CAN_SEE_EOF | _ => CAN_SEE_COMMA + CAN_SEE_CLOSER end.

Lemma M_close : forall b st nest vc r p, b = 93 \/ b = 125 -> close_state st -> M st (b :: nest) vc r p ->
  0 <= vc ->
  M (after nest) nest vc (dl r [(end_type b, [])]) (bstep cfg cb p b).
Proof.
  intros b st nest vc r p Hb Hs H Hv. destruct (Z_lt_le_dec (fst r) 0) as [E|E].
  - rewrite bstep_err, dl_neg; [eapply M_neg_any; eassumption|exact E|]. destruct H as (A & _). lia.
  - rewrite dl_one by exact E. rewrite (M_step _ _ _ _ _ _ H E). unfold main_byte, main_iter.
    pose proof H as (A & B & C & D). destruct (D E) as (E1 & E2 & E3 & E4 & E5 & E6).
    rewrite E2, E3.
    replace (has st CAN_SEE_CLOSER) with true by (destruct Hs as [-> | [-> | ->]]; reflexivity).
    replace ((b =? 91) || (b =? 123)) with false by (destruct Hb as [-> | ->]; reflexivity).
    replace ((b =? 93) || (b =? 125)) with true by (destruct Hb as [-> | ->]; reflexivity).
    rewrite andb_false_r. cbn [andb hd tl]. rewrite Z.eqb_refl. cbn [negb].
    apply M_new_line. fold (end_type b).
    pose proof (M_process (with_nest p nest) (end_type b) []) as K.
    cbn [p_err p_cp0 p_cp1 p_st p_vcount with_nest p_nest p_user] in K.
    rewrite E4, E2, B in K. replace (counts (end_type b)) with 0 in K by (destruct Hb as [-> | ->]; reflexivity).
    rewrite Z.add_0_r in K.
    replace (state_after (end_type b) nest) with (after nest) in K by (destruct Hb as [-> | ->]; destruct nest; reflexivity).
    assert (is_closer_type (end_type b) = true) as Hc by (destruct Hb as [-> | ->]; reflexivity).
    assert (st <> 0) by (destruct Hs as [-> | [-> | ->]]; discriminate).
    apply K; try assumption; try lia; intros F; congruence.
Qed.

(** ** Strings and keys *)

Definition auto_of (t : jtype) : automaton := match t with JSON_KEY => A_KEY | _ => A_STRING end.
Definition max_of (t : jtype) : Z := match t with JSON_KEY => max_key_len cfg | _ => max_string_len cfg end.
Definition open_state (t : jtype) (st : Z) : Prop :=
  match t with
  | JSON_KEY => st = CAN_SEE_KEY \/ st = CAN_SEE_KEY + CAN_SEE_CLOSER
  | _ => value_state st
  end.

Lemma M_string : forall t c d st nest vc r p, t = JSON_STRING \/ t = JSON_KEY -> chars c d ->
  open_state t st -> M st nest vc r p ->
  0 <= vc -> (vc = 0 -> root_refused cfg t = false) ->
  at_most (vc + 1) (max_total_values cfg) -> at_most (len c) (max_of t) ->
  M (state_after t nest) nest (vc + 1) (dl r [(t, d)]) (bsteps cfg cb p (34 :: c ++ [34])).
Proof.
  intros t c d st nest vc r p Ht Hc Hs H Hv Hr Hm Hl. destruct (Z_lt_le_dec (fst r) 0) as [E|E].
  - rewrite bsteps_err, dl_neg; [eapply M_neg_any; eassumption|exact E|]. destruct H as (A & _). lia.
  - rewrite dl_one by exact E.
    change (bsteps cfg cb p (34 :: c ++ [34])) with (bsteps cfg cb (bstep cfg cb p 34) (c ++ [34])).
    rewrite (M_step _ _ _ _ _ _ H E).
    pose proof H as (A & B & C & D). destruct (D E) as (E1 & E2 & E3 & E4 & E5 & E6).
    set (p1 := new_line (advance (switch p (auto_of t)) 1) 34).
    assert (main_byte cfg cb p 34 = p1) as ->.
    { unfold main_byte, main_iter, p1. rewrite E2. destruct Ht as [-> | ->]; cbn in Hs.
      - destruct Hs as [-> | ->]; reflexivity.
      - destruct Hs as [-> | ->]; reflexivity. }
    rewrite bsteps_app.
    assert (str_auto t (p_auto p1)) as Ha by (destruct Ht as [-> | ->]; [left|right]; split; reflexivity).
    assert (p_err p1 = fst r) as He by exact A.
    assert (at_ p1 0 [] 0 0 0 p1) as H1.
    { constructor; try reflexivity; try assumption; [apply same_refl|cbn; lia]. }
    assert (consumed p1 = 1) as Hcons by (unfold p1, consumed; cbn; lia).
    assert (room cfg t p1 (0 + len c)) as R.
    { unfold room. rewrite Hcons.
      replace (limit_of cfg t) with (if 0 <? max_of t then max_of t + 1 else max_of t)
        by (destruct Ht as [-> | ->]; reflexivity).
      assert (0 <= max_of t) by (destruct Ht as [-> | ->]; cbn; lia).
      pose proof (len_nonneg c).
      destruct (Z.ltb_spec 0 (max_of t)); destruct Hl as [Hl|Hl]; lia. }
    pose proof (at_chars cfg cb t p1 Ha ltac:(lia) c d Hc 0 [] p1 H1 R) as K.
    set (q := bsteps cfg cb p1 c) in *. cbn [app] in K.
    change (bsteps cfg cb q [34]) with (bstep cfg cb q 34).
    rewrite (at_close cfg cb t p1 Ha ltac:(lia) _ _ _ _ _ K).
    change (p_buf p1 ++ d) with d.
    destruct K as [(S1 & S2 & S3 & S4 & S5 & S6 & _) K2 K3 K4 K5 K6].
    assert (M (state_after t nest) nest (vc + 1) (cb t d (snd r)) (process cfg cb (advance q 1) t d)) as KM.
    { pose proof (M_process (advance q 1) t d) as KP.
      cbn [p_err p_cp0 p_cp1 p_st p_vcount advance with_pos p_nest p_user] in KP.
      rewrite S1, S2, S3, S4, S5 in KP.
      change (p_err p1) with (p_err p) in KP. change (p_user p1) with (p_user p) in KP.
      change (p_st p1) with (p_st p) in KP. change (p_nest p1) with (p_nest p) in KP.
      change (p_vcount p1) with (p_vcount p) in KP.
      rewrite A, B, E2, E3, E4 in KP. replace (counts t) with 1 in KP by (destruct Ht as [-> | ->]; reflexivity).
      assert (st <> 0) by (destruct Ht as [-> | ->]; destruct Hs as [-> | ->]; discriminate).
      apply KP; try assumption.
      - intros _. exact Hr.
      - intros _. exact Hm. }
    assert (chk (limit_of cfg t) (long_err_of t) (process cfg cb (advance q 1) t d)
            = process cfg cb (advance q 1) t d) as ->; [|exact KM].
    destruct (process_main cfg cb (advance q 1) t d) as [F|[_ F]].
    + apply chk_err. exact F.
    + apply chk_within. rewrite F. right. apply limit_nonneg. exact Hcfg.
Qed.

(** ** Numbers and literals *)

(** A number or literal is complete but not yet delivered. *)
Definition pend (t : jtype) (d : list Z) (st : Z) (nest : list Z) (vc : Z) (r : Z * U) p : Prop :=
  (t = JSON_NUMBER /\ p_auto p = A_NUMBER /\ has (p_sub p) N_END = true /\ p_buf p = d /\
   at_most (consumed p) (max_number_len cfg)
   \/ exists lit, lit_of (p_auto p) = Some (t, lit) /\ d = [] /\ p_sub p = Z.of_nat (length lit)) /\
  p_err p = fst r /\ p_user p = snd r /\ p_st p = st /\ p_nest p = nest /\ p_vcount p = vc /\
  p_cp0 p = 0 /\ p_cp1 p = 0.

(** While a number is read. *)
Record num_at p0 (k : Z) (l : list Z) (s : Z) p : Prop := NumAt {
  na_same : same p0 p;
  na_sub : p_sub (number_sub p) = s;
  na_buf : p_buf p = l;
  na_cons : consumed p = k;
  na_cp : p_cp0 p = p_cp0 p0 /\ p_cp1 p = p_cp1 p0
}.

Lemma bstep_number : forall p ch, p_auto p = A_NUMBER -> 0 <= p_err p ->
  bstep cfg cb p ch = let '(p1, done) := number_byte cfg cb p ch in
              if done || (p_err p1 <? 0) then p1 else main_byte cfg cb p1 ch.
Proof.
  intros p ch Ha He. unfold bstep. replace (p_err p <? 0) with false by (symmetry; apply Z.ltb_ge; exact He).
  rewrite Ha. unfold sub_byte. rewrite Ha. reflexivity.
Qed.

Lemma num_step : forall p0 k l s p ch s', p_auto p0 = A_NUMBER -> 0 <= p_err p0 ->
  num_at p0 k l s p -> number_next s ch = Some s' -> at_most (k + 1) (max_number_len cfg) ->
  num_at p0 (k + 1) (l ++ [ch]) s' (fst (number_byte cfg cb p ch)) /\ snd (number_byte cfg cb p ch) = true.
Proof.
  intros p0 k l s p ch s' Ha He [Hs H1 H2 H3 H4] Hn Hm.
  unfold number_byte. rewrite H1, Hn.
  assert (same p (number_sub p)) as Hsn by (unfold number_sub; destruct (p_sub p =? 0); repeat split).
  assert (p_buf (number_sub p) = p_buf p /\ consumed (number_sub p) = consumed p
          /\ p_cp0 (number_sub p) = p_cp0 p /\ p_cp1 (number_sub p) = p_cp1 p) as (B1 & B2 & B3 & B4)
    by (unfold number_sub; destruct (p_sub p =? 0); repeat split).
  rewrite chk_within.
  2:{ rewrite consumed_advance. change (consumed (with_sub (number_sub p) s')) with (consumed (number_sub p)).
      rewrite B2, H3. exact Hm. }
  pose proof (same_trans _ _ _ Hs Hsn) as Hss.
  assert (0 <= p_err (advance (with_sub (number_sub p) s') 1)) as Hpe.
  { cbn. destruct Hss as (E & _). rewrite E. exact He. }
  replace (0 <=? p_err (advance (with_sub (number_sub p) s') 1)) with true by (symmetry; apply Z.leb_le; exact Hpe).
  cbn [fst snd]. split; [|reflexivity]. constructor.
  - unfold same in *. cbn. exact Hss.
  - unfold number_sub at 1. cbn [p_sub buf_append with_buf advance with_pos with_sub].
    replace (s' =? 0) with false by (symmetry; apply Z.eqb_neq; eapply number_next_nz; exact Hn). reflexivity.
  - cbn. rewrite B1, H2. reflexivity.
  - change (consumed (buf_append (advance (with_sub (number_sub p) s') 1) [ch]))
      with (consumed (advance (with_sub (number_sub p) s') 1)).
    rewrite consumed_advance. change (consumed (with_sub (number_sub p) s')) with (consumed (number_sub p)). lia.
  - cbn. rewrite B3, B4. exact H4.
Qed.

Lemma num_steps : forall l2 p0 k l s p s', p_auto p0 = A_NUMBER -> 0 <= p_err p0 ->
  num_at p0 k l s p -> num_run s l2 = Some s' -> at_most (k + len l2) (max_number_len cfg) ->
  num_at p0 (k + len l2) (l ++ l2) s' (bsteps cfg cb p l2).
Proof.
  induction l2 as [|c l2 IH]; intros p0 k l s p s' Ha He H Hr Hm.
  - rewrite app_nil_r. unfold len. cbn [length Z.of_nat bsteps fold_left]. rewrite Z.add_0_r.
    cbn in Hr. inversion Hr; subst. exact H.
  - cbn [num_run] in Hr. destruct (number_next s c) as [s1|] eqn:En; [|discriminate].
    rewrite len_cons in *. pose proof (len_nonneg l2).
    destruct (num_step p0 k l s p c s1 Ha He H En) as [A B].
    { destruct Hm as [Hm|Hm]; [left; exact Hm|right; lia]. }
    change (bsteps cfg cb p (c :: l2)) with (bsteps cfg cb (bstep cfg cb p c) l2).
    destruct H as [Hs _ _ _ _]. destruct Hs as (S1 & _ & _ & _ & _ & S6 & _).
    rewrite (bstep_number p c); [|rewrite S6; exact Ha|rewrite S1; exact He].
    destruct (number_byte cfg cb p c) as [p1 dn]. cbn [fst snd] in A, B. subst dn. cbn [orb].
    replace (k + (1 + len l2)) with (k + 1 + len l2) in * by lia.
    replace (l ++ c :: l2) with ((l ++ [c]) ++ l2) by (rewrite <- app_assoc; reflexivity).
    eapply IH; eassumption.
Qed.

Lemma number_head : forall l, number l -> exists c l', l = c :: l' /\ (is_digit c || (c =? 45)) = true /\
  num_run S0 l <> None.
Proof.
  intros l H. apply L0 in H. destruct H as (s & Hr & He).
  destruct l as [|c l]; [cbn in Hr; inversion Hr; subst; discriminate|].
  exists c, l. split; [reflexivity|]. split; [|congruence].
  cbn [num_run] in Hr. rewrite next0 in Hr. destruct (c =? 45); [apply orb_true_r|].
  destruct (is_digit c); [reflexivity|discriminate].
Qed.

Lemma first_byte_number : forall st p c, value_state st -> p_st p = st -> (is_digit c || (c =? 45)) = true ->
  main_iter cfg cb p c = MAgain (switch p A_NUMBER).
Proof.
  intros st p c Hs E Hc. unfold main_iter. rewrite E, (value_state_has _ Hs).
  assert ((c =? 91) = false /\ (c =? 123) = false /\ (c =? 93) = false /\ (c =? 125) = false /\
    (c =? 44) = false /\ (c =? 58) = false /\ (c =? 34) = false /\
    is_in c 97 122 = false /\ is_in c 65 90 = false) as K.
  { unfold is_digit, is_in in *. lia. }
  destruct K as (-> & -> & -> & -> & -> & -> & -> & -> & ->). rewrite Hc.
  cbn [orb andb]. rewrite !andb_false_r. reflexivity.
Qed.

Lemma M_number : forall l st nest vc r p, number l -> value_state st -> M st nest vc r p -> 0 <= fst r ->
  at_most (len l) (max_number_len cfg) ->
  pend JSON_NUMBER l st nest vc r (bsteps cfg cb p l).
Proof.
  intros l st nest vc r p Hn Hs H E Hm.
  pose proof (number_head l Hn) as (c & l' & -> & Hc & _).
  apply L0 in Hn. destruct Hn as (sf & Hrun & Hend).
  change (bsteps cfg cb p (c :: l')) with (bsteps cfg cb (bstep cfg cb p c) l').
  rewrite (M_step _ _ _ _ _ _ H E).
  pose proof H as (A & B & C & D). destruct (D E) as (E1 & E2 & E3 & E4 & E5 & E6).
  unfold main_byte. rewrite (first_byte_number st p c Hs E2 Hc).
  set (p1 := switch p A_NUMBER).
  assert (p_err p1 = fst r) as He by exact A.
  replace (p_err p1 <? 0) with false by (symmetry; apply Z.ltb_ge; lia).
  unfold sub_byte. change (p_auto p1) with A_NUMBER. cbv iota.
  assert (num_at p1 0 [] S0 p1) as H1.
  { constructor; try reflexivity; try apply same_refl; [unfold consumed; cbn; lia|split; reflexivity]. }
  cbn [num_run] in Hrun. destruct (number_next S0 c) as [s1|] eqn:En; [|discriminate].
  rewrite len_cons in Hm. pose proof (len_nonneg l').
  destruct (num_step p1 0 [] S0 p1 c s1 eq_refl ltac:(lia) H1 En) as [K _].
  { destruct Hm as [Hm|Hm]; [left; exact Hm|right; lia]. }
  eapply num_steps in K; [|reflexivity|lia|exact Hrun|].
  2:{ destruct Hm as [Hm|Hm]; [left; exact Hm|right; lia]. }
  destruct K as [(T1 & T2 & T3 & T4 & T5 & T6 & _) K1 K2 K3 (K4 & K5)].
  set (q := bsteps cfg cb (fst (number_byte cfg cb p1 c)) l') in *.
  unfold pend. rewrite T1, T2, T3, T4, T5, T6, K4, K5, K2.
  split; [left; split; [reflexivity|]; split; [reflexivity|]; split; [|split; [reflexivity|]]|].
  - unfold number_sub in K1. destruct (p_sub q =? 0) eqn:E0; [|rewrite K1; exact Hend].
    cbn in K1. subst sf. discriminate.
  - rewrite K3. destruct Hm as [Hm|Hm]; [left; exact Hm|right; lia].
  - cbn. repeat split; try assumption; lia.
Qed.

Lemma lit_steps : forall a t lit2 lit1 p, lit_of a = Some (t, lit1 ++ lit2) -> p_auto p = a -> 0 <= p_err p ->
  p_sub p = Z.of_nat (length lit1) ->
  let q := bsteps cfg cb p lit2 in
  same p q /\ p_sub q = Z.of_nat (length (lit1 ++ lit2)) /\ p_cp0 q = p_cp0 p /\ p_cp1 q = p_cp1 p.
Proof.
  induction lit2 as [|c lit2 IH]; intros lit1 p Hl Ha He Hs q.
  - rewrite app_nil_r. repeat split. exact Hs.
  - subst q. change (bsteps cfg cb p (c :: lit2)) with (bsteps cfg cb (bstep cfg cb p c) lit2).
    assert (bstep cfg cb p c = with_sub (advance p 1) (p_sub p + 1)) as Hb.
    { unfold bstep. replace (p_err p <? 0) with false by (symmetry; apply Z.ltb_ge; exact He).
      assert (sub_byte cfg cb p c = literal_byte cfg cb t (lit1 ++ c :: lit2) p c) as Hsb.
      { unfold sub_byte. rewrite Ha. destruct a; cbn in Hl; inversion Hl; reflexivity. }
      assert (literal_byte cfg cb t (lit1 ++ c :: lit2) p c = (with_sub (advance p 1) (p_sub p + 1), true)) as Hlb.
      { unfold literal_byte. rewrite Hs.
        replace (Z.of_nat (length (lit1 ++ c :: lit2)) <=? Z.of_nat (length lit1)) with false.
        2:{ symmetry. apply Z.leb_gt. rewrite app_length. cbn [length]. lia. }
        rewrite Nat2Z.id, nth_middle, Z.eqb_refl. reflexivity. }
      destruct (p_auto p) eqn:Ea; try (rewrite Hsb, Hlb; reflexivity). subst a. discriminate. }
    rewrite Hb.
    destruct (IH (lit1 ++ [c]) (with_sub (advance p 1) (p_sub p + 1))) as (A & B & C & D).
    + rewrite <- app_assoc. exact Hl.
    + exact Ha.
    + exact He.
    + cbn. rewrite Hs, app_length. cbn. lia.
    + cbn [p_cp0 p_cp1 with_sub advance with_pos] in C, D. rewrite <- app_assoc in B. cbn [app] in B.
      split; [|repeat split; assumption]. eapply same_trans; [|exact A]. repeat split.
Qed.

Definition lit_auto (v : jvalue) : option automaton :=
  match v with VNull => Some A_NULL | VFalse => Some A_FALSE | VTrue => Some A_TRUE | _ => None end.

Lemma M_literal : forall a t lit st nest vc r p, lit_of a = Some (t, lit) -> value_state st ->
  M st nest vc r p -> 0 <= fst r ->
  pend t [] st nest vc r (bsteps cfg cb p lit).
Proof.
  intros a t lit st nest vc r p Hl Hs H E.
  assert (exists c lit', lit = c :: lit') as (c & lit' & ->).
  { destruct a; cbn in Hl; inversion Hl; subst; unfold lit_null, lit_false, lit_true; eexists; eexists; reflexivity. }
  change (bsteps cfg cb p (c :: lit')) with (bsteps cfg cb (bstep cfg cb p c) lit').
  rewrite (M_step _ _ _ _ _ _ H E).
  pose proof H as (A & B & C & D). destruct (D E) as (E1 & E2 & E3 & E4 & E5 & E6).
  assert (main_iter cfg cb p c = MAgain (switch p a)) as Hi.
  { unfold main_iter. rewrite E2, (value_state_has _ Hs).
    destruct a; cbn in Hl; inversion Hl; subst c; destruct Hs as [-> | ->]; reflexivity. }
  unfold main_byte. rewrite Hi.
  set (p1 := switch p a).
  assert (p_err p1 = fst r) as He by exact A.
  replace (p_err p1 <? 0) with false by (symmetry; apply Z.ltb_ge; lia).
  assert (fst (sub_byte cfg cb p1 c) = with_sub (advance p1 1) 1) as ->.
  { unfold sub_byte. change (p_auto p1) with a.
    destruct a; cbn in Hl; inversion Hl; subst; reflexivity. }
  destruct (lit_steps a t lit' [c] (with_sub (advance p1 1) 1) Hl eq_refl) as ((T1 & T2 & T3 & T4 & T5 & T6 & _) & K1 & K2 & K3).
  { cbn. lia. }
  { reflexivity. }
  unfold pend. rewrite T1, T2, T3, T4, T5, T6, K2, K3.
  split; [right; exists (c :: lit'); split; [exact Hl|]; split; [reflexivity|exact K1]|].
  cbn. repeat split; try assumption; lia.
Qed.

(** The next byte, a boundary, delivers it. *)
Lemma pend_step : forall t d st nest vc r p c, pend t d st nest vc r p -> 0 <= fst r -> value_state st ->
  is_boundary c = true -> 0 <= vc -> (vc = 0 -> root_refused cfg t = false) ->
  at_most (vc + 1) (max_total_values cfg) -> (t = JSON_NUMBER -> number_next (p_sub p) c = None) ->
  exists q, bstep cfg cb p c = bstep cfg cb q c /\ M (after nest) nest (vc + 1) (dl r [(t, d)]) q.
Proof.
  intros t d st nest vc r p c (Hk & E1 & E2 & E3 & E4 & E5 & E6 & E7) E Hs Hb Hv Hr Hm Hnn.
  assert (st <> 0) as Hst by (destruct Hs as [-> | ->]; discriminate).
  assert (is_closer_type t = false /\ state_after t nest = after nest /\ counts t = 1) as (Hc & Ha & Hct).
  { destruct Hk as [(-> & _)|(lit & Hl & _)]; [split; [|split]; destruct nest; reflexivity|].
    destruct (p_auto p); cbn in Hl; inversion Hl; split; [|split| |split| |split]; destruct nest; reflexivity. }
  assert (forall q, p_err q = p_err p -> p_user q = p_user p -> p_st q = p_st p -> p_nest q = p_nest p ->
            p_vcount q = p_vcount p -> p_cp0 q = p_cp0 p -> p_cp1 q = p_cp1 p ->
            M (after nest) nest (vc + 1) (dl r [(t, d)]) (process cfg cb q t d)) as KM.
  { intros q Q1 Q2 Q3 Q4 Q5 Q6 Q7. rewrite dl_one by exact E. rewrite <- E2, <- Q2.
    pose proof (M_process q t d) as K. rewrite Q1, Q3, Q4, Q5, Q6, Q7, E1, E3, E4, E5, Ha, Hct in K.
    apply K; try assumption; intros _; assumption. }
  assert (forall q dn, (p_auto q = A_MAIN \/ p_err q < 0) -> dn = false ->
     (if dn || (p_err q <? 0) then q else main_byte cfg cb q c) = bstep cfg cb q c) as Hfin.
  { intros q dn Hq ->. cbn [orb]. unfold bstep. destruct (p_err q <? 0) eqn:Eq; [reflexivity|].
    destruct Hq as [-> |Hq]; [reflexivity|]. apply Z.ltb_ge in Eq. lia. }
  assert (forall q, p_auto (process cfg cb q t d) = A_MAIN \/ p_err (process cfg cb q t d) < 0) as Hpm.
  { intros q. destruct (process_main cfg cb q t d) as [F|[F _]]; [right|left]; exact F. }
  destruct Hk as [(-> & A1 & A2 & A3 & A4)|(lit & Hl & -> & A2)].
  - exists (process cfg cb (number_sub p) JSON_NUMBER d). split.
    + rewrite (bstep_number p c A1) by lia. unfold number_byte.
      assert (p_sub p <> 0) as Hnz by (intros F; rewrite F in A2; discriminate).
      assert (number_sub p = p) as Hns.
      { unfold number_sub. replace (p_sub p =? 0) with false by (symmetry; apply Z.eqb_neq; exact Hnz). reflexivity. }
      rewrite Hns, (Hnn eq_refl), A2, Hb, A3. cbn [andb]. apply Hfin; [apply Hpm|reflexivity].
    + apply KM; unfold number_sub; destruct (p_sub p =? 0); reflexivity.
  - exists (process cfg cb p t []). split; [|apply KM; reflexivity].
    unfold bstep at 1. replace (p_err p <? 0) with false by (symmetry; apply Z.ltb_ge; lia).
    assert (sub_byte cfg cb p c = (process cfg cb p t [], false)) as Hsb.
    { unfold sub_byte. destruct (p_auto p); cbn in Hl; inversion Hl; subst; unfold literal_byte;
        rewrite A2, Z.leb_refl, Hb; reflexivity. }
    destruct (p_auto p) eqn:Ea; try discriminate Hl; rewrite Hsb; apply Hfin; (apply Hpm || reflexivity).
Qed.

(** The end of the input delivers it. *)
Lemma pend_fini : forall t d st nest vc r p, pend t d st nest vc r p -> 0 <= fst r -> value_state st ->
  0 <= vc -> (vc = 0 -> root_refused cfg t = false) ->
  at_most (vc + 1) (max_total_values cfg) ->
  exists pos, json_fini cfg cb p = Some (fst (dl r [(t, d)]), pos, snd (dl r [(t, d)])).
Proof.
  intros t d st nest vc r p (Hk & E1 & E2 & E3 & E4 & E5 & E6 & E7) E Hs Hv Hr Hm.
  assert (st <> 0) as Hst by (destruct Hs as [-> | ->]; discriminate).
  assert (forall q, p_err q = p_err p -> p_user q = p_user p -> p_st q = p_st p -> p_nest q = p_nest p ->
            p_vcount q = p_vcount p -> p_cp0 q = p_cp0 p -> p_cp1 q = p_cp1 p ->
            M (state_after t nest) nest (vc + counts t) (dl r [(t, d)]) (process cfg cb q t d)) as KM.
  { intros q Q1 Q2 Q3 Q4 Q5 Q6 Q7. rewrite dl_one by exact E. rewrite <- E2, <- Q2.
    pose proof (M_process q t d) as K. rewrite Q1, Q3, Q4, Q5, Q6, Q7, E1, E3, E4, E5 in K.
    apply K; try assumption; intros _; assumption. }
  assert (exists q, dispatch cfg cb p None = Some (process cfg cb q t d, 0%nat) /\
            M (state_after t nest) nest (vc + counts t) (dl r [(t, d)]) (process cfg cb q t d)) as (q & Hd & HM).
  { destruct Hk as [(-> & A1 & A2 & A3 & A4)|(lit & Hl & -> & A2)].
    - exists (number_sub p). split; [|apply KM; unfold number_sub; destruct (p_sub p =? 0); reflexivity].
      unfold dispatch. rewrite A1. unfold number_auto, limited. rewrite firstn_nil.
      replace (if negb (max_number_len cfg =? 0) && (max_number_len cfg <? consumed p + Z.of_nat (length [])) then [] else [])
        with (@nil Z) by (destruct (_ && _); reflexivity).
      cbn [number_loop]. fold (number_sub p).
      assert (p_sub p <> 0) as Hnz by (intros F; rewrite F in A2; discriminate).
      assert (number_sub p = p) as Hns.
      { unfold number_sub. replace (p_sub p =? 0) with false by (symmetry; apply Z.eqb_neq; exact Hnz). reflexivity. }
      rewrite Hns.
      replace (over_long (max_number_len cfg) p) with false.
      2:{ symmetry. unfold over_long. destruct A4 as [->|A4]; [reflexivity|].
          apply andb_false_iff. right. apply Z.ltb_ge. exact A4. }
      replace (0 <=? p_err p) with true by (symmetry; apply Z.leb_le; lia).
      rewrite A2, A3. reflexivity.
    - exists p. split; [|apply KM; reflexivity].
      unfold dispatch. destruct (p_auto p); cbn in Hl; inversion Hl; subst; unfold literal_auto;
        cbn [literal_loop]; rewrite A2, Z.leb_refl; reflexivity. }
  unfold json_fini.
  replace (p_st p =? ST_UNINITED) with false by (symmetry; apply Z.eqb_neq; rewrite E3; exact Hst).
  replace (p_err p <? 0) with false by (symmetry; apply Z.ltb_ge; lia).
  assert (p_auto p <> A_MAIN) as Hnm.
  { destruct Hk as [(_ & A1 & _)|(lit & Hl & _)]; [congruence|]. intros F. rewrite F in Hl. discriminate. }
  rewrite Hd.
  set (q1 := process cfg cb q t d) in *.
  assert (exists pos,
    (match p_auto (with_pos q1 (JPos (p_off (p_pos q1) + Z.of_nat 0) (p_line (p_pos q1)) (p_col (p_pos q1)))) with
     | A_MAIN => Some (p_err q1, (if 0 <=? p_err q1 then JPos (p_off (p_pos q1) + Z.of_nat 0) (p_line (p_pos q1)) (p_col (p_pos q1)) else p_epos q1), p_user q1)
     | _ => Some (p_err (raise (with_pos q1 (JPos (p_off (p_pos q1) + Z.of_nat 0) (p_line (p_pos q1)) (p_col (p_pos q1)))) ERR_SYNTAX),
         (if 0 <=? p_err (raise (with_pos q1 (JPos (p_off (p_pos q1) + Z.of_nat 0) (p_line (p_pos q1)) (p_col (p_pos q1)))) ERR_SYNTAX)
          then p_pos (raise (with_pos q1 (JPos (p_off (p_pos q1) + Z.of_nat 0) (p_line (p_pos q1)) (p_col (p_pos q1)))) ERR_SYNTAX)
          else p_epos (raise (with_pos q1 (JPos (p_off (p_pos q1) + Z.of_nat 0) (p_line (p_pos q1)) (p_col (p_pos q1)))) ERR_SYNTAX)),
         p_user (raise (with_pos q1 (JPos (p_off (p_pos q1) + Z.of_nat 0) (p_line (p_pos q1)) (p_col (p_pos q1)))) ERR_SYNTAX))
     end) = Some (fst (dl r [(t, d)]), pos, snd (dl r [(t, d)]))) as Hgoal.
  2:{ destruct (p_auto p); try congruence; exact Hgoal. }
  destruct HM as (G1 & G2 & _ & G4).
  cbn [p_auto with_pos].
  destruct (Z_lt_le_dec (fst (dl r [(t, d)])) 0) as [F|F].
  - assert (forall x, p_err (raise (with_pos q1 x) ERR_SYNTAX) = p_err q1 /\
                      p_user (raise (with_pos q1 x) ERR_SYNTAX) = p_user q1) as Hra.
    { intros x. unfold raise, raise_at. cbn [p_err with_pos].
      replace (0 <=? p_err q1) with false by (symmetry; apply Z.leb_gt; lia). split; reflexivity. }
    destruct (Hra (JPos (p_off (p_pos q1) + Z.of_nat 0) (p_line (p_pos q1)) (p_col (p_pos q1)))) as [R1 R2].
    rewrite R1, R2, G1, G2. destruct (p_auto q1); eexists; reflexivity.
  - destruct (G4 F) as (-> & _). rewrite G1, G2. eexists. reflexivity.
Qed.
End P.
