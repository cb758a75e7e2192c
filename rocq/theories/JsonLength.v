(** * Documents over the total length limit are refused *)
Require Import ZArith List Bool Lia.
From Verif Require Import Json JsonProofs JsonChunks.
Import ListNotations.
Open Scope Z_scope.

Section P.
Context {U : Type}.
Variable cfg : jconfig.
Variable cb : jtype -> list Z -> U -> Z * U.
Hypothesis Hcfg : 0 <= max_number_len cfg /\ 0 <= max_string_len cfg /\ 0 <= max_key_len cfg.
Implicit Types p q : parser U.

Local Notation off p := (p_off (p_pos p)).

(** Unless there is an error, the position is [n] further on. *)
Definition by_n (n : Z) p q : Prop := 0 <= p_err q -> off q = off p + n.

Lemma by_err : forall n p q, p_err q < 0 -> by_n n p q.
Proof. unfold by_n. intros. lia. Qed.

Lemma by_raise : forall n p q e x, e < 0 -> by_n n p (raise_at q e x).
Proof. intros. apply by_err. apply raise_at_err. assumption. Qed.

Lemma process_call_off : forall p t d, off (process_call cb p t d) = off p.
Proof. intros. unfold process_call. destruct (cb t d (p_user p)). reflexivity. Qed.

Lemma process_off : forall p t d, off (process cfg cb p t d) = off p.
Proof.
  intros. unfold process. destruct (p_err p <? 0); [reflexivity|].
  destruct (is_closer_type t); [apply process_call_off|].
  destruct (_ && _); [unfold raise_v; rewrite (proj1 (raise_keeps _ _ _)); reflexivity|].
  destruct (_ && _); [unfold raise_v; rewrite (proj1 (raise_keeps _ _ _)); reflexivity|].
  rewrite process_call_off. reflexivity.
Qed.

Lemma by_s0 : forall t p ch,
  match s0 cfg cb t p ch with
  | (p1, None) => by_n 1 p p1
  | (p1, Some q) => off q = off p /\ (p_sub q = 0 \/ p_sub q = 92) /\ p_sub p <> 0 /\ p_sub p <> 92
  end.
Proof.
  intros. unfold s0.
  destruct (_ && _); [intros K; rewrite process_off; reflexivity|].
  destruct (_ && _); [intros K; reflexivity|].
  pose proof (string_iter_spec (ign_of cfg t) (fix_of cfg t) p ch) as H.
  destruct (string_iter _ _ p ch) as [q|q|q].
  - apply by_err. apply H.
  - destruct H as ((_ & _ & A & _) & B). rewrite A. split; [reflexivity|exact B].
  - destruct H as (_ & _ & A & _). intros K. cbn. rewrite A. reflexivity.
Qed.

Lemma chk_by : forall n p q m e, e < 0 -> by_n n p q -> by_n n p (chk m e q).
Proof. intros. unfold chk. destruct (over_long m q); [apply by_raise; assumption|assumption]. Qed.

Lemma by_string : forall t p ch, by_n 1 p (string_byte cfg cb t p ch).
Proof.
  intros. unfold string_byte, s1. apply chk_by; [unfold long_err_of; destruct t; reflexivity|].
  pose proof (by_s0 t p ch) as H. destruct (s0 cfg cb t p ch) as [p1 [q|]]; [|exact H].
  destruct H as (H & Hs & _).
  pose proof (by_s0 t q ch) as H2. destruct (s0 cfg cb t q ch) as [p2 [q2|]]; cbn [fst].
  - destruct H2 as (_ & _ & A & B). exfalso. lia.
  - intros K. specialize (H2 K). lia.
Qed.

Lemma by_literal : forall t lit p ch,
  by_n (if snd (literal_byte cfg cb t lit p ch) then 1 else 0) p (fst (literal_byte cfg cb t lit p ch)).
Proof.
  intros. unfold literal_byte. destruct (_ <=? p_sub p).
  - destruct (is_boundary ch); cbn [fst snd].
    + intros K. rewrite process_off. lia.
    + apply by_raise. reflexivity.
  - destruct (negb _); cbn [fst snd]; [apply by_raise; reflexivity|]. intros K. reflexivity.
Qed.

Lemma by_number : forall p ch,
  by_n (if snd (number_byte cfg cb p ch) then 1 else 0) p (fst (number_byte cfg cb p ch)).
Proof.
  intros. unfold number_byte.
  assert (off (number_sub p) = off p) as H0 by (unfold number_sub; destruct (p_sub p =? 0); reflexivity).
  destruct (number_next _ ch); cbn [fst snd].
  - assert (by_n 1 p (chk (max_number_len cfg) ERR_MAXNUMBERLEN (advance (with_sub (number_sub p) z) 1))) as H1.
    { apply chk_by; [reflexivity|]. intros K. cbn [advance with_pos p_pos p_off with_sub]. rewrite H0. reflexivity. }
    destruct (0 <=? p_err _); [|exact H1]. intros K. specialize (H1 K). exact H1.
  - destruct (_ && _); cbn [fst snd].
    + intros K. rewrite process_off. lia.
    + apply by_raise. reflexivity.
Qed.

Lemma by_sub : forall p ch, p_auto p <> A_MAIN ->
  by_n (if snd (sub_byte cfg cb p ch) then 1 else 0) p (fst (sub_byte cfg cb p ch)).
Proof.
  intros p ch H. unfold sub_byte. destruct (p_auto p);
    [congruence|apply by_literal|apply by_literal|apply by_literal|apply by_number
    |apply by_string|apply by_string].
Qed.

Lemma new_line_off : forall p ch, off (new_line p ch) = off p.
Proof. intros. unfold new_line. destruct (ch =? 13); [reflexivity|]. destruct (ch =? 10); reflexivity. Qed.

(** A literal or a number takes its first byte. *)
Lemma lit_first : forall t lit c p, nth 0 lit 0 = c -> lit <> [] -> p_sub p = 0 ->
  literal_byte cfg cb t lit p c = (with_sub (advance p 1) 1, true).
Proof.
  intros t lit c p H Hn Hs. unfold literal_byte. rewrite Hs.
  replace (Z.of_nat (length lit) <=? 0) with false.
  2:{ symmetry. apply Z.leb_gt. destruct lit; [congruence|cbn [length]; lia]. }
  change (Z.to_nat 0) with 0%nat. rewrite H, Z.eqb_refl. reflexivity.
Qed.

Lemma number_first : forall p c, p_sub p = 0 -> is_digit c || (c =? 45) = true ->
  snd (number_byte cfg cb p c) = true.
Proof.
  intros p c Hs Hc. unfold number_byte, number_sub. rewrite Hs. cbn [Z.eqb].
  cbn [p_sub with_sub].
  replace (number_next (N_M_SIGN + N_M_FIRST) c) with
    (if c =? 45 then Some N_M_FIRST else
     if is_digit c then Some (if c =? 48 then N_F_DELIM + N_E_DELIM + N_END
          else N_M_DIGIT + N_F_DELIM + N_E_DELIM + N_END) else None).
  - destruct (c =? 45) eqn:E; [reflexivity|]. rewrite orb_false_r in Hc. rewrite Hc. reflexivity.
  - unfold number_next. change (has (N_M_SIGN + N_M_FIRST) N_M_SIGN) with true.
    change (has (N_M_SIGN + N_M_FIRST) N_M_FIRST) with true.
    change (has (N_M_SIGN + N_M_FIRST) N_M_DIGIT) with false.
    change (has (N_M_SIGN + N_M_FIRST) N_F_DELIM) with false.
    change (has (N_M_SIGN + N_M_FIRST) N_F_DIGIT) with false.
    change (has (N_M_SIGN + N_M_FIRST) N_E_DELIM) with false.
    change (has (N_M_SIGN + N_M_FIRST) N_E_SIGN) with false.
    change (has (N_M_SIGN + N_M_FIRST) N_E_DIGIT) with false.
    cbn [andb]. destruct (c =? 45); [reflexivity|]. destruct (is_digit c); reflexivity.
Qed.

Lemma by_main : forall p ch, by_n 1 p (main_byte cfg cb p ch).
Proof.
  intros. unfold main_byte.
  assert (forall q, off q = off p -> by_n 1 p (new_line (advance q 1) ch)) as Hn.
  { intros q Hq K. rewrite new_line_off. cbn. lia. }
  assert (forall q, off q = off p -> p_auto q <> A_MAIN -> snd (sub_byte cfg cb q ch) = true ->
            by_n 1 p (if p_err q <? 0 then q else fst (sub_byte cfg cb q ch))) as Ha.
  { intros q Hq Hm Hs. destruct (p_err q <? 0) eqn:E.
    - apply by_err. apply Z.ltb_lt. exact E.
    - intros K. pose proof (by_sub q ch Hm K) as B. rewrite Hs in B. lia. }
  assert (forall e x, e < 0 -> by_n 1 p (raise_at p e x)) as Hr by (intros; apply by_raise; assumption).
  unfold main_iter.
  destruct (_ && _).
  { destruct (_ && _); [apply Hr; reflexivity|]. apply Hn. rewrite process_off. reflexivity. }
  destruct (_ && _).
  { destruct (negb _); [apply Hr; reflexivity|]. apply Hn. rewrite process_off. reflexivity. }
  destruct (_ && _); [apply Hn; reflexivity|].
  destruct (_ && _); [apply Hn; reflexivity|].
  destruct (_ && _); [apply Hn; reflexivity|].
  destruct (_ && _); [apply Hn; reflexivity|].
  destruct (has (p_st p) CAN_SEE_VALUE && (is_in ch 97 122 || is_in ch 65 90)).
  { destruct (ch =? 110) eqn:E1.
    { apply Z.eqb_eq in E1. subst ch. apply Ha; [reflexivity|discriminate|].
      unfold sub_byte. cbn [p_auto switch]. rewrite (lit_first _ lit_null); try reflexivity. discriminate. }
    destruct (ch =? 102) eqn:E2.
    { apply Z.eqb_eq in E2. subst ch. apply Ha; [reflexivity|discriminate|].
      unfold sub_byte. cbn [p_auto switch]. rewrite (lit_first _ lit_false); try reflexivity. discriminate. }
    destruct (ch =? 116) eqn:E3.
    { apply Z.eqb_eq in E3. subst ch. apply Ha; [reflexivity|discriminate|].
      unfold sub_byte. cbn [p_auto switch]. rewrite (lit_first _ lit_true); try reflexivity. discriminate. }
    assert (p_err (raise p ERR_SYNTAX) < 0) as K by (apply raise_at_err; reflexivity).
    replace (p_err (raise p ERR_SYNTAX) <? 0) with true by (symmetry; apply Z.ltb_lt; exact K).
    apply by_err. exact K. }
  destruct (has (p_st p) CAN_SEE_VALUE && (is_digit ch || (ch =? 45))) eqn:En.
  { apply andb_true_iff in En. apply Ha; [reflexivity|discriminate|].
    unfold sub_byte. cbn [p_auto switch]. apply number_first; [reflexivity|apply En]. }
  destruct (negb _).
  - apply by_err. apply raise_unexpected_err.
  - apply Hn. reflexivity.
Qed.

Lemma by_bstep : forall p ch, 0 <= p_err p -> by_n 1 p (bstep cfg cb p ch).
Proof.
  intros p ch Hp. unfold bstep. replace (p_err p <? 0) with false by (symmetry; apply Z.ltb_ge; exact Hp).
  assert (p_auto p <> A_MAIN -> by_n 1 p (let '(p1, done) := sub_byte cfg cb p ch in
                     if done || (p_err p1 <? 0) then p1 else main_byte cfg cb p1 ch)) as H.
  { intros Hm. pose proof (by_sub p ch Hm) as M. destruct (sub_byte cfg cb p ch) as [p1 d]. cbn [fst snd] in M.
    destruct d; cbn [orb]; [exact M|].
    destruct (p_err p1 <? 0) eqn:E; [apply by_err; apply Z.ltb_lt; exact E|].
    apply Z.ltb_ge in E. specialize (M E). intros K. rewrite (by_main p1 ch K). lia. }
  destruct (p_auto p) eqn:Ea; try (apply H; discriminate). apply by_main.
Qed.

Lemma by_bsteps : forall l p, by_n (Z.of_nat (length l)) p (bsteps cfg cb p l).
Proof.
  induction l as [|c l IH]; intros p; [intros K; cbn; lia|].
  change (bsteps cfg cb p (c :: l)) with (bsteps cfg cb (bstep cfg cb p c) l).
  intros K. rewrite (IH _ K). cbn [length].
  destruct (Z_lt_le_dec (p_err p) 0) as [E|E].
  - rewrite bstep_err, bsteps_err in K by (rewrite ?bstep_err; assumption). lia.
  - assert (0 <= p_err (bstep cfg cb p c)) as E1.
    { destruct (Z_lt_le_dec (p_err (bstep cfg cb p c)) 0) as [E1|E1]; [|exact E1].
      rewrite bsteps_err in K by exact E1. lia. }
    rewrite (by_bstep p c E E1). lia.
Qed.

(** A failed parser stays failed. *)
Lemma feed_loop_err : forall fuel p c, p_err p < 0 -> (0 < fuel)%nat -> feed_loop cfg cb fuel p c = Some p.
Proof.
  intros [|fuel] p c H Hf; [lia|]. cbn. destruct c; [reflexivity|].
  replace (p_err p <? 0) with true by (symmetry; apply Z.ltb_lt; exact H). reflexivity.
Qed.

Lemma skip_err : forall n p input, p_err (skip_to_limit n p input) = p_err p.
Proof.
  induction n as [|n IH]; intros p input; cbn; [reflexivity|].
  destruct input as [|c i]; [reflexivity|]. rewrite IH. unfold new_line, with_line.
  destruct (_ =? 13); [reflexivity|]. destruct (_ =? 10); reflexivity.
Qed.

Lemma json_feed_err : forall p c, p_err p < 0 -> exists p', json_feed cfg cb p c = Some p' /\ p_err p' < 0.
Proof.
  intros p c H. unfold json_feed. destruct (_ && _).
  - eexists. split; [reflexivity|]. apply raise_at_err. reflexivity.
  - exists p. split; [apply feed_loop_err; [exact H|lia]|exact H].
Qed.

Lemma feed_all_err : forall chunks p, p_err p < 0 ->
  exists p', feed_all cfg cb p chunks = Some p' /\ p_err p' < 0.
Proof.
  induction chunks as [|c cs IH]; intros p H; [exists p; split; [reflexivity|exact H]|].
  cbn. destruct (json_feed_err p c H) as (p1 & -> & H1). apply IH. exact H1.
Qed.

Lemma feed_all_over : forall chunks p, inv cfg p -> p_off (p_vpos p) <= off p ->
  0 < max_total_len cfg -> off p <= max_total_len cfg ->
  max_total_len cfg < off p + Z.of_nat (length (concat chunks)) ->
  exists p', feed_all cfg cb p chunks = Some p' /\ p_err p' < 0.
Proof.
  induction chunks as [|c cs IH]; intros p Hi Hv Hm Hp Ho; [cbn in Ho; lia|].
  cbn [concat] in Ho. rewrite app_length in Ho. cbn [feed_all].
  destruct (Z_lt_le_dec (max_total_len cfg) (off p + Z.of_nat (length c))) as [K|K].
  - unfold json_feed.
    replace (negb (max_total_len cfg =? 0)) with true
      by (symmetry; apply negb_true_iff; apply Z.eqb_neq; lia).
    replace (max_total_len cfg <? off p + Z.of_nat (length c)) with true by (symmetry; apply Z.ltb_lt; exact K).
    cbn [andb]. apply feed_all_err. apply raise_at_err. reflexivity.
  - destruct (json_feed_spec cfg cb Hcfg p c Hi) as (p1 & E & Hn & Hi1); [right; exact K|].
    rewrite E. destruct (Z_lt_le_dec (p_err p1) 0) as [E1|E1]; [apply feed_all_err; exact E1|].
    pose proof (norm_ok _ _ Hn E1) as Hq. subst p1.
    pose proof (by_bsteps c p E1) as B. destruct (moves_bsteps cfg cb c p Hv) as [M1 M2].
    apply IH; [exact Hi1|exact M1|exact Hm|lia|lia].
Qed.

Lemma json_fini_err : forall p e x u, p_err p < 0 -> p_st p <> ST_UNINITED ->
  json_fini cfg cb p = Some (e, x, u) -> e < 0.
Proof.
  intros p e x u H Hs. unfold json_fini.
  replace (p_st p =? ST_UNINITED) with false by (symmetry; apply Z.eqb_neq; exact Hs).
  replace (p_err p <? 0) with true by (symmetry; apply Z.ltb_lt; exact H).
  intros K; inversion K; subst. exact H.
Qed.

Lemma json_fini_err' : forall p e x u, p_err p < 0 ->
  json_fini cfg cb p = Some (e, x, u) -> e < 0.
Proof.
  intros p e x u H K. unfold json_fini in K.
  destruct (p_st p =? ST_UNINITED); [inversion K; subst; reflexivity|].
  replace (p_err p <? 0) with true in K by (symmetry; apply Z.ltb_lt; exact H).
  inversion K; subst. exact H.
Qed.

Lemma parse_chunks_over : forall u chunks, 0 < max_total_len cfg ->
  max_total_len cfg < Z.of_nat (length (concat chunks)) ->
  exists e x u', parse_chunks cfg cb u chunks = Some (e, x, u') /\ e < 0.
Proof.
  intros u chunks Hm Ho. unfold parse_chunks.
  destruct (feed_all_over chunks (json_init u) (inv_init cfg u)) as (p' & -> & He); cbn; try lia.
  destruct (json_fini_some cfg cb p') as [[[e x] u'] K]. exists e, x, u'.
  split; [exact K|]. eapply json_fini_err'; eassumption.
Qed.

(** ** A caller that stops at the first error *)

Lemma load_from_spec : forall chunks p, inv cfg p -> p_off (p_vpos p) <= off p ->
  fits cfg (off p + Z.of_nat (length (concat chunks))) ->
  load_from cfg cb p chunks = json_fini cfg cb (bsteps cfg cb p (concat chunks)).
Proof.
  induction chunks as [|c cs IH]; intros p Hi Hv Hf; [reflexivity|].
  cbn [load_from concat] in *. rewrite app_length in Hf. rewrite bsteps_app.
  destruct (json_feed_spec cfg cb Hcfg p c Hi) as (p1 & E & Hn & Hi1).
  { destruct Hf as [Hf|Hf]; [left; exact Hf|right; lia]. }
  rewrite E. destruct (p_err p1 <? 0) eqn:E1.
  - apply Z.ltb_lt in E1. rewrite bsteps_err by (rewrite <- (norm_err _ _ Hn); exact E1).
    apply json_fini_norm. exact Hn.
  - apply Z.ltb_ge in E1. pose proof (norm_ok _ _ Hn E1) as Hq. subst p1.
    pose proof (by_bsteps c p E1) as B. destruct (moves_bsteps cfg cb c p Hv) as [M1 M2].
    apply IH; [exact Hi1|exact M1|]. destruct Hf as [Hf|Hf]; [left; exact Hf|right; lia].
Qed.

Lemma load_chunks_spec : forall u chunks, fits cfg (Z.of_nat (length (concat chunks))) ->
  load_chunks cfg cb u chunks = json_fini cfg cb (bsteps cfg cb (json_init u) (concat chunks)).
Proof.
  intros u chunks Hf. unfold load_chunks. apply load_from_spec; [apply inv_init|cbn; lia|exact Hf].
Qed.

Lemma load_chunks_over : forall u chunks, 0 < max_total_len cfg ->
  max_total_len cfg < Z.of_nat (length (concat chunks)) ->
  exists e x u', load_chunks cfg cb u chunks = Some (e, x, u') /\ e < 0.
Proof.
  assert (forall chunks p, inv cfg p -> p_off (p_vpos p) <= off p ->
    0 < max_total_len cfg -> off p <= max_total_len cfg ->
    max_total_len cfg < off p + Z.of_nat (length (concat chunks)) ->
    exists e x u', load_from cfg cb p chunks = Some (e, x, u') /\ e < 0) as H.
  2:{ intros. unfold load_chunks. apply H; try assumption; [apply inv_init|cbn; lia|cbn; lia]. }
  induction chunks as [|c cs IH]; intros p Hi Hv Hm Hp Ho; [cbn in Ho; lia|].
  cbn [concat] in Ho. rewrite app_length in Ho. cbn [load_from].
  destruct (Z_lt_le_dec (max_total_len cfg) (off p + Z.of_nat (length c))) as [K|K].
  - unfold json_feed.
    replace (negb (max_total_len cfg =? 0)) with true
      by (symmetry; apply negb_true_iff; apply Z.eqb_neq; lia).
    replace (max_total_len cfg <? off p + Z.of_nat (length c)) with true by (symmetry; apply Z.ltb_lt; exact K).
    cbn [andb]. set (p1 := raise _ ERR_MAXTOTALLEN).
    assert (p_err p1 < 0) as He by (apply raise_at_err; reflexivity).
    replace (p_err p1 <? 0) with true by (symmetry; apply Z.ltb_lt; exact He).
    destruct (json_fini_some cfg cb p1) as [[[e x] u'] J]. exists e, x, u'.
    split; [exact J|]. eapply json_fini_err'; eassumption.
  - destruct (json_feed_spec cfg cb Hcfg p c Hi) as (p1 & E & Hn & Hi1); [right; exact K|].
    rewrite E. destruct (p_err p1 <? 0) eqn:E1.
    { apply Z.ltb_lt in E1. destruct (json_fini_some cfg cb p1) as [[[e x] u'] J]. exists e, x, u'.
      split; [exact J|]. eapply json_fini_err'; eassumption. }
    apply Z.ltb_ge in E1. pose proof (norm_ok _ _ Hn E1) as Hq. subst p1.
    pose proof (by_bsteps c p E1) as B. destruct (moves_bsteps cfg cb c p Hv) as [M1 M2].
    apply IH; [exact Hi1|exact M1|exact Hm|lia|lia].
Qed.
End P.
