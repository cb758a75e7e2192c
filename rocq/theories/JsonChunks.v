(** * Offsets, and documents fed in several chunks *)
Require Import ZArith List Bool Lia.
From Verif Require Import Json JsonProofs.
Import ListNotations.
Open Scope Z_scope.

Section P.
Context {U : Type}.
Variable cfg : jconfig.
Variable cb : jtype -> list Z -> U -> Z * U.
Hypothesis Hcfg : 0 <= max_number_len cfg /\ 0 <= max_string_len cfg /\ 0 <= max_key_len cfg.
Implicit Types p q : parser U.

(** From [p] to [q]: the value position is not past the position, which
    has grown by at most [n]. *)
Definition moves (n : Z) p q : Prop :=
  p_off (p_vpos p) <= p_off (p_pos p) ->
  p_off (p_vpos q) <= p_off (p_pos q) /\ p_off (p_pos q) <= p_off (p_pos p) + n.

Lemma moves_refl : forall p, moves 0 p p.
Proof. unfold moves. intros. lia. Qed.

Lemma moves_le : forall a b p q, a <= b -> moves a p q -> moves b p q.
Proof. unfold moves. intros a b p q H M K. specialize (M K). lia. Qed.

Lemma moves_trans : forall a b p q r, moves a p q -> moves b q r -> moves (a + b) p r.
Proof. unfold moves. intros a b p q r M1 M2 K. specialize (M1 K). specialize (M2 (proj1 M1)). lia. Qed.

Lemma moves_keeps : forall p q, p_pos q = p_pos p -> p_vpos q = p_vpos p -> moves 0 p q.
Proof. unfold moves. intros p q H1 H2 K. rewrite H1, H2. lia. Qed.

Lemma moves_raise : forall p e x, moves 0 p (raise_at p e x).
Proof. intros. unfold raise_at. destruct (0 <=? p_err p); apply moves_keeps; reflexivity. Qed.

Lemma moves_process : forall p t d, moves 0 p (process cfg cb p t d).
Proof.
  intros. unfold process. destruct (p_err p <? 0); [apply moves_refl|].
  assert (forall q, p_pos q = p_pos p -> p_vpos q = p_vpos p -> moves 0 p (process_call cb q t d)) as H.
  { intros q H1 H2 K. unfold process_call. destruct (cb t d (p_user q)). cbn. rewrite H1. lia. }
  destruct (is_closer_type t); [apply H; reflexivity|].
  destruct (_ && _); [apply moves_raise|].
  destruct (_ && _); [apply moves_raise|]. apply H; reflexivity.
Qed.

Lemma moves_advance : forall p, moves 1 p (advance p 1).
Proof. unfold moves. intros. cbn. lia. Qed.

Lemma moves_chk : forall m e p, moves 0 p (chk m e p).
Proof. intros. unfold chk. destruct (over_long m p); [apply moves_raise|apply moves_refl]. Qed.

(** An automaton that stops has moved nothing either. *)
Lemma ill_moves : forall ign fx p c p1 ok, ill_surrogate ign fx p c = (p1, ok) ->
  p_pos p1 = p_pos p /\ p_vpos p1 = p_vpos p.
Proof.
  intros ign fx p c p1 ok H. unfold ill_surrogate in H.
  destruct ign; [|destruct fx]; inversion H; subst; try (split; reflexivity).
  unfold raise, raise_at. destruct (0 <=? p_err p); split; reflexivity.
Qed.

Lemma raise_keeps : forall p e x, p_pos (raise_at p e x) = p_pos p /\ p_vpos (raise_at p e x) = p_vpos p.
Proof. intros. unfold raise_at. destruct (0 <=? p_err p); split; reflexivity. Qed.

Lemma escape_stop : forall ign fx p p1, escape_done ign fx p = IStop p1 ->
  p_pos p1 = p_pos p /\ p_vpos p1 = p_vpos p.
Proof.
  intros ign fx p p1. unfold escape_done.
  destruct (negb (p_cp0 p =? 0) && negb (is_lo (p_cp1 p))).
  - destruct (ill_surrogate ign fx p (p_cp0 p)) as [p2 ok] eqn:Ei.
    apply ill_moves in Ei. destruct ok; cbn [negb].
    + destruct (_ && _).
      * destruct (ill_surrogate ign fx _ _) as [p3 ok3] eqn:Ei3. apply ill_moves in Ei3. cbn in Ei3.
        destruct ok3; intros H; inversion H; subst. destruct Ei, Ei3; split; congruence.
      * destruct (_ && _); [discriminate|]. destruct (is_hi _); discriminate.
    + intros H; inversion H; subst. exact Ei.
  - cbn [negb]. destruct (_ && _).
    + destruct (ill_surrogate ign fx _ _) as [p3 ok3] eqn:Ei3. apply ill_moves in Ei3.
      destruct ok3; intros H; inversion H; subst. exact Ei3.
    + destruct (_ && _); [discriminate|]. destruct (is_hi _); discriminate.
Qed.

Lemma iter_stop : forall ign fx p ch p1, string_iter ign fx p ch = IStop p1 ->
  p_pos p1 = p_pos p /\ p_vpos p1 = p_vpos p.
Proof.
  intros ign fx p ch p1. unfold string_iter.
  destruct (p_sub p =? 0).
  { destruct (is_control ch); [destruct (_ || _); intros H; inversion H; apply raise_keeps|].
    destruct (ch =? ch_bslash); [discriminate|].
    destruct (utf8_lead ch); [discriminate|].
    destruct fx; [discriminate|]. intros H; inversion H; apply raise_keeps. }
  destruct (p_sub p <=? 7).
  { destruct (utf8_trail (p_sub p) ch); [discriminate|].
    destruct fx; [discriminate|]. intros H; inversion H; apply raise_keeps. }
  destruct (p_sub p =? ch_bslash).
  { destruct (ch =? 117); [discriminate|].
    destruct (simple_escape ch); [discriminate|]. intros H; inversion H; apply raise_keeps. }
  destruct (ABCD <? p_sub p).
  { destruct (negb (is_xdigit ch)); [intros H; inversion H; apply raise_keeps|].
    cbv zeta. destruct (p_sub _ =? ABCD); [|discriminate].
    intros H. apply escape_stop in H. exact H. }
  destruct (ABCD - 2 <=? p_sub p).
  { destruct (_ && _); [discriminate|]. destruct (_ && _); [discriminate|].
    destruct (ill_surrogate ign fx p (p_cp0 p)) as [p2 ok] eqn:Ei. apply ill_moves in Ei.
    destruct ok; [discriminate|]. intros H; inversion H; subst. exact Ei. }
  intros H; inversion H; apply raise_keeps.
Qed.

Lemma moves_s0 : forall t p ch p1 r, s0 cfg cb t p ch = (p1, r) ->
  moves 1 p p1 /\ (forall q, r = Some q -> moves 0 p q).
Proof.
  intros t p ch p1 r. unfold s0.
  destruct (_ && _).
  { intros H; inversion H; subst. split; [|discriminate].
    apply moves_le with (1 + 0); [lia|]. eapply moves_trans; [apply moves_advance|apply moves_process]. }
  destruct (_ && _).
  { intros H; inversion H; subst. split; [|discriminate].
    unfold moves. cbn. intros. lia. }
  pose proof (string_iter_spec (ign_of cfg t) (fix_of cfg t) p ch) as Hi.
  destruct (string_iter (ign_of cfg t) (fix_of cfg t) p ch) as [q|q|q] eqn:E; intros H; inversion H; subst.
  - split; [|discriminate]. apply iter_stop in E. destruct E. apply moves_le with 0; [lia|].
    apply moves_keeps; assumption.
  - destruct Hi as ((_ & _ & A & B) & _). split.
    + apply moves_le with 0; [lia|]. apply moves_keeps; assumption.
    + intros q0 K; inversion K; subst. apply moves_keeps; assumption.
  - destruct Hi as (_ & _ & A & B). split; [|discriminate].
    apply moves_le with (0 + 1); [lia|]. eapply moves_trans; [apply moves_keeps; eassumption|apply moves_advance].
Qed.

Lemma moves_string : forall t p ch, moves 1 p (string_byte cfg cb t p ch).
Proof.
  intros. unfold string_byte. apply moves_le with (1 + 0); [lia|].
  eapply moves_trans; [|apply moves_chk].
  unfold s1. destruct (s0 cfg cb t p ch) as [p1 r] eqn:E. apply moves_s0 in E. destruct E as [A B].
  destruct r as [q|]; [|exact A]. specialize (B q eq_refl).
  destruct (s0 cfg cb t q ch) as [p2 r2] eqn:E2. apply moves_s0 in E2. destruct E2 as [A2 _].
  cbn [fst]. apply moves_le with (0 + 1); [lia|]. eapply moves_trans; eassumption.
Qed.

Lemma moves_literal : forall t lit p ch,
  moves (if snd (literal_byte cfg cb t lit p ch) then 1 else 0) p (fst (literal_byte cfg cb t lit p ch)).
Proof.
  intros. unfold literal_byte.
  destruct (_ <=? p_sub p).
  - destruct (is_boundary ch); cbn [fst snd]; [apply moves_process|].
    intros K. unfold raise. destruct (raise_keeps (with_pos p (p_vpos p)) ERR_SYNTAX (p_pos (with_pos p (p_vpos p)))) as [A B].
    rewrite A, B. cbn. lia.
  - destruct (negb _); cbn [fst snd].
    + apply moves_le with 0; [lia|]. apply moves_raise.
    + intros K. cbn. lia.
Qed.

Lemma moves_number : forall p ch,
  moves (if snd (number_byte cfg cb p ch) then 1 else 0) p (fst (number_byte cfg cb p ch)).
Proof.
  intros. unfold number_byte.
  assert (moves 0 p (number_sub p)) as H0 by (unfold number_sub; destruct (p_sub p =? 0); apply moves_keeps; reflexivity).
  destruct (number_next _ ch).
  - cbn [fst snd].
    assert (moves 1 p (chk (max_number_len cfg) ERR_MAXNUMBERLEN (advance (with_sub (number_sub p) z) 1))) as H1.
    { apply moves_le with (0 + (1 + 0)); [lia|]. eapply moves_trans; [exact H0|].
      eapply moves_trans; [|apply moves_chk]. intros K. cbn in *. lia. }
    destruct (0 <=? p_err _); [|exact H1]. intros K. specialize (H1 K). exact H1.
  - destruct (_ && _); cbn [fst snd].
    + apply moves_le with (0 + 0); [lia|]. eapply moves_trans; [exact H0|apply moves_process].
    + apply moves_le with (0 + 0); [lia|]. eapply moves_trans; [exact H0|apply moves_raise].
Qed.

Lemma moves_sub : forall p ch,
  moves (if snd (sub_byte cfg cb p ch) then 1 else 0) p (fst (sub_byte cfg cb p ch)).
Proof.
  intros. unfold sub_byte. destruct (p_auto p);
    [apply moves_le with 0; [cbn; lia|apply moves_refl]
    |apply moves_literal|apply moves_literal|apply moves_literal|apply moves_number
    |apply moves_string|apply moves_string].
Qed.

Lemma moves_new_line : forall p ch, moves 0 p (new_line p ch).
Proof.
  intros p ch K. unfold new_line. destruct (ch =? 13); [cbn; lia|].
  destruct (ch =? 10); cbn; lia.
Qed.

Lemma moves_main : forall p ch, moves 1 p (main_byte cfg cb p ch).
Proof.
  intros. unfold main_byte.
  assert (forall q, moves 0 p q -> moves 1 p (new_line (advance q 1) ch)) as Hn.
  { intros q Hq. apply moves_le with (0 + (1 + 0)); [lia|]. eapply moves_trans; [exact Hq|].
    eapply moves_trans; [apply moves_advance|apply moves_new_line]. }
  assert (forall q, moves 0 p q ->
            moves 1 p (if p_err q <? 0 then q else fst (sub_byte cfg cb q ch))) as Ha.
  { intros q Hq. destruct (p_err q <? 0); [apply moves_le with 0; [lia|exact Hq]|].
    apply moves_le with (0 + 1); [lia|]. eapply moves_trans; [exact Hq|].
    pose proof (moves_sub q ch) as M. destruct (snd _); [exact M|]. apply moves_le with 0; [lia|exact M]. }
  assert (forall e x, moves 1 p (raise_at p e x)) as Hr by (intros; apply moves_le with 0; [lia|apply moves_raise]).
  assert (forall a, moves 0 p (switch p a)) as Hsw by (intros a K; cbn; lia).
  unfold main_iter.
  destruct (_ && _).
  { destruct (_ && _); [apply Hr|]. apply Hn.
    apply moves_le with (0 + 0); [lia|]. eapply moves_trans; [|apply moves_process]. apply moves_keeps; reflexivity. }
  destruct (_ && _).
  { destruct (negb _); [apply Hr|]. apply Hn.
    apply moves_le with (0 + 0); [lia|]. eapply moves_trans; [|apply moves_process]. apply moves_keeps; reflexivity. }
  destruct (_ && _); [apply Hn; apply moves_keeps; reflexivity|].
  destruct (_ && _); [apply Hn; apply moves_keeps; reflexivity|].
  destruct (_ && _); [apply Hn; apply Hsw|].
  destruct (_ && _); [apply Hn; apply Hsw|].
  destruct (has (p_st p) CAN_SEE_VALUE && (is_in ch 97 122 || is_in ch 65 90)).
  { destruct (ch =? 110); [apply Ha; apply Hsw|].
    destruct (ch =? 102); [apply Ha; apply Hsw|].
    destruct (ch =? 116); [apply Ha; apply Hsw|].
    apply Ha. apply moves_raise. }
  destruct (_ && _); [apply Ha; apply Hsw|].
  destruct (negb _); [apply Hr|]. apply Hn. apply moves_refl.
Qed.

Lemma moves_bstep : forall p ch, moves 1 p (bstep cfg cb p ch).
Proof.
  intros. unfold bstep. destruct (p_err p <? 0); [apply moves_le with 0; [lia|apply moves_refl]|].
  assert (moves 1 p (let '(p1, done) := sub_byte cfg cb p ch in
                     if done || (p_err p1 <? 0) then p1 else main_byte cfg cb p1 ch)) as H.
  { pose proof (moves_sub p ch) as M. destruct (sub_byte cfg cb p ch) as [p1 d]. cbn [fst snd] in M.
    destruct d; cbn [orb]; [exact M|].
    destruct (p_err p1 <? 0); [apply moves_le with 0; [lia|exact M]|].
    apply moves_le with (0 + 1); [lia|]. eapply moves_trans; [exact M|apply moves_main]. }
  destruct (p_auto p); try exact H. apply moves_main.
Qed.

Lemma moves_bsteps : forall l p, moves (Z.of_nat (length l)) p (bsteps cfg cb p l).
Proof.
  induction l as [|c l IH]; intros p; [apply moves_refl|].
  change (bsteps cfg cb p (c :: l)) with (bsteps cfg cb (bstep cfg cb p c) l).
  cbn [length]. apply moves_le with (1 + Z.of_nat (length l)); [lia|].
  eapply moves_trans; [apply moves_bstep|apply IH].
Qed.

Lemma norm_pos : forall p q, norm p = norm q -> p_pos p = p_pos q /\ p_vpos p = p_vpos q.
Proof.
  intros p q H. unfold norm in H.
  destruct (p_err p <? 0), (p_err q <? 0);
    pose proof (f_equal p_pos H); pose proof (f_equal p_vpos H); cbn in *; split; assumption.
Qed.

(** ** Chunks *)

Definition fits (n : Z) : Prop := max_total_len cfg = 0 \/ n <= max_total_len cfg.

Lemma json_feed_spec : forall p c, inv cfg p -> fits (p_off (p_pos p) + Z.of_nat (length c)) ->
  exists p', json_feed cfg cb p c = Some p' /\ norm p' = norm (bsteps cfg cb p c) /\ inv cfg p'.
Proof.
  intros p c Hi Hf. unfold json_feed.
  replace (negb (max_total_len cfg =? 0) && (max_total_len cfg <? p_off (p_pos p) + Z.of_nat (length c))) with false.
  2:{ symmetry. destruct Hf as [Hf|Hf]; [rewrite Hf; reflexivity|].
      apply andb_false_iff. right. apply Z.ltb_ge. exact Hf. }
  apply feed_loop_spec; [exact Hcfg|exact Hi|].
  unfold need. destruct c; [cbn; lia|]. destruct (p_auto p); lia.
Qed.

Lemma feed_all_spec : forall chunks p, inv cfg p -> p_off (p_vpos p) <= p_off (p_pos p) ->
  fits (p_off (p_pos p) + Z.of_nat (length (concat chunks))) ->
  exists p', feed_all cfg cb p chunks = Some p' /\
    norm p' = norm (bsteps cfg cb p (concat chunks)) /\ inv cfg p'.
Proof.
  induction chunks as [|c cs IH]; intros p Hi Hv Hf.
  { exists p. split; [reflexivity|]. split; [reflexivity|exact Hi]. }
  cbn [feed_all concat] in *. rewrite app_length in Hf.
  destruct (json_feed_spec p c Hi) as (p1 & E & Hn & Hi1).
  { destruct Hf as [Hf|Hf]; [left; exact Hf|right; lia]. }
  rewrite E. destruct (norm_pos _ _ Hn) as [P1 P2].
  destruct (moves_bsteps c p Hv) as [M1 M2].
  destruct (IH p1 Hi1) as (p' & E' & Hn' & Hi').
  { rewrite P1, P2. exact M1. }
  { destruct Hf as [Hf|Hf]; [left; exact Hf|right]. rewrite P1. lia. }
  exists p'. split; [exact E'|]. split; [|exact Hi'].
  rewrite Hn'. rewrite bsteps_app. apply bsteps_norm. exact Hn.
Qed.

Lemma norm_st_user : forall p q, norm p = norm q ->
  p_st p = p_st q /\ p_user p = p_user q /\ p_epos p = p_epos q.
Proof.
  intros p q H. unfold norm in H.
  destruct (p_err p <? 0), (p_err q <? 0);
    pose proof (f_equal p_st H); pose proof (f_equal p_user H); pose proof (f_equal p_epos H);
    cbn in *; repeat split; assumption.
Qed.

Lemma json_fini_norm : forall p q, norm p = norm q -> json_fini cfg cb p = json_fini cfg cb q.
Proof.
  intros p q H. destruct (Z_lt_le_dec (p_err p) 0) as [K|K].
  - pose proof (norm_err _ _ H) as He. destruct (norm_st_user _ _ H) as (A & B & C).
    unfold json_fini. rewrite <- A, <- B, <- He.
    replace (p_err p <? 0) with true by (symmetry; apply Z.ltb_lt; exact K).
    replace (0 <=? p_err p) with false by (symmetry; apply Z.leb_gt; exact K).
    rewrite <- C. reflexivity.
  - rewrite (norm_ok _ _ H K). reflexivity.
Qed.

Lemma inv_init : forall u : U, inv cfg (json_init u).
Proof. intros. right. exact Logic.I. Qed.

Lemma dispatch_eof_some : forall p, exists r, dispatch cfg cb p None = Some r.
Proof.
  intros. unfold dispatch. destruct (p_auto p); try (eexists; reflexivity);
    unfold string_auto, limited; cbn [length firstn];
    destruct (_ && _); rewrite ?firstn_nil; cbn; eexists; reflexivity.
Qed.

Lemma json_fini_some : forall p, exists r, json_fini cfg cb p = Some r.
Proof.
  intros. unfold json_fini. destruct (p_st p =? ST_UNINITED); [eexists; reflexivity|].
  destruct (p_err p <? 0); [eexists; reflexivity|].
  destruct (dispatch_eof_some p) as [[p1 n] ->].
  destruct (p_auto p).
  - destruct (p_nest p); [destruct (has _ _)|]; eexists; reflexivity.
  - cbv zeta. destruct (p_auto _); eexists; reflexivity.
  - cbv zeta. destruct (p_auto _); eexists; reflexivity.
  - cbv zeta. destruct (p_auto _); eexists; reflexivity.
  - cbv zeta. destruct (p_auto _); eexists; reflexivity.
  - cbv zeta. destruct (p_auto _); eexists; reflexivity.
  - cbv zeta. destruct (p_auto _); eexists; reflexivity.
Qed.

Lemma parse_chunks_spec : forall u chunks, fits (Z.of_nat (length (concat chunks))) ->
  parse_chunks cfg cb u chunks = json_fini cfg cb (bsteps cfg cb (json_init u) (concat chunks)).
Proof.
  intros u chunks Hf. unfold parse_chunks.
  destruct (feed_all_spec chunks (json_init u) (inv_init u)) as (p' & E & Hn & _).
  { cbn. lia. }
  { exact Hf. }
  rewrite E. apply json_fini_norm. exact Hn.
Qed.

Lemma json_parse_spec : forall u doc, fits (Z.of_nat (length doc)) ->
  json_parse cfg cb u doc = json_fini cfg cb (bsteps cfg cb (json_init u) doc).
Proof.
  intros u doc Hf. unfold json_parse.
  destruct (json_feed_spec (json_init u) doc (inv_init u)) as (p' & E & Hn & _); [exact Hf|].
  rewrite E. apply json_fini_norm. exact Hn.
Qed.
End P.
