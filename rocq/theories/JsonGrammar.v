(** * Texts of the grammar are accepted *)
Require Import ZArith List Bool Lia.
From Verif Require Import Json JsonSpec JsonProofs JsonChunks JsonLength JsonStrings JsonNumbers JsonComplete.
Import ListNotations.
Open Scope Z_scope.

Scheme value_mut := Minimality for value Sort Prop
  with elements_mut := Minimality for elements Sort Prop
  with members_mut := Minimality for members Sort Prop.
Combined Scheme grammar_mut from value_mut, elements_mut, members_mut.

Definition sum_count (vs : list jvalue) : Z := fold_right (fun x n => count x + n) 0 vs.
Definition max_depth (vs : list jvalue) : Z := fold_right (fun x n => Z.max (depth x) n) 0 vs.
Definition sum_count_m (ms : list ((list Z * list Z) * jvalue)) : Z :=
  fold_right (fun m n => 1 + count (snd m) + n) 0 ms.
Definition max_depth_m (ms : list ((list Z * list Z) * jvalue)) : Z :=
  fold_right (fun m n => Z.max (depth (snd m)) n) 0 ms.
Definition member_events (ms : list ((list Z * list Z) * jvalue)) : list event :=
  flat_map (fun m => (JSON_KEY, snd (fst m)) :: events (snd m)) ms.
Definition member_ok (cfg : jconfig) (m : (list Z * list Z) * jvalue) : Prop :=
  at_most (len (fst (fst m))) (max_key_len cfg) /\ lengths_ok cfg (snd m).

(** Induction on trees. *)
Lemma jvalue_ind' : forall P : jvalue -> Prop,
  P VNull -> P VFalse -> P VTrue -> (forall l, P (VNum l)) -> (forall r d, P (VStr r d)) ->
  (forall vs, Forall P vs -> P (VArr vs)) ->
  (forall ms, Forall (fun m => P (snd m)) ms -> P (VObj ms)) -> forall v, P v.
Proof.
  intros P H1 H2 H3 H4 H5 H6 H7. fix IH 1. intros [| | |l|r d|vs|ms];
    [exact H1|exact H2|exact H3|apply H4|apply H5| |].
  - apply H6. induction vs as [|v vs IHvs]; constructor; [apply IH|apply IHvs].
  - apply H7. induction ms as [|[k v] ms IHms]; constructor; [apply IH|apply IHms].
Qed.

Lemma count_pos : forall v, 1 <= count v.
Proof.
  induction v as [| | |l|r d|vs H|ms H] using jvalue_ind'; cbn [count]; try lia.
  - assert (0 <= fold_right (fun x n => count x + n) 0 vs); [|lia].
    induction H; cbn [fold_right]; lia.
  - assert (0 <= fold_right (fun m n => 1 + count (snd m) + n) 0 ms); [|lia].
    induction H; cbn [fold_right]; lia.
Qed.
Lemma sum_count_pos : forall vs, 0 <= sum_count vs.
Proof. unfold sum_count. induction vs; cbn [fold_right]; [lia|]. pose proof (count_pos a). lia. Qed.
Lemma sum_count_m_pos : forall vs, 0 <= sum_count_m vs.
Proof. unfold sum_count_m. induction vs; cbn [fold_right]; [lia|]. pose proof (count_pos (snd a)). lia. Qed.
Lemma max_depth_pos : forall vs, 0 <= max_depth vs.
Proof. unfold max_depth. induction vs; cbn [fold_right]; lia. Qed.
Lemma max_depth_m_pos : forall vs, 0 <= max_depth_m vs.
Proof. unfold max_depth_m. induction vs; cbn [fold_right]; lia. Qed.
Lemma depth_pos : forall v, 0 <= depth v.
Proof.
  intros []; cbn [depth]; try lia.
  - pose proof (max_depth_pos elements). unfold max_depth in *. lia.
  - pose proof (max_depth_m_pos members). unfold max_depth_m in *. lia.
Qed.

(** What may follow a value. *)
Definition follow (c : Z) : Prop := ws_byte c \/ c = 44 \/ c = 93 \/ c = 125.

Lemma follow_boundary : forall c, follow c -> is_boundary c = true /\ forall s, number_next s c = None.
Proof.
  intros c H. unfold follow, ws_byte in H.
  assert (c = 32 \/ c = 9 \/ c = 10 \/ c = 13 \/ c = 44 \/ c = 93 \/ c = 125) as K by lia. clear H.
  split.
  - destruct K as [->|[->|[->|[->|[->|[->| ->]]]]]]; reflexivity.
  - intros s. unfold number_next.
    replace (c =? 45) with false by lia. replace (is_digit c) with false by (unfold is_digit, is_in; lia).
    replace (c =? 46) with false by lia. replace ((c =? 101) || (c =? 69)) with false by lia.
    replace (c =? 43) with false by lia. cbn [orb]. rewrite !andb_false_r. reflexivity.
Qed.

Definition bare (v : jvalue) : Prop :=
  match v with VNull | VFalse | VTrue | VNum _ => True | _ => False end.

Definition followed (v : jvalue) (rest : list Z) : Prop :=
  bare v -> exists c rest', rest = c :: rest' /\ follow c.

Lemma at_most_le : forall a b m, a <= b -> at_most b m -> at_most a m.
Proof. unfold at_most. intros. lia. Qed.

Section P.
Context {U : Type}.
Variable cfg : jconfig.
Variable cb : jtype -> list Z -> U -> Z * U.
Hypothesis Hcfg : 0 <= max_number_len cfg /\ 0 <= max_string_len cfg /\ 0 <= max_key_len cfg.
Implicit Types p q : parser U.

Local Notation bsteps := (bsteps cfg cb).
Local Notation dl := (dl cb).

Definition Pv (l : list Z) (v : jvalue) : Prop :=
  forall st nest vc r p rest, value_state st -> M st nest vc r p -> 0 <= vc ->
    (vc = 0 -> root_allowed cfg v) ->
    at_most (vc + count v) (max_total_values cfg) ->
    at_most (len nest + depth v) (max_nesting_level cfg) ->
    lengths_ok cfg v -> followed v rest ->
    exists q, bsteps p (l ++ rest) = bsteps q rest /\
      M (after nest) nest (vc + count v) (dl r (events v)) q.

Definition CC := CAN_SEE_COMMA + CAN_SEE_CLOSER.

Definition Pe (l : list Z) (vs : list jvalue) : Prop :=
  forall st nest vc r p rest, value_state st -> M st (93 :: nest) vc r p -> 1 <= vc ->
    at_most (vc + sum_count vs) (max_total_values cfg) ->
    at_most (len (93 :: nest) + max_depth vs) (max_nesting_level cfg) ->
    Forall (lengths_ok cfg) vs ->
    exists q, bsteps p (l ++ 93 :: rest) = bsteps q (93 :: rest) /\
      M CC (93 :: nest) (vc + sum_count vs) (dl r (flat_map events vs)) q.

Definition Pm (l : list Z) (ms : list ((list Z * list Z) * jvalue)) : Prop :=
  forall st nest vc r p rest, open_state JSON_KEY st -> M st (125 :: nest) vc r p -> 1 <= vc ->
    at_most (vc + sum_count_m ms) (max_total_values cfg) ->
    at_most (len (125 :: nest) + max_depth_m ms) (max_nesting_level cfg) ->
    Forall (member_ok cfg) ms ->
    exists q, bsteps p (l ++ 125 :: rest) = bsteps q (125 :: rest) /\
      M CC (125 :: nest) (vc + sum_count_m ms) (dl r (member_events ms)) q.

Lemma steps_app : forall a b p, bsteps p (a ++ b) = bsteps (bsteps p a) b.
Proof. intros. apply bsteps_app. Qed.
Lemma steps_cons : forall c l p, bsteps p (c :: l) = bsteps (bstep cfg cb p c) l.
Proof. reflexivity. Qed.

Lemma bare_case : forall t d v l, bare v -> events v = [(t, d)] -> count v = 1 ->
  (forall st nest vc r p, value_state st -> M st nest vc r p -> 0 <= fst r -> lengths_ok cfg v ->
     pend cfg t d st nest vc r (bsteps p l)) ->
  (root_allowed cfg v -> root_refused cfg t = false) -> Pv l v.
Proof.
  intros t d v l Hb He Hc Hp Hroot st nest vc r p rest Hs H Hv Hr Hm Hn Hl Hf.
  destruct (Hf Hb) as (c & rest' & -> & Hfc). rewrite He, Hc in *.
  destruct (Z_lt_le_dec (fst r) 0) as [E|E].
  - exists p. rewrite (M_neg cfg cb _ _ _ _ _ (l ++ c :: rest') H E), (M_neg cfg cb _ _ _ _ _ (c :: rest') H E).
    split; [reflexivity|]. rewrite dl_neg by exact E. eapply M_neg_any; eassumption.
  - destruct (follow_boundary c Hfc) as [B1 B2].
    destruct (pend_step cfg cb t d st nest vc r (bsteps p l) c) as (q & Q1 & Q2); try assumption.
    + apply Hp; assumption.
    + intros E0. apply Hroot. apply Hr. exact E0.
    + intros _. apply B2.
    + exists q. rewrite steps_app, !steps_cons, Q1. split; [reflexivity|exact Q2].
Qed.

Lemma ws_then_follow : forall w c rest, ws w -> follow c -> exists c' rest', w ++ c :: rest = c' :: rest' /\ follow c'.
Proof.
  intros w c rest Hw Hc. destruct Hw as [|x w Hx Hw]; cbn; [eauto|].
  eexists. eexists. split; [reflexivity|left; exact Hx].
Qed.

Lemma grammar_accepted :
  (forall l v, value l v -> Pv l v) /\ (forall l vs, elements l vs -> Pe l vs) /\
  (forall l ms, members l ms -> Pm l ms).
Proof.
  apply grammar_mut.
  - apply (bare_case JSON_NULL []); [exact Logic.I|reflexivity|reflexivity| |intros H; exact H].
    intros st nest vc r p Hs H E _. apply (M_literal cfg cb A_NULL JSON_NULL lit_null); (reflexivity || assumption).
  - apply (bare_case JSON_FALSE []); [exact Logic.I|reflexivity|reflexivity| |intros H; exact H].
    intros st nest vc r p Hs H E _. apply (M_literal cfg cb A_FALSE JSON_FALSE lit_false); (reflexivity || assumption).
  - apply (bare_case JSON_TRUE []); [exact Logic.I|reflexivity|reflexivity| |intros H; exact H].
    intros st nest vc r p Hs H E _. apply (M_literal cfg cb A_TRUE JSON_TRUE lit_true); (reflexivity || assumption).
  - intros l Hl. apply (bare_case JSON_NUMBER l); [exact Logic.I|reflexivity|reflexivity| |intros H; exact H].
    intros st nest vc r p Hs H E Ho. inversion Ho; subst. apply M_number; assumption.
  - (* strings *)
    intros c d Hc st nest vc r p rest Hs H Hv Hr Hm Hn Hl Hf. inversion Hl; subst. cbn [count] in Hm.
    exists (bsteps p (34 :: c ++ [34])). split; [apply steps_app|].
    replace (after nest) with (state_after JSON_STRING nest) by (destruct nest; reflexivity).
    cbn [events count]. eapply M_string; try eassumption. left; reflexivity.
  - (* empty array *)
    intros w Hw st nest vc r p rest Hs H Hv Hr Hm Hn Hl Hf. cbn in Hm, Hn.
    exists (bsteps p (91 :: w ++ [93])). split; [apply steps_app|].
    rewrite steps_cons, steps_app. change (events (VArr [])) with ([(begin_type 91, [])] ++ [(end_type 93, [])] : list event).
    rewrite dl_app. change (count (VArr [])) with 1.
    apply M_close with (st := CAN_SEE_VALUE + CAN_SEE_CLOSER); [left; reflexivity|left; reflexivity| |lia].
    apply M_ws; [exact Hw|].
    apply (M_open cfg cb 91 st nest vc r p (or_introl eq_refl) Hs H Hv Hr).
    + eapply at_most_le; [|exact Hm]. lia.
    + eapply at_most_le; [|exact Hn]. lia.
  - (* array *)
    intros l vs He IH st nest vc r p rest Hs H Hv Hr Hm Hn Hl Hf. inversion Hl; subst.
    cbn [count] in *. fold (sum_count vs) in *.
    change (depth (VArr vs)) with (1 + max_depth vs) in Hn.
    pose proof (sum_count_pos vs). pose proof (max_depth_pos vs).
    destruct (IH (CAN_SEE_VALUE + CAN_SEE_CLOSER) nest (vc + 1) (dl r [(begin_type 91, [])]) (bstep cfg cb p 91) rest)
      as (q & Q1 & Q2).
    + right; reflexivity.
    + apply (M_open cfg cb 91 st nest vc r p (or_introl eq_refl) Hs H Hv Hr).
      * eapply at_most_le; [|exact Hm]. lia.
      * eapply at_most_le; [|exact Hn]. lia.
    + lia.
    + eapply at_most_le; [|exact Hm]. lia.
    + rewrite len_cons. eapply at_most_le; [|exact Hn]. lia.
    + assumption.
    + exists (bstep cfg cb q 93). split.
      * cbn [app]. rewrite steps_cons, <- app_assoc. cbn [app]. rewrite Q1. reflexivity.
      * change (events (VArr vs)) with ([(begin_type 91, [])] ++ (flat_map events vs ++ [(end_type 93, [])])).
        rewrite !dl_app. replace (vc + (1 + sum_count vs)) with (vc + 1 + sum_count vs) by lia.
        apply M_close with (st := CC); [left; reflexivity|right; right; reflexivity|exact Q2|lia].
  - (* empty object *)
    intros w Hw st nest vc r p rest Hs H Hv Hr Hm Hn Hl Hf. cbn in Hm, Hn.
    exists (bsteps p (123 :: w ++ [125])). split; [apply steps_app|].
    rewrite steps_cons, steps_app. change (events (VObj [])) with ([(begin_type 123, [])] ++ [(end_type 125, [])] : list event).
    rewrite dl_app. change (count (VObj [])) with 1.
    apply M_close with (st := CAN_SEE_KEY + CAN_SEE_CLOSER); [right; reflexivity|right; left; reflexivity| |lia].
    apply M_ws; [exact Hw|].
    apply (M_open cfg cb 123 st nest vc r p (or_intror eq_refl) Hs H Hv Hr).
    + eapply at_most_le; [|exact Hm]. lia.
    + eapply at_most_le; [|exact Hn]. lia.
  - (* object *)
    intros l ms He IH st nest vc r p rest Hs H Hv Hr Hm Hn Hl Hf. inversion Hl; subst.
    cbn [count] in *. fold (sum_count_m ms) in *.
    change (depth (VObj ms)) with (1 + max_depth_m ms) in Hn.
    pose proof (sum_count_m_pos ms). pose proof (max_depth_m_pos ms).
    destruct (IH (CAN_SEE_KEY + CAN_SEE_CLOSER) nest (vc + 1) (dl r [(begin_type 123, [])]) (bstep cfg cb p 123) rest)
      as (q & Q1 & Q2).
    + right; reflexivity.
    + apply (M_open cfg cb 123 st nest vc r p (or_intror eq_refl) Hs H Hv Hr).
      * eapply at_most_le; [|exact Hm]. lia.
      * eapply at_most_le; [|exact Hn]. lia.
    + lia.
    + eapply at_most_le; [|exact Hm]. lia.
    + rewrite len_cons. eapply at_most_le; [|exact Hn]. lia.
    + assumption.
    + exists (bstep cfg cb q 125). split.
      * cbn [app]. rewrite steps_cons, <- app_assoc. cbn [app]. rewrite Q1. reflexivity.
      * change (events (VObj ms)) with ([(begin_type 123, [])] ++ (member_events ms ++ [(end_type 125, [])])).
        rewrite !dl_app. replace (vc + (1 + sum_count_m ms)) with (vc + 1 + sum_count_m ms) by lia.
        apply M_close with (st := CC); [right; reflexivity|right; right; reflexivity|exact Q2|lia].
  - (* one element *)
    intros w1 l v w2 Hw1 Hv IH Hw2 st nest vc r p rest Hs H Hvc Hm Hn Hl.
    inversion Hl; subst. cbn [sum_count fold_right max_depth] in *. rewrite Z.add_0_r in *.
    destruct (IH st (93 :: nest) vc r (bsteps p w1) (w2 ++ 93 :: rest)) as (q & Q1 & Q2); try assumption.
    + apply M_ws; assumption.
    + lia.
    + intros; lia.
    + eapply at_most_le; [|exact Hn]. lia.
    + intros _. apply ws_then_follow; [exact Hw2|]. right; right; left; reflexivity.
    + exists (bsteps q w2). split.
      * rewrite <- !app_assoc, !steps_app. rewrite !steps_app in Q1. exact Q1.
      * cbn [flat_map]. rewrite app_nil_r. apply M_ws; [exact Hw2|exact Q2].
  - (* more elements *)
    intros w1 l v w2 l' vs Hw1 Hv IH Hw2 He IHe st nest vc r p rest Hs H Hvc Hm Hn Hl.
    inversion Hl; subst. cbn [sum_count fold_right max_depth] in *.
    fold (sum_count vs) in *. fold (max_depth vs) in *.
    pose proof (sum_count_pos vs). pose proof (max_depth_pos vs). pose proof (count_pos v).
    destruct (IH st (93 :: nest) vc r (bsteps p w1) (w2 ++ 44 :: l' ++ 93 :: rest)) as (q & Q1 & Q2); try assumption.
    + apply M_ws; assumption.
    + lia.
    + intros; lia.
    + eapply at_most_le; [|exact Hm]. lia.
    + eapply at_most_le; [|exact Hn]. lia.
    + intros _. apply ws_then_follow; [exact Hw2|]. right; left; reflexivity.
    + destruct (IHe CAN_SEE_VALUE nest (vc + count v) (dl r (events v)) (bstep cfg cb (bsteps q w2) 44) rest)
        as (q' & Q3 & Q4).
      * left; reflexivity.
      * apply (M_comma cfg cb 93); [left; reflexivity|]. apply M_ws; [exact Hw2|exact Q2].
      * lia.
      * eapply at_most_le; [|exact Hm]. lia.
      * eapply at_most_le; [|exact Hn]. lia.
      * assumption.
      * exists q'. split.
        -- rewrite <- !app_assoc. cbn [app]. rewrite steps_app, Q1, steps_app, steps_cons. exact Q3.
        -- cbn [flat_map]. rewrite dl_app. replace (vc + (count v + sum_count vs)) with (vc + count v + sum_count vs) by lia.
           exact Q4.
  - (* one member *)
    intros w1 c d w2 w3 l v w4 Hw1 Hc Hw2 Hw3 Hv IH Hw4 st nest vc r p rest Hs H Hvc Hm Hn Hl.
    inversion Hl as [|x y [Hk Hlv] _]; subst. cbn [fst snd] in Hk, Hlv.
    cbn [sum_count_m fold_right max_depth_m snd] in *. rewrite Z.add_0_r in *.
    pose proof (count_pos v). pose proof (depth_pos v).
    destruct (IH CAN_SEE_VALUE (125 :: nest) (vc + 1) (dl r [(JSON_KEY, d)])
                (bsteps (bstep cfg cb (bsteps (bsteps (bsteps p w1) (34 :: c ++ [34])) w2) 58) w3) (w4 ++ 125 :: rest))
      as (q & Q1 & Q2).
    + left; reflexivity.
    + apply M_ws; [exact Hw3|]. apply M_colon. apply M_ws; [exact Hw2|].
      change CAN_SEE_COLON with (state_after JSON_KEY (125 :: nest)).
      apply (M_string cfg cb Hcfg JSON_KEY c d st); [right; reflexivity|exact Hc|exact Hs|apply M_ws; [exact Hw1|exact H]|lia| | |exact Hk].
      * intros; lia.
      * eapply at_most_le; [|exact Hm]. lia.
    + lia.
    + intros; lia.
    + eapply at_most_le; [|exact Hm]. lia.
    + eapply at_most_le; [|exact Hn]. lia.
    + exact Hlv.
    + intros _. apply ws_then_follow; [exact Hw4|]. right; right; right; reflexivity.
    + exists (bsteps q w4). split.
      * replace ((w1 ++ 34 :: c ++ 34 :: w2 ++ 58 :: w3 ++ l ++ w4) ++ 125 :: rest)
          with (w1 ++ (34 :: c ++ [34]) ++ w2 ++ 58 :: w3 ++ l ++ w4 ++ 125 :: rest)
          by (repeat first [rewrite <- app_assoc | progress cbn [app]]; reflexivity).
        rewrite (steps_app w1), (steps_app (34 :: c ++ [34])), (steps_app w2), steps_cons, (steps_app w3), Q1.
        apply steps_app.
      * unfold member_events. cbn [flat_map fst snd]. rewrite app_nil_r.
        change ((JSON_KEY, d) :: events v) with ([(JSON_KEY, d)] ++ events v).
        rewrite dl_app. replace (vc + (1 + count v)) with (vc + 1 + count v) by lia.
        apply M_ws; [exact Hw4|exact Q2].
  - (* more members *)
    intros w1 c d w2 w3 l v w4 l' ms Hw1 Hc Hw2 Hw3 Hv IH Hw4 He IHe st nest vc r p rest Hs H Hvc Hm Hn Hl.
    inversion Hl as [|x y [Hk Hlv] Hlr]; subst. cbn [fst snd] in Hk, Hlv.
    cbn [sum_count_m fold_right max_depth_m snd] in *.
    fold (sum_count_m ms) in *. fold (max_depth_m ms) in *.
    pose proof (sum_count_m_pos ms). pose proof (max_depth_m_pos ms).
    pose proof (count_pos v). pose proof (depth_pos v).
    destruct (IH CAN_SEE_VALUE (125 :: nest) (vc + 1) (dl r [(JSON_KEY, d)])
                (bsteps (bstep cfg cb (bsteps (bsteps (bsteps p w1) (34 :: c ++ [34])) w2) 58) w3)
                (w4 ++ 44 :: l' ++ 125 :: rest))
      as (q & Q1 & Q2).
    + left; reflexivity.
    + apply M_ws; [exact Hw3|]. apply M_colon. apply M_ws; [exact Hw2|].
      change CAN_SEE_COLON with (state_after JSON_KEY (125 :: nest)).
      apply (M_string cfg cb Hcfg JSON_KEY c d st); [right; reflexivity|exact Hc|exact Hs|apply M_ws; [exact Hw1|exact H]|lia| | |exact Hk].
      * intros; lia.
      * eapply at_most_le; [|exact Hm]. lia.
    + lia.
    + intros; lia.
    + eapply at_most_le; [|exact Hm]. lia.
    + eapply at_most_le; [|exact Hn]. lia.
    + exact Hlv.
    + intros _. apply ws_then_follow; [exact Hw4|]. right; left; reflexivity.
    + destruct (IHe CAN_SEE_KEY nest (vc + 1 + count v) (dl (dl r [(JSON_KEY, d)]) (events v))
                 (bstep cfg cb (bsteps q w4) 44) rest) as (q' & Q3 & Q4).
      * left; reflexivity.
      * apply (M_comma cfg cb 125); [right; reflexivity|]. apply M_ws; [exact Hw4|exact Q2].
      * lia.
      * eapply at_most_le; [|exact Hm]. lia.
      * eapply at_most_le; [|exact Hn]. lia.
      * exact Hlr.
      * exists q'. split.
        -- replace ((w1 ++ 34 :: c ++ 34 :: w2 ++ 58 :: w3 ++ l ++ w4 ++ 44 :: l') ++ 125 :: rest)
             with (w1 ++ (34 :: c ++ [34]) ++ w2 ++ 58 :: w3 ++ l ++ w4 ++ 44 :: l' ++ 125 :: rest)
             by (repeat first [rewrite <- app_assoc | progress cbn [app]]; reflexivity).
           rewrite (steps_app w1), (steps_app (34 :: c ++ [34])), (steps_app w2), steps_cons, (steps_app w3), Q1.
           rewrite (steps_app w4), steps_cons. exact Q3.
        -- unfold member_events. cbn [flat_map fst snd].
           change ((JSON_KEY, d) :: events v) with ([(JSON_KEY, d)] ++ events v).
           rewrite !dl_app. replace (vc + (1 + count v + sum_count_m ms)) with (vc + 1 + count v + sum_count_m ms) by lia.
           exact Q4.
Qed.

(** ** Documents *)

Lemma M_init : forall u : U, M CAN_SEE_VALUE [] 0 (0, u) (json_init u).
Proof. intros u. repeat split; discriminate. Qed.

Lemma M_fini : forall vc r p, M (after []) [] vc r p ->
  exists pos, json_fini cfg cb p = Some (fst r, pos, snd r).
Proof.
  intros vc r p (A & B & C & D). unfold json_fini.
  replace (p_st p =? ST_UNINITED) with false by (symmetry; apply Z.eqb_neq; exact C).
  destruct (Z_lt_le_dec (fst r) 0) as [E|E].
  - replace (p_err p <? 0) with true by (symmetry; apply Z.ltb_lt; lia). rewrite A, B. eexists; reflexivity.
  - replace (p_err p <? 0) with false by (symmetry; apply Z.ltb_ge; lia).
    destruct (D E) as (E1 & E2 & E3 & _). rewrite E1, E2, E3.
    change (has (after []) CAN_SEE_EOF) with true. cbv iota. rewrite A, B. eexists; reflexivity.
Qed.

Lemma document_accepted : forall l v u, document l v -> JsonSpec.within cfg v ->
  exists pos, json_fini cfg cb (bsteps (json_init u) l) =
    Some (fst (deliver cb 0 u (events v)), pos, snd (deliver cb 0 u (events v))).
Proof.
  intros l v u Hd (Hm & Hn & Hl & Hr). destruct Hd as [w1 l v w2 Hw1 Hv Hw2].
  rewrite steps_app.
  pose proof (M_ws cfg cb w1 Hw1 _ _ _ _ _ (M_init u)) as H1.
  destruct w2 as [|c w2].
  - rewrite app_nil_r.
    assert (forall t d, (forall st nest vc r p, value_state st -> M st nest vc r p -> 0 <= fst r ->
              pend cfg t d st nest vc r (bsteps p l)) ->
            events v = [(t, d)] -> count v = 1 -> (root_allowed cfg v -> root_refused cfg t = false) ->
            exists pos, json_fini cfg cb (bsteps (bsteps (json_init u) w1) l) =
              Some (fst (deliver cb 0 u (events v)), pos, snd (deliver cb 0 u (events v)))) as Hbare.
    { intros t d Hp He Hc Hroot. rewrite He.
      eapply (pend_fini cfg cb t d CAN_SEE_VALUE [] 0 (0, u)).
      - apply Hp; [left; reflexivity|exact H1|cbn; lia].
      - cbn; lia.
      - left; reflexivity.
      - lia.
      - intros _. apply Hroot. exact Hr.
      - rewrite Hc in Hm. exact Hm. }
    assert (~ bare v -> exists pos, json_fini cfg cb (bsteps (bsteps (json_init u) w1) l) =
              Some (fst (deliver cb 0 u (events v)), pos, snd (deliver cb 0 u (events v)))) as Hcomp.
    { intros Hnb.
      destruct (proj1 grammar_accepted l v Hv CAN_SEE_VALUE [] 0 (0, u) (bsteps (json_init u) w1) []) as (q & Q1 & Q2);
        try assumption; [left; reflexivity|lia|intros _; exact Hr|intros Hb; contradiction|].
      rewrite app_nil_r in Q1. rewrite Q1. change (bsteps q []) with q.
      eapply M_fini. exact Q2. }
    destruct Hv as [| | |l Hl'|c d Hc|w Hw|l vs He|w Hw|l ms He]; try (apply Hcomp; intros F; exact F).
    + apply (Hbare JSON_NULL []); try reflexivity.
      intros. apply (M_literal cfg cb A_NULL JSON_NULL lit_null); (reflexivity || assumption).
      intros H; exact H.
    + apply (Hbare JSON_FALSE []); try reflexivity.
      intros. apply (M_literal cfg cb A_FALSE JSON_FALSE lit_false); (reflexivity || assumption).
      intros H; exact H.
    + apply (Hbare JSON_TRUE []); try reflexivity.
      intros. apply (M_literal cfg cb A_TRUE JSON_TRUE lit_true); (reflexivity || assumption).
      intros H; exact H.
    + apply (Hbare JSON_NUMBER l); try reflexivity; [|intros H; exact H].
      intros. inversion Hl; subst. apply M_number; assumption.
  - destruct (proj1 grammar_accepted l v Hv CAN_SEE_VALUE [] 0 (0, u) (bsteps (json_init u) w1) (c :: w2)) as (q & Q1 & Q2);
      try assumption; [left; reflexivity|lia|intros _; exact Hr| |].
    { intros _. exists c, w2. split; [reflexivity|]. inversion Hw2; subst. left; assumption. }
    rewrite Q1. eapply M_fini. apply M_ws; [exact Hw2|exact Q2].
Qed.
End P.
