(** * Texts the main automaton reads, and the grammar

    [tail st nest vc k evs]: read from the state [st] with the open
    brackets [nest] and [vc] values seen, the text [k] ends a document and
    calls for the callbacks [evs]. *)
Require Import ZArith List Bool Lia.
From Verif Require Import Json JsonSpec JsonProofs JsonChunks JsonLength JsonStrings JsonNumbers JsonComplete JsonGrammar.
Import ListNotations.
Open Scope Z_scope.

Definition one_more (cfg : jconfig) (t : jtype) (vc : Z) : Prop :=
  (vc = 0 -> root_refused cfg t = false) /\ at_most (vc + 1) (max_total_values cfg).

Inductive scalar_text (cfg : jconfig) : list Z -> jvalue -> jtype -> list Z -> Prop :=
| st_null : scalar_text cfg lit_null VNull JSON_NULL []
| st_false : scalar_text cfg lit_false VFalse JSON_FALSE []
| st_true : scalar_text cfg lit_true VTrue JSON_TRUE []
| st_number : forall l, number l -> at_most (len l) (max_number_len cfg) ->
    scalar_text cfg l (VNum l) JSON_NUMBER l
| st_string : forall r d, chars r d -> at_most (len r) (max_string_len cfg) ->
    scalar_text cfg (34 :: r ++ [34]) (VStr r d) JSON_STRING d.

Inductive tail (cfg : jconfig) : Z -> list Z -> Z -> list Z -> list event -> Prop :=
| t_eof : forall vc, tail cfg CAN_SEE_EOF [] vc [] []
| t_ws : forall st nest vc c k evs, ws_byte c -> tail cfg st nest vc k evs -> tail cfg st nest vc (c :: k) evs
| t_open : forall o st nest vc k evs, o = 91 \/ o = 123 -> value_state st ->
    one_more cfg (begin_type o) vc -> at_most (len nest + 1) (max_nesting_level cfg) ->
    tail cfg (state_after (begin_type o) (closer_of o :: nest)) (closer_of o :: nest) (vc + 1) k evs ->
    tail cfg st nest vc (o :: k) ((begin_type o, []) :: evs)
| t_close : forall b st nest vc k evs, b = 93 \/ b = 125 -> close_state st ->
    tail cfg (after nest) nest vc k evs ->
    tail cfg st (b :: nest) vc (b :: k) ((end_type b, []) :: evs)
| t_comma : forall b nest vc k evs, b = 93 \/ b = 125 ->
    tail cfg (if b =? 93 then CAN_SEE_VALUE else CAN_SEE_KEY) (b :: nest) vc k evs ->
    tail cfg (CAN_SEE_COMMA + CAN_SEE_CLOSER) (b :: nest) vc (44 :: k) evs
| t_colon : forall nest vc k evs, tail cfg CAN_SEE_VALUE nest vc k evs ->
    tail cfg CAN_SEE_COLON nest vc (58 :: k) evs
| t_key : forall r d st nest vc k evs, open_state JSON_KEY st -> chars r d ->
    at_most (len r) (max_key_len cfg) -> one_more cfg JSON_KEY vc ->
    tail cfg CAN_SEE_COLON nest (vc + 1) k evs ->
    tail cfg st nest vc (34 :: r ++ 34 :: k) ((JSON_KEY, d) :: evs)
| t_scalar : forall l v t d st nest vc k evs, value_state st -> scalar_text cfg l v t d -> one_more cfg t vc ->
    tail cfg (after nest) nest (vc + 1) k evs ->
    tail cfg st nest vc (l ++ k) ((t, d) :: evs).

Section P.
Variable cfg : jconfig.
Local Notation tail := (tail cfg).

Lemma scalar_facts : forall l v t d, scalar_text cfg l v t d ->
  value l v /\ events v = [(t, d)] /\ count v = 1 /\ depth v = 0 /\ lengths_ok cfg v /\ l <> [] /\
  (root_refused cfg t = false -> root_allowed cfg v).
Proof.
  intros l v t d H. destruct H as [| | |l Hn Hl|r d Hc Hl].
  1-3: repeat split; try constructor; try discriminate; intros E; exact E.
  - repeat split; try (constructor; assumption).
    + destruct (number_head l Hn) as (c & l' & -> & _). discriminate.
    + intros E; exact E.
  - repeat split; try (constructor; assumption); try discriminate. intros E; exact E.
Qed.

Lemma after_inv : forall nest, after nest = CAN_SEE_EOF \/ after nest = CC.
Proof. intros []; [left|right]; reflexivity. Qed.

(** States are told apart. *)
Ltac states H :=
  first [ destruct H as [H|H]; discriminate H
        | destruct H as [H|[H|H]]; discriminate H
        | discriminate H ].

(** Read to the next byte that is not white space. *)
Lemma cc_inv : forall b nest vc k evs, tail CC (b :: nest) vc k evs ->
  exists w k', ws w /\ (length k' < length k)%nat /\
    ((k = w ++ b :: k' /\ exists evs', evs = (end_type b, []) :: evs' /\ tail (after nest) nest vc k' evs') \/
     (k = w ++ 44 :: k' /\ tail (if b =? 93 then CAN_SEE_VALUE else CAN_SEE_KEY) (b :: nest) vc k' evs)).
Proof.
  intros b nest vc k evs H. remember CC as st. remember (b :: nest) as ne. revert b nest Heqst Heqne.
  induction H; intros b0 nest0 Hst Hne; subst.
  - discriminate.
  - destruct (IHtail b0 nest0 eq_refl eq_refl) as (w & k' & A & B & C).
    exists (c :: w), k'. split; [constructor; assumption|]. split; [cbn; lia|].
    destruct C as [(-> & C)|(-> & C)]; [left|right]; split; try reflexivity; exact C.
  - states H0.
  - inversion Hne; subst. exists [], k. split; [constructor|]. split; [cbn; lia|]. left.
    split; [reflexivity|]. exists evs. split; [reflexivity|assumption].
  - inversion Hne; subst. exists [], k. split; [constructor|]. split; [cbn; lia|]. right.
    split; [reflexivity|assumption].
  - discriminate.
  - states H.
  - states H.
Qed.

Lemma colon_inv : forall nest vc k evs, tail CAN_SEE_COLON nest vc k evs ->
  exists w k', k = w ++ 58 :: k' /\ ws w /\ tail CAN_SEE_VALUE nest vc k' evs.
Proof.
  intros nest vc k evs H. remember CAN_SEE_COLON as st. revert Heqst.
  induction H; intros Hst; subst; try discriminate.
  - destruct (IHtail eq_refl) as (w & k' & -> & A & B). exists (c :: w), k'.
    split; [reflexivity|]. split; [constructor; assumption|exact B].
  - states H0.
  - states H0.
  - exists [], k. split; [reflexivity|]. split; [constructor|assumption].
  - states H.
  - states H.
Qed.

Lemma eof_inv : forall vc k evs, tail CAN_SEE_EOF [] vc k evs -> ws k /\ evs = [].
Proof.
  intros vc k evs H. remember CAN_SEE_EOF as st. remember (@nil Z) as ne. revert Heqst Heqne.
  induction H; intros Hst Hne; subst; try discriminate.
  - split; [constructor|reflexivity].
  - destruct (IHtail eq_refl eq_refl) as [A B]. split; [constructor; assumption|exact B].
  - states H0.
  - states H.
  - states H.
Qed.

Lemma key_inv : forall st nest vc k evs, open_state JSON_KEY st -> tail st nest vc k evs ->
  exists w, ws w /\
   ((exists r d k' evs', k = w ++ 34 :: r ++ 34 :: k' /\ evs = (JSON_KEY, d) :: evs' /\ chars r d /\
      at_most (len r) (max_key_len cfg) /\ one_more cfg JSON_KEY vc /\ tail CAN_SEE_COLON nest (vc + 1) k' evs') \/
    (exists b nest' k' evs', nest = b :: nest' /\ k = w ++ b :: k' /\ evs = (end_type b, []) :: evs' /\
      st = CAN_SEE_KEY + CAN_SEE_CLOSER /\ tail (after nest') nest' vc k' evs')).
Proof.
  intros st nest vc k evs Hst H. induction H; subst.
  - states Hst.
  - destruct (IHtail Hst) as (w & A & B). exists (c :: w). split; [constructor; assumption|].
    destruct B as [(r & d & k' & evs' & -> & B)|(b & n & k' & evs' & -> & -> & B)]; [left|right].
    + exists r, d, k', evs'. split; [reflexivity|exact B].
    + exists b, n, k', evs'. split; [reflexivity|]. split; [reflexivity|exact B].
  - destruct Hst as [-> | ->]; states H0.
  - exists []. split; [constructor|]. right. exists b, nest, k, evs.
    split; [reflexivity|]. split; [reflexivity|]. split; [reflexivity|]. split; [|assumption].
    destruct Hst as [-> | ->]; [destruct H0 as [H0|[H0|H0]]; discriminate H0|reflexivity].
  - states Hst.
  - states Hst.
  - exists []. split; [constructor|]. left. exists r, d, k, evs. repeat split; try assumption; apply H2.
  - destruct Hst as [-> | ->]; states H.
Qed.

(** The first byte of a value, or the closer of an empty array. *)
Lemma value_inv : forall st nest vc k evs, value_state st -> tail st nest vc k evs ->
  exists w, ws w /\
   ((exists o k' evs', (o = 91 \/ o = 123) /\ k = w ++ o :: k' /\ evs = (begin_type o, []) :: evs' /\
       one_more cfg (begin_type o) vc /\ at_most (len nest + 1) (max_nesting_level cfg) /\
       tail (state_after (begin_type o) (closer_of o :: nest)) (closer_of o :: nest) (vc + 1) k' evs') \/
    (exists l v t d k' evs', scalar_text cfg l v t d /\ k = w ++ l ++ k' /\ evs = (t, d) :: evs' /\
       one_more cfg t vc /\ tail (after nest) nest (vc + 1) k' evs') \/
    (exists b nest' k' evs', nest = b :: nest' /\ k = w ++ b :: k' /\ evs = (end_type b, []) :: evs' /\
      st = CAN_SEE_VALUE + CAN_SEE_CLOSER /\ tail (after nest') nest' vc k' evs')).
Proof.
  intros st nest vc k evs Hst H. induction H; subst.
  - states Hst.
  - destruct (IHtail Hst) as (w & A & B). exists (c :: w). split; [constructor; assumption|].
    destruct B as [(o & k' & evs' & Ho & -> & B)|[(l & v & t & d & k' & evs' & Hs & -> & B)|(b & n & k' & evs' & -> & -> & B)]];
      [left|right; left|right; right].
    + exists o, k', evs'. split; [exact Ho|]. split; [reflexivity|exact B].
    + exists l, v, t, d, k', evs'. split; [exact Hs|]. split; [reflexivity|exact B].
    + exists b, n, k', evs'. split; [reflexivity|]. split; [reflexivity|exact B].
  - exists []. split; [constructor|]. left. exists o, k, evs. repeat split; try assumption; apply H1.
  - exists []. split; [constructor|]. right. right. exists b, nest, k, evs.
    split; [reflexivity|]. split; [reflexivity|]. split; [reflexivity|]. split; [|assumption].
    destruct Hst as [-> | ->]; [destruct H0 as [H0|[H0|H0]]; discriminate H0|reflexivity].
  - states Hst.
  - states Hst.
  - destruct Hst as [-> | ->]; states H.
  - exists []. split; [constructor|]. right. left. exists l, v, t, d, k, evs. repeat split; try assumption; apply H1.
Qed.

Definition VV (N : nat) : Prop := forall k st nest vc evs, (length k <= N)%nat -> value_state st -> 0 <= vc ->
  at_most (len nest) (max_nesting_level cfg) -> tail st nest vc k evs ->
  (exists w l v k' evs', k = w ++ l ++ k' /\ ws w /\ value l v /\ evs = events v ++ evs' /\
     tail (after nest) nest (vc + count v) k' evs' /\ (length k' < length k)%nat /\
     (vc = 0 -> root_allowed cfg v) /\ at_most (vc + count v) (max_total_values cfg) /\
     at_most (len nest + depth v) (max_nesting_level cfg) /\ lengths_ok cfg v) \/
  (exists w b nest' k' evs', ws w /\ nest = b :: nest' /\ k = w ++ b :: k' /\ evs = (end_type b, []) :: evs' /\
     st = CAN_SEE_VALUE + CAN_SEE_CLOSER /\ tail (after nest') nest' vc k' evs').

Definition EE (N : nat) : Prop := forall k st nest vc evs, (length k <= N)%nat -> value_state st -> 0 <= vc ->
  at_most (len (93 :: nest)) (max_nesting_level cfg) -> tail st (93 :: nest) vc k evs ->
  (exists l vs k' evs', k = l ++ 93 :: k' /\ elements l vs /\
     evs = flat_map events vs ++ (JSON_ARRAY_END, []) :: evs' /\
     tail (after nest) nest (vc + sum_count vs) k' evs' /\ (length k' < length k)%nat /\
     at_most (vc + sum_count vs) (max_total_values cfg) /\
     at_most (len (93 :: nest) + max_depth vs) (max_nesting_level cfg) /\ Forall (lengths_ok cfg) vs) \/
  (exists w k' evs', ws w /\ k = w ++ 93 :: k' /\ evs = (JSON_ARRAY_END, []) :: evs' /\
     st = CAN_SEE_VALUE + CAN_SEE_CLOSER /\ tail (after nest) nest vc k' evs').

Definition MM (N : nat) : Prop := forall k st nest vc evs, (length k <= N)%nat -> open_state JSON_KEY st -> 0 <= vc ->
  at_most (len (125 :: nest)) (max_nesting_level cfg) -> tail st (125 :: nest) vc k evs ->
  (exists l ms k' evs', k = l ++ 125 :: k' /\ members l ms /\
     evs = member_events ms ++ (JSON_OBJECT_END, []) :: evs' /\
     tail (after nest) nest (vc + sum_count_m ms) k' evs' /\ (length k' < length k)%nat /\
     at_most (vc + sum_count_m ms) (max_total_values cfg) /\
     at_most (len (125 :: nest) + max_depth_m ms) (max_nesting_level cfg) /\ Forall (member_ok cfg) ms) \/
  (exists w k' evs', ws w /\ k = w ++ 125 :: k' /\ evs = (JSON_OBJECT_END, []) :: evs' /\
     st = CAN_SEE_KEY + CAN_SEE_CLOSER /\ tail (after nest) nest vc k' evs').

Ltac lens := repeat (progress (rewrite ?app_length in *; cbn [length] in * )); lia.

Lemma VV_step : forall N, EE N -> MM N -> VV (S N).
Proof.
  intros N HE HM k st nest vc evs HN Hst Hvc Hne H.
  destruct (value_inv _ _ _ _ _ Hst H) as (w & Hw & [(o & k' & evs' & Ho & -> & -> & [O1 O2] & On & H1)|
    [(l & v & t & d & k' & evs' & Hs & -> & -> & [O1 O2] & H1)|(b & n & k' & evs' & -> & -> & -> & -> & H1)]]).
  - left. destruct Ho as [-> | ->].
    + change (begin_type 91) with JSON_ARRAY_BEG in *. change (closer_of 91) with 93 in *.
      destruct (HE k' (CAN_SEE_VALUE + CAN_SEE_CLOSER) nest (vc + 1) evs' ltac:(lens) (or_intror eq_refl) ltac:(lia) ltac:(rewrite len_cons, Z.add_comm; exact On) H1)
        as [(l & vs & k2 & evs2 & -> & Hel & -> & H2 & Hlen & L1 & L2 & L3)|(w2 & k2 & evs2 & Hw2 & -> & -> & _ & H2)].
      * exists w, (91 :: l ++ [93]), (VArr vs), k2, evs2.
        change (count (VArr vs)) with (1 + sum_count vs). change (depth (VArr vs)) with (1 + max_depth vs).
        split; [cbn [app]; rewrite <- app_assoc; reflexivity|].
        split; [exact Hw|]. split; [constructor; exact Hel|].
        split; [cbn [events app]; rewrite <- app_assoc; reflexivity|].
        split; [rewrite Z.add_assoc; exact H2|]. split; [lens|].
        split; [exact O1|]. split; [rewrite Z.add_assoc; exact L1|].
        split; [rewrite len_cons in L2; rewrite Z.add_assoc, (Z.add_comm (len nest)); exact L2|].
        constructor. exact L3.
      * exists w, (91 :: w2 ++ [93]), (VArr []), k2, evs2.
        split; [cbn [app]; rewrite <- app_assoc; reflexivity|].
        split; [exact Hw|]. split; [constructor; exact Hw2|]. split; [reflexivity|].
        split; [exact H2|]. split; [lens|]. split; [exact O1|]. split; [exact O2|].
        split; [exact On|]. constructor. constructor.
    + change (begin_type 123) with JSON_OBJECT_BEG in *. change (closer_of 123) with 125 in *.
      destruct (HM k' (CAN_SEE_KEY + CAN_SEE_CLOSER) nest (vc + 1) evs' ltac:(lens) (or_intror eq_refl) ltac:(lia) ltac:(rewrite len_cons, Z.add_comm; exact On) H1)
        as [(l & vs & k2 & evs2 & -> & Hel & -> & H2 & Hlen & L1 & L2 & L3)|(w2 & k2 & evs2 & Hw2 & -> & -> & _ & H2)].
      * exists w, (123 :: l ++ [125]), (VObj vs), k2, evs2.
        change (count (VObj vs)) with (1 + sum_count_m vs). change (depth (VObj vs)) with (1 + max_depth_m vs).
        split; [cbn [app]; rewrite <- app_assoc; reflexivity|].
        split; [exact Hw|]. split; [constructor; exact Hel|].
        split; [cbn [events app]; rewrite <- app_assoc; reflexivity|].
        split; [rewrite Z.add_assoc; exact H2|]. split; [lens|].
        split; [exact O1|]. split; [rewrite Z.add_assoc; exact L1|].
        split; [rewrite len_cons in L2; rewrite Z.add_assoc, (Z.add_comm (len nest)); exact L2|].
        constructor. exact L3.
      * exists w, (123 :: w2 ++ [125]), (VObj []), k2, evs2.
        split; [cbn [app]; rewrite <- app_assoc; reflexivity|].
        split; [exact Hw|]. split; [constructor; exact Hw2|]. split; [reflexivity|].
        split; [exact H2|]. split; [lens|]. split; [exact O1|]. split; [exact O2|].
        split; [exact On|]. constructor. constructor.
  - left. destruct (scalar_facts _ _ _ _ Hs) as (F1 & F2 & F3 & F4 & F5 & F6 & F7).
    exists w, l, v, k', evs'. rewrite F2, F3, F4, Z.add_0_r.
    split; [reflexivity|]. split; [exact Hw|]. split; [exact F1|]. split; [reflexivity|]. split; [exact H1|].
    split; [destruct l; [congruence|lens]|].
    split; [intros E; apply F7; apply O1; exact E|]. split; [exact O2|]. split; [|exact F5].
    exact Hne.
  - right. exists w, b, n, k', evs'. repeat split; assumption.
Qed.

Lemma EE_step : forall N, VV (S N) -> EE N -> EE (S N).
Proof.
  intros N HV HE k st nest vc evs HN Hst Hvc Hne H.
  destruct (HV k st (93 :: nest) vc evs HN Hst Hvc Hne H)
    as [(w & l & v & k' & evs' & -> & Hw & Hv & -> & H1 & Hlen & _ & L1 & L2 & L3)
       |(w & b & n & k' & evs' & Hw & E & -> & -> & Es & H1)].
  2:{ right. inversion E; subst. exists w, k', evs'. repeat split; assumption. }
  left. change (after (93 :: nest)) with CC in H1. pose proof (count_pos v).
  destruct (cc_inv _ _ _ _ _ H1) as (w2 & k2 & Hw2 & Hlen2 & [(-> & evs2 & -> & H2)|(-> & H2)]).
  - exists (w ++ l ++ w2), [v], k2, evs2.
    cbn [sum_count fold_right max_depth flat_map]. rewrite !Z.add_0_r, app_nil_r.
    split; [rewrite <- !app_assoc; reflexivity|]. split; [constructor; assumption|].
    split; [reflexivity|]. split; [exact H2|]. split; [lens|]. split; [exact L1|].
    split; [rewrite Z.max_l by apply depth_pos; exact L2|]. constructor; [exact L3|constructor].
  - change (if 93 =? 93 then CAN_SEE_VALUE else CAN_SEE_KEY) with CAN_SEE_VALUE in H2.
    destruct (HE k2 CAN_SEE_VALUE nest (vc + count v) evs' ltac:(lens) (or_introl eq_refl) ltac:(lia) Hne H2)
      as [(l2 & vs & k3 & evs3 & -> & Hel & -> & H3 & Hlen3 & M1 & M2 & M3)|(w3 & k3 & evs3 & _ & _ & _ & F & _)];
      [|discriminate F].
    exists (w ++ l ++ w2 ++ 44 :: l2), (v :: vs), k3, evs3.
    cbn [sum_count fold_right max_depth flat_map]. fold (sum_count vs). fold (max_depth vs).
    split; [repeat first [rewrite <- app_assoc | progress cbn [app]]; reflexivity|].
    split; [constructor; assumption|]. split; [rewrite <- app_assoc; reflexivity|].
    split; [rewrite Z.add_assoc; exact H3|]. split; [lens|]. split; [rewrite Z.add_assoc; exact M1|].
    split; [|constructor; assumption]. unfold at_most in *. lia.
Qed.

Lemma MM_step : forall N, VV N -> MM N -> MM (S N).
Proof.
  intros N HV HM k st nest vc evs HN Hst Hvc Hne H.
  destruct (key_inv _ _ _ _ _ Hst H) as (w & Hw & [(r & d & k0 & evs0 & -> & -> & Hc & Hr & [_ O2] & H0)
     |(b & n & k' & evs' & E & -> & -> & Es & H1)]).
  2:{ right. inversion E; subst. exists w, k', evs'. repeat split; assumption. }
  left. destruct (colon_inv _ _ _ _ H0) as (w2 & k1 & -> & Hw2 & H1').
  destruct (HV k1 CAN_SEE_VALUE (125 :: nest) (vc + 1) evs0 ltac:(lens) (or_introl eq_refl) ltac:(lia) Hne H1')
    as [(w3 & l & v & k' & evs' & -> & Hw3 & Hv & -> & H1 & Hlen & _ & L1 & L2 & L3)
       |(? & ? & ? & ? & ? & _ & _ & _ & _ & F & _)]; [|discriminate F].
  change (after (125 :: nest)) with CC in H1. pose proof (count_pos v) as Hcv.
  destruct (cc_inv _ _ _ _ _ H1) as (w4 & k2 & Hw4 & Hlen2 & [(-> & evs2 & -> & H2)|(-> & H2)]).
  - exists (w ++ 34 :: r ++ 34 :: w2 ++ 58 :: w3 ++ l ++ w4), [((r, d), v)], k2, evs2.
    unfold member_events.
    cbn [sum_count_m fold_right max_depth_m flat_map snd fst]. rewrite !Z.add_0_r, app_nil_r.
    split; [repeat first [rewrite <- app_assoc | progress cbn [app]]; reflexivity|]. split; [constructor; assumption|].
    split; [reflexivity|]. split; [rewrite Z.add_assoc; exact H2|]. split; [lens|].
    split; [rewrite Z.add_assoc; exact L1|].
    split; [rewrite Z.max_l by apply depth_pos; exact L2|]. constructor; [split; assumption|constructor].
  - change (if 125 =? 93 then CAN_SEE_VALUE else CAN_SEE_KEY) with CAN_SEE_KEY in H2.
    destruct (HM k2 CAN_SEE_KEY nest (vc + 1 + count v) evs' ltac:(lens) (or_introl eq_refl) ltac:(lia) Hne H2)
      as [(l2 & vs & k3 & evs3 & -> & Hel & -> & H3 & Hlen3 & M1 & M2 & M3)|(w5 & k3 & evs3 & _ & _ & _ & F & _)];
      [|discriminate F].
    exists (w ++ 34 :: r ++ 34 :: w2 ++ 58 :: w3 ++ l ++ w4 ++ 44 :: l2), (((r, d), v) :: vs), k3, evs3.
    unfold member_events.
    cbn [sum_count_m fold_right max_depth_m flat_map snd fst]. fold (sum_count_m vs). fold (max_depth_m vs).
    split; [repeat first [rewrite <- app_assoc | progress cbn [app]]; reflexivity|].
    split; [constructor; assumption|].
    split; [cbn [app]; rewrite <- app_assoc; reflexivity|].
    replace (vc + (1 + count v + sum_count_m vs)) with (vc + 1 + count v + sum_count_m vs) by lia.
    split; [exact H3|]. split; [lens|]. split; [exact M1|].
    split; [|constructor; [split; assumption|assumption]]. unfold at_most in *. lia.
Qed.

Lemma all_steps : forall N, VV N /\ EE N /\ MM N.
Proof.
  assert (VV 0 /\ EE 0 /\ MM 0) as Z0.
  { split; [|split].
    - intros k st nest vc evs HN Hst Hvc Hne H. destruct k; [|cbn in HN; lia].
      destruct (value_inv _ _ _ _ _ Hst H) as (w & Hw & [(o & k' & evs' & Ho & E & _)|
        [(l & v & t & d & k' & evs' & Hs & E & _)|(b & n & k' & evs' & _ & E & _)]]).
      + destruct w; discriminate E.
      + destruct (scalar_facts _ _ _ _ Hs) as (_ & _ & _ & _ & _ & F & _).
        destruct w; [|discriminate E]. destruct l; [congruence|discriminate E].
      + destruct w; discriminate E.
    - intros k st nest vc evs HN Hst Hvc Hne H. destruct k; [|cbn in HN; lia].
      destruct (value_inv _ _ _ _ _ Hst H) as (w & Hw & [(o & k' & evs' & Ho & E & _)|
        [(l & v & t & d & k' & evs' & Hs & E & _)|(b & n & k' & evs' & _ & E & _)]]).
      + destruct w; discriminate E.
      + destruct (scalar_facts _ _ _ _ Hs) as (_ & _ & _ & _ & _ & F & _).
        destruct w; [|discriminate E]. destruct l; [congruence|discriminate E].
      + destruct w; discriminate E.
    - intros k st nest vc evs HN Hst Hvc Hne H. destruct k; [|cbn in HN; lia].
      destruct (key_inv _ _ _ _ _ Hst H) as (w & Hw & [(r & d & k0 & evs0 & E & _)|(b & n & k' & evs' & _ & E & _)]);
        destruct w; discriminate E. }
  induction N as [|N (IV & IE & IM)]; [exact Z0|].
  pose proof (VV_step N IE IM) as KV. split; [exact KV|]. split; [apply EE_step; assumption|apply MM_step; assumption].
Qed.

Lemma tail_document : 0 <= max_nesting_level cfg -> forall l evs, tail CAN_SEE_VALUE [] 0 l evs ->
  exists v, document l v /\ JsonSpec.within cfg v /\ evs = events v.
Proof.
  intros Hn l evs H.
  destruct (proj1 (all_steps (length l)) l CAN_SEE_VALUE [] 0 evs (le_n _) (or_introl eq_refl) (Z.le_refl _) (or_intror Hn) H)
    as [(w & l1 & v & k' & evs' & -> & Hw & Hv & -> & H1 & _ & L0 & L1 & L2 & L3)|(? & ? & ? & ? & ? & _ & F & _)];
    [|discriminate F].
  destruct (eof_inv _ _ _ H1) as [Hw2 ->]. exists v. rewrite app_nil_r.
  split; [constructor; assumption|]. split; [|reflexivity].
  split; [exact L1|]. split; [exact L2|]. split; [exact L3|apply L0; reflexivity].
Qed.
End P.
