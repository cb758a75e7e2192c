(** * The string automaton accepts exactly the strings of the specification *)
Require Import ZArith List Bool Lia.
From Verif Require Import Json JsonSpec JsonProofs.
Import ListNotations.
Open Scope Z_scope.
Ltac Zify.zify_post_hook ::= Z.to_euclidean_division_equations.

(** ** Bytes *)

Lemma land_192 : forall b, 0 <= b < 256 -> (Z.land b 192 =? 128) = (128 <=? b) && (b <=? 191).
Proof.
  intros b Hb.
  assert (forall n, (n < 256)%nat ->
     (Z.land (Z.of_nat n) 192 =? 128) = (128 <=? Z.of_nat n) && (Z.of_nat n <=? 191)) as H.
  { assert (forallb (fun n => Bool.eqb (Z.land (Z.of_nat n) 192 =? 128)
              ((128 <=? Z.of_nat n) && (Z.of_nat n <=? 191))) (seq 0 256) = true) as H by (vm_compute; reflexivity).
    rewrite forallb_forall in H. intros n Hn. apply eqb_prop. apply H. apply in_seq. lia. }
  specialize (H (Z.to_nat b)). rewrite Z2Nat.id in H by lia. apply H. lia.
Qed.

Lemma lor_add : forall a b, 0 <= b < 16 -> Z.lor (Z.shiftl a 4) b = 16 * a + b.
Proof.
  intros a b Hb.
  assert (Z.land (Z.shiftl a 4) b = 0) as L.
  { apply Z.bits_inj'. intros n Hn. rewrite Z.land_spec, Z.bits_0.
    destruct (Z_lt_le_dec n 4).
    - rewrite Z.shiftl_spec_low by lia. reflexivity.
    - replace (Z.testbit b n) with false; [apply andb_false_r|].
      symmetry. destruct (Z.eq_dec b 0) as [->|Hn0]; [apply Z.bits_0|].
      apply Z.bits_above_log2; [lia|].
      assert (Z.log2 b < 4) by (apply Z.log2_lt_pow2; lia). lia. }
  rewrite <- Z.lxor_lor by exact L. rewrite <- Z.add_nocarry_lxor by exact L.
  rewrite Z.shiftl_mul_pow2 by lia. lia.
Qed.

Lemma small : forall (f g : Z -> Z) (n : nat),
  forallb (fun k => f (Z.of_nat k) =? g (Z.of_nat k)) (seq 0 n) = true ->
  forall x, 0 <= x < Z.of_nat n -> f x = g x.
Proof.
  intros f g n H x Hx. rewrite forallb_forall in H. specialize (H (Z.to_nat x)).
  rewrite Z2Nat.id in H by lia. apply Z.eqb_eq. apply H. apply in_seq. lia.
Qed.

Lemma lor_128 : forall x, 0 <= x < 64 -> Z.lor 128 x = 128 + x.
Proof. apply (small (Z.lor 128) (Z.add 128) 64). vm_compute. reflexivity. Qed.
Lemma lor_192 : forall x, 0 <= x < 32 -> Z.lor 192 x = 192 + x.
Proof. apply (small (Z.lor 192) (Z.add 192) 32). vm_compute. reflexivity. Qed.
Lemma lor_224 : forall x, 0 <= x < 16 -> Z.lor 224 x = 224 + x.
Proof. apply (small (Z.lor 224) (Z.add 224) 16). vm_compute. reflexivity. Qed.
Lemma lor_240 : forall x, 0 <= x < 8 -> Z.lor 240 x = 240 + x.
Proof. apply (small (Z.lor 240) (Z.add 240) 8). vm_compute. reflexivity. Qed.

Lemma utf8_of_utf8 : forall c, 0 <= c <= 1114111 -> utf8_of c = utf8 c.
Proof.
  intros c Hc. unfold utf8_of, utf8.
  assert (forall a k, 0 <= k -> Z.land a (Z.ones k) = a mod 2 ^ k) as L by (intros; apply Z.land_ones; assumption).
  pose proof (fun a => L a 6 ltac:(lia)) as L6. pose proof (fun a => L a 5 ltac:(lia)) as L5.
  pose proof (fun a => L a 4 ltac:(lia)) as L4. pose proof (fun a => L a 3 ltac:(lia)) as L3.
  change (Z.ones 6) with 63 in L6. change (Z.ones 5) with 31 in L5.
  change (Z.ones 4) with 15 in L4. change (Z.ones 3) with 7 in L3.
  change (2 ^ 6) with 64 in L6. change (2 ^ 5) with 32 in L5.
  change (2 ^ 4) with 16 in L4. change (2 ^ 3) with 8 in L3.
  rewrite !L6, !L5, !L4, !L3, !Z.shiftr_div_pow2 by lia.
  change (2 ^ 6) with 64. change (2 ^ 12) with 4096. change (2 ^ 18) with 262144.
  clear L L6 L5 L4 L3.
  destruct (c <=? 127) eqn:E1; destruct (c <? 128) eqn:E1'; try lia; [reflexivity|].
  destruct (c <=? 2047) eqn:E2; destruct (c <? 2048) eqn:E2'; try lia.
  { rewrite lor_192, lor_128 by lia. replace (c / 64 mod 32) with (c / 64) by lia. reflexivity. }
  destruct (c <=? 65535) eqn:E3; destruct (c <? 65536) eqn:E3'; try lia.
  { rewrite lor_224, !lor_128 by lia. replace (c / 4096 mod 16) with (c / 4096) by lia. reflexivity. }
  rewrite lor_240, !lor_128 by lia. replace (c / 262144 mod 8) with (c / 262144) by lia. reflexivity.
Qed.

Lemma utf8_nonempty : forall c, utf8 c <> [].
Proof. intros. unfold utf8. destruct (_ <? _); [discriminate|]. destruct (_ <? _); [discriminate|].
  destruct (_ <? _); discriminate. Qed.

Lemma xdigit_hex : forall c v, hex_digit c v -> is_xdigit c = true /\ xdigit_val c = v /\ 0 <= v < 16.
Proof.
  intros c v H. unfold hex_digit, is_xdigit, xdigit_val, is_digit, is_in in *.
  destruct H as [[A ->]|[[A ->]|[A ->]]].
  - replace ((48 <=? c) && (c <=? 57)) with true by lia. cbn. lia.
  - replace ((48 <=? c) && (c <=? 57)) with false by lia.
    replace ((97 <=? c) && (c <=? 102)) with true by lia. cbn. lia.
  - replace ((48 <=? c) && (c <=? 57)) with false by lia.
    replace ((97 <=? c) && (c <=? 102)) with false by lia.
    replace ((65 <=? c) && (c <=? 70)) with true by lia. cbn. lia.
Qed.

Lemma hex_xdigit : forall c, is_xdigit c = true -> hex_digit c (xdigit_val c) /\ 0 <= xdigit_val c < 16.
Proof.
  intros c. unfold hex_digit, is_xdigit, xdigit_val, is_digit, is_in.
  destruct ((48 <=? c) && (c <=? 57)) eqn:E1; cbn [orb]; [lia|].
  destruct ((97 <=? c) && (c <=? 102)) eqn:E2; cbn [orb]; [lia|]. lia.
Qed.

Lemma escapes_simple : forall e c, In (e, c) escapes -> simple_escape e = Some c /\ e <> 117.
Proof.
  intros e c H. unfold escapes in H. cbn [In] in H.
  repeat (destruct H as [H|H]; [inversion H; subst; split; [reflexivity|lia]|]). destruct H.
Qed.

Lemma simple_escapes : forall e c, simple_escape e = Some c -> In (e, c) escapes.
Proof.
  intros e c. unfold simple_escape, escapes. cbn [In].
  repeat (match goal with |- context [if ?e =? ?k then _ else _] => destruct (Z.eqb_spec e k) end;
    [intros K; inversion K; subst; tauto|]). discriminate.
Qed.

Lemma len_app : forall a b : list Z, len (a ++ b) = len a + len b.
Proof. intros. unfold len. rewrite app_length. lia. Qed.
Lemma len_cons : forall a (b : list Z), len (a :: b) = 1 + len b.
Proof. intros. unfold len. cbn [length]. lia. Qed.
Lemma len_nonneg : forall a, 0 <= len a.
Proof. intros. unfold len. lia. Qed.
Lemma hex4_len : forall h c, hex4 h c -> len h = 4.
Proof. intros h c []. reflexivity. Qed.

(** ** One step of the string automaton *)
Section P.
Context {U : Type}.
Variable cfg : jconfig.
Variable cb : jtype -> list Z -> U -> Z * U.
Implicit Types p q : parser U.

(** Everything a string leaves alone until it ends. *)
Definition same p q : Prop :=
  p_err q = p_err p /\ p_user q = p_user p /\ p_st q = p_st p /\ p_nest q = p_nest p /\
  p_vcount q = p_vcount p /\ p_auto q = p_auto p /\ p_lcl q = p_lcl p /\ p_epos q = p_epos p.

Lemma same_refl : forall p, same p p.
Proof. intros. repeat split. Qed.
Lemma same_trans : forall p q r, same p q -> same q r -> same p r.
Proof. unfold same. intros. intuition congruence. Qed.

(** [q] is [p], [n] bytes further into the string, having decoded [d]. *)
Record at_ p (n : Z) (d : list Z) (sub c0 c1 : Z) q : Prop := At {
  at_same : same p q;
  at_sub : p_sub q = sub;
  at_c0 : p_cp0 q = c0;
  at_c1 : p_cp1 q = c1;
  at_buf : p_buf q = p_buf p ++ d;
  at_cons : consumed q = consumed p + n
}.

Variable t : jtype.
Let ign := ign_of cfg t.
Let fx := fix_of cfg t.
Definition room p (n : Z) : Prop := limit_of cfg t = 0 \/ consumed p + n <= limit_of cfg t.

Lemma room_le : forall p a b, a <= b -> room p b -> room p a.
Proof. unfold room. intros. lia. Qed.

(** The step when the limit is not exceeded. *)
Lemma step_next : forall p ch q, str_auto t (p_auto p) -> 0 <= p_err p ->
  (p_sub p =? 0) && ((ch =? ch_quote) || plainish ign ch) = false ->
  string_iter ign fx p ch = INext q -> room q 1 ->
  bstep cfg cb p ch = advance q 1.
Proof.
  intros p ch q Ha He Hs Hi Hr. rewrite (bstep_string cfg cb t) by assumption.
  unfold string_byte, s1, s0. fold ign fx.
  rewrite andb_orb_distrib_r in Hs. apply orb_false_iff in Hs. destruct Hs as [-> ->].
  rewrite Hi. apply chk_within. rewrite consumed_advance. exact Hr.
Qed.

Lemma step_plain : forall p ch, str_auto t (p_auto p) -> 0 <= p_err p ->
  p_sub p = 0 -> ch <> 34 -> plainish ign ch = true -> room p 1 ->
  bstep cfg cb p ch = advance (buf_append p [ch]) 1.
Proof.
  intros p ch Ha He Hs Hq Hp Hr. rewrite (bstep_string cfg cb t) by assumption.
  unfold string_byte, s1, s0. fold ign fx. rewrite Hs, Hp. cbn [Z.eqb andb].
  replace (ch =? ch_quote) with false by (symmetry; apply Z.eqb_neq; exact Hq).
  apply chk_within. rewrite consumed_advance. exact Hr.
Qed.

Section Run.
Variable p : parser U.
Hypothesis Ha : str_auto t (p_auto p).
Hypothesis He : 0 <= p_err p.

Lemma at_auto : forall n d s c0 c1 q, at_ p n d s c0 c1 q -> str_auto t (p_auto q) /\ 0 <= p_err q.
Proof.
  intros n d s c0 c1 q [(E1 & _ & _ & _ & _ & E2 & _) _ _ _ _ _]. rewrite E1, E2. split; assumption.
Qed.

Lemma at_room : forall n d s c0 c1 q k, at_ p n d s c0 c1 q -> room p (n + k) -> room q k.
Proof. intros n d s c0 c1 q k H R. unfold room in *. rewrite (at_cons _ _ _ _ _ _ _ H). lia. Qed.

Lemma at_step : forall n d s c0 c1 q ch q1 d2 s2 c02 c12,
  at_ p n d s c0 c1 q -> room p (n + 1) ->
  (s =? 0) && ((ch =? ch_quote) || plainish ign ch) = false ->
  string_iter ign fx q ch = INext q1 ->
  same q q1 -> consumed q1 = consumed q -> p_buf q1 = p_buf q ++ d2 ->
  p_sub q1 = s2 -> p_cp0 q1 = c02 -> p_cp1 q1 = c12 ->
  at_ p (n + 1) (d ++ d2) s2 c02 c12 (bstep cfg cb q ch).
Proof.
  intros n d s c0 c1 q ch q1 d2 s2 c02 c12 H R Hn Hi Hs Hc Hb E1 E2 E3.
  destruct (at_auto _ _ _ _ _ _ H) as [Ha' He'].
  rewrite (step_next q ch q1).
  - destruct H. constructor; cbn [advance with_pos p_sub p_cp0 p_cp1 p_buf]; try assumption.
    + eapply same_trans; [exact at_same0|]. unfold same in *. cbn. exact Hs.
    + rewrite Hb, at_buf0, app_assoc. reflexivity.
    + rewrite consumed_advance, Hc, at_cons0. lia.
  - exact Ha'.
  - exact He'.
  - rewrite (at_sub _ _ _ _ _ _ _ H). exact Hn.
  - exact Hi.
  - unfold room. rewrite Hc. apply (at_room _ _ _ _ _ _ 1 H R).
Qed.

Lemma at_plain : forall n d c0 c1 q ch, at_ p n d 0 c0 c1 q -> room p (n + 1) ->
  ch <> 34 -> plainish ign ch = true -> at_ p (n + 1) (d ++ [ch]) 0 c0 c1 (bstep cfg cb q ch).
Proof.
  intros n d c0 c1 q ch H R Hq Hp.
  destruct (at_auto _ _ _ _ _ _ H) as [Ha' He'].
  rewrite step_plain; try assumption; [|apply (at_sub _ _ _ _ _ _ _ H)|apply (at_room _ _ _ _ _ _ 1 H R)].
  destruct H. constructor; cbn; try assumption.
  - rewrite at_buf0, app_assoc. reflexivity.
  - change (consumed (advance (buf_append q [ch]) 1) = consumed p + (n + 1)).
    rewrite consumed_advance. change (consumed (buf_append q [ch])) with (consumed q). lia.
Qed.

Lemma plainish_high : forall ch, 128 <= ch -> plainish ign ch = ign.
Proof.
  intros ch H. unfold plainish, is_control, is_ascii, ch_bslash.
  replace (ch <=? 31) with false by lia. replace (ch =? 92) with false by lia.
  replace (ch <=? 127) with false by lia. reflexivity.
Qed.

Lemma lead_iter : forall q ch s, p_sub q = 0 -> 128 <= ch -> utf8_lead ch = Some s ->
  string_iter ign fx q ch = INext (buf_append (with_sub q s) [ch]).
Proof.
  intros q ch s Hs Hc Hl. unfold string_iter, is_control, ch_bslash. rewrite Hs. cbn [Z.eqb].
  replace (ch <=? 31) with false by lia. replace (ch =? 92) with false by lia.
  rewrite Hl. reflexivity.
Qed.

Lemma trail_iter : forall q ch s, 0 < p_sub q <= 7 -> utf8_trail (p_sub q) ch = Some s ->
  string_iter ign fx q ch = INext (buf_append (with_sub q s) [ch]).
Proof.
  intros q ch s Hs Hl. unfold string_iter. replace (p_sub q =? 0) with false by lia.
  replace (p_sub q <=? 7) with true by lia. rewrite Hl. reflexivity.
Qed.

(** A byte of a multi-byte character. *)
Lemma at_lead : forall n d q ch s, at_ p n d 0 0 0 q -> room p (n + 1) -> 128 <= ch ->
  utf8_lead ch = Some s ->
  at_ p (n + 1) (d ++ [ch]) (if ign then 0 else s) 0 0 (bstep cfg cb q ch).
Proof.
  intros n d q ch s H R Hc Hl. pose proof (plainish_high ch Hc) as Hp. destruct ign eqn:Ei.
  - apply at_plain; try assumption; [lia|]. rewrite Ei. exact Hp.
  - eapply at_step; [exact H|exact R| |apply lead_iter; [apply (at_sub _ _ _ _ _ _ _ H)|exact Hc|exact Hl]
      | | | | | |]; try reflexivity.
    + fold ign. rewrite Ei, Hp. cbn. replace (ch =? ch_quote) with false by (unfold ch_quote; lia). reflexivity.
    + repeat split.
    + apply (at_c0 _ _ _ _ _ _ _ H).
    + apply (at_c1 _ _ _ _ _ _ _ H).
Qed.

Lemma at_trail : forall n d q ch s s', at_ p n d (if ign then 0 else s) 0 0 q -> room p (n + 1) ->
  128 <= ch -> 0 < s <= 7 -> utf8_trail s ch = Some s' ->
  at_ p (n + 1) (d ++ [ch]) (if ign then 0 else s') 0 0 (bstep cfg cb q ch).
Proof.
  intros n d q ch s s' H R Hc Hs Hl. pose proof (plainish_high ch Hc) as Hp. destruct ign eqn:Ei.
  - apply at_plain; try assumption; [lia|]. rewrite Ei. exact Hp.
  - pose proof (at_sub _ _ _ _ _ _ _ H) as Hq.
    eapply at_step; [exact H|exact R| |apply trail_iter; [rewrite Hq; exact Hs|rewrite Hq; exact Hl]
      | | | | | |]; try reflexivity.
    + replace (s =? 0) with false by lia. reflexivity.
    + repeat split.
    + apply (at_c0 _ _ _ _ _ _ _ H).
    + apply (at_c1 _ _ _ _ _ _ _ H).
Qed.

Lemma trail_dec : forall s ch, 0 < s <= 3 -> 128 <= ch <= 191 -> utf8_trail s ch = Some (s - 1).
Proof.
  intros s ch Hs Hc. unfold utf8_trail. replace (s <=? 3) with true by lia.
  rewrite land_192 by lia. replace ((128 <=? ch) && (ch <=? 191)) with true by lia. reflexivity.
Qed.

Lemma if_zero : forall b : bool, (if b then 0 else 0) = 0.
Proof. intros []; reflexivity. Qed.

Lemma at_utf8 : forall n d q c, at_ p n d 0 0 0 q -> 128 <= c -> scalar c ->
  room p (n + len (utf8 c)) ->
  at_ p (n + len (utf8 c)) (d ++ utf8 c) 0 0 0 (bsteps cfg cb q (utf8 c)).
Proof.
  intros n d q c H Hc Hs R. unfold scalar in Hs. unfold utf8 in *.
  replace (c <? 128) with false in * by lia.
  destruct (c <? 2048) eqn:E2.
  { set (a := 192 + c / 64) in *. set (b := 128 + c mod 64) in *.
    change (len [a; b]) with 2 in *. cbn [bsteps fold_left].
    apply (at_lead n d q a 1) in H; [|eapply room_le; [|exact R]; lia|lia|].
    2:{ unfold utf8_lead, is_in. replace ((194 <=? a) && (a <=? 223)) with true by lia. reflexivity. }
    apply (at_trail (n + 1) (d ++ [a]) _ b 1 0) in H; [|eapply room_le; [|exact R]; lia|lia|lia|apply trail_dec; lia].
    rewrite if_zero in H. replace (n + 2) with (n + 1 + 1) by lia.
    replace (d ++ [a; b]) with ((d ++ [a]) ++ [b]) by (rewrite <- app_assoc; reflexivity). exact H. }
  destruct (c <? 65536) eqn:E3.
  { set (a := 224 + c / 4096) in *. set (b := 128 + c / 64 mod 64) in *. set (e := 128 + c mod 64) in *.
    change (len [a; b; e]) with 3 in *. cbn [bsteps fold_left].
    assert (exists s, utf8_lead a = Some s /\ 0 < s <= 7 /\ utf8_trail s b = Some 1) as (s & L1 & L2 & L3).
    { unfold utf8_lead, is_in. replace ((194 <=? a) && (a <=? 223)) with false by lia.
      destruct (a =? 224) eqn:A1.
      { exists 4. split; [reflexivity|]. split; [lia|]. unfold utf8_trail, is_in. cbn [Z.leb Z.eqb andb].
        change (4 <=? 3) with false. cbn [andb].
        replace ((160 <=? b) && (b <=? 191)) with true by lia. reflexivity. }
      destruct ((225 <=? a) && (a <=? 236)) eqn:A2.
      { exists 2. split; [reflexivity|]. split; [lia|]. apply trail_dec; lia. }
      destruct (a =? 237) eqn:A3.
      { exists 5. split; [reflexivity|]. split; [lia|]. unfold utf8_trail, is_in.
        change (5 <=? 3) with false. change (5 =? 4) with false. change (5 =? 5) with true. cbn [andb].
        replace ((128 <=? b) && (b <=? 159)) with true by lia. reflexivity. }
      replace ((238 <=? a) && (a <=? 239)) with true by lia.
      exists 2. split; [reflexivity|]. split; [lia|]. apply trail_dec; lia. }
    apply (at_lead n d q a s) in H; [|eapply room_le; [|exact R]; lia|lia|exact L1].
    apply (at_trail (n + 1) (d ++ [a]) _ b s 1) in H; [|eapply room_le; [|exact R]; lia|lia|exact L2|exact L3].
    apply (at_trail (n + 1 + 1) ((d ++ [a]) ++ [b]) _ e 1 0) in H; [|eapply room_le; [|exact R]; lia|lia|lia|apply trail_dec; lia].
    rewrite if_zero in H. replace (n + 3) with (n + 1 + 1 + 1) by lia.
    replace (d ++ [a; b; e]) with (((d ++ [a]) ++ [b]) ++ [e]) by (rewrite <- !app_assoc; reflexivity). exact H. }
  set (a := 240 + c / 262144) in *. set (b := 128 + c / 4096 mod 64) in *.
  set (e := 128 + c / 64 mod 64) in *. set (g := 128 + c mod 64) in *.
  change (len [a; b; e; g]) with 4 in *. cbn [bsteps fold_left].
  assert (exists s, utf8_lead a = Some s /\ 0 < s <= 7 /\ utf8_trail s b = Some 2) as (s & L1 & L2 & L3).
  { unfold utf8_lead, is_in. replace ((194 <=? a) && (a <=? 223)) with false by lia.
    replace (a =? 224) with false by lia. replace ((225 <=? a) && (a <=? 236)) with false by lia.
    replace (a =? 237) with false by lia. replace ((238 <=? a) && (a <=? 239)) with false by lia.
    destruct (a =? 240) eqn:A1.
    { exists 6. split; [reflexivity|]. split; [lia|]. unfold utf8_trail, is_in.
      change (6 <=? 3) with false. change (6 =? 4) with false. change (6 =? 5) with false.
      change (6 =? 6) with true. cbn [andb].
      replace ((144 <=? b) && (b <=? 191)) with true by lia. reflexivity. }
    destruct ((241 <=? a) && (a <=? 243)) eqn:A2.
    { exists 3. split; [reflexivity|]. split; [lia|]. apply trail_dec; lia. }
    replace (a =? 244) with true by lia.
    exists 7. split; [reflexivity|]. split; [lia|]. unfold utf8_trail, is_in.
    change (7 <=? 3) with false. change (7 =? 4) with false. change (7 =? 5) with false.
    change (7 =? 6) with false. change (7 =? 7) with true. cbn [andb].
    replace ((128 <=? b) && (b <=? 143)) with true by lia. reflexivity. }
  apply (at_lead n d q a s) in H; [|eapply room_le; [|exact R]; lia|lia|exact L1].
  apply (at_trail (n + 1) (d ++ [a]) _ b s 2) in H; [|eapply room_le; [|exact R]; lia|lia|exact L2|exact L3].
  apply (at_trail (n + 1 + 1) ((d ++ [a]) ++ [b]) _ e 2 1) in H; [|eapply room_le; [|exact R]; lia|lia|lia|apply trail_dec; lia].
  apply (at_trail (n + 1 + 1 + 1) (((d ++ [a]) ++ [b]) ++ [e]) _ g 1 0) in H; [|eapply room_le; [|exact R]; lia|lia|lia|apply trail_dec; lia].
  rewrite if_zero in H. replace (n + 4) with (n + 1 + 1 + 1 + 1) by lia.
  replace (d ++ [a; b; e; g]) with ((((d ++ [a]) ++ [b]) ++ [e]) ++ [g]) by (rewrite <- !app_assoc; reflexivity). exact H.
Qed.

(** ** Escapes *)

Lemma nopl : forall s (b : bool), s <> 0 -> (s =? 0) && b = false.
Proof. intros. replace (s =? 0) with false by lia. reflexivity. Qed.

Lemma at_bslash : forall n d c0 c1 q, at_ p n d 0 c0 c1 q -> room p (n + 1) ->
  at_ p (n + 1) d 92 c0 c1 (bstep cfg cb q 92).
Proof.
  intros n d c0 c1 q H R.
  assert (at_ p (n + 1) (d ++ []) 92 c0 c1 (bstep cfg cb q 92)) as K; [|rewrite app_nil_r in K; exact K].
  eapply at_step with (q1 := with_sub q 92); [exact H|exact R|reflexivity| | |reflexivity| |reflexivity| |].
  - unfold string_iter. rewrite (at_sub _ _ _ _ _ _ _ H). reflexivity.
  - repeat split.
  - symmetry. apply app_nil_r.
  - apply (at_c0 _ _ _ _ _ _ _ H).
  - apply (at_c1 _ _ _ _ _ _ _ H).
Qed.

Lemma at_simple : forall n d c0 c1 q e c, at_ p n d 92 c0 c1 q -> room p (n + 1) ->
  simple_escape e = Some c -> e <> 117 -> at_ p (n + 1) (d ++ [c]) 0 c0 c1 (bstep cfg cb q e).
Proof.
  intros n d c0 c1 q e c H R Hs He'.
  eapply at_step with (q1 := with_sub (buf_append q [c]) 0);
    [exact H|exact R|reflexivity| | |reflexivity|reflexivity|reflexivity| |].
  - unfold string_iter. rewrite (at_sub _ _ _ _ _ _ _ H). cbn [Z.eqb Z.leb].
    change (92 <=? 7) with false. change (92 =? ch_bslash) with true. cbv iota.
    replace (e =? 117) with false by lia. rewrite Hs. reflexivity.
  - repeat split.
  - apply (at_c0 _ _ _ _ _ _ _ H).
  - apply (at_c1 _ _ _ _ _ _ _ H).
Qed.

Lemma at_u : forall n d c0 c1 q, at_ p n d 92 c0 c1 q -> room p (n + 1) ->
  at_ p (n + 1) d (ABCD + 4) c0 c1 (bstep cfg cb q 117).
Proof.
  intros n d c0 c1 q H R.
  assert (at_ p (n + 1) (d ++ []) (ABCD + 4) c0 c1 (bstep cfg cb q 117)) as K; [|rewrite app_nil_r in K; exact K].
  eapply at_step with (q1 := with_sub q (ABCD + 4)); [exact H|exact R|reflexivity| | |reflexivity| |reflexivity| |].
  - unfold string_iter. rewrite (at_sub _ _ _ _ _ _ _ H). reflexivity.
  - repeat split.
  - symmetry. apply app_nil_r.
  - apply (at_c0 _ _ _ _ _ _ _ H).
  - apply (at_c1 _ _ _ _ _ _ _ H).
Qed.

Lemma hex_iter : forall q ch v, ABCD < p_sub q -> hex_digit ch v -> 0 <= p_cp1 q < 268435456 ->
  string_iter ign fx q ch =
  let q1 := with_sub (with_cp q (p_cp0 q) (16 * p_cp1 q + v)) (p_sub q - 1) in
  if p_sub q - 1 =? ABCD then escape_done ign fx q1 else INext q1.
Proof.
  intros q ch v Hs Hv Hc. destruct (xdigit_hex _ _ Hv) as (A & B & C).
  unfold string_iter. unfold ABCD in *.
  replace (p_sub q =? 0) with false by lia. replace (p_sub q <=? 7) with false by lia.
  replace (p_sub q =? ch_bslash) with false by (unfold ch_bslash; lia).
  replace (43981 <? p_sub q) with true by lia. rewrite A. cbn [negb].
  rewrite B, lor_add by exact C. unfold u32w. rewrite Z.mod_small by lia. reflexivity.
Qed.

Lemma at_hex : forall n d s c0 c1 q ch v, at_ p n d s c0 c1 q -> room p (n + 1) ->
  ABCD + 1 < s -> hex_digit ch v -> 0 <= c1 < 268435456 ->
  at_ p (n + 1) d (s - 1) c0 (16 * c1 + v) (bstep cfg cb q ch).
Proof.
  intros n d s c0 c1 q ch v H R Hs Hv Hc.
  pose proof (at_sub _ _ _ _ _ _ _ H) as E1. pose proof (at_c0 _ _ _ _ _ _ _ H) as E2.
  pose proof (at_c1 _ _ _ _ _ _ _ H) as E3.
  assert (at_ p (n + 1) (d ++ []) (s - 1) c0 (16 * c1 + v) (bstep cfg cb q ch)) as K; [|rewrite app_nil_r in K; exact K].
  eapply at_step with (q1 := with_sub (with_cp q c0 (16 * c1 + v)) (s - 1));
    [exact H|exact R| | | |reflexivity| |reflexivity|reflexivity|reflexivity].
  - apply nopl. unfold ABCD in *. lia.
  - rewrite (hex_iter q ch v); [|rewrite E1; unfold ABCD in *; lia|exact Hv|rewrite E3; exact Hc].
    cbv zeta. rewrite E1, E2, E3. replace (s - 1 =? ABCD) with false by lia. reflexivity.
  - repeat split.
  - symmetry. apply app_nil_r.
Qed.

Lemma at_hex_last : forall n d c0 c1 q ch v c, at_ p n d (ABCD + 1) c0 c1 q -> room p (n + 1) ->
  hex_digit ch v -> 0 <= c1 < 4096 -> c = 16 * c1 + v ->
  (c0 = 0 -> scalar c ->
     at_ p (n + 1) (d ++ utf8 c) 0 0 0 (bstep cfg cb q ch)) /\
  (c0 = 0 -> 55296 <= c <= 56319 ->
     at_ p (n + 1) d (ABCD - 2) c 0 (bstep cfg cb q ch)) /\
  (55296 <= c0 <= 56319 -> 56320 <= c <= 57343 ->
     at_ p (n + 1) (d ++ utf8 (65536 + (c0 - 55296) * 1024 + (c - 56320))) 0 0 0 (bstep cfg cb q ch)).
Proof.
  intros n d c0 c1 q ch v c H R Hv Hc Ec.
  pose proof (at_sub _ _ _ _ _ _ _ H) as E1. pose proof (at_c0 _ _ _ _ _ _ _ H) as E2.
  pose proof (at_c1 _ _ _ _ _ _ _ H) as E3.
  destruct (xdigit_hex _ _ Hv) as (_ & _ & Bv).
  assert (string_iter ign fx q ch = escape_done ign fx (with_sub (with_cp q c0 c) ABCD)) as Hi.
  { rewrite (hex_iter q ch v); [|rewrite E1; unfold ABCD in *; lia|exact Hv|rewrite E3; lia].
    cbv zeta. rewrite E1, E2, E3. replace (ABCD + 1 - 1 =? ABCD) with true by lia. subst c. reflexivity. }
  assert (ABCD + 1 <> 0) as Hnz by (unfold ABCD; lia). clear E2.
  split; [|split].
  - intros Z0 Sc. subst c0.
    eapply at_step with (q1 := with_cp (with_sub (buf_append (with_sub (with_cp q 0 c) ABCD) (utf8_of c)) 0) 0 0);
      [exact H|exact R|apply nopl; exact Hnz| | |reflexivity| |reflexivity|reflexivity|reflexivity].
    + rewrite Hi. unfold escape_done. cbn [p_cp0 p_cp1 with_cp with_sub Z.eqb negb andb].
      replace (is_lo c) with false by (unfold is_lo, is_in, scalar in *; lia).
      replace (is_hi c) with false by (unfold is_hi, is_in, scalar in *; lia). reflexivity.
    + repeat split.
    + cbn [p_buf with_cp with_sub buf_append with_buf]. unfold scalar in Sc. rewrite utf8_of_utf8 by lia. reflexivity.
  - intros Z0 Sc. subst c0.
    assert (at_ p (n + 1) (d ++ []) (ABCD - 2) c 0 (bstep cfg cb q ch)) as K; [|rewrite app_nil_r in K; exact K].
    eapply at_step with (q1 := with_cp (with_sub (with_sub (with_cp q 0 c) ABCD) (ABCD - 2)) c 0);
      [exact H|exact R|apply nopl; exact Hnz| | |reflexivity| |reflexivity|reflexivity|reflexivity].
    + rewrite Hi. unfold escape_done. cbn [p_cp0 p_cp1 with_cp with_sub Z.eqb negb andb].
      replace (is_lo c) with false by (unfold is_lo, is_in; lia).
      replace (is_hi c) with true by (unfold is_hi, is_in; lia). reflexivity.
    + repeat split.
    + symmetry. apply app_nil_r.
  - intros Hh Hl.
    eapply at_step with (q1 := with_cp (with_sub (buf_append (with_sub (with_cp q c0 c) ABCD)
        (utf8_of (65536 + (c0 - 55296) * 1024 + (c - 56320)))) 0) 0 0);
      [exact H|exact R|apply nopl; exact Hnz| | |reflexivity| |reflexivity|reflexivity|reflexivity].
    + rewrite Hi. unfold escape_done. cbn [p_cp0 p_cp1 with_cp with_sub].
      replace (c0 =? 0) with false by lia.
      replace (is_lo c) with true by (unfold is_lo, is_in; lia).
      cbn [negb andb p_cp0 with_cp with_sub].
      replace (c0 =? 0) with false by lia. reflexivity.
    + repeat split.
    + cbn [p_buf with_cp with_sub buf_append with_buf]. rewrite utf8_of_utf8 by lia. reflexivity.
Qed.

Lemma at_hi_bslash : forall n d c0 c1 q, at_ p n d (ABCD - 2) c0 c1 q -> room p (n + 1) ->
  at_ p (n + 1) d (ABCD - 1) c0 c1 (bstep cfg cb q 92).
Proof.
  intros n d c0 c1 q H R.
  assert (at_ p (n + 1) (d ++ []) (ABCD - 1) c0 c1 (bstep cfg cb q 92)) as K; [|rewrite app_nil_r in K; exact K].
  eapply at_step with (q1 := with_sub q (ABCD - 1)); [exact H|exact R|reflexivity| | |reflexivity| |reflexivity| |].
  - unfold string_iter. rewrite (at_sub _ _ _ _ _ _ _ H). reflexivity.
  - repeat split.
  - symmetry. apply app_nil_r.
  - apply (at_c0 _ _ _ _ _ _ _ H).
  - apply (at_c1 _ _ _ _ _ _ _ H).
Qed.

Lemma at_hi_u : forall n d c0 c1 q, at_ p n d (ABCD - 1) c0 c1 q -> room p (n + 1) ->
  at_ p (n + 1) d (ABCD + 4) c0 c1 (bstep cfg cb q 117).
Proof.
  intros n d c0 c1 q H R.
  assert (at_ p (n + 1) (d ++ []) (ABCD + 4) c0 c1 (bstep cfg cb q 117)) as K; [|rewrite app_nil_r in K; exact K].
  eapply at_step with (q1 := with_sub q (ABCD + 4)); [exact H|exact R|reflexivity| | |reflexivity| |reflexivity| |].
  - unfold string_iter. rewrite (at_sub _ _ _ _ _ _ _ H). reflexivity.
  - repeat split.
  - symmetry. apply app_nil_r.
  - apply (at_c0 _ _ _ _ _ _ _ H).
  - apply (at_c1 _ _ _ _ _ _ _ H).
Qed.

(** Four hexadecimal digits. *)
Lemma at_hex4 : forall n d c0 q h c, at_ p n d (ABCD + 4) c0 0 q -> room p (n + 4) -> hex4 h c ->
  (c0 = 0 -> scalar c -> at_ p (n + 4) (d ++ utf8 c) 0 0 0 (bsteps cfg cb q h)) /\
  (c0 = 0 -> 55296 <= c <= 56319 -> at_ p (n + 4) d (ABCD - 2) c 0 (bsteps cfg cb q h)) /\
  (55296 <= c0 <= 56319 -> 56320 <= c <= 57343 ->
     at_ p (n + 4) (d ++ utf8 (65536 + (c0 - 55296) * 1024 + (c - 56320))) 0 0 0 (bsteps cfg cb q h)).
Proof.
  intros n d c0 q h c H R Hh. destruct Hh as [x1 x2 x3 x4 v1 v2 v3 v4 H1 H2 H3 H4].
  destruct (xdigit_hex _ _ H1) as (_ & _ & B1). destruct (xdigit_hex _ _ H2) as (_ & _ & B2).
  destruct (xdigit_hex _ _ H3) as (_ & _ & B3). destruct (xdigit_hex _ _ H4) as (_ & _ & B4).
  cbn [bsteps fold_left].
  apply (at_hex _ _ _ _ _ _ x1 v1) in H; [|eapply room_le; [|exact R]; lia|unfold ABCD; lia|exact H1|lia].
  apply (at_hex _ _ _ _ _ _ x2 v2) in H; [|eapply room_le; [|exact R]; lia|unfold ABCD; lia|exact H2|lia].
  apply (at_hex _ _ _ _ _ _ x3 v3) in H; [|eapply room_le; [|exact R]; lia|unfold ABCD; lia|exact H3|lia].
  replace (ABCD + 4 - 1 - 1 - 1) with (ABCD + 1) in H by lia.
  replace (n + 4) with (n + 1 + 1 + 1 + 1) in * by lia.
  eapply (at_hex_last _ _ _ _ _ x4 v4) in H; [exact H|exact R|exact H4|lia|lia].
Qed.

Lemma bsteps_cons : forall c l q, bsteps cfg cb q (c :: l) = bsteps cfg cb (bstep cfg cb q c) l.
Proof. reflexivity. Qed.

(** The characters of a string. *)
Lemma at_chars : forall r d', chars r d' -> forall n d q, at_ p n d 0 0 0 q -> room p (n + len r) ->
  at_ p (n + len r) (d ++ d') 0 0 0 (bsteps cfg cb q r).
Proof.
  induction 1 as [|c r d' Hc H1 H2 Hr IH|c r d' Hc Hs Hr IH|e c r d' Hin Hr IH
                 |h c r d' Hh Hs Hr IH|h1 hi h2 lo r d' Hh1 Hh2 Hhi Hlo Hr IH]; intros n d q H R.
  - rewrite app_nil_r. unfold len. cbn [length Z.of_nat]. rewrite Z.add_0_r. exact H.
  - rewrite len_cons in *. pose proof (len_nonneg r). rewrite bsteps_cons.
    replace (n + (1 + len r)) with (n + 1 + len r) in * by lia.
    replace (d ++ c :: d') with ((d ++ [c]) ++ d') by (rewrite <- app_assoc; reflexivity).
    apply IH; [|exact R]. apply at_plain; [exact H|eapply room_le; [|exact R]; lia|exact H1|].
    unfold plainish, is_control, is_ascii, ch_bslash.
    replace (c <=? 31) with false by lia. replace (c =? 92) with false by lia.
    replace (c <=? 127) with true by lia. reflexivity.
  - rewrite len_app in *. pose proof (len_nonneg r). rewrite bsteps_app.
    rewrite Z.add_assoc in *. rewrite app_assoc. apply IH; [|exact R].
    apply at_utf8; [exact H|exact Hc|exact Hs|eapply room_le; [|exact R]; lia].
  - rewrite !len_cons in *. pose proof (len_nonneg r). rewrite !bsteps_cons.
    replace (n + (1 + (1 + len r))) with (n + 1 + 1 + len r) in * by lia.
    replace (d ++ c :: d') with ((d ++ [c]) ++ d') by (rewrite <- app_assoc; reflexivity).
    destruct (escapes_simple _ _ Hin) as [S1 S2].
    apply IH; [|exact R]. apply at_simple; [|eapply room_le; [|exact R]; lia|exact S1|exact S2].
    apply at_bslash; [exact H|eapply room_le; [|exact R]; lia].
  - rewrite !len_cons, !len_app in *. rewrite (hex4_len _ _ Hh) in *. pose proof (len_nonneg r).
    rewrite !bsteps_cons, bsteps_app.
    replace (n + (1 + (1 + (4 + len r)))) with (n + 1 + 1 + 4 + len r) in * by lia.
    rewrite app_assoc. apply IH; [|exact R].
    eapply at_hex4; [|eapply room_le; [|exact R]; lia|exact Hh|reflexivity|exact Hs].
    apply at_u; [|eapply room_le; [|exact R]; lia].
    apply at_bslash; [exact H|eapply room_le; [|exact R]; lia].
  - repeat (rewrite ?len_cons, ?len_app in *). rewrite (hex4_len _ _ Hh1), (hex4_len _ _ Hh2) in *.
    pose proof (len_nonneg r). rewrite !bsteps_cons, bsteps_app, !bsteps_cons, bsteps_app.
    replace (n + (1 + (1 + (4 + (1 + (1 + (4 + len r)))))))
      with (n + 1 + 1 + 4 + 1 + 1 + 4 + len r) in * by lia.
    rewrite app_assoc. apply IH; [|exact R].
    eapply at_hex4; [|eapply room_le; [|exact R]; lia|exact Hh2|exact Hhi|exact Hlo].
    apply at_hi_u; [|eapply room_le; [|exact R]; lia].
    apply at_hi_bslash; [|eapply room_le; [|exact R]; lia].
    eapply at_hex4; [|eapply room_le; [|exact R]; lia|exact Hh1|reflexivity|exact Hhi].
    apply at_u; [|eapply room_le; [|exact R]; lia].
    apply at_bslash; [exact H|eapply room_le; [|exact R]; lia].
Qed.

(** The closing quotation mark. *)
Lemma at_close : forall n d c0 c1 q, at_ p n d 0 c0 c1 q -> 
  bstep cfg cb q 34 =
  chk (limit_of cfg t) (long_err_of t) (process cfg cb (advance q 1) t (p_buf p ++ d)).
Proof.
  intros n d c0 c1 q H. destruct (at_auto _ _ _ _ _ _ H) as [Ha' He'].
  rewrite (bstep_string cfg cb t) by assumption.
  unfold string_byte, s1, s0. rewrite (at_sub _ _ _ _ _ _ _ H). cbn [Z.eqb andb].
  change (34 =? ch_quote) with true. cbv iota.
  rewrite (at_buf _ _ _ _ _ _ _ H). reflexivity.
Qed.
End Run.
End P.
