(** * What the string automaton accepts without error is a string

    The converse of [JsonStrings], for a configuration that neither
    ignores nor repairs ill-formed UTF-8. *)
Require Import ZArith List Bool Lia.
From Verif Require Import Json JsonSpec JsonProofs JsonChunks JsonLength JsonStrings.
Import ListNotations.
Open Scope Z_scope.
Ltac Zify.zify_post_hook ::= Z.to_euclidean_division_equations.

Definition byte (c : Z) : Prop := 0 <= c <= 255.

(** ** UTF-8 *)

Lemma utf8_2 : forall a b, 194 <= a <= 223 -> 128 <= b <= 191 ->
  exists c, 128 <= c /\ scalar c /\ utf8 c = [a; b].
Proof.
  intros a b Ha Hb. exists ((a - 192) * 64 + (b - 128)). unfold scalar, utf8.
  split; [lia|]. split; [lia|].
  replace ((a - 192) * 64 + (b - 128) <? 128) with false by lia.
  replace ((a - 192) * 64 + (b - 128) <? 2048) with true by lia.
  f_equal; [lia|]. f_equal. lia.
Qed.

Lemma utf8_3 : forall a b e, 224 <= a <= 239 -> 128 <= b <= 191 -> 128 <= e <= 191 ->
  (a = 224 -> 160 <= b) -> (a = 237 -> b <= 159) ->
  exists c, 128 <= c /\ scalar c /\ utf8 c = [a; b; e].
Proof.
  intros a b e Ha Hb He H1 H2. exists ((a - 224) * 4096 + (b - 128) * 64 + (e - 128)). unfold scalar, utf8.
  split; [lia|]. split; [lia|].
  set (c := (a - 224) * 4096 + (b - 128) * 64 + (e - 128)).
  replace (c <? 128) with false by lia.
  replace (c <? 2048) with false by lia.
  replace (c <? 65536) with true by lia.
  f_equal; [lia|]. f_equal; [lia|]. f_equal. lia.
Qed.

Lemma utf8_4 : forall a b e g, 240 <= a <= 244 -> 128 <= b <= 191 -> 128 <= e <= 191 -> 128 <= g <= 191 ->
  (a = 240 -> 144 <= b) -> (a = 244 -> b <= 143) ->
  exists c, 128 <= c /\ scalar c /\ utf8 c = [a; b; e; g].
Proof.
  intros a b e g Ha Hb He Hg H1 H2.
  exists ((a - 240) * 262144 + (b - 128) * 4096 + (e - 128) * 64 + (g - 128)). unfold scalar, utf8.
  split; [lia|]. split; [lia|].
  set (c := (a - 240) * 262144 + (b - 128) * 4096 + (e - 128) * 64 + (g - 128)).
  replace (c <? 128) with false by lia.
  replace (c <? 2048) with false by lia.
  replace (c <? 65536) with false by lia.
  f_equal; [lia|]. f_equal; [lia|]. f_equal; [lia|]. f_equal. lia.
Qed.

Lemma trail_inv : forall s ch s', byte ch -> 0 < s <= 3 -> utf8_trail s ch = Some s' -> 128 <= ch <= 191 /\ s' = s - 1.
Proof.
  intros s ch s' Hb Hs H. unfold utf8_trail in H. unfold byte in Hb.
  replace (s <=? 3) with true in H by lia. rewrite land_192 in H by lia.
  destruct ((128 <=? ch) && (ch <=? 191)) eqn:E; cbn [andb] in H; [inversion H; lia|].
  replace (s =? 4) with false in H by lia. replace (s =? 5) with false in H by lia.
  replace (s =? 6) with false in H by lia. replace (s =? 7) with false in H by lia. discriminate.
Qed.

Lemma trail_special : forall s ch s', 4 <= s <= 7 -> utf8_trail s ch = Some s' ->
  (s = 4 /\ 160 <= ch <= 191 /\ s' = 1) \/ (s = 5 /\ 128 <= ch <= 159 /\ s' = 1) \/
  (s = 6 /\ 144 <= ch <= 191 /\ s' = 2) \/ (s = 7 /\ 128 <= ch <= 143 /\ s' = 2).
Proof.
  intros s ch s' Hs H. unfold utf8_trail, is_in in H.
  replace (s <=? 3) with false in H by lia. cbn [andb] in H.
  destruct ((s =? 4) && ((160 <=? ch) && (ch <=? 191))) eqn:E4; [inversion H; lia|].
  destruct ((s =? 5) && ((128 <=? ch) && (ch <=? 159))) eqn:E5; [inversion H; lia|].
  destruct ((s =? 6) && ((144 <=? ch) && (ch <=? 191))) eqn:E6; [inversion H; lia|].
  destruct ((s =? 7) && ((128 <=? ch) && (ch <=? 143))) eqn:E7; [inversion H; lia|]. discriminate.
Qed.

Lemma lead_inv : forall ch s, utf8_lead ch = Some s ->
  (s = 1 /\ 194 <= ch <= 223) \/ (s = 4 /\ ch = 224) \/
  (s = 2 /\ 225 <= ch <= 239 /\ ch <> 237) \/ (s = 5 /\ ch = 237) \/
  (s = 6 /\ ch = 240) \/ (s = 3 /\ 241 <= ch <= 243) \/ (s = 7 /\ ch = 244).
Proof.
  intros ch s H. unfold utf8_lead, is_in in H.
  repeat match type of H with
  | (if ?b then _ else _) = _ => let E := fresh "E" in destruct b eqn:E; [inversion H; lia|]
  end. discriminate.
Qed.

Lemma nzf : forall s (b : bool), s <> 0 -> (s =? 0) && b = false.
Proof. intros. replace (s =? 0) with false by lia. reflexivity. Qed.

Section P.
Context {U : Type}.
Variable cfg : jconfig.
Variable cb : jtype -> list Z -> U -> Z * U.
Implicit Types p q : parser U.

Lemma steps_ok : forall l p, 0 <= p_err (bsteps cfg cb p l) -> 0 <= p_err p.
Proof.
  intros l p H. destruct (Z_lt_le_dec (p_err p) 0) as [E|E]; [|exact E].
  rewrite bsteps_err in H by exact E. exact H.
Qed.

Lemma chk_eq : forall m e p, e < 0 -> 0 <= p_err (chk m e p) ->
  chk m e p = p /\ (m = 0 \/ consumed p <= m).
Proof.
  intros m e p He H. unfold chk in *. destruct (over_long m p) eqn:E.
  - pose proof (raise_at_err p e (p_vpos p) He). unfold raise_v in H. lia.
  - split; [reflexivity|]. unfold over_long in E. destruct (m =? 0) eqn:E2; [left; apply Z.eqb_eq; exact E2|].
    cbn in E. apply Z.ltb_ge in E. right. exact E.
Qed.

Variable t : jtype.
Hypothesis Hign : ign_of cfg t = false.
Hypothesis Hfix : fix_of cfg t = false.

Variable p : parser U.
Hypothesis Ha : str_auto t (p_auto p).
Hypothesis He : 0 <= p_err p.

Local Notation at_ := (at_ p).
Local Notation room := (room cfg t p).
Local Notation bstep := (bstep cfg cb).
Local Notation bsteps := (bsteps cfg cb).

Lemma long_err_neg : long_err_of t < 0.
Proof. destruct t; reflexivity. Qed.

Lemma step_room : forall n d s c0 c1 q ch, at_ n d s c0 c1 q ->
  (s =? 0) && (ch =? ch_quote) = false ->
  0 <= p_err (bstep q ch) -> room (n + 1) /\
  ((s =? 0) && plainish false ch = false -> exists q1, string_iter false false q ch = INext q1).
Proof.
  intros n d s c0 c1 q ch H Hq Hok. destruct (at_auto t p Ha He _ _ _ _ _ _ H) as [Ha' He'].
  rewrite (bstep_string cfg cb t) in Hok by assumption. unfold string_byte in Hok.
  destruct (chk_eq _ _ _ long_err_neg Hok) as [E1 E2]. rewrite E1 in Hok.
  unfold s1, s0 in *. rewrite Hign, Hfix in *.
  rewrite (at_sub _ _ _ _ _ _ _ H) in *. rewrite Hq in *.
  pose proof (at_cons _ _ _ _ _ _ _ H) as Hc.
  destruct ((s =? 0) && plainish false ch) eqn:Ep.
  - rewrite consumed_advance in E2. change (consumed (buf_append q [ch])) with (consumed q) in E2.
    split; [unfold JsonStrings.room; lia|discriminate].
  - pose proof (string_iter_spec false false q ch) as Hs.
    destruct (string_iter false false q ch) as [q1|q1|q1] eqn:Ei.
    + lia.
    + exfalso. clear - Ei. unfold string_iter, escape_done, ill_surrogate in Ei.
      repeat match type of Ei with
      | context [match ?x with _ => _ end] => destruct x; try discriminate Ei; cbn [negb] in Ei
      end.
    + rewrite consumed_advance in E2. destruct Hs as (_ & _ & K3 & K4).
      assert (consumed q1 = consumed q) by (unfold consumed; rewrite K3, K4; reflexivity).
      split; [unfold JsonStrings.room; lia|]. intros _. exists q1. reflexivity.
Qed.

(** ** Escapes *)

Lemma xdigit_of : forall n d s c0 c1 q ch, at_ n d s c0 c1 q -> ABCD < s ->
  0 <= p_err (bstep q ch) -> room (n + 1) /\ exists v, hex_digit ch v /\ 0 <= v < 16.
Proof.
  intros n d s c0 c1 q ch H Hs Hok.
  assert (s <> 0) by (unfold ABCD in Hs; lia).
  destruct (step_room _ _ _ _ _ _ _ H (nzf s _ ltac:(assumption)) Hok) as [R K].
  destruct (K (nzf s _ ltac:(assumption))) as [q1 Hi].
  split; [exact R|].
  unfold string_iter in Hi. rewrite (at_sub _ _ _ _ _ _ _ H) in Hi. unfold ABCD, ch_bslash in *.
  replace (s =? 0) with false in Hi by lia. replace (s <=? 7) with false in Hi by lia.
  replace (s =? 92) with false in Hi by lia. replace (43981 <? s) with true in Hi by lia.
  destruct (is_xdigit ch) eqn:Ex; [|discriminate Hi].
  exists (xdigit_val ch). apply hex_xdigit. exact Ex.
Qed.

Definition unfinished q (k : list Z) : Prop := str_auto t (p_auto (bsteps q k)).

Lemma hex4_inv : forall n d c0 q k, at_ n d (ABCD + 4) c0 0 q -> 0 <= p_err (bsteps q k) ->
  (exists h c k', k = h ++ k' /\ hex4 h c /\ 0 <= c <= 65535 /\ room (n + 4) /\ (length k' < length k)%nat /\
     exists q3 x v c1, at_ (n + 1 + 1 + 1) d (ABCD + 1) c0 c1 q3 /\ 0 <= c1 < 4096 /\ hex_digit x v /\ c = 16 * c1 + v /\
       bsteps q h = bstep q3 x) \/ unfinished q k.
Proof.
  intros n d c0 q k H Hok.
  destruct k as [|x1 k]; [right; apply (at_auto t p Ha He _ _ _ _ _ _ H)|].
  pose proof (steps_ok k (bstep q x1) Hok) as O1.
  destruct (xdigit_of _ _ _ _ _ _ _ H ltac:(unfold ABCD; lia) O1) as (R1 & v1 & V1 & B1).
  pose proof (at_hex cfg cb t p Ha He _ _ _ _ _ _ x1 v1 H R1 ltac:(unfold ABCD; lia) V1 ltac:(lia)) as H1.
  destruct k as [|x2 k]; [right; apply (at_auto t p Ha He _ _ _ _ _ _ H1)|].
  pose proof (steps_ok k (bstep (bstep q x1) x2) Hok) as O2.
  destruct (xdigit_of _ _ _ _ _ _ _ H1 ltac:(unfold ABCD; lia) O2) as (R2 & v2 & V2 & B2).
  pose proof (at_hex cfg cb t p Ha He _ _ _ _ _ _ x2 v2 H1 R2 ltac:(unfold ABCD; lia) V2 ltac:(lia)) as H2.
  destruct k as [|x3 k]; [right; apply (at_auto t p Ha He _ _ _ _ _ _ H2)|].
  pose proof (steps_ok k (bstep (bstep (bstep q x1) x2) x3) Hok) as O3.
  destruct (xdigit_of _ _ _ _ _ _ _ H2 ltac:(unfold ABCD; lia) O3) as (R3 & v3 & V3 & B3).
  pose proof (at_hex cfg cb t p Ha He _ _ _ _ _ _ x3 v3 H2 R3 ltac:(unfold ABCD; lia) V3 ltac:(lia)) as H3.
  destruct k as [|x4 k]; [right; apply (at_auto t p Ha He _ _ _ _ _ _ H3)|].
  pose proof (steps_ok k (bstep (bstep (bstep (bstep q x1) x2) x3) x4) Hok) as O4.
  destruct (xdigit_of _ _ _ _ _ _ _ H3 ltac:(unfold ABCD; lia) O4) as (R4 & v4 & V4 & B4).
  replace (ABCD + 4 - 1 - 1 - 1) with (ABCD + 1) in H3 by lia.
  left. exists [x1; x2; x3; x4], (4096 * v1 + 256 * v2 + 16 * v3 + v4), k.
  split; [reflexivity|]. split; [constructor; assumption|]. split; [lia|].
  split; [replace (n + 4) with (n + 1 + 1 + 1 + 1) by lia; exact R4|].
  split; [cbn [length]; lia|].
  eexists. exists x4, v4, (16 * (16 * (16 * 0 + v1) + v2) + v3).
  split; [exact H3|]. split; [lia|]. split; [exact V4|]. split; [lia|]. reflexivity.
Qed.

(** The end of an escape that is no error. *)
Lemma escape_inv : forall n d c0 c1 q x v, at_ n d (ABCD + 1) c0 c1 q -> 0 <= c1 < 4096 -> hex_digit x v ->
  0 <= p_err (bstep q x) ->
  (c0 = 0 -> scalar (16 * c1 + v) \/ 55296 <= 16 * c1 + v <= 56319) /\
  (55296 <= c0 <= 56319 -> 56320 <= 16 * c1 + v <= 57343).
Proof.
  intros n d c0 c1 q x v H Hc Hv Hok.
  destruct (xdigit_hex _ _ Hv) as (_ & _ & Bv).
  destruct (step_room _ _ _ _ _ _ _ H (nzf (ABCD + 1) _ ltac:(unfold ABCD; lia)) Hok) as [R K].
  destruct (K (nzf (ABCD + 1) _ ltac:(unfold ABCD; lia))) as [q1 Hi].
  pose proof (at_sub _ _ _ _ _ _ _ H) as E1. pose proof (at_c0 _ _ _ _ _ _ _ H) as E2.
  pose proof (at_c1 _ _ _ _ _ _ _ H) as E3.
  pose proof (hex_iter cfg cb t q x v ltac:(rewrite E1; unfold ABCD; lia) Hv ltac:(rewrite E3; lia)) as Hx.
  rewrite Hign, Hfix in Hx. rewrite Hx in Hi. cbv zeta in Hi. rewrite E1, E2, E3 in Hi.
  replace (ABCD + 1 - 1 =? ABCD) with true in Hi by lia.
  unfold escape_done, ill_surrogate in Hi. cbn [p_cp0 p_cp1 with_cp with_sub] in Hi.
  set (c := 16 * c1 + v) in *.
  split.
  - intros ->. cbn [Z.eqb negb andb p_cp0 with_cp with_sub] in Hi.
    destruct (is_lo c) eqn:El; [discriminate Hi|].
    unfold is_lo, is_in in El. unfold scalar. lia.
  - intros Hh. replace (c0 =? 0) with false in Hi by lia. cbn [negb andb] in Hi.
    destruct (is_lo c) eqn:El; [unfold is_lo, is_in in El; lia|discriminate Hi].
Qed.

(** ** The string *)

Definition string_read (n : Z) (d : list Z) q (k : list Z) : Prop :=
  exists raw dd k', k = raw ++ 34 :: k' /\ chars raw dd /\ room (n + len raw) /\
    at_ (n + len raw) (d ++ dd) 0 0 0 (bsteps q raw).

Lemma read_more : forall n d q k l dl n' q', string_read n' (d ++ dl) q' k ->
  n' = n + len l -> q' = bsteps q l ->
  (forall raw dd, chars raw dd -> chars (l ++ raw) (dl ++ dd)) ->
  string_read n d q (l ++ k).
Proof.
  intros n d q k l dl n' q' (raw & dd & k' & E & Hc & R & H) -> -> Hl.
  exists (l ++ raw), (dl ++ dd), k'. split; [rewrite E, app_assoc; reflexivity|].
  split; [apply Hl; exact Hc|]. rewrite len_app, Z.add_assoc, app_assoc, bsteps_app. split; assumption.
Qed.

Lemma trail_ok : forall n d s q ch, at_ n d s 0 0 q -> 0 < s <= 7 -> byte ch -> 0 <= p_err (bstep q ch) ->
  room (n + 1) /\ 128 <= ch /\ exists s', utf8_trail s ch = Some s' /\ at_ (n + 1) (d ++ [ch]) s' 0 0 (bstep q ch).
Proof.
  intros n d s q ch H Hs Hb Hok.
  destruct (step_room _ _ _ _ _ _ _ H (nzf s _ ltac:(lia)) Hok) as [R K].
  destruct (K (nzf s _ ltac:(lia))) as [q1 Hi]. split; [exact R|].
  unfold string_iter in Hi. rewrite (at_sub _ _ _ _ _ _ _ H) in Hi.
  replace (s =? 0) with false in Hi by lia. replace (s <=? 7) with true in Hi by lia.
  destruct (utf8_trail s ch) as [s'|] eqn:Et; [|discriminate Hi].
  assert (128 <= ch) as Hc.
  { destruct (Z_le_gt_dec s 3); [apply trail_inv in Et; [lia|exact Hb|lia]|].
    apply trail_special in Et; lia. }
  split; [exact Hc|]. exists s'. split; [reflexivity|].
  pose proof (at_trail cfg cb t p Ha He n d q ch s s') as K2. rewrite Hign in K2. apply K2; assumption.
Qed.

(** A multi-byte character. *)
Lemma utf8_inv : forall n d q ch k, at_ n d 0 0 0 q -> 128 <= ch -> Forall byte (ch :: k) ->
  0 <= p_err (bsteps q (ch :: k)) ->
  (exists c k', 128 <= c /\ scalar c /\ ch :: k = utf8 c ++ k' /\ room (n + len (utf8 c)) /\
     (length k' < length (ch :: k))%nat) \/ unfinished q (ch :: k).
Proof.
  intros n d q ch k H Hc HF Hok. unfold unfinished. rewrite bsteps_cons in Hok |- *.
  pose proof (steps_ok _ _ Hok) as O1.
  assert (plainish false ch = false) as Hp by (unfold plainish, is_control, is_ascii, ch_bslash; lia).
  destruct (step_room _ _ _ _ _ _ ch H) as [R1 K]; [unfold ch_quote; lia|exact O1|].
  destruct (K ltac:(rewrite Hp; reflexivity)) as [q1 Hi].
  unfold string_iter in Hi. rewrite (at_sub _ _ _ _ _ _ _ H) in Hi. cbn [Z.eqb] in Hi.
  replace (is_control ch) with false in Hi by (unfold is_control; lia).
  replace (ch =? ch_bslash) with false in Hi by (unfold ch_bslash; lia).
  destruct (utf8_lead ch) as [s|] eqn:El; [|discriminate Hi].
  pose proof (at_lead cfg cb t p Ha He n d q ch s H R1 Hc El) as H1. rewrite Hign in H1.
  inversion HF as [|? ? _ HF1]; subst.
  apply lead_inv in El.
  assert (0 < s <= 7) as Hs by lia.
  destruct k as [|b k]; [right; apply (at_auto t p Ha He _ _ _ _ _ _ H1)|].
  rewrite bsteps_cons in Hok |- *. pose proof (steps_ok _ _ Hok) as O2.
  inversion HF1 as [|? ? Hbb HF2]; subst.
  destruct (trail_ok _ _ _ _ _ H1 Hs Hbb O2) as (R2 & C2 & s2 & T2 & H2).
  destruct (Z.eq_dec s 1) as [Es|Es].
  { left. subst s. apply trail_inv in T2; [|exact Hbb|lia].
    destruct (utf8_2 ch b) as (c & U1 & U2 & U3); [lia|lia|].
    exists c, k. rewrite U3. split; [exact U1|]. split; [exact U2|]. split; [reflexivity|].
    split; [replace (n + len [ch; b]) with (n + 1 + 1) by (unfold len; cbn; lia); exact R2|cbn [length]; lia]. }
  assert (128 <= b <= 191 /\ (s = 2 \/ s = 4 \/ s = 5 -> s2 = 1) /\ (s = 3 \/ s = 6 \/ s = 7 -> s2 = 2) /\
    (s = 4 -> 160 <= b) /\ (s = 5 -> b <= 159) /\ (s = 6 -> 144 <= b) /\ (s = 7 -> b <= 143)) as KB.
  { destruct (Z_le_gt_dec s 3); [apply trail_inv in T2; [lia|exact Hbb|lia]|].
    apply trail_special in T2; lia. }
  assert (0 < s2 <= 3) as Hs2 by lia.
  destruct k as [|e k]; [right; apply (at_auto t p Ha He _ _ _ _ _ _ H2)|].
  rewrite bsteps_cons in Hok |- *. pose proof (steps_ok _ _ Hok) as O3.
  inversion HF2 as [|? ? Hbe HF3]; subst.
  destruct (trail_ok _ _ _ _ _ H2 ltac:(lia) Hbe O3) as (R3 & C3 & s3 & T3 & H3).
  apply trail_inv in T3; [|exact Hbe|lia].
  destruct (Z.eq_dec s2 1) as [Es2|Es2].
  { left. destruct (utf8_3 ch b e) as (c & U1 & U2 & U3); [lia|lia|lia|lia|lia|].
    exists c, k. rewrite U3. split; [exact U1|]. split; [exact U2|]. split; [reflexivity|].
    split; [replace (n + len [ch; b; e]) with (n + 1 + 1 + 1) by (unfold len; cbn; lia); exact R3|cbn [length]; lia]. }
  destruct k as [|g k]; [right; apply (at_auto t p Ha He _ _ _ _ _ _ H3)|].
  rewrite bsteps_cons in Hok |- *. pose proof (steps_ok _ _ Hok) as O4.
  inversion HF3 as [|? ? Hbg HF4]; subst.
  destruct (trail_ok _ _ _ _ _ H3 ltac:(lia) Hbg O4) as (R4 & C4 & s4 & T4 & H4).
  apply trail_inv in T4; [|exact Hbg|lia].
  left. destruct (utf8_4 ch b e g) as (c & U1 & U2 & U3); [lia|lia|lia|lia|lia|lia|].
  exists c, k. rewrite U3. split; [exact U1|]. split; [exact U2|]. split; [reflexivity|].
  split; [replace (n + len [ch; b; e; g]) with (n + 1 + 1 + 1 + 1) by (unfold len; cbn; lia); exact R4|cbn [length]; lia].
Qed.

Lemma Forall_suffix : forall (a b : list Z), Forall byte (a ++ b) -> Forall byte b.
Proof. intros a b H. apply Forall_app in H. apply H. Qed.

Lemma string_inv : forall N k n d q, (length k <= N)%nat -> at_ n d 0 0 0 q -> room n -> Forall byte k ->
  0 <= p_err (bsteps q k) -> string_read n d q k \/ unfinished q k.
Proof.
  induction N as [|N IH]; intros k n d q HN H R HF Hok.
  { destruct k; [|cbn in HN; lia]. right. apply (at_auto t p Ha He _ _ _ _ _ _ H). }
  destruct k as [|ch k]; [right; apply (at_auto t p Ha He _ _ _ _ _ _ H)|].
  cbn [length] in HN.
  destruct (Z.eq_dec ch 34) as [->|Hq].
  { left. exists [], [], k. rewrite app_nil_r. replace (len []) with 0 by reflexivity. rewrite Z.add_0_r.
    split; [reflexivity|]. split; [constructor|]. split; assumption. }
  pose proof (steps_ok k (bstep q ch) Hok) as O1.
  destruct (step_room _ _ _ _ _ _ ch H) as [R1 K]; [unfold ch_quote; lia|exact O1|].
  inversion HF as [|? ? Hb HF1]; subst. unfold byte in Hb.
  destruct (Z_le_gt_dec 128 ch) as [Hc|Hc].
  { destruct (utf8_inv _ _ _ _ _ H Hc HF Hok) as [(c & k' & C1 & C2 & E & R2 & Hlen)|Hu]; [|right; exact Hu].
    cbn [length] in Hlen. rewrite E in *. pose proof (at_utf8 cfg cb t p Ha He n d q c H C1 C2 R2) as H2.
    rewrite bsteps_app in Hok. unfold unfinished. rewrite bsteps_app.
    destruct (IH k' _ _ _ ltac:(lia) H2 R2 (Forall_suffix _ _ HF) Hok) as [Hs|Hu]; [left|right; exact Hu].
    eapply read_more; [exact Hs|reflexivity|reflexivity|]. intros. apply chars_utf8; assumption. }
  destruct (plainish false ch) eqn:Ep.
  { pose proof (at_plain cfg cb t p Ha He n d 0 0 q ch H R1 Hq) as H2. rewrite Hign in H2. specialize (H2 Ep).
    destruct (IH k _ _ _ ltac:(lia) H2 R1 HF1 Hok) as [Hs|Hu]; [left|right; exact Hu].
    apply (read_more n d q k [ch] [ch] (n + 1) _ Hs); [reflexivity|reflexivity|].
    unfold plainish, is_control, is_ascii, ch_bslash in Ep.
    intros. apply chars_plain; try assumption; lia. }
  destruct (K eq_refl) as [q1 Hi].
  unfold string_iter in Hi. rewrite (at_sub _ _ _ _ _ _ _ H) in Hi. cbn [Z.eqb] in Hi.
  destruct (is_control ch) eqn:Ec; [destruct ((ch =? 13) || (ch =? 10)); discriminate Hi|].
  destruct (ch =? ch_bslash) eqn:Eb.
  2:{ exfalso. unfold plainish, is_control, is_ascii, ch_bslash in *. lia. }
  apply Z.eqb_eq in Eb. unfold ch_bslash in Eb. subst ch. clear Hi q1 K Ep Ec Hq Hc.
  pose proof (at_bslash cfg cb t p Ha He n d 0 0 q H R1) as H1.
  destruct k as [|e k]; [right; apply (at_auto t p Ha He _ _ _ _ _ _ H1)|].
  rewrite !bsteps_cons in Hok. pose proof (steps_ok k _ Hok) as O2.
  destruct (step_room _ _ _ _ _ _ e H1) as [R2 K]; [reflexivity|exact O2|].
  destruct (K eq_refl) as [q1 Hi].
  inversion HF1 as [|? ? _ HF2]; subst. cbn [length] in HN.
  destruct (Z.eq_dec e 117) as [->|Hu].
  2:{ unfold string_iter in Hi. rewrite (at_sub _ _ _ _ _ _ _ H1) in Hi.
      change (92 =? 0) with false in Hi. change (92 <=? 7) with false in Hi.
      change (92 =? ch_bslash) with true in Hi. cbv iota in Hi.
      replace (e =? 117) with false in Hi by lia.
      destruct (simple_escape e) as [c|] eqn:Es; [|discriminate Hi].
      pose proof (at_simple cfg cb t p Ha He _ _ _ _ _ e c H1 R2 Es Hu) as H2.
      destruct (IH k _ _ _ ltac:(lia) H2 R2 HF2 Hok) as [Hs|Hun]; [left|right; exact Hun].
      apply (read_more n d q k [92; e] [c] (n + 1 + 1) _ Hs); [unfold len; cbn; lia|reflexivity|].
      intros. apply chars_escape; [apply simple_escapes; exact Es|assumption]. }
  clear Hi q1 K.
  pose proof (at_u cfg cb t p Ha He _ _ _ _ _ H1 R2) as H2.
  destruct (hex4_inv _ _ _ _ _ H2 Hok) as [(h & c & k' & E & Hh & Bc & R3 & Hlen & q3 & x & v & c1 & H3 & B1 & Hv & Ec & Eq)|Hun];
    [|right; exact Hun].
  subst k. rewrite bsteps_app in Hok. pose proof (steps_ok _ _ Hok) as O3. rewrite Eq in O3.
  destruct (escape_inv _ _ _ _ _ _ _ H3 B1 Hv O3) as [Hsc _]. rewrite <- Ec in Hsc.
  destruct (at_hex4 cfg cb t p Ha He _ _ _ _ _ _ H2 R3 Hh) as (A1 & A2 & _).
  pose proof (Forall_suffix _ _ HF2) as HF3.
  destruct (Hsc eq_refl) as [Sc|Hhi].
  { specialize (A1 eq_refl Sc).
    destruct (IH k' _ _ _ ltac:(lia) A1 R3 HF3 Hok) as [Hs|Hun]; [left|right].
    - apply (read_more n d q k' (92 :: 117 :: h) (utf8 c) _ _ Hs).
      + rewrite !len_cons, (hex4_len _ _ Hh). lia.
      + reflexivity.
      + intros. cbn [app]. apply chars_unicode; assumption.
    - unfold unfinished in *. rewrite !bsteps_cons, bsteps_app. exact Hun. }
  specialize (A2 eq_refl Hhi).
  destruct k' as [|b k'].
  { right. unfold unfinished. rewrite !bsteps_cons, bsteps_app. apply (at_auto t p Ha He _ _ _ _ _ _ A2). }
  rewrite bsteps_cons in Hok. pose proof (steps_ok _ _ Hok) as O4.
  destruct (step_room _ _ _ _ _ _ b A2) as [R4 K4]; [reflexivity|exact O4|].
  destruct (K4 eq_refl) as [q1 Hi].
  unfold string_iter, ill_surrogate in Hi. rewrite (at_sub _ _ _ _ _ _ _ A2) in Hi.
  change (ABCD - 2 =? 0) with false in Hi. change (ABCD - 2 <=? 7) with false in Hi.
  change (ABCD - 2 =? ch_bslash) with false in Hi. change (ABCD <? ABCD - 2) with false in Hi.
  change (ABCD - 2 <=? ABCD - 2) with true in Hi. change (ABCD - 2 =? ABCD - 2) with true in Hi.
  change (ABCD - 2 =? ABCD - 1) with false in Hi. cbn [andb] in Hi.
  destruct (b =? ch_bslash) eqn:Eb; [|discriminate Hi].
  apply Z.eqb_eq in Eb. unfold ch_bslash in Eb. subst b. clear Hi q1 K4.
  pose proof (at_hi_bslash cfg cb t p Ha He _ _ _ _ _ A2 R4) as H4.
  destruct k' as [|u k'].
  { right. unfold unfinished. rewrite !bsteps_cons, bsteps_app. apply (at_auto t p Ha He _ _ _ _ _ _ H4). }
  rewrite bsteps_cons in Hok. pose proof (steps_ok _ _ Hok) as O5.
  destruct (step_room _ _ _ _ _ _ u H4) as [R5 K5]; [reflexivity|exact O5|].
  destruct (K5 eq_refl) as [q1 Hi].
  unfold string_iter, ill_surrogate in Hi. rewrite (at_sub _ _ _ _ _ _ _ H4) in Hi.
  change (ABCD - 1 =? 0) with false in Hi. change (ABCD - 1 <=? 7) with false in Hi.
  change (ABCD - 1 =? ch_bslash) with false in Hi. change (ABCD <? ABCD - 1) with false in Hi.
  change (ABCD - 2 <=? ABCD - 1) with true in Hi. change (ABCD - 1 =? ABCD - 2) with false in Hi.
  change (ABCD - 1 =? ABCD - 1) with true in Hi. cbn [andb] in Hi.
  destruct (u =? 117) eqn:Eu; [|discriminate Hi].
  apply Z.eqb_eq in Eu. subst u. clear Hi q1 K5.
  pose proof (at_hi_u cfg cb t p Ha He _ _ _ _ _ H4 R5) as H5.
  destruct (hex4_inv _ _ _ _ _ H5 Hok) as [(h2 & c2 & k2 & E2 & Hh2 & Bc2 & R6 & Hlen2 & q4 & x2 & v2 & c12 & H6 & B2 & Hv2 & Ec2 & Eq2)|Hun].
  2:{ right. unfold unfinished in *. rewrite !bsteps_cons, bsteps_app. exact Hun. }
  subst k'. rewrite bsteps_app in Hok. pose proof (steps_ok _ _ Hok) as O6. rewrite Eq2 in O6.
  destruct (escape_inv _ _ _ _ _ _ _ H6 B2 Hv2 O6) as [_ Hlo]. rewrite <- Ec2 in Hlo. specialize (Hlo Hhi).
  destruct (at_hex4 cfg cb t p Ha He _ _ _ _ _ _ H5 R6 Hh2) as (_ & _ & A3).
  specialize (A3 Hhi Hlo). cbn [length] in *. rewrite !app_length in *. cbn [length] in *.
  inversion HF3 as [|? ? _ HF4]; subst. inversion HF4 as [|? ? _ HF5]; subst.
  rewrite app_length in *.
  destruct (IH k2 _ _ _ ltac:(lia) A3 R6 (Forall_suffix _ _ HF5) Hok) as [Hs|Hun]; [left|right].
  - replace (92 :: 117 :: h ++ 92 :: 117 :: h2 ++ k2) with ((92 :: 117 :: h ++ 92 :: 117 :: h2) ++ k2)
      by (cbn [app]; rewrite <- app_assoc; reflexivity).
    eapply (read_more n d q k2 (92 :: 117 :: h ++ 92 :: 117 :: h2) _ _ _ Hs).
    + rewrite !len_cons, len_app, !len_cons, (hex4_len _ _ Hh), (hex4_len _ _ Hh2). lia.
    + rewrite !bsteps_cons, bsteps_app. reflexivity.
    + intros raw dd Hch. cbn [app]. rewrite <- app_assoc. cbn [app]. apply chars_pair; assumption.
  - unfold unfinished in *. rewrite !bsteps_cons, bsteps_app, !bsteps_cons, bsteps_app. exact Hun.
Qed.
End P.
