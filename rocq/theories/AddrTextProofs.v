(** Lemmas about address texts. *)
Require Import ZArith List Bool Lia.
From Verif Require Import Json Loader AddrText AddrTextSpec.
Import ListNotations.
Open Scope Z_scope.

Lemma hex_digit_hex c d : hex_digit c = Some d -> hex c d.
Proof.
  unfold hex_digit. destruct ((48 <=? c) && (c <=? 57)) eqn:A; [intros E; injection E as <-; replace c with (48 + (c - 48)) at 1 by lia; constructor; lia|].
  destruct ((65 <=? c) && (c <=? 70)) eqn:B; [intros E; injection E as <-; replace c with (65 + (c - 65 + 10 - 10)) at 1 by lia; constructor; lia|].
  destruct ((97 <=? c) && (c <=? 102)) eqn:D; [intros E; injection E as <-; replace c with (97 + (c - 97 + 10 - 10)) at 1 by lia; constructor; lia|].
  discriminate.
Qed.
Lemma hex_hex_digit c d : hex c d -> hex_digit c = Some d.
Proof.
  intros [e R|e R|e R]; unfold hex_digit.
  - replace (48 <=? 48 + e) with true by lia. replace (48 + e <=? 57) with true by lia. cbn [andb]. f_equal. lia.
  - replace (65 + (e - 10) <=? 57) with false by lia. rewrite andb_false_r. replace (65 <=? 65 + (e - 10)) with true by lia. replace (65 + (e - 10) <=? 70) with true by lia. cbn [andb]. f_equal. lia.
  - replace (97 + (e - 10) <=? 57) with false by lia. rewrite andb_false_r. replace (97 + (e - 10) <=? 70) with false by lia. rewrite andb_false_r.
    replace (97 <=? 97 + (e - 10)) with true by lia. replace (97 + (e - 10) <=? 102) with true by lia. cbn [andb]. f_equal. lia.
Qed.
Lemma hex_range c d : hex c d -> 0 <= d <= 15.
Proof. intros [e R|e R|e R]; lia. Qed.
Lemma hex_not_colon c d : hex c d -> c <> 58.
Proof. intros [e R|e R|e R]; lia. Qed.
Lemma lor_add d d' : 0 <= d <= 15 -> 0 <= d' <= 15 -> Z.lor (Z.shiftl d 4) d' = 16 * d + d'.
Proof.
  intros R R'. rewrite Z.shiftl_mul_pow2 by lia. change (2 ^ 4) with 16.
  assert (X : In d [0;1;2;3;4;5;6;7;8;9;10;11;12;13;14;15]) by (cbn; lia). assert (Y : In d' [0;1;2;3;4;5;6;7;8;9;10;11;12;13;14;15]) by (cbn; lia).
  cbn in X, Y. repeat (destruct X as [<- |X]; [repeat (destruct Y as [<- |Y]; [reflexivity|]); destruct Y|]). destruct X.
Qed.

(** ** MAC addresses *)
Notation len l := (Z.of_nat (List.length l)).

(** When the size has wrapped around it does not come back to 0, and nothing is accepted. *)
Lemma mac_loop_wrapped : forall more done m size, (more <= 8)%nat -> 2 ^ 64 - 3 * (9 - Z.of_nat more) <= size < 2 ^ 64 -> forall b, mac_loop more done m size <> Good b.
Proof.
  induction more as [|more IH]; intros done m size LE R b; cbn [mac_loop]; [discriminate|].
  unfold hex_byte. destruct (size <? 1) eqn:E; [lia|]. destruct m as [|c m]; [discriminate|]. destruct (hex_digit c) as [d|]; [|discriminate].
  destruct m as [|c2 m2]; [discriminate|]. cbv zeta.
  assert (X : forall n m0 v, 2 ^ 64 - 3 * (9 - Z.of_nat (S more)) - 2 <= n < 2 ^ 64 - 0 ->
     (do (b0, m3, size0) <- Good (v, m0, n); (let done0 := done ++ [b0] in if size0 =? 0 then if ((List.length done0 =? 6) || (List.length done0 =? 8))%nat then Good done0 else Err
       else match m3 with [] => Bad | c0 :: m4 => if c0 =? 58 then mac_loop more done0 m4 ((size0 - 1) mod 2 ^ 64) else Err end)) <> Good b).
  { intros n m0 v Rn. cbn [bind]. cbv zeta. destruct (n =? 0) eqn:N0; [lia|]. destruct m0 as [|c0 m4]; [discriminate|]. destruct (c0 =? 58); [|discriminate].
    apply IH; [lia|]. rewrite Z.mod_small by lia. lia. }
  destruct (hex_digit c2) as [d2|]; apply X; [rewrite Z.mod_small by lia|]; lia.
Qed.

Lemma mac_loop_sound : forall more done t behind b, (more <= 8)%nat -> len t < 2 ^ 64 ->
  mac_loop more done (t ++ behind) (len t) = Good b -> exists bs, b = done ++ bs /\ octets t bs /\ (List.length b = 6%nat \/ List.length b = 8%nat).
Proof.
  induction more as [|more IH]; intros done t behind b LE LT E; cbn [mac_loop] in E; [discriminate|].
  unfold hex_byte in E. destruct t as [|c t]; [discriminate E|]. cbn [app] in E. replace (len (c :: t) <? 1) with false in E by (cbn [List.length]; lia).
  destruct (hex_digit c) as [d|] eqn:Hd; [|discriminate E]. apply hex_digit_hex in Hd. replace (len (c :: t) - 1) with (len t) in E by (cbn [List.length]; lia). cbv zeta in E.
  assert (Fin : forall x, (let done0 := done ++ [x] in if ((List.length done0 =? 6) || (List.length done0 =? 8))%nat then Good done0 else Err) = Good b ->
     b = done ++ [x] /\ (List.length b = 6%nat \/ List.length b = 8%nat)).
  { intros x F. cbv zeta in F. destruct ((List.length (done ++ [x]) =? 6) || (List.length (done ++ [x]) =? 8))%nat eqn:Q; [|discriminate]. injection F as <-. split; [reflexivity|]. apply orb_true_iff in Q. rewrite !Nat.eqb_eq in Q. exact Q. }
  destruct t as [|c2 t]; cbn [app] in E.
  - destruct behind as [|c2 m2]; [discriminate E|]. change (len []) with 0 in E. destruct (hex_digit c2) as [d2|] eqn:H2; cbn [bind] in E.
    + exfalso. change ((0 - 1) mod 2 ^ 64) with (2 ^ 64 - 1) in E. change (2 ^ 64 - 1 =? 0) with false in E. cbv iota in E. destruct m2 as [|c3 m3]; [discriminate E|]. destruct (c3 =? 58); [|discriminate E].
      revert E. apply mac_loop_wrapped; [lia|]. change ((2 ^ 64 - 1 - 1) mod 2 ^ 64) with (2 ^ 64 - 2). lia.
    + change (0 =? 0) with true in E. cbv iota in E. destruct (Fin d E) as [-> LB]. exists [d]. split; [reflexivity|]. split; [|exact LB]. constructor. constructor. exact Hd.
  - destruct (hex_digit c2) as [d2|] eqn:H2; cbn [bind] in E.
    + apply hex_digit_hex in H2. rewrite (lor_add d d2 (hex_range _ _ Hd) (hex_range _ _ H2)) in E. replace ((len (c2 :: t) - 1) mod 2 ^ 64) with (len t) in E by (cbn [List.length] in *; rewrite Z.mod_small by lia; lia).
      destruct t as [|c3 t]; cbn [app] in E.
      * change (len [] =? 0) with true in E. cbv iota in E. destruct (Fin _ E) as [-> LB]. exists [16 * d + d2]. split; [reflexivity|]. split; [|exact LB]. constructor. constructor; assumption.
      * replace (len (c3 :: t) =? 0) with false in E by (cbn [List.length]; lia). destruct (c3 =? 58) eqn:Q; [|discriminate E]. apply Z.eqb_eq in Q. subst c3.
        replace ((len (58 :: t) - 1) mod 2 ^ 64) with (len t) in E by (cbn [List.length] in *; rewrite Z.mod_small by lia; lia).
        destruct (IH _ t behind b ltac:(lia) ltac:(cbn [List.length] in *; lia) E) as (bs & -> & O & LB). exists ((16 * d + d2) :: bs). split; [rewrite <- app_assoc; reflexivity|]. split; [|exact LB].
        change (octets ([c; c2] ++ 58 :: t) ((16 * d + d2) :: bs)). constructor; [constructor; assumption|exact O].
    + replace (len (c2 :: t) =? 0) with false in E by (cbn [List.length]; lia). destruct (c2 =? 58) eqn:Q; [|discriminate E]. apply Z.eqb_eq in Q. subst c2.
      replace ((len (58 :: t) - 1) mod 2 ^ 64) with (len t) in E by (cbn [List.length] in *; rewrite Z.mod_small by lia; lia).
      destruct (IH _ t behind b ltac:(lia) ltac:(cbn [List.length] in *; lia) E) as (bs & -> & O & LB). exists (d :: bs). split; [rewrite <- app_assoc; reflexivity|]. split; [|exact LB].
      change (octets ([c] ++ 58 :: t) (d :: bs)). constructor; [constructor; assumption|exact O].
Qed.

(** the end of the text is told by what is behind it, if its last octet has one digit *)
Definition two_digits_last (t : list Z) : Prop := exists r c d c' d', t = r ++ [c; c'] /\ hex c d /\ hex c' d'.
Definition marked (t behind : list Z) : Prop := two_digits_last t \/ exists c r, behind = c :: r /\ hex_digit c = None.

Lemma marked_tail t r behind : r <> [] -> (forall d, ~ hex 58 d) -> marked (t ++ 58 :: r) behind -> marked r behind.
Proof.
  intros NE NC [(x & c & d & c' & d' & E & H & H')|M]; [|right; exact M]. left.
  destruct r as [|r1 r]; [contradiction|]. destruct r as [|r2 r].
  - exfalso. assert (X : (t ++ [58]) ++ [r1] = (x ++ [c]) ++ [c']) by (rewrite <- !app_assoc; exact E). apply app_inj_tail in X. destruct X as [X _]. apply app_inj_tail in X. destruct X as [_ <-]. exact (NC _ H).
  - destruct (exists_last (l := r1 :: r2 :: r)) as (y & z & Y); [discriminate|]. rewrite Y in E. assert (X : (t ++ 58 :: y) ++ [z] = (x ++ [c]) ++ [c']) by (rewrite <- !app_assoc; exact E).
    apply app_inj_tail in X. destruct X as [X ->]. destruct (exists_last (l := y)) as (y' & z' & Y'); [intros ->; discriminate Y|]. subst y.
    assert (X' : (t ++ 58 :: y') ++ [z'] = x ++ [c]) by (rewrite <- app_assoc; exact X). apply app_inj_tail in X'. destruct X' as [_ ->].
    exists y', c, d, c', d'. split; [rewrite Y, <- app_assoc; reflexivity|]. split; assumption.
Qed.
Lemma octets_ne t bs : octets t bs -> t <> [] /\ bs <> [].
Proof. intros [t0 b O|t0 b r bs0 O R]; split; try discriminate; inversion O; discriminate. Qed.

Lemma mac_loop_complete : forall bs t, octets t bs -> forall more done behind, (List.length bs <= more)%nat -> len t < 2 ^ 64 -> marked t behind ->
  (List.length (done ++ bs) = 6%nat \/ List.length (done ++ bs) = 8%nat) ->
  mac_loop more done (t ++ behind) (len t) = Good (done ++ bs).
Proof.
  assert (NC : forall d, ~ hex 58 d) by (intros d H; exact (hex_not_colon _ _ H eq_refl)).
  assert (NC2 : hex_digit 58 = None) by reflexivity.
  induction bs as [|b bs IH]; intros t O more done behind LM LT M LB; [inversion O|].
  destruct more as [|more]; [cbn in LM; lia|]. cbn [mac_loop].
  assert (Fin : (List.length (done ++ b :: bs) = 6%nat \/ List.length (done ++ b :: bs) = 8%nat) -> ((List.length (done ++ b :: bs) =? 6) || (List.length (done ++ b :: bs) =? 8))%nat = true).
  { intros H. apply orb_true_iff. rewrite !Nat.eqb_eq. exact H. }
  inversion O as [t0 b0 OC|t0 b0 r bs0 OC OR]; subst.
  - inversion OC as [c d Hc|c d c' d' Hc Hc']; subst; cbn [app List.length]; unfold hex_byte; cbn [List.length app] in *.
    + change (Z.of_nat 1 <? 1) with false. cbv iota. rewrite (hex_hex_digit _ _ Hc). destruct M as [(r & x & e & x' & e' & E & _)|(x & r & -> & Hx)].
      * exfalso. destruct r as [|? [|? r]]; discriminate E.
      * rewrite Hx. cbn [bind]. change (Z.of_nat 1 - 1 =? 0) with true. cbv zeta iota. rewrite (Fin LB). reflexivity.
    + change (Z.of_nat 2 <? 1) with false. cbv iota. rewrite (hex_hex_digit _ _ Hc), (hex_hex_digit _ _ Hc'). cbn [bind]. change ((Z.of_nat 2 - 1 - 1) mod 2 ^ 64 =? 0) with true. cbv zeta iota.
      rewrite (lor_add d d' (hex_range _ _ Hc) (hex_range _ _ Hc')). rewrite (Fin LB). reflexivity.
  - assert (NR : r <> []) by (destruct (octets_ne _ _ OR); assumption). apply marked_tail in M; [|exact NR|exact NC].
    assert (LR : len r < 2 ^ 64) by (rewrite app_length in LT; cbn [List.length] in LT; lia).
    specialize (IH r OR more (done ++ [b]) behind ltac:(cbn [List.length] in LM; lia) LR M ltac:(rewrite <- app_assoc; exact LB)). rewrite <- app_assoc in IH. cbn [app] in IH.
    inversion OC as [c d Hc|c d c' d' Hc Hc']; subst; cbn [app]; unfold hex_byte.
    + replace (len (c :: 58 :: r) <? 1) with false by (cbn [List.length]; lia). rewrite (hex_hex_digit _ _ Hc), NC2. cbn [bind]. cbv zeta.
      replace (len (c :: 58 :: r) - 1) with (len r + 1) by (cbn [List.length]; lia). replace (len r + 1 =? 0) with false by lia. change (58 =? 58) with true. cbv iota.
      replace ((len r + 1 - 1) mod 2 ^ 64) with (len r) by (rewrite Z.mod_small by lia; lia). exact IH.
    + replace (len (c :: c' :: 58 :: r) <? 1) with false by (cbn [List.length]; lia). rewrite (hex_hex_digit _ _ Hc), (hex_hex_digit _ _ Hc'). cbn [bind]. cbv zeta.
      replace ((len (c :: c' :: 58 :: r) - 1 - 1) mod 2 ^ 64) with (len r + 1).
      2: { rewrite Z.mod_small; cbn [List.length app] in *; lia. }
      replace (len r + 1 =? 0) with false by lia. change (58 =? 58) with true. cbv iota.
      replace ((len r + 1 - 1) mod 2 ^ 64) with (len r) by (rewrite Z.mod_small by lia; lia). rewrite (lor_add d d' (hex_range _ _ Hc) (hex_range _ _ Hc')). exact IH.
Qed.

(** ** CAN addresses *)
Lemma digit_in_iff base c d : digit_in base c = Some d <-> hex c d /\ d < base.
Proof.
  unfold digit_in. split.
  - destruct (hex_digit c) as [e|] eqn:E; [|discriminate]. destruct (e <? base) eqn:L; [|discriminate]. intros X. injection X as <-. split; [exact (hex_digit_hex _ _ E)|lia].
  - intros [H L]. rewrite (hex_hex_digit _ _ H). replace (d <? base) with true by lia. reflexivity.
Qed.
Lemma read_all base : forall l acc n v k, read_digits base acc n l = (v, k) ->
  (n <= k <= n + List.length l)%nat /\ (k = (n + List.length l)%nat -> exists ds, digits base l ds /\ v = value base acc ds).
Proof.
  induction l as [|c l IH]; intros acc n v k E; cbn [read_digits] in E.
  - injection E as <- <-. split; [cbn; lia|]. intros _. exists []. split; [constructor|reflexivity].
  - destruct (digit_in base c) as [d|] eqn:D.
    + destruct (IH _ _ _ _ E) as [B F]. cbn [List.length]. split; [lia|]. intros K. destruct (F ltac:(lia)) as (ds & Ds & ->). exists (d :: ds). split; [|reflexivity]. constructor; [apply digit_in_iff; exact D|exact Ds].
    + injection E as <- <-. cbn [List.length]. split; [lia|]. intros K. lia.
Qed.
Lemma read_digits_of base : forall t ds, digits base t ds -> forall acc n, read_digits base acc n t = (value base acc ds, (n + List.length t)%nat).
Proof.
  intros t ds D. induction D as [|c d t ds H D IH]; intros acc n; cbn [read_digits value List.length]; [f_equal; lia|].
  apply digit_in_iff in H. rewrite H, IH. f_equal. lia.
Qed.
Lemma value_bound base : forall t ds, digits base t ds -> 1 <= base <= 16 -> forall acc, 0 <= acc -> 0 <= value base acc ds < (acc + 1) * 16 ^ len t.
Proof.
  intros t ds D B. induction D as [|c d t ds [H L] D IH]; intros acc A; cbn [value List.length]; [change (16 ^ Z.of_nat 0) with 1; lia|].
  pose proof (hex_range _ _ H). specialize (IH (acc * base + d) ltac:(nia)). rewrite Nat2Z.inj_succ, Z.pow_succ_r by lia.
  assert (P : 0 < 16 ^ len t) by (apply Z.pow_pos_nonneg; lia). nia.
Qed.

Lemma skip_spec s : exists sp, s = sp ++ skip_spaces s /\ Forall space sp.
Proof.
  induction s as [|c s (sp & E & F)]; cbn [skip_spaces]; [exists []; split; constructor|].
  destruct (is_space c) eqn:Q; [|exists []; split; [reflexivity|constructor]]. exists (c :: sp). split; [cbn [app]; rewrite <- E; reflexivity|].
  constructor; [|exact F]. unfold is_space in Q. unfold space. lia.
Qed.
Lemma skip_of sp l : Forall space sp -> (forall c r, l = c :: r -> ~ space c) -> skip_spaces (sp ++ l) = l.
Proof.
  intros F N. induction F as [|c sp H F IH]; cbn [app skip_spaces].
  - destruct l as [|c r]; [reflexivity|]. cbn [skip_spaces]. specialize (N c r eq_refl). destruct (is_space c) eqn:Q; [|reflexivity]. exfalso. apply N. unfold is_space in Q. unfold space. lia.
  - replace (is_space c) with true by (unfold is_space; unfold space in H; lia). exact IH.
Qed.

(** what is left after spaces and sign *)
Lemma base_numeral l v base k n : base_of l = (base, k) -> read_digits base 0 0 (skipn k l) = (v, n) -> n <> 0%nat -> (k + n)%nat = List.length l -> numeral l v.
Proof.
  intros B R N0 L. destruct (read_all _ _ _ _ _ _ R) as [_ F]. destruct l as [|z l]; [cbn in B; injection B as <- <-; cbn in R; injection R as _ <-; contradiction|].
  assert (X : base = 10 /\ k = 0%nat /\ z <> 48 \/ base = 8 /\ k = 0%nat /\ z = 48 \/ base = 16 /\ k = 2%nat /\ z = 48 /\ exists x d r, l = x :: d :: r /\ (x = 120 \/ x = 88)).
  { unfold base_of in B. destruct l as [|x [|d r]].
    - destruct (z =? 48) eqn:Z0; injection B as <- <-; lia.
    - destruct (z =? 48) eqn:Z0; injection B as <- <-; lia.
    - destruct (z =? 48) eqn:Z0; [|injection B as <- <-; lia].
      destruct (((x =? 120) || (x =? 88)) && match digit_in 16 d with Some _ => true | None => false end) eqn:Q; injection B as <- <-; [|lia].
      right. right. split; [reflexivity|]. split; [reflexivity|]. split; [lia|]. exists x, d, r. split; [reflexivity|]. lia. }
  destruct X as [(-> & -> & NZ)|[(-> & -> & ->)|(-> & -> & -> & x & d & r & -> & XX)]]; cbn [skipn] in *.
  - destruct (F ltac:(cbn [List.length] in *; lia)) as (ds & Ds & ->). apply numeral_10; [exact Ds| |discriminate]. intros r E. injection E as -> _. contradiction.
  - destruct (F ltac:(cbn [List.length] in *; lia)) as (ds & Ds & ->). inversion Ds as [|c0 d0 t0 ds0 [H0 L0] D0]; subst. assert (d0 = 0) by (apply hex_hex_digit in H0; vm_compute in H0; congruence). subst d0.
    cbn [value]. change (0 * 8 + 0) with 0. apply numeral_8. exact D0.
  - destruct (F ltac:(cbn [List.length] in *; lia)) as (ds & Ds & ->). apply numeral_16; [exact XX|exact Ds|discriminate].
Qed.
Lemma numeral_base l v : numeral l v -> exists base k ds, base_of l = (base, k) /\ 1 <= base <= 16 /\ (k <= List.length l)%nat /\ digits base (skipn k l) ds /\ v = value base 0 ds /\ skipn k l <> [] /\ exists c r, l = c :: r /\ 48 <= c <= 57.
Proof.
  assert (H10 : forall c d, hex c d -> d < 10 -> 48 <= c <= 57) by (intros c d [e R|e R|e R] L; lia).
  assert (NX : forall x d, hex x d -> x <> 120 /\ x <> 88) by (intros x d [e R|e R|e R]; lia).
  intros [t ds D NZ NE|t ds D|x t ds XX D NE].
  - exists 10, 0%nat, ds. cbn [skipn]. inversion D as [|c d t0 ds0 [Hc Lc] D0]; subst; [contradiction|]. specialize (H10 c d Hc Lc).
    assert (c <> 48) by (intros ->; exact (NZ _ eq_refl)). assert (B : base_of (c :: t0) = (10, 0%nat)).
    { unfold base_of. replace (c =? 48) with false by lia. destruct t0 as [|? [|? ?]]; reflexivity. }
    split; [exact B|]. split; [lia|]. split; [lia|]. split; [exact D|]. split; [reflexivity|]. split; [discriminate|]. exists c, t0. split; [reflexivity|exact H10].
  - exists 8, 0%nat, (0 :: ds). cbn [skipn]. split.
    { unfold base_of. destruct t as [|x [|d r]]; [reflexivity|reflexivity|]. change (48 =? 48) with true. cbv iota. inversion D as [|c0 d0 t0 ds0 [Hc Lc] D0]; subst. destruct (NX _ _ Hc) as [A B]. replace (x =? 120) with false by lia. replace (x =? 88) with false by lia. reflexivity. }
    split; [lia|]. split; [lia|]. split; [constructor; [split; [exact (hex_09 0 ltac:(lia))|lia]|exact D]|]. split; [reflexivity|]. split; [discriminate|]. exists 48, t. split; [reflexivity|lia].
  - exists 16, 2%nat, ds. cbn [skipn]. split.
    { inversion D as [|c d t0 ds0 Hc D0]; subst; [contradiction|]. unfold base_of. change (48 =? 48) with true. cbv iota. apply digit_in_iff in Hc. rewrite Hc. replace ((x =? 120) || (x =? 88)) with true by lia. reflexivity. }
    split; [lia|]. split; [cbn; lia|]. split; [exact D|]. split; [reflexivity|]. split; [exact NE|]. exists 48, (x :: t). split; [reflexivity|lia].
Qed.
Lemma numeral_bound l v : numeral l v -> (List.length l <= 12)%nat -> 0 <= v < 2 ^ 48.
Proof.
  intros H L. destruct (numeral_base l v H) as (base & k & ds & _ & B & K & D & -> & _). pose proof (value_bound base _ _ D B 0 ltac:(lia)) as V.
  assert (P : 16 ^ len (skipn k l) <= 16 ^ 12) by (apply Z.pow_le_mono_r; [lia|]; rewrite skipn_length; lia). change (16 ^ 12) with (2 ^ 48) in P. lia.
Qed.

Lemma strtoul_sound s a : (List.length s <= 12)%nat -> strtoul s = (a, List.length s) -> s = [] /\ a = 0 \/ exists n, c_number s n /\ a = n mod 2 ^ 64 /\ - 2 ^ 48 < n < 2 ^ 48.
Proof.
  intros L E. unfold strtoul in E. destruct (skip_spec s) as (sp & ES & FS). set (l := skip_spaces s) in *.
  destruct (after_sign l) as [neg m] eqn:A. destruct (base_of m) as [base k] eqn:B. destruct (read_digits base 0 0 (skipn k m)) as [v n] eqn:R.
  destruct (n =? 0)%nat eqn:N0; [apply Nat.eqb_eq in N0; injection E as <- E; left; split; [destruct s; [reflexivity|discriminate E]|reflexivity]|]. apply Nat.eqb_neq in N0. right.
  assert (LM : (List.length m <= List.length l)%nat).
  { unfold after_sign in A. destruct l as [|c r]; [injection A as _ <-; lia|]. destruct (c =? 45); [injection A as _ <-; cbn; lia|]. destruct (c =? 43); injection A as _ <-; cbn; lia. }
  assert (LS : (List.length l <= List.length s)%nat) by (apply (f_equal (@List.length Z)) in ES; rewrite app_length in ES; lia).
  assert (LK : (k <= List.length m)%nat).
  { unfold base_of in B. destruct m as [|z [|x [|d r]]]; [injection B as _ <-; lia|destruct (z =? 48); injection B as _ <-; lia|destruct (z =? 48); injection B as _ <-; lia|].
    destruct (z =? 48); [|injection B as _ <-; lia]. destruct (_ && _); injection B as _ <-; cbn; lia. }
  assert (RB : (n <= List.length (skipn k m))%nat) by (destruct (read_all _ _ _ _ _ _ R); lia). rewrite skipn_length in RB.
  assert (EA : (if 2 ^ 64 <=? v then 2 ^ 64 - 1 else if neg then (- v) mod 2 ^ 64 else v) = a) by congruence.
  assert (EL : (List.length s - List.length m + k + n)%nat = List.length s) by congruence. assert (KN : (k + n)%nat = List.length m) by lia.
  pose proof (base_numeral m v base k n B R N0 KN) as NU. pose proof (numeral_bound m v NU ltac:(lia)) as VB. replace (2 ^ 64 <=? v) with false in EA by lia.
  unfold after_sign in A. destruct l as [|c r].
  - injection A as <- <-. exfalso. cbn in KN. lia.
  - destruct (c =? 45) eqn:Q1.
    + injection A as <- <-. apply Z.eqb_eq in Q1. subst c. exists (- v). split; [rewrite ES; apply c_minus; assumption|]. split; [symmetry; exact EA|lia].
    + destruct (c =? 43) eqn:Q2; injection A as <- <-.
      * apply Z.eqb_eq in Q2. subst c. exists v. split; [rewrite ES; apply c_plus; assumption|]. split; [rewrite Z.mod_small by lia; symmetry; exact EA|lia].
      * exists v. split; [rewrite ES; apply c_plain; assumption|]. split; [rewrite Z.mod_small by lia; symmetry; exact EA|lia].
Qed.
Lemma strtoul_complete s n : (List.length s <= 12)%nat -> c_number s n -> strtoul s = (n mod 2 ^ 64, List.length s) /\ - 2 ^ 48 < n < 2 ^ 48.
Proof.
  intros L H.
  assert (NS : forall c, 48 <= c <= 57 -> ~ space c) by (unfold space; intros; lia).
  assert (K : forall sp sg t v neg, s = sp ++ sg ++ t -> Forall space sp -> numeral t v -> sg = [] /\ neg = false \/ sg = [43] /\ neg = false \/ sg = [45] /\ neg = true ->
     strtoul s = ((if neg then - v else v) mod 2 ^ 64, List.length s) /\ 0 <= v < 2 ^ 48).
  { intros sp sg t v neg ES FS NU SG. destruct (numeral_base t v NU) as (base & k & ds & B & BR & KL & D & EV & NE & c & r & Et & Ec).
    assert (VB : 0 <= v < 2 ^ 48) by (apply (numeral_bound t v NU); rewrite ES, !app_length in L; lia). split; [|exact VB].
    unfold strtoul. assert (SK : skip_spaces s = sg ++ t).
    { rewrite ES. apply skip_of; [exact FS|]. intros c0 r0 E. destruct SG as [[-> _]|[[-> _]|[-> _]]]; cbn [app] in E; [rewrite Et in E|..]; injection E as <- _; [apply NS; exact Ec|unfold space; lia..]. }
    rewrite SK. assert (AS : after_sign (sg ++ t) = (neg, t)).
    { destruct SG as [[-> ->]|[[-> ->]|[-> ->]]]; cbn [app]; unfold after_sign; [|reflexivity|reflexivity]. rewrite Et. replace (c =? 45) with false by lia. replace (c =? 43) with false by lia. reflexivity. }
    rewrite AS, B, (read_digits_of base _ _ D), <- EV. assert (LN : List.length (skipn k t) <> 0%nat) by (destruct (skipn k t); [contradiction|discriminate]).
    replace (0 + List.length (skipn k t) =? 0)%nat with false by (symmetry; apply Nat.eqb_neq; lia).
    replace (2 ^ 64 <=? v) with false by lia. f_equal.
    - destruct neg; [reflexivity|]. rewrite Z.mod_small by lia. reflexivity.
    - rewrite skipn_length in *. rewrite ES, !app_length. lia. }
  destruct H as [sp t v FS NU|sp t v FS NU|sp t v FS NU].
  - destruct (K sp [] t v false eq_refl FS NU ltac:(left; split; reflexivity)) as [E V]. split; [exact E|lia].
  - destruct (K sp [43] t v false eq_refl FS NU ltac:(right; left; split; reflexivity)) as [E V]. split; [exact E|lia].
  - destruct (K sp [45] t v true eq_refl FS NU ltac:(right; right; split; reflexivity)) as [E V]. split; [exact E|lia].
Qed.

Lemma shiftr_bytes a : 0 <= a < 2 ^ 32 -> big_endian [Z.shiftr a 24 mod 256; Z.shiftr a 16 mod 256; Z.shiftr a 8 mod 256; a mod 256] a.
Proof.
  intros R. rewrite !Z.shiftr_div_pow2 by lia. eexists _, _, _, _. split; [reflexivity|]. split; [repeat constructor; apply Z.mod_pos_bound; lia|].
  change (2 ^ 24) with (256 * (256 * 256)). change (2 ^ 16) with (256 * 256). change (2 ^ 8) with 256.
  rewrite <- !Z.div_div by lia. pose proof (Z.div_mod a 256 ltac:(lia)). pose proof (Z.div_mod (a / 256) 256 ltac:(lia)). pose proof (Z.div_mod (a / 256 / 256) 256 ltac:(lia)).
  assert (Q : 0 <= a / 256 / 256 / 256 < 256).
  { split; [repeat apply Z.div_pos; lia|]. apply Z.div_lt_upper_bound; [lia|]. apply Z.div_lt_upper_bound; [lia|]. apply Z.div_lt_upper_bound; [lia|]. lia. }
  rewrite (Z.mod_small (a / 256 / 256 / 256) 256 Q). lia.
Qed.
Lemma big_endian_unique b b' n : big_endian b n -> big_endian b' n -> b = b'.
Proof.
  intros (x1 & x2 & x3 & x4 & -> & F & E) (y1 & y2 & y3 & y4 & -> & G & H). rewrite !Forall_cons_iff in F, G.
  destruct F as (F1 & F2 & F3 & F4 & _), G as (G1 & G2 & G3 & G4 & _). assert (x1 = y1 /\ x2 = y2 /\ x3 = y3 /\ x4 = y4) as (-> & -> & -> & ->) by lia. reflexivity.
Qed.
