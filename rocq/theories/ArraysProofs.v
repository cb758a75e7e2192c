(** The memory of an array always holds its list. *)
From Coq Require Import Lia.
From Verif Require Import Base Links LinksProofs Table Arrays ArraysSpec.
Open Scope Z_scope.
Local Set Warnings "-notation-overridden".
Ltac Zify.zify_post_hook ::= Z.to_euclidean_division_equations.

Definition Inv (a : arr) (l : list (option Z)) : Prop :=
  size a = len l /\ (forall q, (next a <= q)%positive -> heap a q = None) /\
  ((buf a = None /\ room a = 0 /\ l = [] /\ forall q, heap a q = None) \/
   (exists p rest, buf a = Some p /\ heap a p = Some (map Val l ++ rest) /\ room a = len l + Z.of_nat (length rest) /\ 1 <= room a <= 2 ^ 59 /\
      (forall q, heap a q <> None -> q = p))).

Lemma wrap_id : forall z, 0 <= z < 2 ^ 64 -> wrap z = z.
Proof. intros z R. unfold wrap. apply Z.mod_small. exact R. Qed.
Lemma map_firstn : forall (l : list (option Z)) n, firstn n (map Val l) = map Val (firstn n l).
Proof. intros l n. rewrite firstn_map. reflexivity. Qed.
Lemma map_skipn : forall (l : list (option Z)) n, skipn n (map Val l) = map Val (skipn n l).
Proof. intros l n. rewrite skipn_map. reflexivity. Qed.

(** getting more or less memory keeps the list *)
Lemma realloc_inv : forall a l n mem, Inv a l -> len l <= n -> 1 <= n <= 2 ^ 59 ->
  exists a', (array_realloc a n mem = Ret (a', mem)) /\ Inv a' l /\ size a' = size a /\ (mem = true -> room a' = n /\ buf a' <> None) /\ (mem = false -> a' = a).
Proof.
  intros a l n mem (SZ & FR & D) LN NR. unfold array_realloc, resize. rewrite wrap_id by (unfold CELL; lia).
  replace (n * CELL / CELL) with n by (unfold CELL; rewrite Z.div_mul; lia).
  destruct D as [(B & R & L & E)|(p & rest & B & H & R & RR & U)]; rewrite B.
  - destruct mem; cbn [bind].
    + eexists. split; [reflexivity|]. cbn [heap next buf size room]. split; [|split; [reflexivity|split; [intros _; split; [reflexivity|discriminate]|discriminate]]].
      split; [exact SZ|]. cbn [heap next buf size room]. split.
      * intros q Q. rewrite upd_neq by lia. apply FR. lia.
      * right. exists (next a), (repeat Garbage (Z.to_nat n)). subst l. cbn [buf heap room map app]. split; [reflexivity|]. split; [apply upd_eq|]. split; [rewrite repeat_length; unfold len; cbn; lia|]. split; [lia|].
        intros q Q. destruct (Pos.eq_dec q (next a)) as [X|X]; [exact X|]. rewrite upd_neq in Q by congruence. rewrite E in Q. congruence.
    + eexists. split; [reflexivity|]. split; [|repeat split; discriminate]. split; [exact SZ|]. split; [exact FR|]. left. auto.
  - rewrite H. cbn [ub_none bind]. destruct (Z.eqb_spec (n * CELL) 0) as [Z0|_]; [exfalso; unfold CELL in Z0; lia|].
    destruct mem; cbn [bind].
    + eexists. split; [reflexivity|]. cbn [heap next buf size room]. split; [|split; [reflexivity|split; [intros _; split; [reflexivity|discriminate]|discriminate]]].
      assert (P1 : (p < next a)%positive). { destruct (Pos.lt_total p (next a)) as [X|[X|X]]; [exact X| |]; rewrite FR in H by lia; discriminate. }
      split; [exact SZ|]. cbn [heap next buf size room]. split.
      * intros q Q. rewrite upd_neq by lia. destruct (Pos.eq_dec q p) as [-> |X]; [apply upd_eq|]. rewrite upd_neq by congruence. apply FR. lia.
      * right. exists (next a), (firstn (Z.to_nat n - length l) rest ++ repeat Garbage (Z.to_nat n - (length l + length rest))). cbn [buf heap room]. split; [reflexivity|]. split; [|split; [|split]].
        -- rewrite upd_eq. rewrite firstn_app, app_length, map_length, firstn_all2 by (rewrite map_length; unfold len in LN; lia). rewrite <- app_assoc. reflexivity.
        -- rewrite app_length, firstn_length, repeat_length. unfold len in *. lia.
        -- lia.
        -- intros q Q. destruct (Pos.eq_dec q (next a)) as [X|X]; [exact X|]. rewrite upd_neq in Q by congruence. destruct (Pos.eq_dec q p) as [-> |Y]; [rewrite upd_eq in Q; congruence|]. rewrite upd_neq in Q by congruence. exfalso. apply Y. apply U. exact Q.
    + eexists. split; [reflexivity|]. split; [|repeat split; discriminate]. split; [exact SZ|]. split; [exact FR|]. right. exists p, rest. auto.
Qed.

Lemma load_inv : forall a l i, Inv a l -> 0 <= i < len l -> exists v, nth_error l (Z.to_nat i) = Some v /\ load a i = Ret v.
Proof.
  intros a l i (SZ & FR & D) R. destruct D as [(B & RM & L & E)|(p & rest & B & H & RM & RR & U)]; [subst l; unfold len in R; cbn in R; lia|].
  unfold load. rewrite B, H. cbn [ub_none bind]. rewrite nth_error_app1 by (rewrite map_length; unfold len in R; lia). rewrite nth_error_map.
  destruct (nth_error l (Z.to_nat i)) as [v|] eqn:EN; [|apply nth_error_None in EN; unfold len in R; lia]. exists v. split; reflexivity.
Qed.
Lemma destroy_inv : forall a l n i, Inv a l -> 0 <= i -> i + Z.of_nat n <= len l -> destroy a i n = Ret tt.
Proof.
  intros a l. induction n as [|n IH]; intros i IV I0 R; cbn [destroy]; [reflexivity|]. destruct (load_inv a l i IV ltac:(lia)) as (v & _ & ->). cbn [bind]. apply IH; [exact IV|lia|lia].
Qed.
Lemma store_inv : forall a l i v, Inv a l -> 0 <= i < len l -> exists a', store a i v = Ret a' /\ Inv a' (replaced l i v) /\ size a' = size a.
Proof.
  intros a l i v (SZ & FR & D) R. destruct D as [(B & RM & L & E)|(p & rest & B & H & RM & RR & U)]; [subst l; unfold len in R; cbn in R; lia|].
  unfold store. rewrite B, H. cbn [ub_none bind]. unfold set_cell. rewrite app_length, map_length. unfold len in *.
  destruct (Nat.ltb_spec (Z.to_nat i) (length l + length rest)) as [LT|LT]; [|lia]. cbn [bind].
  assert (LEN : length (replaced l i v) = length l). { unfold replaced. rewrite app_length. cbn [length]. rewrite firstn_length, skipn_length. lia. }
  eexists. split; [reflexivity|]. split; [|reflexivity]. split; [unfold len; rewrite LEN; exact SZ|]. cbn [next heap buf room]. split.
  - intros q Q. destruct (Pos.eq_dec q p) as [-> |X]; [rewrite FR in H by exact Q; discriminate|]. rewrite upd_neq by congruence. apply FR. exact Q.
  - right. exists p, rest. split; [reflexivity|]. split; [|split; [unfold len; rewrite LEN; exact RM|split; [exact RR|]]].
    + rewrite upd_eq. f_equal. unfold replaced. replace (Z.to_nat (i + 1)) with (S (Z.to_nat i)) by lia.
      rewrite firstn_app, skipn_app, map_length. replace (Z.to_nat i - length l)%nat with 0%nat by lia. replace (S (Z.to_nat i) - length l)%nat with 0%nat by lia. rewrite firstn_O, skipn_O.
      rewrite app_nil_r, map_app, map_firstn, map_skipn. cbn [map]. rewrite <- app_assoc. reflexivity.
    + intros q Q. destruct (Pos.eq_dec q p) as [X|X]; [exact X|]. rewrite upd_neq in Q by congruence. apply U. exact Q.
Qed.

Lemma insert_inv : forall a l i mem, Inv a l -> len l < 2 ^ 58 -> size_t i -> exists a' p r l', array_insert a i mem = Ret (a', p) /\ item_result (a', p) = Ret (r, a') /\ adds l i mem r l' /\ Inv a' l'.
Proof.
  intros a l i mem IV LB (I0 & _). pose proof IV as (SZ & _). unfold array_insert, adds. rewrite SZ. destruct (Z.ltb_spec (len l) i) as [LT|GE].
  - eexists a, None, RNull, l. split; [reflexivity|]. split; [reflexivity|]. destruct (Z.leb_spec i (len l)); [lia|]. auto.
  - destruct (Z.leb_spec i (len l)) as [_|?]; [|lia].
    assert (L0 : 0 <= len l) by (unfold len; lia).
    assert (GROW : exists a1 ok, (if room a <=? len l then array_realloc a (if 0 <? room a then wrap (room a * 2) else 1) mem else Ret (a, true)) = Ret (a1, ok) /\
      Inv a1 l /\ ((ok = false /\ mem = false /\ a1 = a) \/ (ok = true /\ len l < room a1))).
    { destruct (Z.leb_spec (room a) (len l)) as [LE|GT].
      - assert (RR : 0 <= room a <= len l /\ (room a = 0 -> l = [])).
        { destruct IV as (_ & _ & [(_ & R & L & _)|(p & rest & _ & _ & R & RR & _)]); [subst l; rewrite R; split; [unfold len; cbn; lia|reflexivity]|]. split; [lia|]. intros X. lia. }
        assert (NN : (if 0 <? room a then wrap (room a * 2) else 1) = Z.max 1 (2 * room a)).
        { destruct (Z.ltb_spec 0 (room a)); [rewrite wrap_id by lia; lia|lia]. }
        rewrite NN. destruct RR as (RR & R0).
        assert (FULL : len l = room a). { destruct IV as (_ & _ & [(_ & R & L & _)|(p & rest & _ & _ & R & RR' & _)]); [subst l; rewrite R; reflexivity|lia]. }
        destruct (realloc_inv a l (Z.max 1 (2 * room a)) mem IV ltac:(lia) ltac:(lia)) as (a1 & E & IV1 & _ & T & F).
        exists a1, mem. split; [exact E|]. split; [exact IV1|]. destruct mem; [right; split; [reflexivity|]; destruct (T eq_refl) as (-> & _); lia|left; auto].
      - exists a, true. split; [reflexivity|]. split; [exact IV|]. right. split; [reflexivity|exact GT]. }
    destruct GROW as (a1 & ok & -> & IV1 & [(-> & -> & ->)|(-> & RM)]); cbn [bind negb].
    + exists a, None, RNull, l. split; [reflexivity|]. split; [reflexivity|]. split; [right; auto|exact IV].
    + assert (SZ1 : size a1 = len l) by apply IV1. rewrite SZ1.
      destruct IV1 as (_ & FR & [(B & R0 & _)|(p & rest & B & H & RM' & RR & U)]); [lia|].
      destruct rest as [|c rest]; [cbn [length] in RM'; lia|].
      set (n := Z.to_nat i). assert (NL : (n <= length l)%nat) by (unfold n, len in *; lia).
      assert (MOVE : exists g, (if i <? len l then move a1 (i + 1) i (len l - i) else Ret a1) =
        Ret (mka (upd (heap a1) p (Some (map Val (firstn n l) ++ g :: map Val (skipn n l) ++ rest))) (next a1) (buf a1) (size a1) (room a1)) \/
        (i = len l /\ (if i <? len l then move a1 (i + 1) i (len l - i) else Ret a1) = Ret a1)).
      { destruct (Z.ltb_spec i (len l)) as [LT|GE2]; [|exists c; right; split; [lia|reflexivity]].
        unfold move. rewrite B, H. cbn [ub_none bind]. cbn [length] in RM'.
        assert (BL : Z.of_nat (length (map Val l ++ c :: rest)) = room a1) by (rewrite app_length, map_length; cbn [length]; unfold len in RM'; lia).
        rewrite BL. destruct (Z.leb_spec (i + 1 + (len l - i)) (room a1)); [|lia]. destruct (Z.leb_spec (i + (len l - i)) (room a1)); [|lia]. cbn [andb].
        assert (NN : nth_error (map Val l ++ c :: rest) n <> None) by (apply nth_error_Some; rewrite app_length, map_length; unfold n, len in *; lia).
        destruct (nth_error (map Val l ++ c :: rest) n) as [g|] eqn:EG; [|congruence]. exists g. left. f_equal. f_equal. f_equal. f_equal.
        replace (Z.to_nat (i + 1)) with (S n) by (unfold n; lia). replace (Z.to_nat (i + 1 + (len l - i))) with (S (length l)) by (unfold len; lia). replace (Z.to_nat (len l - i)) with (length l - n)%nat by (unfold n, len; lia).
        fold n. assert (E3 : skipn (S (length l)) (map Val l ++ c :: rest) = rest).
        { rewrite skipn_app, map_length, skipn_all2 by (rewrite map_length; lia). replace (S (length l) - length l)%nat with 1%nat by lia. reflexivity. }
        assert (E1 : firstn (S n) (map Val l ++ c :: rest) = map Val (firstn n l) ++ [g]).
        { assert (EF : forall (A : Type) (x : list A) k y, nth_error x k = Some y -> firstn (S k) x = firstn k x ++ [y]).
          { clear. intros A. induction x as [|a x IH]; intros [|k] y E; try discriminate E; [injection E as ->; reflexivity|]. cbn [nth_error] in E. specialize (IH k y E). cbn [firstn app]. cbn [firstn] in IH. f_equal. exact IH. }
          rewrite (EF _ _ _ _ EG). f_equal. rewrite firstn_app, map_length. replace (n - length l)%nat with 0%nat by lia. cbn [firstn]. rewrite app_nil_r. apply map_firstn. }
        assert (E2 : firstn (length l - n) (skipn n (map Val l ++ c :: rest)) = map Val (skipn n l)).
        { rewrite skipn_app, map_length. replace (n - length l)%nat with 0%nat by lia. cbn [skipn]. rewrite firstn_app, skipn_length, map_length. replace (length l - n - (length l - n))%nat with 0%nat by lia. cbn [firstn]. rewrite app_nil_r, firstn_all2 by (rewrite skipn_length, map_length; lia). apply map_skipn. }
        rewrite E1, E2, E3. rewrite <- app_assoc. reflexivity. }
      assert (ST : exists a2 g, (if i <? len l then move a1 (i + 1) i (len l - i) else Ret a1) = Ret a2 /\ buf a2 = Some p /\ size a2 = len l /\ next a2 = next a1 /\ room a2 = room a1 /\
        heap a2 p = Some (map Val (firstn n l) ++ g :: map Val (skipn n l) ++ rest) /\ (forall q, q <> p -> heap a2 q = heap a1 q)).
      { destruct MOVE as (g & [E|(IE & E)]); rewrite E.
        - eexists _, g. split; [reflexivity|]. cbn [buf size next room heap]. split; [exact B|]. split; [exact SZ1|]. split; [reflexivity|]. split; [reflexivity|]. split; [apply upd_eq|]. intros q Q. apply upd_neq. congruence.
        - exists a1, c. split; [reflexivity|]. split; [exact B|]. split; [exact SZ1|]. split; [reflexivity|]. split; [reflexivity|]. split; [|reflexivity]. rewrite H. unfold n. rewrite IE. unfold len. rewrite Nat2Z.id, firstn_all, skipn_all. reflexivity. }
      destruct ST as (a2 & g & -> & B2 & S2 & N2 & R2 & H2 & O2). cbn [bind]. unfold store. rewrite B2, H2. cbn [ub_none bind]. unfold set_cell.
      assert (BL : length (map Val (firstn n l) ++ g :: map Val (skipn n l) ++ rest) = (S (length l) + length rest)%nat).
      { rewrite app_length. cbn [length]. rewrite app_length, !map_length, firstn_length, skipn_length. lia. }
      fold n. rewrite BL. destruct (Nat.ltb_spec n (S (length l) + length rest)) as [LT|LT]; [|lia]. cbn [bind size with_size].
      assert (FN : length (map Val (firstn n l)) = n) by (rewrite map_length, firstn_length; lia).
      replace (firstn n (map Val (firstn n l) ++ g :: map Val (skipn n l) ++ rest)) with (map Val (firstn n l)).
      2:{ rewrite firstn_app, FN, Nat.sub_diag. rewrite firstn_O, app_nil_r. symmetry. apply firstn_all2. lia. }
      replace (skipn (S n) (map Val (firstn n l) ++ g :: map Val (skipn n l) ++ rest)) with (map Val (skipn n l) ++ rest).
      2:{ rewrite skipn_app, FN. replace (S n - n)%nat with 1%nat by lia. rewrite (skipn_all2 (map Val (firstn n l))) by lia. reflexivity. }
      rewrite S2, wrap_id by lia.
      assert (IV' : forall a', a' = with_size (mka (upd (heap a2) p (Some (map Val (firstn n l) ++ Val None :: map Val (skipn n l) ++ rest))) (next a2) (Some p) (size a2) (room a2)) (len l + 1) -> Inv a' (inserted l i None)).
      { intros a' ->. assert (LI : len (inserted l i None) = len l + 1). { unfold len, inserted. fold n. rewrite app_length. cbn [length]. rewrite firstn_length, skipn_length. lia. }
        split; [cbn [with_size size]; lia|]. cbn [with_size next heap buf room]. rewrite N2, R2. split.
        - intros q Q. destruct (Pos.eq_dec q p) as [-> |X]; [rewrite FR in H by exact Q; discriminate|]. rewrite upd_neq by congruence. rewrite O2 by exact X. apply FR. exact Q.
        - right. exists p, rest. split; [reflexivity|]. split; [|split; [cbn [length] in RM'; lia|split; [exact RR|]]].
          + rewrite upd_eq. f_equal. unfold inserted. fold n. rewrite map_app. cbn [map]. rewrite <- app_assoc. reflexivity.
          + intros q Q. destruct (Pos.eq_dec q p) as [X|X]; [exact X|]. rewrite upd_neq in Q by congruence. rewrite O2 in Q by exact X. apply U. exact Q. }
      eexists _, (Some i), (RItem None), (inserted l i None). split; [reflexivity|].
      specialize (IV' _ eq_refl). split; [|split; [left; auto|exact IV']].
      destruct (load_inv _ _ i IV') as (v & EV & EL). { unfold len, inserted. fold n. rewrite app_length. cbn [length]. rewrite firstn_length, skipn_length. unfold n, len in *. lia. }
      unfold with_size in EL |- *. cbn [item_result heap next buf size room] in EL |- *. match goal with |- context [load ?x i] => replace (load x i) with (Ret v) by (symmetry; exact EL) end. cbn [bind]. unfold inserted in EV. fold n in EV. rewrite nth_error_app2 in EV by (rewrite firstn_length; lia). rewrite firstn_length in EV. replace (n - Nat.min n (length l))%nat with 0%nat in EV by lia. cbn in EV. injection EV as <-. reflexivity.
Qed.

Lemma remove_inv : forall a l i n mem, Inv a l -> 0 <= i -> 0 <= n -> size_t (i + n) -> (i + n <= len l -> n < len l) ->
  exists a' c l', array_remove_range a i n mem = Ret (a', c) /\ removes l i n (RNum c) l' /\ Inv a' l'.
Proof.
  intros a l i n mem IV I0 N0 ST NE. pose proof IV as (SZ & _). unfold array_remove_range, removes. rewrite wrap_id by exact ST. rewrite SZ.
  destruct (Z.ltb_spec (len l) (i + n)) as [LT|GE]; destruct (Z.leb_spec (i + n) (len l)) as [G2|G2]; try lia.
  - exists a, (-1), l. auto.
  - specialize (NE G2). rewrite (destroy_inv a l) by (try exact IV; lia). cbn [bind].
    destruct IV as (_ & FR & [(B & R0 & L & _)|(p & rest & B & H & RM' & RR & U)]); [subst l; unfold len in NE; cbn in NE; lia|].
    set (ni := Z.to_nat i). set (nn := Z.to_nat (i + n)).
    assert (B1 : (ni <= nn <= length l)%nat) by (unfold ni, nn, len in *; lia).
    assert (LW : len (without l i n) = len l - n). { unfold without, len. fold ni nn. rewrite app_length, firstn_length, skipn_length. unfold ni, nn, len in *. lia. }
    assert (SZB : len l < 2 ^ 60) by lia.
    assert (MV : exists a1 rest', (if i + n <? len l then move a i (i + n) (len l - (i + n)) else Ret a) = Ret a1 /\ size a1 = len l /\
      (size a1 = len l -> Inv (with_size a1 (len l - n)) (without l i n)) /\ room a1 = room a /\ rest' = rest).
    { destruct (Z.ltb_spec (i + n) (len l)) as [LT|EQ].
      - unfold move. rewrite B, H. cbn [ub_none bind].
        assert (BL : Z.of_nat (length (map Val l ++ rest)) = room a) by (rewrite app_length, map_length; unfold len in RM'; lia).
        rewrite BL. destruct (Z.leb_spec (i + (len l - (i + n))) (room a)); [|lia]. destruct (Z.leb_spec (i + n + (len l - (i + n))) (room a)); [|lia]. cbn [andb].
        eexists _, rest. split; [reflexivity|]. cbn [size room]. split; [exact SZ|]. split; [|split; reflexivity]. intros _.
        split; [cbn [with_size size]; lia|]. cbn [with_size next heap buf room]. split.
        + intros q Q. destruct (Pos.eq_dec q p) as [-> |X]; [rewrite FR in H by exact Q; discriminate|]. rewrite upd_neq by congruence. apply FR. exact Q.
        + right. exists p, (skipn (Z.to_nat (len l - n)) (map Val l) ++ rest). split; [reflexivity|]. split; [|split; [rewrite app_length, skipn_length, map_length; unfold len in *; lia|split; [exact RR|]]].
          * rewrite upd_eq. f_equal. fold ni. replace (Z.to_nat (len l - (i + n))) with (length l - nn)%nat by (unfold nn, len in *; lia). replace (Z.to_nat (i + (len l - (i + n)))) with (Z.to_nat (len l - n)) by (f_equal; lia). fold nn.
            unfold without. fold ni nn. rewrite map_app, <- map_firstn, <- map_skipn.
            rewrite firstn_app, map_length. replace (ni - length l)%nat with 0%nat by lia. cbn [firstn]. rewrite app_nil_r.
            rewrite skipn_app, map_length. replace (nn - length l)%nat with 0%nat by lia. cbn [skipn].
            rewrite (firstn_app (length l - nn)), skipn_length, map_length. replace (length l - nn - (length l - nn))%nat with 0%nat by lia. cbn [firstn]. rewrite app_nil_r, (firstn_all2 (skipn nn (map Val l))) by (rewrite skipn_length, map_length; lia).
            rewrite skipn_app, map_length. replace (Z.to_nat (len l - n) - length l)%nat with 0%nat by (unfold len in *; lia). cbn [skipn]. rewrite <- app_assoc. reflexivity.
          * intros q Q. destruct (Pos.eq_dec q p) as [X|X]; [exact X|]. rewrite upd_neq in Q by congruence. apply U. exact Q.
      - exists a, rest. split; [reflexivity|]. split; [exact SZ|]. split; [|split; reflexivity]. intros _.
        split; [cbn [with_size size]; lia|]. cbn [with_size next heap buf room]. split; [exact FR|].
        right. exists p, (skipn ni (map Val l) ++ rest). split; [exact B|]. split; [|split; [rewrite app_length, skipn_length, map_length; unfold ni, len in *; lia|split; [exact RR|exact U]]].
        rewrite H. f_equal. unfold without. fold ni nn. replace nn with (length l) by (unfold nn, len in *; lia). rewrite skipn_all, app_nil_r, <- map_firstn, app_assoc, firstn_skipn. reflexivity. }
    destruct MV as (a1 & rest' & -> & S1 & IV1 & R1 & _). cbn [bind]. specialize (IV1 S1). rewrite S1. cbv zeta. rewrite (wrap_id (len l - n)) by lia.
    cbn [with_size size room]. rewrite wrap_id by lia.
    destruct (Z.ltb_spec (4 * (len l - n)) (room a1)) as [SH|KEEP].
    + fold (with_size a1 (len l - n)). destruct (realloc_inv (with_size a1 (len l - n)) (without l i n) (room a1 / 2) mem IV1) as (a2 & E & IV2 & _).
      * rewrite LW. lia.
      * rewrite R1 in *. lia.
      * rewrite E. cbn [bind]. exists a2, 0, (without l i n). auto.
    + cbn [bind]. fold (with_size a1 (len l - n)). exists (with_size a1 (len l - n)), 0, (without l i n). auto.
Qed.

Lemma clean_inv : forall a l, Inv a l -> exists a', array_clean a = Ret (a', 0) /\ Inv a' [] /\ forall q, heap a' q = None.
Proof.
  intros a l IV. pose proof IV as (SZ & FR & D). unfold array_clean. rewrite (destroy_inv a l) by (try exact IV; unfold len in *; lia). cbn [bind].
  destruct D as [(B & R & L & E)|(p & rest & B & H & R & RR & U)]; rewrite B.
  - eexists. split; [reflexivity|]. split; [|exact E]. split; [reflexivity|]. split; [exact FR|]. left. auto.
  - rewrite H. cbn [ub_none bind]. eexists. split; [reflexivity|].
    assert (E : forall q, upd (heap a) p None q = None).
    { intros q. destruct (Pos.eq_dec q p) as [-> |X]; [apply upd_eq|]. rewrite upd_neq by congruence. destruct (heap a q) eqn:Q; [|reflexivity]. exfalso. apply X. apply U. congruence. }
    split; [|exact E]. split; [reflexivity|]. cbn [next heap buf room]. split; [intros q _; apply E|]. left. auto.
Qed.

Lemma step_inv : forall a l o, Inv a l -> allowed l o -> exists r a' l', step a o = Ret (r, a') /\ answers l o r l' /\ Inv a' l'.
Proof.
  intros a l o IV AL. pose proof IV as (SZ & _). destruct o as [i|i v| |mem|i mem|i mem|i n mem|]; cbn [allowed] in AL; cbn [step answers].
  - unfold array_get. rewrite SZ. destruct (Z.ltb_spec i (len l)) as [LT|GE]; cbn [item_result].
    + destruct (load_inv a l i IV) as (v & EN & ->); [unfold size_t in AL; lia|]. cbn [bind]. exists (RItem v), a, l. rewrite EN. auto.
    + exists RNull, a, l. split; [reflexivity|]. split; [|exact IV]. split; [reflexivity|]. destruct (nth_error l (Z.to_nat i)) eqn:EN; [|reflexivity]. exfalso. assert (X : nth_error l (Z.to_nat i) <> None) by congruence. apply nth_error_Some in X. unfold len, size_t in *. lia.
  - unfold array_get. rewrite SZ. destruct (Z.ltb_spec i (len l)) as [LT|GE].
    + destruct (store_inv a l i v IV) as (a' & E & IV' & S'); [unfold size_t in AL; lia|]. rewrite E. cbn [bind item_result].
      assert (LEN : len (replaced l i v) = len l). { unfold replaced, len in *. rewrite app_length. cbn [length]. rewrite firstn_length, skipn_length. unfold size_t in AL. lia. }
      destruct (load_inv a' _ i IV') as (w & EN & ->); [unfold size_t in AL; lia|]. cbn [bind]. exists (RItem w), a', (replaced l i v). split; [reflexivity|]. split; [|exact IV']. split; [|reflexivity].
      unfold replaced in EN. rewrite nth_error_app2 in EN by (rewrite firstn_length; lia). rewrite firstn_length in EN. replace (Z.to_nat i - Nat.min (Z.to_nat i) (length l))%nat with 0%nat in EN by (unfold len in LT; lia). cbn in EN. injection EN as <-. reflexivity.
    + exists RNull, a, l. auto.
  - exists (RNum (size a)), a, l. rewrite SZ. auto.
  - unfold array_append. rewrite SZ. destruct (insert_inv a l (len l) mem IV AL) as (a' & p & r & l' & E & IR & A & IV'); [unfold size_t, len in *; lia|]. rewrite E. cbn [bind]. exists r, a', l'. auto.
  - destruct (insert_inv a l i mem IV (proj2 AL) (proj1 AL)) as (a' & p & r & l' & E & IR & A & IV'). rewrite E. cbn [bind]. exists r, a', l'. auto.
  - destruct AL as (A0 & A1 & A2). unfold array_remove. destruct (remove_inv a l i 1 mem IV A0 ltac:(lia) A1 A2) as (a' & c & l' & E & R & IV'). rewrite E. cbn [bind]. exists (RNum c), a', l'. auto.
  - destruct AL as (A0 & A1 & A2 & A3). destruct (remove_inv a l i n mem IV A0 A1 A2 A3) as (a' & c & l' & E & R & IV'). rewrite E. cbn [bind]. exists (RNum c), a', l'. auto.
  - destruct (clean_inv a l IV) as (a' & E & IV' & _). rewrite E. cbn [bind]. exists (RNum 0), a', []. auto.
Qed.
Lemma new_inv : Inv new_array [].
Proof. split; [reflexivity|]. split; [reflexivity|]. left. auto. Qed.

Lemma answers_fun : forall l o r l1 l2, answers l o r l1 -> answers l o r l2 -> l1 = l2.
Proof.
  intros l o r l1 l2 A B. destruct o; cbn [answers] in *; unfold adds, removes in *;
    repeat match goal with H : context [if ?b then _ else _] |- _ => destruct b end; intuition congruence.
Qed.
Lemma reach_inv : forall a l, reach a l -> Inv a l.
Proof.
  induction 1 as [|a l o r a' l' R IH AL ST AN]; [apply new_inv|]. destruct (step_inv a l o IH AL) as (r2 & a2 & l2 & E & A & IV). rewrite ST in E. injection E as <- <-. rewrite (answers_fun _ _ _ _ _ AN A). exact IV.
Qed.
