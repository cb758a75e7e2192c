From Verif Require Import Base Base64 Base64Spec.
From Coq Require Import Wf_nat.
Open Scope Z_scope.
Ltac Zify.zify_post_hook ::= Z.to_euclidean_division_equations.

Lemma lut_range c : 0 <= lut c < 64 \/ lut c = PADMARK \/ lut c = JUNK.
Proof.
  unfold lut, PADMARK, JUNK.
  destruct ((65 <=? c) && (c <=? 90)) eqn:?; [lia|].
  destruct ((97 <=? c) && (c <=? 122)) eqn:?; [lia|].
  destruct ((48 <=? c) && (c <=? 57)) eqn:?; [lia|].
  destruct (c =? 43) eqn:?; [lia|].
  destruct (c =? 47) eqn:?; [lia|].
  destruct (c =? 61) eqn:?; lia.
Qed.

Lemma lut_pad c : lut c = PADMARK <-> c = 61.
Proof.
  unfold lut, PADMARK, JUNK.
  destruct ((65 <=? c) && (c <=? 90)) eqn:?; [lia|].
  destruct ((97 <=? c) && (c <=? 122)) eqn:?; [lia|].
  destruct ((48 <=? c) && (c <=? 57)) eqn:?; [lia|].
  destruct (c =? 43) eqn:?; [lia|].
  destruct (c =? 47) eqn:?; [lia|].
  destruct (c =? 61) eqn:?; lia.
Qed.

Lemma lut_b64char_all : forallb (fun n => lut (b64char (Z.of_nat n)) =? Z.of_nat n) (seq 0 64) = true.
Proof. vm_compute. reflexivity. Qed.
Lemma lut_b64char x : 0 <= x < 64 -> lut (b64char x) = x.
Proof.
  intros Hx. pose proof lut_b64char_all as H. rewrite forallb_forall in H.
  specialize (H (Z.to_nat x)). rewrite in_seq in H. specialize (H ltac:(lia)).
  apply Z.eqb_eq in H. rewrite Z2Nat.id in H by lia. exact H.
Qed.

Lemma alphabet_lut_all : forallb (fun c => (0 <=? lut c) && (lut c <? 64) && (b64char (lut c) =? c)) alphabet = true.
Proof. vm_compute. reflexivity. Qed.
Lemma lut_inv_all : forallb (fun n => let c := Z.of_nat n in
    negb ((0 <=? lut c) && (lut c <? 64)) || existsb (Z.eqb c) alphabet) (seq 0 256) = true.
Proof. vm_compute. reflexivity. Qed.
Lemma alphabet_lut c : in_alphabet c -> 0 <= lut c < 64.
Proof. intros H. pose proof alphabet_lut_all as A. rewrite forallb_forall in A. specialize (A c H). lia. Qed.
Lemma lut_alphabet c : 0 <= lut c < 64 -> in_alphabet c.
Proof.
  intros H. assert (0 <= c < 256).
  { revert H. unfold lut, PADMARK, JUNK.
    destruct ((65 <=? c) && (c <=? 90)) eqn:?; [lia|].
    destruct ((97 <=? c) && (c <=? 122)) eqn:?; [lia|].
    destruct ((48 <=? c) && (c <=? 57)) eqn:?; [lia|].
    destruct (c =? 43) eqn:?; [lia|].
    destruct (c =? 47) eqn:?; [lia|].
    destruct (c =? 61) eqn:?; lia. }
  pose proof lut_inv_all as A. rewrite forallb_forall in A. specialize (A (Z.to_nat c)).
  rewrite in_seq in A. specialize (A ltac:(lia)). cbv zeta in A. rewrite Z2Nat.id in A by lia.
  destruct ((0 <=? lut c) && (lut c <? 64)) eqn:E; [|lia].
  cbn [negb orb] in A. apply existsb_exists in A. destruct A as (x & Hx & Hxc).
  apply Z.eqb_eq in Hxc. subst x. exact Hx.
Qed.

Lemma lor_low d t : 0 <= t < 64 -> Z.lor (Z.shiftl d 6 mod 2 ^ 32) t = (d * 64) mod 2 ^ 32 + t.
Proof.
  intros Ht. rewrite Z.shiftl_mul_pow2 by lia. change (2 ^ 6) with 64.
  assert (E : (d * 64) mod 2 ^ 32 = Z.shiftl (d mod 2 ^ 26) 6).
  { rewrite Z.shiftl_mul_pow2 by lia. change (2 ^ 6) with 64. change (2 ^ 32) with (2 ^ 26 * 64).
    rewrite Z.mul_mod_distr_r by lia. reflexivity. }
  rewrite E. rewrite Z.lor_comm.
  assert (0 <= d mod 2 ^ 26) by (apply Z.mod_pos_bound; lia).
  set (b := d mod 2 ^ 26) in *. rewrite Z.add_comm.
  rewrite <- Z.lxor_lor; [|]. 1: symmetry; apply Z.add_nocarry_lxor.
  all: apply Z.bits_inj'; intros i Hi; rewrite Z.land_spec, Z.bits_0.
  all: destruct (Z.ltb_spec i 6); [rewrite Z.shiftl_spec_low by lia; apply andb_false_r|].
  all: replace (Z.testbit t i) with false; [reflexivity|symmetry].
  all: destruct (Z.eq_dec t 0) as [->|]; [apply Z.bits_0|].
  all: apply Z.bits_above_log2; [lia|]; apply Z.lt_le_trans with 6; [|lia];
       apply Z.log2_lt_pow2; [lia|]; change (2 ^ 6) with 64; lia.
Qed.

Lemma put_some cap o v : Z.of_nat (length o) < cap -> put cap o v = Some (o ++ [v mod 256]).
Proof. intros H. unfold put. destruct (Z.ltb_spec (Z.of_nat (length o)) cap); [reflexivity|lia]. Qed.
Lemma put_length cap o v o' : put cap o v = Some o' -> length o' = S (length o) /\ Z.of_nat (length o) < cap.
Proof. unfold put. destruct (Z.ltb_spec (Z.of_nat (length o)) cap); intros H'; inversion H'; subst.
  rewrite app_length; cbn; lia. Qed.

(** One step of the loop on an alphabet character. *)
Lemma loop_char junk cap c rest s :
  0 <= lut c < 64 ->
  dec_loop junk cap (c :: rest) s =
    let d := Z.lor (Z.shiftl (decoded s) 6 mod 2 ^ 32) (lut c) in
    let b := bits s + 6 in
    if b =? 24 then
      match put cap (out s) (Z.shiftr d 16) with
      | None => BOOB
      | Some o1 =>
        match put cap o1 (Z.shiftr d 8) with
        | None => BOOB
        | Some o2 =>
          match put cap o2 d with
          | None => BOOB
          | Some o3 => dec_loop junk cap rest (mkdst 0 0 (pads s) o3)
          end
        end
      end
    else dec_loop junk cap rest (mkdst d b (pads s) (out s)).
Proof.
  intros H. cbn [dec_loop]. unfold JUNK, PADMARK.
  destruct (Z.eqb_spec (lut c) 124); [lia|]. destruct (Z.eqb_spec (lut c) 64); [lia|]. reflexivity.
Qed.

(** Four alphabet characters from a group boundary append three bytes. *)
Lemma loop_group junk cap x0 x1 x2 x3 rest p o :
  0 <= x0 < 64 -> 0 <= x1 < 64 -> 0 <= x2 < 64 -> 0 <= x3 < 64 -> Z.of_nat (length o) + 3 <= cap ->
  dec_loop junk cap (b64char x0 :: b64char x1 :: b64char x2 :: b64char x3 :: rest) (mkdst 0 0 p o)
  = dec_loop junk cap rest (mkdst 0 0 p (o ++ [x0 * 4 + x1 / 16; (x1 mod 16) * 16 + x2 / 4; (x2 mod 4) * 64 + x3])).
Proof.
  intros H0 H1 H2 H3 Hc.
  rewrite loop_char by (rewrite lut_b64char; lia). cbn [decoded bits pads out]. cbv zeta.
  change (0 + 6 =? 24) with false. cbv iota.
  rewrite loop_char by (rewrite lut_b64char; lia). cbn [decoded bits pads out]. cbv zeta.
  change (0 + 6 + 6 =? 24) with false. cbv iota.
  rewrite loop_char by (rewrite lut_b64char; lia). cbn [decoded bits pads out]. cbv zeta.
  change (0 + 6 + 6 + 6 =? 24) with false. cbv iota.
  rewrite loop_char by (rewrite lut_b64char; lia). cbn [decoded bits pads out]. cbv zeta.
  change (0 + 6 + 6 + 6 + 6 =? 24) with true. cbv iota.
  rewrite !lut_b64char by lia. rewrite !lor_low by lia.
  change (2 ^ 32) with 4294967296.
  assert (E : ((((0 * 64) mod 4294967296 + x0) * 64) mod 4294967296 + x1) = x0 * 64 + x1) by lia.
  rewrite E. clear E.
  assert (E : ((x0 * 64 + x1) * 64) mod 4294967296 + x2 = x0 * 4096 + x1 * 64 + x2) by lia.
  rewrite E. clear E.
  assert (E : ((x0 * 4096 + x1 * 64 + x2) * 64) mod 4294967296 + x3 = x0 * 262144 + x1 * 4096 + x2 * 64 + x3) by lia.
  rewrite E. clear E. set (v := x0 * 262144 + x1 * 4096 + x2 * 64 + x3).
  rewrite put_some by lia. rewrite put_some by (rewrite app_length; cbn; lia).
  rewrite put_some by (rewrite !app_length; cbn; lia).
  f_equal. f_equal. rewrite <- !app_assoc. f_equal. cbn [app].
  rewrite !Z.shiftr_div_pow2 by lia. change (2 ^ 16) with 65536. change (2 ^ 8) with 256. unfold v.
  f_equal; [lia|]. f_equal; [lia|]. f_equal. lia.
Qed.

(** Induction in steps of three bytes. *)
Lemma list_ind3 (P : list Z -> Prop) : P [] -> (forall a, P [a]) -> (forall a b, P [a; b]) ->
  (forall a b c r, P r -> P (a :: b :: c :: r)) -> forall l, P l.
Proof.
  intros H0 H1 H2 H3. refine (fix F l := match l with [] => H0 | [a] => H1 a | [a; b] => H2 a b
    | a :: b :: c :: r => H3 a b c r (F r) end).
Qed.

Lemma loop_tail1 junk cap x0 x1 p o :
  0 <= x0 < 64 -> 0 <= x1 < 64 ->
  dec_loop junk cap ([b64char x0; b64char x1] ++ repeat 61 p) (mkdst 0 0 0 o)
  = dec_loop junk cap (repeat 61 p) (mkdst (x0 * 64 + x1) 12 0 o).
Proof.
  intros H0 H1. cbn [app].
  rewrite loop_char by (rewrite lut_b64char; lia). cbn [decoded bits pads out]. cbv zeta.
  change (0 + 6 =? 24) with false. cbv iota.
  rewrite loop_char by (rewrite lut_b64char; lia). cbn [decoded bits pads out]. cbv zeta.
  change (0 + 6 + 6 =? 24) with false. cbv iota.
  rewrite !lut_b64char by lia. rewrite !lor_low by lia. change (2 ^ 32) with 4294967296.
  f_equal. f_equal; lia.
Qed.
Lemma loop_tail2 junk cap x0 x1 x2 p o :
  0 <= x0 < 64 -> 0 <= x1 < 64 -> 0 <= x2 < 64 ->
  dec_loop junk cap ([b64char x0; b64char x1; b64char x2] ++ repeat 61 p) (mkdst 0 0 0 o)
  = dec_loop junk cap (repeat 61 p) (mkdst (x0 * 4096 + x1 * 64 + x2) 18 0 o).
Proof.
  intros H0 H1 H2. cbn [app].
  rewrite loop_char by (rewrite lut_b64char; lia). cbn [decoded bits pads out]. cbv zeta.
  change (0 + 6 =? 24) with false. cbv iota.
  rewrite loop_char by (rewrite lut_b64char; lia). cbn [decoded bits pads out]. cbv zeta.
  change (0 + 6 + 6 =? 24) with false. cbv iota.
  rewrite loop_char by (rewrite lut_b64char; lia). cbn [decoded bits pads out]. cbv zeta.
  change (0 + 6 + 6 + 6 =? 24) with false. cbv iota.
  rewrite !lut_b64char by lia. rewrite !lor_low by lia. change (2 ^ 32) with 4294967296.
  f_equal. f_equal; lia.
Qed.

Lemma iter_comm {A} (f : A -> A) n x : Nat.iter (S n) f x = Nat.iter n f (f x).
Proof. induction n as [|n IH]; [reflexivity|]. cbn [Nat.iter nat_rect] in *. rewrite IH. reflexivity. Qed.

Lemma loop_pad junk cap p : forall d b q o, 
  dec_loop junk cap (repeat 61 p) (mkdst d b q o)
  = BOk (mkdst (Nat.iter p (fun d => Z.shiftl d 6 mod 2 ^ 32) d) b (q + Z.of_nat p) o).
Proof.
  induction p as [|p IH]; intros d b q o.
  - cbn. do 2 f_equal. lia.
  - cbn [repeat dec_loop]. change (lut 61) with PADMARK. unfold PADMARK, JUNK.
    change (64 =? 124) with false. change (64 =? 64) with true. cbv iota.
    cbn [decoded bits pads out].
    assert (E : dec_loop junk cap (repeat 61 p) (mkdst (Z.shiftl d 6 mod 2 ^ 32) b (q + 1) o)
       = BOk (mkdst (Nat.iter (S p) (fun d0 => Z.shiftl d0 6 mod 2 ^ 32) d) b (q + Z.of_nat (S p)) o)).
    { rewrite IH, iter_comm. replace (q + 1 + Z.of_nat p) with (q + Z.of_nat (S p)) by lia. reflexivity. }
    destruct p as [|p']; cbn [repeat]; [exact E|].
    change (lut 61) with 64. change (64 =? 64) with true. cbv iota. exact E.
Qed.

Lemma shiftl_n d n : 0 <= n -> Z.shiftl d n = d * 2 ^ n.
Proof. intros. apply Z.shiftl_mul_pow2. lia. Qed.

Lemma pad1_val v : 0 <= v < 262144 -> Z.shiftl v 6 mod 2 ^ 32 = v * 64.
Proof. intros H. rewrite shiftl_n by lia. change (2 ^ 6) with 64. apply Z.mod_small. change (2 ^ 32) with 4294967296. lia. Qed.
Lemma shr16 v : Z.shiftr v 16 = v / 65536.
Proof. apply Z.shiftr_div_pow2. lia. Qed.
Lemma shr8 v : Z.shiftr v 8 = v / 256.
Proof. apply Z.shiftr_div_pow2. lia. Qed.

Lemma loop_encode junk cap padded : forall bs o,
  Forall is_byte bs -> Z.of_nat (length o) + Z.of_nat (length bs) <= cap ->
  match dec_loop junk cap (encode padded bs) (mkdst 0 0 0 o) with
  | BOk s => dec_finish cap s = BOk (o ++ bs)
  | _ => False
  end.
Proof.
  induction bs as [|a|a b|a b c r IH] using list_ind3; intros o Hb Hc.
  - cbn. rewrite app_nil_r. reflexivity.
  - inversion Hb as [|? ? Ha _]; subst. unfold is_byte in Ha. cbn [length] in Hc.
    cbn [encode]. change (if padded then [EQ; EQ] else []) with (if padded then repeat 61 2 else repeat 61 0).
    assert (E : (if padded then repeat 61 2 else repeat 61 0) = repeat 61 (if padded then 2 else 0)%nat)
      by (destruct padded; reflexivity). rewrite E.
    rewrite loop_tail1 by lia. rewrite loop_pad. cbn [decoded bits pads out].
    destruct padded; unfold dec_finish; cbn [Nat.iter nat_rect decoded bits pads out].
    + change (0 + Z.of_nat 2) with 2. change (12 =? 0) with false. change (2 =? 0) with false.
      cbn [negb andb]. cbv iota beta zeta. change (2 =? 0) with false. change (2 =? 1) with false. change (2 =? 2) with true. cbv iota.
      rewrite put_some by lia. do 2 f_equal.
      rewrite (pad1_val (a / 4 * 64 + a mod 4 * 16)), pad1_val, shr16 by lia. f_equal. lia.
    + change (0 + Z.of_nat 0) with 0. change (12 =? 0) with false. change (0 =? 0) with true. cbn [negb andb].
      cbv iota beta zeta. change (12 <? 8) with false. change (Z.shiftr (28 - 12) 3) with 2. cbv iota.
      change (2 =? 0) with false. change (2 =? 1) with false. change (2 =? 2) with true. cbv iota.
      rewrite put_some by lia. do 2 f_equal.
      rewrite shiftl_n by lia. change (2 ^ (24 - 12)) with 4096. rewrite (Z.mod_small _ (2 ^ 32)), shr16 by (change (2 ^ 32) with 4294967296; lia).
      f_equal. lia.
  - inversion Hb as [|? ? Ha Hb']; subst. inversion Hb' as [|? ? Hbb _]; subst. unfold is_byte in *. cbn [length] in Hc.
    cbn [encode].
    assert (E : (if padded then [EQ] else []) = repeat 61 (if padded then 1 else 0)%nat)
      by (destruct padded; reflexivity). rewrite E.
    rewrite loop_tail2 by lia. rewrite loop_pad. cbn [decoded bits pads out].
    destruct padded; unfold dec_finish; cbn [Nat.iter nat_rect decoded bits pads out].
    + change (0 + Z.of_nat 1) with 1. change (18 =? 0) with false. change (1 =? 0) with false.
      cbn [negb andb]. cbv iota beta zeta. change (1 =? 0) with false. change (1 =? 1) with true. cbv iota.
      rewrite put_some by lia. rewrite put_some by (rewrite app_length; cbn [length]; lia).
      rewrite <- app_assoc. do 2 f_equal. cbn [app].
      rewrite pad1_val, shr16, shr8 by lia. f_equal; [|f_equal]; lia.
    + change (0 + Z.of_nat 0) with 0. change (18 =? 0) with false. change (0 =? 0) with true. cbn [negb andb].
      cbv iota beta zeta. change (18 <? 8) with false. change (Z.shiftr (28 - 18) 3) with 1. cbv iota.
      change (1 =? 0) with false. change (1 =? 1) with true. cbv iota.
      rewrite put_some by lia. rewrite put_some by (rewrite app_length; cbn [length]; lia).
      rewrite <- app_assoc. do 2 f_equal. cbn [app].
      change (24 - 18) with 6. rewrite pad1_val, shr16, shr8 by lia. f_equal; [|f_equal]; lia.
  - inversion Hb as [|? ? Ha Hb']; subst. inversion Hb' as [|? ? Hbb Hb'']; subst.
    inversion Hb'' as [|? ? Hcc Hr]; subst. unfold is_byte in Ha, Hbb, Hcc. cbn [length] in Hc.
    cbn [encode]. rewrite loop_group by lia.
    specialize (IH (o ++ [a; b; c]) Hr). rewrite app_length in IH. cbn [length] in IH.
    specialize (IH ltac:(lia)).
    match goal with |- context [mkdst 0 0 0 (o ++ ?l)] => replace l with [a; b; c] end.
    2:{ f_equal; [lia|]. f_equal; [lia|]. f_equal. lia. }
    destruct (dec_loop junk cap (encode padded r) (mkdst 0 0 0 (o ++ [a; b; c]))) as [s| |]; auto.
    rewrite IH, <- app_assoc. reflexivity.
Qed.

Lemma b64char_noteq_all : forallb (fun n => negb (b64char (Z.of_nat n) =? 61)) (seq 0 64) = true.
Proof. vm_compute. reflexivity. Qed.
Lemma b64char_noteq x : 0 <= x < 64 -> (b64char x =? 61) = false.
Proof.
  intros Hx. pose proof b64char_noteq_all as H. rewrite forallb_forall in H.
  specialize (H (Z.to_nat x)). rewrite in_seq in H. specialize (H ltac:(lia)).
  rewrite Z2Nat.id in H by lia. destruct (b64char x =? 61); [discriminate|reflexivity].
Qed.

Lemma encode_length padded bs :
  Z.of_nat (length (encode padded bs)) =
  if padded then 4 * ((Z.of_nat (length bs) + 2) / 3)
  else (Z.of_nat (length bs) * 4 + 2) / 3.
Proof.
  induction bs as [|a|a b|a b c r IH] using list_ind3.
  - destruct padded; reflexivity.
  - destruct padded; reflexivity.
  - destruct padded; reflexivity.
  - cbn [encode length]. destruct padded; lia.
Qed.

Lemma bufspc_padded bs : Forall is_byte bs -> bufspc (encode true bs) = Z.of_nat (length bs).
Proof.
  induction bs as [|a|a b|a b c r IH] using list_ind3; intros Hb.
  - reflexivity.
  - reflexivity.
  - inversion Hb as [|? ? Ha Hb']; subst. inversion Hb' as [|? ? Hbb _]; subst. unfold is_byte in *.
    unfold bufspc. cbn [encode app length Nat.sub nth].
    rewrite b64char_noteq by lia. reflexivity.
  - inversion Hb as [|? ? Ha Hb']; subst. inversion Hb' as [|? ? Hbb Hb'']; subst.
    inversion Hb'' as [|? ? Hcc Hr]; subst. specialize (IH Hr). unfold is_byte in Ha, Hbb, Hcc.
    cbn [encode]. pose proof (encode_length true r) as EL. cbv iota in EL.
    unfold bufspc in *.
    destruct (encode true r) as [|e0 e'] eqn:Er.
    + assert (length r = 0%nat) by (cbn [length] in EL; lia). destruct r; [|discriminate].
      cbn [length Nat.sub nth]. rewrite !b64char_noteq by lia. reflexivity.
    + set (e := e0 :: e') in *.
      assert (4 <= Z.of_nat (length e)) by (assert (0 < length e)%nat by (cbn; lia); lia).
      set (x0 := b64char (a / 4)) in *. set (x1 := b64char (a mod 4 * 16 + b / 16)) in *.
      set (x2 := b64char (b mod 16 * 4 + c / 64)) in *. set (x3 := b64char (c mod 64)) in *.
      assert (Hn : forall k, (k = 1 \/ k = 2)%nat ->
        nth (length (x0 :: x1 :: x2 :: x3 :: e) - k) (x0 :: x1 :: x2 :: x3 :: e) 0 = nth (length e - k) e 0).
      { intros k Hk. change (x0 :: x1 :: x2 :: x3 :: e) with ([x0; x1; x2; x3] ++ e).
        rewrite app_nth2; rewrite app_length; cbn [length]; [f_equal; lia|lia]. }
      rewrite !Hn by auto.
      assert (HL : Z.of_nat (length (x0 :: x1 :: x2 :: x3 :: e)) = 4 + Z.of_nat (length e)) by (cbn [length]; lia).
      rewrite HL. set (L := Z.of_nat (length e)) in *.
      destruct (Z.gtb_spec (4 + L) 1); [|lia]. destruct (Z.gtb_spec (4 + L) 2); [|lia].
      destruct (Z.gtb_spec L 1); [|lia]. destruct (Z.gtb_spec L 2); [|lia].
      cbn [length].
      destruct (nth (length e - 1) e 0 =? 61), (nth (length e - 2) e 0 =? 61); lia.
Qed.

Lemma encode_unpadded_alpha bs : Forall is_byte bs -> Forall (fun c => (c =? 61) = false) (encode false bs).
Proof.
  induction bs as [|a|a b|a b c r IH] using list_ind3; intros Hb.
  - constructor.
  - inversion Hb as [|? ? Ha _]; subst. unfold is_byte in *. cbn [encode app].
    repeat constructor; apply b64char_noteq; lia.
  - inversion Hb as [|? ? Ha Hb']; subst. inversion Hb' as [|? ? Hbb _]; subst. unfold is_byte in *. cbn [encode app].
    repeat constructor; apply b64char_noteq; lia.
  - inversion Hb as [|? ? Ha Hb']; subst. inversion Hb' as [|? ? Hbb Hb'']; subst.
    inversion Hb'' as [|? ? Hcc Hr]; subst. unfold is_byte in Ha, Hbb, Hcc. cbn [encode].
    repeat (constructor; [apply b64char_noteq; lia|]). exact (IH Hr).
Qed.

Lemma bufspc_le src : bufspc src <= (Z.of_nat (length src) + 3) / 4 * 3.
Proof.
  unfold bufspc. destruct (_ >? 1), (_ >? 2); try destruct (_ =? 61); try destruct (_ =? 61); lia.
Qed.

(** C38 round trip *)
Lemma decode_padded_lemma bs spc junk : Forall is_byte bs -> Z.of_nat (length bs) <= spc ->
  base64_decode (encode true bs) spc junk = BOk bs.
Proof.
  intros Hb Hs. unfold base64_decode. rewrite bufspc_padded by exact Hb.
  destruct (Z.gtb_spec (Z.of_nat (length bs)) spc); [lia|].
  pose proof (loop_encode junk spc true bs [] Hb) as L. cbn [length app] in L. specialize (L ltac:(lia)).
  destruct (dec_loop _ _ _ _); [exact L|contradiction|contradiction].
Qed.
Lemma decode_unpadded_lemma bs spc junk : Forall is_byte bs -> 3 * ((Z.of_nat (length bs) + 2) / 3) <= spc ->
  base64_decode (encode false bs) spc junk = BOk bs.
Proof.
  intros Hb Hs. unfold base64_decode.
  pose proof (bufspc_le (encode false bs)) as B. rewrite encode_length in B.
  destruct (Z.gtb_spec (bufspc (encode false bs)) spc); [lia|].
  pose proof (loop_encode junk spc false bs [] Hb) as L. cbn [length app] in L. specialize (L ltac:(lia)).
  destruct (dec_loop _ _ _ _); [exact L|contradiction|contradiction].
Qed.

(** Memory safety. [n] bounds the characters consumed; [g] complete groups have been written. *)
Definition inv (n : Z) (s : dst) : Prop :=
  0 <= bits s <= 18 /\ bits s mod 6 = 0 /\ 0 <= n /\
  exists g, Z.of_nat (length (out s)) = 3 * g /\ 0 <= g /\ 4 * g + bits s / 6 <= n.

Lemma loop_nopad junk cap rest : forall src n s,
  Forall (fun c => lut c <> PADMARK) src -> inv n s -> 3 * ((n + Z.of_nat (length src)) / 4) <= cap ->
  match dec_loop junk cap (src ++ rest) s with
  | BOOB => exists s', inv (n + Z.of_nat (length src)) s' /\ pads s' = pads s /\ dec_loop junk cap rest s' = BOOB
  | BErr e => e = INVALID_ARG
  | BOk r => exists s', inv (n + Z.of_nat (length src)) s' /\ pads s' = pads s /\ dec_loop junk cap rest s' = BOk r
  end.
Proof.
  assert (HE : forall src s e, dec_loop junk cap src s = BErr e -> e = INVALID_ARG).
  { induction src as [|c src IHs]; intros s e; cbn [dec_loop]; [discriminate|].
    destruct (lut c =? JUNK). { destruct junk; [apply IHs|congruence]. }
    destruct (lut c =? PADMARK).
    { destruct src as [|c2 src']; [apply IHs|]. destruct (lut c2 =? PADMARK); [apply IHs|congruence]. }
    cbv zeta. destruct (bits s + 6 =? 24); [|apply IHs].
    destruct (put cap (out s) _) as [o1|]; [|discriminate].
    destruct (put cap o1 _) as [o2|]; [|discriminate].
    destruct (put cap o2 _) as [o3|]; [|discriminate]. apply IHs. }
  induction src as [|c src IH]; intros n s Hf Hi Hc.
  - cbn [app length]. replace (n + Z.of_nat 0) with n by lia.
    destruct (dec_loop junk cap rest s) eqn:E; [exists s; auto|eapply HE; exact E|exists s; auto].
  - inversion Hf as [|? ? Hc0 Hf']; subst.
    assert (Hmono : forall s', inv (n + 1) s' -> pads s' = pads s ->
       match dec_loop junk cap (src ++ rest) s' with
       | BOOB => exists s'', inv (n + Z.of_nat (length (c :: src))) s'' /\ pads s'' = pads s /\ dec_loop junk cap rest s'' = BOOB
       | BErr e => e = INVALID_ARG
       | BOk r => exists s'', inv (n + Z.of_nat (length (c :: src))) s'' /\ pads s'' = pads s /\ dec_loop junk cap rest s'' = BOk r
       end).
    { intros s' Hi' Hp. specialize (IH (n + 1) s' Hf' Hi').
      cbn [length] in *. replace (n + 1 + Z.of_nat (length src)) with (n + Z.of_nat (S (length src))) in IH by lia.
      specialize (IH Hc). rewrite Hp in IH. exact IH. }
    destruct (lut_range c) as [Hr|[Hr|Hr]]; [|congruence|].
    + cbn [app]. rewrite loop_char by exact Hr. cbv zeta.
      destruct Hi as (Hb & Hb6 & Hn & g & Hg & Hg0 & Hgn).
      destruct (Z.eqb_spec (bits s + 6) 24) as [E24|N24].
      * assert (bits s = 18) by lia. assert (Z.of_nat (length (out s)) + 3 <= cap) by (cbn [length] in Hc; lia).
        rewrite put_some by lia. rewrite put_some by (rewrite app_length; cbn [length]; lia).
        rewrite put_some by (rewrite !app_length; cbn [length]; lia).
        apply Hmono; [|reflexivity]. unfold inv. cbn [bits out].
        split; [lia|]. split; [reflexivity|]. split; [lia|]. exists (g + 1).
        rewrite !app_length. cbn [length]. change (0 / 6) with 0. lia.
      * apply Hmono; [|reflexivity]. unfold inv. cbn [bits out].
        split; [lia|]. split; [lia|]. split; [lia|]. exists g. lia.
    + cbn [app dec_loop]. rewrite Hr. change (JUNK =? JUNK) with true. cbv iota.
      destruct junk; [|reflexivity]. apply Hmono; [|reflexivity].
      destruct Hi as (Hb & Hb6 & Hn & g & Hg & Hg0 & Hgn). unfold inv.
      split; [lia|]. split; [lia|]. split; [lia|]. exists g. lia.
Qed.

(** Every source splits into a part without '=' and a rest that is empty or starts with '='. *)
Lemma split_pad src : exists body rest, src = body ++ rest /\ Forall (fun c => lut c <> PADMARK) body /\
  (rest = [] \/ exists r, rest = 61 :: r).
Proof.
  induction src as [|c src (body & rest & E & Hb & Hr)].
  - exists [], []. auto.
  - destruct (Z.eq_dec c 61) as [->|Hne].
    + exists [], (61 :: src). split; [reflexivity|]. split; [constructor|right; eauto].
    + exists (c :: body), rest. split; [cbn; congruence|]. split; [constructor; [|exact Hb]|exact Hr].
      rewrite lut_pad. exact Hne.
Qed.

(** If the padding run is not at the end the loop fails. *)
Lemma loop_pad_only junk cap : forall r s, 
  (exists p, r = repeat 61 p) \/ dec_loop junk cap (61 :: r) s = BErr INVALID_ARG.
Proof.
  induction r as [|c r IH]; intros s.
  - left. exists 0%nat. reflexivity.
  - destruct (Z.eq_dec c 61) as [->|Hne].
    + specialize (IH (mkdst (Z.shiftl (decoded s) 6 mod 2 ^ 32) (bits s) (pads s + 1) (out s))).
      destruct IH as [(p & ->)|E]; [left; exists (S p); reflexivity|right].
      change (dec_loop junk cap (61 :: 61 :: r) s) with
        (dec_loop junk cap (61 :: r) (mkdst (Z.shiftl (decoded s) 6 mod 2 ^ 32) (bits s) (pads s + 1) (out s))).
      exact E.
    + right. cbn [dec_loop]. change (lut 61) with 64. unfold JUNK, PADMARK. change (64 =? 124) with false.
      change (64 =? 64) with true. cbv iota.
      destruct (Z.eqb_spec (lut c) 64) as [E|_]; [apply lut_pad in E; congruence|reflexivity].
Qed.

Lemma last_repeat body p : (0 < p)%nat -> nth (length (body ++ repeat 61 p) - 1) (body ++ repeat 61 p) 0 = 61.
Proof.
  intros Hp. rewrite app_length, repeat_length, app_nth2 by lia.
  replace (length body + p - 1 - length body)%nat with (p - 1)%nat by lia.
  destruct p; [lia|]. replace (S p - 1)%nat with p by lia. clear.
  induction p as [|p IH]; [reflexivity|exact IH].
Qed.

Lemma bufspc_nopad body : Forall (fun c => lut c <> PADMARK) body ->
  bufspc body = (Z.of_nat (length body) + 3) / 4 * 3.
Proof.
  intros H. unfold bufspc.
  assert (A : forall k, (nth k body 0 =? 61) = false).
  { intros k. destruct (Z.eqb_spec (nth k body 0) 61) as [E|]; [|reflexivity].
    destruct (le_lt_dec (length body) k) as [Hge|Hlt].
    - rewrite nth_overflow in E by exact Hge. discriminate.
    - rewrite Forall_forall in H. destruct (H _ (nth_In body 0 Hlt)). rewrite E. reflexivity. }
  rewrite !A. destruct (_ >? 1), (_ >? 2); lia.
Qed.

Lemma bufspc_pad body p : Forall (fun c => lut c <> PADMARK) body -> (0 < p)%nat ->
  bufspc (body ++ repeat 61 p) >=
  (Z.of_nat (length body) + Z.of_nat p + 3) / 4 * 3 - (if (p =? 1)%nat then 1 else 2).
Proof.
  intros H Hp. unfold bufspc. rewrite last_repeat by exact Hp.
  rewrite app_length, repeat_length. 
  assert (HL : Z.of_nat (length body + p) = Z.of_nat (length body) + Z.of_nat p) by lia. rewrite HL.
  change (61 =? 61) with true. cbv iota.
  destruct (Nat.eqb_spec p 1) as [->|Hp1].
  - assert (E : (if Z.of_nat (length body) + Z.of_nat 1 >? 2 then
       if nth (length body + 1 - 2) (body ++ repeat 61 1) 0 =? 61 then 1 else 0 else 0) = 0).
    { destruct (Z.gtb_spec (Z.of_nat (length body) + Z.of_nat 1) 2); [|reflexivity].
      rewrite app_nth1 by lia.
      assert (Hlt : (length body + 1 - 2 < length body)%nat) by lia.
      rewrite Forall_forall in H. specialize (H _ (nth_In body 0 Hlt)). rewrite lut_pad in H.
      destruct (Z.eqb_spec (nth (length body + 1 - 2) body 0) 61); [contradiction|reflexivity]. }
    rewrite E. destruct (_ >? 1); lia.
  - destruct (_ >? 1), (_ >? 2); try destruct (_ =? 61); lia.
Qed.

Lemma finish_bound cap s n : inv n s -> 0 <= pads s ->
  (pads s = 0 -> 3 * ((n + 3) / 4) <= cap) ->
  (pads s = 1 -> 3 * (n / 4) + 2 <= cap) -> (pads s = 2 -> 3 * (n / 4) + 1 <= cap) ->
  dec_finish cap s <> BOOB.
Proof.
  intros (Hb & Hb6 & Hn & g & Hg & Hg0 & Hgn) Hp H0 H1 H2. unfold dec_finish.
  destruct (negb (bits s =? 0) && (pads s =? 0)) eqn:E.
  - apply andb_prop in E. destruct E as [Ea Eb]. apply Z.eqb_eq in Eb.
    destruct (Z.eqb_spec (bits s) 0) as [|Hnz]; [discriminate|]. specialize (H0 Eb).
    destruct (bits s <? 8) eqn:E8; [discriminate|].
    assert (Hcap : Z.of_nat (length (out s)) + 3 <= cap) by lia.
    destruct (Z.shiftr (28 - bits s) 3 =? 0); [discriminate|].
    destruct (Z.shiftr (28 - bits s) 3 =? 1).
    { rewrite put_some by lia. rewrite put_some by (rewrite app_length; cbn [length]; lia). discriminate. }
    destruct (Z.shiftr (28 - bits s) 3 =? 2); [|discriminate].
    rewrite put_some by lia. discriminate.
  - destruct (Z.eqb_spec (pads s) 0); [discriminate|].
    destruct (Z.eqb_spec (pads s) 1) as [E1|].
    { specialize (H1 E1). rewrite put_some by lia. rewrite put_some by (rewrite app_length; cbn [length]; lia). discriminate. }
    destruct (Z.eqb_spec (pads s) 2) as [E2|]; [|discriminate].
    specialize (H2 E2). rewrite put_some by lia. discriminate.
Qed.

Lemma inv0 : inv 0 (mkdst 0 0 0 []).
Proof. unfold inv. cbn. split; [lia|]. split; [reflexivity|]. split; [lia|]. exists 0. lia. Qed.

Lemma decode_safe_lemma src spc junk : base64_decode src spc junk <> BOOB.
Proof.
  unfold base64_decode. destruct (Z.gtb_spec (bufspc src) spc) as [|Hspc]; [discriminate|].
  destruct (split_pad src) as (body & rest & -> & Hb & Hr).
  pose proof (loop_nopad junk spc rest body 0 _ Hb inv0) as L.
  assert (Hcap : 3 * ((0 + Z.of_nat (length body)) / 4) <= spc).
  { destruct Hr as [->|(r & ->)].
    - rewrite app_nil_r, bufspc_nopad in Hspc by exact Hb. lia.
    - destruct (loop_pad_only junk spc r (mkdst 0 0 0 [])) as [(p & ->)|E].
      + pose proof (bufspc_pad body (S p) Hb ltac:(lia)) as B. change (repeat 61 (S p)) with (61 :: repeat 61 p) in B.
        destruct (S p =? 1)%nat; lia.
      + (* padding not at the end: still enough for the body *)
        unfold bufspc in Hspc. rewrite app_length in Hspc. cbn [length] in Hspc.
        assert (H : (2 <= length r)%nat \/ r = [] \/ exists x, r = [x]).
        { destruct r as [|x [|y r']]; [auto|eauto|left; cbn; lia]. }
        destruct H as [H|[->|(x & ->)]].
        * destruct (_ >? 1), (_ >? 2); try destruct (_ =? 61); try destruct (_ =? 61); lia.
        * destruct (_ >? 1), (_ >? 2); try destruct (_ =? 61); try destruct (_ =? 61); cbn [length] in *; lia.
        * destruct (_ >? 1), (_ >? 2); try destruct (_ =? 61); try destruct (_ =? 61); cbn [length] in *; lia. }
  specialize (L Hcap). cbn [pads] in L.
  destruct (dec_loop junk spc (body ++ rest) (mkdst 0 0 0 [])) as [s|e|] eqn:EL.
  - destruct L as (s' & Hi & Hp0 & L). destruct Hr as [->|(r & ->)].
    + cbn [dec_loop] in L. injection L as <-. rewrite app_nil_r, bufspc_nopad in Hspc by exact Hb.
      eapply finish_bound; [exact Hi|lia|intros _; lia|lia|lia].
    + destruct (loop_pad_only junk spc r s') as [(p & ->)|E]; [|rewrite E in L; discriminate].
      pose proof (bufspc_pad body (S p) Hb ltac:(lia)) as B.
      change (repeat 61 (S p)) with (61 :: repeat 61 p) in B.
      change (61 :: repeat 61 p) with (repeat 61 (S p)) in L. destruct s' as [d' b' q' o'].
      rewrite loop_pad in L. match type of L with BOk ?x = _ => assert (Es : s = x) by congruence end. subst s. cbn [pads] in Hp0. subst q'.
      eapply (finish_bound spc _ (0 + Z.of_nat (length body))).
      * unfold inv in *. cbn [bits out] in *. exact Hi.
      * cbn [pads]. lia.
      * cbn [pads]. lia.
      * cbn [pads]. intros Hp. assert (p = 0%nat) as -> by lia. cbn [Nat.eqb] in B. lia.
      * cbn [pads]. intros Hp. assert (p = 1%nat) as -> by lia. cbn [Nat.eqb] in B. lia.
  - discriminate.
  - exfalso. destruct L as (s' & Hi & Hp0 & L). destruct Hr as [->|(r & ->)]; [discriminate|].
    destruct (loop_pad_only junk spc r s') as [(p & ->)|E]; [|rewrite E in L; discriminate].
    change (61 :: repeat 61 p) with (repeat 61 (S p)) in L. destruct s'. rewrite loop_pad in L. discriminate.
Qed.

(** Success never yields more bytes than the space given. *)
Lemma put_cap cap o v o' : put cap o v = Some o' -> Z.of_nat (length o') <= cap.
Proof. intros H. apply put_length in H. lia. Qed.
Lemma loop_cap junk cap : forall src s s', dec_loop junk cap src s = BOk s' ->
  Z.of_nat (length (out s)) <= cap -> Z.of_nat (length (out s')) <= cap.
Proof.
  induction src as [|c src IH]; intros s s'; cbn [dec_loop].
  - intros E; injection E as <-. auto.
  - destruct (lut c =? JUNK). { destruct junk; [apply IH|discriminate]. }
    destruct (lut c =? PADMARK).
    { destruct src as [|c2 src']; [intros E Hl; eapply IH; [exact E|exact Hl]|].
      destruct (lut c2 =? PADMARK); [intros E Hl; eapply IH; [exact E|exact Hl]|discriminate]. }
    cbv zeta. destruct (bits s + 6 =? 24).
    + destruct (put cap (out s) _) as [o1|]; [|discriminate].
      destruct (put cap o1 _) as [o2|]; [|discriminate].
      destruct (put cap o2 _) as [o3|] eqn:E3; [|discriminate].
      intros E _. eapply IH; [exact E|]. cbn [out]. eapply put_cap; exact E3.
    + intros E Hl. eapply IH; [exact E|exact Hl].
Qed.
Lemma decode_cap_lemma src spc junk bs : 0 <= spc -> base64_decode src spc junk = BOk bs ->
  Z.of_nat (length bs) <= spc /\ Forall is_byte bs.
Proof.
  intros H0. unfold base64_decode. destruct (_ >? _); [discriminate|].
  destruct (dec_loop _ _ _ _) as [s| |] eqn:E; try discriminate.
  assert (Hout : Forall is_byte (out s)).
  { assert (G : forall src s0 s1, dec_loop junk spc src s0 = BOk s1 -> Forall is_byte (out s0) -> Forall is_byte (out s1)).
    { clear. assert (PB : forall o v o', put spc o v = Some o' -> Forall is_byte o -> Forall is_byte o').
      { intros o v o'. unfold put. destruct (_ <? _); [|discriminate]. intros X; injection X as <-. intros Ho.
        apply Forall_app. split; [exact Ho|]. constructor; [|constructor]. unfold is_byte. lia. }
      induction src as [|c src IH]; intros s0 s1; cbn [dec_loop].
      - intros X; injection X as <-. auto.
      - destruct (lut c =? JUNK). { destruct junk; [apply IH|discriminate]. }
        destruct (lut c =? PADMARK).
        { destruct src as [|c2 src']; [intros X Hl; eapply IH; [exact X|exact Hl]|].
          destruct (lut c2 =? PADMARK); [intros X Hl; eapply IH; [exact X|exact Hl]|discriminate]. }
        cbv zeta. destruct (bits s0 + 6 =? 24).
        + destruct (put spc (out s0) _) as [o1|] eqn:E1; [|discriminate].
          destruct (put spc o1 _) as [o2|] eqn:E2; [|discriminate].
          destruct (put spc o2 _) as [o3|] eqn:E3; [|discriminate].
          intros X Ho. eapply IH; [exact X|]. cbn [out]. eauto.
        + intros X Hl. eapply IH; [exact X|exact Hl]. }
    eapply G; [exact E|constructor]. }
  apply loop_cap in E; [|cbn; lia]. unfold dec_finish.
  assert (PB : forall o v o', put spc o v = Some o' -> Forall is_byte o -> Forall is_byte o').
  { intros o v o'. unfold put. destruct (_ <? _); [|discriminate]. intros X; injection X as <-. intros Ho.
    apply Forall_app. split; [exact Ho|]. constructor; [|constructor]. unfold is_byte. lia. }
  destruct (negb (bits s =? 0) && (pads s =? 0)).
  - destruct (bits s <? 8); [discriminate|].
    destruct (_ =? 0); [intros X; injection X as <-; auto|].
    destruct (_ =? 1).
    { destruct (put spc (out s) _) as [o1|] eqn:E1; [|discriminate].
      destruct (put spc o1 _) as [o2|] eqn:E2; [|discriminate]. intros X; injection X as <-.
      split; [eapply put_cap; exact E2|eauto]. }
    destruct (_ =? 2); [|discriminate].
    destruct (put spc (out s) _) as [o1|] eqn:E1; [|discriminate]. intros X; injection X as <-.
    split; [eapply put_cap; exact E1|eauto].
  - destruct (_ =? 0); [intros X; injection X as <-; auto|].
    destruct (_ =? 1).
    { destruct (put spc (out s) _) as [o1|] eqn:E1; [|discriminate].
      destruct (put spc o1 _) as [o2|] eqn:E2; [|discriminate]. intros X; injection X as <-.
      split; [eapply put_cap; exact E2|eauto]. }
    destruct (_ =? 2); [|discriminate].
    destruct (put spc (out s) _) as [o1|] eqn:E1; [|discriminate]. intros X; injection X as <-.
    split; [eapply put_cap; exact E1|eauto].
Qed.

(** Rejection: what the strict decoder accepts. *)
Lemma loop_strict_alpha cap : forall body rest s s', Forall (fun c => lut c <> PADMARK) body ->
  dec_loop false cap (body ++ rest) s = BOk s' -> Forall in_alphabet body.
Proof.
  induction body as [|c body IH]; intros rest s s' Hf H; [constructor|].
  inversion Hf as [|? ? Hc Hf']; subst.
  destruct (lut_range c) as [Hr|[Hr|Hr]]; [|congruence|].
  - constructor; [apply lut_alphabet; exact Hr|].
    cbn [app] in H. rewrite loop_char in H by exact Hr. cbv zeta in H.
    destruct (bits s + 6 =? 24).
    + destruct (put cap (out s) _) as [o1|]; [|discriminate].
      destruct (put cap o1 _) as [o2|]; [|discriminate].
      destruct (put cap o2 _) as [o3|]; [|discriminate]. eapply IH; eauto.
    + eapply IH; eauto.
  - cbn [app dec_loop] in H. rewrite Hr in H. change (JUNK =? JUNK) with true in H. discriminate.
Qed.

Lemma loop_bits cap : forall body s s', Forall in_alphabet body -> 0 <= bits s < 24 -> bits s mod 6 = 0 ->
  dec_loop false cap body s = BOk s' ->
  bits s' = 6 * ((bits s / 6 + Z.of_nat (length body)) mod 4) /\ pads s' = pads s.
Proof.
  induction body as [|c body IH]; intros s s' Hf Hb Hm H.
  - cbn in H. injection H as <-. cbn [length]. lia.
  - inversion Hf as [|? ? Hc Hf']; subst. pose proof (alphabet_lut c Hc) as Hr.
    rewrite loop_char in H by exact Hr. cbv zeta in H. cbn [length].
    destruct (Z.eqb_spec (bits s + 6) 24).
    + destruct (put cap (out s) _) as [o1|]; [|discriminate].
      destruct (put cap o1 _) as [o2|]; [|discriminate].
      destruct (put cap o2 _) as [o3|]; [|discriminate].
      apply IH in H; [|exact Hf'|cbn; lia|reflexivity]. cbn [bits pads] in H. destruct H as [H1 H2]. split; [|exact H2].
      rewrite H1. lia.
    + apply IH in H; [|exact Hf'|cbn [bits]; lia|cbn [bits]; lia]. cbn [bits pads] in H. destruct H as [H1 H2].
      split; [|exact H2]. rewrite H1. lia.
Qed.

Lemma decode_strict_lemma src spc bs : base64_decode src spc false = BOk bs ->
  exists body p, src = body ++ repeat EQ p /\ Forall in_alphabet body /\ (p <= 2)%nat /\
    (p = 0%nat -> (length body mod 4 <> 1)%nat).
Proof.
  unfold base64_decode. destruct (_ >? _); [discriminate|].
  destruct (dec_loop _ _ _ _) as [s| |] eqn:E; try discriminate. intros HF.
  destruct (split_pad src) as (body & rest & -> & Hb & Hr).
  pose proof (loop_strict_alpha _ _ _ _ _ Hb E) as Ha.
  destruct Hr as [->|(r & ->)].
  - rewrite app_nil_r in E. apply loop_bits in E; [|exact Ha|cbn; lia|reflexivity]. cbn [bits pads] in E.
    change (0 / 6) with 0 in E. destruct E as [E1 E2].
    exists body, 0%nat. split; [reflexivity|]. split; [exact Ha|]. split; [lia|]. intros _ Hm.
    unfold dec_finish in HF. rewrite E2 in HF. change (0 =? 0) with true in HF.
    assert (bits s = 6).
    { rewrite E1. replace ((0 + Z.of_nat (length body)) mod 4) with 1; [reflexivity|].
      rewrite Z.add_0_l. change 4 with (Z.of_nat 4). rewrite <- Nat2Z.inj_mod, Hm. reflexivity. }
    rewrite H in HF. change (6 =? 0) with false in HF. cbn [negb andb] in HF.
    change (6 <? 8) with true in HF. discriminate.
  - (* find the state after the body *)
    assert (G : forall body s0, Forall in_alphabet body -> 
       dec_loop false spc (body ++ 61 :: r) s0 = BOk s -> exists s', pads s' = pads s0 /\ dec_loop false spc (61 :: r) s' = BOk s).
    { clear - s. induction body as [|c body IH]; intros s0 Hf H; [exists s0; auto|].
      inversion Hf as [|? ? Hc Hf']; subst. pose proof (alphabet_lut c Hc) as Hrr.
      cbn [app] in H. rewrite loop_char in H by exact Hrr. cbv zeta in H.
      destruct (bits s0 + 6 =? 24).
      - destruct (put spc (out s0) _) as [o1|]; [|discriminate].
        destruct (put spc o1 _) as [o2|]; [|discriminate].
        destruct (put spc o2 _) as [o3|]; [|discriminate]. apply IH in H; auto.
      - apply IH in H; auto. }
    destruct (G _ _ Ha E) as (s' & Hp & E'). cbn [pads] in Hp.
    destruct (loop_pad_only false spc r s') as [(p & ->)|EE]; [|rewrite EE in E'; discriminate].
    change (61 :: repeat 61 p) with (repeat 61 (S p)) in *. destruct s' as [d' b' q' o']. cbn [pads] in Hp. subst q'.
    rewrite loop_pad in E'. match type of E' with BOk ?x = _ => assert (Es : s = x) by congruence end. subst s.
    exists body, (S p). split; [reflexivity|]. split; [exact Ha|]. split; [|lia].
    destruct (le_lt_dec (S p) 2) as [|Hgt]; [assumption|exfalso].
    unfold dec_finish in HF. cbn [bits pads] in HF.
    destruct (Z.eqb_spec (0 + Z.of_nat (S p)) 0); [lia|].
    rewrite andb_false_r in HF. cbv iota beta in HF.
    destruct (Z.eqb_spec (0 + Z.of_nat (S p)) 1); [lia|].
    destruct (Z.eqb_spec (0 + Z.of_nat (S p)) 2); [lia|]. discriminate HF.
Qed.

(** Junk mode. *)
Lemma pads_any_mode cap p : forall s,
  dec_loop true cap (repeat 61 p) s = dec_loop false cap (repeat 61 p) s.
Proof.
  induction p as [|p IH]; intros s; [reflexivity|].
  cbn [repeat dec_loop]. change (lut 61 =? JUNK) with false. change (lut 61 =? PADMARK) with true.
  cbv iota zeta. destruct p as [|p]; cbn [repeat]; [reflexivity|].
  change (lut 61 =? PADMARK) with true. cbv iota. apply IH.
Qed.

Lemma junk_loop cap p : forall body clean, without_junk body clean ->
  ~ In EQ body -> (forall c, In c clean -> in_alphabet c) ->
  forall s, dec_loop true cap (body ++ repeat EQ p) s = dec_loop false cap (clean ++ repeat EQ p) s.
Proof.
  induction 1 as [|c t u W IH|c t u J W IH]; intros Hq Ha s.
  - apply pads_any_mode.
  - assert (Hc : 0 <= lut c < 64) by (apply alphabet_lut, Ha; left; reflexivity).
    cbn [app dec_loop]. unfold JUNK, PADMARK.
    destruct (Z.eqb_spec (lut c) 124) as [|_]; [lia|].
    destruct (Z.eqb_spec (lut c) 64) as [|_]; [lia|]. cbv zeta.
    assert (IH' : forall s, dec_loop true cap (t ++ repeat EQ p) s = dec_loop false cap (u ++ repeat EQ p) s).
    { apply IH; [intro Hi; apply Hq; right; exact Hi|intros x Hx; apply Ha; right; exact Hx]. }
    destruct (bits s + 6 =? 24); [|apply IH'].
    destruct (put _ _ _); [|reflexivity]. destruct (put _ _ _); [|reflexivity].
    destruct (put _ _ _); [|reflexivity]. apply IH'.
  - cbn [app dec_loop].
    assert (E : lut c = JUNK).
    { destruct (lut_range c) as [Hr|[Hr|Hr]]; [|apply lut_pad in Hr|exact Hr].
      - exfalso; exact (J (lut_alphabet c Hr)).
      - exfalso; apply Hq; left; exact Hr. }
    rewrite E. change (JUNK =? JUNK) with true. cbv iota.
    apply IH; [intro Hi; apply Hq; right; exact Hi|exact Ha].
Qed.

Lemma junk_ignored_lemma : forall body clean p spc,
  ~ In EQ body ->
  (forall c, In c clean -> in_alphabet c) -> without_junk body clean ->
  bufspc (body ++ repeat EQ p) <= spc -> bufspc (clean ++ repeat EQ p) <= spc ->
  base64_decode (body ++ repeat EQ p) spc true = base64_decode (clean ++ repeat EQ p) spc false.
Proof.
  intros body clean p spc Hq Ha W B1 B2. unfold base64_decode.
  rewrite (junk_loop spc p body clean W Hq Ha).
  destruct (Z.gtb_spec (bufspc (body ++ repeat EQ p)) spc); [lia|].
  destruct (Z.gtb_spec (bufspc (clean ++ repeat EQ p)) spc); [lia|]. reflexivity.
Qed.
