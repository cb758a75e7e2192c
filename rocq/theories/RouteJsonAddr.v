(** Lemmas for C67: addresses are read back as they were written. *)
Require Import ZArith NArith List Bool String Lia.
From Verif Require Import Json JsonDumpSpec Loader AddrText AddrTextSpec AddrTextProps RouteJson RouteJsonSpec.
Import ListNotations.
Open Scope Z_scope.
Ltac Zify.zify_post_hook ::= Z.to_euclidean_division_equations.

Definition byte (b : Z) : Prop := 0 <= b < 256.
Lemma hex_ntoa_hex d : hex (hex_ntoa d) (d mod 16).
Proof.
  unfold hex_ntoa. change 15 with (Z.ones 4). rewrite Z.land_ones by lia. change (2 ^ 4) with 16. cbv zeta. destruct (Z.ltb_spec (d mod 16) 10); [apply hex_09; lia|apply hex_af; lia].
Qed.
Lemma hex_harmless c d : hex c d -> harmless c.
Proof. unfold harmless. destruct 1; lia. Qed.
Lemma hex2_octet b : byte b -> octet (hex2 b) b.
Proof.
  intros H. unfold byte in H. replace b with (16 * (Z.shiftr b 4 mod 16) + b mod 16) at 2; [apply octet2; apply hex_ntoa_hex|]. rewrite Z.shiftr_div_pow2 by lia. change (2 ^ 4) with 16. lia.
Qed.
Lemma hex2_harmless b : Forall harmless (hex2 b).
Proof. constructor; [exact (hex_harmless _ _ (hex_ntoa_hex _))|]. constructor; [exact (hex_harmless _ _ (hex_ntoa_hex _))|constructor]. Qed.
Lemma byte_pad a n : Forall byte a -> Forall byte (a ++ repeat 0 n).
Proof. intros H. apply Forall_app. split; [exact H|]. apply Forall_forall. intros x I1. apply repeat_spec in I1. subst. unfold byte. lia. Qed.
Lemma pad_same a n : (List.length a + n <= 16)%nat -> padded (a ++ repeat 0 n) = padded a.
Proof. intros L. unfold padded. rewrite <- app_assoc. f_equal. rewrite app_length, repeat_length, <- repeat_app. f_equal. lia. Qed.
Lemma colons_octets a : Forall byte a -> a <> [] -> octets (colons a) a.
Proof.
  induction 1 as [|b a B _ IH]; intros NE; [congruence|]. destruct a as [|b' a]; [apply octets_one, hex2_octet, B|]. change (colons (b :: b' :: a)) with (hex2 b ++ 58 :: colons (b' :: a)). apply octets_more; [apply hex2_octet, B|apply IH; discriminate].
Qed.
Lemma colons_harmless a : Forall harmless (colons a).
Proof.
  induction a as [|b a IH]; [constructor|]. destruct a as [|b' a]; [apply hex2_harmless|]. change (colons (b :: b' :: a)) with (hex2 b ++ 58 :: colons (b' :: a)). apply Forall_app. split; [apply hex2_harmless|constructor; [unfold harmless; lia|exact IH]].
Qed.
Lemma colons_length a : a <> [] -> Z.of_nat (List.length (colons a)) = 3 * Z.of_nat (List.length a) - 1.
Proof.
  induction a as [|b a IH]; intros NE; [congruence|]. destruct a as [|b' a]; [reflexivity|]. change (colons (b :: b' :: a)) with (hex2 b ++ 58 :: colons (b' :: a)). rewrite app_length. cbn [List.length]. specialize (IH ltac:(discriminate)). cbn [List.length] in IH. change (List.length (hex2 b)) with 2%nat. lia.
Qed.
Lemma colons_last a : Forall byte a -> a <> [] -> exists t c d c' d', colons a = t ++ [c; c'] /\ hex c d /\ hex c' d'.
Proof.
  induction 1 as [|b a B _ IH]; intros NE; [congruence|]. destruct a as [|b' a].
  - eexists [], _, _, _, _. split; [reflexivity|]. split; apply hex_ntoa_hex.
  - destruct (IH ltac:(discriminate)) as (t & c & d & c' & d' & E & H1 & H2). change (colons (b :: b' :: a)) with (hex2 b ++ 58 :: colons (b' :: a)). rewrite E. exists (hex2 b ++ 58 :: t), c, d, c', d'. split; [rewrite <- app_assoc; reflexivity|auto].
Qed.

Section Families.
  Context {W D V F : Type}.
  Variable cv : converters W D V F.
  Variable ntop4 ntop6 : list Z -> list Z.
  Variable formatter : Z -> option (list Z -> Z -> Z -> fmt).
  Variable pton4 pton6 : list Z -> option (list Z).
  Variable parser : W -> Z -> option (list Z -> Z -> option (list Z * Z)).
  (** addresses are converted by convert_sockaddr_address (AddrText.v) *)
  Definition by_the_loader : Prop := forall w m f n d, exists behind,
    cv_address cv w m f n JSON_STRING d = match convert_address pton4 pton6 parser w m f n JSON_STRING d behind with Good x => Some x | _ => None end.
  Hypothesis BL : by_the_loader.
  Let wrt := written ntop4 ntop6 formatter.

  Lemma mac_written a x : formatter 118 = None -> List.length a = 6%nat -> wrt 118 (a ++ x) 48 (colons a).
  Proof.
    intros NF L limit. unfold format_address. rewrite NF. change (118 =? AF_LINK48) with true. cbv iota. change (Z.to_nat (48 / 8)) with 6%nat. rewrite colons_length by (destruct a; discriminate). rewrite L.
    destruct (Z.ltb_spec limit (Z.of_nat 6 * 3)); [right; split; [lia|left; reflexivity]|]. left. rewrite app_length, L. cbn [Nat.add Nat.ltb Nat.leb]. f_equal. f_equal. rewrite <- L. rewrite firstn_app, Nat.sub_diag, firstn_O, app_nil_r, firstn_all. reflexivity.
  Qed.
  Lemma mac_read a w m n : Forall byte a -> List.length a = 6%nat -> cv_address cv w m 118 n JSON_STRING (colons a) = Some (118, a, if n =? 0 then 48 else n).
  Proof.
    intros B L. destruct (BL w m 118 n (colons a)) as (behind & ->). unfold convert_address. change ((118 =? AF_LINK48) || (118 =? AF_LINK64)) with true. cbv iota zeta. cbn [text_only negb].
    assert (NE : a <> []) by (destruct a; discriminate). pose proof (colons_length a NE) as CL.
    rewrite (C64_mac_partial (colons a) behind a); [cbn [bind]; rewrite L; reflexivity|lia|split; [exact (colons_octets a B NE)|left; exact L]|].
    left. exact (colons_last a B NE).
  Qed.
  Lemma mac_printable a : List.length a = 6%nat -> printable (colons a).
  Proof. intros L. split; [apply colons_harmless|]. rewrite colons_length by (destruct a; discriminate). lia. Qed.
  Lemma mac_prefix a : formatter 118 = None -> Forall byte a -> List.length a = 6%nat -> prefix_ok cv ntop4 ntop6 formatter 118 a 48.
  Proof.
    intros NF B L. split; [lia|]. exists (colons a), a, 48. split; [|split; [exact (mac_printable a L)|split; [intros w; exact (mac_read a w false 0 B L)|split; [lia|reflexivity]]]].
    pose proof (mac_written a [] NF L) as H. rewrite app_nil_r in H. exact H.
  Qed.
  Lemma mac_masked a m : formatter 118 = None -> (forall w, cv_family_bits cv w 118 = Some 48) -> Forall byte a -> Forall byte m -> List.length a = 6%nat -> List.length m = 6%nat -> masked_ok cv ntop4 ntop6 formatter 118 (a ++ m) 96.
  Proof.
    intros NF FB B M LA LM. exists 6%nat, (colons a), (colons m), a, m, 48. split; [reflexivity|]. split; [lia|]. split; [lia|]. split; [reflexivity|]. split; [exact LA|]. split; [exact LM|]. split; [exact FB|]. split; [exact (mac_written a m NF LA)|].
    split; [exact (mac_printable a LA)|]. split; [pose proof (mac_written m [] NF LM) as H; rewrite app_nil_r in H; exact H|]. split; [exact (mac_printable m LM)|]. split; intros w; [exact (mac_read a w false 0 B LA)|exact (mac_read m w true 48 M LM)].
  Qed.

  Section Inet.
    Variable family : Z.
    Variable ntop : list Z -> list Z.
    Variable pton : list Z -> option (list Z).
    Variable size : nat.
    Variable room : Z.
    Hypothesis which : family = 2 /\ ntop = ntop4 /\ pton = pton4 /\ size = 4%nat /\ room = 16 \/ family = 10 /\ ntop = ntop6 /\ pton = pton6 /\ size = 16%nat /\ room = 64.
    Hypothesis NF : formatter family = None.
    Hypothesis inverse : forall x, Forall byte x -> List.length x = size -> pton (ntop x) = Some x /\ Forall harmless (ntop x) /\ Z.of_nat (List.length (ntop x)) < room.
    Lemma upto_h s : Forall harmless s -> upto_nul s = s.
    Proof. induction 1 as [|c s H _ IH]; [reflexivity|]. change (upto_nul (c :: s)) with (if 0 <? c then c :: upto_nul s else []). unfold harmless in H. destruct (Z.ltb_spec 0 c); [|lia]. rewrite IH. reflexivity. Qed.
    Lemma inet_written a x bits n : bytes_of_bits bits = n -> List.length a = n -> (n <= size)%nat -> wrt family (a ++ x) bits (ntop (a ++ repeat 0 (size - n))).
    Proof.
      intros N1 L LS limit. unfold format_address. rewrite NF.
      assert (E : format_address ntop4 ntop6 formatter family (a ++ x) bits limit = inet ntop size (a ++ x) bits limit).
      { unfold format_address. rewrite NF. destruct which as [(-> & -> & _ & -> & _)|(-> & -> & _ & -> & _)]; reflexivity. }
      unfold format_address in E. rewrite NF in E. rewrite E. unfold inet. cbv zeta. rewrite N1. destruct (Nat.ltb_spec size n); [lia|]. rewrite app_length. destruct (Nat.ltb_spec (List.length a + List.length x) n); [lia|]. cbn [orb].
      rewrite firstn_app, <- L, Nat.sub_diag, firstn_O, app_nil_r, firstn_all. destruct (Z.leb_spec limit (Z.of_nat (List.length (ntop (a ++ repeat 0 (size - List.length a)))))); [right; auto|left; reflexivity].
    Qed.
    Lemma inet_read x w m k : Forall byte x -> List.length x = size -> cv_address cv w m family k JSON_STRING (ntop x) = Some (family, x, if k =? 0 then 8 * Z.of_nat size else k).
    Proof.
      intros B L. destruct (inverse x B L) as (P & H & R). destruct (BL w m family k (ntop x)) as (behind & ->). pose proof (upto_h _ H) as U. destruct which as [(-> & E1 & E2 & -> & ER)|(-> & E1 & E2 & -> & ER)]; rewrite <- ?E1, <- ?E2.
      - unfold convert_address. change ((2 =? AF_LINK48) || (2 =? AF_LINK64)) with false. change (2 =? AF_INET) with true. cbv iota zeta. cbn [text_only negb]. destruct (Z.leb_spec 16 (Z.of_nat (List.length (ntop x)))); [lia|]. rewrite U. rewrite P. reflexivity.
      - unfold convert_address. change ((10 =? AF_LINK48) || (10 =? AF_LINK64)) with false. change (10 =? AF_INET) with false. change (10 =? AF_INET6) with true. cbv iota zeta. cbn [text_only negb]. destruct (Z.leb_spec 64 (Z.of_nat (List.length (ntop x)))); [lia|]. rewrite U. rewrite P. reflexivity.
    Qed.
    Lemma inet_prefix a bits : 0 <= bits <= 8 * Z.of_nat size -> Forall byte a -> List.length a = bytes_of_bits bits -> prefix_ok cv ntop4 ntop6 formatter family a bits.
    Proof.
      intros R B L. assert (SZ : (size <= 16)%nat) by (destruct which as [(_ & _ & _ & -> & _)|(_ & _ & _ & -> & _)]; lia). assert (LS : (bytes_of_bits bits <= size)%nat) by (unfold bytes_of_bits; lia). split; [lia|].
      pose (x := a ++ repeat 0 (size - bytes_of_bits bits)). assert (LX : List.length x = size) by (unfold x; rewrite app_length, repeat_length; lia). pose proof (byte_pad a (size - bytes_of_bits bits) B : Forall byte x) as BX.
      destruct (inverse x BX LX) as (P & H & RM).
      exists (ntop x), x, (8 * Z.of_nat size). split; [pose proof (inet_written a [] bits (bytes_of_bits bits) eq_refl L LS) as Q; rewrite app_nil_r in Q; exact Q|]. split; [split; [exact H|destruct which as [(_ & _ & _ & _ & ->)|(_ & _ & _ & _ & ->)]; lia]|].
      split; [intros w; exact (inet_read x w false 0 BX LX)|]. split; [lia|]. unfold x. apply pad_same. lia.
    Qed.
    Lemma inet_masked a m : (size <= 8)%nat -> (forall w, cv_family_bits cv w family = Some (8 * Z.of_nat size)) -> Forall byte a -> Forall byte m -> List.length a = size -> List.length m = size -> masked_ok cv ntop4 ntop6 formatter family (a ++ m) (16 * Z.of_nat size).
    Proof.
      intros S8 FB B M LA LM. destruct (inverse a B LA) as (_ & H1 & R1). destruct (inverse m M LM) as (_ & H2 & R2).
      assert (RR : room <= 64) by (destruct which as [(_ & _ & _ & _ & ->)|(_ & _ & _ & _ & ->)]; lia). assert (S0 : (0 < size)%nat) by (destruct which as [(_ & _ & _ & -> & _)|(_ & _ & _ & -> & _)]; lia).
      assert (BB : bytes_of_bits (8 * Z.of_nat size) = size) by (unfold bytes_of_bits; lia).
      pose proof (inet_written a m (8 * Z.of_nat size) size BB LA (le_n _)) as W1. pose proof (inet_written m [] (8 * Z.of_nat size) size BB LM (le_n _)) as W2. rewrite Nat.sub_diag in W1, W2. cbn [repeat] in W1, W2. rewrite app_nil_r in W1. rewrite !app_nil_r in W2.
      exists size, (ntop a), (ntop m), a, m, (8 * Z.of_nat size). split; [lia|]. split; [exact S8|]. split; [exact S0|]. split; [reflexivity|]. split; [exact LA|]. split; [exact LM|]. split; [exact FB|]. split; [exact W1|]. split; [split; [exact H1|lia]|]. split; [exact W2|]. split; [split; [exact H2|lia]|].
      split; intros w; [exact (inet_read a w false 0 B LA)|]. rewrite (inet_read m w true (8 * Z.of_nat size) M LM). destruct (Z.eqb_spec (8 * Z.of_nat size) 0); [lia|reflexivity].
    Qed.
  End Inet.

  Lemma can_texts a k : (k <= 4)%nat -> List.length a = k -> can_text a k = text "0x" ++ List.concat (map hex2 (a ++ repeat 0 (4 - k))).
  Proof.
    intros K L. unfold can_text. f_equal. rewrite Nat.min_l by lia. rewrite <- L, firstn_all, map_app, concat_app. f_equal. rewrite L. clear. destruct k as [|[|[|[|k]]]]; try reflexivity.
  Qed.
  Lemma can_reads c1 c2 c3 c4 : Forall byte [c1; c2; c3; c4] -> can_address (text "0x" ++ List.concat (map hex2 [c1; c2; c3; c4])) = Good [c1; c2; c3; c4].
  Proof.
    intros B. inversion B as [|? ? B1 R1]; subst. inversion R1 as [|? ? B2 R2]; subst. inversion R2 as [|? ? B3 R3]; subst. inversion R3 as [|? ? B4 R4]; subst. clear R1 R2 R3 R4. unfold byte in B1, B2, B3, B4.
    apply C64_can. split; [cbn; lia|]. exists (((c1 * 256 + c2) * 256 + c3) * 256 + c4). split; [left|split; [lia|exists c1, c2, c3, c4; split; [reflexivity|split; [exact B|reflexivity]]]].
    pose (ds := [Z.shiftr c1 4 mod 16; c1 mod 16; Z.shiftr c2 4 mod 16; c2 mod 16; Z.shiftr c3 4 mod 16; c3 mod 16; Z.shiftr c4 4 mod 16; c4 mod 16]).
    assert (EV : ((c1 * 256 + c2) * 256 + c3) * 256 + c4 = value 16 0 ds).
    { unfold ds. cbn [value]. rewrite !Z.shiftr_div_pow2 by lia. change (2 ^ 4) with 16. rewrite !(Z.mod_small (_ / 16)) by lia. lia. }
    rewrite EV. apply (c_plain [] _ _ (Forall_nil _)). apply (numeral_16 120 (List.concat (map hex2 [c1; c2; c3; c4])) ds); [left; reflexivity| |discriminate].
    unfold ds, digits. cbn [map concat hex2 app]. repeat (constructor; [split; [apply hex_ntoa_hex|apply Z.mod_pos_bound; lia]|]). constructor.
  Qed.
  Lemma can_prefix a k : formatter 29 = None -> (k <= 4)%nat -> Forall byte a -> List.length a = k -> prefix_ok cv ntop4 ntop6 formatter 29 a (8 * Z.of_nat k).
  Proof.
    intros NF K B L. split; [lia|]. pose (c := a ++ repeat 0 (4 - k)). pose proof (byte_pad a (4 - k) B : Forall byte c) as BC. assert (LC : List.length c = 4%nat) by (unfold c; rewrite app_length, repeat_length; lia).
    assert (LT : List.length (text "0x" ++ List.concat (map hex2 c)) = 10%nat) by (destruct c as [|c1 [|c2 [|c3 [|c4 [|? ?]]]]]; try discriminate; reflexivity).
    assert (RD : can_address (text "0x" ++ List.concat (map hex2 c)) = Good c) by (destruct c as [|c1 [|c2 [|c3 [|c4 [|? ?]]]]]; try discriminate; exact (can_reads c1 c2 c3 c4 BC)).
    exists (text "0x" ++ List.concat (map hex2 c)), c, 32. split; [|split; [split; [|rewrite LT; lia]|split; [|split; [lia|unfold c; apply pad_same; lia]]]].
    - intros limit. rewrite LT. unfold format_address. rewrite NF. change (29 =? AF_LINK48) with false. change (29 =? AF_INET) with false. change (29 =? AF_INET6) with false. change (29 =? AF_LOCAL) with false. change (29 =? AF_CAN) with true. cbv iota zeta.
      destruct (Z.ltb_spec limit 11); [right; split; [lia|left; reflexivity]|left]. replace (Z.to_nat (8 * Z.of_nat k / 8)) with k by lia. destruct (Nat.ltb_spec (List.length a) (Nat.min k 4)); [lia|]. rewrite (can_texts a k K L). reflexivity.
    - apply Forall_app. split; [change (text "0x") with [48; 120]; repeat (constructor; [unfold harmless; lia|]); constructor|]. clearbody c. clear -c. induction c as [|x c IH]; cbn [map concat]; [constructor|]. apply Forall_app. split; [apply hex2_harmless|exact IH].
    - intros w. destruct (BL w false 29 0 (text "0x" ++ List.concat (map hex2 c))) as (behind & ->). unfold convert_address. change ((29 =? AF_LINK48) || (29 =? AF_LINK64)) with false. change (29 =? AF_INET) with false. change (29 =? AF_INET6) with false. change (29 =? AF_CAN) with true. cbv iota zeta.
      cbn [text_or_number negb]. rewrite LT. change (13 <=? Z.of_nat 10) with false. change ((32 <? 0) && negb (false && (0 <=? 64))) with false. cbv iota. rewrite RD. reflexivity.
  Qed.
End Families.
