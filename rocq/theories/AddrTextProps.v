(** * C64: addresses in configurations are what their text says *)
Require Import ZArith List Bool String Lia.
From Verif Require Import Json Loader AddrText AddrTextSpec AddrTextProofs.
From Verif Require JsonText.
Import ListNotations.
Open Scope Z_scope.
Definition text (s : string) : list Z := JsonText.text s.
Definition nul := [0].

(** Whatever follows the text in the parser's buffer: a MAC address is taken only if the text is one of six or eight octets, and
    then as exactly these octets. *)
Theorem C64_mac_only : forall t behind b, Z.of_nat (List.length t) < 2 ^ 64 -> mac (t ++ behind) (Z.of_nat (List.length t)) = Good b -> mac_text t b.
Proof. intros t behind b L E. destruct (mac_loop_sound 8 [] t behind b (le_n _) L E) as (bs & -> & O & LB). split; [exact O|exact LB]. Qed.
Print Assumptions C64_mac_only.

(** Every such text is taken, if its last octet has two digits or what is behind it in the buffer is not a hexadecimal digit.
    Missing: the other case (C64_mac_refuted). *)
Theorem C64_mac_partial : forall t behind b, Z.of_nat (List.length t) < 2 ^ 64 -> mac_text t b ->
  ((exists r c d c' d', t = r ++ [c; c'] /\ hex c d /\ hex c' d') \/ exists c r, behind = c :: r /\ forall d, ~ hex c d) ->
  mac (t ++ behind) (Z.of_nat (List.length t)) = Good b.
Proof.
  intros t behind b L (O & LB) M. apply (mac_loop_complete b t O 8 [] behind); [|exact L| |exact LB].
  - destruct LB as [-> | ->]; lia.
  - destruct M as [M|(c & r & -> & N)]; [left; exact M|right]. exists c, r. split; [reflexivity|]. destruct (hex_digit c) as [d|] eqn:E; [|reflexivity]. destruct (N d (hex_digit_hex _ _ E)).
Qed.
Print Assumptions C64_mac_partial.

(** A CAN address is taken exactly if its text, of at most 12 bytes, is a number in C notation between 0 and 2^32-1, and then as
    its four bytes, the most significant first - or if the text is empty (C64_can_empty_refuted). *)
Theorem C64_can : forall t b, can_address t = Good b <-> (List.length t <= 12)%nat /\ exists n, (c_number t n \/ t = [] /\ n = 0) /\ 0 <= n < 2 ^ 32 /\ big_endian b n.
Proof.
  intros t b. unfold can_address. destruct (13 <=? Z.of_nat (List.length t)) eqn:E13; [split; [discriminate|intros [L _]; lia]|].
  assert (L : (List.length t <= 12)%nat) by lia. split.
  - intros E. split; [exact L|]. destruct (strtoul t) as [a e] eqn:ST. destruct (e =? List.length t)%nat eqn:EL; [|discriminate E]. apply Nat.eqb_eq in EL. subst e. cbn [negb] in E.
    destruct (2 ^ 32 - 1 <? a) eqn:A; [discriminate E|].
    assert (EB : b = [Z.shiftr a 24 mod 256; Z.shiftr a 16 mod 256; Z.shiftr a 8 mod 256; a mod 256]) by congruence. clear E. subst b.
    destruct (strtoul_sound t a L ST) as [[-> ->]|(n & C & EA & R)].
    + exists 0. split; [right; split; reflexivity|]. split; [lia|]. apply (shiftr_bytes 0). lia.
    + assert (n = a).
      { destruct (Z_lt_le_dec n 0) as [NG|P]; [|rewrite Z.mod_small in EA by lia; lia]. exfalso. assert (n mod 2 ^ 64 = n + 2 ^ 64) by (symmetry; apply (Z.mod_unique n (2 ^ 64) (-1)); lia). lia. }
      subst n. assert (0 <= a < 2 ^ 32) by (pose proof (Z.mod_pos_bound a (2 ^ 64)); lia). exists a. split; [left; exact C|]. split; [assumption|]. apply shiftr_bytes. assumption.
  - intros (_ & n & C & R & B).
    assert (ST : strtoul t = (n, List.length t)).
    { destruct C as [C|[-> ->]]; [|reflexivity]. destruct (strtoul_complete t n L C) as [E _]. rewrite Z.mod_small in E by lia. exact E. }
    rewrite ST, Nat.eqb_refl. cbn [negb]. replace (2 ^ 32 - 1 <? n) with false by lia. f_equal. exact (big_endian_unique _ _ n (shiftr_bytes n R) B).
Qed.
Print Assumptions C64_can.

(** What is taken for an address of which family, and how long it is: given lengths stay. *)
Definition says (pton4 pton6 : list Z -> option (list Z)) (family : Z) (t : jtype) (d : list Z) (family' : Z) (b : list Z) (bits : Z) : Prop :=
  family = 118 /\ t = JSON_STRING /\ mac_text d b /\ (List.length b = 6%nat -> family' = 118) /\ (List.length b = 8%nat -> family' = 119) /\ bits = 8 * Z.of_nat (List.length b) \/
  family = 119 /\ t = JSON_STRING /\ mac_text d b /\ (List.length b = 6%nat -> family' = 118) /\ (List.length b = 8%nat -> family' = 119) /\ bits = 8 * Z.of_nat (List.length b) \/
  family' = family /\ family = 2 /\ t = JSON_STRING /\ (List.length d < 16)%nat /\ pton4 (upto_nul d) = Some b /\ bits = 32 \/
  family' = family /\ family = 10 /\ t = JSON_STRING /\ (List.length d < 64)%nat /\ pton6 (upto_nul d) = Some b /\ bits = 128 \/
  family' = family /\ family = 29 /\ (t = JSON_STRING \/ t = JSON_NUMBER) /\ (exists n, (c_number d n \/ d = [] /\ n = 0) /\ 0 <= n < 2 ^ 32 /\ big_endian b n) /\ bits = 32.
Theorem C64_accepted : forall (W : Type) pton4 pton6 (parser : W -> Z -> option (list Z -> Z -> option (list Z * Z))) w mask family len t d behind f b n,
  Z.of_nat (List.length d) < 2 ^ 64 ->
  convert_address pton4 pton6 parser w mask family len t d behind = Good (f, b, n) ->
  exists bits, n = (if len =? 0 then bits else len) /\
    (says pton4 pton6 family t d f b bits \/
     f = family /\ ~ In family [0; 2; 10; 29; 118; 119] /\ (t = JSON_STRING \/ t = JSON_NUMBER) /\
       exists p, parser w family = Some p /\ p d (if len =? 0 then 128 else len) = Some (b, bits)).
Proof.
  intros W pton4 pton6 parser w mask family len t d behind f b n L E. unfold convert_address in E. cbv zeta in E. unfold AF_LINK48, AF_LINK64, AF_INET, AF_INET6, AF_CAN, AF_UNSPEC in E.
  destruct ((family =? 118) || (family =? 119)) eqn:FM.
  { destruct t; try discriminate E. cbn [text_only negb] in E. destruct (mac (d ++ behind) (Z.of_nat (List.length d))) as [b'| |] eqn:M; [|discriminate E|discriminate E]. cbn [bind] in E.
    apply C64_mac_only in M; [|exact L]. assert (EF : f = if (List.length b' =? 6)%nat then 118 else 119) by congruence. assert (EB : b = b') by congruence. assert (EN : n = if len =? 0 then Z.of_nat (List.length b') * 8 else len) by congruence. subst b.
    exists (8 * Z.of_nat (List.length b')). split; [rewrite EN; destruct (len =? 0); lia|]. left.
    assert (X : (List.length b' = 6%nat -> f = 118) /\ (List.length b' = 8%nat -> f = 119)) by (rewrite EF; split; intros ->; reflexivity). destruct X.
    apply orb_true_iff in FM. rewrite !Z.eqb_eq in FM. destruct FM as [-> | ->]; [left|right; left]; repeat split; try assumption; try (exact (proj1 M)); try (exact (proj2 M)). }
  apply orb_false_iff in FM. destruct FM as [FM1 FM2]. apply Z.eqb_neq in FM1, FM2.
  destruct (family =? 2) eqn:F2.
  { apply Z.eqb_eq in F2. subst family. destruct t; try discriminate E. cbn [text_only negb] in E. destruct (16 <=? Z.of_nat (List.length d)) eqn:LL; [discriminate E|]. destruct (pton4 (upto_nul d)) as [b'|] eqn:P; [|discriminate E].
    injection E as <- <- <-. exists 32. split; [reflexivity|]. left. right. right. left. repeat split; [lia|exact P]. }
  destruct (family =? 10) eqn:F10.
  { apply Z.eqb_eq in F10. subst family. destruct t; try discriminate E. cbn [text_only negb] in E. destruct (64 <=? Z.of_nat (List.length d)) eqn:LL; [discriminate E|]. destruct (pton6 (upto_nul d)) as [b'|] eqn:P; [|discriminate E].
    injection E as <- <- <-. exists 128. split; [reflexivity|]. left. right. right. right. left. repeat split; [lia|exact P]. }
  destruct (family =? 29) eqn:F29.
  { apply Z.eqb_eq in F29. subst family. destruct (text_or_number t) eqn:T; [|discriminate E]. cbn [negb] in E. destruct (13 <=? Z.of_nat (List.length d)); [discriminate E|].
    destruct ((32 <? len) && negb (mask && (len <=? 64))); [discriminate E|]. destruct (can_address d) as [b'| |] eqn:C; [|discriminate E|discriminate E]. cbn [bind] in E. injection E as <- <- <-.
    apply C64_can in C. destruct C as [_ C]. exists 32. split; [reflexivity|]. left. right. right. right. right. repeat split; [destruct t; try discriminate T; auto|exact C]. }
  destruct (family =? 0) eqn:F0; [discriminate E|]. destruct (text_or_number t) eqn:T; [|discriminate E]. cbn [negb] in E. destruct (parser w family) as [p|] eqn:P; [|discriminate E].
  destruct (p d (if len =? 0 then MAX_ADDR_BITS else len)) as [[b' n']|] eqn:PP; [|discriminate E]. injection E as <- <- <-. exists n'. split; [reflexivity|]. right. split; [reflexivity|].
  split; [cbn; lia|]. split; [destruct t; try discriminate T; auto|]. exists p. split; [reflexivity|exact PP].
Qed.
Print Assumptions C64_accepted.

(** So the bytes fit into the address (16 bytes), which is what C63_safe_partial asks for, if inet_pton and installed parsers
    keep to their sizes. *)
Theorem C64_fits : forall (W : Type) pton4 pton6 (parser : W -> Z -> option (list Z -> Z -> option (list Z * Z))) w mask family len t d behind f b n,
  Z.of_nat (List.length d) < 2 ^ 64 ->
  (forall s b, pton4 s = Some b -> List.length b = 4%nat) -> (forall s b, pton6 s = Some b -> List.length b = 16%nat) ->
  (forall w f p s c b n, parser w f = Some p -> p s c = Some (b, n) -> (List.length b <= 16)%nat) ->
  convert_address pton4 pton6 parser w mask family len t d behind = Good (f, b, n) -> (List.length b <= 16)%nat.
Proof.
  intros W pton4 pton6 parser w mask family len t d behind f b n L P4 P6 PP E. apply C64_accepted in E; [|exact L].
  destruct E as (bits & _ & [[(_ & _ & (_ & LB) & _)|[(_ & _ & (_ & LB) & _)|[(_ & _ & _ & _ & P & _)|[(_ & _ & _ & _ & P & _)|(_ & _ & _ & (m & _ & _ & B) & _)]]]]|(_ & _ & _ & p & Pa & Pb)]).
  - lia.
  - lia.
  - rewrite (P4 _ _ P). lia.
  - rewrite (P6 _ _ P). lia.
  - destruct B as (b1 & b2 & b3 & b4 & -> & _). cbn. lia.
  - exact (PP _ _ _ _ _ _ _ Pa Pb).
Qed.
Print Assumptions C64_fits.

(** ** What goes wrong *)

(** The text is read one byte too far if its last octet has one digit: the same address is taken or refused depending on what
    an earlier, longer string left behind it in the buffer, and reading beyond the buffer is undefined. *)
Theorem C64_mac_refuted : exists t b, mac_text t b /\
  mac (t ++ nul) (Z.of_nat (List.length t)) = Good b /\ mac (t ++ text "1:2") (Z.of_nat (List.length t)) = Bad /\ mac (t ++ text "12") (Z.of_nat (List.length t)) = Err /\ mac t (Z.of_nat (List.length t)) = Bad.
Proof.
  exists (text "0:a:B:3:4:f"), [0; 10; 11; 3; 4; 15]. split.
  - apply (C64_mac_only _ nul); [reflexivity|]. vm_compute. reflexivity.
  - repeat split; vm_compute; reflexivity.
Qed.
Print Assumptions C64_mac_refuted.

(** An empty text is CAN address 0, though it is not a number. *)
Theorem C64_can_empty_refuted : can_address [] = Good [0; 0; 0; 0] /\ forall n, ~ c_number [] n.
Proof.
  split; [reflexivity|]. intros n H. destruct (strtoul_complete [] n) as [E R]; [cbn; lia|exact H|]. inversion H as [sp t v F NU E0|sp t v F NU E0|sp t v F NU E0]; subst.
  - destruct sp; [|discriminate E0]. cbn [app] in E0. subst t. destruct (numeral_base [] _ NU) as (? & ? & ? & _ & _ & _ & _ & _ & _ & c & r & X & _). discriminate X.
  - destruct sp; discriminate E0.
  - destruct sp; discriminate E0.
Qed.
Print Assumptions C64_can_empty_refuted.

Example C64_example :
  mac (text "00:1b:44:11:3A:b7") 17 = Good [0; 27; 68; 17; 58; 183] /\ mac_text (text "00:1b:44:11:3A:b7") [0; 27; 68; 17; 58; 183] /\
  can_address (text "0x1fffFFFF") = Good [31; 255; 255; 255] /\ can_address (text " -0") = Good [0; 0; 0; 0] /\ can_address (text "017") = Good [0; 0; 0; 15] /\
  can_address (text "08") = Err /\ can_address (text "-1") = Err /\ can_address (text "4294967296") = Err /\ can_address (text "0x") = Err.
Proof. split; [vm_compute; reflexivity|]. split; [apply (C64_mac_only _ []); vm_compute; reflexivity|]. repeat split; vm_compute; reflexivity. Qed.
