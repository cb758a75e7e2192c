(** * Numbers in configurations: proofs *)
Require Import ZArith List Bool Lia.
From Verif Require Import Base Json JsonSpec TimeConv Convert ConvertSpec.
Import ListNotations.
Open Scope Z_scope.

Lemma is_in_spec : forall c a b, is_in c a b = true <-> a <= c <= b.
Proof. intros. unfold is_in. rewrite andb_true_iff, !Z.leb_le. tauto. Qed.
Lemma is_in_false : forall c a b, is_in c a b = false <-> ~ a <= c <= b.
Proof. intros. rewrite <- is_in_spec. destruct (is_in c a b); intuition congruence. Qed.
Lemma space_spec : forall c, c_space c = true <-> blank c.
Proof. intros. unfold c_space, blank. rewrite orb_true_iff, Z.eqb_eq, is_in_spec. tauto. Qed.
Lemma digit_spec : forall b c d, c_digit b c = Some d <-> digit_of b c d.
Proof.
  intros b c d. unfold c_digit, is_digit. split.
  - intros H. destruct (is_in c 48 57) eqn:E1; [|destruct (is_in c 97 122) eqn:E2; [|destruct (is_in c 65 90) eqn:E3; [|discriminate H]]].
    + destruct (Z.ltb_spec (c - 48) b); inversion H; subst. apply d_num; [apply is_in_spec; exact E1|assumption].
    + destruct (Z.ltb_spec (c - 87) b); inversion H; subst. apply d_low; [apply is_in_spec; exact E2|assumption].
    + destruct (Z.ltb_spec (c - 55) b); inversion H; subst. apply d_up; [apply is_in_spec; exact E3|assumption].
  - intros H. inversion H as [c' R L|c' R L|c' R L]; subst.
    + replace (is_in c 48 57) with true by (symmetry; apply is_in_spec; exact R). destruct (Z.ltb_spec (c - 48) b); [reflexivity|lia].
    + replace (is_in c 48 57) with false by (symmetry; apply is_in_false; lia). replace (is_in c 97 122) with true by (symmetry; apply is_in_spec; exact R).
      destruct (Z.ltb_spec (c - 87) b); [reflexivity|lia].
    + replace (is_in c 48 57) with false by (symmetry; apply is_in_false; lia). replace (is_in c 97 122) with false by (symmetry; apply is_in_false; lia).
      replace (is_in c 65 90) with true by (symmetry; apply is_in_spec; exact R). destruct (Z.ltb_spec (c - 55) b); [reflexivity|lia].
Qed.
Lemma digit_range : forall b c d, digit_of b c d -> 0 <= d < b.
Proof. intros b c d H. inversion H; subst; lia. Qed.

(** ** Reading digits *)
Lemma read_app : forall b l ds, Forall2 (digit_of b) l ds -> forall z rest acc n, c_digit b z = None ->
  read_digits b (l ++ z :: rest) acc n = Some (digits_value b acc ds, (n + length l)%nat).
Proof.
  intros b l ds H. induction H as [|c d l ds H1 H2 IH]; intros z rest acc n HZ; cbn [app read_digits length digits_value].
  - rewrite HZ. f_equal. f_equal. lia.
  - apply digit_spec in H1. rewrite H1, IH by exact HZ. f_equal. f_equal; [f_equal; lia|lia].
Qed.
Lemma read_inv : forall b m acc n v e, read_digits b m acc n = Some (v, e) ->
  exists l ds r, m = l ++ r /\ Forall2 (digit_of b) l ds /\ v = digits_value b acc ds /\ e = (n + length l)%nat.
Proof.
  intros b. induction m as [|c m IH]; intros acc n v e H; cbn [read_digits] in H; [discriminate H|].
  destruct (c_digit b c) as [d|] eqn:E.
  - destruct (IH _ _ _ _ H) as (l & ds & r & -> & F & -> & ->). exists (c :: l), (d :: ds), r.
    split; [reflexivity|]. split; [constructor; [apply digit_spec; exact E|exact F]|]. split; [cbn [digits_value]; f_equal; lia|cbn [length]; lia].
  - inversion H; subst. exists [], [], (c :: m). split; [reflexivity|]. split; [constructor|]. split; [reflexivity|cbn; lia].
Qed.
Lemma read_some : forall b m acc n, In 0 m -> exists r, read_digits b m acc n = Some r.
Proof.
  intros b. induction m as [|c m IH]; intros acc n H; [destruct H|]. cbn [read_digits].
  destruct (c_digit b c) as [d|] eqn:E; [|eauto]. destruct H as [->|H]; [|apply IH; exact H].
  apply digit_spec in E. inversion E; lia.
Qed.
Lemma skip_app : forall bl c r n, Forall blank bl -> ~ blank c -> skip_space (bl ++ c :: r) n = Some (c :: r, (n + length bl)%nat).
Proof.
  induction bl as [|x bl IH]; intros c r n F NB; cbn [app skip_space length].
  - destruct (c_space c) eqn:E; [apply space_spec in E; contradiction|]. f_equal. f_equal. lia.
  - inversion F as [|? ? F1 F2]; subst. replace (c_space x) with true by (symmetry; apply space_spec; exact F1).
    rewrite IH by assumption. f_equal. f_equal. lia.
Qed.
Lemma skip_inv : forall m n m2 n2, skip_space m n = Some (m2, n2) ->
  exists bl, m = bl ++ m2 /\ Forall blank bl /\ n2 = (n + length bl)%nat /\ m2 <> [].
Proof.
  induction m as [|c m IH]; intros n m2 n2 H; cbn [skip_space] in H; [discriminate H|].
  destruct (c_space c) eqn:E.
  - destruct (IH _ _ _ H) as (bl & -> & F & -> & NE). exists (c :: bl). split; [reflexivity|].
    split; [constructor; [apply space_spec; exact E|exact F]|]. split; [cbn [length]; lia|exact NE].
  - inversion H; subst. exists []. split; [reflexivity|]. split; [constructor|]. split; [cbn; lia|discriminate].
Qed.

(** ** Magnitudes *)
Definition reads (m : list Z) (n : nat) : option (Z * nat * bool) :=
  match read_prefix m n with
  | None => None
  | Some (base, m3, n3) => match read_digits base m3 0 n3 with None => None | Some (v, e) => Some (v, e, Nat.eqb e n3) end
  end.
Definition stops (text : list Z) (z : Z) : Prop :=
  c_digit 10 z = None /\ z <> 120 /\ z <> 88 /\ (c_digit 16 z = None \/ ~ In 120 text /\ ~ In 88 text).
Lemma digit_mono : forall b b' z, b <= b' -> c_digit b' z = None -> c_digit b z = None.
Proof.
  intros b b' z L H. destruct (c_digit b z) as [d|] eqn:E; [|reflexivity]. apply digit_spec in E.
  assert (K : c_digit b' z = Some d). { apply digit_spec. inversion E; subst; constructor; lia. }
  congruence.
Qed.
Lemma reads_app : forall l v, magnitude l v -> forall z rest n, stops l z -> reads (l ++ z :: rest) n = Some (v, (n + length l)%nat, false).
Proof.
  intros l v H z rest n (Z1 & Z2 & Z3 & Z4). unfold reads. destruct H as [c l ds N0 F|l ds F|x c l ds X F].
  - cbn [app read_prefix]. apply Z.eqb_neq in N0. rewrite N0.
    change (c :: l ++ z :: rest) with ((c :: l) ++ z :: rest). rewrite (read_app 10 (c :: l) ds F) by exact Z1.
    f_equal. f_equal. apply Nat.eqb_neq. cbn [length]. lia.
  - assert (PF : read_prefix ((48 :: l) ++ z :: rest) n = Some (8, (48 :: l) ++ z :: rest, n)).
    { cbn [app read_prefix]. change (48 =? 48) with true. cbv iota. destruct l as [|x l]; cbn [app].
      - destruct (Z.eqb_spec z 120); [contradiction|]. destruct (Z.eqb_spec z 88); [contradiction|]. reflexivity.
      - inversion F as [|? ? ? ? F1 F2]; subst. destruct (Z.eqb_spec x 120); [subst; inversion F1; lia|].
        destruct (Z.eqb_spec x 88); [subst; inversion F1; lia|]. reflexivity. }
    rewrite PF. rewrite (read_app 8 (48 :: l) (0 :: ds)).
    + f_equal. f_equal. apply Nat.eqb_neq. cbn [length]. lia.
    + constructor; [|exact F]. apply (d_num 8 48); lia.
    + apply (digit_mono 8 10); [lia|exact Z1].
  - cbn [app read_prefix]. change (48 =? 48) with true. cbv iota.
    replace ((x =? 120) || (x =? 88)) with true by (destruct X as [-> | ->]; reflexivity).
    pose proof F as F0. inversion F0 as [|? d ? ? F1 F2]; subst. apply digit_spec in F1. rewrite F1.
    change (c :: l ++ z :: rest) with ((c :: l) ++ z :: rest). rewrite (read_app 16 (c :: l) (d :: l') F).
    + f_equal. f_equal; [|apply Nat.eqb_neq; cbn [length]; lia]. f_equal. cbn [length]. lia.
    + destruct Z4 as [Z4|[A B]]; [exact Z4|]. exfalso. cbn [In] in A, B. destruct X as [-> | ->]; tauto.
Qed.
Lemma reads_inv : forall m n v e f, reads m n = Some (v, e, f) ->
  if f then True else exists l r, m = l ++ r /\ magnitude l v /\ e = (n + length l)%nat.
Proof.
  intros m n v e f H. unfold reads in H. destruct (read_prefix m n) as [[[b m3] n3]|] eqn:EP; [|discriminate H].
  destruct (read_digits b m3 0 n3) as [[v' e']|] eqn:ER; [|discriminate H]. inversion H; subst v' e'. clear H.
  destruct (Nat.eqb_spec e n3) as [EQ|NE]; [exact Logic.I|].
  apply read_inv in ER. destruct ER as (l & ds & r & -> & F & -> & ->).
  assert (NL : l <> []) by (intros ->; apply NE; cbn; lia).
  destruct m as [|c m]; [discriminate EP|]. cbn [read_prefix] in EP. destruct (Z.eqb_spec c 48) as [->|NC].
  - assert (OCT : Some (8, 48 :: m, n) = Some (b, l ++ r, n3) -> exists l0 r0, 48 :: m = l0 ++ r0 /\ magnitude l0 (digits_value b 0 ds) /\ (n3 + length l = n + length l0)%nat).
    { intros K. injection K as <- E <-. destruct l as [|x l]; [contradiction|]. exists (x :: l), r. split; [exact E|]. split; [|reflexivity].
      cbn [app] in E. injection E as <- E. inversion F as [|? d ? ds' F1 F2]; subst. apply digit_spec in F1. vm_compute in F1. injection F1 as <-.
      change (digits_value 8 0 (0 :: ds')) with (digits_value 8 0 ds'). apply m_oct. exact F2. }
    destruct m as [|x m]; [discriminate EP|]. destruct ((x =? 120) || (x =? 88)) eqn:EX; [|apply OCT; exact EP].
    destruct m as [|h m]; [discriminate EP|]. destruct (c_digit 16 h) as [d|] eqn:EH; [|apply OCT; exact EP].
    injection EP as <- E <-. destruct l as [|y l]; [contradiction|]. cbn [app] in E. injection E as <- E.
    exists (48 :: x :: h :: l), r. split; [cbn [app]; rewrite E; reflexivity|]. split; [|cbn [length]; lia].
    apply m_hex; [|exact F]. apply orb_true_iff in EX. rewrite !Z.eqb_eq in EX. exact EX.
  - injection EP as <- E <-. destruct l as [|y l]; [contradiction|]. cbn [app] in E. injection E as <- E. exists (c :: l), r.
    split; [cbn [app]; rewrite E; reflexivity|]. split; [|reflexivity]. apply m_dec; assumption.
Qed.
Lemma magnitude_head : forall l v, magnitude l v -> exists c r, l = c :: r /\ 48 <= c <= 57.
Proof.
  intros l v H. destruct H as [c l ds N0 F|l ds F|x c l ds X F]; [|exists 48, l; split; [reflexivity|lia]|exists 48, (x :: c :: l); split; [reflexivity|lia]].
  inversion F as [|? d ? ? F1 F2]; subst. exists c, l. split; [reflexivity|]. inversion F1; subst; lia.
Qed.

Lemma strto_reads : forall m, strto m =
  match skip_space m 0 with
  | None | Some ([], _) => None
  | Some (c :: r, n) =>
    let neg := c =? 45 in
    let '(m2, n2) := if neg || (c =? 43) then (r, S n) else (c :: r, n) in
    match reads m2 n2 with
    | None => None
    | Some (v, e, f) => Some (if f then (0, 0%nat) else ((if neg then - v else v), e))
    end
  end.
Proof.
  intros m. unfold strto, reads. destruct (skip_space m 0) as [[[|c r] n]|]; [reflexivity| |reflexivity].
  cbv zeta. destruct ((c =? 45) || (c =? 43)).
  - destruct (read_prefix r (S n)) as [[[b m3] n3]|]; [|reflexivity]. destruct (read_digits b m3 0 n3) as [[v e]|]; reflexivity.
  - destruct (read_prefix (c :: r) n) as [[[b m3] n3]|]; [|reflexivity]. destruct (read_digits b m3 0 n3) as [[v e]|]; reflexivity.
Qed.

Lemma strto_app : forall text v z rest, c_numeral text v -> stops text z -> strto (text ++ z :: rest) = Some (v, length text).
Proof.
  intros text v z rest (bl & l & -> & FB & HS) ST. rewrite strto_reads.
  assert (SUB : forall l', (exists pre, bl ++ l = pre ++ l') -> stops l' z).
  { intros l' (pre & E). destruct ST as (A & B & C & D). rewrite E in D. split; [exact A|]. split; [exact B|]. split; [exact C|].
    destruct D as [D|[D1 D2]]; [left; exact D|right]. rewrite in_app_iff in D1, D2. tauto. }
  destruct HS as [l v M|l v M|l v M].
  - destruct (magnitude_head l v M) as (c & r & EL & RC). rewrite EL, <- app_assoc. cbn [app].
    rewrite skip_app; [|exact FB|unfold blank; lia]. cbv zeta.
    replace (c =? 45) with false by (symmetry; apply Z.eqb_neq; lia). replace (c =? 43) with false by (symmetry; apply Z.eqb_neq; lia). cbn [orb].
    change (c :: r ++ z :: rest) with ((c :: r) ++ z :: rest). rewrite <- EL. rewrite (reads_app l v M); [|apply SUB; exists bl; reflexivity].
    rewrite app_length. reflexivity.
  - rewrite <- app_assoc. cbn [app]. rewrite skip_app; [|exact FB|unfold blank; lia]. cbv zeta. change (43 =? 45) with false. change (43 =? 43) with true. cbn [orb].
    rewrite (reads_app l v M); [|apply SUB; exists (bl ++ [43]); rewrite <- app_assoc; reflexivity].
    rewrite app_length. cbn [length]. f_equal. f_equal. lia.
  - rewrite <- app_assoc. cbn [app]. rewrite skip_app; [|exact FB|unfold blank; lia]. cbv zeta. change (45 =? 45) with true. cbn [orb].
    rewrite (reads_app l v M); [|apply SUB; exists (bl ++ [45]); rewrite <- app_assoc; reflexivity].
    rewrite app_length. cbn [length]. f_equal. f_equal. lia.
Qed.
Lemma strto_inv : forall m v e, strto m = Some (v, e) ->
  (v = 0 /\ e = 0%nat) \/ exists text r, m = text ++ r /\ c_numeral text v /\ e = length text /\ text <> [].
Proof.
  intros m v e H. rewrite strto_reads in H. destruct (skip_space m 0) as [[[|c r] n]|] eqn:ES; [discriminate H| |discriminate H].
  apply skip_inv in ES. destruct ES as (bl & -> & FB & -> & _). cbv zeta in H.
  destruct ((c =? 45) || (c =? 43)) eqn:EC.
  - destruct (reads r (S (0 + length bl))) as [[[v' e'] f]|] eqn:ER; [|discriminate H]. apply reads_inv in ER.
    destruct f; [left; inversion H; auto|]. right. destruct ER as (l & q & -> & M & ->).
    assert (HS : signed (c :: l) v).
    { destruct (Z.eqb_spec c 45) as [->|N1]; [inversion H; subst; apply s_minus; exact M|]. destruct (Z.eqb_spec c 43) as [->|N2]; [|discriminate EC].
      inversion H; subst. apply s_plus; exact M. }
    exists (bl ++ c :: l), q. split; [rewrite <- app_assoc; reflexivity|]. split; [exists bl, (c :: l); auto|].
    split; [|intros K; apply app_eq_nil in K; destruct K as [_ K]; discriminate K].
    inversion H. rewrite app_length. cbn [length]. lia.
  - apply orb_false_iff in EC. destruct EC as [E1 E2]. rewrite E1 in H.
    destruct (reads (c :: r) (0 + length bl)) as [[[v' e'] f]|] eqn:ER; [|discriminate H]. apply reads_inv in ER.
    destruct f; [left; inversion H; auto|]. right. destruct ER as (l & q & EQ & M & ->). inversion H; subst v' e.
    exists (bl ++ l), q. split; [rewrite EQ, <- app_assoc; reflexivity|]. split; [exists bl, l; split; [reflexivity|]; split; [exact FB|apply s_none; exact M]|].
    split; [rewrite app_length; cbn; lia|]. destruct (magnitude_head l v M) as (c0 & r0 & -> & _). intros K. apply app_eq_nil in K. destruct K as [_ K]. discriminate K.
Qed.
Lemma strto_some : forall m, In 0 m -> exists r, strto m = Some r.
Proof.
  intros m H. rewrite strto_reads.
  assert (SK : exists c r n, skip_space m 0 = Some (c :: r, n) /\ In 0 (c :: r)).
  { generalize 0%nat. induction m as [|c m IH]; intros k; [destruct H|]. cbn [skip_space]. destruct (c_space c) eqn:E; [|eauto 10].
    destruct H as [->|H]; [discriminate E|]. apply IH. exact H. }
  destruct SK as (c & r & n & -> & HI). cbv zeta.
  assert (RD : forall m n, In 0 m -> exists x, reads m n = Some x).
  { clear. intros m n H. unfold reads. assert (P : exists b m3 n3, read_prefix m n = Some (b, m3, n3) /\ In 0 m3).
    { destruct m as [|c m]; [destruct H|]. cbn [read_prefix]. destruct (Z.eqb_spec c 48) as [->|NC]; [|eauto 10].
      destruct H as [H|H]; [discriminate H|]. destruct m as [|x m]; [destruct H|]. destruct ((x =? 120) || (x =? 88)) eqn:EX.
      - destruct H as [->|H]; [discriminate EX|]. destruct m as [|h m]; [destruct H|]. destruct (c_digit 16 h) as [d|] eqn:EH; [|eexists _, _, _; split; [reflexivity|right; right; exact H]].
        eexists _, _, _. split; [reflexivity|exact H].
      - eexists _, _, _. split; [reflexivity|right; exact H]. }
    destruct P as (b & m3 & n3 & -> & H3). destruct (read_some b m3 0 n3 H3) as [[v e] ->]. eauto. }
  destruct ((c =? 45) || (c =? 43)) eqn:EC.
  - destruct HI as [->|HI]; [discriminate EC|]. destruct (RD r (S n) HI) as [[[v e] f] ->]. eauto.
  - destruct (RD (c :: r) n HI) as [[[v e] f] ->]. eauto.
Qed.

(** ** The integer converters *)
Lemma convert_spec : forall size fit max t data c, 0 < size -> fit 0 = Some 0 -> 0 <= max ->
  convert size fit max t data = CSet c <->
  (t = JSON_NUMBER \/ t = JSON_STRING) /\ Z.of_nat (length data) < size /\ c <= max /\
  ((data = [] /\ c = 0) \/ exists v, c_numeral data v /\ fit v = Some c).
Proof.
  intros size fit max t data c HS F0 HM. unfold convert.
  assert (ST : forall text, stops text 0) by (intros text; split; [reflexivity|]; split; [discriminate|]; split; [discriminate|left; reflexivity]).
  split.
  - intros H. destruct (numeric_type t) eqn:ET; [|discriminate H]. cbn [negb] in H.
    destruct (Z.leb_spec size (Z.of_nat (length data))) as [L|L]; [discriminate H|].
    destruct (strto (data ++ [0])) as [[v e]|] eqn:ES; [|discriminate H]. destruct (fit v) as [c'|] eqn:EF; [|discriminate H].
    destruct (Nat.eqb_spec e (length data)) as [EE|NE]; [|discriminate H]. cbn [negb] in H. destruct (Z.ltb_spec max c') as [M|M]; [discriminate H|].
    inversion H; subst c'. split; [destruct t; try discriminate ET; auto|]. split; [exact L|]. split; [exact M|].
    apply strto_inv in ES. destruct ES as [[-> ->]|(text & r & E & N1 & E1 & E2)].
    + left. split; [destruct data; [reflexivity|discriminate EE]|congruence].
    + right. exists v. split; [|exact EF].
      assert (text = data).
      { assert (A : firstn (length text) (data ++ [0]) = text) by (rewrite E, firstn_app, Nat.sub_diag, firstn_all; cbn [firstn]; apply app_nil_r).
        rewrite <- E1, EE in A. rewrite firstn_app, Nat.sub_diag, firstn_all in A. cbn [firstn] in A. rewrite app_nil_r in A. congruence. }
      subst text. exact N1.
  - intros (HT & L & M & HC). replace (numeric_type t) with true by (destruct HT as [-> | ->]; reflexivity). cbn [negb].
    destruct (Z.leb_spec size (Z.of_nat (length data))); [lia|].
    destruct HC as [[-> ->]|(v & N1 & EF)].
    + change (strto ([] ++ [0])) with (Some (0, 0%nat)). cbv iota beta. rewrite F0. cbn [length Nat.eqb negb]. destruct (Z.ltb_spec max 0); [lia|reflexivity].
    + rewrite (strto_app data v 0 [] N1 (ST data)). rewrite EF, Nat.eqb_refl. cbn [negb]. destruct (Z.ltb_spec max c); [lia|reflexivity].
Qed.
Lemma convert_no_ub : forall size fit max t data, convert size fit max t data <> CUB.
Proof.
  intros. unfold convert. destruct (negb _); [discriminate|]. destruct (_ <=? _); [discriminate|].
  destruct (strto_some (data ++ [0])) as [[v e] ->]; [apply in_or_app; right; left; reflexivity|].
  destruct (fit v); [|discriminate]. destruct (negb _); [discriminate|]. destruct (_ <? _); discriminate.
Qed.

(** ** JSON integers are C numerals with the same value, and no other JSON number is one *)
Lemma decimal_digits : forall l, digits l -> Forall2 (digit_of 10) l (map (fun c => c - 48) l).
Proof. intros l H. induction H as [|c l H _ IH]; cbn [map]; constructor; [|exact IH]. unfold digit in H. apply d_num; lia. Qed.
Lemma dec_unique : forall l ds, Forall2 (digit_of 10) l ds -> digits l /\ ds = map (fun c => c - 48) l.
Proof.
  intros l ds H. induction H as [|c d l ds H _ [IH1 IH2]]; [split; [constructor|reflexivity]|].
  inversion H; subst; try lia. split; [constructor; [unfold digit; lia|exact IH1]|reflexivity].
Qed.
Lemma int_magnitude : forall i, int_part i -> magnitude i (decimal i).
Proof.
  intros i H. destruct H as [|c l R F].
  - change (decimal [48]) with (digits_value 8 0 []). apply m_oct. constructor.
  - unfold decimal. apply m_dec; [lia|]. apply decimal_digits. constructor; [unfold digit; lia|exact F].
Qed.
Lemma json_integer_numeral : forall text v, json_integer text v -> c_numeral text v.
Proof.
  intros text v (i & HI & [[-> ->]|[-> ->]]); [exists [], i|exists [], (45 :: i)]; (split; [reflexivity|]); (split; [constructor|]).
  - apply s_none, int_magnitude, HI.
  - apply s_minus, int_magnitude, HI.
Qed.
Lemma tail_digits : forall f e b ds, frac_part f -> exp_part e -> b <= 10 -> Forall2 (digit_of b) (f ++ e) ds -> f = [] /\ e = [].
Proof.
  intros f e b ds HF HE HB H. destruct HF as [|c l]; cbn [app] in H.
  - split; [reflexivity|]. destruct HE as [|e s c l X]; [reflexivity|]. exfalso. inversion H as [|? ? ? ? J1 _]; subst. inversion J1; subst; destruct X; subst; lia.
  - exfalso. inversion H as [|? ? ? ? J1 _]; subst. inversion J1; lia.
Qed.
Lemma int_tail : forall i f e v, int_part i -> frac_part f -> exp_part e -> magnitude (i ++ f ++ e) v -> f = [] /\ e = [] /\ v = decimal i.
Proof.
  intros i f e v HI HF HE H. destruct HI as [|c l R F].
  - cbn [app] in H. inversion H as [c l ds N0 F2|l ds F2|x c l ds X F2]; subst; [congruence| |].
    + destruct (tail_digits f e 8 ds HF HE ltac:(lia) F2) as [-> ->]. inversion F2; subst. auto.
    + exfalso. destruct HF as [|c0 l0]; cbn [app] in *.
      * destruct HE as [|e0 s c1 l1 X0]; [discriminate|].
        match goal with K : x :: _ = e0 :: _ |- _ => injection K as <- _ | K : e0 :: _ = x :: _ |- _ => injection K as -> _ end. destruct X, X0; lia.
      * match goal with K : x :: _ = 46 :: _ |- _ => injection K as -> _ | K : 46 :: _ = x :: _ |- _ => injection K as <- _ end. destruct X; lia.
  - inversion H as [c' l' ds N0 F2|l' ds F2|x c' l' ds X F2]; subst; [|lia|lia].
    change (c :: l ++ f ++ e) with ((c :: l) ++ f ++ e) in F2. pose proof F2 as F3. apply Forall2_app_inv_l in F3. destruct F3 as (d1 & d2 & A & B & ->).
    destruct (tail_digits f e 10 d2 HF HE ltac:(lia) B) as [-> ->]. inversion B; subst. rewrite app_nil_r.
    split; [reflexivity|]. split; [reflexivity|]. unfold decimal. apply dec_unique in A. destruct A as [_ ->]. reflexivity.
Qed.
Lemma int_head : forall i, int_part i -> exists c r, i = c :: r /\ 48 <= c <= 57.
Proof. intros i H. destruct H as [|c l R F]; [exists 48, []; split; [reflexivity|lia]|exists c, l; split; [reflexivity|lia]]. Qed.
Lemma number_numeral : forall text v, number text -> c_numeral text v -> json_integer text v.
Proof.
  intros text v (m & i & f & e & -> & HM & HI & HF & HE) (bl & l & EQ & FB & HS).
  destruct (int_head i HI) as (c & r & EI & RC).
  destruct HM as [|]; cbn [app] in EQ.
  - destruct bl as [|b bl]; [|exfalso; rewrite EI in EQ; cbn [app] in EQ; injection EQ as -> _; inversion FB as [|? ? B _]; subst; unfold blank in B; lia].
    cbn [app] in EQ. subst l.
    inversion HS as [l v' M E|l v' M E|l v' M E]; subst.
    + destruct (int_tail _ _ _ _ HI HF HE M) as (-> & -> & ->). exists (c :: r). split; [exact HI|]. left. cbn [app]. rewrite !app_nil_r. split; reflexivity.
    + cbn [app] in E. injection E as <- _. lia.
    + cbn [app] in E. injection E as <- _. lia.
  - destruct bl as [|b bl]; [|exfalso; cbn [app] in EQ; injection EQ as <- _; inversion FB as [|? ? B _]; subst; unfold blank in B; lia].
    cbn [app] in EQ. subst l.
    inversion HS as [l v' M E|l v' M E|l v' M E]; subst.
    + exfalso. destruct (magnitude_head _ _ M) as (c0 & r0 & K & RC0). injection K as <- _. lia.
    + destruct (int_tail _ _ _ _ HI HF HE M) as (-> & -> & ->). exists (c :: r). split; [exact HI|]. right. cbn [app]. rewrite !app_nil_r. split; reflexivity.
Qed.

(** ** Sizes *)
Lemma value_bound : forall b ds acc, 1 < b -> 0 <= acc -> Forall (fun d => 0 <= d < b) ds ->
  0 <= digits_value b acc ds < (acc + 1) * b ^ Z.of_nat (length ds).
Proof.
  intros b ds. induction ds as [|d ds IH]; intros acc B A F; cbn [digits_value length].
  - change (Z.of_nat 0) with 0. rewrite Z.pow_0_r. lia.
  - inversion F as [|? ? F1 F2]; subst. specialize (IH (b * acc + d) B ltac:(nia) F2).
    rewrite Nat2Z.inj_succ, Z.pow_succ_r by lia. assert (0 < b ^ Z.of_nat (length ds)) by (apply Z.pow_pos_nonneg; lia). nia.
Qed.
Lemma forall2_range : forall b l ds, Forall2 (digit_of b) l ds -> Forall (fun d => 0 <= d < b) ds /\ length ds = length l.
Proof.
  intros b l ds H. induction H as [|c d l ds H _ [IH1 IH2]]; [split; [constructor|reflexivity]|].
  split; [constructor; [eapply digit_range; exact H|exact IH1]|cbn; congruence].
Qed.
Lemma magnitude_bound : forall l v, magnitude l v -> 0 <= v < 16 ^ Z.of_nat (length l).
Proof.
  assert (P : forall b n n', 1 < b <= 16 -> (n <= n')%nat -> b ^ Z.of_nat n <= 16 ^ Z.of_nat n').
  { intros b n n' B L. apply Z.le_trans with (b ^ Z.of_nat n'); [apply Z.pow_le_mono_r; lia|apply Z.pow_le_mono_l; lia]. }
  intros l v H. destruct H as [c l ds N0 F|l ds F|x c l ds X F]; apply forall2_range in F; destruct F as [F1 F2].
  - pose proof (value_bound 10 ds 0 ltac:(lia) ltac:(lia) F1) as B. pose proof (P 10 (length ds) (length (c :: l)) ltac:(lia) ltac:(lia)). lia.
  - pose proof (value_bound 8 ds 0 ltac:(lia) ltac:(lia) F1) as B. pose proof (P 8 (length ds) (length (48 :: l)) ltac:(lia) ltac:(cbn [length]; lia)). lia.
  - pose proof (value_bound 16 ds 0 ltac:(lia) ltac:(lia) F1) as B. pose proof (P 16 (length ds) (length (48 :: x :: c :: l)) ltac:(lia) ltac:(cbn [length] in *; lia)). lia.
Qed.
Lemma numeral_bound : forall text v, c_numeral text v -> Z.abs v < 16 ^ Z.of_nat (length text).
Proof.
  intros text v (bl & l & -> & _ & HS).
  assert (M : forall l' v', magnitude l' v' -> (length l' <= length (bl ++ l))%nat -> Z.abs v' < 16 ^ Z.of_nat (length (bl ++ l))).
  { intros l' v' M L. pose proof (magnitude_bound _ _ M) as B. pose proof (Z.pow_le_mono_r 16 (Z.of_nat (length l')) (Z.of_nat (length (bl ++ l))) ltac:(lia) ltac:(lia)). lia. }
  rewrite app_length in *. destruct HS as [l v K|l v K|l v K]; rewrite ?Z.abs_opp; (apply (M l v K)); rewrite ?app_length; cbn [length]; lia.
Qed.
