Require Import ZArith List Bool Lia.
From Verif Require Import Json JsonSpec JsonDump JsonDumpSpec.
Import ListNotations.
Open Scope Z_scope.

Definition esc (c : Z) : list Z := if must_escape c then escape_of c else [c].
Lemma run_plain_spec : forall l a b, run_plain l = (a, b) -> l = a ++ b /\ flat_map esc a = a /\ (length b <= length l)%nat.
Proof.
  induction l as [|c l IH]; intros a b E; cbn [run_plain] in E; [injection E as <- <-; repeat split; cbn; lia|].
  destruct (must_escape c) eqn:M; [injection E as <- <-; repeat split; cbn; lia|].
  destruct (run_plain l) as [a' b'] eqn:R. injection E as <- <-. destruct (IH a' b' eq_refl) as (L & F & LE). split; [cbn; congruence|]. split; [|cbn; lia]. cbn [flat_map]. unfold esc at 1. rewrite M, F. reflexivity.
Qed.
Lemma dump_chars_spec : forall n l, (length l <= n)%nat -> concat (dump_chars n l) = flat_map esc l.
Proof.
  induction n as [|n IH]; intros [|c l] L; try reflexivity; [cbn in L; lia|]. cbn [length] in L. cbn [dump_chars]. destruct (must_escape c) eqn:M.
  - cbn [concat flat_map]. unfold esc at 1. rewrite M, IH by lia. reflexivity.
  - destruct (run_plain l) as [a b] eqn:R. destruct (run_plain_spec l a b R) as (E & F & LE). cbn [concat flat_map]. unfold esc at 1. rewrite M, IH by lia. rewrite E at 1. rewrite flat_map_app, F. reflexivity.
Qed.
Lemma dump_string_spec : forall s, concat (dump_string s) = 34 :: flat_map esc s ++ [34].
Proof. intros s. unfold dump_string. cbn [concat]. rewrite concat_app, dump_chars_spec by lia. reflexivity. Qed.

Lemma control_cases : forall c, 0 <= c <= 31 -> In c (map Z.of_nat (seq 0 32)).
Proof. intros c H. apply in_map_iff. exists (Z.to_nat c). split; [lia|]. apply in_seq. lia. Qed.
Lemma not_escaped : forall c, 32 <= c -> c <> 34 -> c <> 92 -> esc c = [c].
Proof. intros c A B C. unfold esc, must_escape, is_control. destruct (Z.leb_spec c 31); [lia|]. destruct (Z.eqb_spec c 34); [lia|]. destruct (Z.eqb_spec c 92); [lia|]. reflexivity. Qed.

(** A character of the string, as it is printed. *)
Inductive printed : Z -> Prop :=
| p_plain : forall c, 32 <= c -> c <> 34 -> c <> 92 -> esc c = [c] -> printed c
| p_simple : forall c e, In (e, c) escapes -> esc c = [92; e] -> printed c
| p_hex : forall c a b va vb, hex_digit a va -> hex_digit b vb -> c = 16 * va + vb -> 0 <= c <= 31 -> esc c = [92; 117; 48; 48; a; b] -> printed c.
Ltac hexd := solve [left; split; [lia|reflexivity] | right; left; split; [lia|reflexivity] | right; right; split; [lia|reflexivity]].
Lemma printed_all : forall c, 0 <= c -> printed c.
Proof.
  intros c C. destruct (Z_le_gt_dec c 31) as [L|L].
  - pose proof (control_cases c ltac:(lia)) as X. cbv [map seq Z.of_nat Pos.of_succ_nat Pos.succ In] in X.
    repeat (destruct X as [X|X]; [subst c; first [
       eapply p_simple; [|reflexivity]; cbn; tauto
     | eapply (p_hex _ 48); [hexd| |reflexivity|lia|reflexivity]; hexd
     | eapply (p_hex _ 49); [hexd| |reflexivity|lia|reflexivity]; hexd
     | idtac ]|]); try destruct X.
    all: match goal with |- printed ?c => 
      let e := eval vm_compute in (esc c) in
      match e with [_; _; _; _; ?a; ?b] =>
       apply (p_hex c a b (c / 16) (c mod 16)); [hexd|hexd|reflexivity|lia|reflexivity] end end.
  - destruct (Z.eq_dec c 34) as [-> |N1]; [apply (p_simple 34 34); [cbn; tauto|reflexivity]|]. destruct (Z.eq_dec c 92) as [-> |N2]; [apply (p_simple 92 92); [cbn; tauto|reflexivity]|].
    apply p_plain; try lia. apply not_escaped; lia.
Qed.

Lemma utf8_small : forall c, 0 <= c <= 127 -> utf8 c = [c].
Proof. intros c C. unfold utf8. destruct (Z.ltb_spec c 128); [reflexivity|lia]. Qed.
Lemma utf8_high : forall c, 128 <= c <= 1114111 -> Forall (fun b => 128 <= b <= 255) (utf8 c).
Proof.
  intros c C. unfold utf8. destruct (Z.ltb_spec c 128); [lia|].
  assert (M : forall x, 128 <= 128 + x mod 64 <= 255) by (intros x; pose proof (Z.mod_pos_bound x 64 ltac:(lia)); lia).
  destruct (Z.ltb_spec c 2048); [|destruct (Z.ltb_spec c 65536)]; repeat (apply Forall_cons; [first [apply M|idtac]|]); try apply Forall_nil.
  - split; [pose proof (Z.div_pos c 64); lia|]. assert (c / 64 < 32) by (apply Z.div_lt_upper_bound; lia). lia.
  - split; [pose proof (Z.div_pos c 4096); lia|]. assert (c / 4096 < 16) by (apply Z.div_lt_upper_bound; lia). lia.
  - split; [pose proof (Z.div_pos c 262144); lia|]. assert (c / 262144 < 5) by (apply Z.div_lt_upper_bound; lia). lia.
Qed.
Lemma utf8_same : forall c, 128 <= c <= 1114111 -> flat_map esc (utf8 c) = utf8 c.
Proof.
  intros c C. pose proof (utf8_high c C) as H. induction H as [|b l B _ IH]; [reflexivity|]. cbn [flat_map]. rewrite IH, not_escaped by lia. reflexivity.
Qed.
Lemma hex_small : forall a b va vb, hex_digit a va -> hex_digit b vb -> hex4 [48; 48; a; b] (16 * va + vb).
Proof. intros a b va vb A B. replace (16 * va + vb) with (4096 * 0 + 256 * 0 + 16 * va + vb) by lia. constructor; try assumption; hexd. Qed.
Lemma dump_chars_valid : forall cs, Forall scalar cs -> chars (flat_map esc (concat (map utf8 cs))) (concat (map utf8 cs)).
Proof.
  induction 1 as [|c cs S0 _ IH]; [constructor|]. cbn [map concat]. rewrite flat_map_app. destruct (Z_le_gt_dec c 127) as [L|L].
  - assert (0 <= c) by (unfold scalar in S0; lia). rewrite utf8_small by lia. cbn [flat_map]. rewrite app_nil_r. destruct (printed_all c H) as [c A B D E|c e I E|c a b va vb HA HB V R E]; rewrite E; cbn [app].
    + apply chars_plain; try lia. exact IH.
    + apply chars_escape; [exact I|exact IH].
    + replace (c :: concat (map utf8 cs)) with (utf8 c ++ concat (map utf8 cs)) by (rewrite utf8_small by lia; reflexivity).
      change (92 :: 117 :: 48 :: 48 :: a :: b :: flat_map esc (concat (map utf8 cs))) with (92 :: 117 :: [48; 48; a; b] ++ flat_map esc (concat (map utf8 cs))).
      apply chars_unicode; [rewrite V; apply hex_small; assumption|exact S0|exact IH].
  - assert (128 <= c <= 1114111) by (unfold scalar in S0; lia). rewrite utf8_same by assumption. apply chars_utf8; [lia|exact S0|exact IH].
Qed.

(** ** The other direction: what is read back *)
Lemma chars_text : forall r d, chars r d -> utf8_text d.
Proof.
  assert (A : forall c d, scalar c -> utf8_text d -> utf8_text (utf8 c ++ d)) by (intros c d S0 (cs & F & ->); exists (c :: cs); split; [constructor; assumption|reflexivity]).
  assert (B : forall c d, 0 <= c <= 127 -> utf8_text d -> utf8_text (c :: d)).
  { intros c d C T. change (c :: d) with ([c] ++ d). rewrite <- utf8_small by lia. apply A; [unfold scalar; lia|exact T]. }
  induction 1 as [|c r d C _ _ _ IH|c r d C S0 _ IH|e c r d I _ IH|h c r d H S0 _ IH|h1 hi h2 lo r d H1 H2 HI LO _ IH].
  - exists []. split; [constructor|reflexivity].
  - apply B; [lia|exact IH].
  - apply A; assumption.
  - apply B; [|exact IH]. cbn in I. repeat (destruct I as [I|I]; [injection I as <- <-; lia|]). destruct I.
  - apply A; assumption.
  - apply A; [unfold scalar; lia|exact IH].
Qed.
Lemma esc_head : forall x, 0 <= x -> esc x = [x] /\ x <> 92 \/ exists r, esc x = 92 :: r.
Proof. intros x X. destruct (printed_all x X) as [c A B D E|c e I E|c a b va vb HA HB V R E]; [left; split; assumption|right; eauto|right; eauto]. Qed.
Definition nonneg (l : list Z) : Prop := Forall (fun c => 0 <= c) l.
Lemma peel : forall s b r, nonneg s -> b <> 92 -> flat_map esc s = b :: r -> exists s', s = b :: s' /\ r = flat_map esc s' /\ nonneg s'.
Proof.
  intros [|x s] b r NN B E; [discriminate E|]. inversion NN as [|? ? X NS]; subst. cbn [flat_map] in E. destruct (esc_head x X) as [(EX & NX)|(q & EX)]; rewrite EX in E; cbn [app] in E; injection E as E1 E2; [|congruence]. subst x. exists s. auto.
Qed.
Lemma peel_all : forall l s r, nonneg s -> Forall (fun b => 128 <= b <= 255) l -> flat_map esc s = l ++ r -> exists s', s = l ++ s' /\ r = flat_map esc s' /\ nonneg s'.
Proof.
  induction l as [|b l IH]; intros s r NS F E; [exists s; cbn in *; auto|]. inversion F as [|? ? B F']; subst. destruct (peel s b (l ++ r) NS ltac:(lia) E) as (s1 & -> & E1 & N1). symmetry in E1. destruct (IH s1 r N1 F' E1) as (s2 & -> & E2 & N2). exists s2. auto.
Qed.
Lemma hex_unique : forall a v w, hex_digit a v -> hex_digit a w -> v = w.
Proof. unfold hex_digit. intros. lia. Qed.
Lemma escapes_fun : forall e c x, In (e, c) escapes -> In (e, x) escapes -> c = x.
Proof.
  intros e c x A B. unfold escapes in A, B. cbn [In] in A, B. repeat (destruct A as [A|A]; [injection A as <- <-|]); try (destruct A); repeat (destruct B as [B|B]; [injection B as J; lia|]); destruct B.
Qed.
Lemma reads_itself : forall raw d, chars raw d -> forall s, nonneg s -> raw = flat_map esc s -> d = s.
Proof.
  induction 1 as [|c r d C N1 N2 _ IH|c r d C S0 _ IH|e c r d I _ IH|h c r d H S0 _ IH|h1 hi h2 lo r d H1 H2 HI LO _ IH]; intros s NS E.
  - destruct s as [|x s]; [reflexivity|]. inversion NS as [|? ? X NS']; subst. cbn [flat_map] in E. destruct (esc_head x X) as [(EX & _)|(q & EX)]; rewrite EX in E; discriminate E.
  - symmetry in E. destruct (peel s c r NS ltac:(lia) E) as (s' & -> & E' & N'). f_equal. apply IH; assumption.
  - symmetry in E. assert (128 <= c <= 1114111) as CC by (unfold scalar in S0; lia). destruct (peel_all (utf8 c) s r NS (utf8_high c CC) E) as (s' & -> & E' & N'). f_equal. apply IH; assumption.
  - destruct s as [|x s]; [discriminate E|]. inversion NS as [|? ? X NS']; subst. cbn [flat_map] in E. destruct (printed_all x X) as [x A B D EX|x e' I' EX|x a b va vb HA HB V R EX]; rewrite EX in E; cbn [app] in E; injection E as E1 E2; [lia| |].
    + assert (c = x) by (subst e'; exact (escapes_fun e c x I I')).
      subst c. f_equal. apply IH; assumption.
    + exfalso. subst e. cbn in I. repeat (destruct I as [I|I]; [discriminate I|]). destruct I.
  - destruct s as [|x s]; [discriminate E|]. inversion NS as [|? ? X NS']; subst. cbn [flat_map] in E. destruct (printed_all x X) as [x A B D EX|x e' I' EX|x a b va vb HA HB V R EX]; rewrite EX in E; cbn [app] in E.
    + injection E as E1 E2. lia.
    + injection E as E1 E2. exfalso. subst e'. cbn in I'. repeat (destruct I' as [I'|I']; [discriminate I'|]). destruct I'.
    + destruct H as [h1 h2 h3 h4 v1 v2 v3 v4 D1 D2 D3 D4]. cbn [app] in E. injection E as E1 E2 E3 E4 E5. subst h1 h2 h3 h4. assert (v1 = 0) by (apply (hex_unique 48); [assumption|hexd]). assert (v2 = 0) by (apply (hex_unique 48); [assumption|hexd]).
      assert (v3 = va) by (eapply hex_unique; eassumption). assert (v4 = vb) by (eapply hex_unique; eassumption). subst v1 v2 v3 v4. replace (4096 * 0 + 256 * 0 + 16 * va + vb) with x by lia. rewrite utf8_small by lia. cbn [app]. f_equal. apply IH; assumption.
  - destruct s as [|x s]; [discriminate E|]. inversion NS as [|? ? X NS']; subst. cbn [flat_map] in E. destruct (printed_all x X) as [x A B D EX|x e' I' EX|x a b va vb HA HB V R EX]; rewrite EX in E; cbn [app] in E.
    + injection E as E1 E2. lia.
    + injection E as E1 E2. exfalso. subst e'. cbn in I'. repeat (destruct I' as [I'|I']; [discriminate I'|]). destruct I'.
    + exfalso. destruct H1 as [g1 g2 g3 g4 v1 v2 v3 v4 D1 D2 D3 D4]. cbn [app] in E. injection E as E1 E2 E3 E4 E5. subst g1 g2 g3 g4. assert (v1 = 0) by (apply (hex_unique 48); [assumption|hexd]). assert (v2 = 0) by (apply (hex_unique 48); [assumption|hexd]).
      unfold hex_digit in D3, D4. lia.
Qed.
