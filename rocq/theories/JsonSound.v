(** * What is accepted is a JSON text, possibly cut short

    For a configuration that neither ignores nor repairs ill-formed UTF-8. *)
Require Import ZArith List Bool Lia.
From Verif Require Import Json JsonSpec JsonProofs JsonChunks JsonLength JsonStrings JsonNumbers JsonComplete
  JsonGrammar JsonStringInv JsonTail.
Import ListNotations.
Open Scope Z_scope.

Definition alnum (c : Z) : Prop := digit c \/ 97 <= c <= 122 \/ 65 <= c <= 90.
Definition is_end (e : event) : Prop := e = (JSON_ARRAY_END, []) \/ e = (JSON_OBJECT_END, []).

(** How [k ++ k2] ends the document: either [k] does, or it stops after a
    letter or digit and only ends of arrays and objects are missing. *)
Definition ended (k k2 : list Z) (evs2 : list event) : Prop :=
  (k2 = [] /\ evs2 = []) \/
  (exists k0 c, k = k0 ++ [c] /\ alnum c) /\ Forall is_end evs2.

Lemma ended_app : forall a k k2 evs2, ended k k2 evs2 -> ended (a ++ k) k2 evs2.
Proof.
  intros a k k2 evs2 [H|[(k0 & c & -> & Hc) H]]; [left; exact H|right].
  split; [|exact H]. exists (a ++ k0), c. split; [rewrite app_assoc; reflexivity|exact Hc].
Qed.

Definition closers (nest : list Z) : list event := map (fun b => (end_type b, [])) nest.

Lemma closers_end : forall nest, Forall is_end (closers nest).
Proof.
  induction nest as [|b nest IH]; constructor; [|exact IH].
  unfold end_type, is_end. destruct (b =? 93); [left|right]; reflexivity.
Qed.

Lemma tail_closers : forall cfg vc nest, Forall (fun b => b = 93 \/ b = 125) nest ->
  tail cfg (after nest) nest vc nest (closers nest).
Proof.
  intros cfg vc nest H. induction H as [|b nest Hb H IH]; [constructor|].
  cbn [closers map]. apply t_close; [exact Hb|right; right; reflexivity|exact IH].
Qed.

Lemma next_end_digit : forall s c s', number_next s c = Some s' -> has s' N_END = true -> is_digit c = true.
Proof.
  intros s c s' H He. unfold number_next in H.
  destruct (is_digit c); [reflexivity|]. rewrite !andb_false_r in H.
  repeat match type of H with
  | (if ?b then _ else _) = _ => destruct b; [inversion H; subst; discriminate He|]
  end. discriminate.
Qed.

Lemma num_last : forall l s c s', num_run s (l ++ [c]) = Some s' -> has s' N_END = true -> is_digit c = true.
Proof.
  intros l s c s' H He. rewrite num_run_app in H. destruct (num_run s l) as [s1|]; [|discriminate].
  cbn [num_run] in H. destruct (number_next s1 c) as [s2|] eqn:En; [|discriminate].
  inversion H; subst. eapply next_end_digit; eassumption.
Qed.

Lemma last_split : forall (l : list Z), l <> [] -> exists a c, l = a ++ [c].
Proof. intros l H. destruct (exists_last H) as (a & c & E). exists a, c. exact E. Qed.

Lemma number_next_ns : forall s ch s', number_next s ch = Some s' -> s' <> 3.
Proof.
  intros s ch s' H. unfold number_next in H.
  repeat (destruct (_ && _) in H; [try (destruct (ch =? 48)); inversion H; subst; discriminate|]).
  discriminate H.
Qed.

Lemma num_run_ns : forall l s s', num_run s l = Some s' -> s <> 3 -> s' <> 3.
Proof.
  induction l as [|c l IH]; intros s s' H Hs; cbn [num_run] in H; [inversion H; subst; exact Hs|].
  destruct (number_next s c) as [s1|] eqn:E; [|discriminate].
  eapply IH; [exact H|]. eapply number_next_ns. exact E.
Qed.

Section P.
Context {U : Type}.
Variable cfg : jconfig.
Variable cb : jtype -> list Z -> U -> Z * U.
Hypothesis Hcfg : 0 <= max_number_len cfg /\ 0 <= max_string_len cfg /\ 0 <= max_key_len cfg.
Hypothesis Hstrict : forall t, ign_of cfg t = false /\ fix_of cfg t = false.
Implicit Types p q : parser U.

Local Notation bstep := (bstep cfg cb).
Local Notation bsteps := (bsteps cfg cb).
Local Notation dl := (dl cb).
Local Notation tail := (tail cfg).

Definition Fin p (code : Z) (u : U) : Prop :=
  exists pos, json_fini cfg cb p = Some (code, pos, u) /\ 0 <= code.

Lemma fin_ok : forall p code u, Fin p code u -> 0 <= p_err p /\ p_st p <> 0.
Proof.
  intros p code u (pos & H & Hc). unfold json_fini in H.
  destruct (p_st p =? ST_UNINITED) eqn:E0.
  - inversion H; subst. exfalso; apply Hc; reflexivity.
  - apply Z.eqb_neq in E0. split; [|exact E0]. destruct (p_err p <? 0) eqn:E; [|lia].
    inversion H; subst. lia.
Qed.

Lemma process_ok : forall p t d, is_closer_type t = false -> 0 <= p_vcount p -> 0 <= p_err (process cfg cb p t d) ->
  0 <= p_err p /\ one_more cfg t (p_vcount p).
Proof.
  intros p t d Hc Hv H. unfold process in H. rewrite Hc in H.
  assert (forall e, e < 0 -> 0 <= p_err (raise_v p e) -> False) as Hr.
  { intros e He K. pose proof (raise_at_err p e (p_vpos p) He). unfold raise_v in K. lia. }
  destruct (p_err p <? 0) eqn:E0; [lia|]. split; [lia|].
  destruct ((p_vcount p =? 0) && root_refused cfg t) eqn:E1; [exfalso; eapply Hr; [|exact H]; reflexivity|].
  destruct (negb (max_total_values cfg =? 0) && (max_total_values cfg <=? p_vcount p)) eqn:E2;
    [exfalso; eapply Hr; [|exact H]; reflexivity|].
  split.
  - intros Z0. rewrite Z0 in E1. exact E1.
  - unfold at_most. apply andb_false_iff in E2. destruct E2 as [E2|E2].
    + left. apply negb_false_iff in E2. lia.
    + right. lia.
Qed.

Lemma new_line_err : forall p ch, p_err (new_line p ch) = p_err p.
Proof. intros p ch. unfold new_line. destruct (ch =? 13); [reflexivity|]. destruct (ch =? 10); reflexivity. Qed.

(** ** The end of the input in a string *)
Lemma fin_string : forall t p code u, str_auto t (p_auto p) -> Fin p code u -> False.
Proof.
  intros t p code u Ha HF. pose proof (fin_ok _ _ _ HF) as [He Hst].
  destruct HF as (pos & H & Hc). unfold json_fini in H.
  replace (p_st p =? ST_UNINITED) with false in H by (symmetry; apply Z.eqb_neq; exact Hst).
  replace (p_err p <? 0) with false in H by (symmetry; apply Z.ltb_ge; exact He).
  assert (forall m e, limited m p [] = [] /\ string_auto cfg cb (ign_of cfg t) (fix_of cfg t) t m e p None =
     Some (raise_v (if over_long (if 0 <? m then m + 1 else m) p then raise_v p e else p) ERR_UNCLOSEDSTRING, 0%nat)) as K.
  { intros m e. assert (forall m, limited m p [] = []) as Hl.
    { intros m0. unfold limited. rewrite firstn_nil. destruct (_ && _); reflexivity. }
    split; [apply Hl|]. unfold string_auto. rewrite Hl. reflexivity. }
  assert (forall e (q : parser U), e < 0 -> p_err (raise_v q e) < 0) as Hr.
  { intros e q Hq. apply raise_at_err. exact Hq. }
  assert (forall (x : parser U), p_err x < 0 ->
    (match p_auto (with_pos x (JPos (p_off (p_pos x) + Z.of_nat 0) (p_line (p_pos x)) (p_col (p_pos x)))) with
     | A_MAIN => Some (p_err x, (if 0 <=? p_err x then JPos (p_off (p_pos x) + Z.of_nat 0) (p_line (p_pos x)) (p_col (p_pos x)) else p_epos x), p_user x)
     | _ => let y := raise (with_pos x (JPos (p_off (p_pos x) + Z.of_nat 0) (p_line (p_pos x)) (p_col (p_pos x)))) ERR_SYNTAX in
         Some (p_err y, (if 0 <=? p_err y then p_pos y else p_epos y), p_user y)
     end) = Some (code, pos, u) -> False) as Hend.
  { intros x Hx G. assert (code < 0); [|lia].
    pose proof (raise_at_err (with_pos x (JPos (p_off (p_pos x) + Z.of_nat 0) (p_line (p_pos x)) (p_col (p_pos x)))) ERR_SYNTAX
      (p_pos (with_pos x (JPos (p_off (p_pos x) + Z.of_nat 0) (p_line (p_pos x)) (p_col (p_pos x))))) eq_refl) as Hr2.
    match type of G with (match ?a with _ => _ end) = _ => destruct a end; inversion G; subst; try exact Hx; exact Hr2. }
  destruct Ha as [[-> Ha]|[-> Ha]]; rewrite Ha in H; unfold dispatch in H; rewrite Ha in H.
  - destruct (K (max_string_len cfg) ERR_MAXSTRINGLEN) as [_ K2]. unfold ign_of, fix_of in K2. rewrite K2 in H.
    eapply Hend; [|exact H]. apply Hr. reflexivity.
  - destruct (K (max_key_len cfg) ERR_MAXKEYLEN) as [_ K2]. unfold ign_of, fix_of in K2. rewrite K2 in H.
    eapply Hend; [|exact H]. apply Hr. reflexivity.
Qed.

(** ** The end of the input in a number or literal *)
Lemma fin_process : forall p q t d st nest vc r code u,
  p_auto p <> A_MAIN -> dispatch cfg cb p None = Some (process cfg cb q t d, 0%nat) ->
  is_closer_type t = false -> 0 <= fst r ->
  p_err q = fst r -> p_user q = snd r -> p_st q = st -> st <> 0 -> p_nest q = nest -> p_vcount q = vc -> 0 <= vc ->
  p_cp0 q = 0 -> p_cp1 q = 0 ->
  Fin p code u -> one_more cfg t vc /\ (code, u) = dl r [(t, d)].
Proof.
  intros p q t d st nest vc r code u Hm Hd Hct Hr E1 E2 E3 Hst E4 E5 Hvc E6 E7 HF.
  pose proof (fin_ok _ _ _ HF) as [He Hst0]. destruct HF as (pos & H & Hc). unfold json_fini in H.
  replace (p_st p =? ST_UNINITED) with false in H by (symmetry; apply Z.eqb_neq; exact Hst0).
  replace (p_err p <? 0) with false in H by (symmetry; apply Z.ltb_ge; exact He).
  rewrite Hd in H. set (x := process cfg cb q t d) in *.
  assert (0 <= p_err x /\ code = p_err x /\ u = p_user x) as (Hx & -> & ->).
  { set (y := with_pos x (JPos (p_off (p_pos x) + Z.of_nat 0) (p_line (p_pos x)) (p_col (p_pos x)))) in *.
    pose proof (raise_at_err y ERR_SYNTAX (p_pos y) eq_refl) as Hr2.
    assert (p_err y = p_err x /\ p_user y = p_user x) as [Y1 Y2] by (split; reflexivity).
    destruct (p_auto p); try congruence; destruct (p_auto y); inversion H; subst; unfold raise in *;
      try (exfalso; lia); rewrite Y1, Y2 in *; repeat split; lia. }
  destruct (process_ok q t d Hct ltac:(lia) Hx) as [_ Hone]. rewrite E5 in Hone.
  split; [exact Hone|]. rewrite dl_one by exact Hr.
  pose proof (M_process cfg cb q t d ltac:(lia) E6 E7 ltac:(congruence)
    ltac:(intros _ Z0; apply Hone; congruence) ltac:(lia) ltac:(intros _; rewrite E5; apply Hone)) as (M1 & M2 & _).
  fold x in M1, M2. rewrite E2 in M1, M2. rewrite M1, M2. symmetry. apply surjective_pairing.
Qed.

Lemma fin_lit : forall p t lit, lit_of (p_auto p) = Some (t, lit) -> p_auto p <> A_MAIN /\ is_closer_type t = false /\
  dispatch cfg cb p None = Some (process cfg cb p t [], 0%nat).
Proof.
  intros p t lit H. assert (forall l, literal_loop l p [] 0 = (p, Some ([], 0%nat))) as K.
  { intros l. destruct l; cbn [literal_loop]; destruct (_ <=? _); reflexivity. }
  unfold dispatch, literal_auto. destruct (p_auto p); cbn in H; inversion H; subst; rewrite ?K;
    (split; [discriminate|split; reflexivity]).
Qed.

Lemma fin_number : forall p code u, p_auto p = A_NUMBER -> p_sub p <> 0 -> Fin p code u ->
  has (p_sub p) N_END = true /\ dispatch cfg cb p None = Some (process cfg cb p JSON_NUMBER (p_buf p), 0%nat).
Proof.
  intros p code u Ha Hs HF.
  pose proof (fin_ok _ _ _ HF) as [He Hst]. destruct HF as (pos & H & Hc). unfold json_fini in H.
  replace (p_st p =? ST_UNINITED) with false in H by (symmetry; apply Z.eqb_neq; exact Hst).
  replace (p_err p <? 0) with false in H by (symmetry; apply Z.ltb_ge; exact He).
  rewrite Ha in H. unfold dispatch in *. rewrite Ha in *. unfold number_auto in *.
  replace (limited (max_number_len cfg) p []) with (@nil Z) in *.
  2:{ unfold limited. rewrite firstn_nil. destruct (_ && _); reflexivity. }
  replace (p_sub p =? 0) with false in * by lia. cbn [number_loop] in *.
  destruct (over_long (max_number_len cfg) p) eqn:Eo.
  - exfalso. pose proof (raise_at_err p ERR_MAXNUMBERLEN (p_vpos p) eq_refl) as Hr. fold (raise_v p ERR_MAXNUMBERLEN) in Hr.
    replace (0 <=? p_err (raise_v p ERR_MAXNUMBERLEN)) with false in H by lia. cbn [andb] in H.
    set (z := raise_v (raise_v p ERR_MAXNUMBERLEN) ERR_SYNTAX) in *.
    assert (p_err z < 0) by (apply raise_at_err; reflexivity).
    set (y := with_pos z _) in H. assert (p_err y < 0) by exact H0.
    assert (p_err (raise y ERR_SYNTAX) < 0) by (apply raise_at_err; reflexivity).
    destruct (p_auto y); inversion H; subst; lia.
  - replace (0 <=? p_err p) with true in * by lia. cbn [andb] in *.
    destruct (has (p_sub p) N_END) eqn:En; [split; reflexivity|]. exfalso.
    set (z := raise_v p ERR_SYNTAX) in *.
    assert (p_err z < 0) by (apply raise_at_err; reflexivity).
    set (y := with_pos z _) in H. assert (p_err y < 0) by exact H0.
    assert (p_err (raise y ERR_SYNTAX) < 0) by (apply raise_at_err; reflexivity).
    destruct (p_auto y); inversion H; subst; lia.
Qed.

(** ** Numbers *)

Lemma number_inv : forall k p0 j l s p, p_auto p0 = A_NUMBER -> 0 <= p_err p0 -> num_at p0 j l s p ->
  s <> 0 -> at_most j (max_number_len cfg) -> 0 <= p_err (bsteps p k) ->
  (exists l2 c k' s', k = l2 ++ c :: k' /\ num_run s l2 = Some s' /\ at_most (j + len l2) (max_number_len cfg) /\
     number_next s' c = None /\ has s' N_END = true /\ is_boundary c = true) \/
  (exists s', num_run s k = Some s' /\ s' <> 0 /\ at_most (j + len k) (max_number_len cfg) /\
     num_at p0 (j + len k) (l ++ k) s' (bsteps p k)).
Proof.
  induction k as [|c k IH]; intros p0 j l s p Ha He H Hs Hm Hok.
  - right. exists s. split; [reflexivity|]. split; [exact Hs|]. replace (len []) with 0 by reflexivity.
    rewrite Z.add_0_r, app_nil_r. split; [exact Hm|exact H].
  - change (bsteps p (c :: k)) with (bsteps (bstep p c) k) in Hok |- *.
    pose proof (steps_ok cfg cb k _ Hok) as O1.
    pose proof H as [(S1 & _ & _ & _ & _ & S6 & _) N1 N2 N3 N4].
    rewrite (bstep_number cfg cb p c) in O1 by congruence. rewrite (bstep_number cfg cb p c) in Hok |- * by congruence.
    destruct (number_next s c) as [s1|] eqn:En.
    + assert (at_most (j + 1) (max_number_len cfg)) as Hm1.
      { unfold number_byte in O1. rewrite N1, En in O1.
        set (x := advance (with_sub (number_sub p) s1) 1) in *.
        destruct (Z_lt_le_dec (p_err (chk (max_number_len cfg) ERR_MAXNUMBERLEN x)) 0) as [F|F].
        - replace (0 <=? p_err (chk (max_number_len cfg) ERR_MAXNUMBERLEN x)) with false in O1 by lia.
          cbn [orb] in O1. lia.
        - destruct (chk_eq (max_number_len cfg) ERR_MAXNUMBERLEN x ltac:(reflexivity) F) as [_ G]. unfold x in G.
          rewrite consumed_advance in G.
          change (consumed (with_sub (number_sub p) s1)) with (consumed (number_sub p)) in G.
          replace (consumed (number_sub p)) with (consumed p) in G by (unfold number_sub; destruct (p_sub p =? 0); reflexivity).
          rewrite N3 in G. exact G. }
      destruct (num_step cfg cb p0 j l s p c s1 Ha He H En Hm1) as [A B].
      destruct (number_byte cfg cb p c) as [p1 dn]. cbn [fst snd] in A, B. subst dn. cbn [orb] in Hok |- *.
      destruct (IH _ _ _ _ _ Ha He A (number_next_nz _ _ _ En) Hm1 Hok)
        as [(l2 & c2 & k' & s' & -> & R1 & R2 & R3 & R4 & R5)|(s' & R1 & R2 & R3 & R4)].
      * left. exists (c :: l2), c2, k', s'. split; [reflexivity|]. split; [cbn [num_run]; rewrite En; exact R1|].
        rewrite len_cons, Z.add_assoc. repeat split; assumption.
      * right. exists s'. split; [cbn [num_run]; rewrite En; exact R1|]. split; [exact R2|].
        rewrite len_cons, Z.add_assoc. split; [exact R3|].
        replace (l ++ c :: k) with ((l ++ [c]) ++ k) by (rewrite <- app_assoc; reflexivity). exact R4.
    + left. exists [], c, k, s. replace (len []) with 0 by reflexivity. rewrite Z.add_0_r.
      split; [reflexivity|]. split; [reflexivity|]. split; [exact Hm|]. split; [exact En|].
      unfold number_byte in O1. rewrite N1, En in O1.
      destruct (has s N_END && is_boundary c) eqn:Eb.
      * apply andb_true_iff in Eb. exact Eb.
      * exfalso. cbn [orb] in O1.
        assert (p_err (raise_v (number_sub p) ERR_SYNTAX) < 0) by (apply raise_at_err; reflexivity). lia.
Qed.

(** ** Literals *)

Lemma lit_prefix : forall k a t lit1 lit3 p, lit_of a = Some (t, lit1 ++ k ++ lit3) -> p_auto p = a -> 0 <= p_err p ->
  p_sub p = Z.of_nat (length lit1) ->
  same p (bsteps p k) /\ p_sub (bsteps p k) = Z.of_nat (length (lit1 ++ k)) /\
  p_cp0 (bsteps p k) = p_cp0 p /\ p_cp1 (bsteps p k) = p_cp1 p.
Proof.
  induction k as [|c k IH]; intros a t lit1 lit3 p Hl Ha He Hs.
  - rewrite app_nil_r. repeat split. exact Hs.
  - change (bsteps p (c :: k)) with (bsteps (bstep p c) k).
    assert (bstep p c = with_sub (advance p 1) (p_sub p + 1)) as Hb.
    { unfold JsonProofs.bstep. replace (p_err p <? 0) with false by (symmetry; apply Z.ltb_ge; exact He).
      set (lit := lit1 ++ (c :: k) ++ lit3) in *.
      assert (sub_byte cfg cb p c = literal_byte cfg cb t lit p c) as Hsb.
      { unfold sub_byte. rewrite Ha. destruct a; cbn in Hl; inversion Hl; reflexivity. }
      assert (literal_byte cfg cb t lit p c = (with_sub (advance p 1) (p_sub p + 1), true)) as Hlb.
      { unfold literal_byte. rewrite Hs.
        replace (Z.of_nat (length lit) <=? Z.of_nat (length lit1)) with false.
        2:{ symmetry. apply Z.leb_gt. unfold lit. rewrite app_length. cbn [length app]. lia. }
        unfold lit. cbn [app]. rewrite Nat2Z.id, nth_middle, Z.eqb_refl. reflexivity. }
      destruct (p_auto p) eqn:Ea; try (rewrite Hsb, Hlb; reflexivity). subst a. discriminate. }
    rewrite Hb.
    destruct (IH a t (lit1 ++ [c]) lit3 (with_sub (advance p 1) (p_sub p + 1))) as (A & B & C & D).
    + rewrite <- app_assoc. exact Hl.
    + exact Ha.
    + exact He.
    + cbn. rewrite Hs, app_length. cbn. lia.
    + cbn [p_cp0 p_cp1 with_sub advance with_pos] in C, D. rewrite <- app_assoc in B. cbn [app] in B.
      split; [|repeat split; assumption]. eapply same_trans; [|exact A]. repeat split.
Qed.

Lemma lit_inv2 : forall k a t lit1 lit2 p, lit_of a = Some (t, lit1 ++ lit2) -> p_auto p = a ->
  p_sub p = Z.of_nat (length lit1) -> 0 <= p_err (bsteps p k) ->
  (exists c k', k = lit2 ++ c :: k' /\ is_boundary c = true) \/ (exists lit3, lit2 = k ++ lit3).
Proof.
  induction k as [|c k IH]; intros a t lit1 lit2 p Hl Ha Hs Hok; [right; exists lit2; reflexivity|].
  pose proof (steps_ok cfg cb k (bstep p c) Hok) as O1.
  pose proof (steps_ok cfg cb (c :: k) p Hok) as O0.
  set (lit := lit1 ++ lit2) in *.
  assert (sub_byte cfg cb p c = literal_byte cfg cb t lit p c) as Hsb.
  { unfold sub_byte. rewrite Ha. destruct a; cbn in Hl; inversion Hl; reflexivity. }
  assert (bstep p c = let '(p1, done) := literal_byte cfg cb t lit p c in
            if done || (p_err p1 <? 0) then p1 else main_byte cfg cb p1 c) as Hb.
  { unfold JsonProofs.bstep. replace (p_err p <? 0) with false by (symmetry; apply Z.ltb_ge; exact O0).
    rewrite Hsb. destruct (p_auto p); try reflexivity. subst a. discriminate Hl. }
  rewrite Hb in O1. unfold literal_byte in O1. rewrite Hs in O1.
  destruct lit2 as [|e lit2].
  - left. exists c, k. split; [reflexivity|].
    replace (Z.of_nat (length lit) <=? Z.of_nat (length lit1)) with true in O1
      by (unfold lit; rewrite app_nil_r; symmetry; apply Z.leb_refl).
    destruct (is_boundary c); [reflexivity|]. exfalso. cbn [orb] in O1.
    assert (p_err (raise (with_pos p (p_vpos p)) ERR_SYNTAX) < 0) by (apply raise_at_err; reflexivity). lia.
  - replace (Z.of_nat (length lit) <=? Z.of_nat (length lit1)) with false in O1.
    2:{ symmetry. apply Z.leb_gt. unfold lit. rewrite app_length. cbn [length]. lia. }
    assert (nth (Z.to_nat (Z.of_nat (length lit1))) lit 0 = e) as Hn
      by (unfold lit; rewrite Nat2Z.id, nth_middle; reflexivity).
    rewrite Hn in O1. destruct (c =? e) eqn:Ee.
    2:{ exfalso. cbn [negb orb] in O1. assert (p_err (raise_v p ERR_SYNTAX) < 0) by (apply raise_at_err; reflexivity). lia. }
    apply Z.eqb_eq in Ee. subst e.
    destruct (IH a t (lit1 ++ [c]) lit2 (bstep p c)) as [(c2 & k' & -> & B)|(lit3 & ->)].
    + unfold lit in Hl. rewrite <- app_assoc. exact Hl.
    + destruct (lit_prefix [c] a t lit1 lit2 p Hl Ha O0 Hs) as ((_ & _ & _ & _ & _ & S6 & _) & _). rewrite <- Ha. exact S6.
    + apply (lit_prefix [c] a t lit1 lit2 p Hl Ha O0 Hs).
    + exact Hok.
    + left. exists c2, k'. split; [reflexivity|exact B].
    + right. exists lit3. reflexivity.
Qed.

Lemma pend_ok : forall t d st nest vc r p c, pend cfg t d st nest vc r p -> 0 <= fst r ->
  is_boundary c = true -> 0 <= vc -> (t = JSON_NUMBER -> number_next (p_sub p) c = None) ->
  0 <= p_err (bstep p c) -> one_more cfg t vc.
Proof.
  intros t d st nest vc r p c (Hk & E1 & E2 & E3 & E4 & E5 & E6 & E7) E Hb Hv Hnn Hok.
  assert (forall q, p_vcount q = p_vcount p -> is_closer_type t = false ->
     0 <= p_err (let '(p1, dn) := (process cfg cb q t d, false) in
                 if dn || (p_err p1 <? 0) then p1 else main_byte cfg cb p1 c) -> one_more cfg t vc) as K.
  { intros q Q Hc H. cbn [orb] in H. destruct (p_err (process cfg cb q t d) <? 0) eqn:F; [lia|].
    rewrite <- E5, <- Q. eapply process_ok; [exact Hc|lia|]. apply Z.ltb_ge in F. exact F. }
  destruct Hk as [(-> & A1 & A2 & A3 & A4)|(lit & Hl & -> & A2)].
  - rewrite (bstep_number cfg cb p c A1) in Hok by lia. unfold number_byte in Hok.
    assert (p_sub p <> 0) as Hnz by (intros F; rewrite F in A2; discriminate).
    assert (number_sub p = p) as Hns.
    { unfold number_sub. replace (p_sub p =? 0) with false by (symmetry; apply Z.eqb_neq; exact Hnz). reflexivity. }
    rewrite Hns, (Hnn eq_refl), A2, Hb, A3 in Hok. cbn [andb] in Hok. eapply K; [|reflexivity|exact Hok]. reflexivity.
  - unfold JsonProofs.bstep in Hok. replace (p_err p <? 0) with false in Hok by (symmetry; apply Z.ltb_ge; lia).
    assert (sub_byte cfg cb p c = (process cfg cb p t [], false)) as Hsb.
    { unfold sub_byte. destruct (p_auto p); cbn in Hl; inversion Hl; subst; unfold literal_byte;
        rewrite A2, Z.leb_refl, Hb; reflexivity. }
    destruct (fin_lit p t lit Hl) as (_ & Hc & _).
    destruct (p_auto p) eqn:Ea; try discriminate Hl; rewrite Hsb in Hok; eapply (K p); (reflexivity || assumption).
Qed.

(** ** The main automaton *)

Definition stok (st : Z) (nest : list Z) : Prop :=
  Forall (fun b => b = 93 \/ b = 125) nest /\
  (value_state st \/ open_state JSON_KEY st \/ st = CC \/ st = CAN_SEE_COLON \/ st = CAN_SEE_EOF) /\
  (has st CAN_SEE_CLOSER = true -> nest <> []).

Lemma stok_after : forall nest, Forall (fun b => b = 93 \/ b = 125) nest -> stok (after nest) nest.
Proof.
  intros nest A. split; [exact A|]. destruct nest as [|b nest].
  - split; [right; right; right; right; reflexivity|discriminate].
  - split; [right; right; left; reflexivity|discriminate].
Qed.

Ltac five H := destruct H as [[->| ->]|[[->| ->]|[->|[->| ->]]]].

Definition Reads (k : list Z) (st : Z) (nest : list Z) (vc : Z) (r : Z * U) (code : Z) (u : U) : Prop :=
  exists k2 evs evs2, tail st nest vc (k ++ k2) (evs ++ evs2) /\ (code, u) = dl r evs /\ ended k k2 evs2.

Definition Claim (N : nat) : Prop := forall k st nest vc r p code u, (length k <= N)%nat ->
  M st nest vc r p -> 0 <= fst r -> stok st nest -> 0 <= vc -> Forall byte k -> Fin (bsteps p k) code u ->
  Reads k st nest vc r code u.

Lemma reads_more : forall a k st nest vc r t d st' nest' vc' r' code u,
  Reads k st' nest' vc' r' code u -> r' = dl r [(t, d)] ->
  (forall k' evs, tail st' nest' vc' k' evs -> tail st nest vc (a ++ k') ((t, d) :: evs)) ->
  Reads (a ++ k) st nest vc r code u.
Proof.
  intros a k st nest vc r t d st' nest' vc' r' code u (k2 & evs & evs2 & H & E & Hend) -> Ht.
  exists k2, ((t, d) :: evs), evs2. split; [rewrite <- app_assoc; apply (Ht _ (evs ++ evs2)); exact H|].
  split; [change ((t, d) :: evs) with ([(t, d)] ++ evs); rewrite dl_app; exact E|].
  apply ended_app. exact Hend.
Qed.

Lemma reads_skip : forall a k st nest vc r st' nest' vc' code u,
  Reads k st' nest' vc' r code u ->
  (forall k' evs, tail st' nest' vc' k' evs -> tail st nest vc (a ++ k') evs) ->
  Reads (a ++ k) st nest vc r code u.
Proof.
  intros a k st nest vc r st' nest' vc' code u (k2 & evs & evs2 & H & E & Hend) Ht.
  exists k2, evs, evs2. split; [rewrite <- app_assoc; apply Ht; exact H|]. split; [exact E|].
  apply ended_app. exact Hend.
Qed.

(** If the text goes on to be accepted, the callback has not refused. *)
Lemma M_go : forall st nest vc r p k code u, M st nest vc r p -> Fin (bsteps p k) code u -> 0 <= fst r.
Proof.
  intros st nest vc r p k code u (A & _) HF. apply fin_ok in HF. destruct HF as [HF _].
  apply steps_ok in HF. lia.
Qed.

(** A number or literal followed by something. *)
Lemma reads_pend : forall N l v t d c k st nest vc r p code u,
  Claim N -> (length (c :: k) <= N)%nat ->
  pend cfg t d st nest vc r (bsteps p l) -> scalar_text cfg l v t d ->
  0 <= fst r -> value_state st -> stok st nest -> 0 <= vc -> Forall byte (c :: k) ->
  is_boundary c = true -> (t = JSON_NUMBER -> number_next (p_sub (bsteps p l)) c = None) ->
  Fin (bsteps p (l ++ c :: k)) code u -> Reads (l ++ c :: k) st nest vc r code u.
Proof.
  intros N l v t d c k st nest vc r p code u HC HN Hp Hsc Hr Hs Hok Hvc HB Hb Hnn HF.
  rewrite bsteps_app in HF. change (bsteps (bsteps p l) (c :: k)) with (bsteps (bstep (bsteps p l) c) k) in HF.
  pose proof (steps_ok cfg cb _ _ (proj1 (fin_ok _ _ _ HF))) as O1.
  pose proof (pend_ok _ _ _ _ _ _ _ _ Hp Hr Hb Hvc Hnn O1) as Hone.
  destruct (pend_step cfg cb t d st nest vc r (bsteps p l) c Hp Hr Hs Hb Hvc (proj1 Hone) (proj2 Hone) Hnn)
    as (q & Q1 & Q2).
  rewrite Q1 in HF. change (bsteps (bstep q c) k) with (bsteps q (c :: k)) in HF.
  eapply reads_more; [|reflexivity|].
  - eapply HC; [exact HN|exact Q2| | | |exact HB|exact HF].
    + eapply M_go; [exact Q2|exact HF].
    + apply stok_after. apply Hok.
    + lia.
  - intros k' evs Ht. eapply t_scalar; eassumption.
Qed.

(** A number or literal at the end. *)
Lemma reads_end : forall k l3 v t d st nest vc r code u,
  scalar_text cfg (k ++ l3) v t d -> value_state st -> stok st nest ->
  one_more cfg t vc -> (code, u) = dl r [(t, d)] -> (exists k0 c, k = k0 ++ [c] /\ alnum c) ->
  Reads k st nest vc r code u.
Proof.
  intros k l3 v t d st nest vc r code u Hsc Hs (Hn & _) Hone E Hal.
  exists (l3 ++ nest), [(t, d)], (closers nest).
  split; [rewrite app_assoc; cbn [app]; eapply t_scalar; try eassumption; apply tail_closers; exact Hn|].
  split; [exact E|]. right. split; [exact Hal|apply closers_end].
Qed.

Lemma claim_number : forall N c k st nest vc r p code u, Claim N -> (length k <= N)%nat ->
  M st nest vc r p -> 0 <= fst r -> value_state st -> stok st nest -> 0 <= vc -> Forall byte (c :: k) ->
  is_digit c || (c =? 45) = true -> Fin (bsteps p (c :: k)) code u -> Reads (c :: k) st nest vc r code u.
Proof.
  intros N c k st nest vc r p code u HC HN H E Hs Hok Hvc HB Hc HF.
  pose proof (proj1 (fin_ok _ _ _ HF)) as Ok.
  change (bsteps p (c :: k)) with (bsteps (bstep p c) k) in Ok.
  pose proof H as (A & B & C & D). destruct (D E) as (E1 & E2 & E3 & E4 & E5 & E6).
  set (p1 := switch p A_NUMBER).
  assert (bstep p c = fst (number_byte cfg cb p1 c)) as Hbs.
  { rewrite (M_step cfg cb _ _ _ _ _ _ H E). unfold main_byte.
    rewrite (first_byte_number cfg cb st p c Hs E2 Hc). fold p1.
    replace (p_err p1 <? 0) with false by (symmetry; apply Z.ltb_ge; change (p_err p1) with (p_err p); lia).
    reflexivity. }
  assert (exists s1, number_next S0 c = Some s1) as (s1 & En).
  { rewrite next0. destruct (c =? 45); [eexists; reflexivity|]. rewrite orb_false_r in Hc. rewrite Hc.
    destruct (c =? 48); eexists; reflexivity. }
  assert (num_at p1 0 [] S0 p1) as H1.
  { constructor; try reflexivity; try apply same_refl; [unfold consumed; cbn; lia|split; reflexivity]. }
  pose proof (steps_ok cfg cb k _ Ok) as O1.
  assert (at_most 1 (max_number_len cfg)) as Hm1.
  { rewrite Hbs in O1. unfold number_byte in O1. change (p_sub (number_sub p1)) with S0 in O1. rewrite En in O1.
    set (x := advance (with_sub (number_sub p1) s1) 1) in *.
    destruct (Z_lt_le_dec (p_err (chk (max_number_len cfg) ERR_MAXNUMBERLEN x)) 0) as [F|F].
    - replace (0 <=? p_err (chk (max_number_len cfg) ERR_MAXNUMBERLEN x)) with false in O1 by lia.
      cbn [fst] in O1. lia.
    - destruct (chk_eq (max_number_len cfg) ERR_MAXNUMBERLEN x ltac:(reflexivity) F) as [_ G]. unfold x in G.
      rewrite consumed_advance in G. change (consumed (with_sub (number_sub p1) s1)) with (consumed p1) in G.
      replace (consumed p1) with 0 in G by (unfold consumed; cbn; lia). exact G. }
  assert (p_err p1 = fst r) as He1 by exact A.
  destruct (num_step cfg cb p1 0 [] S0 p1 c s1 eq_refl ltac:(lia) H1 En Hm1) as [K _].
  rewrite Hbs in Ok.
  destruct (number_inv k p1 1 [c] s1 _ eq_refl ltac:(lia) K (number_next_nz _ _ _ En) Hm1 Ok)
    as [(l2 & c2 & k' & s' & -> & R1 & R2 & R3 & R4 & R5)|(s' & R1 & R2 & R3 & R4)].
  - assert (num_run S0 (c :: l2) = Some s') as Hrun by (cbn [num_run]; rewrite En; exact R1).
    assert (number (c :: l2)) as Hnum by (apply L0; exists s'; split; assumption).
    assert (at_most (len (c :: l2)) (max_number_len cfg)) as Hlen by (rewrite len_cons; exact R2).
    pose proof (M_number cfg cb (c :: l2) st nest vc r p Hnum Hs H E Hlen) as Hp.
    change (c :: l2 ++ c2 :: k') with ((c :: l2) ++ c2 :: k') in *.
    eapply reads_pend; [exact HC| |exact Hp|constructor; eassumption|exact E|exact Hs|exact Hok|exact Hvc| |exact R5| |exact HF].
    + rewrite app_length in HN. cbn [length] in HN |- *. lia.
    + apply Forall_app in HB. apply HB.
    + intros _.
      pose proof (num_steps cfg cb l2 p1 1 [c] s1 _ s' eq_refl ltac:(lia) K R1 R2) as K2.
      change (bsteps p (c :: l2)) with (bsteps (bstep p c) l2). rewrite Hbs.
      destruct K2 as [_ N1 _ _ _]. unfold number_sub in N1.
      destruct (p_sub (bsteps (fst (number_byte cfg cb p1 c)) l2) =? 0) eqn:E0.
      * cbn in N1. subst s'. discriminate R4.
      * rewrite N1. exact R3.
  - assert (num_run S0 (c :: k) = Some s') as Hrun by (cbn [num_run]; rewrite En; exact R1).
    change (bsteps p (c :: k)) with (bsteps (bstep p c) k) in HF. rewrite Hbs in HF.
    set (q := bsteps (fst (number_byte cfg cb p1 c)) k) in *.
    destruct R4 as [(T1 & T2 & T3 & T4 & T5 & T6 & _) K1 K2 K3 (K4 & K5)].
    unfold number_sub in K1. destruct (p_sub q =? 0) eqn:E0.
    { (* the substate cannot be 0 *)
      exfalso. assert (p_auto q = A_NUMBER) as Hq by exact T6.
      cbn in K1. eapply (num_run_ns k s1 s' R1); [eapply number_next_ns; exact En|symmetry; exact K1]. }
    rewrite K1 in *.
    destruct (fin_number q code u T6 ltac:(lia) HF) as [Hend Hd]. rewrite K1 in Hend.
    rewrite K2 in Hd. change (([c] ++ k)) with (c :: k) in Hd.
    assert (number (c :: k)) as Hnum by (apply L0; exists s'; split; assumption).
    destruct (fin_process q q JSON_NUMBER (c :: k) st nest vc r code u) as [Hone Hdl]; try assumption.
    + change (p_auto p1) with A_NUMBER in T6. congruence.
    + reflexivity.
    + change (p_err p1) with (p_err p) in T1. congruence.
    + change (p_user p1) with (p_user p) in T2. congruence.
    + change (p_st p1) with (p_st p) in T3. congruence.
    + destruct Hs as [-> | ->]; discriminate.
    + change (p_nest p1) with (p_nest p) in T4. congruence.
    + change (p_vcount p1) with (p_vcount p) in T5. congruence.
    + change (p_cp0 p1) with (p_cp0 p) in K4. congruence.
    + change (p_cp1 p1) with (p_cp1 p) in K5. congruence.
    + eapply (reads_end (c :: k) []); [rewrite app_nil_r; constructor; [exact Hnum|rewrite len_cons; exact R3]
        |exact Hs|exact Hok|exact Hone|exact Hdl|].
      destruct (last_split (c :: k) ltac:(discriminate)) as (a & x & Ex). exists a, x. split; [exact Ex|].
      rewrite Ex in Hrun. left. apply digit_spec. eapply num_last; eassumption.
Qed.

Lemma lit_letters : forall a t lit, lit_of a = Some (t, lit) -> Forall (fun c => 97 <= c <= 122) lit /\
  exists v, scalar_text cfg lit v t [].
Proof.
  intros a t lit H. destruct a; cbn in H; inversion H; subst;
    (split; [repeat constructor; lia|eexists; constructor]).
Qed.

Lemma claim_literal : forall N a t c lit' k st nest vc r p code u, Claim N -> (length k <= N)%nat ->
  lit_of a = Some (t, c :: lit') -> M st nest vc r p -> 0 <= fst r -> value_state st -> stok st nest -> 0 <= vc ->
  Forall byte (c :: k) -> Fin (bsteps p (c :: k)) code u -> Reads (c :: k) st nest vc r code u.
Proof.
  intros N a t c lit' k st nest vc r p code u HC HN Hl H E Hs Hok Hvc HB HF.
  pose proof (proj1 (fin_ok _ _ _ HF)) as Ok.
  change (bsteps p (c :: k)) with (bsteps (bstep p c) k) in Ok.
  pose proof H as (A & B & C & D). destruct (D E) as (E1 & E2 & E3 & E4 & E5 & E6).
  set (p1 := switch p a).
  assert (p_err p1 = fst r) as He by exact A.
  assert (bstep p c = with_sub (advance p1 1) 1) as Hbs.
  { rewrite (M_step cfg cb _ _ _ _ _ _ H E).
    assert (main_iter cfg cb p c = MAgain p1) as Hi.
    { unfold main_iter. rewrite E2, (value_state_has _ Hs).
      destruct a; cbn in Hl; inversion Hl; subst c; destruct Hs as [-> | ->]; reflexivity. }
    unfold main_byte. rewrite Hi.
    replace (p_err p1 <? 0) with false by (symmetry; apply Z.ltb_ge; lia).
    unfold sub_byte. change (p_auto p1) with a.
    destruct a; cbn in Hl; inversion Hl; subst; reflexivity. }
  destruct (lit_letters _ _ _ Hl) as [Hlet (v & Hsc)].
  destruct (lit_inv2 k a t [c] lit' (bstep p c)) as [(c2 & k' & -> & Hb)|(lit3 & ->)]; try assumption.
  { rewrite Hbs. reflexivity. }
  { rewrite Hbs. reflexivity. }
  - pose proof (M_literal cfg cb a t (c :: lit') st nest vc r p Hl Hs H E) as Hp.
    change (c :: lit' ++ c2 :: k') with ((c :: lit') ++ c2 :: k') in *.
    eapply reads_pend; [exact HC| |exact Hp|exact Hsc|exact E|exact Hs|exact Hok|exact Hvc| |exact Hb| |exact HF].
    + rewrite app_length in HN. cbn [length] in HN |- *. lia.
    + apply Forall_app in HB. apply HB.
    + intros ->. exfalso. destruct a; cbn in Hl; inversion Hl.
  - change (bsteps p (c :: k)) with (bsteps (bstep p c) k) in HF. rewrite Hbs in HF.
    destruct (lit_prefix k a t [c] lit3 (with_sub (advance p1 1) 1)) as ((T1 & T2 & T3 & T4 & T5 & T6 & _) & _ & K2 & K3).
    { exact Hl. } { reflexivity. } { cbn. lia. } { reflexivity. }
    set (q := bsteps (with_sub (advance p1 1) 1) k) in *.
    cbn [p_err p_user p_st p_nest p_vcount p_auto p_cp0 p_cp1 with_sub advance with_pos] in *.
    assert (p_auto q = a) as Ha by exact T6.
    rewrite <- Ha in Hl. destruct (fin_lit q t _ Hl) as (F1 & F2 & F3).
    destruct (fin_process q q t [] st nest vc r code u) as [Hone Hdl]; try assumption.
    + change (p_err p1) with (p_err p) in T1. congruence.
    + change (p_user p1) with (p_user p) in T2. congruence.
    + change (p_st p1) with (p_st p) in T3. congruence.
    + destruct Hs as [-> | ->]; discriminate.
    + change (p_nest p1) with (p_nest p) in T4. congruence.
    + change (p_vcount p1) with (p_vcount p) in T5. congruence.
    + change (p_cp0 p1) with (p_cp0 p) in K2. congruence.
    + change (p_cp1 p1) with (p_cp1 p) in K3. congruence.
    + eapply (reads_end (c :: k) lit3); [exact Hsc|exact Hs|exact Hok|exact Hone|exact Hdl|].
      destruct (last_split (c :: k) ltac:(discriminate)) as (b & x & Ex). exists b, x. split; [exact Ex|].
      change (c :: k ++ lit3) with ((c :: k) ++ lit3) in Hlet. rewrite Ex in Hlet.
      apply Forall_app in Hlet. destruct Hlet as [Hlet _]. apply Forall_app in Hlet. destruct Hlet as [_ Hlet].
      pose proof (Forall_inv Hlet). right. left. assumption.
Qed.

Lemma claim_string : forall N t k st nest vc r p code u, Claim N -> (length k <= N)%nat ->
  t = JSON_STRING \/ t = JSON_KEY -> open_state t st -> M st nest vc r p -> 0 <= fst r -> stok st nest -> 0 <= vc ->
  Forall byte (34 :: k) -> Fin (bsteps p (34 :: k)) code u -> Reads (34 :: k) st nest vc r code u.
Proof.
  intros N t k st nest vc r p code u HC HN Ht Hs H E Hok Hvc HB HF.
  pose proof (proj1 (fin_ok _ _ _ HF)) as Ok.
  change (bsteps p (34 :: k)) with (bsteps (bstep p 34) k) in Ok.
  pose proof H as (A & B & C & D). destruct (D E) as (E1 & E2 & E3 & E4 & E5 & E6).
  set (p1 := new_line (advance (switch p (auto_of t)) 1) 34).
  assert (bstep p 34 = p1) as Hbs.
  { rewrite (M_step cfg cb _ _ _ _ _ _ H E). unfold main_byte, main_iter, p1. rewrite E2. destruct Ht as [-> | ->]; cbn in Hs.
    - destruct Hs as [-> | ->]; reflexivity.
    - destruct Hs as [-> | ->]; reflexivity. }
  assert (str_auto t (p_auto p1)) as Ha by (destruct Ht as [-> | ->]; [left|right]; split; reflexivity).
  assert (p_err p1 = fst r) as He by exact A.
  assert (at_ p1 0 [] 0 0 0 p1) as H1.
  { constructor; try reflexivity; try assumption; [apply same_refl|cbn; lia]. }
  assert (consumed p1 = 1) as Hcons by (unfold p1, consumed; cbn; lia).
  assert (0 <= max_of cfg t) as Hmx by (destruct Ht as [-> | ->]; cbn; lia).
  assert (limit_of cfg t = if 0 <? max_of cfg t then max_of cfg t + 1 else max_of cfg t) as Hlim
    by (destruct Ht as [-> | ->]; reflexivity).
  assert (room cfg t p1 0) as R.
  { unfold room. rewrite Hcons, Hlim. destruct (Z.ltb_spec 0 (max_of cfg t)); lia. }
  destruct (Hstrict t) as [Hi Hf].
  rewrite Hbs in Ok.
  destruct (string_inv cfg cb t Hi Hf p1 Ha ltac:(lia) (length k) k 0 [] p1 ltac:(lia) H1 R
    ltac:(inversion HB; assumption) Ok) as [(raw & dd & k' & -> & Hch & Rr & Hat)|Hu].
  2:{ exfalso. unfold unfinished in Hu. change (bsteps p (34 :: k)) with (bsteps (bstep p 34) k) in HF.
      rewrite Hbs in HF. eapply fin_string; [exact Hu|exact HF]. }
  assert (at_most (len raw) (max_of cfg t)) as Hlen.
  { unfold room in Rr. rewrite Hcons, Hlim in Rr. unfold at_most. pose proof (len_nonneg raw).
    destruct (Z.ltb_spec 0 (max_of cfg t)); lia. }
  rewrite bsteps_app in Ok. set (q := bsteps p1 raw) in *.
  change (bsteps q (34 :: k')) with (bsteps (bstep q 34) k') in Ok.
  pose proof (steps_ok cfg cb k' _ Ok) as O1. cbn [app] in Hat.
  rewrite (at_close cfg cb t p1 Ha ltac:(lia) _ _ _ _ _ Hat) in O1.
  pose proof Hat as [(T1 & T2 & T3 & T4 & T5 & T6 & _) _ _ _ _ _].
  assert (p_vcount (advance q 1) = vc) as Hvq.
  { change (p_vcount (advance q 1)) with (p_vcount q). rewrite T5. change (p_vcount p1) with (p_vcount p). exact E4. }
  assert (one_more cfg t vc) as Hone.
  { rewrite <- Hvq.
    eapply process_ok with (d := p_buf p1 ++ dd); [destruct Ht as [-> | ->]; reflexivity|lia|].
    match goal with |- 0 <= p_err ?x => destruct (Z_lt_le_dec (p_err x) 0) as [F|F] end; [|exact F].
    exfalso. rewrite chk_err in O1 by exact F. lia. }
  pose proof (M_string cfg cb Hcfg t raw dd st nest vc r p Ht Hch Hs H Hvc (proj1 Hone) (proj2 Hone) Hlen) as HM.
  assert (Fin (bsteps (bsteps p (34 :: raw ++ [34])) k') code u) as HF2.
  { rewrite <- bsteps_app. cbn [app]. rewrite <- app_assoc. exact HF. }
  assert (Forall byte k') as HB2.
  { inversion HB; subst. apply Forall_app in H4. destruct H4 as [_ H4]. inversion H4; assumption. }
  assert ((length k' <= N)%nat) as HN2 by (rewrite app_length in HN; cbn [length] in HN; lia).
  replace (34 :: raw ++ 34 :: k') with ((34 :: raw ++ [34]) ++ k') by (cbn [app]; rewrite <- app_assoc; reflexivity).
  eapply reads_more; [eapply HC; [exact HN2|exact HM| | | |exact HB2|exact HF2]|reflexivity|].
  - eapply M_go; [exact HM|exact HF2].
  - destruct Ht as [-> | ->].
    + apply stok_after. apply Hok.
    + destruct Hok as (K1 & _). split; [exact K1|]. split; [right; right; right; left; reflexivity|discriminate].
  - lia.
  - intros k2 evs Hk2. destruct Ht as [-> | ->].
    + eapply t_scalar; [exact Hs|constructor; eassumption|exact Hone|exact Hk2].
    + cbn [app]. rewrite <- app_assoc. cbn [app]. eapply t_key; eassumption.
Qed.

Lemma M_stop : forall st nest vc r p c e, M st nest vc r p -> 0 <= fst r -> 
  main_iter cfg cb p c = MStop e -> p_err e < 0 -> p_err (bstep p c) < 0.
Proof.
  intros st nest vc r p c e H E Hi He. rewrite (M_step cfg cb _ _ _ _ _ _ H E). unfold main_byte. rewrite Hi. exact He.
Qed.

Lemma raise_neg : forall p e, e < 0 -> p_err (raise p e) < 0.
Proof. intros. apply raise_at_err. assumption. Qed.
Lemma raise_unexpected_neg : forall p, p_err (raise_unexpected p) < 0.
Proof.
  intros p. unfold raise_unexpected.
  repeat match goal with |- context [if ?b then _ else _] => destruct b end; apply raise_neg; reflexivity.
Qed.

Lemma claim_all : forall N, Claim N.
Proof.
  induction N as [|N IH]; intros k st nest vc r p code u HN H E Hok Hvc HB HF.
  all: destruct k as [|c k]; [|cbn [length] in HN].
  1,3: (* the end *)
    pose proof H as (A & B & C & D); destruct (D E) as (E1 & E2 & E3 & E4 & E5 & E6);
    change (bsteps p []) with p in HF; destruct HF as (pos & HF & Hc); unfold json_fini in HF;
    replace (p_st p =? ST_UNINITED) with false in HF by (symmetry; apply Z.eqb_neq; exact C);
    replace (p_err p <? 0) with false in HF by (symmetry; apply Z.ltb_ge; lia);
    rewrite E1, E3, E2 in HF; pose proof (raise_unexpected_neg p) as Hneg;
    destruct nest as [|b nest]; [|inversion HF; subst; lia];
    destruct (has st CAN_SEE_EOF) eqn:Ee; [|inversion HF; subst; lia];
    assert (st = CAN_SEE_EOF) as -> by
      (destruct Hok as (_ & Hok & _); five Hok; try reflexivity; discriminate Ee);
    inversion HF; subst; exists [], [], []; 
    (split; [constructor|split; [rewrite A, B; unfold dl; destruct r; reflexivity|left; split; reflexivity]]).
  { lia. }
  pose proof (proj1 (fin_ok _ _ _ HF)) as Ok.
  change (bsteps p (c :: k)) with (bsteps (bstep p c) k) in Ok, HF.
  pose proof (steps_ok cfg cb k _ Ok) as O1.
  pose proof H as (A & B & C & D). destruct (D E) as (E1 & E2 & E3 & E4 & E5 & E6).
  assert (Forall byte k) as HB1 by (inversion HB; assumption).
  assert (forall e, main_iter cfg cb p c = MStop e -> p_err e < 0 -> False) as Hstop.
  { intros e Hi He. pose proof (M_stop _ _ _ _ _ _ _ H E Hi He). lia. }
  assert (main_iter cfg cb p c = main_iter cfg cb p c) as Hi by reflexivity.
  unfold main_iter in Hi at 2. rewrite E2, E3 in Hi.
  destruct (has st CAN_SEE_VALUE && ((c =? 91) || (c =? 123))) eqn:C1.
  { apply andb_true_iff in C1. destruct C1 as [V C1].
    assert (c = 91 \/ c = 123) as Hc by lia.
    assert (value_state st) as Hv.
    { destruct Hok as (_ & Hok & _). five Hok; try discriminate V; [left|right]; reflexivity. }
    destruct (negb (max_nesting_level cfg =? 0) && (max_nesting_level cfg <=? Z.of_nat (length nest))) eqn:C2.
    { exfalso. eapply Hstop; [exact Hi|]. apply raise_neg. reflexivity. }
    assert (at_most (len nest + 1) (max_nesting_level cfg)) as Hn.
    { unfold at_most, len. apply andb_false_iff in C2. destruct C2 as [C2|C2]; [left|right; lia].
      apply negb_false_iff in C2. lia. }
    fold (closer_of c) in Hi. fold (begin_type c) in Hi.
    assert (one_more cfg (begin_type c) vc) as Hone.
    { rewrite (M_step cfg cb _ _ _ _ _ _ H E) in O1. unfold main_byte in O1. rewrite Hi in O1.
      rewrite new_line_err in O1. change (p_err (advance ?x 1)) with (p_err x) in O1.
      rewrite <- E4. change (p_vcount p) with (p_vcount (with_nest p (closer_of c :: nest))).
      eapply process_ok; [destruct Hc as [-> | ->]; reflexivity|cbn; lia|exact O1]. }
    pose proof (M_open cfg cb c st nest vc r p Hc Hv H Hvc (proj1 Hone) (proj2 Hone) Hn) as HM.
    change (c :: k) with ([c] ++ k).
    eapply reads_more; [eapply IH; [|exact HM| | | |exact HB1|exact HF]|reflexivity|].
    - lia.
    - eapply M_go; [exact HM|exact HF].
    - destruct Hok as (K1 & _). split; [|split].
      + constructor; [destruct Hc as [-> | ->]; [left|right]; reflexivity|exact K1].
      + destruct Hc as [-> | ->]; [left; right|right; left; right]; reflexivity.
      + discriminate.
    - lia.
    - intros k2 evs Hk2. cbn [app]. eapply t_open; eassumption. }
  destruct (has st CAN_SEE_CLOSER && ((c =? 93) || (c =? 125))) eqn:C3.
  { clear C1. apply andb_true_iff in C3. destruct C3 as [V C3].
    assert (c = 93 \/ c = 125) as Hc by lia.
    assert (close_state st) as Hv.
    { destruct Hok as (_ & Hok & _). five Hok; try discriminate V; [left|right; left|right; right]; reflexivity. }
    destruct Hok as (K1 & K2 & K3). specialize (K3 V). destruct nest as [|b nest]; [congruence|].
    cbn [hd tl] in Hi. destruct (b =? c) eqn:Eb; cbn [negb] in Hi.
    2:{ exfalso. eapply Hstop; [exact Hi|]. apply raise_neg. reflexivity. }
    apply Z.eqb_eq in Eb. subst b.
    pose proof (M_close cfg cb c st nest vc r p Hc Hv H Hvc) as HM.
    change (c :: k) with ([c] ++ k).
    eapply reads_more; [eapply IH; [|exact HM| | | |exact HB1|exact HF]|reflexivity|].
    - lia.
    - eapply M_go; [exact HM|exact HF].
    - inversion K1; subst. apply stok_after. assumption.
    - lia.
    - intros k2 evs Hk2. cbn [app]. eapply t_close; eassumption. }
  destruct (has st CAN_SEE_COMMA && (c =? 44)) eqn:C4.
  { clear C1 C3. apply andb_true_iff in C4. destruct C4 as [V C4]. apply Z.eqb_eq in C4. subst c.
    assert (st = CC) as ->.
    { destruct Hok as (_ & Hok & _). five Hok; try discriminate V; reflexivity. }
    destruct Hok as (K1 & K2 & K3). specialize (K3 eq_refl). destruct nest as [|b nest]; [congruence|].
    assert (b = 93 \/ b = 125) as Hb by (inversion K1; assumption).
    pose proof (M_comma cfg cb b nest vc r p Hb H) as HM.
    change (44 :: k) with ([44] ++ k).
    eapply reads_skip; [eapply IH; [|exact HM| | | |exact HB1|exact HF]|].
    - lia.
    - exact E.
    - split; [exact K1|]. split; [|destruct Hb as [-> | ->]; discriminate].
      destruct Hb as [-> | ->]; [left; left|right; left; left]; reflexivity.
    - lia.
    - intros k2 evs Hk2. cbn [app]. apply t_comma; assumption. }
  destruct (has st CAN_SEE_COLON && (c =? 58)) eqn:C5.
  { clear C1 C3 C4. apply andb_true_iff in C5. destruct C5 as [V C5]. apply Z.eqb_eq in C5. subst c.
    assert (st = CAN_SEE_COLON) as ->.
    { destruct Hok as (_ & Hok & _). five Hok; try discriminate V; reflexivity. }
    pose proof (M_colon cfg cb nest vc r p H) as HM.
    change (58 :: k) with ([58] ++ k).
    eapply reads_skip; [eapply IH; [|exact HM| | | |exact HB1|exact HF]|].
    - lia.
    - exact E.
    - destruct Hok as (K1 & _). split; [exact K1|]. split; [left; left; reflexivity|discriminate].
    - lia.
    - intros k2 evs Hk2. cbn [app]. apply t_colon; assumption. }
  destruct (has st CAN_SEE_VALUE && (c =? 34)) eqn:C6.
  { apply andb_true_iff in C6. destruct C6 as [V C6]. apply Z.eqb_eq in C6. subst c.
    eapply (claim_string N JSON_STRING); try eassumption; try lia.
    - left. reflexivity.
    - destruct Hok as (_ & Hok & _). five Hok; try discriminate V; [left|right]; reflexivity. }
  destruct (has st CAN_SEE_KEY && (c =? 34)) eqn:C7.
  { apply andb_true_iff in C7. destruct C7 as [V C7]. apply Z.eqb_eq in C7. subst c.
    eapply (claim_string N JSON_KEY); try eassumption; try lia.
    - right. reflexivity.
    - destruct Hok as (_ & Hok & _). five Hok; try discriminate V; [left|right]; reflexivity. }
  destruct (has st CAN_SEE_VALUE && (is_in c 97 122 || is_in c 65 90)) eqn:C8.
  { apply andb_true_iff in C8. destruct C8 as [V C8].
    assert (value_state st) as Hv.
    { destruct Hok as (_ & Hok & _). five Hok; try discriminate V; [left|right]; reflexivity. }
    destruct (c =? 110) eqn:L1; [apply Z.eqb_eq in L1; subst c|destruct (c =? 102) eqn:L2; [apply Z.eqb_eq in L2; subst c|
      destruct (c =? 116) eqn:L3; [apply Z.eqb_eq in L3; subst c|]]].
    - eapply (claim_literal N A_NULL); try eassumption; try lia; reflexivity.
    - eapply (claim_literal N A_FALSE); try eassumption; try lia; reflexivity.
    - eapply (claim_literal N A_TRUE); try eassumption; try lia; reflexivity.
    - exfalso. rewrite (M_step cfg cb _ _ _ _ _ _ H E) in O1. unfold main_byte in O1. rewrite Hi in O1.
      pose proof (raise_neg p ERR_SYNTAX eq_refl) as Hneg.
      replace (p_err (raise p ERR_SYNTAX) <? 0) with true in O1 by (symmetry; apply Z.ltb_lt; exact Hneg). lia. }
  destruct (has st CAN_SEE_VALUE && (is_digit c || (c =? 45))) eqn:C9.
  { apply andb_true_iff in C9. destruct C9 as [V C9].
    assert (value_state st) as Hv.
    { destruct Hok as (_ & Hok & _). five Hok; try discriminate V; [left|right]; reflexivity. }
    eapply (claim_number N); try eassumption; lia. }
  destruct (is_ws c) eqn:C10; cbn [negb] in Hi.
  2:{ exfalso. eapply Hstop; [exact Hi|]. apply raise_unexpected_neg. }
  assert (ws_byte c) as Hw by (unfold is_ws, ws_byte in *; lia).
  pose proof (M_ws cfg cb [c] ltac:(constructor; [exact Hw|constructor]) st nest vc r p H) as HM.
  change (c :: k) with ([c] ++ k).
  eapply reads_skip; [eapply IH; [|exact HM|exact E|exact Hok|exact Hvc|exact HB1|exact HF]|].
  - lia.
  - intros k2 evs Hk2. cbn [app]. apply t_ws; assumption.
Qed.
End P.
