(** * Feeding a chunk is feeding its bytes one at a time *)
Require Import ZArith List Bool Lia.
From Verif Require Import Json.
Import ListNotations.
Open Scope Z_scope.

Section P.
Context {U : Type}.
Variable cfg : jconfig.
Variable cb : jtype -> list Z -> U -> Z * U.
Implicit Types p q : parser U.

(** [JSON_CONFIG] holds unsigned numbers. *)
Hypothesis Hcfg : 0 <= max_number_len cfg /\ 0 <= max_string_len cfg /\ 0 <= max_key_len cfg.

(** The buffer of a parser that has failed is of no consequence. *)
Definition norm p : parser U := if p_err p <? 0 then with_buf p [] else p.

Lemma norm_err : forall p q, norm p = norm q -> p_err p = p_err q.
Proof.
  intros p q H. unfold norm in H.
  destruct (p_err p <? 0) eqn:E1, (p_err q <? 0) eqn:E2;
    apply (f_equal p_err) in H; cbn in H; exact H.
Qed.

Lemma norm_ok : forall p q, norm p = norm q -> 0 <= p_err p -> p = q.
Proof.
  intros p q H Hp. pose proof (norm_err _ _ H) as He.
  unfold norm in H.
  assert (p_err p <? 0 = false) as E1 by (apply Z.ltb_ge; lia).
  assert (p_err q <? 0 = false) as E2 by (apply Z.ltb_ge; lia).
  rewrite E1, E2 in H. exact H.
Qed.

(** ** One byte *)

Definition limit_of (t : jtype) : Z :=
  let m := match t with JSON_KEY => max_key_len cfg | _ => max_string_len cfg end in
  if 0 <? m then m + 1 else m.
Definition long_err_of (t : jtype) : Z :=
  match t with JSON_KEY => ERR_MAXKEYLEN | _ => ERR_MAXSTRINGLEN end.
Definition ign_of (t : jtype) : bool :=
  Z.testbit (cflags cfg) match t with JSON_KEY => IGNOREILLUTF8KEY | _ => IGNOREILLUTF8VALUE end.
Definition fix_of (t : jtype) : bool :=
  Z.testbit (cflags cfg) match t with JSON_KEY => FIXILLUTF8KEY | _ => FIXILLUTF8VALUE end.

Definition chk (m : Z) (e : Z) p : parser U := if over_long m p then raise_v p e else p.

Definition plainish (ign : bool) (ch : Z) : bool :=
  negb (is_control ch) && negb (ch =? ch_bslash) && (is_ascii ch || ign).

Definition s0 (t : jtype) p (ch : Z) : parser U * option (parser U) :=
  if (p_sub p =? 0) && (ch =? ch_quote) then (process cfg cb (advance p 1) t (p_buf p), None)
  else if (p_sub p =? 0) && plainish (ign_of t) ch then (advance (buf_append p [ch]) 1, None)
  else match string_iter (ign_of t) (fix_of t) p ch with
       | IStop p1 => (p1, None)
       | INext p1 => (advance p1 1, None)
       | IReplay p1 => (p1, Some p1)
       end.

Definition s1 (t : jtype) p (ch : Z) : parser U :=
  match s0 t p ch with
  | (p1, None) => p1
  | (_, Some p1) => fst (s0 t p1 ch)
  end.

Definition string_byte (t : jtype) p (ch : Z) : parser U :=
  chk (limit_of t) (long_err_of t) (s1 t p ch).

Definition literal_byte (t : jtype) (lit : list Z) p (ch : Z) : parser U * bool :=
  if Z.of_nat (length lit) <=? p_sub p then
    if is_boundary ch then (process cfg cb p t [], false)
    else (raise (with_pos p (p_vpos p)) ERR_SYNTAX, true)
  else if negb (ch =? nth (Z.to_nat (p_sub p)) lit 0) then (raise_v p ERR_SYNTAX, true)
  else (with_sub (advance p 1) (p_sub p + 1), true).

Definition number_sub p : parser U :=
  if p_sub p =? 0 then with_sub p (N_M_SIGN + N_M_FIRST) else p.

Definition number_byte p (ch : Z) : parser U * bool :=
  let p := number_sub p in
  match number_next (p_sub p) ch with
  | Some s =>
      let p2 := chk (max_number_len cfg) ERR_MAXNUMBERLEN (advance (with_sub p s) 1) in
      ((if 0 <=? p_err p2 then buf_append p2 [ch] else p2), true)
  | None =>
      if has (p_sub p) N_END && is_boundary ch
      then (process cfg cb p JSON_NUMBER (p_buf p), false)
      else (raise_v p ERR_SYNTAX, true)
  end.

Definition sub_byte p (ch : Z) : parser U * bool :=
  match p_auto p with
  | A_NULL => literal_byte JSON_NULL lit_null p ch
  | A_FALSE => literal_byte JSON_FALSE lit_false p ch
  | A_TRUE => literal_byte JSON_TRUE lit_true p ch
  | A_NUMBER => number_byte p ch
  | A_STRING => (string_byte JSON_STRING p ch, true)
  | A_KEY => (string_byte JSON_KEY p ch, true)
  | A_MAIN => (p, true)
  end.

Definition main_byte p (ch : Z) : parser U :=
  match main_iter cfg cb p ch with
  | MStop p1 => p1
  | MNext p1 => new_line (advance p1 1) ch
  | MAgain p1 => if p_err p1 <? 0 then p1 else fst (sub_byte p1 ch)
  end.

Definition bstep p (ch : Z) : parser U :=
  if p_err p <? 0 then p
  else match p_auto p with
       | A_MAIN => main_byte p ch
       | _ => let '(p1, done) := sub_byte p ch in
              if done || (p_err p1 <? 0) then p1 else main_byte p1 ch
       end.

Definition bsteps p (l : list Z) : parser U := fold_left bstep l p.

Lemma bstep_err : forall p ch, p_err p < 0 -> bstep p ch = p.
Proof. intros. unfold bstep. replace (p_err p <? 0) with true by (symmetry; apply Z.ltb_lt; lia). reflexivity. Qed.

Lemma bsteps_err : forall l p, p_err p < 0 -> bsteps p l = p.
Proof.
  induction l as [|a l IH]; intros p H; cbn; [reflexivity|].
  rewrite (bstep_err p a H). apply IH. exact H.
Qed.

Lemma bsteps_norm : forall l p q, norm p = norm q -> norm (bsteps p l) = norm (bsteps q l).
Proof.
  intros l p q H. destruct (Z_lt_le_dec (p_err p) 0) as [E|E].
  - pose proof (norm_err _ _ H) as He. rewrite !bsteps_err by lia. exact H.
  - rewrite (norm_ok _ _ H E). reflexivity.
Qed.

Lemma bsteps_app : forall a b p, bsteps p (a ++ b) = bsteps (bsteps p a) b.
Proof. intros. apply fold_left_app. Qed.

(** ** Facts about the pieces *)

Lemma u32w_add : forall a b, u32w (u32w a + b) = u32w (a + b).
Proof. intros. unfold u32w. apply Zplus_mod_idemp_l. Qed.

Lemma advance_advance : forall p a b, advance (advance p a) b = advance p (a + b).
Proof.
  intros. destruct p as [ps]; destruct ps. unfold advance, with_pos. cbn.
  rewrite u32w_add, !Z.add_assoc. reflexivity.
Qed.

Lemma consumed_advance : forall p n, consumed (advance p n) = consumed p + n.
Proof. intros. unfold consumed, advance. cbn [p_pos p_vpos with_pos p_off]. lia. Qed.

Lemma raise_at_err : forall p e x, e < 0 -> p_err (raise_at p e x) < 0.
Proof.
  intros. unfold raise_at. destruct (0 <=? p_err p) eqn:E; cbn; [assumption|].
  apply Z.leb_gt in E. lia.
Qed.

Lemma chk_err : forall m e p, p_err p < 0 -> chk m e p = p.
Proof.
  intros. unfold chk, raise_v, raise_at. destruct (over_long m p); [|reflexivity].
  destruct (0 <=? p_err p) eqn:E; [apply Z.leb_le in E; lia|reflexivity].
Qed.

Lemma chk_auto : forall m e p, p_auto (chk m e p) = p_auto p.
Proof.
  intros. unfold chk, raise_v, raise_at. destruct (over_long m p); [|reflexivity].
  destruct (0 <=? p_err p); reflexivity.
Qed.

Lemma chk_ok : forall m e p, e < 0 -> 0 <= p_err (chk m e p) ->
  m = 0 \/ consumed (chk m e p) <= m.
Proof.
  intros m e p He H. unfold chk in *. destruct (over_long m p) eqn:E.
  - pose proof (raise_at_err p e (p_vpos p) He). unfold raise_v in H. lia.
  - unfold over_long in E. destruct (m =? 0) eqn:E2; [left; apply Z.eqb_eq; exact E2|].
    cbn in E. apply Z.ltb_ge in E. right. exact E.
Qed.

Lemma chk_within : forall m e p, (m = 0 \/ consumed p <= m) -> chk m e p = p.
Proof.
  intros. unfold chk, over_long.
  destruct (m =? 0) eqn:E; cbn; [reflexivity|].
  apply Z.eqb_neq in E. destruct (m <? consumed p) eqn:E2; [|reflexivity].
  apply Z.ltb_lt in E2. lia.
Qed.

Lemma process_call_main : forall p t d, p_auto (process_call cb p t d) = A_MAIN /\
   consumed (process_call cb p t d) = 0.
Proof.
  intros. unfold process_call. destruct (cb t d (p_user p)) as [e u]. cbn.
  split; [reflexivity|]. unfold consumed. cbn. lia.
Qed.

(** After a callback the main automaton is in charge (or an error). *)
Lemma process_main : forall p t d,
  p_err (process cfg cb p t d) < 0 \/
  (p_auto (process cfg cb p t d) = A_MAIN /\ consumed (process cfg cb p t d) = 0).
Proof.
  intros. unfold process. destruct (p_err p <? 0) eqn:E.
  - apply Z.ltb_lt in E. left. exact E.
  - destruct (is_closer_type t); [right; apply process_call_main|].
    destruct (_ && _).
    + left. unfold raise_v. apply raise_at_err. reflexivity.
    + destruct (_ && _).
      * left. unfold raise_v. apply raise_at_err. reflexivity.
      * right. apply process_call_main.
Qed.

(** The callback does not depend on the buffer. *)
Lemma process_buf : forall p b t d,
  norm (process cfg cb (with_buf p b) t d) = norm (process cfg cb p t d).
Proof.
  intros. unfold process. cbn [p_err with_buf p_vcount].
  destruct (p_err p <? 0) eqn:E.
  - unfold norm. cbn [p_err with_buf]. rewrite E. reflexivity.
  - destruct (is_closer_type t).
    + reflexivity.
    + destruct (_ && _).
      * unfold raise_v, raise_at. cbn [p_err with_buf p_vpos].
        destruct (0 <=? p_err p) eqn:E2; [reflexivity|].
        apply Z.leb_gt in E2. apply Z.ltb_ge in E. lia.
      * destruct (_ && _).
        -- unfold raise_v, raise_at. cbn [p_err with_buf p_vpos].
           destruct (0 <=? p_err p) eqn:E2; [reflexivity|].
           apply Z.leb_gt in E2. apply Z.ltb_ge in E. lia.
        -- reflexivity.
Qed.

(** ** Strings *)

Lemma ill_keeps : forall ign fx p c p1 ok,
  ill_surrogate ign fx p c = (p1, ok) ->
  (ok = true -> p_err p1 = p_err p /\ p_auto p1 = p_auto p /\ p_pos p1 = p_pos p
     /\ p_vpos p1 = p_vpos p /\ p_sub p1 = p_sub p) /\
  (ok = false -> p_err p1 < 0).
Proof.
  intros ign fx p c p1 ok H. unfold ill_surrogate in H.
  destruct ign; [|destruct fx]; inversion H; subst; split; intros K; try discriminate K;
    try (repeat split; reflexivity).
  unfold raise. apply raise_at_err. reflexivity.
Qed.

Definition keeps p p1 : Prop :=
  p_err p1 = p_err p /\ p_auto p1 = p_auto p /\ p_pos p1 = p_pos p /\ p_vpos p1 = p_vpos p.

Lemma escape_done_spec : forall ign fx p,
  match escape_done ign fx p with
  | IStop p1 => p_err p1 < 0
  | INext p1 => keeps p p1
  | IReplay _ => False
  end.
Proof.
  intros. unfold escape_done.
  destruct (negb (p_cp0 p =? 0) && negb (is_lo (p_cp1 p))) eqn:E1.
  - destruct (ill_surrogate ign fx p (p_cp0 p)) as [p1 ok] eqn:Ei.
    apply ill_keeps in Ei. destruct ok.
    + destruct Ei as [Ei _]. specialize (Ei eq_refl). cbn [negb].
      cbn [with_cp p_cp0 Z.eqb andb].
      destruct Ei as (A & B & C & D & F).
      apply andb_true_iff in E1. destruct E1 as [_ E1]. apply negb_true_iff in E1. rewrite E1.
      destruct (is_hi (p_cp1 p)); unfold keeps; cbn; repeat split; congruence.
    + destruct Ei as [_ Ei]. cbn. exact (Ei eq_refl).
  - cbn [negb].
    destruct ((p_cp0 p =? 0) && is_lo (p_cp1 p)).
    + destruct (ill_surrogate ign fx p (p_cp1 p)) as [p2 ok2] eqn:Ei2.
      apply ill_keeps in Ei2. destruct ok2.
      * destruct Ei2 as [Ei2 _]. specialize (Ei2 eq_refl).
        destruct Ei2 as (A2 & B2 & C2 & D2 & F2). unfold keeps. cbn. repeat split; congruence.
      * destruct Ei2 as [_ Ei2]. exact (Ei2 eq_refl).
    + destruct (negb (p_cp0 p =? 0) && is_lo (p_cp1 p)); [unfold keeps; cbn; repeat split|].
      destruct (is_hi (p_cp1 p)); unfold keeps; cbn; repeat split.
Qed.

Lemma string_iter_spec : forall ign fx p ch,
  match string_iter ign fx p ch with
  | IStop p1 => p_err p1 < 0
  | INext p1 => keeps p p1
  | IReplay p1 => keeps p p1 /\ (p_sub p1 = 0 \/ p_sub p1 = 92) /\ p_sub p <> 0 /\ p_sub p <> 92
  end.
Proof.
  intros. unfold string_iter.
  assert (forall e, e < 0 -> p_err (raise p e) < 0) as Hr by (intros; apply raise_at_err; assumption).
  assert (forall e, e < 0 -> p_err (raise_v p e) < 0) as Hrv by (intros; apply raise_at_err; assumption).
  destruct (p_sub p =? 0) eqn:E0.
  { destruct (is_control ch).
    - destruct (_ || _); [apply Hrv|apply Hr]; reflexivity.
    - destruct (ch =? ch_bslash); [unfold keeps; cbn; repeat split|].
      destruct (utf8_lead ch); [unfold keeps; cbn; repeat split|].
      destruct fx; [unfold keeps; cbn; repeat split|apply Hr; reflexivity]. }
  apply Z.eqb_neq in E0.
  destruct (p_sub p <=? 7) eqn:E1.
  { apply Z.leb_le in E1.
    destruct (utf8_trail (p_sub p) ch); [unfold keeps; cbn; repeat split|].
    destruct fx; [|apply Hr; reflexivity].
    split; [unfold keeps; cbn; repeat split|]. split; [left; reflexivity|]. lia. }
  destruct (p_sub p =? ch_bslash) eqn:E2.
  { destruct (ch =? 117); [unfold keeps; cbn; repeat split|].
    destruct (simple_escape ch); [unfold keeps; cbn; repeat split|apply Hr; reflexivity]. }
  apply Z.eqb_neq in E2. unfold ch_bslash in E2.
  destruct (ABCD <? p_sub p) eqn:E3.
  { destruct (negb (is_xdigit ch)); [apply Hr; reflexivity|].
    match goal with |- context [escape_done ign fx ?q] => pose proof (escape_done_spec ign fx q) as Hd end.
    cbv zeta. destruct (p_sub _ =? ABCD).
    - destruct (escape_done _ _ _); [exact Hd|contradiction|].
      unfold keeps in *. cbn in Hd. exact Hd.
    - unfold keeps; cbn; repeat split. }
  destruct (ABCD - 2 <=? p_sub p).
  { destruct (_ && _); [unfold keeps; cbn; repeat split|].
    destruct (_ && _); [unfold keeps; cbn; repeat split|].
    destruct (ill_surrogate ign fx p (p_cp0 p)) as [p1 ok] eqn:Ei.
    apply ill_keeps in Ei. destruct ok; [|apply Ei; reflexivity].
    destruct Ei as [Ei _]. specialize (Ei eq_refl). destruct Ei as (A & B & C & D & F).
    split; [unfold keeps; cbn; repeat split; congruence|].
    split; [|lia]. cbn [p_sub with_sub]. destruct (p_sub p1 =? ABCD - 1); [right|left]; reflexivity. }
  apply Hr. reflexivity.
Qed.

Definition str_auto (t : jtype) (a : automaton) : Prop :=
  (t = JSON_STRING /\ a = A_STRING) \/ (t = JSON_KEY /\ a = A_KEY).

Lemma bstep_string : forall t p ch, str_auto t (p_auto p) -> 0 <= p_err p ->
  bstep p ch = string_byte t p ch.
Proof.
  intros t p ch Ha He. unfold bstep.
  replace (p_err p <? 0) with false by (symmetry; apply Z.ltb_ge; lia).
  unfold sub_byte. destruct Ha as [[-> ->]|[-> ->]]; reflexivity.
Qed.

Definition within (m : Z) p (n : Z) : Prop := m = 0 \/ consumed p + n <= m + 1.

(** A run of ordinary characters. *)
Lemma bsteps_run : forall t run p,
  str_auto t (p_auto p) -> 0 <= p_err p -> p_sub p = 0 ->
  forallb (fun c => plainish (ign_of t) c && negb (c =? ch_quote)) run = true ->
  within (limit_of t) p (Z.of_nat (length run)) ->
  bsteps p run =
    (if Nat.eqb (length run) 0 then p
     else chk (limit_of t) (long_err_of t) (advance (buf_append p run) (Z.of_nat (length run)))).
Proof.
  intros t run. induction run as [|c run IH]; intros p Ha He Hs Hr Hw; [reflexivity|].
  cbn [forallb] in Hr. apply andb_true_iff in Hr. destruct Hr as [Hc Hr].
  apply andb_true_iff in Hc. destruct Hc as [Hc1 Hc2]. apply negb_true_iff in Hc2.
  change (bsteps p (c :: run)) with (bsteps (bstep p c) run).
  rewrite (bstep_string t p c Ha He). unfold string_byte, s1, s0.
  rewrite Hs. rewrite Hc2, Hc1. cbn [Z.eqb andb].
  destruct run as [|c' run'].
  - cbn. reflexivity.
  - cbn [Nat.eqb length].
    rewrite chk_within.
    2:{ unfold within in Hw. destruct Hw as [Hw|Hw]; [left; exact Hw|right].
        unfold consumed in *. cbn in *. lia. }
    rewrite IH; cbn [Nat.eqb length].
    + f_equal. rewrite Nat2Z.inj_succ.
      replace (buf_append (advance (buf_append p [c]) 1) (c' :: run'))
        with (advance (buf_append p (c :: c' :: run')) 1).
      * rewrite advance_advance. f_equal. lia.
      * unfold advance, buf_append, with_buf, with_pos. cbn.
        rewrite <- app_assoc. reflexivity.
    + exact Ha.
    + exact He.
    + exact Hs.
    + exact Hr.
    + unfold within in *. destruct Hw as [Hw|Hw]; [left; exact Hw|right].
      unfold consumed in *. cbn in *. lia.
Qed.

Lemma plain_run_plain : forall ign l,
  forallb (fun c => plainish ign c && negb (c =? ch_quote)) (plain_run l) = true.
Proof.
  intros ign l. induction l as [|c l IH]; cbn; [reflexivity|].
  destruct (is_plain c) eqn:E; [|reflexivity].
  cbn. rewrite IH, andb_true_r. unfold is_plain in E.
  rewrite !andb_true_iff in E. destruct E as [[[E1 E2] E3] E4].
  unfold plainish. rewrite E1, E2, E3, E4. reflexivity.
Qed.

Lemma plain_run_app : forall l, exists r, l = plain_run l ++ r.
Proof.
  induction l as [|c l [r IH]]; cbn; [exists []; reflexivity|].
  destruct (is_plain c); [exists r; cbn; congruence|exists (c :: l); reflexivity].
Qed.

Lemma within_le : forall m p a b, b <= a -> within m p a -> within m p b.
Proof. intros m p a b H [W|W]; [left; exact W|right; lia]. Qed.

(** The loop of the string automaton against single bytes.  [Q] is what
    the caller learns: the rest of the input remains to be fed to the
    parser left by the loop. *)
Definition sub_result (t : jtype) p (rest : list Z) (p' : parser U) (n : nat) : Prop :=
  let p2 := chk (limit_of t) (long_err_of t) p' in
  norm (bsteps p rest) = norm (bsteps p2 (skipn n rest)) /\
  (n <= length rest)%nat /\
  (p_err p2 < 0 \/ ((0 < n)%nat \/ rest = []) /\
     ((n = length rest /\ p_auto p2 = p_auto p) \/ p_auto p2 = A_MAIN)).

Lemma skipn_add : forall (A : Type) (n m : nat) (l : list A),
  skipn (n + m) l = skipn m (skipn n l).
Proof.
  intros A n. induction n as [|n IH]; intros m l; [reflexivity|].
  destruct l as [|a l]; cbn; [rewrite skipn_nil; reflexivity|apply IH].
Qed.

Lemma limit_nonneg : forall t, 0 <= limit_of t.
Proof.
  intros t. unfold limit_of. destruct Hcfg as (_ & A & B).
  destruct t; cbv zeta; destruct (0 <? _) eqn:E; try lia; apply Z.ltb_lt in E; lia.
Qed.

Lemma norm_process_chk : forall t p d,
  chk (limit_of t) (long_err_of t) (process cfg cb p t d) = process cfg cb p t d.
Proof.
  intros. destruct (process_main p t d) as [K|[K1 K2]].
  - apply chk_err. exact K.
  - apply chk_within. right. rewrite K2. apply limit_nonneg.
Qed.

Lemma string_loop_spec : forall fuel t p rest off,
  str_auto t (p_auto p) -> 0 <= p_err p ->
  (limit_of t = 0 \/ consumed p <= limit_of t \/ rest = []) ->
  within (limit_of t) p (Z.of_nat (length rest)) ->
  ((2 * length rest + 1 <= fuel)%nat \/
   ((1 <= length rest)%nat /\ (2 * length rest <= fuel)%nat /\ (p_sub p = 0 \/ p_sub p = 92))) ->
  exists p' n, string_loop cfg cb (ign_of t) (fix_of t) fuel t p rest off = Some (p', (off + n)%nat)
    /\ sub_result t (if rest then chk (limit_of t) (long_err_of t) p else p) rest p' n.
Proof.
  induction fuel as [|fuel IH]; intros t p rest off Ha He Hl Hw Hf.
  { destruct Hf as [Hf|Hf]; lia. }
  destruct rest as [|ch rest'].
  { exists p, 0%nat. cbn [string_loop]. split; [f_equal; f_equal; lia|].
    unfold sub_result.
    split; [reflexivity|]. split; [cbn; lia|]. right. split; [right; reflexivity|left].
    split; reflexivity. }
  assert (limit_of t = 0 \/ consumed p <= limit_of t) as Hl' by (destruct Hl as [K|[K|K]]; [left|right|discriminate K]; exact K).
  clear Hl. rename Hl' into Hl.
  cbn [string_loop].
  change (bsteps p (ch :: rest')) with (bsteps (bstep p ch) rest').
  (* continuing the loop with the bytes after the current one *)
  assert (forall p1 m l2, skipn m (ch :: rest') = l2 -> (1 <= m <= length (ch :: rest'))%nat ->
            p_auto p1 = p_auto p -> 0 <= p_err p1 ->
            within (limit_of t) p1 (Z.of_nat (length l2)) ->
            bsteps p (ch :: rest') = bsteps (chk (limit_of t) (long_err_of t) p1) l2 ->
            exists p' n,
              string_loop cfg cb (ign_of t) (fix_of t) fuel t p1 l2 (off + m) = Some (p', (off + n)%nat)
              /\ sub_result t p (ch :: rest') p' n) as Hgo.
  { intros p1 m l2 El Em Ha1 He1 Hw1 Hb.
    assert (length l2 = length (ch :: rest') - m)%nat as Elen by (subst l2; apply skipn_length).
    assert (limit_of t = 0 \/ consumed p1 <= limit_of t \/ l2 = []) as Hl1.
    { destruct l2; [right; right; reflexivity|].
      destruct Hw1 as [K|K]; [left; exact K|right; left]. cbn [length] in K. lia. }
    destruct (IH t p1 l2 (off + m)%nat) as (p' & n & E & R); try assumption.
    { rewrite Ha1. exact Ha. }
    { left. cbn [length] in *. destruct Hf as [Hf|Hf]; lia. }
    exists p', (m + n)%nat. split; [rewrite E; f_equal; f_equal; lia|].
    unfold sub_result in *. destruct R as (R1 & R2 & R3).
    rewrite Hb. rewrite skipn_add, El. split.
    - rewrite <- R1. destruct l2 as [|x l2']; [reflexivity|].
      rewrite chk_within; [reflexivity|].
      destruct Hl1 as [K|[K|K]]; [left; exact K|right; exact K|discriminate K].
    - split; [lia|]. destruct R3 as [R3|[R3 R4]]; [left; exact R3|right].
      split; [left; lia|]. destruct R4 as [[R4 R5]|R4]; [left|right; exact R4].
      split; [lia|]. rewrite R5. destruct l2; [rewrite chk_auto|]; exact Ha1. }
  destruct ((p_sub p =? 0) && (ch =? ch_quote)) eqn:Eq.
  { (* the closing quote *)
    exists (process cfg cb (advance p 1) t (p_buf p)), 1%nat.
    split; [f_equal; f_equal; lia|].
    unfold sub_result. cbn [skipn length].
    split; [|split; [lia|]].
    - change (bsteps p (ch :: rest')) with (bsteps (bstep p ch) rest').
      rewrite (bstep_string t p ch Ha He). unfold string_byte, s1, s0. rewrite Eq. reflexivity.
    - rewrite norm_process_chk.
      destruct (process_main (advance p 1) t (p_buf p)) as [K|[K1 K2]].
      + left. exact K.
      + right. split; [left; lia|]. right. exact K1. }
  destruct ((p_sub p =? 0) && negb (is_control ch) && negb (ch =? ch_bslash)
                  && (is_ascii ch || ign_of t)) eqn:Ep.
  { (* a run of ordinary characters *)
    assert (p_sub p = 0 /\ plainish (ign_of t) ch = true) as [Hs Hpl].
    { rewrite !andb_true_iff in Ep. destruct Ep as [[[E1 E2] E3] E4].
      apply Z.eqb_eq in E1. split; [exact E1|]. unfold plainish. rewrite E2, E3, E4. reflexivity. }
    assert (ch =? ch_quote = false) as Hnq by (rewrite Hs in Eq; exact Eq).
    set (run := ch :: plain_run rest').
    destruct (plain_run_app rest') as [tail Etail].
    assert (skipn (length run) (ch :: rest') = tail) as Esk.
    { unfold run. cbn [length skipn]. rewrite Etail at 2.
      rewrite skipn_app, skipn_all, Nat.sub_diag. reflexivity. }
    assert (ch :: rest' = run ++ tail) as Eall by (unfold run; cbn; congruence).
    assert (length (ch :: rest') = length run + length tail)%nat as Elen.
    { rewrite Eall, app_length. reflexivity. }
    assert (forallb (fun c => plainish (ign_of t) c && negb (c =? ch_quote)) run = true) as Hrun.
    { unfold run. cbn [forallb]. rewrite Hpl, Hnq. cbn. apply plain_run_plain. }
    cbv zeta. rewrite Esk.
    set (p1 := advance (buf_append p run) (Z.of_nat (length run))).
    assert (bsteps p (ch :: rest') = bsteps (chk (limit_of t) (long_err_of t) p1) tail) as Hb.
    { rewrite Eall, bsteps_app. f_equal.
      rewrite (bsteps_run t run p Ha He Hs Hrun).
      - reflexivity.
      - eapply within_le; [|exact Hw]. lia. }
    assert (within (limit_of t) p1 (Z.of_nat (length tail))) as Hw1.
    { destruct Hw as [K|K]; [left; exact K|right]. unfold p1. rewrite consumed_advance.
      change (consumed (buf_append p run)) with (consumed p). rewrite Elen in K. lia. }
    assert (exists p' n,
              string_loop cfg cb (ign_of t) (fix_of t) fuel t p1 tail (off + length run) = Some (p', (off + n)%nat)
              /\ sub_result t p (ch :: rest') p' n) as Hrest.
    { apply Hgo; [exact Esk| |reflexivity|exact He|exact Hw1|exact Hb].
      unfold run. cbn [length]. unfold run in Elen. cbn [length] in Elen. lia. }
    destruct (p_buf p) as [|b0 b] eqn:Eb.
    2:{ exact Hrest. }
    destruct (Nat.eqb off 0) eqn:Eo; [|exact Hrest].
    apply Nat.eqb_eq in Eo. subst off.
    destruct tail as [|c tail']; [exact Hrest|].
    destruct (c =? ch_quote) eqn:Ec; [|exact Hrest].
    (* the whole string is here *)
    exists (process cfg cb (advance p (Z.of_nat (length run) + 1)) t run), (S (length run)).
    split; [reflexivity|].
    unfold sub_result. rewrite norm_process_chk.
    assert (skipn (S (length run)) (ch :: rest') = tail') as Esk2.
    { replace (S (length run)) with (length run + 1)%nat by lia.
      rewrite skipn_add, Esk. reflexivity. }
    rewrite Esk2. cbn [length] in Elen. split; [|split; [cbn [length]; lia|]].
    - rewrite Hb. rewrite chk_within.
      2:{ destruct Hw1 as [K|K]; [left; exact K|right]. cbn [length] in K. lia. }
      change (bsteps p1 (c :: tail')) with (bsteps (bstep p1 c) tail').
      apply bsteps_norm.
      rewrite (bstep_string t p1 c Ha He). unfold string_byte, s1, s0.
      change (p_sub p1) with (p_sub p). rewrite Hs, Ec. cbn [Z.eqb andb].
      rewrite norm_process_chk.
      unfold p1. rewrite advance_advance.
      change (p_buf (advance (buf_append p run) (Z.of_nat (length run)))) with (p_buf p ++ run).
      rewrite Eb. cbn [app].
      change (advance (buf_append p run) (Z.of_nat (length run) + 1))
        with (with_buf (advance p (Z.of_nat (length run) + 1)) (p_buf p ++ run)).
      apply process_buf.
    - destruct (process_main (advance p (Z.of_nat (length run) + 1)) t run) as [K|[K1 K2]].
      + left. exact K.
      + right. split; [left; lia|]. right. exact K1. }
  (* one iteration *)
  assert ((p_sub p =? 0) && plainish (ign_of t) ch = false) as Ep'.
  { unfold plainish. rewrite !andb_assoc. exact Ep. }
  pose proof (string_iter_spec (ign_of t) (fix_of t) p ch) as Hi.
  destruct (string_iter (ign_of t) (fix_of t) p ch) as [p1|p1|p1] eqn:Ei.
  - exists p1, 0%nat. split; [f_equal; f_equal; lia|].
    unfold sub_result. rewrite chk_err by exact Hi. cbn [skipn].
    split; [|split; [lia|left; exact Hi]].
    change (bsteps p (ch :: rest')) with (bsteps (bstep p ch) rest').
    rewrite (bstep_string t p ch Ha He). unfold string_byte, s1, s0. rewrite Eq, Ep', Ei.
    rewrite chk_err by exact Hi. rewrite !bsteps_err by exact Hi. reflexivity.
  - destruct Hi as ((K1 & K2 & K3 & K4) & Hs1 & Hn0 & Hn92).
    assert (bstep p ch = bstep p1 ch) as Hb.
    { rewrite (bstep_string t p ch Ha He).
      rewrite (bstep_string t p1 ch) by (rewrite ?K1, ?K2; assumption).
      unfold string_byte. f_equal. unfold s1 at 1. unfold s0 at 1. rewrite Eq, Ep', Ei.
      unfold s1. destruct (s0 t p1 ch) as [q [q'|]] eqn:Es0; [|reflexivity].
      exfalso. unfold s0 in Es0.
      destruct (_ && _) in Es0; [discriminate Es0|].
      destruct (_ && _) in Es0; [discriminate Es0|].
      pose proof (string_iter_spec (ign_of t) (fix_of t) p1 ch) as Hi2.
      destruct (string_iter (ign_of t) (fix_of t) p1 ch); try discriminate Es0.
      destruct Hi2 as (_ & _ & A & B). destruct Hs1; contradiction. }
    assert (consumed p1 = consumed p) as Ec by (unfold consumed; rewrite K3, K4; reflexivity).
    destruct (IH t p1 (ch :: rest') off) as (p' & n & E & R).
    + rewrite K2. exact Ha.
    + rewrite K1. exact He.
    + rewrite Ec. destruct Hl; [left|right; left]; assumption.
    + unfold within. rewrite Ec. exact Hw.
    + destruct Hf as [Hf|(_ & _ & Hf)]; [|destruct Hf; contradiction].
      right. cbn [length] in *. split; [lia|]. split; [lia|exact Hs1].
    + exists p', n. split; [exact E|]. unfold sub_result in *.
      destruct R as (R1 & R2). rewrite K2 in R2. split; [|exact R2].
      change (bsteps p (ch :: rest')) with (bsteps (bstep p ch) rest'). rewrite Hb. exact R1.
  - destruct Hi as (K1 & K2 & K3 & K4).
    replace (S off) with (off + 1)%nat by lia.
    apply Hgo.
    + reflexivity.
    + cbn [length]. lia.
    + cbn. exact K2.
    + cbn. rewrite K1. exact He.
    + destruct Hw as [K|K]; [left; exact K|right]. unfold consumed in *. cbn.
      rewrite K3, K4. cbn [length] in K. lia.
    + change (bsteps p (ch :: rest')) with (bsteps (bstep p ch) rest').
      rewrite (bstep_string t p ch Ha He). unfold string_byte, s1, s0. rewrite Eq, Ep', Ei.
      reflexivity.
Qed.

(** ** Invariant *)

Definition inv p : Prop :=
  p_err p < 0 \/
  match p_auto p with
  | A_NUMBER => max_number_len cfg = 0 \/ consumed p <= max_number_len cfg
  | A_STRING => limit_of JSON_STRING = 0 \/ consumed p <= limit_of JSON_STRING
  | A_KEY => limit_of JSON_KEY = 0 \/ consumed p <= limit_of JSON_KEY
  | _ => True
  end.

(** What a sub-automaton does with the rest of a chunk. *)
Definition sub_ok p (rest : list Z) (r : parser U * nat) : Prop :=
  let '(p2, n) := r in
  norm (bsteps p rest) = norm (bsteps p2 (skipn n rest)) /\
  (n <= length rest)%nat /\ inv p2 /\
  (p_err p2 < 0 \/ (0 < n)%nat \/
   (p_auto p2 = A_MAIN /\ snd (sub_byte p (hd 0 rest)) = false)).

Lemma limited_split : forall m p (l : list Z),
  0 <= m -> (m = 0 \/ consumed p <= m) ->
  exists r, l = limited m p l ++ r /\ within m p (Z.of_nat (length (limited m p l))) /\
    (l <> [] -> limited m p l <> []).
Proof.
  intros m p l Hm Hc. unfold limited.
  destruct (negb (m =? 0) && (m <? consumed p + Z.of_nat (length l))) eqn:E.
  - apply andb_true_iff in E. destruct E as [E1 E2]. apply negb_true_iff, Z.eqb_neq in E1.
    apply Z.ltb_lt in E2. destruct Hc as [Hc|Hc]; [contradiction|].
    exists (skipn (Z.to_nat (m - consumed p + 1)) l). split; [symmetry; apply firstn_skipn|].
    split.
    + right. rewrite firstn_length. lia.
    + intros Hn. destruct l as [|x l']; [contradiction|].
      destruct (Z.to_nat (m - consumed p + 1)) eqn:En; [lia|]. cbn. discriminate.
  - exists []. rewrite app_nil_r. split; [reflexivity|]. split; [|intros H; exact H].
    apply andb_false_iff in E. destruct E as [E|E].
    + apply negb_false_iff, Z.eqb_eq in E. left. exact E.
    + apply Z.ltb_ge in E. right. lia.
Qed.

Lemma skipn_app_le : forall (A : Type) (n : nat) (a b : list A), (n <= length a)%nat ->
  skipn n (a ++ b) = skipn n a ++ b.
Proof.
  intros A n a b H. rewrite skipn_app.
  replace (n - length a)%nat with 0%nat by lia. reflexivity.
Qed.

Lemma string_auto_spec : forall t p rest, str_auto t (p_auto p) -> 0 <= p_err p -> inv p ->
  rest <> [] ->
  exists r, dispatch cfg cb p (Some rest) = Some r /\ sub_ok p rest r.
Proof.
  intros t p rest Ha He Hi Hn.
  assert (limit_of t = 0 \/ consumed p <= limit_of t) as Hc.
  { destruct Hi as [Hi|Hi]; [lia|]. destruct Ha as [[-> Ea]|[-> Ea]]; rewrite Ea in Hi; exact Hi. }
  destruct (limited_split (limit_of t) p rest (limit_nonneg t) Hc) as (r & Er & Hw & Hne).
  specialize (Hne Hn).
  set (bytes := limited (limit_of t) p rest) in *.
  destruct (string_loop_spec (2 * length bytes + 1) t p bytes 0 Ha He) as (p' & n & E & R).
  { destruct Hc as [K|K]; [left; exact K|right; left; exact K]. }
  { exact Hw. }
  { left. lia. }
  assert (dispatch cfg cb p (Some rest) = Some (chk (limit_of t) (long_err_of t) p', n)) as Ed.
  { unfold dispatch.
    destruct Ha as [[-> Ea]|[-> Ea]]; rewrite Ea; unfold string_auto;
      fold (ign_of JSON_STRING) (fix_of JSON_STRING) (ign_of JSON_KEY) (fix_of JSON_KEY);
      match goal with |- context [limited ?m p rest] =>
        match type of E with context [string_loop _ _ _ _ _ ?tt] =>
          change m with (limit_of tt) end end.
    - fold bytes. change (if 0 <? max_string_len cfg then max_string_len cfg + 1 else max_string_len cfg)
        with (limit_of JSON_STRING). fold bytes.
      change (Z.testbit (cflags cfg) IGNOREILLUTF8VALUE) with (ign_of JSON_STRING).
      change (Z.testbit (cflags cfg) FIXILLUTF8VALUE) with (fix_of JSON_STRING).
      rewrite E. reflexivity.
    - fold bytes. change (Z.testbit (cflags cfg) IGNOREILLUTF8KEY) with (ign_of JSON_KEY).
      change (Z.testbit (cflags cfg) FIXILLUTF8KEY) with (fix_of JSON_KEY).
      rewrite E. reflexivity. }
  eexists. split; [exact Ed|].
  unfold sub_ok. destruct bytes as [|b0 bytes'] eqn:Eb; [contradiction|]. rewrite <- Eb in *.
  unfold sub_result in R. destruct R as (R1 & R2 & R3).
  set (p2 := chk (limit_of t) (long_err_of t) p') in *.
  split; [|split; [|split]].
  - rewrite Er, bsteps_app. rewrite skipn_app_le by exact R2. rewrite bsteps_app.
    apply bsteps_norm. exact R1.
  - rewrite Er, app_length. lia.
  - destruct (Z_lt_le_dec (p_err p2) 0) as [K|K]; [left; exact K|]. right.
    destruct R3 as [R3|[_ R3]]; [lia|].
    assert (long_err_of t < 0) as Hle by (destruct t; reflexivity).
    pose proof (chk_ok (limit_of t) (long_err_of t) p' Hle K) as Hck. fold p2 in Hck.
    destruct R3 as [[_ R3]|R3]; rewrite R3; [|exact Logic.I].
    destruct Ha as [[-> Ea]|[-> Ea]]; rewrite Ea; exact Hck.
  - destruct R3 as [R3|[R3 R4]]; [left; exact R3|]. destruct R3 as [R3|R3]; [right; left; exact R3|].
    congruence.
Qed.

(** ** Numbers *)

Lemma process_inv : forall p t d, inv (process cfg cb p t d).
Proof.
  intros. destruct (process_main p t d) as [K|[K _]]; [left; exact K|right]. rewrite K. exact Logic.I.
Qed.

Lemma bstep_again : forall p ch p1,
  0 <= p_err p -> p_auto p <> A_MAIN -> sub_byte p ch = (p1, false) ->
  (p_err p1 < 0 \/ p_auto p1 = A_MAIN) -> bstep p ch = bstep p1 ch.
Proof.
  intros p ch p1 He Ha Hs Hm. unfold bstep at 1.
  replace (p_err p <? 0) with false by (symmetry; apply Z.ltb_ge; lia).
  assert ((let '(p2, done) := sub_byte p ch in
           if done || (p_err p2 <? 0) then p2 else main_byte p2 ch) = bstep p1 ch) as Hx.
  { rewrite Hs. cbn [orb]. unfold bstep. destruct (p_err p1 <? 0) eqn:E; [reflexivity|].
    apply Z.ltb_ge in E. destruct Hm as [Hm|Hm]; [lia|]. rewrite Hm. reflexivity. }
  destruct (p_auto p); try exact Hx. contradiction.
Qed.

Lemma bstep_sub : forall p ch p1,
  0 <= p_err p -> p_auto p <> A_MAIN -> sub_byte p ch = (p1, true) -> bstep p ch = p1.
Proof.
  intros p ch p1 He Ha Hs. unfold bstep.
  replace (p_err p <? 0) with false by (symmetry; apply Z.ltb_ge; lia).
  rewrite Hs. destruct (p_auto p); try reflexivity. contradiction.
Qed.

Lemma number_next_nz : forall s ch s', number_next s ch = Some s' -> s' <> 0.
Proof.
  intros s ch s' H. unfold number_next in H.
  repeat (destruct (_ && _) in H; [try (destruct (ch =? 48)); inversion H; subst; discriminate|]).
  discriminate H.
Qed.

Lemma with_buf_twice : forall p a b, with_buf (with_buf p a) b = with_buf p b.
Proof. reflexivity. Qed.

Lemma number_loop_spec : forall rest p done,
  p_auto p = A_NUMBER -> 0 <= p_err p -> p_sub p <> 0 ->
  within (max_number_len cfg) p (Z.of_nat (length rest)) ->
  (rest <> [] -> max_number_len cfg = 0 \/ consumed p <= max_number_len cfg) ->
  let q := with_buf p (p_buf p ++ rev done) in
  match number_loop cfg cb p done rest with
  | (p1, done1, Some off) =>
      (p_err p1 < 0 /\ norm (bsteps q rest) = norm p1 /\ (off <= length done + length rest)%nat) \/
      (off = length done1 /\ p_auto p1 = A_MAIN /\
       exists n, length done1 = (length done + n)%nat /\ (n <= length rest)%nat /\
         norm (bsteps q rest) = norm (bsteps p1 (skipn n rest)) /\
         (n = 0%nat -> snd (sub_byte q (hd 0 rest)) = false))
  | (p1, done1, None) =>
      length done1 = (length done + length rest)%nat /\ p_auto p1 = A_NUMBER /\ p_buf p1 = p_buf p /\
      p_err p1 = p_err p /\
      (rest <> [] ->
       norm (bsteps q rest) =
         norm (let p2 := chk (max_number_len cfg) ERR_MAXNUMBERLEN p1 in
               if 0 <=? p_err p2 then with_buf p2 (p_buf p ++ rev done1) else p2))
  end.
Proof.
  induction rest as [|ch rest IH]; intros p done Ha He Hs Hw Hc q.
  { cbn [number_loop]. split; [cbn; lia|]. split; [exact Ha|]. split; [reflexivity|].
    split; [reflexivity|]. intros K; contradiction. }
  specialize (Hc ltac:(discriminate)).
  cbn [number_loop].
  assert (p_auto q <> A_MAIN) as Hqm by (unfold q; cbn; rewrite Ha; discriminate).
  assert (0 <= p_err q) as Hqe by exact He.
  assert (sub_byte q ch = number_byte q ch) as Hsb by (unfold sub_byte, q; cbn; rewrite Ha; reflexivity).
  assert (number_sub q = q) as Hns.
  { unfold number_sub, q. cbn. destruct (p_sub p =? 0) eqn:E; [apply Z.eqb_eq in E; contradiction|reflexivity]. }
  destruct (number_next (p_sub p) ch) as [s|] eqn:En.
  - assert (bstep q ch = (let p2 := chk (max_number_len cfg) ERR_MAXNUMBERLEN (advance (with_sub q s) 1) in
                          if 0 <=? p_err p2 then buf_append p2 [ch] else p2)) as Hb.
    { apply bstep_sub; [exact Hqe|exact Hqm|]. rewrite Hsb. unfold number_byte. rewrite Hns.
      change (p_sub q) with (p_sub p). rewrite En. reflexivity. }
    set (p' := advance (with_sub p s) 1).
    assert (consumed p' = consumed p + 1) as Hcp' by (unfold p'; rewrite consumed_advance; reflexivity).
    destruct rest as [|ch2 rest2].
    + cbn [number_loop]. split; [cbn; lia|]. split; [exact Ha|]. split; [reflexivity|].
      split; [reflexivity|]. intros _.
      cbn [bsteps fold_left]. change (bsteps q [ch]) with (bstep q ch). rewrite Hb.
      cbv zeta. unfold chk.
      assert (over_long (max_number_len cfg) (advance (with_sub q s) 1) = over_long (max_number_len cfg) p') as Eo by reflexivity.
      rewrite Eo. fold p'. destruct (over_long (max_number_len cfg) p').
      * unfold raise_v, raise_at. change (p_err (advance (with_sub q s) 1)) with (p_err p).
        change (p_err p') with (p_err p).
        replace (0 <=? p_err p) with true by (symmetry; apply Z.leb_le; exact He).
        reflexivity.
      * change (p_err (advance (with_sub q s) 1)) with (p_err p). change (p_err p') with (p_err p).
        replace (0 <=? p_err p) with true by (symmetry; apply Z.leb_le; exact He).
        cbn [rev]. f_equal. unfold buf_append. unfold p', q, advance, with_sub, with_pos, with_buf.
        cbn [p_buf p_pos p_vpos p_epos p_err p_vcount p_nest p_auto p_st p_sub p_cp0 p_cp1 p_lcl p_user].
        rewrite <- app_assoc. reflexivity.
    + assert (bstep q ch = with_buf p' (p_buf p' ++ rev (ch :: done))) as Hb2.
      { rewrite Hb. cbv zeta. rewrite chk_within.
        - change (p_err (advance (with_sub q s) 1)) with (p_err p).
          replace (0 <=? p_err p) with true by (symmetry; apply Z.leb_le; exact He).
          unfold buf_append, p', q, advance, with_sub, with_pos, with_buf.
          cbn [p_buf p_pos p_vpos p_epos p_err p_vcount p_nest p_auto p_st p_sub p_cp0 p_cp1 p_lcl p_user rev].
          rewrite <- app_assoc. reflexivity.
        - destruct Hw as [K|K]; [left; exact K|right].
          change (consumed (advance (with_sub q s) 1)) with (consumed p').
          rewrite Hcp'. cbn [length] in K. lia. }
      assert (p_sub p' <> 0) as Hs' by (exact (number_next_nz _ _ _ En)).
      specialize (IH p' (ch :: done) Ha He Hs').
      assert (within (max_number_len cfg) p' (Z.of_nat (length (ch2 :: rest2)))) as Hw'.
      { destruct Hw as [K|K]; [left; exact K|right]. rewrite Hcp'. cbn [length] in *. lia. }
      assert (ch2 :: rest2 <> [] -> max_number_len cfg = 0 \/ consumed p' <= max_number_len cfg) as Hc'.
      { intros _. destruct Hw as [K|K]; [left; exact K|right]. rewrite Hcp'. cbn [length] in *. lia. }
      specialize (IH Hw' Hc'). cbv zeta in IH.
      change (bsteps q (ch :: ch2 :: rest2)) with (bsteps (bstep q ch) (ch2 :: rest2)).
      rewrite Hb2.
      destruct (number_loop cfg cb p' (ch :: done) (ch2 :: rest2)) as [[p1 done1] [off|]].
      * destruct IH as [(A & B & C)|(A & B & n & C & D & E & _)].
        -- left. split; [exact A|]. split; [exact B|]. cbn [length] in *. lia.
        -- right. split; [exact A|]. split; [exact B|]. exists (S n). cbn [length] in *.
           split; [lia|]. split; [lia|]. split; [exact E|]. intros K; discriminate K.
      * destruct IH as (A & B & C & D & E). split; [cbn [length] in *; lia|].
        split; [exact B|]. split; [exact C|]. split; [exact D|]. intros _.
        apply E. discriminate.
  - destruct (has (p_sub p) N_END && is_boundary ch) eqn:Ee.
    + set (p1 := match p_buf p with
                 | [] => process cfg cb p JSON_NUMBER (rev done)
                 | _ :: _ => let p2 := buf_append p (rev done) in process cfg cb p2 JSON_NUMBER (p_buf p2)
                 end).
      assert (norm p1 = norm (process cfg cb q JSON_NUMBER (p_buf q))) as Hp1.
      { unfold p1, q. cbn [p_buf with_buf]. rewrite process_buf. destruct (p_buf p) as [|b0 b] eqn:Eb.
        - reflexivity.
        - cbv zeta. unfold buf_append. rewrite process_buf. cbn [p_buf with_buf].
          rewrite Eb. reflexivity. }
      assert (bstep q ch = bstep (process cfg cb q JSON_NUMBER (p_buf q)) ch) as Hb.
      { apply bstep_again; [exact Hqe|exact Hqm| |].
        - rewrite Hsb. unfold number_byte. rewrite Hns. change (p_sub q) with (p_sub p).
          rewrite En, Ee. reflexivity.
        - destruct (process_main q JSON_NUMBER (p_buf q)) as [K|[K _]]; [left|right]; exact K. }
      assert (norm (bsteps q (ch :: rest)) = norm (bsteps p1 (ch :: rest))) as Hall.
      { change (bsteps q (ch :: rest)) with (bsteps (bstep q ch) rest). rewrite Hb.
        change (bsteps (bstep ?x ch) rest) with (bsteps x (ch :: rest)).
        symmetry. apply (bsteps_norm (ch :: rest)). exact Hp1. }
      destruct (Z_lt_le_dec (p_err p1) 0) as [K|K].
      * left. split; [exact K|]. split; [|cbn [length]; lia].
        rewrite Hall. rewrite bsteps_err by exact K. reflexivity.
      * right. split; [reflexivity|]. split.
        -- pose proof (norm_ok _ _ Hp1 K) as Heq. rewrite Heq.
           destruct (process_main q JSON_NUMBER (p_buf q)) as [K2|[K2 _]]; [|exact K2].
           rewrite <- Heq in K2. lia.
        -- exists 0%nat. split; [lia|]. split; [lia|]. cbn [skipn]. split; [exact Hall|].
           intros _. cbn [hd]. rewrite Hsb. unfold number_byte. rewrite Hns.
           change (p_sub q) with (p_sub p). rewrite En, Ee. reflexivity.
    + left. assert (p_err (raise_v p ERR_SYNTAX) < 0) as K by (apply raise_at_err; reflexivity).
      split; [exact K|]. split; [|lia].
      change (bsteps q (ch :: rest)) with (bsteps (bstep q ch) rest).
      rewrite (bstep_sub q ch (raise_v q ERR_SYNTAX)); [|exact Hqe|exact Hqm|].
      * assert (p_err (raise_v q ERR_SYNTAX) < 0) as K2 by (apply raise_at_err; reflexivity).
        rewrite bsteps_err by exact K2.
        unfold raise_v, raise_at. change (p_err q) with (p_err p).
        replace (0 <=? p_err p) with true by (symmetry; apply Z.leb_le; exact He).
        reflexivity.
      * rewrite Hsb. unfold number_byte. rewrite Hns. change (p_sub q) with (p_sub p).
        rewrite En, Ee. reflexivity.
Qed.

Lemma number_sub_idem : forall p, number_sub (number_sub p) = number_sub p.
Proof.
  intros. unfold number_sub. destruct (p_sub p =? 0) eqn:E; cbn.
  - reflexivity.
  - rewrite E. reflexivity.
Qed.

Lemma bsteps_number_sub : forall p rest, rest <> [] -> p_auto p = A_NUMBER ->
  0 <= p_err p -> bsteps p rest = bsteps (number_sub p) rest.
Proof.
  intros p rest Hn Ha He. destruct rest as [|ch rest]; [contradiction|].
  change (bsteps ?x (ch :: rest)) with (bsteps (bstep x ch) rest).
  f_equal. unfold bstep.
  assert (p_err (number_sub p) = p_err p /\ p_auto (number_sub p) = p_auto p) as [E1 E2]
      by (unfold number_sub; destruct (p_sub p =? 0); split; reflexivity).
  rewrite E1, E2, Ha. unfold sub_byte. rewrite E2, Ha.
  replace (p_err p <? 0) with false by (symmetry; apply Z.ltb_ge; lia).
  unfold number_byte. rewrite number_sub_idem. reflexivity.
Qed.

Lemma number_auto_spec : forall p rest, p_auto p = A_NUMBER -> 0 <= p_err p -> inv p ->
  rest <> [] ->
  exists r, dispatch cfg cb p (Some rest) = Some r /\ sub_ok p rest r.
Proof.
  intros p rest Ha He Hi Hn.
  assert (max_number_len cfg = 0 \/ consumed p <= max_number_len cfg) as Hc.
  { destruct Hi as [Hi|Hi]; [lia|]. rewrite Ha in Hi. exact Hi. }
  assert (0 <= max_number_len cfg) as Hm by apply Hcfg.
  destruct (limited_split (max_number_len cfg) p rest Hm Hc) as (r & Er & Hw & Hne).
  specialize (Hne Hn).
  unfold dispatch. rewrite Ha. eexists. split; [reflexivity|].
  unfold number_auto.
  set (bytes := limited (max_number_len cfg) p rest) in *.
  assert ((if p_sub p =? 0 then with_sub p (N_M_SIGN + N_M_FIRST) else p) = number_sub p) as Ens by reflexivity.
  rewrite Ens.
  set (q := number_sub p) in *.
  assert (p_auto q = A_NUMBER) as Hqa by (unfold q, number_sub; destruct (p_sub p =? 0); exact Ha).
  assert (p_err q = p_err p) as Hqe by (unfold q, number_sub; destruct (p_sub p =? 0); reflexivity).
  assert (consumed q = consumed p) as Hqc by (unfold q, number_sub; destruct (p_sub p =? 0); reflexivity).
  assert (p_sub q <> 0) as Hqs.
  { unfold q, number_sub. destruct (p_sub p =? 0) eqn:E; [discriminate|apply Z.eqb_neq; exact E]. }
  pose proof (number_loop_spec bytes q [] Hqa) as L.
  assert (0 <= p_err q) as Hqe' by lia.
  assert (within (max_number_len cfg) q (Z.of_nat (length bytes))) as Hqw by (unfold within; rewrite Hqc; exact Hw).
  assert (bytes <> [] -> max_number_len cfg = 0 \/ consumed q <= max_number_len cfg) as Hqc'
      by (intros _; rewrite Hqc; exact Hc).
  specialize (L Hqe' Hqs Hqw Hqc').
  cbv zeta in L. cbn [rev] in L. rewrite app_nil_r in L.
  assert (with_buf q (p_buf q) = q) as Ewb by (clear; destruct q; reflexivity).
  rewrite Ewb in L.
  assert (bsteps p rest = bsteps (bsteps q bytes) r) as Eall.
  { rewrite (bsteps_number_sub p rest Hn Ha He). fold q. rewrite Er at 1. apply bsteps_app. }
  assert (length rest = length bytes + length r)%nat as Elen by (rewrite Er, app_length; reflexivity).
  destruct (number_loop cfg cb q [] bytes) as [[p1 done1] [off|]].
  - destruct L as [(A & B & C)|(A & B & n & C & D & E & F)].
    + unfold sub_ok. split; [|split; [cbn [length] in C; lia|split; [left; exact A|left; exact A]]].
      rewrite Eall. rewrite (bsteps_err (skipn off rest) p1 A). rewrite <- B.
      pose proof (norm_err _ _ B) as Eb. rewrite bsteps_err by lia. reflexivity.
    + unfold sub_ok. cbn [length] in C. subst off.
      split; [|split; [lia|split]].
      * rewrite Eall. rewrite Er. rewrite C. rewrite skipn_app_le by exact D. rewrite bsteps_app.
        apply bsteps_norm. exact E.
      * right. rewrite B. exact Logic.I.
      * destruct n; [|right; left; lia]. right. right. split; [exact B|].
        specialize (F eq_refl).
        assert (hd 0 bytes = hd 0 rest) as Ehd by (rewrite Er; destruct bytes; [contradiction|reflexivity]).
        rewrite Ehd in F. unfold sub_byte in *. rewrite Hqa in F. rewrite Ha.
        unfold number_byte in *. unfold q in F. rewrite number_sub_idem in F. exact F.
  - destruct L as (A & B & C & D & E). specialize (E Hne). cbn [length] in A.
    assert ((if over_long (max_number_len cfg) p1 then raise_v p1 ERR_MAXNUMBERLEN else p1)
            = chk (max_number_len cfg) ERR_MAXNUMBERLEN p1) as Ec by reflexivity.
    rewrite Ec. set (p2 := chk (max_number_len cfg) ERR_MAXNUMBERLEN p1) in *.
    assert (length done1 <> 0)%nat as Hd0 by (rewrite A; destruct bytes; [contradiction|cbn; lia]).
    destruct (Nat.eqb_spec (length done1) 0) as [K|K]; [contradiction|]. cbn [negb].
    rewrite andb_true_r.
    assert (p_buf p2 = p_buf q) as Epb.
    { unfold p2, chk, raise_v, raise_at. destruct (over_long _ p1); [|exact C].
      destruct (0 <=? p_err p1); exact C. }
    assert ((if 0 <=? p_err p2 then buf_append p2 (rev done1) else p2) =
            (if 0 <=? p_err p2 then with_buf p2 (p_buf q ++ rev done1) else p2)) as Ef.
    { unfold buf_append. rewrite Epb. reflexivity. }
    rewrite Ef. set (p3 := if 0 <=? p_err p2 then with_buf p2 (p_buf q ++ rev done1) else p2) in *.
    unfold sub_ok. split; [|split; [lia|split; [|right; left; lia]]].
    + rewrite Eall. rewrite Er. rewrite skipn_app_le by lia. replace (length done1) with (length bytes) by lia. rewrite skipn_all.
      cbn [app]. apply bsteps_norm. exact E.
    + destruct (Z_lt_le_dec (p_err p3) 0) as [K3|K3]; [left; exact K3|]. right.
      assert (p_err p3 = p_err p2) as E3 by (unfold p3; destruct (0 <=? p_err p2); reflexivity).
      assert (p_auto p3 = A_NUMBER) as E4.
      { unfold p3. destruct (0 <=? p_err p2); cbn; unfold p2; rewrite chk_auto; exact B. }
      rewrite E4. rewrite E3 in K3.
      assert (ERR_MAXNUMBERLEN < 0) as Hneg by reflexivity.
      pose proof (chk_ok (max_number_len cfg) ERR_MAXNUMBERLEN p1 Hneg K3) as Hck. fold p2 in Hck.
      unfold p3. destruct (0 <=? p_err p2); exact Hck.
Qed.

(** ** Literals *)

Definition lit_of (a : automaton) : option (jtype * list Z) :=
  match a with
  | A_NULL => Some (JSON_NULL, lit_null)
  | A_FALSE => Some (JSON_FALSE, lit_false)
  | A_TRUE => Some (JSON_TRUE, lit_true)
  | _ => None
  end.

Lemma lit_inv : forall a t lit p, lit_of a = Some (t, lit) -> p_auto p = a -> inv p.
Proof.
  intros a t lit p H Ha. right. rewrite Ha. destruct a; try discriminate H; exact Logic.I.
Qed.

Lemma literal_loop_spec : forall a t lit rest p off,
  lit_of a = Some (t, lit) -> p_auto p = a -> 0 <= p_err p ->
  match literal_loop lit p rest off with
  | (p1, None) => p_err p1 < 0 /\ bsteps p rest = p1
  | (p1, Some (rest1, off1)) =>
      exists n, off1 = (off + n)%nat /\ rest1 = skipn n rest /\ (n <= length rest)%nat /\
        bsteps p rest = bsteps p1 rest1 /\ p_auto p1 = a /\ p_err p1 = p_err p /\
        (rest1 <> [] -> Z.of_nat (length lit) <= p_sub p1) /\
        (n = 0%nat -> p1 = p)
  end.
Proof.
  intros a t lit rest. induction rest as [|ch rest IH]; intros p off Hl Ha He.
  { cbn [literal_loop].
    destruct (Z.of_nat (length lit) <=? p_sub p) eqn:E; (exists 0%nat; repeat split; try lia; try assumption;
      intros K; contradiction). }
  cbn [literal_loop].
  assert (p_auto p <> A_MAIN) as Hm by (rewrite Ha; destruct a; discriminate).
  assert (sub_byte p ch = literal_byte t lit p ch) as Hsb.
  { unfold sub_byte. rewrite Ha. destruct a; try discriminate Hl; inversion Hl; reflexivity. }
  assert (0 < Z.of_nat (length lit)) as Hpos by (destruct a; inversion Hl; subst; reflexivity).
  destruct (Z.of_nat (length lit) <=? p_sub p) eqn:E.
  - exists 0%nat. apply Z.leb_le in E. repeat split; try lia; try assumption.
  - destruct (negb (ch =? nth (Z.to_nat (p_sub p)) lit 0)) eqn:E2.
    + assert (p_err (raise_v p ERR_SYNTAX) < 0) as K by (apply raise_at_err; reflexivity).
      split; [exact K|].
      change (bsteps p (ch :: rest)) with (bsteps (bstep p ch) rest).
      rewrite (bstep_sub p ch (raise_v p ERR_SYNTAX) He Hm).
      * apply bsteps_err. exact K.
      * rewrite Hsb. unfold literal_byte. rewrite E, E2. reflexivity.
    + set (p' := with_sub (advance p 1) (p_sub p + 1)).
      assert (bstep p ch = p') as Hb.
      { apply bstep_sub; [exact He|exact Hm|]. rewrite Hsb. unfold literal_byte. rewrite E, E2. reflexivity. }
      change (bsteps p (ch :: rest)) with (bsteps (bstep p ch) rest). rewrite Hb.
      specialize (IH p' (S off) Hl Ha He).
      destruct (literal_loop lit p' rest (S off)) as [p1 [[rest1 off1]|]].
      * destruct IH as (n & A & B & C & D & F & G & H & I). exists (S n). cbn [skipn length].
        repeat split; try lia; try assumption.
      * exact IH.
Qed.

Lemma literal_auto_spec : forall a t lit p rest,
  lit_of a = Some (t, lit) -> p_auto p = a -> 0 <= p_err p -> rest <> [] ->
  exists r, dispatch cfg cb p (Some rest) = Some r /\ sub_ok p rest r.
Proof.
  intros a t lit p rest Hl Ha He Hn.
  assert (dispatch cfg cb p (Some rest) = Some (literal_auto cfg cb t lit p (Some rest))) as Ed.
  { unfold dispatch. rewrite Ha. destruct a; inversion Hl; subst; reflexivity. }
  rewrite Ed. eexists. split; [reflexivity|]. clear Ed.
  unfold literal_auto. pose proof (literal_loop_spec a t lit rest p 0 Hl Ha He) as L.
  destruct (literal_loop lit p rest 0) as [p1 [[rest1 off1]|]].
  - destruct L as (n & A & B & C & D & F & G & H & J). cbn in A. subst off1.
    destruct rest1 as [|ch rest1'].
    + unfold sub_ok. rewrite D. rewrite <- B. cbn [bsteps fold_left].
      split; [reflexivity|]. split; [exact C|]. split; [eapply lit_inv; eassumption|].
      right. left. assert (length (skipn n rest) = 0)%nat as K by (rewrite <- B; reflexivity).
      rewrite skipn_length in K. destruct rest as [|x0 l0]; [contradiction|cbn [length] in K; lia].
    + specialize (H ltac:(discriminate)).
      assert (p_auto p1 <> A_MAIN) as Hm by (rewrite F; destruct a; discriminate).
      assert (0 <= p_err p1) as He1 by lia.
      assert (sub_byte p1 ch = literal_byte t lit p1 ch) as Hsb.
      { unfold sub_byte. rewrite F. destruct a; try discriminate Hl; inversion Hl; reflexivity. }
      unfold literal_byte in Hsb.
      replace (Z.of_nat (length lit) <=? p_sub p1) with true in Hsb by (symmetry; apply Z.leb_le; exact H).
      destruct (is_boundary ch).
      * unfold sub_ok. split; [|split; [exact C|split; [apply process_inv|]]].
        -- rewrite D, <- B. change (bsteps ?x (ch :: rest1')) with (bsteps (bstep x ch) rest1').
           do 2 f_equal. apply bstep_again; [exact He1|exact Hm|exact Hsb|].
           destruct (process_main p1 t []) as [K|[K _]]; [left|right]; exact K.
        -- destruct (process_main p1 t []) as [K|[K _]]; [left; exact K|right].
           destruct n; [right|left; lia]. split; [exact K|]. specialize (J eq_refl). subst p1.
           cbn [skipn] in B. rewrite <- B. cbn [hd]. rewrite Hsb. reflexivity.
      * unfold sub_ok.
        assert (p_err (raise (with_pos p1 (p_vpos p1)) ERR_SYNTAX) < 0) as K by (apply raise_at_err; reflexivity).
        split; [|split; [exact C|split; left; exact K]].
        rewrite D, <- B. rewrite (bsteps_err (ch :: rest1') _ K).
        change (bsteps p1 (ch :: rest1')) with (bsteps (bstep p1 ch) rest1').
        rewrite (bstep_sub p1 ch _ He1 Hm Hsb). rewrite bsteps_err by exact K. reflexivity.
  - destruct L as [A B]. unfold sub_ok. rewrite B. rewrite bsteps_err by exact A.
    split; [reflexivity|]. split; [lia|]. split; left; exact A.
Qed.

Lemma sub_auto_spec : forall p rest, p_auto p <> A_MAIN -> 0 <= p_err p -> inv p -> rest <> [] ->
  exists r, dispatch cfg cb p (Some rest) = Some r /\ sub_ok p rest r.
Proof.
  intros p rest Hm He Hi Hn. destruct (p_auto p) eqn:Ea; [contradiction| | | | | |].
  - eapply literal_auto_spec with (a := A_NULL); eauto. reflexivity.
  - eapply literal_auto_spec with (a := A_FALSE); eauto. reflexivity.
  - eapply literal_auto_spec with (a := A_TRUE); eauto. reflexivity.
  - apply number_auto_spec; assumption.
  - apply (string_auto_spec JSON_STRING); try assumption. left. split; [reflexivity|exact Ea].
  - apply (string_auto_spec JSON_KEY); try assumption. right. split; [reflexivity|exact Ea].
Qed.

(** ** The main automaton *)

Lemma raise_unexpected_err : forall p, p_err (raise_unexpected p) < 0.
Proof.
  intros. unfold raise_unexpected. apply raise_at_err.
  repeat (destruct (_ =? _); [reflexivity|]). reflexivity.
Qed.

(** When the main automaton hands a character to a literal or number
    automaton, that one consumes it. *)
Lemma main_iter_spec : forall p ch, p_auto p = A_MAIN -> 0 <= p_err p ->
  match main_iter cfg cb p ch with
  | MStop p1 => p_err p1 < 0
  | MNext p1 => inv (new_line (advance p1 1) ch)
  | MAgain p1 =>
      p_err p1 < 0 \/
      (p_auto p1 <> A_MAIN /\ p_err p1 = p_err p /\ inv p1 /\ snd (sub_byte p1 ch) = true)
  end.
Proof.
  intros p ch Ha He. unfold main_iter.
  assert (forall e, e < 0 -> p_err (raise p e) < 0) as Hr by (intros; apply raise_at_err; assumption).
  assert (forall q, inv q -> (p_auto q = A_MAIN \/ p_err q < 0) -> inv (new_line (advance q 1) ch)) as Hnl.
  { intros q Hq [K|K].
    - right. assert (p_auto (new_line (advance q 1) ch) = A_MAIN) as ->; [|exact Logic.I].
      unfold new_line. destruct (ch =? 13); [exact K|]. destruct (ch =? 10); exact K.
    - left. unfold new_line. destruct (ch =? 13); [exact K|]. destruct (ch =? 10); exact K. }
  assert (forall q t d, inv (new_line (advance (process cfg cb q t d) 1) ch)) as Hpr.
  { intros. apply Hnl; [apply process_inv|]. destruct (process_main q t d) as [K|[K _]]; auto. }
  assert (forall st, inv (new_line (advance (with_st p st) 1) ch)) as Hst.
  { intros. apply Hnl; [|left; exact Ha]. right. cbn. rewrite Ha. exact Logic.I. }
  destruct (_ && _).
  { destruct (_ && _); [apply Hr; reflexivity|]. apply Hpr. }
  destruct (_ && _).
  { destruct (negb _); [apply Hr; reflexivity|]. apply Hpr. }
  destruct (_ && _); [apply Hst|].
  destruct (_ && _); [apply Hst|].
  assert (forall (t : jtype) m, 0 <= m -> m = 0 \/ 1 <= (if 0 <? m then m + 1 else m)) as Hlim.
  { intros _ m Hm. destruct (0 <? m) eqn:E; [apply Z.ltb_lt in E|apply Z.ltb_ge in E]; lia. }
  destruct (has (p_st p) CAN_SEE_VALUE && (ch =? 34)) eqn:Eq.
  { apply andb_true_iff in Eq. destruct Eq as [_ Eq]. apply Z.eqb_eq in Eq. subst ch.
    right. cbn. unfold limit_of. destruct Hcfg as (_ & A & B).
    destruct (0 <? max_string_len cfg) eqn:E; [apply Z.ltb_lt in E|apply Z.ltb_ge in E; left; lia].
    right. unfold consumed. cbn. lia. }
  destruct (has (p_st p) CAN_SEE_KEY && (ch =? 34)) eqn:Eq2.
  { apply andb_true_iff in Eq2. destruct Eq2 as [_ Eq2]. apply Z.eqb_eq in Eq2. subst ch.
    right. cbn. unfold limit_of. destruct Hcfg as (_ & A & B).
    destruct (0 <? max_key_len cfg) eqn:E; [apply Z.ltb_lt in E|apply Z.ltb_ge in E; left; lia].
    right. unfold consumed. cbn. lia. }
  destruct (has (p_st p) CAN_SEE_VALUE && (is_in ch 97 122 || is_in ch 65 90)).
  { destruct (ch =? 110) eqn:E1.
    { right. split; [discriminate|]. split; [reflexivity|]. split; [right; exact Logic.I|].
      apply Z.eqb_eq in E1. subst ch. reflexivity. }
    destruct (ch =? 102) eqn:E2.
    { right. split; [discriminate|]. split; [reflexivity|]. split; [right; exact Logic.I|].
      apply Z.eqb_eq in E2. subst ch. reflexivity. }
    destruct (ch =? 116) eqn:E3.
    { right. split; [discriminate|]. split; [reflexivity|]. split; [right; exact Logic.I|].
      apply Z.eqb_eq in E3. subst ch. reflexivity. }
    left. apply Hr. reflexivity. }
  destruct (has (p_st p) CAN_SEE_VALUE && (is_digit ch || (ch =? 45))) eqn:En.
  { right. split; [discriminate|]. split; [reflexivity|]. split.
    - right. cbn. destruct Hcfg as (A & _). right. unfold consumed. cbn. lia.
    - apply andb_true_iff in En. destruct En as [_ En].
      unfold sub_byte. cbn [p_auto switch]. unfold number_byte, number_sub.
      cbn [p_sub switch Z.eqb with_sub]. unfold number_next.
      destruct (ch =? 45) eqn:E1; [reflexivity|].
      rewrite orb_false_r in En. rewrite En. reflexivity. }
  destruct (negb (is_ws ch)); [apply raise_unexpected_err|].
  apply Hnl; [right; rewrite Ha; exact Logic.I|left; exact Ha].
Qed.

(** Feeding a chunk is feeding its bytes one at a time. *)
Lemma inv_norm : forall p q, norm p = norm q -> inv p -> inv q.
Proof.
  intros p q H Hi. destruct (Z_lt_le_dec (p_err p) 0) as [K|K].
  - left. rewrite <- (norm_err _ _ H). exact K.
  - rewrite <- (norm_ok _ _ H K). exact Hi.
Qed.

Definition need p (rest : list Z) : nat :=
  match rest with
  | [] => 1
  | _ => 3 * length rest + (match p_auto p with A_MAIN => 1 | _ => 2 end)
  end.

Lemma feed_loop_spec : forall fuel p rest, inv p -> (need p rest <= fuel)%nat ->
  exists p', feed_loop cfg cb fuel p rest = Some p' /\ norm p' = norm (bsteps p rest) /\ inv p'.
Proof.
  induction fuel as [fuel IH] using lt_wf_ind. intros p rest Hi Hf.
  destruct fuel as [|fuel]; [unfold need in Hf; destruct rest; [lia|destruct (p_auto p); lia]|].
  cbn [feed_loop]. destruct rest as [|ch rest']; [exists p; repeat split; exact Hi|].
  destruct (p_err p <? 0) eqn:E.
  { apply Z.ltb_lt in E. exists p. rewrite bsteps_err by exact E. repeat split. left. exact E. }
  apply Z.ltb_ge in E.
  assert (p_auto p = A_MAIN \/ p_auto p <> A_MAIN) as [Ha|Ha] by (destruct (p_auto p); (left; reflexivity) || (right; discriminate)).
  - rewrite Ha.
    assert (bstep p ch = main_byte p ch) as Hb.
    { unfold bstep. replace (p_err p <? 0) with false by (symmetry; apply Z.ltb_ge; exact E).
      rewrite Ha. reflexivity. }
    change (bsteps p (ch :: rest')) with (bsteps (bstep p ch) rest').
    unfold main_byte in Hb. pose proof (main_iter_spec p ch Ha E) as Hm.
    destruct (main_iter cfg cb p ch) as [p1|p1|p1].
    + exists p1. split; [reflexivity|]. rewrite Hb, bsteps_err by exact Hm. split; [reflexivity|left; exact Hm].
    + destruct (p_err p1 <? 0) eqn:E1.
      * apply Z.ltb_lt in E1. destruct fuel as [|fuel]; [unfold need in Hf; rewrite Ha in Hf; cbn in Hf; lia|].
        exists p1. cbn [feed_loop]. replace (p_err p1 <? 0) with true by (symmetry; apply Z.ltb_lt; exact E1).
        split; [reflexivity|]. rewrite Hb, bsteps_err by exact E1. split; [reflexivity|left; exact E1].
      * apply Z.ltb_ge in E1. destruct Hm as [Hm|(H1 & H2 & H3 & H4)]; [lia|].
        destruct fuel as [|fuel]; [unfold need in Hf; rewrite Ha in Hf; cbn in Hf; lia|].
        assert (bstep p ch = bstep p1 ch) as Hb1.
        { rewrite Hb. symmetry. destruct (sub_byte p1 ch) as [p2 d] eqn:Es. cbn in H4. subst d.
          apply bstep_sub; assumption. }
        rewrite Hb1. change (bsteps (bstep p1 ch) rest') with (bsteps p1 (ch :: rest')).
        (* the automaton consumes at least this character *)
        destruct (sub_auto_spec p1 (ch :: rest') H1 E1 H3 ltac:(discriminate)) as ([p2 n] & Ed & R1 & R2 & R3 & R4).
        assert (feed_loop cfg cb (S fuel) p1 (ch :: rest') =
                if p_err p2 <? 0 then Some p2 else feed_loop cfg cb fuel p2 (skipn n (ch :: rest'))) as Ef.
        { cbn [feed_loop]. replace (p_err p1 <? 0) with false by (symmetry; apply Z.ltb_ge; exact E1).
          rewrite Ed. destruct (p_auto p1); try reflexivity. contradiction. }
        rewrite Ef. destruct (p_err p2 <? 0) eqn:E2.
        -- apply Z.ltb_lt in E2. exists p2. split; [reflexivity|].
           rewrite R1. rewrite bsteps_err by exact E2. split; [reflexivity|exact R3].
        -- apply Z.ltb_ge in E2.
           assert (0 < n)%nat as Hn.
           { destruct R4 as [R4|[R4|[_ R4]]]; [lia|lia|]. cbn [hd] in R4. congruence. }
           destruct (IH fuel ltac:(lia) p2 (skipn n (ch :: rest')) R3) as (p' & A & B & C).
           { unfold need in *. rewrite Ha in Hf. cbn [length] in *.
             destruct (skipn n (ch :: rest')) as [|x l] eqn:Esk; [lia|].
             assert (length (x :: l) = S (length rest') - n)%nat as El by (rewrite <- Esk, skipn_length; reflexivity).
             cbn [length] in *. destruct (p_auto p2); lia. }
           exists p'. split; [exact A|]. split; [rewrite B, R1; reflexivity|exact C].
    + destruct (IH fuel ltac:(lia) (new_line (advance p1 1) ch) rest' Hm) as (p' & A & B & C).
      { unfold need in *. rewrite Ha in Hf. cbn [length] in Hf.
        destruct rest' as [|x0 l0]; [lia|]. cbn [length] in *.
        match goal with |- context [p_auto ?z] => destruct (p_auto z) end; lia. }
      exists p'. split; [exact A|]. rewrite Hb. split; [exact B|exact C].
  - destruct (sub_auto_spec p (ch :: rest') Ha E Hi ltac:(discriminate)) as ([p2 n] & Ed & R1 & R2 & R3 & R4).
    rewrite Ed.
    assert (exists p', (if p_err p2 <? 0 then Some p2 else feed_loop cfg cb fuel p2 (skipn n (ch :: rest'))) = Some p' /\
             norm p' = norm (bsteps p (ch :: rest')) /\ inv p') as Hx.
    { destruct (p_err p2 <? 0) eqn:E2.
      - apply Z.ltb_lt in E2. exists p2. split; [reflexivity|].
        rewrite R1. rewrite bsteps_err by exact E2. split; [reflexivity|exact R3].
      - apply Z.ltb_ge in E2.
        destruct (IH fuel ltac:(lia) p2 (skipn n (ch :: rest')) R3) as (p' & A & B & C).
        { unfold need in *. cbn [length] in *.
          destruct (skipn n (ch :: rest')) as [|x l] eqn:Esk; [destruct (p_auto p); lia|].
          assert (length (x :: l) = S (length rest') - n)%nat as El by (rewrite <- Esk, skipn_length; reflexivity).
          cbn [length] in *.
          destruct R4 as [R4|[R4|R4]].
          - lia.
          - destruct (p_auto p2), (p_auto p); try contradiction; lia.
          - destruct R4 as [R4 _]. rewrite R4. destruct (p_auto p); try contradiction; lia. }
        exists p'. split; [exact A|]. split; [rewrite B, R1; reflexivity|exact C]. }
    destruct (p_auto p); try exact Hx. contradiction.
Qed.
End P.
