(** * C54: where an error is reported *)
Require Import ZArith List Bool Lia String.
From Verif Require Import Json JsonProofs JsonChunks JsonLength JsonText JsonProps JsonPosSpec JsonPos JsonNest.
Import ListNotations.
Open Scope Z_scope.

(** A fresh parser takes all of [text] without failing. *)
Definition taken {U} cfg (cb : jtype -> list Z -> U -> Z * U) u (text : list Z) : Prop :=
  exists p, json_feed cfg cb (json_init u) text = Some p /\ 0 <= p_err p.

(** The position [x] reported for a failure is in [doc]: [ok ++ more] is the longest beginning of [doc] that is taken,
    and [x] is right after [ok]. *)
Definition locates {U} cfg (cb : jtype -> list Z -> U -> Z * U) u (doc : list Z) (x : jpos) : Prop :=
  exists ok more rest, doc = ok ++ more ++ rest /\ is_after ok x /\ taken cfg cb u ok /\ taken cfg cb u (ok ++ more) /\
    (forall c rest', rest = c :: rest' -> ~ taken cfg cb u (ok ++ more ++ [c])).

(** The callback refused something, with the code reported; or an array or object is not allowed as the root. *)
Definition callback_refused {U} (cb : jtype -> list Z -> U -> Z * U) (code : Z) : Prop := exists t data w, fst (cb t data w) = code.
Definition root_not_allowed (cfg : jconfig) (code : Z) : Prop :=
  code = ERR_BADROOTTYPE /\ (Z.testbit (cflags cfg) NOARRAYASROOT = true \/ Z.testbit (cflags cfg) NOOBJECTASROOT = true).

Lemma taken_bsteps : forall (U : Type) cfg (cb : jtype -> list Z -> U -> Z * U) u text,
  config_ok cfg -> not_too_long cfg text -> (taken cfg cb u text <-> 0 <= p_err (bsteps cfg cb (json_init u) text)).
Proof.
  intros U cfg cb u text (_ & Hc) Hl. unfold taken.
  destruct (json_feed_spec cfg cb Hc (json_init u) text (inv_init cfg u)) as (p' & E & Hn & _); [exact Hl|].
  rewrite E. rewrite <- (norm_err _ _ Hn). split; [intros (p & H & K); congruence|]. intros H. exists p'. split; [reflexivity|exact H].
Qed.
Lemma shorter_ok : forall cfg a b, not_too_long cfg (a ++ b) -> not_too_long cfg a.
Proof. intros cfg a b [H|H]; [left; exact H|right]. rewrite app_length in H. lia. Qed.
Lemma bsteps_prefix : forall (U : Type) cfg (cb : jtype -> list Z -> U -> Z * U) u a b,
  0 <= p_err (bsteps cfg cb (json_init u) (a ++ b)) -> 0 <= p_err (bsteps cfg cb (json_init u) a).
Proof.
  intros U cfg cb u a b H. destruct (Z_lt_le_dec (p_err (bsteps cfg cb (json_init u) a)) 0) as [L|L]; [|exact L].
  rewrite bsteps_app, bsteps_err in H; lia.
Qed.

(** The position reported for an accepted document is its end; the position reported for a failure locates it, unless it
    is the callback's or it is about an array or object as the root: then the position is 0, line 0, column 0. *)
Theorem C54_position_partial :
  forall (U : Type) (cfg : jconfig) (cb : jtype -> list Z -> U -> Z * U) (u : U) (doc : list Z) code x u',
    config_ok cfg -> 0 <= max_total_values cfg -> not_too_long cfg doc ->
    Z.of_nat (List.length doc) < 2 ^ 64 - 2 ->
    json_parse cfg cb u doc = Some (code, x, u') ->
    (0 <= code -> is_after doc x) /\
    (code < 0 -> locates cfg cb u doc x \/ (nowhere x /\ (callback_refused cb code \/ root_not_allowed cfg code))).
Proof.
  intros U cfg cb u doc code x u' Hok Hv Hl Hlen H. pose proof Hok as (_ & Hc).
  rewrite (json_parse_spec cfg cb Hc) in H by exact Hl.
  destruct (bsteps_ninv cfg cb doc u) as [NU _].
  assert (BL : forall d0 rest, doc = d0 ++ rest -> 0 <= p_err (bsteps cfg cb (json_init u) d0) ->
    (forall c rest', rest = c :: rest' -> p_err (bsteps cfg cb (json_init u) (d0 ++ [c])) < 0) ->
    position_in d0 x -> locates cfg cb u doc x).
  { intros d0 rest ED E0 EF (ok & more & -> & HA). exists ok, more, rest.
    assert (NT : forall a b, doc = a ++ b -> not_too_long cfg a) by (intros a b E; apply (shorter_ok cfg a b); rewrite <- E; exact Hl).
    split; [rewrite ED, <- app_assoc; reflexivity|]. split; [exact HA|]. split; [|split].
    - apply taken_bsteps; [exact Hok|apply (NT ok (more ++ rest)); rewrite ED, <- app_assoc; reflexivity|]. eapply bsteps_prefix. exact E0.
    - apply taken_bsteps; [exact Hok|apply (NT _ rest); exact ED|exact E0].
    - intros c rest' -> T. apply taken_bsteps in T; [|exact Hok|apply (NT _ rest'); rewrite ED, <- !app_assoc; reflexivity].
      specialize (EF c rest' eq_refl). rewrite <- app_assoc in EF. lia. }
  assert (BC : forall e, blame cfg cb e -> callback_refused cb e \/ root_not_allowed cfg e).
  { intros e [B|[B1 B2]]; [left; exact B|right; split; [exact B1|exact B2]]. }
  destruct (bsteps_pos cfg cb Hc Hv doc u Hlen) as [HI|(d0 & c & d1 & ED & E0 & E1 & HB)].
  - destruct (fini_pos cfg cb Hc Hv doc _ code x u' HI H) as [[A ->]|[A B]].
    + split; [intros _; apply pos_of_after|lia].
    + split; [lia|]. intros _. destruct B as [B|[B1 [B2|B2]]]; [left|right; split; [exact B1|apply BC; exact B2]|contradiction].
      apply (BL doc []); [rewrite app_nil_r; reflexivity|apply HI|discriminate|exact B].
  - unfold json_fini in H. replace (p_st (bsteps cfg cb (json_init u) doc) =? ST_UNINITED) with false in H by (symmetry; apply Z.eqb_neq; exact NU).
    destruct HB as [B1 B2]. replace (p_err (bsteps cfg cb (json_init u) doc) <? 0) with true in H by (symmetry; apply Z.ltb_lt; exact B1).
    replace (0 <=? p_err (bsteps cfg cb (json_init u) doc)) with false in H by (symmetry; apply Z.leb_gt; exact B1).
    inversion H; subst code x u'. split; [lia|]. intros _. destruct B2 as [B2|[B2 B3]]; [left|right; split; [exact B2|apply BC; exact B3]].
    apply (BL d0 (c :: d1)); [exact ED|exact E0| |exact B2].
    intros c' rest' E. injection E as <- <-. exact E1.
Qed.
Print Assumptions C54_position_partial.

(** If the callback never fails and arrays and objects are allowed as the root (as they are for wolfSentry), a failure
    is always located; likewise when the document is fed in pieces. *)
Theorem C54_located :
  forall (U : Type) (cfg : jconfig) (cb : jtype -> list Z -> U -> Z * U) (u : U) (pieces : list (list Z)) code x u',
    config_ok cfg -> 0 <= max_total_values cfg -> not_too_long cfg (List.concat pieces) ->
    Z.of_nat (List.length (List.concat pieces)) < 2 ^ 64 - 2 ->
    (forall t data w, 0 <= fst (cb t data w)) ->
    Z.testbit (cflags cfg) NOARRAYASROOT = false -> Z.testbit (cflags cfg) NOOBJECTASROOT = false ->
    load_chunks cfg cb u pieces = Some (code, x, u') -> code < 0 ->
    locates cfg cb u (List.concat pieces) x.
Proof.
  intros U cfg cb u pieces code x u' Hok Hv Hl Hlen Hcb HA HO H Hcode.
  destruct (C52_chunking_irrelevant U cfg cb u pieces Hok Hl) as (r & R1 & _ & R3).
  assert (r = (code, x, u')) by congruence. subst r.
  destruct (C54_position_partial U cfg cb u _ code x u' Hok Hv Hl Hlen R1) as [_ B].
  destruct (B Hcode) as [L|[_ [(t & data & w & E)|[_ [E|E]]]]]; [exact L|specialize (Hcb t data w); lia|congruence..].
Qed.
Print Assumptions C54_located.

Definition cfg0 : jconfig := JConfig 0 0 20 16384 32 16 15.
(** A refusal by the callback, which is how wolfSentry reports every mistake in the content of a configuration, is
    never located: offset 0, line 0, column 0. *)
Definition picky (t : jtype) (d : list Z) (u : list event) : Z * list event :=
  match t with JSON_NUMBER => (-1, u) | _ => (0, u) end.
Theorem C54_callback_located_refuted :
  exists doc, taken cfg0 picky [] (bytes "{""a"": ") /\ json_parse cfg0 picky [] doc = Some (-1, JPos 0 0 0, []) /\
    doc = bytes "{""a"": 17, ""b"": true}".
Proof.
  exists (bytes "{""a"": 17, ""b"": true}"). split; [|split; [vm_compute; reflexivity|reflexivity]].
  eexists. split; [vm_compute; reflexivity|]. cbn. lia.
Qed.
(** Columns are counted from 1 on the first line and from 0 on the others: the same mistake at the beginning of a line. *)
Theorem C54_columns_refuted :
  json_parse cfg0 record_cb [] (bytes "?") = Some (ERR_EXPECTEDVALUE, JPos 0 1 1, []) /\
  json_parse cfg0 record_cb [] (10 :: bytes "?") = Some (ERR_EXPECTEDVALUE, JPos 1 2 0, []).
Proof. split; vm_compute; reflexivity. Qed.
(** A value too many that is an array or object is reported at the token before it. *)
Theorem C54_value_position_refuted :
  json_parse (JConfig 0 1 20 16384 32 16 15) record_cb [] (bytes "[  [") = Some (ERR_MAXTOTALVALUES, JPos 0 1 1, [(JSON_ARRAY_BEG, [])]).
Proof. vm_compute. reflexivity. Qed.
(** The line reported for a too long document is not that of the end of what is allowed: the line end at the limit, not
    part of what is allowed, is counted (json_feed looks at the byte after the one it passes). *)
Theorem C54_too_long_refuted :
  json_parse (JConfig 3 0 20 16384 32 16 15) record_cb [] (bytes "[  " ++ 10 :: bytes "]") = Some (ERR_MAXTOTALLEN, JPos 3 2 0, []) /\
  line_at (bytes "[  ") = 1.
Proof. split; vm_compute; reflexivity. Qed.
Print Assumptions C54_callback_located_refuted.
Print Assumptions C54_columns_refuted.
Print Assumptions C54_value_position_refuted.
Print Assumptions C54_too_long_refuted.

(** Non-vacuity: a failure on the third line (CR LF counts once), located at the beginning of the wrong token. *)
Example C54_example :
  json_parse cfg0 record_cb [] (bytes "{" ++ [13; 10; 10] ++ bytes " ""a"": tru1 }") =
    Some (ERR_SYNTAX, JPos 10 3 6, [(JSON_OBJECT_BEG, []); (JSON_KEY, bytes "a")]) /\
  line_at (bytes "{" ++ [13; 10; 10] ++ bytes " ""a"": ") = 3 /\ column_at (bytes "{" ++ [13; 10; 10] ++ bytes " ""a"": ") = 6 /\
  json_parse cfg0 record_cb [] (bytes "[1,2]") = Some (0, JPos 5 1 6, [(JSON_ARRAY_BEG, []); (JSON_NUMBER, bytes "1"); (JSON_NUMBER, bytes "2"); (JSON_ARRAY_END, [])]).
Proof. split; [vm_compute; reflexivity|]. split; [vm_compute; reflexivity|]. split; vm_compute; reflexivity. Qed.
