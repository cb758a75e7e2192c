(** * C53: which documents are accepted, and with which callbacks

    The grammar ([document]), the callbacks a syntax tree calls for
    ([events]), how they are made ([deliver]) and the limits ([within]) are
    in JsonSpec.v.  [json_parse cfg cb u doc] is the code returned, the
    position reported and the final state of whatever the callback works
    on; C52 extends every statement to documents fed in pieces. *)
Require Import ZArith List Bool Lia String.
From Verif Require Import Json JsonSpec JsonProofs JsonChunks JsonLength JsonNumbers JsonComplete JsonGrammar JsonStringInv
  JsonTail JsonSound JsonText JsonProps.
Import ListNotations.
Open Scope Z_scope.

(** Every JSON text within the limits is read completely: exactly the
    callbacks its tree calls for are made, in order, up to the first that
    returns a negative code, and the code of the last one made is
    returned (0 or more: accepted). *)
Theorem C53_wellformed_accepted :
  forall (U : Type) (cfg : jconfig) (cb : jtype -> list Z -> U -> Z * U) (u : U) (doc : list Z) (v : jvalue),
    config_ok cfg -> not_too_long cfg doc ->
    document doc v -> JsonSpec.within cfg v ->
    exists pos, json_parse cfg cb u doc =
      Some (fst (deliver cb 0 u (events v)), pos, snd (deliver cb 0 u (events v))).
Proof.
  intros U cfg cb u doc v (_ & Hc) Hl Hd Hw.
  rewrite (json_parse_spec cfg cb Hc) by exact Hl.
  exact (document_accepted cfg cb Hc doc v u Hd Hw).
Qed.
Print Assumptions C53_wellformed_accepted.

(** The same, for the pieces [wolfsentry_config_json_feed] is given. *)
Theorem C53_wellformed_pieces_accepted :
  forall (U : Type) (cfg : jconfig) (cb : jtype -> list Z -> U -> Z * U) (u : U) (pieces : list (list Z)) (v : jvalue),
    config_ok cfg -> not_too_long cfg (List.concat pieces) ->
    document (List.concat pieces) v -> JsonSpec.within cfg v ->
    exists pos, load_chunks cfg cb u pieces =
      Some (fst (deliver cb 0 u (events v)), pos, snd (deliver cb 0 u (events v))).
Proof.
  intros U cfg cb u pieces v Hc Hl Hd Hw.
  destruct (C53_wellformed_accepted U cfg cb u _ v Hc Hl Hd Hw) as [pos E].
  destruct (C52_chunking_irrelevant U cfg cb u pieces Hc Hl) as (r & E1 & _ & E3).
  exists pos. congruence.
Qed.
Print Assumptions C53_wellformed_pieces_accepted.

(** The flags that ask for ill-formed UTF-8 to be let through or repaired
    are off (bits 8 to 11 of the flags). *)
Definition strict (cfg : jconfig) : Prop :=
  forall b, 8 <= b <= 11 -> Z.testbit (cflags cfg) b = false.

Lemma strict_flags : forall cfg, strict cfg -> forall t, ign_of cfg t = false /\ fix_of cfg t = false.
Proof.
  intros cfg H t. unfold ign_of, fix_of.
  split; apply H; destruct t; vm_compute; split; discriminate.
Qed.

Definition byte_list (l : list Z) : Prop := Forall (fun c => 0 <= c <= 255) l.
Definition is_alnum (c : Z) : Prop := 48 <= c <= 57 \/ 97 <= c <= 122 \/ 65 <= c <= 90.
Definition end_event (e : event) : Prop := e = (JSON_ARRAY_END, []) \/ e = (JSON_OBJECT_END, []).

Lemma accepted_reads : forall U (cfg : jconfig) (cb : jtype -> list Z -> U -> Z * U) u doc code pos u',
  config_ok cfg -> 0 <= max_nesting_level cfg -> strict cfg -> not_too_long cfg doc -> byte_list doc ->
  json_parse cfg cb u doc = Some (code, pos, u') -> 0 <= code ->
  exists k2 evs evs2 v, document (doc ++ k2) v /\ JsonSpec.within cfg v /\ events v = evs ++ evs2 /\
    (code, u') = deliver cb 0 u evs /\ ended doc k2 evs2.
Proof.
  intros U cfg cb u doc code pos u' (_ & Hc) Hn Hs Hl HB H Hcode.
  rewrite (json_parse_spec cfg cb Hc) in H by exact Hl.
  destruct (claim_all cfg cb Hc (strict_flags cfg Hs) (List.length doc) doc CAN_SEE_VALUE [] 0 (0, u) (json_init u) code u')
    as (k2 & evs & evs2 & Ht & Hd & He).
  - lia.
  - apply M_init.
  - cbn. lia.
  - split; [constructor|]. split; [left; left; reflexivity|discriminate].
  - lia.
  - exact HB.
  - exists pos. split; assumption.
  - destruct (tail_document cfg Hn _ _ Ht) as (v & Hv & Hw & Hev).
    exists k2, evs, evs2, v. repeat split; try assumption; try (symmetry; exact Hev); apply Hw.
Qed.

(** An accepted document is the beginning of a JSON text within the
    limits, and the callbacks made are those of that text.  Either it is
    that whole text, or it stops just after a letter or a digit and all
    that is missing are ends of arrays and objects. *)
Theorem C53_accepted_is_beginning :
  forall (U : Type) (cfg : jconfig) (cb : jtype -> list Z -> U -> Z * U) (u : U) (doc : list Z) code pos u',
    config_ok cfg -> 0 <= max_nesting_level cfg -> strict cfg -> not_too_long cfg doc -> byte_list doc ->
    json_parse cfg cb u doc = Some (code, pos, u') -> 0 <= code ->
    exists missing v evs unmade,
      document (doc ++ missing) v /\ JsonSpec.within cfg v /\
      events v = evs ++ unmade /\ deliver cb 0 u evs = (code, u') /\
      ((missing = [] /\ unmade = []) \/
       (exists d c, doc = d ++ [c] /\ is_alnum c) /\ Forall end_event unmade).
Proof.
  intros U cfg cb u doc code pos u' Hc Hn Hs Hl HB H Hcode.
  destruct (accepted_reads U cfg cb u doc code pos u' Hc Hn Hs Hl HB H Hcode) as (k2 & evs & evs2 & v & A & B & C & D & E).
  exists k2, v, evs, evs2. split; [exact A|]. split; [exact B|]. split; [exact C|]. split; [symmetry; exact D|exact E].
Qed.
Print Assumptions C53_accepted_is_beginning.

(** The full claim is that every accepted document is a JSON text within
    the limits whose callbacks were all made.  It is proved for documents
    that do not end in a letter or a digit; missing are the documents that
    do, for which it is false (below). *)
Theorem C53_accepted_is_wellformed_partial :
  forall (U : Type) (cfg : jconfig) (cb : jtype -> list Z -> U -> Z * U) (u : U) (doc : list Z) code pos u',
    config_ok cfg -> 0 <= max_nesting_level cfg -> strict cfg -> not_too_long cfg doc -> byte_list doc ->
    (forall d c, doc = d ++ [c] -> ~ is_alnum c) ->
    json_parse cfg cb u doc = Some (code, pos, u') -> 0 <= code ->
    exists v, document doc v /\ JsonSpec.within cfg v /\ deliver cb 0 u (events v) = (code, u').
Proof.
  intros U cfg cb u doc code pos u' Hc Hn Hs Hl HB Hlast H Hcode.
  destruct (C53_accepted_is_beginning U cfg cb u doc code pos u' Hc Hn Hs Hl HB H Hcode)
    as (k2 & v & evs & evs2 & A & B & C & D & [(-> & ->)|((d & c & E & F) & _)]).
  - exists v. rewrite app_nil_r in A, C. rewrite C. split; [exact A|]. split; [exact B|exact D].
  - exfalso. exact (Hlast d c E F).
Qed.
Print Assumptions C53_accepted_is_wellformed_partial.

(** So a document that does not end in a letter or a digit is accepted, by
    a callback that refuses nothing, exactly if it is a JSON text within
    the limits. *)
Theorem C53_accepted_iff_partial :
  forall (cfg : jconfig) (doc : list Z),
    config_ok cfg -> 0 <= max_nesting_level cfg -> strict cfg -> not_too_long cfg doc -> byte_list doc ->
    (forall d c, doc = d ++ [c] -> ~ is_alnum c) ->
    ((exists pos evs, json_parse cfg record_cb [] doc = Some (0, pos, evs)) <->
     (exists v, document doc v /\ JsonSpec.within cfg v)).
Proof.
  intros cfg doc Hc Hn Hs Hl HB Hlast. split.
  - intros (pos & evs & H).
    destruct (C53_accepted_is_wellformed_partial _ cfg record_cb [] doc 0 pos evs Hc Hn Hs Hl HB Hlast H (Z.le_refl 0))
      as (v & A & B & _).
    exists v. split; assumption.
  - intros (v & A & B).
    destruct (C53_wellformed_accepted _ cfg record_cb [] doc v Hc Hl A B) as (pos & E).
    assert (forall evs u, deliver record_cb 0 u evs = (0, u ++ evs)) as K.
    { induction evs as [|[t d] evs IH]; intros u; cbn [deliver].
      - rewrite app_nil_r. reflexivity.
      - cbn [Z.ltb Z.compare record_cb]. rewrite IH, <- app_assoc. reflexivity. }
    exists pos, (events v). rewrite E, K. reflexivity.
Qed.
Print Assumptions C53_accepted_iff_partial.

(** The theorems above apply to the sample of JsonProps.v: it is a JSON
    text, by the grammar, within the default limits. *)
Example C53_example :
  config_ok ws_cfg /\ 0 <= max_nesting_level ws_cfg /\ strict ws_cfg /\ not_too_long ws_cfg sample /\
  byte_list sample /\ (forall d c, sample = d ++ [c] -> ~ is_alnum c) /\
  exists v, document sample v /\ JsonSpec.within ws_cfg v /\ List.length (events v) = 10%nat.
Proof.
  assert (config_ok ws_cfg) as H1 by (unfold config_ok; cbn; lia).
  assert (0 <= max_nesting_level ws_cfg) as H2 by (cbn; lia).
  assert (strict ws_cfg) as H3.
  { intros b Hb. assert (b = 8 \/ b = 9 \/ b = 10 \/ b = 11) as [->|[->|[->| ->]]] by lia; reflexivity. }
  assert (not_too_long ws_cfg sample) as H4 by (left; reflexivity).
  assert (byte_list sample) as H5.
  { unfold byte_list. vm_compute. repeat constructor; discriminate. }
  assert (forall d c, sample = d ++ [c] -> ~ is_alnum c) as H6.
  { intros d c E. assert (last sample 0 = c) as <- by (rewrite E; apply last_last).
    vm_compute. intros F. repeat destruct F as [F|F]; destruct F as [F1 F2]; try (apply F1; reflexivity); apply F2; reflexivity. }
  repeat split; try assumption; try apply H1.
  destruct C52_example as (_ & _ & _ & E).
  destruct (C53_accepted_is_wellformed_partial _ ws_cfg record_cb [] sample _ _ _ H1 H2 H3 H4 H5 H6 E (Z.le_refl 0))
    as (v & A & B & D).
  exists v. split; [exact A|]. split; [exact B|].
  assert (forall evs u, deliver record_cb 0 u evs = (0, u ++ evs)) as K.
  { induction evs as [|[t d] evs IH]; intros u; cbn [deliver].
    - rewrite app_nil_r. reflexivity.
    - cbn [Z.ltb Z.compare record_cb]. rewrite IH, <- app_assoc. reflexivity. }
  rewrite K in D. cbn [app] in D. inversion D as [D1]. rewrite D1. reflexivity.
Qed.

(** A tree given explicitly, so the grammar is not only satisfied through
    the parser. *)
Example C53_grammar_example :
  document (text " [ -0.5E2 , 'a\n' ] ") (VArr [VNum (text "-0.5E2"); VStr (text "a\n") [97; 10]]).
Proof.
  change (text " [ -0.5E2 , 'a\n' ] ")
    with ([32] ++ (91 :: ([32] ++ text "-0.5E2" ++ [32] ++ 44 :: ([32] ++ text "'a\n'" ++ [32])) ++ [93]) ++ [32]).
  assert (ws [32]) as W by (constructor; [left; reflexivity|constructor]).
  constructor; [exact W| |exact W].
  constructor. constructor; [exact W| |exact W|].
  - constructor. exists [45], [48], [46; 53], [69; 50]. split; [reflexivity|].
    split; [constructor|]. split; [constructor|]. split; [constructor; [split; discriminate|constructor]|].
    apply (exp 69 [] 50 []); [right; reflexivity|constructor|split; discriminate|constructor].
  - constructor; [exact W| |exact W].
    change (text "'a\n'") with (34 :: text "a\n" ++ [34]).
    constructor. change (text "a\n") with (97 :: 92 :: 110 :: []).
    apply chars_plain; [split; discriminate|discriminate|discriminate|].
    apply chars_escape; [|constructor]. cbn. tauto.
Qed.

(** Documents that end in a letter or a digit: the end of the input is
    taken for the end of the literal and closes everything, so texts that
    are no JSON are accepted (json_fini, centijson_sax.c 955-983, does not
    look at the nesting level after the last value, and
    json_literal_automaton, 376-399, does not look whether the literal is
    complete). *)
Example C53_accepted_is_wellformed_refuted :
  let free := JConfig 0 0 20 16384 32 16 0 in
  (exists pos, json_parse ws_cfg record_cb [] (text "{'wolfsentry-config-version':1") =
     Some (0, pos, [(JSON_OBJECT_BEG, []); (JSON_KEY, text "wolfsentry-config-version"); (JSON_NUMBER, text "1")])) /\
  (exists pos, json_parse ws_cfg record_cb [] (text "[[[tr") =
     Some (0, pos, [(JSON_ARRAY_BEG, []); (JSON_ARRAY_BEG, []); (JSON_ARRAY_BEG, []); (JSON_TRUE, [])])) /\
  (exists pos, json_parse free record_cb [] (text "n") = Some (0, pos, [(JSON_NULL, [])])) /\
  ~ (exists v, document (text "n") v).
Proof.
  split; [eexists; vm_compute; reflexivity|].
  split; [eexists; vm_compute; reflexivity|].
  split; [eexists; vm_compute; reflexivity|].
  intros (v & H). inversion H as [w1 l v0 w2 W1 V W2 E0]; subst v0.
  change (text "n") with [110] in E0. clear H.
  assert (forall a, ws (110 :: a) -> False) as K.
  { intros a F. inversion F as [|x y F1 F2]; subst. unfold ws_byte in F1. lia. }
  destruct w1 as [|x w1]; [|inversion E0; subst; exact (K _ W1)].
  cbn [app] in E0. destruct l as [|x l].
  { cbn [app] in E0. subst w2. exact (K _ W2). }
  inversion E0 as [[E1 E2]]. subst x. apply app_eq_nil in E2. destruct E2 as [-> ->].
  inversion V as [| | |l0 Hn| | | | |]; subst.
  destruct (number_head [110] Hn) as (c & l' & E3 & F & _). inversion E3; subst. discriminate F.
Qed.
