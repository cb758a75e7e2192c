(** * C60: the JSON value interface reads a document as what it says, and writes a value as a document that says it

    [dom_parse] (json_dom_parse) and [dom_dump] (json_dom_dump, as the pieces handed to the caller's function) are in Dom.v;
    [content], [repeats], [mild], [writes], [alike] and the like in DomSpec.v; the grammar of JSON in JsonSpec.v. *)
Require Import ZArith List Bool Lia String.
From Coq Require Import Sorting.Permutation Sorting.Sorted.
From Verif Require Import Table Json JsonSpec JsonProofs JsonChunks JsonGrammar JsonDump JsonDumpSpec JsonDumpProofs JsonDumpStrings JsonDumpProps JsonProps JsonGrammarProps JsonText Dict DictSpec DictProps Dom DomSpec DomProofs DomMeaning DomDump DomRound.
Import ListNotations.
Open Scope Z_scope.
Local Set Warnings "-notation-overridden".

Lemma explained_parse : forall cfg flags doc v pol, config_ok cfg -> not_too_long cfg doc -> document doc v -> JsonSpec.within cfg v ->
  asks flags pol -> (pol = PFirst -> mild v) ->
  exists pos code x, dom_parse cfg flags doc = Ret (code, pos, x) /\
    (code = 0 /\ content pol (Z.testbit flags 4) v x /\ (pol <> PFirst -> numbers holdable v) \/
     code = DOM_ERR_DUPKEY /\ x = DNull /\ pol = PAbort /\ repeats v \/
     code = ERR_OUTOFMEMORY /\ x = DNull /\ ~ numbers holdable v).
Proof.
  intros cfg flags doc v pol Hc Hl Hd Hw PF MI. apply asks_dupkey in PF.
  destruct (parse_document cfg flags doc v pol Hc Hl Hd Hw PF MI) as (pos & E & _). rewrite E. clear E.
  pose proof (meaning_explained pol (keep_order flags) v (document_numbers doc v Hd)) as X. unfold keep_order in *.
  destruct (meaning pol (Z.testbit flags 4) v) as [e|x] eqn:M; cbn [explained] in X.
  - exists pos, e, DNull. split; [reflexivity|]. destruct X as [(-> & -> & R)|(-> & R)]; [right; left|right; right]; auto.
  - exists pos, 0, x. split; [reflexivity|]. left. split; [reflexivity|]. split; [exact X|]. intros NP. exact (meaning_holdable pol _ v x NP (document_numbers doc v Hd) M).
Qed.

(** A document within the limits gives the value it stands for.  Missing for the full claim: with "use the first" of repeated
    keys this holds only if no repeated member has an array or object for a value (C60_use_first_refuted), and doubles may not be
    longer than 62 characters (C60_long_number_refuted). *)
Theorem C60_read_partial :
  forall cfg flags doc v pol, config_ok cfg -> not_too_long cfg doc -> document doc v -> JsonSpec.within cfg v ->
    asks flags pol -> (pol = PFirst -> mild v) -> numbers holdable v -> (pol = PAbort -> ~ repeats v) ->
    exists pos x, content pol (Z.testbit flags 4) v x /\ (forall y, content pol (Z.testbit flags 4) v y -> y = x) /\
      dom_parse cfg flags doc = Ret (0, pos, x).
Proof.
  intros cfg flags doc v pol Hc Hl Hd Hw PF MI NH NR. destruct (explained_parse cfg flags doc v pol Hc Hl Hd Hw PF MI) as (pos & code & x & E & [(-> & C & _)|[(_ & _ & P & R)|(_ & _ & X)]]).
  - exists pos, x. split; [exact C|]. split; [|exact E]. intros y CY. exact (content_fun _ _ _ _ _ CY C).
  - exfalso. exact (NR P R).
  - contradiction.
Qed.
Print Assumptions C60_read_partial.

(** A repeated key, when that is an error, and a double that is too long, are refused, each with its own code; no value is given out. *)
Theorem C60_refused :
  forall cfg flags doc v pol, config_ok cfg -> not_too_long cfg doc -> document doc v -> JsonSpec.within cfg v -> asks flags pol ->
    (pol = PAbort -> repeats v -> numbers holdable v -> exists pos, dom_parse cfg flags doc = Ret (-1000, pos, DNull)) /\
    (pol = PLast -> ~ numbers holdable v -> exists pos, dom_parse cfg flags doc = Ret (-2, pos, DNull)) /\
    (pol = PAbort -> ~ repeats v -> ~ numbers holdable v -> exists pos, dom_parse cfg flags doc = Ret (-2, pos, DNull)).
Proof.
  intros cfg flags doc v pol Hc Hl Hd Hw PF.
  assert (X := explained_parse cfg flags doc v pol Hc Hl Hd Hw PF). split; [|split].
  - intros -> R NH. destruct (X ltac:(discriminate)) as (pos & code & x & E & [(-> & C & _)|[(-> & -> & P & _)|(_ & _ & Q)]]).
    + exfalso. exact (content_no_repeat _ _ _ C R).
    + exists pos. exact E.
    + contradiction.
  - intros -> NH. destruct (X ltac:(discriminate)) as (pos & code & x & E & [(-> & _ & Q)|[(_ & _ & P & _)|(-> & -> & Q)]]).
    + exfalso. apply NH, Q. discriminate.
    + discriminate.
    + exists pos. exact E.
  - intros -> R NH. destruct (X ltac:(discriminate)) as (pos & code & x & E & [(-> & _ & Q)|[(_ & _ & _ & P)|(-> & -> & Q)]]).
    + exfalso. apply NH, Q. discriminate.
    + contradiction.
    + exists pos. exact E.
Qed.
Print Assumptions C60_refused.

(** Only JSON documents are read.  Missing: a document that ends in a letter or digit (C53_accepted_is_beginning), and "use the first". *)
Theorem C60_only_json_partial :
  forall cfg flags doc pol code pos x,
    config_ok cfg -> 0 <= max_nesting_level cfg -> strict cfg -> not_too_long cfg doc -> byte_list doc ->
    (forall d c, doc = d ++ [c] -> ~ is_alnum c) -> asks flags pol -> pol <> PFirst ->
    dom_parse cfg flags doc = Ret (code, pos, x) -> 0 <= code ->
    code = 0 /\ exists v, document doc v /\ JsonSpec.within cfg v /\ content pol (Z.testbit flags 4) v x.
Proof.
  intros cfg flags doc pol code pos x Hc Hn Hs Hl HB Hlast PF NP P C0.
  assert (PP : exists u', json_parse cfg dom_cb (Some (dom_init flags)) doc = Some (code, pos, u')).
  { unfold dom_parse in P. destruct (json_parse cfg dom_cb (Some (dom_init flags)) doc) as [[[c q] [s|]]|]; try discriminate P. injection P as -> -> _. eexists. reflexivity. }
  destruct PP as (u' & PP).
  destruct (C53_accepted_is_wellformed_partial _ cfg dom_cb (Some (dom_init flags)) doc code pos u' Hc Hn Hs Hl HB Hlast PP C0) as (v & A & B & _).
  destruct (explained_parse cfg flags doc v pol Hc Hl A B PF) as (pos' & code' & x' & E & D); [intros X; contradiction|].
  rewrite P in E. injection E as <- <- <-. destruct D as [(-> & C & _)|[(-> & _)|(-> & _)]]; [|cbv in C0; congruence|cbv in C0; congruence].
  split; [reflexivity|]. exists v. auto.
Qed.
Print Assumptions C60_only_json_partial.

(** Whatever is written of a value, with whatever layout, is a JSON document of that value.  Missing: doubles. *)
Theorem C60_written_partial :
  forall pd prm v, writable v -> fits prm (height v) ->
    exists ps t, dom_dump pd prm v = Ret ps /\ document (List.concat ps) t /\ writes (prefer_order prm) v t.
Proof.
  intros pd prm v WV F. destruct (value_written pd prm (height v) F v WV true 0 ltac:(lia) ltac:(lia)) as (ps & w & b & t & E & C & W & _ & V & WT).
  unfold dom_dump. rewrite E. cbn [bind]. eexists _, t. split; [reflexivity|]. split; [|exact WT].
  rewrite concat_app, C, <- app_assoc. constructor; [exact W|exact V|apply newline_ws].
Qed.
Print Assumptions C60_written_partial.

(** It is read back as the same value, but for the types of the integers and the order of items. *)
Theorem C60_back_partial :
  forall pd prm cfg flags v, writable v -> fits prm (height v) -> config_ok cfg ->
    exists ps t, dom_dump pd prm v = Ret ps /\ document (List.concat ps) t /\
      (not_too_long cfg (List.concat ps) -> JsonSpec.within cfg t ->
       exists pos x, dom_parse cfg flags (List.concat ps) = Ret (0, pos, x) /\ alike v x).
Proof.
  intros pd prm cfg flags v WV F Hc. destruct (C60_written_partial pd prm v WV F) as (ps & t & E & D & W). exists ps, t. split; [exact E|]. split; [exact D|]. intros Hl Hw.
  destruct (writes_tree _ v WV t W) as (NR & NI).
  destruct (C60_read_partial cfg flags (List.concat ps) t (dupkey flags) Hc Hl D Hw) as (pos & x & C & _ & P).
  - apply asks_dupkey. reflexivity.
  - intros _. apply not_repeats_mild. exact NR.
  - apply integral_holdable. exact NI.
  - intros _. exact NR.
  - exists pos, x. split; [exact P|]. eapply alike_content; eassumption.
Qed.
Print Assumptions C60_back_partial.

(** A value read from a document with the order of items kept, and written in that order, is read back as the very same value. *)
Theorem C60_same_back_partial :
  forall pd prm cfg flags cfg' flags' doc v pos x pol,
    config_ok cfg -> not_too_long cfg doc -> document doc v -> JsonSpec.within cfg v -> asks flags pol -> (pol = PFirst -> mild v) ->
    numbers integral v -> dom_parse cfg flags doc = Ret (0, pos, x) ->
    Z.testbit flags 4 = true -> Z.testbit flags' 4 = true -> prefer_order prm = true -> fits prm (height x) -> config_ok cfg' ->
    exists ps t, dom_dump pd prm x = Ret ps /\ document (List.concat ps) t /\
      (not_too_long cfg' (List.concat ps) -> JsonSpec.within cfg' t ->
       exists pos', dom_parse cfg' flags' (List.concat ps) = Ret (0, pos', x)).
Proof.
  intros pd prm cfg flags cfg' flags' doc v pos x pol Hc Hl Hd Hw PF MI NI P O1 O2 PO F Hc'.
  assert (C : content pol true v x).
  { destruct (explained_parse cfg flags doc v pol Hc Hl Hd Hw PF MI) as (pos' & code & x' & E & D). rewrite P in E. injection E as <- <- <-. rewrite O1 in D. destruct D as [(_ & C & _)|[(X & _)|(X & _)]]; [exact C|discriminate X|discriminate X]. }
  pose proof (content_writable pol true v x (document_texts doc v Hd) NI C) as WX.
  destruct (C60_written_partial pd prm x WX F) as (ps & t & E & D & W). exists ps, t. split; [exact E|]. split; [exact D|]. intros Hl' Hw'.
  destruct (writes_tree _ x WX t W) as (NR & NI').
  destruct (C60_read_partial cfg' flags' (List.concat ps) t (dupkey flags') Hc' Hl' D Hw') as (pos' & y & CY & _ & PY).
  - apply asks_dupkey. reflexivity.
  - intros _. apply not_repeats_mild. exact NR.
  - apply integral_holdable. exact NI'.
  - intros _. exact NR.
  - exists pos'. rewrite PO in W. rewrite O2 in CY. rewrite <- (same_content (dupkey flags') x WX (content_canon pol v x C) t y W CY). exact PY.
Qed.
Print Assumptions C60_same_back_partial.

(** ** What is false of the code *)
Definition no_limits := JConfig 0 0 0 0 0 0 0.
Definition parse_result (flags : Z) (s : list Z) : option (Z * dv) := match dom_parse no_limits flags s with Ret (c, _, x) => Some (c, x) | _ => None end.
(** With "use the first", a repeated member whose value is an object or array is not skipped: its members go into the object
    around it, its end ends that object, and the rest of the document replaces the whole value or is stored outside of the path. *)
Theorem C60_use_first_refuted :
  (* the value is the last number of the document *)
  parse_result 1 (text "{'a':1,'a':{'b':2},'c':3}") = Some (0, DInt32 3) /\
  parse_result 1 (text "[{'a':1,'a':{}}, 2]") = Some (0, DInt32 2) /\
  (* an item that is not in the document *)
  parse_result 1 (text "{'a':1,'a':[2]}") = Some (0, DDict false [(text "a", DInt32 1); ([], DInt32 2)]) /\
  (* a read outside of the array of open containers *)
  dom_parse no_limits 1 (text "{'a':1,'a':{'b':1,'b':{}},'c':1}") = UB.
Proof. split; [|split; [|split]]; vm_compute; reflexivity. Qed.
Print Assumptions C60_use_first_refuted.

Definition long_number : list Z := text "0.0000000000000000000000000000000000000000000000000000000000001".
(** A number of 63 characters is a JSON document and is refused. *)
Theorem C60_long_number_refuted :
  List.length long_number = 63%nat /\ document long_number (VNum long_number) /\ parse_result 0 long_number = Some (-2, DNull) /\
  parse_result 0 (List.removelast long_number) = Some (0, DDouble (List.removelast long_number)).
Proof.
  split; [reflexivity|]. split; [|split; vm_compute; reflexivity].
  assert (V : value long_number (VNum long_number)).
  { apply value_number. exists [], [48], (46 :: 48 :: List.skipn 3 long_number)%list, []. split; [reflexivity|]. split; [constructor|]. split; [constructor|]. split; [|constructor].
    constructor; [unfold digit; lia|]. unfold digits. apply Forall_forall. intros c I. assert (D : forallb (fun c => (48 <=? c) && (c <=? 57)) (List.skipn 3 long_number) = true) by reflexivity.
    rewrite forallb_forall in D. specialize (D c I). unfold digit. lia. }
  pose proof (document_intro [] _ _ [] (Forall_nil _) V (Forall_nil _)) as D. rewrite app_nil_r in D. exact D.
Qed.
Print Assumptions C60_long_number_refuted.

(** With a width of 2^32 - 1 the indentation never ends. *)
Lemma never_ends : forall fuel j, 0 <= j < 2 ^ 27 -> indent_loop fuel 32 32 (2 ^ 32 - 1) (32 * j) = Diverge.
Proof.
  induction fuel as [|fuel IH]; intros j R; cbn [indent_loop]; (destruct (Z.ltb_spec (32 * j) (2 ^ 32 - 1)) as [L|L]; [|exfalso; lia]); [reflexivity|].
  assert (E : (32 * j + 32) mod 2 ^ 32 = 32 * ((j + 1) mod 2 ^ 27)).
  { replace (32 * j + 32) with (32 * (j + 1)) by lia. change (2 ^ 32) with (32 * 2 ^ 27). apply Z.mul_mod_distr_l; lia. }
  rewrite E, IH; [reflexivity|]. apply Z.mod_pos_bound. lia.
Qed.
Lemma indent_is : forall prm nest n, minimize prm = false -> (nest =? 0) = false -> with_spaces prm = true -> (nest * tab_width prm) mod 2 ^ 32 = n ->
  exists turns, indent prm nest = indent_loop turns 32 32 n 0.
Proof. intros prm nest n M N0 W E. unfold indent. rewrite M, N0, W. cbn [orb]. cbv zeta. rewrite E. eexists. reflexivity. Qed.
Lemma dump_one : forall pd prm, indent prm 0 = Ret [] -> indent prm 1 = Diverge -> dom_dump pd prm (DArray [DNull]) = Diverge.
Proof. intros pd prm E0 E1. unfold dom_dump. cbn [dump_value]. rewrite E0. cbn [bind map dump_elements dump_value]. change (0 + 1) with 1. rewrite E1. reflexivity. Qed.
Theorem C60_indent_refuted :
  forall pd, let prm := DParams (2 ^ 32 - 1) false false true false in
    (forall turns, indent_loop turns 32 32 (2 ^ 32 - 1) 0 = Diverge) /\ dom_dump pd prm (DArray [DNull]) = Diverge.
Proof.
  intros pd prm. assert (X : forall turns, indent_loop turns 32 32 (2 ^ 32 - 1) 0 = Diverge) by (intros turns; exact (never_ends turns 0 ltac:(lia))).
  split; [exact X|]. apply dump_one; [reflexivity|].
  destruct (indent_is prm 1 (2 ^ 32 - 1) eq_refl eq_refl eq_refl ltac:(apply Z.mod_small; cbn [tab_width prm]; lia)) as (turns & ->). apply X.
Qed.
Print Assumptions C60_indent_refuted.

(** An infinite double (1e999 is read as one) is written as "inf.0", which is not JSON: [pd] is what is printed for it. *)
Theorem C60_infinite_refuted :
  forall pd, pd (text "1e999") = text "inf.0" ->
    exists x ps, parse_result 0 (text "1e999") = Some (0, x) /\ dom_dump pd (DParams 0 true false false false) x = Ret ps /\
      exists code pos y, dom_parse no_limits 0 (List.concat ps) = Ret (code, pos, y) /\ code < 0.
Proof.
  intros pd E. exists (DDouble (text "1e999")), [pd (text "1e999")]. split; [vm_compute; reflexivity|]. split; [reflexivity|]. rewrite E. eexists _, _, _. split; [vm_compute; reflexivity|]. reflexivity.
Qed.
Print Assumptions C60_infinite_refuted.

(** ** Examples *)
Example C60_read_example :
  parse_result 18 (text "{'b':[1,-5,4294967295,null],'a':{'x':true},'b':'last'}") =
    Some (0, DDict true [(text "b", DString (text "last")); (text "a", DDict true [(text "x", DBool true)])]) /\
  parse_result 0 (text "{'a':1,'b':{'c':1,'c':2}}") = Some (-1000, DNull).
Proof. split; vm_compute; reflexivity. Qed.
Example C60_written_example :
  let v := DDict true [(text "b", DArray [DInt32 1; DUint64 18446744073709551615]); (text "a", DNull)] in
  writable v /\ fits (DParams 4 false false true true) (height v) /\
  dom_dump (fun l => l) (DParams 0 true false false false) v = Ret [[123]; [34]; text "a"; [34]; [58]; text "null"; [44]; [34]; text "b"; [34]; [58]; [91]; text "1"; [44]; text "18446744073709551615"; [93]; [125]].
Proof.
  split; [|split; [|vm_compute; reflexivity]].
  - assert (U : forall c, 0 <= c < 128 -> utf8_text [c]).
    { intros c R. exists [c]. split; [constructor; [unfold scalar; lia|constructor]|]. cbn [map List.concat]. rewrite app_nil_r. unfold utf8. destruct (Z.ltb_spec c 128); [reflexivity|lia]. }
    constructor.
    + cbn. repeat constructor; cbn; intuition discriminate.
    + constructor; [split; [apply U; cbv; split; [discriminate|reflexivity]|]|constructor; [split; [apply U; cbv; split; [discriminate|reflexivity]|constructor]|constructor]].
      constructor. constructor; [constructor; unfold int32; lia|]. constructor; [constructor; unfold uint64; lia|constructor].
  - unfold fits. cbn. lia.
Qed.
