(** * C58: what is printed as JSON is read back as it was

    [dump_int64], [dump_uint64], [dump_string] (the pieces handed to the caller's function), [analyze], [to_int64], [to_uint64],
    [to_int32], [to_uint32] and [render] are in JsonDump.v; [integer_text] and [utf8_text] in JsonDumpSpec.v; the grammar of JSON
    in JsonSpec.v; the parser, which reads the printed text, in Json.v. *)
Require Import ZArith List Bool Lia String.
From Verif Require Import Json JsonSpec JsonProofs JsonChunks JsonDump JsonDumpSpec JsonDumpProofs JsonDumpStrings JsonProps JsonGrammarProps JsonText.
Import ListNotations.
Open Scope Z_scope.

(** Every 64-bit integer is printed as the JSON number that denotes it. *)
Theorem C58_integers_printed :
  (forall i, int64 i -> exists l, dump_int64 i = Some l /\ integer_text l i /\ number l) /\
  (forall u, uint64 u -> exists l, dump_uint64 u = Some l /\ integer_text l u /\ number l).
Proof.
  split; intros x H; [destruct (dump_int64_text x H) as (l & E & T)|destruct (dump_uint64_text x H) as (l & E & T)];
    exists l; (split; [exact E|]; split; [exact T|exact (text_number l x T)]).
Qed.
Print Assumptions C58_integers_printed.

(** Of every JSON number, of any length, it is told exactly which integer types can hold it: none if it has a fraction or an
    exponent, otherwise those whose range the integer lies in. *)
Theorem C58_numbers_classified :
  forall l, number l -> exists c, analyze l = Some c /\
    (c_i32 c = true <-> exists z, integer_text l z /\ int32 z) /\
    (c_u32 c = true <-> exists z, integer_text l z /\ uint32 z) /\
    (c_i64 c = true <-> exists z, integer_text l z /\ int64 z) /\
    (c_u64 c = true <-> exists z, integer_text l z /\ uint64 z).
Proof.
  intros l N. destruct (number_cases l N) as [(z & T)|H].
  - assert (K : forall P : Z -> Prop, (exists z', integer_text l z' /\ P z') <-> P z).
    { intros P. split; [intros (z' & T' & Q); rewrite (text_value l z z' T T'); exact Q|intros Q; exists z; auto]. }
    assert (R : exists c, analyze l = Some c /\ exact_compat c z).
    { destruct (le_lt_dec (List.length l) 20) as [L|L].
      - destruct (list_eq_dec Z.eq_dec l [45; 48]) as [-> |ND].
        + assert (z = 0). { apply (text_value [45; 48]); [exact T|]. exact (integer_minus [48] int_zero). } subst z.
          destruct (analyze_neat [48] 0 n_zero ltac:(cbn; lia)) as (c & E & X). exists c. split; [exact E|exact X].
        + apply analyze_neat; [split; assumption|exact L].
      - rewrite analyze_long by exact L. destruct (text_long l z T L) as [A B]. eexists. split; [reflexivity|]. unfold exact_compat. cbn [c_i32 c_u32 c_i64 c_u64].
        assert (int32 z -> int64 z) by (unfold int32, int64; lia). assert (uint32 z -> uint64 z) by (unfold uint32, uint64; lia). intuition discriminate. }
    destruct R as (c & E & X). exists c. split; [exact E|]. unfold exact_compat in X. rewrite !K. exact X.
  - rewrite analyze_not by exact H. eexists. split; [reflexivity|]. cbn [c_i32 c_u32 c_i64 c_u64].
    assert (K : forall P : Z -> Prop, false = true <-> exists z, integer_text l z /\ P z).
    { intros P. split; [discriminate|]. intros (z & T & _). rewrite !(text_chr l z) in H by (auto; lia). discriminate H. }
    repeat split; apply K.
Qed.
Print Assumptions C58_numbers_classified.

(** A number that fits a type is read as exactly the integer it denotes. *)
Theorem C58_integers_read :
  forall l z, integer_text l z ->
    (int32 z -> to_int32 l = Some z) /\ (uint32 z -> to_uint32 l = z) /\ (int64 z -> to_int64 l = Some z) /\ (uint64 z -> to_uint64 l = z).
Proof.
  intros l z T. split; [|split; [|split]]; intros R.
  - unfold to_int32. rewrite (to_int64_text l z T) by (unfold int32, int64 in *; lia). rewrite to_signed32_id by exact R. reflexivity.
  - unfold to_uint32. rewrite (to_uint64_text l z T) by (unfold uint32, uint64 in *; lia). apply Z.mod_small. unfold uint32 in R. lia.
  - exact (to_int64_text l z T R).
  - exact (to_uint64_text l z T R).
Qed.
Print Assumptions C58_integers_read.

(** So printing and reading give the integer back, and no two integers are printed alike. *)
Theorem C58_integers_back :
  (forall i, int64 i -> exists l c, dump_int64 i = Some l /\ analyze l = Some c /\ c_i64 c = true /\ to_int64 l = Some i) /\
  (forall u, uint64 u -> exists l c, dump_uint64 u = Some l /\ analyze l = Some c /\ c_u64 c = true /\ to_uint64 l = u) /\
  (forall i j l, int64 i -> int64 j -> dump_int64 i = Some l -> dump_int64 j = Some l -> i = j).
Proof.
  split; [|split].
  - intros i R. destruct (dump_int64_text i R) as (l & E & T). destruct (C58_numbers_classified l (text_number l i T)) as (c & A & _ & _ & C & _). exists l, c. split; [exact E|]. split; [exact A|]. split; [apply C; exists i; auto|]. exact (to_int64_text l i T R).
  - intros i R. destruct (dump_uint64_text i R) as (l & E & T). destruct (C58_numbers_classified l (text_number l i T)) as (c & A & _ & _ & _ & C). exists l, c. split; [exact E|]. split; [exact A|]. split; [apply C; exists i; auto|]. exact (to_uint64_text l i T R).
  - intros i j l RI RJ EI EJ. destruct (dump_int64_text i RI) as (l1 & E1 & T1). destruct (dump_int64_text j RJ) as (l2 & E2 & T2). assert (l1 = l) by congruence. assert (l2 = l) by congruence. subst. exact (text_value l i j T1 T2).
Qed.
Print Assumptions C58_integers_back.

(** Every text in UTF-8 is printed as a JSON string that denotes it, whatever quotation marks, backslashes or control
    characters it contains. *)
Theorem C58_strings_printed :
  forall s, utf8_text s -> exists raw, List.concat (dump_string s) = 34 :: raw ++ [34] /\ chars raw s /\ value (List.concat (dump_string s)) (VStr raw s).
Proof.
  intros s (cs & F & ->). exists (flat_map esc (List.concat (map utf8 cs))). rewrite dump_string_spec. split; [reflexivity|]. pose proof (dump_chars_valid cs F) as C. split; [exact C|]. constructor. exact C.
Qed.
Print Assumptions C58_strings_printed.

(** The parser reads a printed string back, with one call that hands over exactly the bytes printed, for every configuration
    whose limits the text respects. *)
Theorem C58_strings_back :
  forall cfg s, config_ok cfg -> utf8_text s ->
    not_too_long cfg (List.concat (dump_string s)) ->
    at_most (len (List.concat (dump_string s)) - 2) (max_string_len cfg) -> at_most 1 (max_total_values cfg) -> at_most 0 (max_nesting_level cfg) ->
    Z.testbit (cflags cfg) NOSTRINGASROOT = false ->
    exists pos, json_parse cfg record_cb [] (List.concat (dump_string s)) = Some (0, pos, [(JSON_STRING, s)]).
Proof.
  intros cfg s Hc U Hl HS HV HN HR. destruct (C58_strings_printed s U) as (raw & E & C & V).
  destruct (C53_wellformed_accepted _ cfg record_cb [] (List.concat (dump_string s)) (VStr raw s) Hc Hl) as (pos & P).
  - rewrite <- (app_nil_r (List.concat (dump_string s))). change (List.concat (dump_string s) ++ []) with ([] ++ List.concat (dump_string s) ++ []). constructor; [constructor|exact V|constructor].
  - split; [exact HV|]. split; [exact HN|]. split; [|exact HR]. constructor. unfold len in *. rewrite E in HS. cbn [List.length] in HS. rewrite app_length in HS. cbn [List.length] in HS. destruct HS as [H0|H0]; [left; exact H0|right; lia].
  - exists pos. exact P.
Qed.
Print Assumptions C58_strings_back.

Lemma record_deliver : forall evs u, deliver record_cb 0 u evs = (0, u ++ evs).
Proof.
  induction evs as [|[t d] evs IH]; intros u; cbn [deliver]; [rewrite app_nil_r; reflexivity|]. cbn [Z.ltb Z.compare record_cb]. rewrite IH, <- app_assoc. reflexivity.
Qed.
(** Conversely: bytes that are not UTF-8 are printed as they are, and a parser that insists on UTF-8 never accepts them; what
    it accepts it reads back unchanged. *)
Theorem C58_strings_only_utf8 :
  forall cfg s pos evs, config_ok cfg -> 0 <= max_nesting_level cfg -> strict cfg -> byte_list s -> not_too_long cfg (List.concat (dump_string s)) ->
    json_parse cfg record_cb [] (List.concat (dump_string s)) = Some (0, pos, evs) ->
    utf8_text s /\ evs = [(JSON_STRING, s)].
Proof.
  intros cfg s pos evs Hc Hn Hs HB Hl P. unfold byte_list in HB.
  assert (NN : nonneg s) by (eapply Forall_impl; [|exact HB]; cbn; intros; lia).
  assert (BB : byte_list (List.concat (dump_string s))).
  { unfold byte_list. rewrite dump_string_spec. constructor; [lia|]. apply Forall_app. split; [|repeat constructor; lia]. apply Forall_forall. intros c I. apply in_flat_map in I. destruct I as (x & IX & IC).
    rewrite Forall_forall in HB. specialize (HB x IX). cbn beta in HB. destruct (printed_all x ltac:(lia)) as [x A B D EX|x e' I' EX|x a b va vb HA HB' V R EX]; rewrite EX in IC; cbn [In] in IC.
    - destruct IC as [<- |[]]. lia.
    - destruct IC as [<- |[<- |[]]]; [lia|]. unfold escapes in I'. cbn [In] in I'. repeat (destruct I' as [I'|I']; [injection I' as <- _; lia|]). destruct I'.
    - unfold hex_digit in *. repeat (destruct IC as [<- |IC]; [lia|]). destruct IC. }
  assert (LAST : forall d c, List.concat (dump_string s) = d ++ [c] -> ~ is_alnum c).
  { intros d c E. rewrite dump_string_spec in E. change (34 :: flat_map esc s ++ [34]) with ((34 :: flat_map esc s) ++ [34]) in E. apply app_inj_tail in E. destruct E as [_ <-]. unfold is_alnum. lia. }
  destruct (C53_accepted_is_wellformed_partial _ cfg record_cb [] _ 0 pos evs Hc Hn Hs Hl BB LAST P ltac:(lia)) as (v & D & _ & EV).
  rewrite record_deliver in EV. cbn [app] in EV. injection EV as EV.
  rewrite dump_string_spec in D. inversion D as [w1 l v0 w2 W1 V W2 E]. subst v0.
  destruct w1 as [|b w1]; [|inversion W1 as [|? ? B1 B2]; subst; cbn in E; injection E as E1 E2; unfold ws_byte in B1; lia]. cbn [app] in E.
  destruct w2 as [|b w2]; [rewrite app_nil_r in E; subst l|].
  - inversion V as [E0|E0|E0|l N E0|r d C E0 E1|w W E0|l vs L E0|w W E0|l ms L E0]; subst v; try discriminate.
    + exfalso. destruct N as (m & i & f & e & E & M & INT & _ & _). destruct (int_head i INT) as (c & r & -> & CC). destruct M; cbn [app] in E; injection E as X Y; lia.
    + apply app_inj_tail in E0. destruct E0 as [E0 _]. pose proof (reads_itself r d C s NN E0) as X. subst d. split; [exact (chars_text _ _ C)|]. rewrite <- EV. reflexivity.
  - exfalso. assert (exists w x, b :: w2 = w ++ [x]) as (w & x & EW). { exists (removelast (b :: w2)), (last (b :: w2) 0). apply app_removelast_last. discriminate. }
    rewrite EW in E, W2. apply Forall_app in W2. destruct W2 as [_ W2]. inversion W2 as [|? ? X _]; subst. rewrite app_assoc in E. change (34 :: flat_map esc s ++ [34]) with ((34 :: flat_map esc s) ++ [34]) in E. apply app_inj_tail in E. destruct E as [_ E]. unfold ws_byte in X. lia.
Qed.
Print Assumptions C58_strings_only_utf8.

(** User values.  The full claim: [wolfsentry_kv_render_value] gives the JSON text of the value whenever the buffer is large
    enough for it and a terminating 0, and otherwise says that it is not.  Proved except for strings with characters that JSON
    does not allow to stand for themselves (and, not being modelled, floating point numbers and JSON objects). *)
Definition tree_of (v : uval) (t : jvalue) : Prop :=
  match v with
  | UNull => t = VNull | UTrue => t = VTrue | UFalse => t = VFalse
  | UUint n => exists l, t = VNum l /\ integer_text l n
  | USint z => exists l, t = VNum l /\ integer_text l z
  | UString s => exists raw, t = VStr raw s
  end.
Definition renderable (v : uval) : Prop :=
  match v with UUint n => uint64 n | USint z => int64 z | UString s => Forall harmless s | _ => True end.
Lemma harmless_same : forall s, Forall harmless s -> until_nul s = s /\ chars s s.
Proof.
  induction 1 as [|c s (C & N1 & N2) _ (A & B)]; [split; [reflexivity|constructor]|]. cbn [until_nul]. destruct (Z.eqb_spec c 0); [lia|]. rewrite A. split; [reflexivity|]. apply chars_plain; try lia. exact B.
Qed.
Theorem C58_render_partial :
  forall v space, renderable v ->
    exists text t, value text t /\ tree_of v t /\
      render space v = Some (if space <=? Z.of_nat (List.length text) then RTooSmall (Z.of_nat (List.length text)) else ROk text).
Proof.
  intros v space R. unfold render, snprintf_result. destruct v as [| | |n|z|s]; cbn [render_text renderable] in *.
  - exists lit_null, VNull. split; [constructor|split; reflexivity].
  - exists lit_true, VTrue. split; [constructor|split; reflexivity].
  - exists lit_false, VFalse. split; [constructor|split; reflexivity].
  - destruct (dump_uint64_text n R) as (l & E & T). rewrite E. exists l, (VNum l). split; [constructor; exact (text_number l n T)|]. split; [exists l; auto|reflexivity].
  - destruct (dump_int64_text z R) as (l & E & T). rewrite E. exists l, (VNum l). split; [constructor; exact (text_number l z T)|]. split; [exists l; auto|reflexivity].
  - destruct (harmless_same s R) as [E C]. rewrite E. exists (34 :: s ++ [34]), (VStr s s). split; [constructor; exact C|]. split; [exists s; reflexivity|reflexivity].
Qed.
Print Assumptions C58_render_partial.

(** False of the code: kv.c 437 tests HAVE_JSON_DOM, which is defined nowhere (the macro is WOLFSENTRY_HAVE_JSON_DOM), so
    strings are not escaped: different strings are rendered alike, the rendering of a string can be an object that the string
    chose, and a string with a quotation mark is rendered as something that is no JSON. *)
Theorem C58_render_refuted :
  (exists a b : list Z, a <> b /\ render 100 (UString a) = render 100 (UString b) /\ exists t, render 100 (UString a) = Some (ROk t)) /\
  (exists s t, render 100 (UString s) = Some (ROk t) /\ t = text "'x','admin':'y'" /\
     exists pos, json_parse (JConfig 0 0 20 16384 32 16 0) record_cb [] (text "{'name':" ++ t ++ text "}") =
       Some (0, pos, [(JSON_OBJECT_BEG, []); (JSON_KEY, text "name"); (JSON_STRING, text "x"); (JSON_KEY, text "admin"); (JSON_STRING, text "y"); (JSON_OBJECT_END, [])])) /\
  (exists s t, render 100 (UString s) = Some (ROk t) /\
     exists code pos evs, json_parse (JConfig 0 0 20 16384 32 16 0) record_cb [] t = Some (code, pos, evs) /\ code < 0).
Proof.
  split; [|split].
  - exists [97; 0; 98], [97]. split; [discriminate|]. split; [reflexivity|]. eexists. reflexivity.
  - exists (text "x','admin':'y"), (text "'x','admin':'y'"). split; [reflexivity|]. split; [reflexivity|]. eexists. vm_compute. reflexivity.
  - exists [34], [34; 34; 34]. split; [reflexivity|]. eexists _, _, _. split; [vm_compute; reflexivity|]. reflexivity.
Qed.
Print Assumptions C58_render_refuted.

(** Examples *)
Example C58_int_example : dump_int64 (- 2 ^ 63) = Some (text "-9223372036854775808") /\ dump_uint64 (2 ^ 64 - 1) = Some (text "18446744073709551615") /\
  analyze (text "2147483648") = Some (Compat false true true true) /\ analyze (text "-0") = Some (Compat true true true true) /\
  analyze (text "1e3") = Some (Compat false false false false) /\ to_int64 (text "-9223372036854775808") = Some (- 2 ^ 63).
Proof. vm_compute. repeat split. Qed.
Example C58_string_example :
  utf8_text [34; 10; 1; 195; 169; 92; 0] /\ List.concat (dump_string [34; 10; 1; 195; 169; 92; 0]) = text "'\'\n\u0001" ++ [195; 169] ++ text "\\\u0000'" /\
  exists pos, json_parse (JConfig 0 0 20 16384 32 16 0) record_cb [] (List.concat (dump_string [34; 10; 1; 195; 169; 92; 0])) = Some (0, pos, [(JSON_STRING, [34; 10; 1; 195; 169; 92; 0])]).
Proof.
  split; [exists [34; 10; 1; 233; 92; 0]; split; [repeat constructor; unfold scalar; lia|reflexivity]|]. split; [vm_compute; reflexivity|]. eexists. vm_compute. reflexivity.
Qed.
(** Bytes that are not UTF-8: printed, but refused by the parser. *)
Example C58_not_utf8_example : exists code pos evs, json_parse (JConfig 0 0 20 16384 32 16 0) record_cb [] (List.concat (dump_string [255])) = Some (code, pos, evs) /\ code < 0.
Proof. eexists _, _, _. split; [vm_compute; reflexivity|]. reflexivity. Qed.
