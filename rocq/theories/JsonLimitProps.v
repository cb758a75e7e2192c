(** * C55: what callbacks get stays within the configured limits, whatever becomes of the document *)
Require Import ZArith List Bool Lia String.
From Verif Require Import Json JsonProofs JsonChunks JsonLength JsonText JsonProps JsonNest JsonLimitSpec JsonLimits.
Import ListNotations.
Open Scope Z_scope.

(** Fed in any pieces, with any callback, to any end: no callback gets more than the limits allow.  (With the flags that
    replace ill-formed UTF-8 off: see below.) *)
Theorem C55_limits_hold :
  forall (U : Type) (cfg : jconfig) (cb : jtype -> list Z -> U -> Z * U) (u u' : U) (pieces : list (list Z)) code x log,
    config_ok cfg -> 0 <= max_total_values cfg -> 0 <= max_nesting_level cfg ->
    Z.testbit (cflags cfg) FIXILLUTF8KEY = false -> Z.testbit (cflags cfg) FIXILLUTF8VALUE = false ->
    load_chunks cfg (logging cb) (u, []) pieces = Some (code, x, (u', log)) ->
    respects cfg log.
Proof.
  intros U cfg cb u u' pieces code x log Hc HV HN F1 F2 H. destruct Hc as (_ & Hc).
  apply (load_good cfg (logging cb)) with (pieces := pieces) (p := json_init (u, [])) (e := code) (x := x) (u := (u', log)).
  - intros t d [w l]. unfold logging. cbn [fst snd]. destruct (cb t d w). reflexivity.
  - exact Hc.
  - intros t. unfold fix_of. destruct t; assumption.
  - apply inv_init.
  - apply init_good; assumption.
  - exact H.
Qed.
Print Assumptions C55_limits_hold.

(** What is logged is what the callback was called with, and its effect is unchanged: logging is transparent. *)
Lemma logging_transparent : forall (U : Type) (cb : jtype -> list Z -> U -> Z * U) t d w,
  fst (logging cb t d w) = fst (cb t d (fst w)) /\ fst (snd (logging cb t d w)) = snd (cb t d (fst w)).
Proof. intros. unfold logging. destruct (cb t d (fst w)). split; reflexivity. Qed.

(** wolfSentry's configuration of the parser (load_config.c 1712-1722, and 1736 for other configurations):
    keys of at most 32 bytes, strings of 16384, numbers of 20, nesting of 16. *)
Definition cfg0 : jconfig := JConfig 0 0 20 16384 32 16 15.
Theorem C55_wolfsentry :
  forall (U : Type) (cb : jtype -> list Z -> U -> Z * U) (u u' : U) (pieces : list (list Z)) code x log t data,
    load_chunks cfg0 (logging cb) (u, []) pieces = Some (code, x, (u', log)) -> In (t, data) log ->
    (t = JSON_KEY -> Z.of_nat (List.length data) <= 32) /\
    (t = JSON_NUMBER -> Z.of_nat (List.length data) <= 20) /\
    (t = JSON_STRING -> Z.of_nat (List.length data) <= 16384) /\
    (forall before after, log = before ++ after -> 0 <= open_containers before <= 16).
Proof.
  intros U cb u u' pieces code x log t data H HI.
  assert (R : respects cfg0 log).
  { eapply (C55_limits_hold U cfg0 cb u u' pieces code x log); try reflexivity; [|discriminate..|exact H].
    unfold config_ok. cbn. lia. }
  destruct R as [R1 _ R3]. rewrite Forall_forall in R1. specialize (R1 _ HI). unfold sized, at_most in R1. cbn in R1.
  split; [intros ->; lia|]. split; [intros ->; lia|]. split; [intros ->; lia|].
  intros before after E. destruct (R3 before after E) as [A [B|B]]; [discriminate B|]. cbn in B. lia.
Qed.
Print Assumptions C55_wolfsentry.

(** The stack of open arrays and objects (parser->nesting_stack) is never looked at while it is empty: wherever the
    automaton may look at its top, at a closing bracket or a comma (centijson_sax.c 896-915), something is open. *)
Theorem C55_nesting_stack :
  forall (U : Type) (cfg : jconfig) (cb : jtype -> list Z -> U -> Z * U) (u : U) (doc : list Z) p,
    config_ok cfg -> not_too_long cfg doc -> json_feed cfg cb (json_init u) doc = Some p -> 0 <= p_err p ->
    has (p_st p) CAN_SEE_CLOSER = true \/ has (p_st p) CAN_SEE_COMMA = true -> p_nest p <> [].
Proof.
  intros U cfg cb u doc p (_ & Hc) Hl H E HS.
  destruct (json_feed_spec cfg cb Hc (json_init u) doc (inv_init cfg u)) as (p' & E' & Hn & _); [exact Hl|].
  assert (p' = p) by congruence. subst p'. rewrite (norm_ok _ _ Hn E) in *. apply (bsteps_ninv cfg cb doc u). exact HS.
Qed.
Print Assumptions C55_nesting_stack.

(** With the flag that replaces ill-formed UTF-8, keys longer than the limit are handed over: each bad byte becomes three. *)
Definition cfg_fix : jconfig := JConfig 0 0 20 16384 4 16 (Z.setbit 0 FIXILLUTF8KEY).
Theorem C55_fix_flag_refuted :
  json_parse cfg_fix (logging record_cb) ([], []) (bytes "{""" ++ [255; 255] ++ bytes """:1}") =
    Some (0, JPos 8 1 9, ([(JSON_OBJECT_BEG, []); (JSON_KEY, [239; 191; 189; 239; 191; 189]); (JSON_NUMBER, [49]); (JSON_OBJECT_END, [])],
                          [(JSON_OBJECT_BEG, []); (JSON_KEY, [239; 191; 189; 239; 191; 189]); (JSON_NUMBER, [49]); (JSON_OBJECT_END, [])])) /\
  ~ sized cfg_fix (JSON_KEY, [239; 191; 189; 239; 191; 189]).
Proof. split; [vm_compute; reflexivity|]. cbn. unfold at_most. cbn. lia. Qed.
Print Assumptions C55_fix_flag_refuted.

(** Non-vacuity: a document refused at its third value, in two pieces, and one nested too deep. *)
Example C55_example_values :
  load_chunks (JConfig 0 2 20 16384 32 16 15) (logging record_cb) ([], []) [bytes "[1"; bytes "2,3]"] =
    Some (ERR_MAXTOTALVALUES, JPos 4 1 5, ([(JSON_ARRAY_BEG, []); (JSON_NUMBER, bytes "12")], [(JSON_ARRAY_BEG, []); (JSON_NUMBER, bytes "12")])).
Proof. vm_compute. reflexivity. Qed.
Example C55_example_key :
  exists x, load_chunks (JConfig 0 0 20 16384 3 16 15) (logging record_cb) ([], []) [bytes "{""abc"":1,""ab"; bytes "cd"":2}"] =
    Some (ERR_MAXKEYLEN, x, ([(JSON_OBJECT_BEG, []); (JSON_KEY, bytes "abc"); (JSON_NUMBER, bytes "1")], [(JSON_OBJECT_BEG, []); (JSON_KEY, bytes "abc"); (JSON_NUMBER, bytes "1")])).
Proof. eexists. vm_compute. reflexivity. Qed.
Example C55_example_nesting :
  exists x, load_chunks (JConfig 0 0 20 16384 3 1 15) (logging record_cb) ([], []) [bytes "[[1]]"] =
    Some (ERR_MAXNESTINGLEVEL, x, ([(JSON_ARRAY_BEG, [])], [(JSON_ARRAY_BEG, [])])).
Proof. eexists. vm_compute. reflexivity. Qed.
