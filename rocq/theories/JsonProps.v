(** * C52: feeding a document in pieces

    [json_parse cfg cb u doc] is the whole document in one call;
    [parse_chunks cfg cb u chunks] feeds it piece by piece regardless of
    failures, [load_chunks cfg cb u chunks] is what
    [wolfsentry_config_json_feed]/[_fini] do.  All three give the code
    returned, the position reported and the final state of whatever the
    callback [cb], which is arbitrary, works on. *)
Require Import ZArith List Bool Lia String.
From Verif Require Import Json JsonProofs JsonChunks JsonLength JsonText.
Import ListNotations.
Open Scope Z_scope.

(** The limits of a [JSON_CONFIG] are unsigned. *)
Definition config_ok (cfg : jconfig) : Prop :=
  0 <= max_total_len cfg /\ 0 <= max_number_len cfg /\
  0 <= max_string_len cfg /\ 0 <= max_key_len cfg.

(** The document is not longer than the configured maximum (0: no maximum). *)
Definition not_too_long (cfg : jconfig) (doc : list Z) : Prop :=
  max_total_len cfg = 0 \/ Z.of_nat (List.length doc) <= max_total_len cfg.

(** However a document within the length limit is cut into pieces, and
    whatever the callback does, the outcome is that of the document in
    one piece: the same callbacks with the same data, the same code, the
    same position. *)
Theorem C52_chunking_irrelevant :
  forall (U : Type) (cfg : jconfig) (cb : jtype -> list Z -> U -> Z * U) (u : U)
         (chunks : list (list Z)),
    config_ok cfg -> not_too_long cfg (List.concat chunks) ->
    exists r,
      json_parse cfg cb u (List.concat chunks) = Some r /\
      parse_chunks cfg cb u chunks = Some r /\
      load_chunks cfg cb u chunks = Some r.
Proof.
  intros U cfg cb u chunks (_ & Hc) Hl.
  rewrite (json_parse_spec cfg cb Hc) by exact Hl.
  rewrite (parse_chunks_spec cfg cb Hc) by exact Hl.
  rewrite (load_chunks_spec cfg cb Hc) by exact Hl.
  destruct (json_fini_some cfg cb (bsteps cfg cb (json_init u) (List.concat chunks))) as [r E].
  exists r. repeat split; exact E.
Qed.
Print Assumptions C52_chunking_irrelevant.

(** A document over the length limit is refused, however it is cut. *)
Theorem C52_too_long_refused :
  forall (U : Type) (cfg : jconfig) (cb : jtype -> list Z -> U -> Z * U) (u : U)
         (chunks : list (list Z)),
    config_ok cfg -> ~ not_too_long cfg (List.concat chunks) ->
    (exists code pos u', parse_chunks cfg cb u chunks = Some (code, pos, u') /\ code < 0) /\
    (exists code pos u', load_chunks cfg cb u chunks = Some (code, pos, u') /\ code < 0).
Proof.
  intros U cfg cb u chunks (H0 & Hc) Hl. unfold not_too_long in Hl.
  assert (0 < max_total_len cfg /\ max_total_len cfg < Z.of_nat (List.length (List.concat chunks))) as [A B] by lia.
  split; [apply parse_chunks_over|apply load_chunks_over]; assumption.
Qed.
Print Assumptions C52_too_long_refused.

(** The configuration [wolfsentry_config_json_init] uses
    (src/json/load_config.c 1712-1730). *)
Definition ws_cfg : jconfig := JConfig 0 0 20 16384 32 16 15.

Definition sample : list Z :=
  text "{ 'wolfsentry-config-version' : 1, 'x\u00e9\ud83d\ude00' : [ -2.5e+3, true, null ] }".

Example C52_example :
  config_ok ws_cfg /\ not_too_long ws_cfg sample /\
  json_parse ws_cfg record_cb [] sample =
    parse_chunks ws_cfg record_cb [] (map (fun c => [c]) sample) /\
  json_parse ws_cfg record_cb [] sample =
    Some (0, JPos 84 1 85,
          [ (JSON_OBJECT_BEG, []); (JSON_KEY, text "wolfsentry-config-version");
            (JSON_NUMBER, text "1");
            (JSON_KEY, [120; 195; 169; 240; 159; 152; 128]);
            (JSON_ARRAY_BEG, []); (JSON_NUMBER, text "-2.5e+3"); (JSON_TRUE, []);
            (JSON_NULL, []); (JSON_ARRAY_END, []); (JSON_OBJECT_END, []) ]).
Proof.
  split; [unfold config_ok; cbn; lia|]. split; [left; reflexivity|].
  split; vm_compute; reflexivity.
Qed.

(** With a length limit, what the callback has seen of a refused document
    does depend on how it was cut: without the hypothesis of
    [C52_chunking_irrelevant] its conclusion is false. *)
Example C52_too_long_example_refuted :
  let cfg := JConfig 4 0 20 16384 32 16 0 in
  json_parse cfg record_cb [] (text "[1,2,3]") = Some (ERR_MAXTOTALLEN, JPos 4 1 5, []) /\
  load_chunks cfg record_cb [] [text "[1,"; text "2,3]"] =
    Some (ERR_MAXTOTALLEN, JPos 4 1 5, [(JSON_ARRAY_BEG, []); (JSON_NUMBER, text "1")]).
Proof. split; vm_compute; reflexivity. Qed.
