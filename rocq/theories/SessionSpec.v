(** * What loading a configuration means (doc/json_configuration.md 73-83), independently of the steps of the code *)
Require Import ZArith List Bool.
From Verif Require Import Json Session.
Import ListNotations.
Open Scope Z_scope.

Section Spec.
  Context {C J : Type} (k : calls C J).
  (** An exchange that is refused changes neither context (proved of the code: C37_exchange_swaps). *)
  Definition refused_exchange_is_nothing : Prop :=
    forall a c r a' c', k_exchange k a c = (r, a', c') -> r < 0 -> a' = a.
  (** The translation of error codes keeps errors errors (json_util.c 28-61). *)
  Definition errors_stay_errors : Prop := forall r, r < 0 -> k_translate k r < 0.
  (** The document is read into [c] by the callback; the parser ends with [code], leaving [c']. *)
  Definition reads (cfg : jconfig) (fl : Z) (j : J) (c : C) (chunks : list (list Z)) (code : Z) (c' : C) : Prop :=
    exists pos j', load_chunks cfg (k_event k fl) (j, c) chunks = Some (code, pos, (j', c')).
  (** What a new configuration starts from: the whole running one (NO_FLUSH), all of it but its routes (FLUSH_ONLY_ROUTES), or
      one as wolfsentry_init makes it. *)
  Definition starts_from (fl : Z) : clone_kind :=
    match Z.testbit fl LF_NO_FLUSH, Z.testbit fl LF_FLUSH_ONLY_ROUTES with
    | true, _ => CloneAll
    | false, true => CloneNoRoutes
    | false, false => CloneAsCreated
    end.
  (** Whether a session goes on: it has not failed yet. *)
  Definition goes_on (s : session C J) : Prop := exists p, s_parser s = inl p.
  (** What is done to a content once it is the running one: insert actions are run again for all routes, or, for an
      incremental load, for the routes they have not been run for yet. *)
  Definition installed (fl : Z) (a : C) : Z * C :=
    k_bulk_insert k (k_enable k (if Z.testbit fl LF_NO_FLUSH then a else snd (k_bulk_clear k a))).
  (** The last steps of a commit cannot fail. *)
  Definition last_steps_succeed : Prop :=
    (forall a, 0 <= fst (k_bulk_clear k a)) /\ (forall a, 0 <= fst (k_flush k a)) /\ (forall a, 0 <= fst (k_bulk_insert k a)).
End Spec.
