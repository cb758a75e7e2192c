(** * C46: every call gives the lock back *)

From Coq Require Import List Bool Arith String Lia.
From Verif Require Import LockBalance LockBalanceSpec LockBalanceProofs.
Import ListNotations.
Open Scope string_scope.

(** The calls that always leave both locks as they found them. *)
Definition balanced_calls : list (string * stmt) := [
  ("wolfsentry_action_insert", action_insert);
  ("wolfsentry_action_delete", action_delete);
  ("wolfsentry_action_flush_all", action_flush_all);
  ("wolfsentry_action_get_reference", action_get_reference);
  ("wolfsentry_action_drop_reference", action_drop_reference);
  ("wolfsentry_event_insert", event_insert);
  ("wolfsentry_event_get_reference", event_get_reference);
  ("wolfsentry_event_drop_reference", event_drop_reference Here);
  ("wolfsentry_event_delete", event_delete);
  ("wolfsentry_event_flush_all", event_flush_all);
  ("wolfsentry_event_action_prepend", event_action_prepend);
  ("wolfsentry_event_action_append", event_action_append);
  ("wolfsentry_event_action_delete", event_action_delete);
  ("wolfsentry_event_action_list_next", event_action_list_next);
  ("wolfsentry_event_action_list_done", event_action_list_done);
  ("wolfsentry_user_value_set_validator", user_value_set_validator);
  ("wolfsentry_user_value_set_mutability", user_value_set_mutability);
  ("wolfsentry_user_value_get_mutability", user_value_get_mutability);
  ("wolfsentry_user_value_get_type", user_value_get_type);
  ("wolfsentry_user_value_delete", user_value_delete);
  ("wolfsentry_user_value_store_*", user_value_store);
  ("wolfsentry_user_value_get_bool/uint/sint/float", user_value_get_scalar);
  ("wolfsentry_user_value_release_record", user_value_release_record);
  ("wolfsentry_kv_pair_export", kv_pair_export);
  ("wolfsentry_user_values_iterate_start", user_values_iterate "start");
  ("wolfsentry_user_values_iterate_next", user_values_iterate "next");
  ("wolfsentry_user_values_iterate_end", user_values_iterate "end");
  ("wolfsentry_addr_family_get_parser/formatter", addr_family_get_handler);
  ("wolfsentry_addr_family_handler_remove_*", addr_family_handler_remove);
  ("wolfsentry_addr_family_pton", addr_family_pton);
  ("wolfsentry_addr_family_ntop", addr_family_ntop);
  ("wolfsentry_addr_family_max_addr_bits", addr_family_max_addr_bits);
  ("wolfsentry_route_table_fallthrough_route_get", fallthrough_route_get);
  ("wolfsentry_object_checkout", object_checkout);
  ("wolfsentry_route_drop_reference", route_drop_reference);
  ("wolfsentry_route_insert*", route_insert);
  ("wolfsentry_route_get_main_table", route_get_main_table);
  ("wolfsentry_route_table_default_policy_set", table_default_policy_set);
  ("wolfsentry_route_default_policy_set", route_default_policy_set);
  ("wolfsentry_route_table_max_purgeable_routes_set", max_purgeable_routes_set);
  ("wolfsentry_route_table_max_purgeable_idle_time_set", max_purgeable_idle_time_set);
  ("wolfsentry_route_purge_time_set", route_purge_time_set);
  ("wolfsentry_route_get_reference", route_get_reference);
  ("wolfsentry_route_delete*", route_delete_from_table);
  ("wolfsentry_route_delete_by_id", route_delete_by_id);
  ("wolfsentry_route_event_dispatch*", route_event_dispatch);
  ("wolfsentry_route_stale_purge*", route_stale_purge);
  ("wolfsentry_route_flush_table", route_flush_table);
  ("wolfsentry_route_bulk_clear_insert_action_status", route_bulk_clear);
  ("wolfsentry_route_bulk_insert_actions", route_bulk_insert_actions);
  ("wolfsentry_route_table_clear_default_event", clear_default_event);
  ("wolfsentry_route_table_set_default_event", set_default_event);
  ("wolfsentry_route_table_get_default_event", get_default_event);
  ("wolfsentry_route_table_iterate_start/end", route_getter);
  ("wolfsentry_defaultconfig_get", defaultconfig_get);
  ("wolfsentry_defaultconfig_update", defaultconfig_update);
  ("wolfsentry_cleanup_push", cleanup_push);
  ("wolfsentry_cleanup_pop", cleanup_pop Here);
  ("wolfsentry_cleanup_all", cleanup_all Here);
  ("wolfsentry_context_flush", context_flush Here);
  ("wolfsentry_context_exchange", context_exchange)].

Theorem C46_balanced_calls_partial : forall name f,
  In (name, f) balanced_calls -> balanced f.
Proof.
  intros name f H s t r s' R.
  assert (All : forallb (fun e => all_ends even (an [] (fun _ => false) (snd e) (0, 0)))
                  balanced_calls = true) by (vm_compute; reflexivity).
  rewrite forallb_forall in All. specialize (All _ H). cbn in All.
  exact (even_sound [] f All s t r s' R (fun e He => False_ind _ He)).
Qed.

(** The calls that do so except on the named failures. *)
Definition flawed_calls : list (string * stmt * list (string * bool)) := [
  ("wolfsentry_event_get_config", event_get_config, [("event_get_1 [get_config]", false)]);
  ("wolfsentry_event_update_config", event_update_config, [("event_get_1 [update_config]", false)]);
  ("wolfsentry_event_set_aux_event", event_set_aux_event, [("event_get_reference [set_aux]", false)]);
  ("wolfsentry_event_action_list_start", event_action_list_start, [("unknown list [start]", true)]);
  ("wolfsentry_event_action_insert_after", event_action_insert_after,
     [("action_drop_reference (point)", false)]);
  ("wolfsentry_user_value_get_string/bytes/json", user_value_get_record,
     [("template built [reference]", false)]);
  ("wolfsentry_addr_family_handler_install", addr_family_handler_install,
     [("name too long", true); ("out of memory", true); ("lock", false)]);
  ("wolfsentry_route_event_dispatch_by_id*", route_event_dispatch_by_id,
     [("event_get_reference [dispatch]", false)]);
  ("wolfsentry_route_event_dispatch_by_route*", route_event_dispatch_by_route,
     [("event_get_reference [dispatch]", false)]);
  ("cloning an action list", action_list_clone,
     [("action refcount incremented [clone]", false)]);
  ("wolfsentry_config_json_oneshot, in place", json_oneshot,
     [("defaultconfig_get [init]", false); ("unknown list [start]", true);
      ("event_get_reference [set_aux]", false); ("event_get_1 [update_config]", false)])].

Theorem C46_flawed_calls_partial : forall name f bad,
  In (name, f, bad) flawed_calls -> balanced_unless bad f.
Proof.
  intros name f bad H.
  assert (All : forallb (fun e => all_ends even (an (snd e) (fun _ => false) (snd (fst e)) (0, 0)))
                  flawed_calls = true) by (vm_compute; reflexivity).
  rewrite forallb_forall in All. specialize (All _ H). cbn in All.
  exact (even_sound bad f All).
Qed.

(** Calls that hand a hold over on purpose. *)

Definition fresh_there (c : ctx) := match c with Here => false | There => true end.
Definition fresh_here (c : ctx) := match c with Here => true | There => false end.

(* cloning: the context's own lock is untouched; a clone that is handed out is
   locked exactly once *)
Theorem C46_clone_partial : forall n t r s',
  runs context_clone {| here := n; there := 0 |} t (Returns r) s' ->
  here s' = n /\ (r = true -> there s' = 1).
Proof.
  intros n t r s' R.
  pose (f := fun e : end_ => match fst e with
                             | Returns r => Nat.eqb (fst (snd e)) 0
                                            && (negb r || Nat.eqb (snd (snd e)) 1)
                             | _ => true end).
  destruct (ends_sound [] fresh_there f context_clone (0, 0)
              ltac:(vm_compute; reflexivity) {| here := n; there := 0 |} t (Returns r) s')
    as (d & Hf & ->).
  - intros [] Hc; [discriminate Hc|reflexivity].
  - rewrite plus_0; exact R.
  - intros e He; destruct He.
  - unfold f in Hf; cbn in Hf. apply andb_true_iff in Hf; destruct Hf as [H1 H2].
    apply Nat.eqb_eq in H1. cbn. split; [lia|]. intros ->. cbn in H2. apply Nat.eqb_eq in H2. lia.
Qed.

(* starting to load a configuration: success keeps the lock (once more than
   before), failure gives it back, unless the defaults cannot be read *)
Theorem C46_json_init_partial : forall n t r s',
  runs json_init {| here := n; there := 0 |} t (Returns r) s' ->
  ~ In ("defaultconfig_get [init]", false) t ->
  here s' = (if r then S n else n).
Proof.
  intros n t r s' R Hn.
  pose (f := fun e : end_ => match fst e with
                             | Returns r => Nat.eqb (fst (snd e)) (if r then 1 else 0)
                             | _ => true end).
  destruct (ends_sound [("defaultconfig_get [init]", false)] fresh_there f json_init (0, 0)
              ltac:(vm_compute; reflexivity) {| here := n; there := 0 |} t (Returns r) s')
    as (d & Hf & ->).
  - intros [] Hc; [discriminate Hc|reflexivity].
  - rewrite plus_0; exact R.
  - intros e [<-|[]]; exact Hn.
  - unfold f in Hf; cbn in Hf. apply Nat.eqb_eq in Hf. cbn. destruct r; lia.
Qed.

(* finishing gives up that hold, whatever happened *)
Theorem C46_json_fini_partial : forall n m t r s',
  (runs json_fini {| here := S n; there := m |} t (Returns r) s' -> s' = {| here := n; there := m |})
  /\ (runs json_fini_clone {| here := S n; there := 1 |} t (Returns r) s' -> here s' = n).
Proof.
  intros n m t r s'. split; intro R.
  - pose (f := fun e : end_ => match fst e with
                               | Returns _ => Nat.eqb (fst (snd e)) 0 && Nat.eqb (snd (snd e)) 0
                               | _ => true end).
    destruct (ends_sound [] (fun _ => false) f json_fini (1, 0)
                ltac:(vm_compute; reflexivity) {| here := n; there := m |} t (Returns r) s')
      as (d & Hf & ->).
    + intros c Hc; discriminate Hc.
    + unfold plus; cbn [fst snd here there]. rewrite Nat.add_comm, Nat.add_0_r. exact R.
    + intros e He; destruct He.
    + unfold f in Hf; cbn in Hf. apply andb_true_iff in Hf; destruct Hf as [H1 H2].
      apply Nat.eqb_eq in H1, H2. unfold plus; cbn. f_equal; lia.
  - pose (f := fun e : end_ => match fst e with
                               | Returns _ => Nat.eqb (fst (snd e)) 0
                               | _ => true end).
    destruct (ends_sound [] fresh_there f json_fini_clone (1, 1)
                ltac:(vm_compute; reflexivity) {| here := n; there := 0 |} t (Returns r) s')
      as (d & Hf & ->).
    + intros [] Hc; [discriminate Hc|reflexivity].
    + unfold plus; cbn [fst snd here there]. rewrite Nat.add_comm. exact R.
    + intros e He; destruct He.
    + unfold f in Hf; cbn in Hf. apply Nat.eqb_eq in Hf. cbn. lia.
Qed.

(* shutting down, called without holding the lock: nothing is held afterwards,
   unless one of the tables could not be emptied *)
Theorem C46_shutdown_partial : forall m t r s',
  runs shutdown {| here := 0; there := m |} t (Returns r) s' ->
  (forall f, In f ["cleanup_all"; "route_flush_table"; "action_flush_all"; "event_flush_all";
                   "free user values"; "free families"; "have lock"] -> ~ In (f, false) t) ->
  here s' = 0.
Proof.
  intros m t r s' R Hn.
  pose (bad := map (fun f => (f, false))
                 ["cleanup_all"; "route_flush_table"; "action_flush_all"; "event_flush_all";
                  "free user values"; "free families"; "have lock"]).
  pose (f := fun e : end_ => match fst e with
                             | Returns _ => Nat.eqb (fst (snd e)) 0
                             | _ => true end).
  assert (A : all_ends f (an bad fresh_here shutdown (0, 0)) = true) by (vm_compute; reflexivity).
  destruct (ends_sound bad fresh_here f shutdown (0, 0) A {| here := 0; there := m |} t (Returns r) s')
    as (d & Hf & ->).
  - intros [] Hc; [reflexivity|discriminate Hc].
  - rewrite plus_0; exact R.
  - intros e He Hi. unfold bad in He. apply in_map_iff in He. destruct He as (x & <- & Hx).
    exact (Hn x Hx Hi).
  - unfold f in Hf; cbn in Hf. apply Nat.eqb_eq in Hf. cbn. lia.
Qed.

(** ** Runs that do not give the lock back, or give back one they never took *)

Ltac by_walk q :=
  match goal with
  | |- runs ?p ?s ?t ?o ?s' =>
      eapply (walk_sound 200 p s q); vm_compute; reflexivity
  end.

Definition free0 := {| here := 0; there := 0 |}.
Definition held1 := {| here := 1; there := 0 |}.

(* asking for, or changing, the configuration of an event that does not exist:
   the call fails and the lock stays taken *)
Theorem C46_event_get_config_refuted : ~ balanced event_get_config.
Proof.
  intro B. specialize (B free0
    [("lock", true); ("bad label", false); ("have lock", true); ("entry found", false);
     ("table_ent_get", false); ("event_get_1 [get_config]", false)] false held1).
  assert (R : runs event_get_config free0
    [("lock", true); ("bad label", false); ("have lock", true); ("entry found", false);
     ("table_ent_get", false); ("event_get_1 [get_config]", false)] (Returns false) held1)
    by by_walk [true; false; true; false].
  specialize (B R). discriminate B.
Qed.

Theorem C46_event_update_config_refuted : ~ balanced event_update_config.
Proof.
  intro B.
  assert (R : runs event_update_config free0
    [("lock", true); ("bad label", false); ("have lock", true); ("entry found", false);
     ("table_ent_get", false); ("event_get_1 [update_config]", false)] (Returns false) held1)
    by by_walk [true; false; true; false].
  specialize (B _ _ _ _ R). discriminate B.
Qed.

(* giving an unknown event an aux event *)
Theorem C46_event_set_aux_event_refuted : ~ balanced event_set_aux_event.
Proof.
  intro B.
  assert (R : runs event_set_aux_event free0
    [("lock", true); ("have lock", true); ("bad label", false); ("have lock", true);
     ("entry found", false); ("table_ent_get", false); ("event_get_1", false);
     ("event_get_reference [set_aux]", false)] (Returns false) held1)
    by by_walk [true; true; false; true; false].
  specialize (B _ _ _ _ R). discriminate B.
Qed.

(* dispatching by route id, or by route, with the label of an unknown event *)
Theorem C46_dispatch_by_id_refuted :
  ~ balanced route_event_dispatch_by_id /\ ~ balanced route_event_dispatch_by_route.
Proof.
  split; intro B.
  - assert (R : runs route_event_dispatch_by_id free0
      [("bad initial results", false); ("lock", true); ("event label given", true);
       ("have lock", true); ("bad label", false); ("have lock", true); ("entry found", false);
       ("table_ent_get", false); ("event_get_1", false);
       ("event_get_reference [dispatch]", false)] (Returns false) held1)
      by by_walk [false; true; true; true; false; true; false].
    specialize (B _ _ _ _ R). discriminate B.
  - assert (R : runs route_event_dispatch_by_route free0
      [("bad initial results", false); ("lock", true); ("event label given", true);
       ("have lock", true); ("bad label", false); ("have lock", true); ("entry found", false);
       ("table_ent_get", false); ("event_get_1", false);
       ("event_get_reference [dispatch]", false)] (Returns false) held1)
      by by_walk [false; true; true; true; false; true; false].
    specialize (B _ _ _ _ R). discriminate B.
Qed.

(* iterating over a list that does not exist takes the caller's hold away *)
Theorem C46_event_action_list_start_refuted : ~ balanced event_action_list_start.
Proof.
  intro B.
  assert (R : runs event_action_list_start held1
    [("have lock", true); ("bad label", false); ("have lock", true); ("entry found", true);
     ("table_ent_get", true); ("event_get_1", true); ("unknown list [start]", true)]
    (Returns false) free0)
    by by_walk [true; false; true; true; true].
  specialize (B _ _ _ _ R). discriminate B.
Qed.

(* so does asking for a string, bytes or JSON value with a bad key, and
   installing an address family whose name is too long *)
Theorem C46_release_not_taken_refuted :
  ~ balanced user_value_get_record /\ ~ balanced addr_family_handler_install.
Proof.
  split; intro B.
  - assert (R : runs user_value_get_record held1
      [("template built [reference]", false); ("kv_get_reference", false)] (Returns false) free0)
      by by_walk [false].
    specialize (B _ _ _ _ R). discriminate B.
  - assert (R : runs addr_family_handler_install held1
      [("bad arguments", false); ("name too long", true); ("addr_family_insert", false)]
      (Returns false) free0)
      by by_walk [false; true].
    specialize (B _ _ _ _ R). discriminate B.
Qed.

(* shutting down while holding the lock once: the call fails with BUSY and the
   caller's own hold is gone *)
Theorem C46_shutdown_refuted : exists t,
  runs shutdown held1 t (Returns false) free0.
Proof.
  exists [("lock", true); ("have lock", true); ("context_free", false); ("the error is BUSY", true)].
  by_walk [true; true; true].
Qed.

(* a full reference count while an action list is cloned: the clone's lock
   stays taken *)
Theorem C46_action_list_clone_refuted : ~ balanced action_list_clone.
Proof.
  intro B.
  assert (R : runs action_list_clone free0
    [("lock", true); ("lock", true); ("have lock", true); ("entry found", true);
     ("table_ent_get", true); ("list entry allocated", true);
     ("action refcount incremented [clone]", false)] (Returns false)
    {| here := 0; there := 1 |})
    by by_walk [true; true; true; true; true; true; false].
  specialize (B _ _ _ _ R). discriminate B.
Qed.

(** ** The hypotheses are met: successful and failing runs exist *)

Example insert_run : runs route_insert free0
  [("lock", true); ("event label given", false); ("bad addresses", false); ("route built", true);
   ("bad flags", false); ("already in table", false); ("no time", false); ("purge time past", false);
   ("purgeable", false); ("have lock", true); ("id allocated", true); ("id_allocate", true);
   ("have lock", true); ("entry inserted", true); ("table_ent_insert", true);
   ("bitmask family refused", false); ("insert actions", false); ("route_insert_1", true);
   ("caller wants the route", false); ("already there", false); ("route_insert_2", true);
   ("have event", false); ("route_insert_into_table", true)] (Returns true) free0.
Proof.
  by_walk [true; false; false; true; false; false; false; false; false; true; true; true; true;
           false; false; false; false; false].
Qed.

Example json_run : exists t s', runs json_oneshot free0 t (Returns true) s' /\ s' = free0.
Proof.
  eexists; eexists; split; [|reflexivity].
  by_walk [false; true; true; true; false; false; true; false; false; false; false].
Qed.

Print Assumptions C46_balanced_calls_partial.
Print Assumptions C46_flawed_calls_partial.
Print Assumptions C46_clone_partial.
Print Assumptions C46_json_init_partial.
Print Assumptions C46_json_fini_partial.
Print Assumptions C46_shutdown_partial.
Print Assumptions C46_event_get_config_refuted.
Print Assumptions C46_event_update_config_refuted.
Print Assumptions C46_event_set_aux_event_refuted.
Print Assumptions C46_dispatch_by_id_refuted.
Print Assumptions C46_event_action_list_start_refuted.
Print Assumptions C46_release_not_taken_refuted.
Print Assumptions C46_shutdown_refuted.
Print Assumptions C46_action_list_clone_refuted.
