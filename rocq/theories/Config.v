(** * A whole configuration load: the session of Session.v around json_process of Loader.v

    src/json/load_config.c 1503-2035.  [C] are the contents of a context.  The calls made on a context by the session (clone,
    exchange, flush, ...) and by json_process (insert an event, a route, ...) are arbitrary; the parser, json_process and the
    session are the models.  What a call that json_process gives up on leaves behind, and which error code it reports, is
    arbitrary too. *)
Require Import ZArith NArith List Bool.
From Verif Require Import Json Session Loader.
From Verif Require EventConfig.
Import ListNotations.
Open Scope Z_scope.

(** wolfsentry_json.h 64 *)
Definition LF_NO_ROUTES_OR_EVENTS := 3.

Section Config.
  Context {C D V F : Type}.
  Variables (api : Loader.calls C V F) (cv : converters C D V F).
  (** [failure] the error code, [left_behind] the contents, when json_process gives up; [defaults_get] is
      wolfsentry_defaultconfig_get, [dom] the value of the uninitialised DOM parser state. *)
  Variable failure : jtype -> list Z -> jps D * C -> Z.
  Variable left_behind : jtype -> list Z -> jps D * C -> C.
  Variable defaults_get : C -> Z * EventConfig.econf.
  Variable dom : D.

  (** 1503-1695 json_process as the parser's callback, with jps->load_flags (1750): it gives up, or behaves in an undefined way. *)
  Definition on_token (fl : Z) (t : jtype) (d : list Z) (x : res (jps D) * C) : Z * (res (jps D) * C) :=
    match x with
    | (Good j, c) =>
      match process api cv (Z.testbit fl LF_NO_ROUTES_OR_EVENTS) t d (j, c) with
      | Good (j, c) => (0, (Good j, c))
      | Err => (failure t d (j, c), (Err, left_behind t d (j, c)))
      | Bad => (failure t d (j, c), (Bad, left_behind t d (j, c)))
      end
    | (r, c) => (-1, (r, c))
    end.
  (** 1814-1831: the process state json_process starts with *)
  Definition on_start (_ : Z) (c : C) : Z * res (jps D) :=
    let '(r, defaults) := defaults_get c in (r, Good (start defaults dom)).
  (** The session's other calls are those of [k]. *)
  Definition composed (k : Session.calls C unit) : Session.calls C (res (jps D)) :=
    Session.Calls (k_lock k) (k_clone k) (k_inhibit k) (k_enable k) on_start (k_flush k) (k_flush_routes k) (k_exchange k)
      (k_bulk_clear k) (k_bulk_insert k) (k_free k) on_token (k_translate k).
End Config.
