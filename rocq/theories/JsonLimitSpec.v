(** * What a callback may rely on, whatever becomes of the document *)
Require Import ZArith List Bool.
From Verif Require Import Json.
Import ListNotations.
Open Scope Z_scope.

(** A callback that also keeps a log of the calls made. *)
Definition logging {U} (cb : jtype -> list Z -> U -> Z * U) (t : jtype) (d : list Z) (w : U * list event) : Z * (U * list event) :=
  let '(e, u) := cb t d (fst w) in (e, (u, snd w ++ [(t, d)])).

(** A configured maximum, where 0 stands for none. *)
Definition at_most (limit n : Z) : Prop := limit = 0 \/ n <= limit.

(** The data handed over is not longer than configured; values without content come without data. *)
Definition sized (cfg : jconfig) (e : event) : Prop :=
  let '(t, d) := e in
  match t with
  | JSON_KEY => at_most (max_key_len cfg) (Z.of_nat (length d))
  | JSON_STRING => at_most (max_string_len cfg) (Z.of_nat (length d))
  | JSON_NUMBER => at_most (max_number_len cfg) (Z.of_nat (length d))
  | _ => d = []
  end.

(** Values, that is all callbacks but the ends of arrays and objects. *)
Definition is_end (e : event) : bool := match fst e with JSON_ARRAY_END | JSON_OBJECT_END => true | _ => false end.
Definition is_begin (e : event) : bool := match fst e with JSON_ARRAY_BEG | JSON_OBJECT_BEG => true | _ => false end.
Definition tally (f : event -> bool) (log : list event) : Z := Z.of_nat (length (filter f log)).
Definition values (log : list event) : Z := tally (fun e => negb (is_end e)) log.
(** Arrays and objects begun and not ended. *)
Definition open_containers (log : list event) : Z := tally is_begin log - tally is_end log.

Record respects (cfg : jconfig) (log : list event) : Prop := {
  r_sized : Forall (sized cfg) log;
  r_values : at_most (max_total_values cfg) (values log);
  r_nesting : forall before after, log = before ++ after ->
    0 <= open_containers before /\ at_most (max_nesting_level cfg) (open_containers before) }.
