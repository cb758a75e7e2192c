(** What running an action list means, for C31. *)
From Verif Require Import Base RouteFlags Dispatch Actions.
Open Scope N_scope.

Section Spec.
  Variable U : Type.
  Variable handler : action -> action_type -> world U -> N -> err * world U * N.
  Variable ty : action_type.

  Definition who (c : callrec U) : action := fst (fst c).
  Definition given (c : callrec U) : world U * N := (snd (fst c), snd c).
  (** What the callback of a recorded call answered. *)
  Definition answer (c : callrec U) : err * world U * N := let '(a, w, ar) := c in handler a ty w ar.
  Definition failed (c : callrec U) : Prop := is_success (fst (fst (answer c))) = false.
  Definition stopped (c : callrec U) : Prop := has (snd (answer c)) AR_STOP = true.
  Definition left_by (c : callrec U) : world U * N := (snd (fst (answer c)), snd (answer c)).
  (** The callback neither fails nor says STOP. *)
  Definition carries_on (c : callrec U) : Prop := ~ failed c /\ ~ stopped c.

  (** [same_but_hits x y]: the same except for the hit counters of the actions, which the dispatcher itself maintains. *)
  Definition same_but_hits (x y : world U * N) : Prop :=
    snd x = snd y /\ w_route (fst x) = w_route (fst y) /\ w_disabled (fst x) = w_disabled (fst y) /\ w_user (fst x) = w_user (fst y).
  (** Each callback is handed what the previous one left, starting from [x]; [last_left]: what the last left. *)
  Fixpoint chained (x : world U * N) (cs : list (callrec U)) : Prop :=
    match cs with [] => True | c :: cs => same_but_hits (given c) x /\ chained (left_by c) cs end.
  Fixpoint last_left (x : world U * N) (cs : list (callrec U)) : world U * N :=
    match cs with [] => x | c :: cs => last_left (left_by c) cs end.

  (** The callbacks do not enable or disable actions. *)
  Definition keeps_enabled : Prop := forall a w ar x, w_disabled (snd (fst (handler a ty w ar))) x = w_disabled w x.
  (** ... and do not change hit counters or the rule route's "don't count hits" flag. *)
  Definition keeps_hits : Prop := forall a w ar, (forall x, w_hits (snd (fst (handler a ty w ar))) x = w_hits w x) /\
    has (s_flags (w_route (snd (fst (handler a ty w ar))))) RF_DONT_COUNT_HITS = has (s_flags (w_route w)) RF_DONT_COUNT_HITS.

  (** A run of [l] by callbacks which may enable and disable actions as they go: the list is visited in order; at each
      position, an action disabled at that moment is passed over, an enabled one is called, and the run ends at the first
      failure or STOP. *)
  Inductive visit : list action -> world U * N -> list (callrec U) -> err -> Prop :=
  | V_end x : visit [] x [] OK
  | V_pass a l x cs e : w_disabled (fst x) a = true -> visit l x cs e -> visit (a :: l) x cs e
  | V_fail a l x c : w_disabled (fst x) a = false -> who c = a -> same_but_hits (given c) x -> failed c ->
      visit (a :: l) x [c] (fst (fst (answer c)))
  | V_stop a l x c : w_disabled (fst x) a = false -> who c = a -> same_but_hits (given c) x -> ~ failed c -> stopped c ->
      visit (a :: l) x [c] OK
  | V_call a l x c cs e : w_disabled (fst x) a = false -> who c = a -> same_but_hits (given c) x -> carries_on c ->
      visit l (left_by c) cs e -> visit (a :: l) x (c :: cs) e.
End Spec.
Arguments who {U}. Arguments given {U}. Arguments answer {U}. Arguments failed {U}. Arguments stopped {U}. Arguments left_by {U}.
Arguments carries_on {U}. Arguments chained {U}. Arguments last_left {U}. Arguments keeps_enabled {U}. Arguments keeps_hits {U}.
Arguments visit {U}. Arguments same_but_hits {U}.
(** The event asked for has a list of that type, and nothing forbids running it: STOP is not set, the "insert" ("delete") actions
    were not run for this route before, and actions are inhibited neither in the context nor in the event's own configuration. *)
Definition may_run {U} (ctx : N) (ev : event_lists) (ty : action_type) (w : world U) (ar : N) (l : list action) : Prop :=
  the_list ev ty = Some l /\ has ar AR_STOP = false /\
  (forall f, once_flag ty = Some f -> has (s_flags (w_route w)) f = false) /\
  has ctx EC_INHIBIT_ACTIONS = false /\ (forall f, ev_flags ev = Some f -> has f EC_INHIBIT_ACTIONS = false).
(** The rule route as the callbacks see it: marked when its "insert" ("delete") actions start. *)
Definition marked {U} (ty : action_type) (w : world U) : world U :=
  match once_flag ty with Some f => set_route w (set_flags (w_route w) (N.setbit (s_flags (w_route w)) f)) | None => w end.
