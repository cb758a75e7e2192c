(** When a context can be started, in the words of wolfsentry.h and wolfsentry_settings.h. *)
From Verif Require Import Base EventConfig EventConfigSpec Init.
Open Scope N_scope.

(** the flags that change the layout of structures: user-defined types, threads, protocol names, JSON trees, short enumerations *)
Definition layout_flags : list N := [1; 2; 6; 9; 12].
(** 14 flags are known *)
Definition compatible_builds (lib caller : settings) : Prop :=
  version caller <> 0 /\ version caller = version lib /\ (forall i, 14 <= i -> N.testbit (config caller) i = false) /\
  forall i, In i layout_flags -> N.testbit (config caller) i = N.testbit (config lib) i.

Definition complete_allocator (a : allocator) : Prop :=
  a_malloc a = true /\ a_free a = true /\ a_realloc a = true /\ (a_memalign a = true <-> a_free_aligned a = true).
Definition complete_timecbs (t : timecbs) : Prop :=
  t_get t = true /\ t_diff t = true /\ t_add t = true /\ t_to t = true /\ t_from t = true /\ t_ito t = true /\ t_ifrom t = true.
(** the user's functions if there is a malloc (get_time) among them, else those of the library, if it has any *)
Inductive uses_allocator (lib : settings) : option platform -> allocator -> Prop :=
| ua_user p : a_malloc (p_alloc p) = true -> uses_allocator lib (Some p) (p_alloc p)
| ua_lib hpi : N.testbit (config lib) 4 = true -> (forall p, hpi = Some p -> a_malloc (p_alloc p) = false) ->
    uses_allocator lib hpi (mkAl true true true true true).
Inductive uses_timecbs (lib : settings) : option platform -> timecbs -> Prop :=
| ut_user p : t_get (p_time p) = true -> uses_timecbs lib (Some p) (p_time p)
| ut_lib hpi : N.testbit (config lib) 3 = true -> (forall p, hpi = Some p -> t_get (p_time p) = false) ->
    uses_timecbs lib hpi (mkT true true true true true true true).

Definition acceptable (off : N) (lib caller : settings) (hpi : option platform) (conf : option econf) : Prop :=
  compatible_builds lib caller /\
  (forall p, hpi = Some p -> p_settings p = mkS 0 0 \/ p_settings p = caller) /\
  (forall c, conf = Some c -> consistent off c) /\
  (exists a, uses_allocator lib hpi a /\ complete_allocator a /\ (a_memalign a = false -> forall c, conf = Some c -> e_align c = 0)) /\
  exists t, uses_timecbs lib hpi t /\ complete_timecbs t.

(** the blocks of a complete context *)
Definition all_blocks (lib : settings) : list blk :=
  [Context; Events; Actions; Routes; UserValues; ByNumber; Fallthrough; TrackPeer] ++ if N.testbit (config lib) 6 then [ByName] else [].
(** integers of C types *)
Definition typed_call (caller : settings) (conf : option econf) : Prop :=
  config caller < 2 ^ 32 /\ forall c, conf = Some c -> typed c /\ e_size c + e_align c < szmod.
(** a private area of at most 65535 bytes *)
Definition small_area (conf : option econf) : Prop := forall c, conf = Some c -> e_size c <= 65535.
(** the allocator gives everything it is asked for *)
Definition granted (lib : settings) (grants : nat -> bool) : Prop := forall n, (n < length (all_blocks lib))%nat -> grants n = true.
(** seconds to the clock's unit: by the user's function, or by the built-in clock, in microseconds *)
Inductive converts (lib : settings) (hpi : option platform) (user_from : Z -> option Z) (s t : Z) : Prop :=
| cv_user p : hpi = Some p -> t_get (p_time p) = true -> user_from s = Some t -> converts lib hpi user_from s t
| cv_lib : (forall p, hpi = Some p -> t_get (p_time p) = false) -> t = (s * 1000000)%Z -> converts lib hpi user_from s t.
(** durations that can be expressed: the user's function accepts them, or their microseconds fit into 63 bits *)
Definition expressible (hpi : option platform) (user_from : Z -> option Z) (s : Z) : Prop :=
  (exists p, hpi = Some p /\ t_get (p_time p) = true /\ user_from s <> None) \/
  ((forall p, hpi = Some p -> t_get (p_time p) = false) /\ (0 <= s * 1000000 <= 2 ^ 63 - 1)%Z).
