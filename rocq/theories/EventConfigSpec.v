(** What a consistent event configuration is, in mathematical terms. *)
From Verif Require Import Base Table RouteKey EventConfig.
Open Scope N_scope.

Definition disjoint (a b : N) : Prop := forall i, ~ (N.testbit a i = true /\ N.testbit b i = true).
Definition flag (f i : N) : Prop := N.testbit f i = true.
(** wolfsentry.h: flag bits 0 family, 1 remote address, 2 protocol, 3 local port, 4 local address, 5 remote port wildcard *)
Definition wildcards_sensible (f : N) : Prop :=
  (flag f 0 -> flag f 1 /\ flag f 4 /\ flag f 2) /\ (flag f 2 -> flag f 5 /\ flag f 3).
Definition consistent (off : N) (c : econf) : Prop :=
  disjoint (e_radd c) (e_rclr c) /\ disjoint (e_fset c) (e_funset c) /\ disjoint (e_badd c) (e_bclr c) /\
  e_threshold c <= 65535 /\ wildcards_sensible (e_radd c) /\
  (e_align c = 0 \/
   (8 <= e_align c <= e_size c /\ (exists k, e_align c = 2 ^ k) /\
    forall p, p < e_align c -> (off + p) mod e_align c = 0 -> 0 < p -> e_size c + p <= 65535)).
(** fields of C types *)
Definition typed (c : econf) : Prop := e_size c < szmod /\ e_align c < szmod.
