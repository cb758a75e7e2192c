(** * Specification: what it means that a dumped route can be loaded, and what is loaded *)
Require Import ZArith NArith List Bool String.
From Verif Require Import Json JsonSpec JsonDumpSpec Loader RouteJson.
Import ListNotations.
Open Scope Z_scope.

(** 16 bytes: the address, and zeros. *)
Definition padded (a : list Z) : list Z := a ++ repeat 0 (16 - List.length a).
(** An attribute of a route is fixed if its wildcard flag is clear (bit numbers: wolfsentry.h, wolfsentry_route_flags_t). *)
Definition is_fixed (r : jroute) (wildcard : N) : bool := negb (N.testbit (jr_flags r) wildcard).
Definition if_fixed {A} (r : jroute) (wildcard : N) (x zero : A) : A := if is_fixed r wildcard then x else zero.

(** The arguments of wolfsentry_route_insert() for a route: attributes that are not fixed are zero. *)
Definition sockaddr_of (r : jroute) (b_addr b_port b_iface : N) (e : endpoint) : sa :=
  mkSa (if_fixed r 0 (jr_family r) 0) (if_fixed r 2 (jr_proto r) 0) (if_fixed r b_port (n_port e) 0) (if_fixed r b_addr (n_bits e) 0)
       (if_fixed r b_iface (n_iface e) 0) (padded (if_fixed r b_addr (n_addr e) [])).
Definition remote_of (r : jroute) := sockaddr_of r 1 5 6 (jr_remote r).
Definition local_of (r : jroute) := sockaddr_of r 4 3 7 (jr_local r).
(** Bits 0 to 7, 9 to 13 and 20 to 24: without the flags by which the table keeps its books (14 to 17), and without the wildcard
    for the parent event (8). *)
Definition settings_of (r : jroute) : N := N.land (jr_flags r) 32521983.

Section Loadable.
  Context {W D V F : Type}.
  Variable api : calls W V F.
  Variable cv : converters W D V F.
  (** insertions in order; none if one of them fails *)
  Fixpoint insert_all (routes : list jroute) (w : W) : option W :=
    match routes with
    | [] => Some w
    | r :: routes =>
      let '(code, w') := a_route_insert api (remote_of r) (local_of r) (settings_of r) (jr_event r) w in
      if code <? 0 then None else insert_all routes w'
    end.

  Variable ntop4 ntop6 : list Z -> list Z.
  Variable formatter : Z -> option (list Z -> Z -> Z -> fmt).
  Variable family_name : Z -> option (list Z).
  Variable proto_name : Z -> pname.
  Variable numeric : bool.

  (** [t] is what an address is written as where there is room for it and a NUL. *)
  Definition written (family : Z) (addr : list Z) (bits : Z) (t : list Z) : Prop :=
    forall limit, format_address ntop4 ntop6 formatter family addr bits limit = FText t \/
      limit <= Z.of_nat (List.length t) /\
      (format_address ntop4 ntop6 formatter family addr bits limit = FTooSmall \/ format_address ntop4 ntop6 formatter family addr bits limit = FOther).
  Definition printable (t : list Z) : Prop := Forall harmless t /\ Z.of_nat (List.length t) <= 16384.
  (** An address with a prefix length is read back as it was ... *)
  Definition prefix_ok (family : Z) (a : list Z) (bits : Z) : Prop :=
    0 <= bits < 65536 /\
    exists t b n, written family a bits t /\ printable t /\ (forall w, cv_address cv w false family 0 JSON_STRING t = Some (family, b, n)) /\
      (List.length b <= 16)%nat /\ padded b = padded a.
  (** ... and so are an address and a mask. *)
  Definition masked_ok (family : Z) (a : list Z) (bits : Z) : Prop :=
    exists size t1 t2 b1 b2 n, bits = 16 * Z.of_nat size /\ (size <= 8)%nat /\ (0 < size)%nat /\ a = b1 ++ b2 /\ List.length b1 = size /\ List.length b2 = size /\
      (forall w, cv_family_bits cv w family = Some (8 * Z.of_nat size)) /\
      written family a (8 * Z.of_nat size) t1 /\ printable t1 /\ written family b2 (8 * Z.of_nat size) t2 /\ printable t2 /\
      (forall w, cv_address cv w false family 0 JSON_STRING t1 = Some (family, b1, 8 * Z.of_nat size)) /\
      (forall w, cv_address cv w true family (8 * Z.of_nat size) JSON_STRING t2 = Some (family, b2, n)).
  Definition endpoint_ok (r : jroute) (b_addr b_port b_iface b_mask : N) (e : endpoint) : Prop :=
    (is_fixed r b_addr = true -> if N.testbit (jr_flags r) b_mask then masked_ok (jr_family r) (n_addr e) (n_bits e) else prefix_ok (jr_family r) (n_addr e) (n_bits e)) /\
    (is_fixed r b_addr = true \/ is_fixed r b_port = true -> is_fixed r 0 = true) /\
    (is_fixed r b_port = true -> 0 <= n_port e < 65536) /\
    (is_fixed r b_iface = true -> 0 <= n_iface e < 256) /\
    (N.testbit (jr_flags r) b_mask = true -> is_fixed r b_addr = true).
  Definition inet_family (r : jroute) : bool := (jr_family r =? 2) || (jr_family r =? 10).
  Record loadable (r : jroute) : Prop := {
    (** labels without quotation marks, backslashes and control characters *)
    ok_event : forall l, jr_event r = Some l -> l <> [] /\ (List.length l <= 32)%nat /\ Forall harmless l;
    ok_family : if is_fixed r 0 then 0 < jr_family r < 65536 else jr_family r = 0;
    (** names mean the numbers they stand for *)
    ok_family_name : forall n, numeric = false -> family_name (jr_family r) = Some n -> printable n /\ forall w, cv_family_name cv w n = Some (jr_family r);
    ok_proto : is_fixed r 2 = true -> 0 <= jr_proto r < 65536;
    ok_proto_name : numeric = false -> is_fixed r 2 = true -> inet_family r = true ->
      match proto_name (jr_proto r) with
      | PName n => Forall harmless n /\ (List.length n < 64)%nat /\ cv_proto_name cv n = Found (jr_proto r)
      | PNoEntry => False
      | PError => True
      end;
    (** TCP and UDP have port numbers like TCP *)
    ok_tcp : is_fixed r 2 = true -> inet_family r = true -> jr_proto r = 6 \/ jr_proto r = 17 -> N.testbit (jr_flags r) 9 = true;
    ok_remote : endpoint_ok r 1 5 6 12 (jr_remote r);
    ok_local : endpoint_ok r 4 3 7 13 (jr_local r) }.
End Loadable.
