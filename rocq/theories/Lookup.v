(** Route lookup: src/routes.c 1624-1890 (wolfsentry_route_lookup_0) and 1917-1963 (wolfsentry_route_lookup_1). *)
From Verif Require Import Base Addr RouteFlags RouteKey RouteTable.
Open Scope N_scope.

(** Result of a lookup: the position of the found route and *inexact_matches; nothing found; undefined behaviour
    (a dangling pointer was followed or bytes outside an address were read). *)
Inductive lres := LFound (i : nat) (inexact : N) | LNotFound | LUB.

(** wolfsentry.h 865-870: ACTION_RES_EXCLUDE_REJECT_ROUTES = DEROGATORY | COMMENDABLE. *)
Definition RES_EXCLUDE_REJECT_ROUTES : N := 48.
Definition check_bits (x m : N) : bool := N.land x m =? m.
(** routes.c 1733-1736, 1826-1831: ~x of a 32-bit word. *)
Definition not32 (x : N) : N := N.ldiff 4294967295 x.
Definition filter_passes (ar : option N) (e : option event) : bool :=
  match ar, e with
  | Some a, Some ev => match ev_filter ev with
                       | Some (bset, bunset) => (N.land a bset =? bset) && (N.land (not32 a) bunset =? bunset)
                       | None => true
                       end
  | _, _ => true
  end.

(** routes.c 1691: the wildcard bits are crowded at the end of the comparison order. *)
Definition contiguous (flags : N) : bool :=
  let m := N.ldiff WILDCARD_FLAGS flags in N.land (m + 1) m =? 0.

(** Best match so far: position, inexact flags, priority. *)
Definition best := option (nat * N * N).

Inductive step_res := SNext (i : nat) (seen : bool) (b : best) | SDone (b : best) | SUB.

(** One iteration of the loop at routes.c 1803-1886, at position [i0]. *)
Definition scan_step (t : rtable) (target : route) (ar : option N) (contig bmaf : bool) (i0 : nat) (seen : bool) (b : best) : step_res :=
  match nth_error (t_routes t) i0 with
  | None => SDone b
  | Some r0 =>
    let same0 := r_family r0 =? r_family target in
    let seen' := seen || same0 in
    (* 1807-1821 *)
    let jump :=
      if same0 then Some (i0, r0)
      else if seen' && negb (has (r_flags target) RF_FAMILY_WILD) then
        match t_last_af t with
        | PAt j => match nth_error (t_routes t) j with Some r => Some (j, r) | None => None end
        | _ => None
        end
      else Some (i0, r0) in
    match jump with
    | None => match t_last_af t with PNull => SDone b | _ => SUB end
    | Some (i, r) =>
      let prev (b : best) := match i with O => SDone b | S k => SNext k seen' b end in
      if negb (anybit (r_flags r) (N.land (r_flags target) DIRECTION_FLAGS)) then prev b
      else if negb (filter_passes ar (r_event r)) then prev b
      else if match ar with Some a => check_bits a RES_EXCLUDE_REJECT_ROUTES && has (r_flags r) RF_PENALTYBOXED | None => false end then prev b
      else
        match route_key_cmp_1 r target true with
        | None => SUB
        | Some (c, inx) =>
          (* 1854-1869 *)
          let prio := eff_prio (r_event r) in
          let b' :=
            if (c =? 0)%Z then
              match b with
              | None => Some (Some (i, inx, prio))
              | Some (j, jinx, jprio) =>
                if prio <? jprio then Some (Some (i, inx, prio))
                else if prio =? jprio then
                  match nth_error (t_routes t) j with
                  | None => None
                  | Some rj => match compare_match_exactness target r inx rj jinx with
                               | None => None
                               | Some z => if (z <? 0)%Z then Some (Some (i, inx, prio)) else Some b
                               end
                  end
                else Some b
              end
            else Some b in
          match b' with
          | None => SUB
          | Some b' =>
            (* 1871-1885 *)
            let short :=
              match b' with
              | Some (_, jinx, jprio) => contig && (N.land jinx WILDCARD_FLAGS =? 0) && (jprio <=? t_highest t)
              | None => false
              end in
            if short && (if bmaf then seen' && negb (r_family r =? r_family target) else true) then SDone b' else prev b'
          end
        end
    end
  end.
(** The loop; [None] = still running after [fuel] iterations. *)
Fixpoint scan (fuel : nat) (t : rtable) (target : route) (ar : option N) (contig bmaf : bool) (i : nat) (seen : bool) (b : best) : option (option best) :=
  match fuel with
  | O => None
  | S f => match scan_step t target ar contig bmaf i seen b with
           | SNext i' seen' b' => scan f t target ar contig bmaf i' seen' b'
           | SDone b' => Some (Some b')
           | SUB => Some None
           end
  end.

(** routes.c 1790-1796: last position reached going forward from [i] within the family of the target; [n] = number
    of routes after [i]. *)
Fixpoint span_end (n i : nat) (l : list route) (af : N) : nat :=
  match n with
  | O => i
  | S k => match nth_error l i, nth_error l (S i) with
           | Some x, Some y => if (r_family x =? af) && (r_family y =? af) then span_end k (S i) l af else i
           | _, _ => i
           end
  end.

(** routes.c 1753-1801: the starting position of the loop from the cursor position; [None] for "not found" or "UB". *)
Inductive start_res := StAt (i : nat) | StNone | StUB.
Definition lookup_start (t : rtable) (target : route) (cursor : option nat) : start_res :=
  let l := t_routes t in
  let af := r_family target in
  let fam i := match nth_error l i with Some x => r_family x =? af | None => false end in
  let here :=
    if has (r_flags target) RF_FAMILY_WILD then match cursor with Some i => StAt i | None => StNone end
    else
      let hit := match cursor with
                 | None => false
                 | Some i => fam i || match i with O => false | S k => fam k end
                 end in
      if hit then match cursor with Some i => StAt i | None => StNone end
      else match t_last_af t with PAt j => StAt j | PNull => StNone | PDangling => StUB end in
  match here with
  | StAt i => if is_bitmask_matching (t_bm t) af then StAt (span_end (length l) i l af) else StAt i
  | x => x
  end.

(** routes.c 1624-1890, for exact_p = 0.  [fuel] bounds the iterations of the loop; [None] means that they did not
    suffice.  Hit counting (1894-1895) is left out. *)
Definition lookup (fuel : nat) (t : rtable) (target0 : route) (ar : option N) : option lres :=
  let target := with_flags target0 (N.setbit (r_flags target0) RF_EVENT_WILD) in
  let l := t_routes t in
  let tail := match l with [] => None | _ :: _ => Some (length l - 1)%nat end in
  let contig := contiguous (r_flags target) in
  let '(p, c) := seek l target in
  let hit :=
    if contig && (c =? 0)%Z then
      match nth_error l p with
      | Some r => filter_passes ar (r_event r) && (eff_prio (r_event r) <=? t_highest t)
      | None => false
      end
    else false in
  if hit then Some (LFound p 0)
  else
    let cursor := if contig then (if (c =? -1)%Z && (p =? length l)%nat then tail else Some p) else tail in
    match lookup_start t target cursor with
    | StNone => Some LNotFound
    | StUB => Some LUB
    | StAt i =>
      match scan fuel t target ar contig (is_bitmask_matching (t_bm t) (r_family target)) i false None with
      | None => None
      | Some None => Some LUB
      | Some (Some None) => Some LNotFound
      | Some (Some (Some (j, inx, _))) => Some (LFound j inx)
      end
    end.

(** routes.c 1711-1721: exact lookup. *)
Definition lookup_exact (t : rtable) (target : route) : lres :=
  let '(p, c) := seek (t_routes t) target in if (c =? 0)%Z then LFound p 0 else LNotFound.
