(** * Routes as JSON: src/routes.c 3693-3780, 3878-4201

    wolfsentry_route_format_address, wolfsentry_route_format_json and wolfsentry_route_table_dump_json_start/next/end.  The output
    is what has been written since the beginning of the buffer, and the space that is left of it.  Writing outside of the buffer,
    and everything else that is undefined, is [Overrun].  inet_ntop is a function of the bytes; formatters installed by the user
    are arbitrary functions; ws_itoa is in Itoa.v.  Simplified: the buffers are shorter than 2^31 bytes (3993 and others cast to
    int); dropping the reference to the address family (3935-3939) succeeds; locking and the allocation of the cursor (4137-4141)
    are left out. *)
Require Import ZArith NArith List Bool String.
From Verif Require Import Base Itoa Loader AddrText.
From Verif Require JsonText Names.
Import ListNotations.
Open Scope Z_scope.

(** What the functions read of a route: per endpoint the stored bytes of the address, its length in bits, the first port, and the
    interface (wolfsentry_internal.h, struct wolfsentry_route_endpoint). *)
Record endpoint := mkEnd { n_addr : list Z; n_bits : Z; n_port : Z; n_iface : Z }.
Record jroute := mkJR { jr_event : option (list Z); jr_flags : N; jr_family : Z; jr_proto : Z; jr_remote : endpoint; jr_local : endpoint }.

(** ** Output *)
Record obuf := mkO { o_text : list Z; o_space : Z }.
Inductive code := TooSmall | Failed.
Inductive outcome := Done (o : obuf) | Stopped (c : code) (o : obuf) | Overrun.
Definition cont (x : outcome) (k : obuf -> outcome) : outcome := match x with Done o => k o | Stopped c o => Stopped c o | Overrun => Overrun end.
Notation "x ;; k" := (cont x k) (at level 61, left associativity).
Definition text (s : string) : list Z := JsonText.text s.
(** 3878-3880: write_byte, write_bytes, write_string *)
Definition wr (s : list Z) (o : obuf) : outcome :=
  if o_space o <? Z.of_nat (List.length s) then Stopped TooSmall o else Done (mkO (o_text o ++ s) (o_space o - Z.of_nat (List.length s))).
(** 3881 *)
Definition unwr (o : obuf) : outcome := Done (mkO (removelast (o_text o)) (o_space o + 1)).
Definition itoa (i : Z) (o : obuf) : outcome :=
  match ws_itoa i (o_space o) with
  | IOk out s => Done (mkO (o_text o ++ out) s)
  | IErr _ => Stopped TooSmall o
  | IUB => Overrun
  end.

(** ** Addresses *)
(** 3693-3699 *)
Definition hex_ntoa (d : Z) : Z := let d := Z.land d 15 in if d <? 10 then 48 + d else 97 + (d - 10).
Definition hex2 (b : Z) : list Z := [hex_ntoa (Z.shiftr b 4); hex_ntoa b].
(** 3728-3733 *)
Fixpoint colons (l : list Z) : list Z := match l with [] => [] | [b] => hex2 b | b :: l => hex2 b ++ 58 :: colons l end.
(** WOLFSENTRY_BITS_TO_BYTES *)
Definition bytes_of_bits (n : Z) : nat := Z.to_nat ((n + 7) / 8).
Inductive fmt := FText (t : list Z) | FTooSmall | FOther | FBad.
Definition AF_LOCAL := 1.
(** 3764-3776: [n] octets are printed, then zeros *)
Definition can_text (addr : list Z) (n : nat) : list Z := text "0x" ++ concat (map hex2 (firstn (Nat.min n 4) addr)) ++ repeat 48 (2 * (4 - n)).

Section Format.
  Variable ntop4 ntop6 : list Z -> list Z.
  (** the formatters of address families: address bytes, bits, space *)
  Variable formatter : Z -> option (list Z -> Z -> Z -> fmt).
  (** wolfsentry_addr_family_ntop; getprotobynumber_r: name, success without an entry, error *)
  Variable family_name : Z -> option (list Z).
  Inductive pname := PName (s : list Z) | PNoEntry | PError.
  Variable proto_name : Z -> pname.
  (** flags & WOLFSENTRY_FORMAT_FLAG_ALWAYS_NUMERIC *)
  Variable numeric : bool.

  (** 3737-3752: [size] bytes are cleared, and (bits + 7) / 8 bytes copied there; inet_ntop needs room for a NUL *)
  Definition inet (ntop : list Z -> list Z) (size : nat) (addr : list Z) (bits limit : Z) : fmt :=
    let n := bytes_of_bits bits in
    if (size <? n)%nat || (List.length addr <? n)%nat then FBad
    else
      let t := ntop (firstn n addr ++ repeat 0 (size - n)) in
      if limit <=? Z.of_nat (List.length t) then FOther else FText t.
  (** 3701-3780; [limit] is *buflen *)
  Definition format_address (family : Z) (addr : list Z) (bits limit : Z) : fmt :=
    match formatter family with
    | Some f => f addr bits limit
    | None =>
      let octets := Z.to_nat (bits / 8) in
      if family =? AF_LINK48 then
        if limit <? Z.of_nat octets * 3 then FTooSmall
        else if (List.length addr <? octets)%nat then FBad
        else FText (colons (firstn octets addr))
      else if family =? AF_INET then inet ntop4 4 addr bits limit
      else if family =? AF_INET6 then inet ntop6 16 addr bits limit
      else if family =? AF_LOCAL then
        let n := bytes_of_bits bits in
        if limit <=? Z.of_nat n then FTooSmall
        else if (List.length addr <? n)%nat then FBad
        else FText (firstn n addr)
      else if family =? AF_CAN then
        if limit <? 11 then FTooSmall
        else if (List.length addr <? Nat.min octets 4)%nat then FBad
        else FText (can_text addr octets)
      else FOther
    end.
  (** the text and a NUL behind it are written, whatever the space that really is left *)
  Definition write_address (f : fmt) (o : obuf) : outcome :=
    match f with
    | FText t => if o_space o <? Z.of_nat (List.length t) + 1 then Overrun else Done (mkO (o_text o ++ t) (o_space o - Z.of_nat (List.length t)))
    | FTooSmall => Stopped TooSmall o
    | FOther => Stopped Failed o
    | FBad => Overrun
    end.

  (** ** Members *)
  (** 3894-3898 *)
  Definition j_event (r : jroute) (o : obuf) : outcome :=
    match jr_event r with
    | None => Done o
    | Some l => wr (text "'parent-event':'") o ;; wr l ;; wr (text "',")
    end.
  (** 3899-3911 *)
  Fixpoint j_names (r : jroute) (names : list (N * string)) (o : obuf) : outcome :=
    match names with
    | [] => Done o
    | (f, name) :: names =>
      wr (text "'") o ;; wr (text name) ;; wr (text "':") ;; wr (text (if N.eqb (N.land (jr_flags r) f) 0 then "false" else "true")) ;; wr (text ",") ;;
      j_names r names
    end.
  (** 3913: have_r_attr *)
  Definition fixed (r : jroute) (b : N) : bool := negb (N.testbit (jr_flags r) b).
  (** 3915-3948 *)
  Definition j_family (r : jroute) (o : obuf) : outcome :=
    if fixed r B_FAMILY then
      wr (text "'family':") o ;;
      (fun o => match (if numeric then None else family_name (jr_family r)) with
                | Some n => if o_space o <? Z.of_nat (List.length n) + 2 then Stopped TooSmall o else wr (text "'") o ;; wr n ;; wr (text "'")
                | None => itoa (jr_family r) o
                end) ;;
      wr (text ",")
    else Done o.
  (** 3950-3982; 3971 uses p_name without looking at p *)
  Definition j_proto (r : jroute) (o : obuf) : outcome :=
    if fixed r B_PROTO then
      wr (text "'protocol':") o ;;
      (fun o => if negb numeric && ((jr_family r =? AF_INET) || (jr_family r =? AF_INET6)) then
                  match proto_name (jr_proto r) with
                  | PName n => wr (text "'") o ;; wr n ;; wr (text "'")
                  | PNoEntry => Overrun
                  | PError => itoa (jr_proto r) o
                  end
                else itoa (jr_proto r) o) ;;
      wr (text ",")
    else Done o.
  (** 3990-4037, 4058-4105; the space is looked at before the member's name is written *)
  Definition j_address (r : jroute) (mask : bool) (e : endpoint) (o : obuf) : outcome :=
    let limit := o_space o in
    if mask then
      let half := Z.shiftr (n_bits e) 1 in
      wr (text "'address':'") o ;; write_address (format_address (jr_family r) (n_addr e) half limit) ;;
      wr (text "','bitmask':'") ;;
      (fun o => write_address (format_address (jr_family r) (skipn (bytes_of_bits half) (n_addr e)) half (o_space o)) o) ;;
      wr (text "',")
    else
      wr (text "'address':'") o ;; write_address (format_address (jr_family r) (n_addr e) (n_bits e) limit) ;;
      wr (text "','prefix-bits':") ;; itoa (n_bits e) ;; wr (text ",").
  (** 3984-4050, 4052-4119 *)
  Definition j_end (r : jroute) (key : string) (b_addr b_port b_iface b_mask : N) (e : endpoint) (o : obuf) : outcome :=
    if fixed r b_addr || fixed r b_port || fixed r b_iface then
      wr (text key) o ;;
      (fun o => if fixed r b_addr then j_address r (N.testbit (jr_flags r) b_mask) e o else Done o) ;;
      (fun o => if fixed r b_port then wr (text "'port':") o ;; itoa (n_port e) ;; wr (text ",") else Done o) ;;
      (fun o => if fixed r b_iface then wr (text "'interface':") o ;; itoa (n_iface e) ;; wr (text ",") else Done o) ;;
      unwr ;; wr (text "},")
    else Done o.
  (** 3884-4125 *)
  Definition format_json (r : jroute) (o : obuf) : outcome :=
    wr (text "{") o ;; j_event r ;; j_names r Names.flag_names ;; j_family r ;; j_proto r ;;
    j_end r "'remote':{" B_RADDR B_RPORT B_RIFACE B_RMASK (jr_remote r) ;;
    j_end r "'local':{" B_LADDR B_LPORT B_LIFACE B_LMASK (jr_local r) ;;
    unwr ;; wr (text "}").

  (** ** Tables: the routes in their order, of which [n] have been written *)
  (** 4127-4143 *)
  Definition dump_start (o : obuf) : outcome := wr (text "{'wolfsentry-config-version':1," ++ 10 :: text "'routes':[" ++ [10]) o.
  (** 4145-4183: the new position, or what the error is; None: ITEM_NOT_FOUND *)
  Definition dump_next (routes : list jroute) (n : nat) (o : obuf) : option (nat * outcome) :=
    match nth_error routes n with
    | None => None
    | Some r =>
      match (if (n =? 0)%nat then Done o else wr [44; 10] o) with
      | Done o1 =>
        Some match format_json r o1 with
             | Done o2 => (S n, Done o2)
             | Stopped TooSmall _ => (n, Stopped TooSmall o)
             | Stopped Failed o2 => (n, Stopped Failed o2)
             | Overrun => (n, Overrun)
             end
      | x => Some (n, x)
      end
    end.
  (** 4185-4201 *)
  Definition dump_end (o : obuf) : outcome := wr (10 :: text "]}" ++ [10]) o.

  (** The use made of them (examples/, tests/unittests.c): next until there is none. *)
  Fixpoint dump_rest (fuel : nat) (routes : list jroute) (n : nat) (o : obuf) : outcome :=
    match dump_next routes n o with
    | None => dump_end o
    | Some (n', x) => match fuel with O => Overrun | S f => x ;; dump_rest f routes n' end
    end.
  Definition dump (routes : list jroute) (space : Z) : outcome := dump_start (mkO [] space) ;; dump_rest (List.length routes) routes 0.
End Format.
