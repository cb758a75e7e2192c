(** Routes as blocks of memory: src/routes.c 548-569, 571-640, 639-759, 784-929, 947-1000, 1007-1055, 1114-1180, 2732-2743,
    3269-3283, 3412-3455 with src/wolfsentry_internal.h 352-402.
    A route is a struct followed by bytes: private data, remote address, local address.  The fields of the struct are a record here and
    the bytes a list: the bytes from [data] to the end of the allocation.  Reading or writing outside of them is UB.
    [off] is offsetof(struct wolfsentry_route, data), which is sizeof(struct wolfsentry_route) when the array at its end is flexible.
    Counters, times and list links are left out (they are in the fixed part), and so are extra ports, which no code makes (706, 710).
    Sizes of private data of 2^31 bytes and more are left out (the cast to int at 991). *)
From Verif Require Import Base Addr RouteFlags RouteKey EventConfig Table.
Open Scope nat_scope.

Record rblk := mkB {
  b_family : N; b_proto : N;
  b_rport : N; b_rlen : nat; b_riface : N;
  b_lport : N; b_llen : nat; b_liface : N;
  b_flags : N; b_event : option event;
  b_off : nat;      (* data_addr_offset *)
  b_asz : nat;      (* data_addr_size *)
  b_aligned : bool; (* not a field: whether the block came from WOLFSENTRY_MEMALIGN rather than WOLFSENTRY_MALLOC *)
  b_data : list N }.

(** memcpy and memset on the bytes from [data] on *)
Definition rd (d : list N) (o n : nat) : out (list N) := if o + n <=? length d then Ret (firstn n (skipn o d)) else UB.
Definition wr (d : list N) (o : nat) (bs : list N) : out (list N) :=
  if o + length bs <=? length d then Ret (firstn o d ++ bs ++ skipn (o + length bs) d)%list else UB.
Definition rd1 (d : list N) (i : nat) : out N := if i <? length d then Ret (nth i d 0%N) else UB.
Definition wr1 (d : list N) (i : nat) (v : N) : out (list N) := if i <? length d then Ret (set_byte d i v) else UB.

(** wolfsentry_internal.h 389-394: where the addresses are *)
Definition remote_at (b : rblk) : nat := b_off b.
Definition local_at (b : rblk) : nat := b_off b + bits_to_bytes (b_rlen b).
(** The route that the block stands for: what comparison, matching, export and printing read *)
Definition route_of (b : rblk) : out route :=
  let* ra := rd (b_data b) (remote_at b) (bits_to_bytes (b_rlen b)) in
  let* la := rd (b_data b) (local_at b) (bits_to_bytes (b_llen b)) in
  Ret {| r_family := b_family b; r_proto := b_proto b; r_raddr := ra; r_rlen := b_rlen b; r_rport := b_rport b; r_riface := b_riface b;
         r_laddr := la; r_llen := b_llen b; r_lport := b_lport b; r_liface := b_liface b; r_flags := b_flags b; r_event := b_event b |}.

(** wolfsentry.h 1152-1163 (struct wolfsentry_sockaddr) *)
Record sockaddr := mkSA { sa_family : N; sa_proto : N; sa_port : N; sa_len : nat; sa_iface : N; sa_bytes : list N }.

(** routes.c 720-725, 735-740, 883-888, 902-907: the address is reduced to the bits its mask selects, in place *)
Fixpoint mask_loop (k i : nat) (d : list N) (o sz : nat) : out (list N) :=
  match k with
  | O => Ret d
  | S k => let* x := rd1 d (o + i) in
           let* y := rd1 d (o + i + sz) in
           let* d := wr1 d (o + i) (N.land x y) in
           mask_loop k (S i) d o sz
  end.
(** 727-734, 743-750, 890-897, 909-916: the ignored bits of the last byte are cleared *)
Definition mask_last (d : list N) (o n : nat) : out (list N) :=
  let left_over := n mod 8 in
  if left_over =? 0 then Ret d
  else let p := o + bits_to_bytes n - 1 in
       let* b := rd1 d p in
       if N.eqb (N.land b (shr 255 (8 - left_over))) 0 then Ret d
       else wr1 d p (N.land b (N.modulo (N.shiftl 255 (N.of_nat left_over)) 256)).
Definition mask_addr (bitmask : bool) (d : list N) (o n : nat) : out (list N) :=
  if bitmask then let sz := bits_to_bytes n / 2 in mask_loop sz 0 d o sz else mask_last d o n.

(** 712-750, and 863-916: the private part, the two addresses, then the bits that don't count.  [priv] is what is put before the addresses *)
Definition fill (d priv ra : list N) (rn : nat) (la : list N) (ln : nat) (flags : N) : out (list N) :=
  let o := length priv in
  let* d := if o =? 0 then Ret d else wr d 0 priv in
  let* d := if rn =? 0 then Ret d else let* bs := rd ra 0 (bits_to_bytes rn) in wr d o bs in
  let* d := if ln =? 0 then Ret d else let* bs := rd la 0 (bits_to_bytes ln) in wr d (o + bits_to_bytes rn) bs in
  let* d := mask_addr (has flags RF_RADDR_BITMASK) d o rn in
  mask_addr (has flags RF_LADDR_BITMASK) d (o + bits_to_bytes rn) ln.

Section Off.
  Variable off : nat.

  (** 974-981, 1037-1044, 1132-1139: bytes from [data] on in a block for [n] bytes of private data and the two addresses *)
  Definition block_len (n rlen llen : nat) : nat :=
    let s := bits_to_bytes rlen + bits_to_bytes llen + off + n in (if Nat.odd s then S s else s) - off.

  (** 639-759 (wolfsentry_route_init) on a block whose bytes are [d]; [n] is data_addr_offset *)
  Definition init (e : option event) (remote local : sockaddr) (flags : N) (n : nat) (aligned : bool) (d : list N) : out (err * option rblk) :=
    let a := bits_to_bytes (sa_len remote) + bits_to_bytes (sa_len local) in
    if (65535 <? N.of_nat a)%N then Ret (NUMERIC_ARG_TOO_BIG, None)
    else if (65535 <? N.of_nat n)%N then Ret (NUMERIC_ARG_TOO_BIG, None)
    else if length d <? n + a then Ret (BUFFER_TOO_SMALL, None)
    else if negb (anybit flags DIRECTION_FLAGS) then Ret (INVALID_ARG, None)
    else if has flags RF_RADDR_BITMASK && negb (sa_len remote mod 16 =? 0) then Ret (INVALID_ARG, None)
    else if has flags RF_LADDR_BITMASK && negb (sa_len local mod 16 =? 0) then Ret (INVALID_ARG, None)
    else if negb (flags_sensical flags) then Ret (INVALID_ARG, None)
    else
      let* d := fill d (repeat 0%N n) (sa_bytes remote) (sa_len remote) (sa_bytes local) (sa_len local) flags in
      Ret (OK, Some (mkB (sa_family remote) (sa_proto remote) (sa_port remote) (sa_len remote) (sa_iface remote)
                         (sa_port local) (sa_len local) (sa_iface local) flags e n a aligned d)).

  (** What malloc returns: [len] bytes of unknown content *)
  Definition fresh (junk : nat -> N) (len : nat) : list N := map junk (seq 0 len).

  (** 947-1000 (wolfsentry_route_new) under configuration [i], when memory is available ([room]) or not *)
  Definition new (i : iconf) (room : bool) (junk : nat -> N) (e : option event) (remote local : sockaddr) (flags : N) : out (err * option rblk) :=
    let n := N.to_nat (e_size (ic i)) in
    if has flags RF_RADDR_BITMASK && negb (sa_len remote mod 16 =? 0) then Ret (INVALID_ARG, None)
    else if has flags RF_LADDR_BITMASK && negb (sa_len local mod 16 =? 0) then Ret (INVALID_ARG, None)
    else if (65535 <? N.of_nat (bits_to_bytes (sa_len remote) + bits_to_bytes (sa_len local)))%N then Ret (STRING_ARG_TOO_LONG, None)
    else if negb room then Ret (SYS_RESOURCE_FAILED, None)
    else init e remote local flags n (negb (e_align (ic i) =? 0)%N) (fresh junk (block_len n (sa_len remote) (sa_len local))).

  (** 2656-2662, 2690-2698: the target of a dispatch, on the stack, with 32 bytes for the addresses and no private data *)
  Definition target (junk : nat -> N) (e : option event) (remote local : sockaddr) (flags : N) : out (err * option rblk) :=
    init e remote local flags 0 false (fresh junk 32).

  (** 1114-1168 (wolfsentry_route_clone): [i] is the configuration that applies to the route *)
  Definition clone (i : iconf) (room : bool) (junk : nat -> N) (src : rblk) : out (err * option rblk) :=
    let n := N.to_nat (e_size (ic i)) in
    let a := bits_to_bytes (b_rlen src) + bits_to_bytes (b_llen src) in
    let len := block_len n (b_rlen src) (b_llen src) in
    if (65535 <? N.of_nat a)%N then Ret (STRING_ARG_TOO_LONG, None)
    else if negb room then Ret (SYS_RESOURCE_FAILED, None)
    else
      let with_bytes o d := mkB (b_family src) (b_proto src) (b_rport src) (b_rlen src) (b_riface src) (b_lport src) (b_llen src) (b_liface src)
                                (b_flags src) (b_event src) o (b_asz src) (negb (e_align (ic i) =? 0)%N) d in
      if b_off src =? n then
        let* d := rd (b_data src) 0 len in                       (* 1149: the whole block *)
        Ret (OK, Some (with_bytes (b_off src) d))
      else
        let o := N.to_nat (N.of_nat n mod 65536) in                                   (* 1157: the cast *)
        let* d := wr (fresh junk len) 0 (repeat 0%N n) in         (* 1160 *)
        let* bs := rd (b_data src) 0 (b_asz src) in               (* 1163 *)
        let* d := wr d o bs in
        Ret (OK, Some (with_bytes o d)).

  (** 784-929 (wolfsentry_route_init_by_exports) and 1007-1055 (wolfsentry_route_new_by_exports): the bytes of the route.
      The checks are in Export.v; here the route passes them. *)
  Definition fill_by_exports (junk : nat -> N) (n : nat) (private : option (list N)) (ra : list N) (rn : nat) (la : list N) (ln : nat) (flags : N) : out (list N) :=
    fill (fresh junk (block_len n rn ln))
         (match private with Some p => (p ++ repeat 0%N (n - length p))%list | None => repeat 0%N n end) ra rn la ln flags.
End Off.

(** 548-569 (clamp_wildcard_fields_to_zero) *)
Definition clamp (b : rblk) : out rblk :=
  let f := b_flags b in
  let* d := if has f RF_RADDR_WILD && negb (b_rlen b =? 0) then wr (b_data b) (remote_at b) (repeat 0%N (bits_to_bytes (b_rlen b))) else Ret (b_data b) in
  let* d := if has f RF_LADDR_WILD && negb (b_llen b =? 0) then wr d (local_at b) (repeat 0%N (bits_to_bytes (b_llen b))) else Ret d in
  Ret (mkB (if has f RF_FAMILY_WILD then 0%N else b_family b) (if has f RF_PROTO_WILD then 0%N else b_proto b)
           (if has f RF_RPORT_WILD then 0%N else b_rport b) (b_rlen b) (if has f RF_RIFACE_WILD then 0%N else b_riface b)
           (if has f RF_LPORT_WILD then 0%N else b_lport b) (b_llen b) (if has f RF_LIFACE_WILD then 0%N else b_liface b)
           f (b_event b) (b_off b) (b_asz b) (b_aligned b) d).

(** 3412-3455 (wolfsentry_route_set_wildcard).  The bits of [w] other than the nine wildcards are ignored. *)
Definition ALL_WILDCARDS : N := 511.
Definition set_wildcard (w : N) (b : rblk) : err * rblk :=
  if has (b_flags b) RF_IN_TABLE then (NOT_PERMITTED, b)
  else (OK, mkB (if has w RF_FAMILY_WILD then 0%N else b_family b) (if has w RF_PROTO_WILD then 0%N else b_proto b)
                (if has w RF_RPORT_WILD then 0%N else b_rport b) (if has w RF_RADDR_WILD then 0 else b_rlen b) (if has w RF_RIFACE_WILD then 0%N else b_riface b)
                (if has w RF_LPORT_WILD then 0%N else b_lport b) (if has w RF_LADDR_WILD then 0 else b_llen b) (if has w RF_LIFACE_WILD then 0%N else b_liface b)
                (N.lor (b_flags b) (N.land w ALL_WILDCARDS)) (b_event b) (b_off b) (b_asz b) (b_aligned b) (b_data b)).

(** 2739-2743: a route made for traffic without an event is given the default event of the table *)
Definition adopt (e : event) (b : rblk) : rblk :=
  mkB (b_family b) (b_proto b) (b_rport b) (b_rlen b) (b_riface b) (b_lport b) (b_llen b) (b_liface b) (b_flags b)
      (match b_event b with Some x => Some x | None => Some e end) (b_off b) (b_asz b) (b_aligned b) (b_data b).

(** 3269-3283 (wolfsentry_route_get_private_data): the user reads and writes the bytes at the pointer returned *)
Definition read_private (i : iconf) (b : rblk) : out (err * list N) :=
  match private_data i with
  | None => Ret (DATA_MISSING, [])
  | Some (o, n) => let* bs := rd (b_data b) (N.to_nat o) (N.to_nat n) in Ret (OK, bs)
  end.
Definition write_private (i : iconf) (b : rblk) (bs : list N) : out rblk :=
  match private_data i with
  | None => Ret b
  | Some (o, n) =>
    let* d := wr (b_data b) (N.to_nat o) (firstn (N.to_nat n) bs) in
    Ret (mkB (b_family b) (b_proto b) (b_rport b) (b_rlen b) (b_riface b) (b_lport b) (b_llen b) (b_liface b) (b_flags b) (b_event b)
             (b_off b) (b_asz b) (b_aligned b) d)
  end.

(** 590-600 (wolfsentry_route_free_1): whether the block goes back to the allocator function it came from *)
Definition freed_by_aligned (i : iconf) : bool := negb (e_align (ic i) =? 0)%N.
