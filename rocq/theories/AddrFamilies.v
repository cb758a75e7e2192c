(** Address families: src/addr_families.c.  The two coupled tables are sequences of their entries in key order (Keyed.v; C01-C03
    and C06 justify this view).  A family is one object: the pair of a by-number and a by-name entry, which point to each other and
    are allocated and freed together; its contents are never written after it entered the tables, so the pointers returned by
    ntop are modelled by the object itself, and [refs] holds the one mutable field, the reference count (None: freed; touching
    a freed object is UB).  Left out: the table of IDs (C03), locks other than the failure of the mutex (C46), cloning (C36). *)
From Coq Require Import String.
From Verif Require Import Base Table Labels Keyed Names.
Open Scope Z_scope.

(** wolfsentry_internal.h: struct wolfsentry_addr_family_bynumber and _byname *)
Record fam := mkFam { f_addr : positive; f_num : N; f_name : list N; f_bits : Z }.
(** [bynum] and [byname]: the tables; [next]: the next address malloc returns (an address not in use) *)
Record fstate := mkFs { bynum : list fam; byname : list fam; refs : positive -> option N; next : positive }.
Definition fempty : fstate := mkFs [] [] (fun _ => None) 1.
(** what the rest of the world answers: the two mallocs, the mutex, wolfsentry_id_allocate for either entry *)
Record fenv := mkFe { mem_num : bool; mem_name : bool; lockr : err; id_num : err; id_name : err }.

Definition MAX_ADDR_BITS : Z := 128.
Definition MAX_LABEL : Z := 32.
Definition setref (s : fstate) (a : positive) (r : option N) : fstate :=
  mkFs (bynum s) (byname s) (fun b => if Pos.eqb b a then r else refs s b) (next s).

(** memcpy of the first [n] bytes of the memory at a pointer *)
Definition copy (n : nat) (mem : list N) : out (list N) := if (n <=? length mem)%nat then Ret (firstn n mem) else UB.
Definition name_len (mem : list N) (len : Z) : out nat := if len <? 0 then strlen mem else Ret (Z.to_nat len).

(** addr_families.c 73-186 and 446-456; [mem] None: NULL.  A name too long or a failed first malloc jumps to [out] without holding
    the lock (C46); a failed second malloc reads the uninitialised ID of the first object there (169-171). *)
Definition install (E : fenv) (s : fstate) (num : N) (mem : option (list N)) (len : Z) (parser formatter : bool) (bits : Z) : out (err * fstate) :=
  if (num =? 0)%N then Ret (INVALID_ARG, s)
  else if negb parser || negb formatter then Ret (INVALID_ARG, s)
  else if (bits <=? 0) || (bits >? MAX_ADDR_BITS) then Ret (INVALID_ARG, s)
  else match mem with
  | None => Ret (INVALID_ARG, s)
  | Some mem =>
    let* n := name_len mem len in
    if (n =? 0)%nat then Ret (INVALID_ARG, s)
    else if Z.of_nat n >? MAX_LABEL then Ret (STRING_ARG_TOO_LONG, s)
    else if negb (mem_num E) then Ret (SYS_RESOURCE_FAILED, s)
    else if negb (mem_name E) then UB
    else
      let* nm := copy n mem in
      let f := mkFam (next s) num nm bits in
      if negb (is_success (lockr E)) then Ret (lockr E, s)
      else if negb (is_success (id_num E)) then Ret (id_num E, s)
      else if negb (is_success (id_name E)) then Ret (id_name E, s)
      else match kinsert f_num number_cmp (bynum s) f with
      | None => Ret (ITEM_ALREADY_PRESENT, s)
      | Some t1 =>
        match kinsert f_name label_cmp (byname s) f with
        | None => Ret (ITEM_ALREADY_PRESENT, mkFs (kremove f_num number_cmp t1 num) (byname s) (refs s) (next s))     (* 160-163 *)
        | Some t2 => Ret (OK, mkFs t1 t2 (fun b => if Pos.eqb b (next s) then Some 1%N else refs s b) (Pos.succ (next s)))
        end
      end
  end.

(** addr_families.c 188-213 *)
Definition get_bynumber_1 (s : fstate) (k : N) : option fam := kfind f_num number_cmp (bynum s) k.
(** addr_families.c 258-302 *)
Definition get_byname_1 (s : fstate) (mem : list N) (len : Z) : out (fam + err) :=
  let* n := name_len mem len in
  if (n =? 0)%nat then Ret (inr INVALID_ARG)
  else if Z.of_nat n >? MAX_LABEL then Ret (inr STRING_ARG_TOO_LONG)
  else let* nm := copy n mem in
       Ret (match kfind f_name label_cmp (byname s) nm with Some f => inl f | None => inr ITEM_NOT_FOUND end).

(** addr_families.c 365-391; the boolean tells whether the family was deallocated (WOLFSENTRY_ACTION_RES_DEALLOCATED) *)
Definition drop (s : fstate) (a : positive) : out (err * bool * fstate) :=
  let* c := ub_none (refs s a) in
  if (c =? 0)%N then Ret (INTERNAL_CHECK_FATAL, false, s)
  else if (1 <? c)%N then Ret (OK, false, setref s a (Some (c - 1)%N))
  else Ret (OK, true, setref s a None).

(** addr_families.c 400-411, 430-438: delete both entries, drop the tables' reference *)
Definition remove_1 (s : fstate) (f : fam) : out (err * bool * fstate) :=
  drop (mkFs (kremove f_num number_cmp (bynum s) (f_num f)) (kremove f_name label_cmp (byname s) (f_name f)) (refs s) (next s)) (f_addr f).
(** addr_families.c 394-416, 458-464 *)
Definition remove_bynumber (E : fenv) (s : fstate) (k : N) : out (err * bool * fstate) :=
  if negb (is_success (lockr E)) then Ret (lockr E, false, s)
  else match get_bynumber_1 s k with Some f => remove_1 s f | None => Ret (ITEM_NOT_FOUND, false, s) end.
(** addr_families.c 418-441, 466-474 *)
Definition remove_byname (E : fenv) (s : fstate) (mem : list N) (len : Z) : out (err * bool * fstate) :=
  if negb (is_success (lockr E)) then Ret (lockr E, false, s)
  else let* r := get_byname_1 s mem len in
       match r with inl f => remove_1 s f | inr e => Ret (e, false, s) end.

(** C library tolower and strncasecmp == 0 in the "C" locale; reading past the end is undefined *)
Definition lower (c : N) : N := if (65 <=? c)%N && (c <=? 90)%N then (c + 32)%N else c.
Fixpoint strncaseeq (a b : list N) (n : nat) : out bool :=
  match n with
  | O => Ret true
  | S n => match a, b with
           | x :: a, y :: b => if (lower x =? lower y)%N then (if (x =? 0)%N then Ret true else strncaseeq a b n) else Ret false
           | _, _ => UB
           end
  end.
(** wolfsentry_util.h 80 *)
Definition strcaseeq (v f : list N) (vlen : nat) : out bool :=
  if (vlen =? length f)%nat then strncaseeq v (f ++ [0%N]) vlen else Ret false.

(** addr_families.c 515-654, numbers from wolfsentry_af.h 38-112 *)
Definition pton_names : list (string * N) := [
  ("UNIX", 1); ("LOCAL", 1); ("INET", 2); ("AX25", 3); ("IPX", 4); ("APPLETALK", 5); ("NETROM", 6); ("BRIDGE", 7);
  ("ATMPVC", 8); ("X25", 9); ("INET6", 10); ("ROSE", 11); ("DECnet", 12); ("NETBEUI", 13); ("SECURITY", 14); ("KEY",
  15); ("NETLINK", 16); ("ROUTE", 16); ("PACKET", 17); ("ASH", 18); ("ECONET", 19); ("ATMSVC", 20); ("RDS", 21); ("SNA",
  22); ("IRDA", 23); ("PPPOX", 24); ("WANPIPE", 25); ("LLC", 26); ("IB", 27); ("MPLS", 28); ("CAN", 29); ("TIPC", 30);
  ("BLUETOOTH", 31); ("IUCV", 32); ("RXRPC", 33); ("ISDN", 34); ("PHONET", 35); ("IEEE802154", 36); ("CAIF", 37);
  ("ALG", 38); ("NFC", 39); ("VSOCK", 40); ("KCM", 41); ("QIPCRTR", 42); ("SMC", 43); ("XDP", 44); ("IMPLINK", 103);
  ("PUP", 104); ("CHAOS", 105); ("NETBIOS", 106); ("ISO", 107); ("OSI", 107); ("ECMA", 108); ("DATAKIT", 109); ("DLI",
  113); ("LAT", 114); ("HYLINK", 115); ("LINK", 118); ("LINK48", 118); ("LINK64", 119); ("COIP", 120); ("CNT", 121);
  ("SIP", 124); ("SLOW", 133); ("SCLUSTER", 134); ("ARP", 135); ("IEEE80211", 137); ("INET_SDP", 140); ("INET6_SDP",
  142); ("HYPERV", 143)
]%string%N.
(** addr_families.c 663-796 *)
Definition ntop_names : list (N * string) := [
  (0, "UNSPEC"); (1, "LOCAL"); (2, "INET"); (3, "AX25"); (4, "IPX"); (5, "APPLETALK"); (6, "NETROM"); (7, "BRIDGE"); (8,
  "ATMPVC"); (9, "X25"); (10, "INET6"); (11, "ROSE"); (12, "DECnet"); (13, "NETBEUI"); (14, "SECURITY"); (15, "KEY");
  (16, "ROUTE"); (17, "PACKET"); (18, "ASH"); (19, "ECONET"); (20, "ATMSVC"); (21, "RDS"); (22, "SNA"); (23, "IRDA");
  (24, "PPPOX"); (25, "WANPIPE"); (26, "LLC"); (27, "IB"); (28, "MPLS"); (29, "CAN"); (30, "TIPC"); (31, "BLUETOOTH");
  (32, "IUCV"); (33, "RXRPC"); (34, "ISDN"); (35, "PHONET"); (36, "IEEE802154"); (37, "CAIF"); (38, "ALG"); (39, "NFC");
  (40, "VSOCK"); (41, "KCM"); (42, "QIPCRTR"); (43, "SMC"); (44, "XDP"); (103, "IMPLINK"); (104, "PUP"); (105, "CHAOS");
  (106, "NETBIOS"); (107, "ISO"); (108, "ECMA"); (109, "DATAKIT"); (113, "DLI"); (114, "LAT"); (115, "HYLINK"); (118,
  "LINK"); (120, "COIP"); (121, "CNT"); (124, "SIP"); (133, "SLOW"); (134, "SCLUSTER"); (135, "ARP"); (137,
  "IEEE80211"); (140, "INET_SDP"); (142, "INET6_SDP"); (143, "HYPERV")
]%string%N.
Fixpoint builtin_pton (t : list (string * N)) (mem : list N) (n : nat) : out (option N) :=
  match t with
  | [] => Ret None
  | (s, k) :: t => let* eq := strcaseeq mem (bytes s) n in if eq then Ret (Some k) else builtin_pton t mem n
  end.
Definition builtin_ntop (k : N) : option (list N) := by_flag (table_of ntop_names) k.

(** addr_families.c 478-657.  The user's table is consulted first, unless it is empty. *)
Definition pton (s : fstate) (mem : list N) (len : Z) : out (N + err) :=
  let* n := name_len mem len in
  let builtin := let* o := builtin_pton pton_names mem n in Ret (match o with Some k => inl k | None => inr ITEM_NOT_FOUND end) in
  match byname s with
  | [] => builtin
  | _ => let* r := get_byname_1 s mem (Z.of_nat n) in
         match r with inl f => Ret (inl (f_num f)) | inr ITEM_NOT_FOUND => builtin | inr e => Ret (inr e) end
  end.

(** what a successful ntop hands out: the family (on which a reference was taken) or a built-in name *)
Inductive named := User (f : fam) | Builtin (s : list N).
(** addr_families.c 801-835.  [ptr]: the caller passed a place for the family's address; without it the user's table is not
    consulted.  The count is a uint32_t; wolfsentry_internal.h 177-185. *)
Definition ntop (s : fstate) (k : N) (ptr : bool) : out (named + err) * fstate :=
  let builtin := Ret (match builtin_ntop k with Some nm => inl (Builtin nm) | None => inr ITEM_NOT_FOUND end) in
  if ptr then
    match get_bynumber_1 s k with
    | None => (builtin, s)
    | Some f => match refs s (f_addr f) with
                | None => (UB, s)
                | Some c => if (c =? u32_max)%N then (Ret (inr OVERFLOW_AVERTED), s) else (Ret (inl (User f)), setref s (f_addr f) (Some (c + 1)%N))
                end
    end
  else (builtin, s).
(** the name field: the bytes of the name and a terminating 0 *)
Definition name_mem (n : named) : list N := match n with User f => f_name f ++ [0%N] | Builtin s => s ++ [0%N] end.

(** addr_families.c 839-866, 870-894 *)
Definition builtin_bits (k : N) : option Z :=
  match k with 2%N => Some 32 | 4%N => Some 80 | 5%N => Some 32 | 10%N => Some 128 | 31%N => Some 48 | 137%N => Some 48 | 118%N => Some 48
             | 119%N => Some 64 | 29%N => Some 32 | _ => None end.
Definition max_addr_bits (s : fstate) (k : N) : Z + err :=
  match builtin_bits k with
  | Some b => inl b
  | None => match get_bynumber_1 s k with Some f => inl (f_bits f) | None => inr ITEM_NOT_FOUND end
  end.

(** calls that change something; [Take k] is a successful or failed ntop with a place for the family, [Drop a] releases it *)
Inductive fcall :=
| Install (num : N) (mem : option (list N)) (len : Z) (parser formatter : bool) (bits : Z)
| RemoveNumber (k : N) | RemoveName (mem : list N) (len : Z) | Take (k : N) | Drop (a : positive).
(** the error code, and the family handed out *)
Definition fstep (E : fenv) (s : fstate) (c : fcall) : out (err * option fam * fstate) :=
  match c with
  | Install num mem len p f bits => let* (e, s) := install E s num mem len p f bits in Ret (e, None, s)
  | RemoveNumber k => let* (e, _, s) := remove_bynumber E s k in Ret (e, None, s)
  | RemoveName mem len => let* (e, _, s) := remove_byname E s mem len in Ret (e, None, s)
  | Take k => match ntop s k true with
              | (Ret (inl (User f)), s) => Ret (OK, Some f, s) | (Ret (inl (Builtin _)), s) => Ret (OK, None, s)
              | (Ret (inr e), s) => Ret (e, None, s) | (UB, _) => UB | (Diverge, _) => Diverge end
  | Drop a => let* (e, _, s) := drop s a in Ret (e, None, s)
  end.
Fixpoint frun (s : fstate) (h : list (fenv * fcall)) : out (list (err * option fam) * fstate) :=
  match h with
  | [] => Ret ([], s)
  | (E, c) :: h => let* (r, s) := fstep E s c in let* (rs, s) := frun s h in Ret (r :: rs, s)
  end.
