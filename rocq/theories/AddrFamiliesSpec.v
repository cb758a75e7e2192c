(** What the user of the address-family functions relies on. *)
From Coq Require Import String.
From Verif Require Import Base Table KvSpec AddrFamilies.
Open Scope Z_scope.

(** the user's families: the name and width installed under a number *)
Definition book : Type := N -> option (list N * Z).
Definition blank : book := fun _ => None.
Definition used (b : book) (nm : list N) : Prop := exists k w, b k = Some (nm, w).
Definition same (b b' : book) : Prop := forall k, b' k = b k.
Definition sets (b b' : book) (k : N) (v : option (list N * Z)) : Prop := b' k = v /\ forall j, j <> k -> b' j = b j.

(** The effect of a call that answers [e]: an install enters a new number with a new name or fails and changes nothing; a removal
    takes out the family with that number or that name; nothing else changes anything. *)
Definition effect (E : fenv) (b : book) (c : fcall) (e : err) (b' : book) : Prop :=
  match c with
  | Install k mem len p f w =>
    (exists m nm, mem = Some m /\ means m len nm /\ 1 <= Z.of_nat (length nm) <= 32 /\ k <> 0%N /\ 1 <= w <= 128 /\ p = true /\ f = true
       /\ b k = None /\ ~ used b nm /\ e = OK /\ sets b b' k (Some (nm, w)))
    \/ (is_success e = false /\ same b b'
        /\ ((k = 0%N \/ p = false \/ f = false \/ w < 1 \/ 128 < w \/ mem = None \/ (exists m, mem = Some m /\ means m len [])) /\ e = INVALID_ARG
            \/ (exists m nm, mem = Some m /\ means m len nm /\ 32 < Z.of_nat (length nm)) /\ e = STRING_ARG_TOO_LONG
            \/ mem_num E = false /\ e = SYS_RESOURCE_FAILED
            \/ e = lockr E \/ e = id_num E \/ e = id_name E
            \/ (b k <> None \/ exists m nm, mem = Some m /\ means m len nm /\ used b nm) /\ e = ITEM_ALREADY_PRESENT))
  | RemoveNumber k =>
    b k <> None /\ e = OK /\ sets b b' k None
    \/ same b b' /\ (b k = None /\ e = ITEM_NOT_FOUND \/ is_success e = false /\ e = lockr E)
  | RemoveName m len =>
    (exists k nm w, means m len nm /\ b k = Some (nm, w) /\ e = OK /\ sets b b' k None)
    \/ same b b' /\ ((exists nm, means m len nm /\ ~ used b nm /\ (e = ITEM_NOT_FOUND \/ nm = [] /\ e = INVALID_ARG \/ 32 < Z.of_nat (length nm) /\ e = STRING_ARG_TOO_LONG))
                     \/ is_success e = false /\ e = lockr E)
  | Take _ | Drop _ => same b b'
  end.
Inductive effects : book -> list (fenv * fcall) -> list (err * option fam) -> book -> Prop :=
| ENil b b' : same b b' -> effects b [] [] b'
| ECons b E c h e o rs b1 b2 : effect E b c e b1 -> effects b1 h rs b2 -> effects b ((E, c) :: h) ((e, o) :: rs) b2.

(** names are readable memory; a caller releases only families that were handed out to it and not yet released; the allocator
    does not fail for the second of the two objects of a family after giving out the first *)
Definition proper_call (E : fenv) (c : fcall) : Prop :=
  match c with
  | Install _ (Some m) len _ _ _ => readable m len /\ (mem_num E = true -> mem_name E = true)
  | RemoveName m len => readable m len
  | _ => True
  end.
Fixpoint del (a : positive) (l : list positive) : list positive :=
  match l with [] => [] | b :: l => if Pos.eqb a b then l else b :: del a l end.
(** what the caller holds after a call answered [o] *)
Definition hold (held : list positive) (c : fcall) (o : option fam) : list positive :=
  match c, o with Drop a, _ => del a held | _, Some f => f_addr f :: held | _, None => held end.
Definition holds_it (held : list positive) (c : fcall) : Prop := match c with Drop a => In a held | _ => True end.
Fixpoint honest (s : fstate) (held : list positive) (h : list (fenv * fcall)) : Prop :=
  match h with
  | [] => True
  | (E, c) :: h => proper_call E c /\ holds_it held c /\ forall e o s', fstep E s c = Ret (e, o, s') -> honest s' (hold held c o) h
  end.

(** The families of wolfsentry_af.h 38-112 under the names of its macros WOLFSENTRY_AF_..., and the widths of addresses *)
Definition known_families : list (string * N) := [
  ("UNIX", 1); ("LOCAL", 1); ("INET", 2); ("AX25", 3); ("IPX", 4); ("APPLETALK", 5); ("NETROM", 6); ("BRIDGE", 7);
  ("ATMPVC", 8); ("X25", 9); ("INET6", 10); ("ROSE", 11); ("DECnet", 12); ("NETBEUI", 13); ("SECURITY", 14); ("KEY", 15);
  ("NETLINK", 16); ("ROUTE", 16); ("PACKET", 17); ("ASH", 18); ("ECONET", 19); ("ATMSVC", 20); ("RDS", 21); ("SNA", 22);
  ("IRDA", 23); ("PPPOX", 24); ("WANPIPE", 25); ("LLC", 26); ("IB", 27); ("MPLS", 28); ("CAN", 29); ("TIPC", 30);
  ("BLUETOOTH", 31); ("IUCV", 32); ("RXRPC", 33); ("ISDN", 34); ("PHONET", 35); ("IEEE802154", 36); ("CAIF", 37);
  ("ALG", 38); ("NFC", 39); ("VSOCK", 40); ("KCM", 41); ("QIPCRTR", 42); ("SMC", 43); ("XDP", 44); ("IMPLINK", 103);
  ("PUP", 104); ("CHAOS", 105); ("NETBIOS", 106); ("ISO", 107); ("OSI", 107); ("ECMA", 108); ("DATAKIT", 109); ("DLI", 113);
  ("LAT", 114); ("HYLINK", 115); ("LINK", 118); ("LINK48", 118); ("LINK64", 119); ("COIP", 120); ("CNT", 121); ("SIP", 124);
  ("SLOW", 133); ("SCLUSTER", 134); ("ARP", 135); ("IEEE80211", 137); ("INET_SDP", 140); ("INET6_SDP", 142); ("HYPERV", 143)
]%string%N.
Definition known_widths : list (N * Z) := [(2%N, 32); (4%N, 80); (5%N, 32); (10%N, 128); (29%N, 32); (31%N, 48); (118%N, 48); (119%N, 64); (137%N, 48)].
(** two bytes are the same, or the two cases of one letter of A-Z *)
Definition same_letter (x y : N) : Prop := x = y \/ (65 <= x <= 90 /\ y = x + 32)%N \/ (65 <= y <= 90 /\ x = y + 32)%N.
