(** The packet filters that wolfSentry installs in lwIP: src/lwip/packet_filter_glue.c, all of it, with the dispatchers
    that lwip/LWIP_PACKET_FILTER_API.patch adds to lwIP.
    Not modelled: the debugging output, and lwIP itself except for what the patch adds.  An address is its bytes. *)
From Verif Require Import Base RouteFlags Dispatch.
Open Scope N_scope.

(** patch 1127-1146 (packet_filter_event_t), by number. *)
Inductive reason :=
| BINDING | DISSOCIATE | LISTENING | STOP_LISTENING | CONNECTING | ACCEPTING | CLOSED | REMOTE_RESET | RECEIVING | SENDING
| ADDR_UNREACHABLE | PORT_UNREACHABLE | INBOUND_ERR | OUTBOUND_ERR | CLOSE_WAIT.
Definition number (r : reason) : N :=
  match r with
  | BINDING => 0 | DISSOCIATE => 1 | LISTENING => 2 | STOP_LISTENING => 3 | CONNECTING => 4 | ACCEPTING => 5 | CLOSED => 6
  | REMOTE_RESET => 7 | RECEIVING => 8 | SENDING => 9 | ADDR_UNREACHABLE => 10 | PORT_UNREACHABLE => 11 | INBOUND_ERR => 12
  | OUTBOUND_ERR => 13 | CLOSE_WAIT => 14
  end.
(** The seven filter functions and their arguments.  [v6] is laddr->type == IPADDR_TYPE_V6, [accepted] the flag TF_ACCEPTED
    of the connection. *)
Inductive layer :=
| Ethernet (type : N)
| IPv4 (proto : N)
| IPv6 (proto : N)
| TCP (v6 : bool) (lport rport : N) (accepted : bool)
| UDP (v6 : bool) (lport rport : N)
| ICMP4 (type : N)
| ICMP6 (type : N).
(** netif_get_index(event->netif) if there is one; the addresses if they are not NULL. *)
Record packet := mkPacket { p_layer : layer; p_reason : reason; p_netif : option N; p_local : option (list N); p_remote : option (list N) }.

(** wolfsentry.h 858-890: more bits of the action results. *)
Definition AR_SENDING : N := 13.
Definition AR_RECEIVED : N := 14.
Definition AR_BINDING : N := 15.
Definition AR_LISTENING : N := 16.
Definition AR_STOPPED_LISTENING : N := 17.
Definition AR_CONNECTING_OUT : N := 18.
Definition AR_CLOSED : N := 19.
Definition AR_UNREACHABLE : N := 20.
Definition AR_SOCK_ERROR : N := 21.
(** wolfsentry.h 880: WOLFSENTRY_ACTION_RES_EXCLUDE_REJECT_ROUTES = DEROGATORY | COMMENDABLE. *)
Definition bit (k : N) : N := N.setbit 0 k.
Definition EXCLUDE_REJECT : N := N.lor (bit AR_DEROGATORY) (bit AR_COMMENDABLE).

Definition D_IN : N := bit RF_IN.
Definition D_OUT : N := bit RF_OUT.
Definition D_LISTEN : N := N.lor D_IN (N.lor (bit RF_RADDR_WILD) (bit RF_RPORT_WILD)).
(** The switches: flags added to route_flags, and action_results; [None] = "can't happen", returns ERR_OK. *)
(** packet_filter_glue.c 107-137. *)
Definition decode_ethernet (r : reason) : option (N * N) :=
  match r with
  | RECEIVING => Some (D_IN, bit AR_RECEIVED)
  | SENDING => Some (D_OUT, bit AR_SENDING)
  | INBOUND_ERR => Some (D_IN, bit AR_SOCK_ERROR)
  | OUTBOUND_ERR => Some (D_OUT, bit AR_SOCK_ERROR)
  | _ => None
  end.
(** 243-277 and 380-413: IPv4 and IPv6. *)
Definition decode_ip (r : reason) : option (N * N) :=
  match r with
  | RECEIVING => Some (D_IN, bit AR_RECEIVED)
  | SENDING => Some (D_OUT, bit AR_SENDING)
  | ADDR_UNREACHABLE | PORT_UNREACHABLE => Some (D_IN, bit AR_UNREACHABLE)
  | INBOUND_ERR => Some (D_IN, bit AR_SOCK_ERROR)
  | OUTBOUND_ERR => Some (D_OUT, bit AR_SOCK_ERROR)
  | _ => None
  end.
(** 519-596. *)
Definition decode_tcp (accepted : bool) (r : reason) : option (N * N) :=
  match r with
  | ACCEPTING => Some (D_IN, bit AR_CONNECT)
  | REMOTE_RESET | CLOSED => if accepted then Some (D_IN, bit AR_DISCONNECT) else Some (D_OUT, bit AR_CLOSED)
  | CLOSE_WAIT => Some (if accepted then D_IN else D_OUT, 0)
  | PORT_UNREACHABLE => Some (D_IN, N.lor (bit AR_UNREACHABLE) (bit AR_DEROGATORY))
  | BINDING => Some (D_LISTEN, N.lor (bit AR_BINDING) EXCLUDE_REJECT)
  | LISTENING => Some (D_LISTEN, N.lor (bit AR_LISTENING) EXCLUDE_REJECT)
  | STOP_LISTENING => Some (D_LISTEN, N.lor (bit AR_STOPPED_LISTENING) EXCLUDE_REJECT)
  | RECEIVING => Some (D_IN, bit AR_RECEIVED)
  | CONNECTING => Some (D_OUT, bit AR_CONNECTING_OUT)
  | SENDING => Some (D_OUT, bit AR_SENDING)
  | INBOUND_ERR => Some (D_IN, bit AR_SOCK_ERROR)
  | OUTBOUND_ERR => Some (D_OUT, bit AR_SOCK_ERROR)
  | DISSOCIATE | ADDR_UNREACHABLE => None
  end.
(** 733-787. *)
Definition decode_udp (r : reason) : option (N * N) :=
  match r with
  | BINDING => Some (D_LISTEN, N.lor (bit AR_BINDING) EXCLUDE_REJECT)
  | CONNECTING => Some (N.lor D_IN D_OUT, bit AR_CONNECTING_OUT)
  | DISSOCIATE => Some (N.lor D_IN D_OUT, bit AR_CLOSED)
  | CLOSED => Some (D_LISTEN, N.lor (bit AR_CLOSED) EXCLUDE_REJECT)
  | PORT_UNREACHABLE => Some (D_IN, N.lor (bit AR_UNREACHABLE) (bit AR_DEROGATORY))
  | RECEIVING => Some (D_IN, bit AR_RECEIVED)
  | SENDING => Some (D_OUT, bit AR_SENDING)
  | INBOUND_ERR => Some (D_IN, bit AR_SOCK_ERROR)
  | OUTBOUND_ERR => Some (D_OUT, bit AR_SOCK_ERROR)
  | _ => None
  end.
(** 921-955 and 1058-1092: ICMP and ICMPv6. *)
Definition decode_icmp (r : reason) : option (N * N) :=
  match r with
  | RECEIVING => Some (D_IN, bit AR_RECEIVED)
  | SENDING => Some (D_OUT, bit AR_SENDING)
  | ADDR_UNREACHABLE | PORT_UNREACHABLE => Some (D_IN, N.lor (bit AR_UNREACHABLE) (bit AR_DEROGATORY))
  | INBOUND_ERR => Some (D_IN, bit AR_SOCK_ERROR)
  | OUTBOUND_ERR => Some (D_OUT, bit AR_SOCK_ERROR)
  | _ => None
  end.
Definition decode (l : layer) (r : reason) : option (N * N) :=
  match l with
  | Ethernet _ => decode_ethernet r
  | IPv4 _ | IPv6 _ => decode_ip r
  | TCP _ _ _ accepted => decode_tcp accepted r
  | UDP _ _ _ => decode_udp r
  | ICMP4 _ | ICMP6 _ => decode_icmp r
  end.
(** 81-82, 493-495 etc.: what route_flags starts with. *)
Definition base_flags (l : layer) : N :=
  match l with TCP _ _ _ _ | UDP _ _ _ => N.lor (bit RF_TCPLIKE) (bit RF_EVENT_WILD) | _ => bit RF_EVENT_WILD end.

(** A struct wolfsentry_sockaddr. *)
Record endpoint := mkEnd { ep_family : N; ep_proto : N; ep_port : N; ep_bits : N; ep_iface : N; ep_addr : list N }.
(** The arguments of wolfsentry_route_event_dispatch_with_inited_result; the event label is NULL. *)
Record request := mkReq { q_remote : endpoint; q_local : endpoint; q_flags : N; q_results : N }.

(** wolfsentry_af.h: WOLFSENTRY_AF_LINK is LINK48, 118. *)
Definition AF_LINK : N := 118.
Definition AF_INET : N := 2.
Definition AF_INET6 : N := 10.
Definition zeros (n : N) : list N := repeat 0 (N.to_nat n).
(** 139-151, 279-291, 415-427, 598-629, 789-820, 957-969, 1094-1106: an address of [bits] bits, zeros if there is none. *)
Definition bytes (a : option (list N)) (bits : N) : list N := match a with Some bs => firstn (N.to_nat (bits / 8)) bs | None => zeros (bits / 8) end.
Definition family (l : layer) : N * N :=
  match l with
  | Ethernet _ => (AF_LINK, 48)
  | IPv4 _ | ICMP4 _ => (AF_INET, 32)
  | IPv6 _ | ICMP6 _ => (AF_INET6, 128)
  | TCP v6 _ _ _ | UDP v6 _ _ => if v6 then (AF_INET6, 128) else (AF_INET, 32)
  end.
(** 153-157, 293-297, 429-433, 631-635, 822-826, 971-975, 1108-1112: protocol, local port, remote port. *)
Definition proto_ports (l : layer) : N * N * N :=
  match l with
  | Ethernet type => (type, 0, 0)
  | IPv4 proto | IPv6 proto => (proto, 0, 0)
  | TCP _ lport rport _ => (6, lport, rport)
  | UDP _ lport rport => (17, lport, rport)
  | ICMP4 type | ICMP6 type => (1, type, 0)
  end.
(** 159-162 etc.: NETIF_NO_INDEX is 0. *)
Definition request_of (p : packet) (flags results : N) : request :=
  let '(fam, bits) := family (p_layer p) in
  let '(proto, lport, rport) := proto_ports (p_layer p) in
  let iface := match p_netif p with Some i => i | None => 0 end in
  mkReq (mkEnd fam proto rport bits iface (bytes (p_remote p) bits)) (mkEnd fam proto lport bits iface (bytes (p_local p) bits)) flags results.

(** The library seen from the filters, over any state of it: thread initialisation, the dispatch (whether it returns a
    success code, and the results), thread shutdown. *)
Record sentry (W : Type) := mkSentry {
  se_init : W -> W * bool;
  se_dispatch : W -> request -> W * bool * N;
  se_tailer : W -> W * bool }.
Arguments se_init {W}. Arguments se_dispatch {W}. Arguments se_tailer {W}.
Inductive answer := ERR_OK | ERR_MEM | ERR_ABRT | ERR_RST.
Inductive outcome (W : Type) := Crash | Answer (w : W) (a : answer).
Arguments Crash {W}. Arguments Answer {W}.

(** 184-191, 662-671, 853-861 etc.: only the TCP and UDP filters look at PORT_RESET. *)
Definition answer_of (l : layer) (ok : bool) (results : N) : answer :=
  if ok then
    match l with
    | TCP _ _ _ _ | UDP _ _ _ => if has results AR_PORT_RESET then ERR_RST else if has results AR_REJECT then ERR_ABRT else ERR_OK
    | _ => if has results AR_REJECT then ERR_ABRT else ERR_OK
    end
  else ERR_OK.
(** One filter function.  [context] says whether arg is a context; [ipv6] is LWIP_IPV6, with which 598 and 789 read the
    local address' type even if it is NULL. *)
Definition reads_type (l : layer) : bool := match l with TCP _ _ _ _ | UDP _ _ _ => true | _ => false end.
Definition filter {W} (S : sentry W) (ipv6 context : bool) (w : W) (p : packet) : outcome W :=
  if negb context then Answer w ERR_OK
  else match decode (p_layer p) (p_reason p) with
       | None => Answer w ERR_OK
       | Some (flags, results) =>
         if ipv6 && reads_type (p_layer p) && match p_local p with None => true | Some _ => false end then Crash
         else
           let '(w, inited) := se_init S w in
           if negb inited then Answer w ERR_MEM
           else
             let '(w, ok, results) := se_dispatch S w (request_of p (N.lor (base_flags (p_layer p)) flags) results) in
             let a := answer_of (p_layer p) ok results in
             let '(w, left_) := se_tailer S w in
             Answer w (if left_ then a else ERR_MEM)
       end.

(** patch 657-671 etc.: the callback of a layer in lwIP: set or not, its reasons, its argument (which context). *)
Record slot := mkSlot { sl_on : bool; sl_mask : N; sl_arg : option N }.
Definition off : slot := mkSlot false 0 None.
(** patch 86-110, 673-738 etc.: lwIP asks the filter before it goes on; [busy]: packet_filter_lock is held, i.e. the event
    was caused by a filter.  [sentries] finds the context that the argument points to. *)
Definition deliver {W} (S : sentry W) (ipv6 busy : bool) (s : slot) (w : W) (p : packet) : outcome W :=
  if negb (sl_on s) then Answer w ERR_OK
  else if negb (has (sl_mask s) (number (p_reason p))) then Answer w ERR_OK
  else if busy then Answer w ERR_OK
  else filter S ipv6 (match sl_arg s with Some _ => true | None => false end) w p.

(** ** Installation (1155-1366) *)
(** Which layers lwIP was built with. *)
Record build := mkBuild { b_eth : bool; b_ip4 : bool; b_ip6 : bool; b_icmp : bool; b_icmp6 : bool; b_tcp : bool; b_udp : bool }.
Record stack := mkStack { st_eth : slot; st_ip4 : slot; st_ip6 : slot; st_icmp : slot; st_icmp6 : slot; st_tcp : slot; st_udp : slot }.
(** [depth]: how many times the thread holds the context's mutex; [pushed]: cleanup handlers registered; [luck]: whether the
    next locking of a free mutex or registration of a handler succeeds (when the list ends, they do). Locking a mutex that
    the thread holds always succeeds. *)
Record world := mkWorld { stk : stack; depth : N; pushed : N; luck : list bool }.
Definition set_stk (w : world) (s : stack) : world := mkWorld s (depth w) (pushed w) (luck w).
Definition draw (w : world) : bool * world :=
  match luck w with [] => (true, w) | b :: l => (b, mkWorld (stk w) (depth w) (pushed w) l) end.
(** WOLFSENTRY_MUTEX_OR_RETURN: [None] = returns the error. *)
Definition lock (w : world) : bool * world :=
  if depth w =? 0 then
    let '(ok, w) := draw w in (ok, if ok then mkWorld (stk w) 1 (pushed w) (luck w) else w)
  else (true, mkWorld (stk w) (depth w + 1) (pushed w) (luck w)).
Definition unlock (w : world) : world := mkWorld (stk w) (depth w - 1) (pushed w) (luck w).
Definition push (w : world) : bool * world :=
  let '(ok, w) := draw w in (ok, if ok then mkWorld (stk w) (depth w) (pushed w + 1) (luck w) else w).

Section Install.
  Variable bd : build.
  Variable ctx : N.   (* the context *)

  Definition set_eth (s : stack) (x : slot) : stack := mkStack x (st_ip4 s) (st_ip6 s) (st_icmp s) (st_icmp6 s) (st_tcp s) (st_udp s).
  Definition set_ip4 (s : stack) (x : slot) : stack := mkStack (st_eth s) x (st_ip6 s) (st_icmp s) (st_icmp6 s) (st_tcp s) (st_udp s).
  Definition set_ip6 (s : stack) (x : slot) : stack := mkStack (st_eth s) (st_ip4 s) x (st_icmp s) (st_icmp6 s) (st_tcp s) (st_udp s).
  Definition set_icmp (s : stack) (x : slot) : stack := mkStack (st_eth s) (st_ip4 s) (st_ip6 s) x (st_icmp6 s) (st_tcp s) (st_udp s).
  Definition set_icmp6 (s : stack) (x : slot) : stack := mkStack (st_eth s) (st_ip4 s) (st_ip6 s) (st_icmp s) x (st_tcp s) (st_udp s).
  Definition set_tcp (s : stack) (x : slot) : stack := mkStack (st_eth s) (st_ip4 s) (st_ip6 s) (st_icmp s) (st_icmp6 s) x (st_udp s).
  Definition set_udp (s : stack) (x : slot) : stack := mkStack (st_eth s) (st_ip4 s) (st_ip6 s) (st_icmp s) (st_icmp6 s) (st_tcp s) x.
  Definition slot_for (mask : N) : slot := if mask =? 0 then off else mkSlot true mask (Some ctx).

  (** What the single-layer functions have in common: lock, register the cleanup, set the callbacks, unlock.
      [leaky]: a failed registration returns without unlocking. *)
  Definition install_layer (leaky : bool) (mask : N) (set : stack -> stack) (w : world) : err * world :=
    let '(locked, w) := lock w in
    if negb locked then (SYS_OP_FATAL, w)
    else
      let '(ok, w) := if mask =? 0 then (true, w) else push w in
      if negb ok then (SYS_RESOURCE_FAILED, if leaky then w else unlock w)
      else (OK, unlock (set_stk w (set (stk w)))).
  Definition missing (mask : N) (w : world) : err * world := (if mask =? 0 then OK else IMPLEMENTATION_MISSING, w).

  (** 1160-1184. *)
  Definition install_eth (mask : N) (w : world) : err * world :=
    if b_eth bd then install_layer false mask (fun s => set_eth s (slot_for mask)) w else missing mask w.
  (** 1186-1229. *)
  Definition install_ip (mask : N) (w : world) : err * world :=
    if b_ip4 bd || b_ip6 bd then
      install_layer false mask (fun s => let s := if b_ip4 bd then set_ip4 s (slot_for mask) else s in
                                         if b_ip6 bd then set_ip6 s (slot_for mask) else s) w
    else missing mask w.
  (** 1231-1271: registration failure at 1239 is WOLFSENTRY_RERETURN_IF_ERROR; the mask and argument of the ICMP callback
      stay (1249). *)
  Definition install_icmp (mask : N) (w : world) : err * world :=
    if b_icmp bd || b_icmp6 bd then
      install_layer true mask (fun s =>
        let s := if b_icmp bd then set_icmp s (if mask =? 0 then mkSlot false (sl_mask (st_icmp s)) (sl_arg (st_icmp s)) else slot_for mask) else s in
        if b_icmp6 bd then set_icmp6 s (slot_for mask) else s) w
    else missing mask w.
  (** 1273-1302, with 1283-1287. *)
  Definition CONNECTION_EVENTS : N := N.lor (bit (number ACCEPTING)) (N.lor (bit (number CLOSED)) (bit (number REMOTE_RESET))).
  Definition tcp_mask_of (mask : N) : N := if N.land mask CONNECTION_EVENTS =? 0 then mask else N.lor mask CONNECTION_EVENTS.
  Definition install_tcp (mask : N) (w : world) : err * world :=
    if b_tcp bd then install_layer true mask (fun s => set_tcp s (slot_for (tcp_mask_of mask))) w else missing mask w.
  (** 1304-1329. *)
  Definition install_udp (mask : N) (w : world) : err * world :=
    if b_udp bd then install_layer false mask (fun s => set_udp s (slot_for mask)) w else missing mask w.

  Record masks := mkMasks { m_eth : N; m_ip : N; m_icmp : N; m_tcp : N; m_udp : N }.
  (** 1331-1366. *)
  Definition then_ (f : world -> err * world) (r : err * world) : err * world :=
    let '(e, w) := r in if is_success e then f w else (e, w).
  Definition install (m : masks) (w : world) : err * world :=
    let '(locked, w) := lock w in
    if negb locked then (SYS_OP_FATAL, w)
    else
      let '(e, w) := then_ (install_udp (m_udp m)) (then_ (install_tcp (m_tcp m)) (then_ (install_icmp (m_icmp m)) (then_ (install_ip (m_ip m)) (install_eth (m_eth m) w)))) in
      if is_success e then (OK, unlock w)
      else
        let w := snd (install_eth 0 w) in
        let w := snd (install_ip 0 w) in
        let w := snd (install_icmp 0 w) in
        let w := snd (install_tcp 0 w) in
        let w := snd (install_udp 0 w) in
        (e, unlock w).
  (** 1155-1158: the cleanup handler. *)
  Definition cleanup (w : world) : world := snd (install (mkMasks 0 0 0 0 0) w).
End Install.

(** ** One listening port and the connections through it, as far as the patch goes (patch 662-714 of tcp_in.c's
    tcp_listen_input): a segment for a listening port is put to the filter whatever its flags are; a connection exists only
    if it is a SYN without ACK and a control block is available. Connections that were accepted are closed or reset. *)
Record segment := mkSeg { sg_syn : bool; sg_ack : bool; sg_room : bool }.
Inductive traffic := Arrives (p : packet) (sg : segment) | Ends (p : packet).
Definition port_step {W} (S : sentry W) (st : W * N) (t : traffic) : W * N :=
  let '(w, open) := st in
  match t with
  | Arrives p sg =>
    match filter S true true w p with
    | Answer w' ERR_OK => (w', if sg_syn sg && negb (sg_ack sg) && sg_room sg then open + 1 else open)
    | Answer w' _ => (w', open)
    | Crash => (w, open)
    end
  | Ends p => if open =? 0 then (w, open)
              else match filter S true true w p with Answer w' _ => (w', open - 1) | Crash => (w, open) end
  end.
