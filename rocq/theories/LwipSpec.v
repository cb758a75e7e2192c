(** * What the lwIP packet filters are for, without reference to how the library's filters are written. *)
From Verif Require Import Base RouteFlags Dispatch Lwip.
Open Scope N_scope.

(** ** What an event of a layer means: its direction, and what happened, by the published bit numbers. *)
Definition started_here (l : layer) : bool := match l with TCP _ _ _ accepted => negb accepted | _ => false end.
(** Events that a layer can have. *)
Definition possible (l : layer) (r : reason) : bool :=
  match r with
  | RECEIVING | SENDING | INBOUND_ERR | OUTBOUND_ERR => true
  | PORT_UNREACHABLE => match l with Ethernet _ => false | _ => true end
  | ADDR_UNREACHABLE => match l with IPv4 _ | IPv6 _ | ICMP4 _ | ICMP6 _ => true | _ => false end
  | BINDING | CONNECTING | CLOSED => match l with TCP _ _ _ _ | UDP _ _ _ => true | _ => false end
  | LISTENING | STOP_LISTENING | ACCEPTING | REMOTE_RESET | CLOSE_WAIT => match l with TCP _ _ _ _ => true | _ => false end
  | DISSOCIATE => match l with UDP _ _ _ => true | _ => false end
  end.
(** From outside: something arrives, or a port of ours is opened to the outside, or a connection that the peer started. *)
Definition inward (l : layer) (r : reason) : bool :=
  match r with
  | RECEIVING | INBOUND_ERR | PORT_UNREACHABLE | ADDR_UNREACHABLE | ACCEPTING | BINDING | LISTENING | STOP_LISTENING => true
  | CONNECTING | DISSOCIATE => match l with UDP _ _ _ => true | _ => false end
  | CLOSED | REMOTE_RESET | CLOSE_WAIT => negb (started_here l)
  | SENDING | OUTBOUND_ERR => false
  end.
Definition outward (l : layer) (r : reason) : bool :=
  match r with
  | SENDING | OUTBOUND_ERR | CONNECTING | DISSOCIATE => true
  | CLOSED | REMOTE_RESET | CLOSE_WAIT => started_here l
  | _ => false
  end.
(** No peer yet: the question is about the port. *)
Definition about_port (l : layer) (r : reason) : bool :=
  match r with BINDING | LISTENING | STOP_LISTENING => true | CLOSED => match l with UDP _ _ _ => true | _ => false end | _ => false end.
Definition transport (l : layer) : bool := match l with TCP _ _ _ _ | UDP _ _ _ => true | _ => false end.
(** What is reported to the library. *)
Definition news (l : layer) (r : reason) : list N :=
  (match r with
   | RECEIVING => [AR_RECEIVED]
   | SENDING => [AR_SENDING]
   | INBOUND_ERR | OUTBOUND_ERR => [AR_SOCK_ERROR]
   | ADDR_UNREACHABLE | PORT_UNREACHABLE => AR_UNREACHABLE :: match l with IPv4 _ | IPv6 _ => [] | _ => [AR_DEROGATORY] end
   | BINDING => [AR_BINDING]
   | LISTENING => [AR_LISTENING]
   | STOP_LISTENING => [AR_STOPPED_LISTENING]
   | CONNECTING => [AR_CONNECTING_OUT]
   | ACCEPTING => [AR_CONNECT]
   | CLOSED | REMOTE_RESET => match l with TCP _ _ _ true => [AR_DISCONNECT] | _ => [AR_CLOSED] end
   | DISSOCIATE => [AR_CLOSED]
   | CLOSE_WAIT => []
   end ++ if about_port l r then [AR_DEROGATORY; AR_COMMENDABLE] (* the library's signal: rules that reject do not count *) else [])%list.

(** ** The request that a packet has to lead to *)
Definition family_number (l : layer) : N :=
  match l with
  | Ethernet _ => 118
  | IPv4 _ | ICMP4 _ | TCP false _ _ _ | UDP false _ _ => 2
  | IPv6 _ | ICMP6 _ | TCP true _ _ _ | UDP true _ _ => 10
  end.
Definition address_bytes (l : layer) : nat :=
  match l with Ethernet _ => 6%nat | IPv4 _ | ICMP4 _ | TCP false _ _ _ | UDP false _ _ => 4%nat | _ => 16%nat end.
Definition protocol_number (l : layer) : N :=
  match l with Ethernet t => t | IPv4 pr | IPv6 pr => pr | TCP _ _ _ _ => 6 | UDP _ _ _ => 17 | ICMP4 _ | ICMP6 _ => 1 end.
Definition local_port (l : layer) : N := match l with TCP _ lp _ _ | UDP _ lp _ => lp | ICMP4 t | ICMP6 t => t | _ => 0 end.
Definition remote_port (l : layer) : N := match l with TCP _ _ rp _ | UDP _ _ rp => rp | _ => 0 end.
(** A packet as lwIP hands it over: addresses of the layer's length, or none. *)
Definition well_formed (p : packet) : Prop :=
  (forall a, p_local p = Some a -> length a = address_bytes (p_layer p)) /\ (forall a, p_remote p = Some a -> length a = address_bytes (p_layer p)).
Definition address (l : layer) (a : option (list N)) : list N := match a with Some x => x | None => repeat 0 (address_bytes l) end.
Record side (p : packet) (port : N) (a : option (list N)) (e : endpoint) : Prop := {
  sd_family : ep_family e = family_number (p_layer p);
  sd_proto : ep_proto e = protocol_number (p_layer p);
  sd_port : ep_port e = port;
  sd_bits : ep_bits e = 8 * N.of_nat (address_bytes (p_layer p));
  sd_iface : ep_iface e = match p_netif p with Some i => i | None => 0 end;
  sd_addr : ep_addr e = address (p_layer p) a }.
Record describes (p : packet) (q : request) : Prop := {
  ds_local : side p (local_port (p_layer p)) (p_local p) (q_local q);
  ds_remote : side p (remote_port (p_layer p)) (p_remote p) (q_remote q);
  ds_flags : forall k, has (q_flags q) k =
      (k =? RF_EVENT_WILD) || (transport (p_layer p) && (k =? RF_TCPLIKE)) ||
      (inward (p_layer p) (p_reason p) && (k =? RF_IN)) || (outward (p_layer p) (p_reason p) && (k =? RF_OUT)) ||
      (about_port (p_layer p) (p_reason p) && ((k =? RF_RADDR_WILD) || (k =? RF_RPORT_WILD)));
  ds_results : forall k, has (q_results q) k = existsb (N.eqb k) (news (p_layer p) (p_reason p)) }.

(** The library with a record of the dispatches made. *)
Definition recording {W} (S : sentry W) : sentry (W * list request) :=
  mkSentry _ (fun '(w, l) => let '(w', ok) := se_init S w in (w', l, ok))
             (fun '(w, l) q => let '(w', ok, res) := se_dispatch S w q in (w', (l ++ [q])%list, ok, res))
             (fun '(w, l) => let '(w', ok) := se_tailer S w in (w', l, ok)).
(** The verdict of the library on traffic of a layer. *)
Definition refused (l : layer) (results : N) : bool := has results AR_REJECT || (transport l && has results AR_PORT_RESET).

(** The library as far as one matched route is concerned. *)
Definition one_route (e : env) : sentry rstate :=
  mkSentry _ (fun s => (s, true))
             (fun s q => match dispatch_found e (q_flags q) s (q_results q) with
                         | (r, Some s', ar) => (s', is_success r, ar)
                         | (r, None, ar) => (s, is_success r, ar)
                         end)
             (fun s => (s, true)).

(** ** Installation *)
Definition connection_event (r : reason) : bool := match r with ACCEPTING | CLOSED | REMOTE_RESET => true | _ => false end.
(** A callback of the context for exactly these reasons. *)
Definition watches (ctx : N) (wanted : reason -> bool) (s : slot) : Prop :=
  sl_on s = true /\ sl_arg s = Some ctx /\ forall r, has (sl_mask s) (number r) = wanted r.
Definition in_mask (m : N) (r : reason) : bool := has m (number r).
(** Whoever sees one kind of connection event sees them all. *)
Definition tcp_wanted (m : N) (r : reason) : bool :=
  in_mask m r || (connection_event r && existsb (in_mask m) [ACCEPTING; CLOSED; REMOTE_RESET]).
Definition silent (s : slot) : Prop := sl_on s = false.
Definition slot_as (ctx mask : N) (wanted : reason -> bool) (built : bool) (before after : slot) : Prop :=
  if built then (mask = 0 -> silent after) /\ (mask <> 0 -> watches ctx wanted after) else after = before.
Record installed (bd : build) (ctx : N) (m : masks) (before after : stack) : Prop := {
  in_eth : slot_as ctx (m_eth m) (in_mask (m_eth m)) (b_eth bd) (st_eth before) (st_eth after);
  in_ip4 : slot_as ctx (m_ip m) (in_mask (m_ip m)) (b_ip4 bd) (st_ip4 before) (st_ip4 after);
  in_ip6 : slot_as ctx (m_ip m) (in_mask (m_ip m)) (b_ip6 bd) (st_ip6 before) (st_ip6 after);
  in_icmp : slot_as ctx (m_icmp m) (in_mask (m_icmp m)) (b_icmp bd) (st_icmp before) (st_icmp after);
  in_icmp6 : slot_as ctx (m_icmp m) (in_mask (m_icmp m)) (b_icmp6 bd) (st_icmp6 before) (st_icmp6 after);
  in_tcp : slot_as ctx (m_tcp m) (tcp_wanted (m_tcp m)) (b_tcp bd) (st_tcp before) (st_tcp after);
  in_udp : slot_as ctx (m_udp m) (in_mask (m_udp m)) (b_udp bd) (st_udp before) (st_udp after) }.
(** Everything that was asked for exists in this build. *)
Definition available (bd : build) (m : masks) : Prop :=
  (m_eth m <> 0 -> b_eth bd = true) /\ (m_ip m <> 0 -> b_ip4 bd || b_ip6 bd = true) /\ (m_icmp m <> 0 -> b_icmp bd || b_icmp6 bd = true) /\
  (m_tcp m <> 0 -> b_tcp bd = true) /\ (m_udp m <> 0 -> b_udp bd = true).
Definition no_masks : masks := mkMasks 0 0 0 0 0.
