(** C69: routes in memory.  Whatever malloc's bytes, a new route's block holds exactly the route, with its private data zeroed; copying,
    clamping and writing private data neither leave the block nor disturb the rest; and the places where they do. *)
From Coq Require Import Lia.
From Verif Require Import Base Addr AddrSpec AddrProofs RouteFlags RouteKey EventConfig EventConfigSpec EventConfigProps Table Export RouteMem RouteMemSpec RouteMemProofs.
Open Scope nat_scope.

Definition sized_sa (s : sockaddr) : Prop := length (sa_bytes s) = (sa_len s + 7) / 8.
Definition init_of (e : option event) (remote local : sockaddr) (flags : N) : err * option route :=
  route_init e (sa_family remote) (sa_proto remote) (sa_bytes remote) (sa_len remote) (sa_port remote) (sa_iface remote)
             (sa_bytes local) (sa_len local) (sa_port local) (sa_iface local) flags.

Lemma init_case e remote local flags n aligned d : sized_sa remote -> sized_sa local ->
  n + bits_to_bytes (sa_len remote) + bits_to_bytes (sa_len local) <= length d ->
  match init e remote local flags n aligned d with
  | Ret (OK, Some b) => exists r, init_of e remote local flags = (OK, Some r) /\ holds b r (repeat 0%N n) /\ sized b r /\ length (b_data b) = length d /\ b_aligned b = aligned /\ (N.of_nat n <= 65535)%N
  | Ret (x, None) => x <> OK /\ (x = NUMERIC_ARG_TOO_BIG /\ (65535 < N.of_nat n \/ 65535 < N.of_nat (bits_to_bytes (sa_len remote) + bits_to_bytes (sa_len local)))%N \/ init_of e remote local flags = (x, None))
  | _ => False
  end.
Proof.
  intros Sr Sl L. unfold init, init_of, route_init.
  destruct (N.ltb_spec 65535 (N.of_nat (bits_to_bytes (sa_len remote) + bits_to_bytes (sa_len local)))) as [A|A]; [split; [discriminate|]; left; auto|].
  destruct (N.ltb_spec 65535 (N.of_nat n)) as [B|B]; [split; [discriminate|]; left; auto|].
  destruct (Nat.ltb_spec (length d) (n + (bits_to_bytes (sa_len remote) + bits_to_bytes (sa_len local)))) as [C|C]; [lia|].
  destruct (negb (anybit flags DIRECTION_FLAGS)); [split; [discriminate|right; reflexivity]|].
  destruct (has flags RF_RADDR_BITMASK && negb (sa_len remote mod 16 =? 0)) eqn:M1; [split; [discriminate|right; reflexivity]|].
  destruct (has flags RF_LADDR_BITMASK && negb (sa_len local mod 16 =? 0)) eqn:M2; [split; [discriminate|right; reflexivity]|].
  destruct (negb (flags_sensical flags)); [split; [discriminate|right; reflexivity]|].
  assert (M1' : has flags RF_RADDR_BITMASK = true -> sa_len remote mod 16 = 0).
  { intros H. rewrite H in M1. cbn in M1. apply Bool.negb_false_iff, Nat.eqb_eq in M1. exact M1. }
  assert (M2' : has flags RF_LADDR_BITMASK = true -> sa_len local mod 16 = 0).
  { intros H. rewrite H in M2. cbn in M2. apply Bool.negb_false_iff, Nat.eqb_eq in M2. exact M2. }
  unfold sized_sa in *.
  destruct (fill_ok d (repeat 0%N n) (sa_bytes remote) (sa_len remote) (sa_bytes local) (sa_len local) flags ltac:(rewrite repeat_length; lia) Sr Sl M1' M2') as (slack & F & FL).
  rewrite F. cbn [bind]. eexists. split; [reflexivity|]. split; [|split; [|split; [|split]]].
  - constructor; cbn [b_family b_proto b_rport b_rlen b_riface b_lport b_llen b_liface b_flags b_event b_off b_data r_family r_proto r_raddr r_rlen r_rport r_riface r_laddr r_llen r_lport r_liface r_flags r_event]; auto.
    + rewrite repeat_length. reflexivity.
    + rewrite init_addr_len; auto.
    + rewrite init_addr_len; auto.
    + exists slack. reflexivity.
  - unfold sized. cbn [b_asz r_raddr r_laddr]. rewrite !init_addr_len by (unfold bits_to_bytes; assumption); unfold bits_to_bytes; lia.
  - exact FL.
  - reflexivity.
  - exact B.
Qed.

(** A new route: no access outside of the block; the block holds the route that was asked for and zeroed private data; the sizes that
    do not fit are refused. *)
Theorem C69_new : forall off i room junk e remote local flags,
  sized_sa remote -> sized_sa local ->
  let n := N.to_nat (e_size (ic i)) in
  match new off i room junk e remote local flags with
  | Ret (OK, Some b) => exists r, init_of e remote local flags = (OK, Some r) /\ holds b r (repeat 0%N n) /\ sized b r /\ roomy off n b /\ b_aligned b = freed_by_aligned i
  | Ret (x, None) => x <> OK /\ (room = true -> (n + ((sa_len remote + 7) / 8 + (sa_len local + 7) / 8) <= N.to_nat 65535) -> init_of e remote local flags = (x, None))
  | _ => False
  end.
Proof.
  intros off i room junk e remote local flags Sr Sl n. unfold new. fold n.
  assert (LE := block_len_le off n (sa_len remote) (sa_len local)).
  assert (CM := init_case e remote local flags n (negb (e_align (ic i) =? 0)%N) (fresh junk (block_len off n (sa_len remote) (sa_len local))) Sr Sl ltac:(rewrite fresh_len; lia)).
  destruct (has flags RF_RADDR_BITMASK && negb (sa_len remote mod 16 =? 0)) eqn:M1.
  { split; [discriminate|]. intros _ _. unfold init_of, route_init. destruct (negb (anybit flags DIRECTION_FLAGS)); [reflexivity|]. rewrite M1. reflexivity. }
  destruct (has flags RF_LADDR_BITMASK && negb (sa_len local mod 16 =? 0)) eqn:M2.
  { split; [discriminate|]. intros _ _. unfold init_of, route_init. destruct (negb (anybit flags DIRECTION_FLAGS)); [reflexivity|]. rewrite M1, M2. reflexivity. }
  destruct (N.ltb_spec 65535 (N.of_nat (bits_to_bytes (sa_len remote) + bits_to_bytes (sa_len local)))) as [A|A].
  { split; [discriminate|]. intros _ H. exfalso. unfold bits_to_bytes in A. lia. }
  destruct room; cbn [negb]; [|split; [discriminate|intros H; discriminate H]].
  destruct (init e remote local flags n _ _) as [[x [b|]]| |]; try contradiction.
  - destruct x; try contradiction. destruct CM as (r & I & H & S0 & LD & AL & B). exists r. split; [exact I|]. split; [exact H|]. split; [exact S0|]. split; [|exact AL].
    unfold roomy. rewrite LD, fresh_len. assert (E1 := h_rlen _ _ _ H). assert (E2 := h_llen _ _ _ H). rewrite E1, E2.
    unfold init_of, route_init in I. repeat match type of I with context [if ?c then _ else _] => destruct c; try discriminate I end.
    assert (E3 : r_rlen r = sa_len remote /\ r_llen r = sa_len local) by (injection I as I; subst r; split; reflexivity). destruct E3 as [-> ->]. lia.
  - destruct x; (destruct CM as [NE CM]; split; [exact NE|]; intros _ H; destruct CM as [[_ [CM|CM]]|CM]; [exfalso; lia|exfalso; unfold bits_to_bytes in CM; lia|exact CM]).
Qed.

(** The same route, byte for byte, as in the model of exporting and importing (Export.v), which ignores the layout: that abstraction is sound. *)
Theorem C69_new_refines : forall off i junk e remote local flags,
  sized_sa remote -> sized_sa local ->
  match route_new (mkC i []) e (sa_family remote) (sa_proto remote) (sa_bytes remote) (sa_len remote) (sa_port remote) (sa_iface remote)
                         (sa_bytes local) (sa_len local) (sa_port local) (sa_iface local) flags with
  | (x, None) => new off i true junk e remote local flags = Ret (x, None)
  | (x, Some f) => exists b, new off i true junk e remote local flags = Ret (x, Some b) /\ holds b (f_route f) (f_data f)
  end.
Proof.
  intros off i junk e remote local flags Sr Sl.
  assert (CN := C69_new off i true junk e remote local flags Sr Sl). cbn zeta in CN.
  assert (CI : conf_of (mkC i []) e = i) by (destruct e; reflexivity).
  unfold route_new. rewrite CI. unfold new in *. set (n := N.to_nat (e_size (ic i))) in *.
  assert (LE := block_len_le off n (sa_len remote) (sa_len local)).
  destruct (has flags RF_RADDR_BITMASK && negb (sa_len remote mod 16 =? 0)); [reflexivity|].
  destruct (has flags RF_LADDR_BITMASK && negb (sa_len local mod 16 =? 0)); [reflexivity|].
  destruct (N.ltb_spec 65535 (N.of_nat (bits_to_bytes (sa_len remote) + bits_to_bytes (sa_len local)))) as [A|A]; [reflexivity|].
  cbn [negb] in *.
  destruct (N.ltb_spec 65535 (e_size (ic i))) as [B|B].
  { unfold init. destruct (N.ltb_spec 65535 (N.of_nat (bits_to_bytes (sa_len remote) + bits_to_bytes (sa_len local)))) as [A'|A']; [lia|].
    destruct (N.ltb_spec 65535 (N.of_nat n)) as [B'|B']; [reflexivity|]. unfold n in B'. lia. }
  change (route_init e (sa_family remote) (sa_proto remote) (sa_bytes remote) (sa_len remote) (sa_port remote) (sa_iface remote)
             (sa_bytes local) (sa_len local) (sa_port local) (sa_iface local) flags) with (init_of e remote local flags).
  assert (CM := init_case e remote local flags n (negb (e_align (ic i) =? 0)%N) (fresh junk (block_len off n (sa_len remote) (sa_len local))) Sr Sl ltac:(rewrite fresh_len; lia)).
  destruct (init e remote local flags n _ _) as [[x [b|]]| |] eqn:I; try contradiction.
  - destruct x; try contradiction. destruct CM as (r & -> & H & _). exists b. split; [reflexivity|exact H].
  - assert (Q : init_of e remote local flags = (x, None) /\ x <> OK).
    { destruct x; (destruct CM as [NE CM]; split; [|exact NE]; destruct CM as [[_ [CM|CM]]|CM]; [exfalso; unfold n in CM; lia|exfalso; lia|exact CM]). }
    destruct Q as [-> NE]. destruct x; first [reflexivity|contradiction].
Qed.

(** What every reader of a route reads is what the block holds, and lies inside of the block. *)
Theorem C69_read : forall b r priv, holds b r priv -> route_of b = Ret r.
Proof. exact holds_route_of. Qed.

(** The target of a dispatch fits the 32 bytes it has on the stack whenever the addresses have at most 16 bytes each. *)
Theorem C69_target : forall off junk e remote local flags, sized_sa remote -> sized_sa local -> Nat.even off = true ->
  (sa_len remote + 7) / 8 <= 16 -> (sa_len local + 7) / 8 <= 16 ->
  match target junk e remote local flags with
  | Ret (OK, Some b) => exists r, init_of e remote local flags = (OK, Some r) /\ holds b r [] /\ sized b r /\ roomy off 0 b
  | Ret (x, None) => x <> OK /\ init_of e remote local flags = (x, None)
  | _ => False
  end.
Proof.
  intros off junk e remote local flags Sr Sl E R L. unfold target.
  assert (CM := init_case e remote local flags 0 false (fresh junk 32) Sr Sl ltac:(rewrite fresh_len; unfold bits_to_bytes; lia)).
  destruct (init e remote local flags 0 false (fresh junk 32)) as [[x [b|]]| |]; try contradiction.
  - destruct x; try contradiction. destruct CM as (r & I & H & S0 & LD & _). exists r. split; [exact I|]. split; [exact H|]. split; [exact S0|].
    unfold roomy. rewrite LD, fresh_len, (h_rlen _ _ _ H), (h_llen _ _ _ H).
    assert (E3 : r_rlen r = sa_len remote /\ r_llen r = sa_len local).
    { unfold init_of, route_init in I. repeat match type of I with context [if ?c then _ else _] => destruct c; try discriminate I end. injection I as I; subst r; split; reflexivity. }
    destruct E3 as [-> ->]. unfold block_len. fold (bits_to_bytes (sa_len remote)) in R. fold (bits_to_bytes (sa_len local)) in L.
    destruct (Nat.odd _) eqn:O; [|lia]. destruct (Nat.eq_dec (bits_to_bytes (sa_len remote) + bits_to_bytes (sa_len local)) 32) as [E2|E2]; [|lia].
    rewrite E2, Nat.add_0_r, Nat.odd_add in O. rewrite <- (Nat.negb_even off), E in O. discriminate O.
  - destruct x; (destruct CM as [NE CM]; split; [exact NE|]; destruct CM as [[_ [CM|CM]]|CM]; [exfalso; lia|exfalso; unfold bits_to_bytes in CM; lia|exact CM]).
Qed.

(** A copy of a route made under the same configuration holds the same route and the same private data. *)
Theorem C69_clone : forall off i junk src r priv, holds src r priv -> length priv = N.to_nat (e_size (ic i)) -> roomy off (length priv) src ->
  length (r_raddr r) + length (r_laddr r) <= N.to_nat 65535 ->
  exists b, clone off i true junk src = Ret (OK, Some b) /\ holds b r priv /\ roomy off (length priv) b /\ b_aligned b = freed_by_aligned i /\ b_asz b = b_asz src.
Proof.
  intros off i junk src r priv H N R A. unfold clone. rewrite <- N.
  assert (E1 := h_rlen _ _ _ H). assert (E2 := h_llen _ _ _ H). assert (RB := h_rbytes _ _ _ H). assert (LB := h_lbytes _ _ _ H). fold (bits_to_bytes (r_rlen r)) in RB. fold (bits_to_bytes (r_llen r)) in LB.
  rewrite E1, E2. unfold roomy in R. rewrite E1, E2 in R.
  destruct (N.ltb_spec 65535 (N.of_nat (bits_to_bytes (r_rlen r) + bits_to_bytes (r_llen r)))) as [X|X]; [lia|]. cbn [negb].
  rewrite (h_off _ _ _ H), Nat.eqb_refl. unfold rd. cbn [plus skipn].
  destruct (Nat.leb_spec (block_len off (length priv) (r_rlen r) (r_llen r)) (length (b_data src))) as [Y|Y]; [|lia]. cbn [bind].
  eexists. split; [reflexivity|]. assert (LE := block_len_le off (length priv) (r_rlen r) (r_llen r)).
  destruct H as [? ? ? ? ? ? ? ? ? ? ? ? ? [slack D]]. split; [|split; [|split]].
  - constructor; cbn [b_family b_proto b_rport b_rlen b_riface b_lport b_llen b_liface b_flags b_event b_off b_data]; auto.
    exists (firstn (block_len off (length priv) (r_rlen r) (r_llen r) - (length priv + length (r_raddr r) + length (r_laddr r))) slack). rewrite D.
    rewrite firstn_app, firstn_all2 by lia. f_equal. rewrite firstn_app, firstn_all2 by lia. f_equal. rewrite firstn_app, firstn_all2 by lia. f_equal. f_equal. lia.
  - unfold roomy. cbn [b_rlen b_llen b_data]. rewrite firstn_length. lia.
  - reflexivity.
  - reflexivity.
Qed.

(** A copy of a dispatch target, which has no private part, gets one, zeroed. *)
Theorem C69_clone_target : forall off i junk src r, holds src r [] -> sized src r -> (0 < e_size (ic i) <= 65535)%N ->
  length (r_raddr r) + length (r_laddr r) <= N.to_nat 65535 ->
  exists b, clone off i true junk src = Ret (OK, Some b) /\ holds b r (repeat 0%N (N.to_nat (e_size (ic i)))) /\ sized b r /\
    roomy off (N.to_nat (e_size (ic i))) b /\ b_aligned b = freed_by_aligned i.
Proof.
  intros off i junk src r H S0 NB A. unfold clone. set (n := N.to_nat (e_size (ic i))).
  assert (E1 := h_rlen _ _ _ H). assert (E2 := h_llen _ _ _ H). assert (RB := h_rbytes _ _ _ H). assert (LB := h_lbytes _ _ _ H). fold (bits_to_bytes (r_rlen r)) in RB. fold (bits_to_bytes (r_llen r)) in LB.
  rewrite E1, E2. destruct (N.ltb_spec 65535 (N.of_nat (bits_to_bytes (r_rlen r) + bits_to_bytes (r_llen r)))) as [X|X]; [lia|]. cbn [negb].
  rewrite (h_off _ _ _ H). cbn [length]. destruct (Nat.eqb_spec 0 n) as [Y|Y]; [unfold n in Y; lia|].
  assert (NM : N.to_nat (N.of_nat n mod 65536) = n) by (rewrite N.mod_small by (unfold n; lia); lia). rewrite NM.
  assert (LE := block_len_le off n (r_rlen r) (r_llen r)). set (len := block_len off n (r_rlen r) (r_llen r)) in *.
  destruct (split_at (fresh junk len) n) as (p0 & d1 & D & P0); [rewrite fresh_len; lia|].
  assert (DL : length (fresh junk len) = len) by apply fresh_len. rewrite D in DL |- *. rewrite app_length in DL.
  pose proof (wr_app [] p0 d1 (repeat 0%N n)) as W. cbn [app length] in W. rewrite W by (rewrite repeat_length; lia). cbn [bind].
  destruct (h_data _ _ _ H) as [slack SD]. cbn [app] in SD. unfold sized in S0.
  pose proof (rd_app [] (r_raddr r ++ r_laddr r)%list slack) as RD. cbn [app length] in RD. rewrite <- app_assoc in RD. rewrite app_length in RD. rewrite SD, S0, RD. cbn [bind].
  destruct (split_at d1 (length (r_raddr r) + length (r_laddr r))) as (a0 & rest & D1 & A0); [lia|]. rewrite D1.
  pose proof (wr_app (repeat 0%N n) a0 rest (r_raddr r ++ r_laddr r)%list) as W2. rewrite repeat_length in W2. rewrite W2 by (rewrite app_length; lia). cbn [bind].
  eexists. split; [reflexivity|]. split; [|split; [|split]].
  - destruct H. constructor; cbn [b_family b_proto b_rport b_rlen b_riface b_lport b_llen b_liface b_flags b_event b_off b_data]; auto.
    + rewrite repeat_length. reflexivity.
    + exists rest. rewrite <- app_assoc. reflexivity.
  - unfold sized. cbn [b_asz]. first [exact S0|reflexivity].
  - unfold roomy. cbn [b_rlen b_llen b_data]. rewrite ?E1, ?E2. fold len. rewrite !app_length, repeat_length. subst d1. rewrite app_length in DL. lia.
  - reflexivity.
Qed.

(** Zeroing the wildcarded fields before insertion does just that. *)
Theorem C69_clamp : forall b r priv, holds b r priv -> exists b', clamp b = Ret b' /\ holds b' (clamp_wildcard_fields r) priv /\ b_asz b' = b_asz b /\ length (b_data b') = length (b_data b).
Proof.
  intros b r priv H. assert (FL := h_flags _ _ _ H). assert (E1 := h_rlen _ _ _ H). assert (E2 := h_llen _ _ _ H). assert (HO := h_off _ _ _ H).
  assert (RB := h_rbytes _ _ _ H). assert (LB := h_lbytes _ _ _ H). fold (bits_to_bytes (r_rlen r)) in RB. fold (bits_to_bytes (r_llen r)) in LB.
  destruct (h_data _ _ _ H) as [slack D]. unfold clamp, remote_at, local_at. rewrite FL, E1, E2, HO, D.
  set (f := r_flags r). set (ra := if has f RF_RADDR_WILD then repeat 0%N (length (r_raddr r)) else r_raddr r). set (la := if has f RF_LADDR_WILD then repeat 0%N (length (r_laddr r)) else r_laddr r).
  assert (LR : length ra = length (r_raddr r)) by (unfold ra; destruct (has f RF_RADDR_WILD); [apply repeat_length|reflexivity]).
  assert (LL : length la = length (r_laddr r)) by (unfold la; destruct (has f RF_LADDR_WILD); [apply repeat_length|reflexivity]).
  assert (W1 : (if has f RF_RADDR_WILD && negb (r_rlen r =? 0) then wr (priv ++ r_raddr r ++ r_laddr r ++ slack)%list (length priv) (repeat 0%N (bits_to_bytes (r_rlen r))) else Ret (priv ++ r_raddr r ++ r_laddr r ++ slack)%list) = Ret (priv ++ ra ++ r_laddr r ++ slack)%list).
  { unfold ra. destruct (has f RF_RADDR_WILD); cbn [andb]; [|reflexivity]. destruct (Nat.eqb_spec (r_rlen r) 0) as [Z|Z]; cbn [negb].
    - rewrite Z in RB. change (bits_to_bytes 0) with 0 in RB. destruct (r_raddr r); [reflexivity|discriminate].
    - rewrite <- RB. apply wr_app. apply repeat_length. }
  rewrite W1. cbn [bind].
  assert (W2 : (if has f RF_LADDR_WILD && negb (r_llen r =? 0) then wr (priv ++ ra ++ r_laddr r ++ slack)%list (length priv + bits_to_bytes (r_rlen r)) (repeat 0%N (bits_to_bytes (r_llen r))) else Ret (priv ++ ra ++ r_laddr r ++ slack)%list) = Ret (priv ++ ra ++ la ++ slack)%list).
  { unfold la. destruct (has f RF_LADDR_WILD); cbn [andb]; [|reflexivity]. destruct (Nat.eqb_spec (r_llen r) 0) as [Z|Z]; cbn [negb].
    - rewrite Z in LB. change (bits_to_bytes 0) with 0 in LB. destruct (r_laddr r); [reflexivity|discriminate].
    - rewrite <- LB. rewrite !(app_assoc priv ra). replace (length priv + bits_to_bytes (r_rlen r)) with (length (priv ++ ra)%list) by (rewrite app_length; lia). apply wr_app. apply repeat_length. }
  rewrite W2. cbn [bind]. eexists. split; [reflexivity|]. split; [|split; [reflexivity|]].
  - destruct H. constructor; unfold clamp_wildcard_fields;
    cbn [b_family b_proto b_rport b_rlen b_riface b_lport b_llen b_liface b_flags b_event b_off b_data r_family r_proto r_raddr r_rlen r_rport r_riface r_laddr r_llen r_lport r_liface r_flags r_event]; fold f; fold ra; fold la; first [congruence | exists slack; reflexivity | idtac]; cbn [r_family r_proto r_raddr r_rlen r_rport r_riface r_laddr r_llen r_lport r_liface r_flags r_event]. all: match goal with |- (if ?c then _ else _) = _ => destruct c; congruence end.
  - cbn [b_data]. rewrite !app_length. lia.
Qed.

(** Setting wildcards on a route that is not in a table yet replaces the named fields and nothing else, unless the remote address of a
    route with a local address is among them. *)
Theorem C69_wildcard_partial : forall w b r priv, holds b r priv -> has (r_flags r) RF_IN_TABLE = false ->
  (has w RF_RADDR_WILD = true -> has w RF_LADDR_WILD = true \/ r_llen r = 0) ->
  exists b', set_wildcard w b = (OK, b') /\ holds b' (widen w r) priv.
Proof.
  intros w b r priv H T C. unfold set_wildcard. rewrite (h_flags _ _ _ H), T. eexists. split; [reflexivity|].
  destruct H as [? ? ? ? ? ? ? ? ? ? ? RB LB [slack D]]. constructor; unfold widen;
    cbn [b_family b_proto b_rport b_rlen b_riface b_lport b_llen b_liface b_flags b_event b_off b_data r_family r_proto r_raddr r_rlen r_rport r_riface r_laddr r_llen r_lport r_liface r_flags r_event]; try congruence; try solve [reflexivity]; try solve [match goal with |- (if ?c then _ else _) = (if ?c then _ else _) => destruct c; congruence end].
  - destruct (has w RF_RADDR_WILD); [reflexivity|exact RB].
  - destruct (has w RF_LADDR_WILD); [reflexivity|exact LB].
  - rewrite D. destruct (has w RF_RADDR_WILD); cbn [app].
    + destruct (has w RF_LADDR_WILD); cbn [app]; [eexists; reflexivity|]. destruct (C eq_refl) as [X|X]; [discriminate|]. rewrite X in LB. change ((0 + 7) / 8) with 0 in LB.
      destruct (r_laddr r); [|discriminate]. cbn [app]. eexists. reflexivity.
    + destruct (has w RF_LADDR_WILD); cbn [app]; eexists; reflexivity.
Qed.
(** On a route in a table it is refused. *)
Theorem C69_wildcard_in_table : forall w b, has (b_flags b) RF_IN_TABLE = true -> set_wildcard w b = (NOT_PERMITTED, b).
Proof. intros w b H. unfold set_wildcard. rewrite H. reflexivity. Qed.

(** Otherwise the local address becomes the bytes of the remote one (and what follows). *)
Theorem C69_wildcard_refuted : forall w b r priv, holds b r priv -> has (r_flags r) RF_IN_TABLE = false -> has w RF_RADDR_WILD = true -> has w RF_LADDR_WILD = false ->
  exists r', route_of (snd (set_wildcard w b)) = Ret r' /\ r_laddr r' = firstn (length (r_laddr r)) (r_raddr r ++ r_laddr r)%list.
Proof.
  intros w b r priv H T R L. unfold set_wildcard. rewrite (h_flags _ _ _ H), T. cbn [snd]. rewrite R, L.
  assert (E2 := h_llen _ _ _ H). assert (LB := h_lbytes _ _ _ H). fold (bits_to_bytes (r_llen r)) in LB. destruct (h_data _ _ _ H) as [slack D].
  unfold route_of, remote_at, local_at. cbn [b_family b_proto b_rport b_rlen b_riface b_lport b_llen b_liface b_flags b_event b_off b_data].
  change (bits_to_bytes 0) with 0. rewrite (h_off _ _ _ H), E2, D.
  pose proof (rd_app priv [] (r_raddr r ++ r_laddr r ++ slack)%list) as Q. cbn [app length] in Q. rewrite Q. cbn [bind].
  rewrite Nat.add_0_r. unfold rd. rewrite <- LB.
  destruct (Nat.leb_spec (length priv + length (r_laddr r)) (length (priv ++ r_raddr r ++ r_laddr r ++ slack)%list)) as [X|X]; [|rewrite !app_length in X; lia].
  cbn [bind]. eexists. split; [reflexivity|]. cbn [r_laddr]. rewrite skipn_app, skipn_all, Nat.sub_diag. cbn [app skipn]. rewrite app_assoc, firstn_app.
  replace (length (r_laddr r) - length (r_raddr r ++ r_laddr r)%list) with 0 by (rewrite app_length; lia). rewrite firstn_O, app_nil_r. reflexivity.
Qed.
(** For instance, a route from 1.2.3.4 to 9.9.9.9 widened to any remote address becomes one to 1.2.3.4. *)
Theorem C69_wildcard_example_refuted : exists b r r', route_of b = Ret r /\ r_raddr r = [1; 2; 3; 4]%N /\ r_laddr r = [9; 9; 9; 9]%N /\
  fst (set_wildcard 2 b) = OK /\ route_of (snd (set_wildcard 2 b)) = Ret r' /\ r_laddr r' = [1; 2; 3; 4]%N.
Proof.
  exists (mkB 2 6 80 32 0 443 32 0 1024 None 0 8 false [1; 2; 3; 4; 9; 9; 9; 9]%N).
  eexists. eexists. split; [reflexivity|]. split; [reflexivity|]. split; [reflexivity|]. split; [reflexivity|]. split; reflexivity.
Qed.

(** Private data: what is written is what is read, and nothing else of the route changes, for a route whose block was made under the
    configuration in force. *)
Theorem C69_private : forall off c i b r priv bs o n, typed c -> (e_size c + e_align c < szmod)%N -> load off (Some c) (mkI zero_econf 0) = (OK, i) ->
  holds b r priv -> length priv = N.to_nat (e_size (ic i)) -> private_data i = Some (o, n) -> length bs = N.to_nat n ->
  n = e_size c /\
  exists b' priv', write_private i b bs = Ret b' /\ holds b' r priv' /\ length priv' = length priv /\ read_private i b' = Ret (OK, bs) /\
    firstn (N.to_nat o) priv' = firstn (N.to_nat o) priv.
Proof.
  intros off c i b r priv bs o n T W L H LP P LB. assert (Q := C51_private_data_partial off c i T W L). rewrite P in Q. destruct Q as (Q1 & Q2 & _). split; [exact Q1|].
  unfold private_alloc in Q2. set (on := N.to_nat o). set (nn := N.to_nat n) in *. assert (S0 : on + nn = length priv) by (unfold on, nn; lia).
  destruct (split_at priv on) as (p1 & p2 & D & L1); [lia|]. subst priv. rewrite app_length in S0, LP.
  unfold write_private, read_private. rewrite P. fold on nn. rewrite firstn_all2 by lia. destruct (h_data _ _ _ H) as [slack D]. rewrite D.
  rewrite <- app_assoc, <- L1. rewrite wr_app by lia. cbn [bind]. eexists. exists (p1 ++ bs)%list. split; [reflexivity|]. split; [|split; [|split]].
  - destruct H as [? ? ? ? ? ? ? ? ? ? HO ? ? ?]. constructor; cbn [b_family b_proto b_rport b_rlen b_riface b_lport b_llen b_liface b_flags b_event b_off b_data]; auto.
    + rewrite HO, !app_length. lia.
    + exists slack. rewrite <- app_assoc. reflexivity.
  - rewrite !app_length. lia.
  - cbn [b_data]. rewrite <- LB. rewrite rd_app. reflexivity.
  - rewrite !firstn_app, !firstn_all, Nat.sub_diag, !firstn_O. reflexivity.
Qed.

(** A route is given back to the allocator function it came from: true of routes made or copied under the configuration in force. *)
Theorem C69_free : forall off i room junk e remote local flags b,
  new off i room junk e remote local flags = Ret (OK, Some b) \/ (exists src, clone off i room junk src = Ret (OK, Some b)) -> b_aligned b = freed_by_aligned i.
Proof.
  intros off i room junk e remote local flags b [H|[src H]].
  - unfold new in H. destruct (_ && _); [discriminate|]. destruct (_ && _); [discriminate|]. destruct (_ <? _)%N; [discriminate|]. destruct room; [|discriminate]. cbn [negb] in H.
    unfold init in H. repeat match type of H with context [if ?c then Ret _ else _] => destruct c; [discriminate H|] end. destruct (fill _ _ _ _ _ _ _); [|discriminate|discriminate].
    cbn [bind] in H. assert (X : forall x y : rblk, Ret (OK, Some x) = Ret (OK, Some y) -> b_aligned y = b_aligned x) by (intros x y Z; congruence). rewrite (X _ _ H). reflexivity.
  - unfold clone in H. destruct (_ <? _)%N; [discriminate|]. destruct room; [|discriminate]. cbn [negb] in H.
    assert (X : forall x y : rblk, Ret (OK, Some x) = Ret (OK, Some y) -> b_aligned y = b_aligned x) by (intros x y Z; congruence).
    destruct (b_off src =? _).
    + destruct (rd _ _ _); [|discriminate|discriminate]. cbn [bind] in H. rewrite (X _ _ H). reflexivity.
    + destruct (wr _ _ _); [|discriminate|discriminate]. cbn [bind] in H. destruct (rd _ _ _); [|discriminate|discriminate]. cbn [bind] in H. destruct (wr _ _ _); [|discriminate|discriminate]. cbn [bind] in H.
      rewrite (X _ _ H). reflexivity.
Qed.

(** Routes made from exports: the bytes laid out are those of the route the model of imports speaks of. *)
Theorem C69_exports : forall off junk e ex n f, init_by_exports e ex n = (OK, Some f) ->
  length (x_raddr ex) = (x_rlen ex + 7) / 8 -> length (x_laddr ex) = (x_llen ex + 7) / 8 ->
  exists slack, fill_by_exports off junk (N.to_nat n) (x_private ex) (x_raddr ex) (x_rlen ex) (x_laddr ex) (x_llen ex) (x_flags ex) =
    Ret (f_data f ++ r_raddr (f_route f) ++ r_laddr (f_route f) ++ slack)%list /\ length (f_data f) = N.to_nat n.
Proof.
  intros off junk e ex n f I Lr Ll. unfold init_by_exports in I.
  destruct (65535 <? N.of_nat _)%N; [discriminate|]. destruct (N.ltb_spec n (N.of_nat (match x_private ex with Some b => length b | None => 0 end))) as [A|A]; [discriminate|].
  destruct (65535 <? n)%N; [discriminate|]. destruct (negb (anybit _ _)); [discriminate|].
  destruct (has (x_flags ex) RF_RADDR_BITMASK && negb (x_rlen ex mod 16 =? 0)) eqn:M1; [discriminate|].
  destruct (has (x_flags ex) RF_LADDR_BITMASK && negb (x_llen ex mod 16 =? 0)) eqn:M2; [discriminate|].
  destruct (negb (flags_sensical _)); [discriminate|].
  assert (M1' : has (x_flags ex) RF_RADDR_BITMASK = true -> x_rlen ex mod 16 = 0).
  { intros H. rewrite H in M1. cbn in M1. apply Bool.negb_false_iff, Nat.eqb_eq in M1. exact M1. }
  assert (M2' : has (x_flags ex) RF_LADDR_BITMASK = true -> x_llen ex mod 16 = 0).
  { intros H. rewrite H in M2. cbn in M2. apply Bool.negb_false_iff, Nat.eqb_eq in M2. exact M2. }
  set (data := match x_private ex with Some b => (b ++ repeat 0%N (N.to_nat n - length b))%list | None => repeat 0%N (N.to_nat n) end) in *.
  assert (LD : length data = N.to_nat n). { unfold data. destruct (x_private ex); rewrite ?app_length, repeat_length; lia. }
  assert (F1 : f_data f = data) by (injection I as I; rewrite <- I; reflexivity).
  assert (F2 : r_raddr (f_route f) = init_addr (has (x_flags ex) RF_RADDR_BITMASK) (x_raddr ex) (x_rlen ex)) by (injection I as I; rewrite <- I; reflexivity).
  assert (F3 : r_laddr (f_route f) = init_addr (has (x_flags ex) RF_LADDR_BITMASK) (x_laddr ex) (x_llen ex)) by (injection I as I; rewrite <- I; reflexivity).
  clear I. rewrite F1, F2, F3. unfold fill_by_exports. fold data. assert (LE := block_len_le off (N.to_nat n) (x_rlen ex) (x_llen ex)).
  destruct (fill_ok (fresh junk (block_len off (N.to_nat n) (x_rlen ex) (x_llen ex))) data (x_raddr ex) (x_rlen ex) (x_laddr ex) (x_llen ex) (x_flags ex) ltac:(rewrite fresh_len; lia) Lr Ll M1' M2') as (slack & F & _).
  exists slack. split; [exact F|exact LD].
Qed.

(** Where it fails.  A dispatch without an event makes a route under the default configuration and then gives it the default event
    of the table: with a configuration of its own, that event's private data lie on top of the addresses, or beyond the block, and the
    block goes to the wrong allocator function. *)
Definition small : iconf := mkI (mkE 4 0 0 0 0 0 0 0 0 0 0 0 0) 0.
Definition large (n align : N) : iconf := mkI (mkE n align 0 0 0 0 0 0 0 0 0 0 0) 0.
Definition from : sockaddr := mkSA 2 6 1234 32 0 [10; 0; 0; 7]%N.
Definition to : sockaddr := mkSA 2 6 443 32 0 [10; 0; 0; 1]%N.
Definition an_event : event := Build_event [100%N] 1 None.
Definition zeros (_ : nat) : N := 0%N.
Definition made : out (err * option rblk) :=
  let* (_, t) := target zeros None from to 1024 in
  match t with None => UB | Some t => clone 144 small true zeros t end.
Theorem C69_default_event_refuted : exists b r r',
  made = Ret (OK, Some b) /\ let a := adopt an_event b in
  route_of a = Ret r /\ r_raddr r = [10; 0; 0; 7]%N /\
  (exists a', write_private (large 8 0) a [1; 2; 3; 4; 5; 6; 7; 8]%N = Ret a' /\ route_of a' = Ret r' /\ r_raddr r' = [5; 6; 7; 8]%N) /\
  read_private (large 64 0) a = UB /\ write_private (large 64 0) a (repeat 1%N 64) = UB /\
  b_aligned a <> freed_by_aligned (large 64 64).
Proof.
  eexists. eexists. eexists. split; [vm_compute; reflexivity|]. cbn zeta. split; [vm_compute; reflexivity|]. split; [reflexivity|]. split.
  - eexists. split; [vm_compute; reflexivity|]. split; [vm_compute; reflexivity|]. reflexivity.
  - split; [vm_compute; reflexivity|]. split; [vm_compute; reflexivity|]. vm_compute. discriminate.
Qed.
(** A route copied under a configuration other than the one it was made under has bytes of its private data for addresses. *)
Theorem C69_clone_other_refuted : exists b0 b1 b r, new 144 small true zeros (Some an_event) from to 1024 = Ret (OK, Some b0) /\
  write_private small b0 [66; 66; 66; 66]%N = Ret b1 /\ clone 144 (large 8 0) true zeros b1 = Ret (OK, Some b) /\ route_of b = Ret r /\
  r_raddr r = [66; 66; 66; 66]%N /\ r_laddr r = [10; 0; 0; 7]%N.
Proof.
  eexists. eexists. eexists. eexists. split; [vm_compute; reflexivity|]. split; [vm_compute; reflexivity|]. split; [vm_compute; reflexivity|]. split; [vm_compute; reflexivity|]. split; reflexivity.
Qed.
(** And one that was also widened is copied beyond the end of the new block. *)
Theorem C69_clone_widened_refuted : exists b0 b1, new 144 small true zeros (Some an_event) from to 1024 = Ret (OK, Some b0) /\
  set_wildcard 18 b0 = (OK, b1) /\ clone 144 (large 8 0) true zeros b1 = UB.
Proof. eexists. eexists. split; [vm_compute; reflexivity|]. split; vm_compute; reflexivity. Qed.

(** The statements above are not empty: a bitmask route with private data in a block of arbitrary bytes. *)
Example C69_example : exists b r, new 145 (large 5 0) true (fun i => N.of_nat (i + 200)) (Some an_event) (mkSA 2 6 80 48 0 [10; 20; 255; 255; 15; 0]%N) (mkSA 2 6 443 20 0 [1; 2; 63]%N) (1024 + 4096)%N = Ret (OK, Some b) /\
  holds b r (repeat 0%N 5) /\ b_data b = [0; 0; 0; 0; 0; 10; 4; 0; 255; 15; 0; 1; 2; 48; 214]%N.
Proof.
  eexists. exists {| r_family := 2; r_proto := 6; r_raddr := [10; 4; 0; 255; 15; 0]%N; r_rlen := 48; r_rport := 80; r_riface := 0; r_laddr := [1; 2; 48]%N; r_llen := 20; r_lport := 443; r_liface := 0; r_flags := 5120; r_event := Some an_event |}.
  split; [vm_compute; reflexivity|]. split; [constructor; try reflexivity; eexists; reflexivity|]. reflexivity.
Qed.

Print Assumptions C69_new.
Print Assumptions C69_new_refines.
Print Assumptions C69_read.
Print Assumptions C69_target.
Print Assumptions C69_clone.
Print Assumptions C69_clone_target.
Print Assumptions C69_clamp.
Print Assumptions C69_wildcard_partial.
Print Assumptions C69_wildcard_in_table.
Print Assumptions C69_wildcard_refuted.
Print Assumptions C69_wildcard_example_refuted.
Print Assumptions C69_private.
Print Assumptions C69_free.
Print Assumptions C69_exports.
Print Assumptions C69_default_event_refuted.
Print Assumptions C69_clone_other_refuted.
Print Assumptions C69_clone_widened_refuted.
