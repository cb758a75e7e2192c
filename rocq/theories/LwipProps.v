(** * C68: traffic through lwIP is put to wolfSentry once, as it is, and passes only if it is not refused *)
From Verif Require Import Base RouteFlags Dispatch DispatchProofs DispatchSpec DispatchEffect DispatchEffectProps Lwip LwipSpec.
Open Scope N_scope.

(** ** The filters *)
Definition bitlist (n : N) : list N := List.filter (fun j => N.testbit n j) (map N.of_nat (seq 0 (N.to_nat (N.size n)))).
Lemma bits_of : forall n k, has n k = existsb (N.eqb k) (bitlist n).
Proof.
  intros n k. unfold has, bitlist. destruct (N.testbit n k) eqn:T.
  - symmetry. apply existsb_exists. exists k. split; [|apply N.eqb_refl]. apply filter_In. split; [|exact T]. apply in_map_iff. exists (N.to_nat k).
    split; [apply N2Nat.id|]. apply in_seq. assert (k < N.size n); [|lia]. destruct (N.lt_ge_cases k (N.size n)) as [L|L]; [exact L|]. exfalso.
    destruct (N.eq_dec n 0) as [-> |NZ]; [rewrite N.bits_0 in T; discriminate|].
    rewrite N.bits_above_log2 in T; [discriminate|]. rewrite N.size_log2 in L by exact NZ. lia.
  - symmetry. apply not_true_iff_false. intros E. apply existsb_exists in E. destruct E as (j & I1 & E). apply N.eqb_eq in E. subst j. apply filter_In in I1. destruct I1 as [_ I1]. congruence.
Qed.
Lemma decode_possible : forall l r, possible l r = match decode l r with Some _ => true | None => false end.
Proof. intros [| | |? ? ? []| | |] []; reflexivity. Qed.
Lemma eqb_bool_ext : forall (a b : bool), (a = true <-> b = true) -> a = b.
Proof. intros [] [] H; try reflexivity; exfalso; destruct H as [H1 H2]; [specialize (H1 eq_refl)|specialize (H2 eq_refl)]; discriminate. Qed.
Ltac numbers :=
  match goal with |- context [bitlist ?n] => let v := eval vm_compute in (bitlist n) in replace (bitlist n) with v by reflexivity end;
  cbv [existsb news about_port inward outward transport started_here app negb andb
       RF_EVENT_WILD RF_TCPLIKE RF_IN RF_OUT RF_RADDR_WILD RF_RPORT_WILD
       AR_RECEIVED AR_SENDING AR_SOCK_ERROR AR_UNREACHABLE AR_DEROGATORY AR_COMMENDABLE AR_BINDING AR_LISTENING AR_STOPPED_LISTENING AR_CONNECTING_OUT AR_CONNECT AR_DISCONNECT AR_CLOSED].
Lemma request_describes : forall p flags results, well_formed p -> decode (p_layer p) (p_reason p) = Some (flags, results) ->
  describes p (request_of p (N.lor (base_flags (p_layer p)) flags) results).
Proof.
  intros [l r n la ra] flags results [WL WR] D. cbn [p_layer p_reason p_netif p_local p_remote] in *.
  assert (AD : forall a, (forall x, a = Some x -> length x = address_bytes l) -> bytes a (snd (family l)) = address l a).
  { intros a H. unfold bytes, address. destruct a as [x|].
    - specialize (H x eq_refl). rewrite firstn_all2; [reflexivity|]. rewrite H. destruct l as [| | |[] ? ? ?|[] ? ?| |]; cbn; lia.
    - unfold zeros. f_equal. destruct l as [| | |[] ? ? ?|[] ? ?| |]; reflexivity. }
  pose proof (AD la WL) as AL. pose proof (AD ra WR) as AR. clear AD.
  split; [| | |].
  - split; cbn [p_layer p_netif p_local]; unfold request_of; cbn [p_layer p_netif p_local p_remote];
      destruct (family l) as [fam bits] eqn:FE; destruct (proto_ports l) as [[pr lp] rp] eqn:PE; cbn [q_local ep_family ep_proto ep_port ep_bits ep_iface ep_addr snd] in *;
      try reflexivity; try exact AL; destruct l as [| | |[] ? ? ?|[] ? ?| |]; cbn in FE, PE |- *; inversion FE; inversion PE; subst; reflexivity.
  - split; cbn [p_layer p_netif p_remote]; unfold request_of; cbn [p_layer p_netif p_local p_remote];
      destruct (family l) as [fam bits] eqn:FE; destruct (proto_ports l) as [[pr lp] rp] eqn:PE; cbn [q_remote ep_family ep_proto ep_port ep_bits ep_iface ep_addr snd] in *;
      try reflexivity; try exact AR; destruct l as [| | |[] ? ? ?|[] ? ?| |]; cbn in FE, PE |- *; inversion FE; inversion PE; subst; reflexivity.
  - intros k. cbn [p_layer p_reason]. unfold request_of. cbn [p_layer p_netif p_local p_remote]. destruct (family l), (proto_ports l) as [[? ?] ?]. cbn [q_flags].
    destruct l as [| | |v lp rp acc|v lp rp| |]; destruct r; try discriminate D; try (destruct acc); cbn in D; inversion D; subst flags results; clear;
      rewrite bits_of; numbers; repeat match goal with |- context [k =? ?c] => destruct (k =? c) end; reflexivity.
  - intros k. cbn [p_layer p_reason]. unfold request_of. cbn [p_layer p_netif p_local p_remote]. destruct (family l), (proto_ports l) as [[? ?] ?]. cbn [q_results].
    destruct l as [| | |v lp rp acc|v lp rp| |]; destruct r; try discriminate D; try (destruct acc); cbn in D; inversion D; subst flags results; clear;
      rewrite bits_of; numbers; repeat match goal with |- context [k =? ?c] => destruct (k =? c) end; reflexivity.
Qed.
(** An event that the layer can have is put to the library exactly once, described as it is; an event it cannot have, not at
    all.  The only way to crash is a transport event without a local address in a build with IPv6. *)
Theorem C68_once : forall W (S : sentry W) ipv6 w p, well_formed p ->
  match Lwip.filter (recording S) ipv6 true (w, []) p with
  | Crash => ipv6 = true /\ transport (p_layer p) = true /\ p_local p = None
  | Answer (w', asked) a =>
    if possible (p_layer p) (p_reason p) then
      if snd (se_init S w) then exists q, asked = [q] /\ describes p q
      else asked = [] /\ a = ERR_MEM
    else asked = [] /\ a = ERR_OK /\ w' = w
  end.
Proof.
  intros W S ipv6 w p WF. unfold Lwip.filter. cbn [negb]. pose proof (decode_possible (p_layer p) (p_reason p)) as DP.
  destruct (decode (p_layer p) (p_reason p)) as [[flags results]|] eqn:D; [|rewrite DP; auto].
  destruct (ipv6 && reads_type (p_layer p) && match p_local p with None => true | Some _ => false end) eqn:CR.
  { apply andb_true_iff in CR as [CR C3]. apply andb_true_iff in CR as [C1 C2]. split; [exact C1|]. split; [destruct (p_layer p); auto|]. destruct (p_local p); [discriminate|reflexivity]. }
  cbn [recording se_init se_dispatch se_tailer]. destruct (se_init S w) as [w1 ok1]. cbn [snd]. destruct ok1; cbn [negb]; [|rewrite DP; auto].
  pose proof (request_describes p flags results WF D) as RD. set (q := request_of _ _ _) in *.
  destruct (se_dispatch S w1 q) as [[w2 ok2] res]. cbn [app]. destruct (se_tailer S w2) as [w3 ok3]. rewrite DP. exists q. auto.
Qed.
(** The answer: the traffic passes exactly if the library does not refuse it -- or fails. *)
Theorem C68_verdict : forall W (S : sentry W) ipv6 w p w' a, well_formed p -> possible (p_layer p) (p_reason p) = true ->
  Lwip.filter S ipv6 true w p = Answer w' a -> snd (se_init S w) = true ->
  exists q w1 w2 ok results, describes p q /\ se_init S w = (w1, true) /\ se_dispatch S w1 q = (w2, ok, results) /\ fst (se_tailer S w2) = w' /\
    (snd (se_tailer S w2) = false -> a = ERR_MEM) /\
    (snd (se_tailer S w2) = true -> (a = ERR_OK <-> ok = false \/ refused (p_layer p) results = false) /\
       (a = ERR_RST <-> ok = true /\ transport (p_layer p) = true /\ has results AR_PORT_RESET = true) /\ a <> ERR_MEM).
Proof.
  intros W S ipv6 w p w' a WF PS F IN. unfold Lwip.filter in F. cbn [negb] in F. rewrite decode_possible in PS.
  destruct (decode (p_layer p) (p_reason p)) as [[flags results]|] eqn:D; [|discriminate].
  destruct (ipv6 && _ && _); [discriminate|]. destruct (se_init S w) as [w1 ok1]. cbn [snd] in IN. subst ok1. cbn [negb] in F.
  pose proof (request_describes p flags results WF D) as RD. set (q := request_of _ _ _) in *.
  destruct (se_dispatch S w1 q) as [[w2 ok2] res] eqn:DQ. destruct (se_tailer S w2) as [w3 ok3] eqn:TL.
  exists q, w1, w2, ok2, res. rewrite TL. split; [exact RD|]. split; [reflexivity|]. split; [exact DQ|].
  assert (E1 : w3 = w') by congruence. assert (E2 : (if ok3 then answer_of (p_layer p) ok2 res else ERR_MEM) = a) by congruence. cbn [fst snd].
  split; [exact E1|]. split; [intros ->; congruence|]. intros ->. subst a. unfold answer_of, refused.
  destruct ok2; [|repeat split; intros; try congruence; auto; destruct H; discriminate].
  destruct (p_layer p); cbn [transport andb orb]; destruct (has res AR_REJECT), (has res AR_PORT_RESET); cbn [orb andb];
    (split; [split; [intros X; try discriminate X; auto|intros [X|X]; try discriminate X; reflexivity]|
             split; [split; [intros X; try discriminate X; auto|intros (X & Y & Z); try discriminate; reflexivity]|discriminate]]).
Qed.
(** A callback that is off, not registered for the event, busy, or without a context, lets everything pass unasked. *)
Theorem C68_unasked : forall W (S : sentry W) ipv6 busy s w p,
  sl_on s = false \/ has (sl_mask s) (number (p_reason p)) = false \/ busy = true \/ sl_arg s = None ->
  deliver S ipv6 busy s w p = Answer w ERR_OK.
Proof.
  intros W S ipv6 busy s w p H. unfold deliver. destruct (sl_on s); [|reflexivity]. destruct (has (sl_mask s) (number (p_reason p))); [|reflexivity]. cbn [negb].
  destruct busy; [reflexivity|]. destruct (sl_arg s) as [c|]; [|reflexivity]. destruct H as [H|[H|[H|H]]]; discriminate.
Qed.
(** The filters fail open: if the dispatch fails, the traffic passes although nothing has accepted it. *)
Theorem C68_fail_open_refuted : forall W (S : sentry W) ipv6 w p w' a, well_formed p -> possible (p_layer p) (p_reason p) = true ->
  snd (se_init S w) = true -> (forall w2, snd (se_tailer S w2) = true) -> (forall w1 q, snd (fst (se_dispatch S w1 q)) = false) ->
  Lwip.filter S ipv6 true w p = Answer w' a -> a = ERR_OK.
Proof.
  intros W S ipv6 w p w' a WF PS IN TL DF F. destruct (C68_verdict W S ipv6 w p w' a WF PS F IN) as (q & w1 & w2 & ok & results & _ & _ & DQ & _ & _ & V).
  specialize (V (TL w2)). destruct V as [V _]. apply V. left. specialize (DF w1 q). rewrite DQ in DF. exact DF.
Qed.

(** ** With the library's decision on a matched route *)
Definition no_marks (q : request) : Prop := has (q_flags q) RF_RADDR_BITMASK = false /\ has (q_flags q) RF_LADDR_BITMASK = false.
Lemma describes_no_marks : forall p q, describes p q -> no_marks q.
Proof.
  intros p q D. split; rewrite (ds_flags _ _ D); unfold RF_EVENT_WILD, RF_TCPLIKE, RF_IN, RF_OUT, RF_RADDR_WILD, RF_RPORT_WILD, RF_RADDR_BITMASK, RF_LADDR_BITMASK; cbn [N.eqb Pos.eqb]; rewrite ?andb_false_r; reflexivity.
Qed.
Definition on_route (e : env) (now : Z) (s : rstate) : Prop :=
  no_actions e /\ e_time e = Some now /\ has (s_flags s) RF_IN_TABLE = true /\ counters_fit s /\ c_max_conns (e_config e) <= u16_max.
(** What a filter does on a matched route: the hit, then the dispatch' effect, and the answer follows the verdict. *)
Lemma filter_on_route : forall e now s p, on_route e now s -> well_formed p -> p_local p <> None -> possible (p_layer p) (p_reason p) = true ->
  exists q s0 ar0 s1 ar1 a, describes p q /\ hit s (q_results q) s0 ar0 /\ effect now (e_config e) (e_policy e) s0 ar0 (e_clock e) s1 ar1 /\ counters_fit s1 /\
    Lwip.filter (one_route e) true true s p = Answer s1 a /\ (a = ERR_OK <-> refused (p_layer p) ar1 = false).
Proof.
  intros e now s p (NA & ET & IT & CF & MX) WF LN PS.
  destruct (Lwip.filter (one_route e) true true s p) as [|s' a] eqn:F.
  { exfalso. unfold Lwip.filter in F. cbn [negb] in F. destruct (decode _ _) as [[? ?]|]; [|discriminate]. destruct (p_local p) as [la|]; [|congruence]. rewrite andb_false_r in F.
    cbn [one_route se_init negb] in F. destruct (se_dispatch _ _ _) as [[? ?] ?]. discriminate. }
  destruct (C68_verdict _ (one_route e) true s p s' a WF PS F eq_refl) as (q & w1 & w2 & ok & results & DS & E1 & DQ & E2 & _ & V).
  cbn [one_route se_init se_tailer fst snd se_dispatch] in E1, E2, V, DQ. assert (w1 = s) by congruence. subst w1 w2. clear E1. specialize (V eq_refl). destruct V as [V _].
  destruct (describes_no_marks _ _ DS) as [N1 N2]. unfold dispatch_found in DQ.
  destruct CF as (CF1 & CF2 & CF3 & CF4). pose proof (lookup_hit_spec s (e_clock e) (q_results q) CF4) as HH. destruct (lookup_hit s (e_clock e) (q_results q)) as [s0 ar0].
  pose proof (hit_others _ _ _ _ HH) as (O1 & O2 & O3 & O4 & O5). pose proof (hit_hits _ _ _ _ HH) as OH. pose proof (hit_flags _ _ _ _ HH) as OF.
  assert (IT0 : has (s_flags s0) RF_IN_TABLE = true) by (rewrite OF, IT; reflexivity).
  assert (CF0 : counters_fit s0). { unfold counters_fit. rewrite O1, O2, O3, OH. destruct (hits_counted s); [unfold u32_max in *|]; repeat split; lia. }
  destruct (C57_effect_partial e (q_flags q) s0 ar0 now NA N1 N2 ET IT0 CF0 MX) as (s1 & ar1 & DD & EF & CF9). rewrite DD in DQ. cbn [is_success] in DQ.
  assert (s1 = s' /\ ok = true /\ results = ar1) as (-> & -> & ->) by (repeat split; congruence).
  exists q, s0, ar0, s', ar1, a. repeat (split; [assumption || reflexivity|]). rewrite V. split; [intros [X|X]; [discriminate|exact X]|auto].
Qed.
(** Traffic that matches a route in the penalty box does not pass. *)
Theorem C68_boxed : forall e now s p, on_route e now s -> well_formed p -> p_local p <> None -> possible (p_layer p) (p_reason p) = true ->
  has (s_flags s) RF_PENALTYBOXED = true ->
  (c_box_duration (e_config e) <= 0 \/ s_boxed_at s = 0 \/ now - s_boxed_at s <= c_box_duration (e_config e))%Z ->
  has (c_add (e_config e)) AR_COMMENDABLE = false ->
  exists s' a, Lwip.filter (one_route e) true true s p = Answer s' a /\ a <> ERR_OK /\ has (s_flags s') RF_PENALTYBOXED = true.
Proof.
  intros e now s p OR WF LN PS PB TM NC. destruct (filter_on_route e now s p OR WF LN PS) as (q & s0 & ar0 & s1 & ar1 & a & DS & HH & EF & _ & F & V).
  exists s1, a. split; [exact F|].
  pose proof (hit_others _ _ _ _ HH) as (_ & _ & _ & _ & O5). pose proof (hit_flags _ _ _ _ HH) as OF.
  assert (PB0 : has (s_flags s0) RF_PENALTYBOXED = true) by (rewrite OF, PB; reflexivity).
  assert (CM : B (e_config e) ar0 AR_COMMENDABLE = false).
  { unfold B. rewrite NC, orb_false_r, (hit_result _ _ _ _ HH). cbn [AR_COMMENDABLE AR_UPDATE AR_DEROGATORY N.eqb Pos.eqb orb]. rewrite !andb_false_r, !orb_false_r, andb_true_r.
    unfold signal. rewrite !(ds_results _ _ DS). destruct (p_layer p) as [| | |? ? ? []|? ? ?| |], (p_reason p); reflexivity. }
  assert (RL : released now (e_config e) s0 ar0 = false).
  { unfold released, clearing. rewrite CM. cbn [andb orb]. assert (T0 : time_over now (e_config e) s0 = false).
    { unfold time_over. rewrite O5. destruct (Z.ltb_spec 0 (c_box_duration (e_config e))); [|reflexivity]. destruct (Z.eqb_spec (s_boxed_at s) 0); [reflexivity|].
      destruct (Z.ltb_spec (c_box_duration (e_config e)) (now - s_boxed_at s)); [lia|reflexivity]. }
    rewrite T0. apply andb_false_r. }
  assert (SB : still_boxed now (e_config e) s0 ar0 = true) by (unfold still_boxed, flag; rewrite PB0, RL; reflexivity).
  split.
  - intros X. apply V in X. unfold refused in X. rewrite (ef_reject _ _ _ _ _ _ _ _ EF) in X. unfold rejected in X. rewrite SB in X.
    destruct (refused_connection _ _ _); cbn [negb andb] in X; rewrite ?orb_true_r in X; cbn [orb] in X; discriminate.
  - rewrite (ef_box _ _ _ _ _ _ _ _ EF). unfold flag. rewrite PB0, RL. reflexivity.
Qed.

(** ** Connection counting *)
(** Ordinary surroundings: a limit [M], no threshold, nothing added or cleared by the configuration, a default policy that
    does not refuse. *)
Definition calm (M : N) (e : env) : Prop :=
  no_actions e /\ (exists now, e_time e = Some now) /\ c_max_conns (e_config e) = M /\ c_threshold (e_config e) = 0 /\
  c_add (e_config e) = 0 /\ c_clear (e_config e) = 0 /\ has (e_policy e) AR_REJECT = false /\ has (e_policy e) AR_PORT_RESET = false.
(** A connection attempt as it should be, and the end of a connection that was accepted. *)
Definition attempt (t : traffic) : Prop :=
  exists p v lp rp acc, t = Arrives p (mkSeg true false true) /\ well_formed p /\ p_local p <> None /\ p_layer p = TCP v lp rp acc /\ p_reason p = ACCEPTING.
Definition ending (t : traffic) : Prop :=
  exists p v lp rp, t = Ends p /\ well_formed p /\ p_local p <> None /\ p_layer p = TCP v lp rp true /\ (p_reason p = CLOSED \/ p_reason p = REMOTE_RESET).
Fixpoint port_run (st : rstate * N) (ts : list (env * traffic)) : rstate * N :=
  match ts with [] => st | (e, t) :: ts => port_run (port_step (one_route e) st t) ts end.
(** The route: in the table, counting, not boxed. *)
Definition counting (s : rstate) : Prop :=
  has (s_flags s) RF_IN_TABLE = true /\ counters_fit s /\ has (s_flags s) RF_DONT_COUNT_CONN = false /\ has (s_flags s) RF_PENALTYBOXED = false.
Lemma calm_B : forall M e ar k, calm M e -> B (e_config e) ar k = has ar k.
Proof. intros M e ar k (_ & _ & _ & _ & A & C & _). unfold B. rewrite A, C. unfold has. rewrite N.bits_0. cbn [negb]. rewrite orb_false_r, andb_true_r. reflexivity. Qed.
Lemma calm_step : forall M e s p, M <= u16_max -> calm M e -> counting s -> well_formed p -> p_local p <> None -> possible (p_layer p) (p_reason p) = true -> about_port (p_layer p) (p_reason p) = false ->
  exists s1 a, Lwip.filter (one_route e) true true s p = Answer s1 a /\ counting s1 /\
    let asked k := existsb (N.eqb k) (news (p_layer p) (p_reason p)) in
    s_conns s1 = (if asked AR_CONNECT then if M <=? s_conns s then s_conns s else s_conns s + 1 else if asked AR_DISCONNECT then s_conns s - 1 else s_conns s) /\
    (a = ERR_OK <-> asked AR_CONNECT = false \/ s_conns s < M).
Proof.
  intros M e s p MU CA (IT & CF & DC & NB) WF LN PS AP. pose proof CA as (NA & (now & ET) & EM & TH & _ & _ & PR & PP).
  assert (OR : on_route e now s) by (unfold on_route; rewrite EM; auto).
  destruct (filter_on_route e now s p OR WF LN PS) as (q & s0 & ar0 & s1 & ar1 & a & DS & HH & EF & CF1 & F & V). exists s1, a. split; [exact F|].
  pose proof (hit_others _ _ _ _ HH) as (_ & _ & O3 & _ & _). pose proof (hit_flags _ _ _ _ HH) as OF. pose proof (calm_B M e ar0) as CB. specialize (fun k => CB k CA) as CB'. clear CB. rename CB' into CB.
  assert (FL : forall k, k <> RF_DONT_COUNT_HITS -> has (s_flags s0) k = has (s_flags s) k).
  { intros k NK. rewrite OF. replace (k =? RF_DONT_COUNT_HITS) with false by (symmetry; apply N.eqb_neq; exact NK). rewrite andb_false_r, orb_false_r. reflexivity. }
  assert (RS : forall k, k <> AR_UPDATE -> has ar0 k = existsb (N.eqb k) (news (p_layer p) (p_reason p))).
  { intros k NK. rewrite (hit_result _ _ _ _ HH). replace (k =? AR_UPDATE) with false by (symmetry; apply N.eqb_neq; exact NK). rewrite andb_false_r, orb_false_r.
    replace (signal (q_results q)) with false; [cbn [andb negb]; rewrite andb_true_r; apply (ds_results _ _ DS)|].
    unfold signal. rewrite !(ds_results _ _ DS). destruct (p_layer p) as [| | |? ? ? []|? ? ?| |], (p_reason p); try discriminate AP; reflexivity. }
  assert (NO : forall k, In k [AR_INSERTED; AR_FALLTHROUGH; AR_REJECT; AR_PORT_RESET; AR_ACCEPT] -> has ar0 k = false).
  { intros k I1. rewrite RS by (cbn in I1; intros ->; unfold AR_INSERTED, AR_FALLTHROUGH, AR_REJECT, AR_PORT_RESET, AR_ACCEPT, AR_UPDATE in I1; intuition discriminate).
    destruct (p_layer p) as [| | |? ? ? []|? ? ?| |], (p_reason p); try discriminate AP; cbn in I1; intuition (subst; reflexivity). }
  assert (TR : tracked (e_config e) s0 ar0 = true).
  { unfold tracked, counted_event, flag. rewrite !CB, FL, DC by discriminate. rewrite !NO by (cbn; auto 10). reflexivity. }
  assert (SB : still_boxed now (e_config e) s0 ar0 = false) by (unfold still_boxed, flag; rewrite FL, NB by discriminate; reflexivity).
  assert (BN : boxed_now now (e_config e) s0 ar0 = false) by (unfold boxed_now, bad_standing; rewrite TH; cbn; apply andb_false_r).
  split.
  - split; [rewrite (ef_flags _ _ _ _ _ _ _ _ EF) by discriminate; unfold flag; rewrite FL by discriminate; exact IT|]. split; [exact CF1|].
    split; [rewrite (ef_flags _ _ _ _ _ _ _ _ EF) by discriminate; unfold flag; rewrite FL by discriminate; exact DC|].
    rewrite (ef_box _ _ _ _ _ _ _ _ EF), BN. unfold flag. rewrite FL, NB by discriminate. reflexivity.
  - cbv zeta. split.
    + rewrite (ef_conns _ _ _ _ _ _ _ _ EF). unfold connections. rewrite TR, !CB, !RS by discriminate. rewrite EM, O3. reflexivity.
    + rewrite V. unfold refused. rewrite (ef_reject _ _ _ _ _ _ _ _ EF), (ef_port_reset _ _ _ _ _ _ _ _ EF). unfold rejected, refused_connection.
      rewrite TR, BN, SB, PR, PP, !CB. rewrite (NO AR_REJECT), (NO AR_PORT_RESET) by (cbn; auto 10). rewrite !andb_false_r. cbn [orb andb]. rewrite !orb_false_r. rewrite RS by discriminate. rewrite EM, O3.
      set (k := existsb (N.eqb AR_CONNECT) _). destruct k; cbn [andb].
      * destruct (N.leb_spec M (s_conns s)) as [L|L]; cbn [orb]; split; [discriminate|intros [X|X]; [discriminate|exfalso; clear - L X; lia]|auto|intros _; cbn [andb orb]; destruct (transport (p_layer p)); reflexivity].
      * split; [auto|]. intros _. cbn [orb andb]. destruct (transport (p_layer p)); reflexivity.
Qed.
(** Any history of attempts and endings: the route's count is the number of open connections, which never exceeds the limit;
    an attempt is answered positively exactly if there is room. *)
Theorem C68_connection_limit : forall M ts s open, M <= u16_max -> counting s -> s_conns s = open -> open <= M ->
  Forall (fun x => calm M (fst x) /\ (attempt (snd x) \/ ending (snd x))) ts ->
  let '(s', open') := port_run (s, open) ts in counting s' /\ s_conns s' = open' /\ open' <= M.
Proof.
  intros M. induction ts as [|[e t] ts IH]; intros s open MU CO SC LE F; cbn [port_run]; [auto|].
  inversion F as [|? ? [CA KD] F2]; subst. cbn [fst snd] in *. destruct KD as [(p & v & lp & rp & acc & -> & WF & LN & EL & ER)|(p & v & lp & rp & -> & WF & LN & EL & ER)].
  - cbn [port_step]. assert (PS : possible (p_layer p) (p_reason p) = true) by (rewrite EL, ER; reflexivity).
    assert (AP : about_port (p_layer p) (p_reason p) = false) by (rewrite ER; reflexivity).
    destruct (calm_step M e s p MU CA CO WF LN PS AP) as (s1 & a & -> & CO1 & CN & AV). rewrite ER in CN, AV. cbn [news about_port app existsb N.eqb Pos.eqb orb AR_CONNECT] in CN, AV.
    destruct (N.leb_spec M (s_conns s)) as [L|L].
    + assert (a <> ERR_OK) by (intros X; apply AV in X; destruct X as [X|X]; [discriminate|clear - X L; lia]).
      replace (match a with ERR_OK => _ | _ => _ end) with (s1, s_conns s) by (destruct a; [congruence|reflexivity|reflexivity|reflexivity]). apply IH; auto.
    + assert (a = ERR_OK) by (apply AV; right; exact L). subst a. cbn [sg_syn sg_ack sg_room andb negb]. apply IH; auto. clear - L. lia.
  - cbn [port_step]. destruct (N.eqb_spec (s_conns s) 0) as [Z0|Z0]; [apply IH; auto|].
    assert (PS : possible (p_layer p) (p_reason p) = true) by (rewrite EL; destruct ER as [-> | ->]; reflexivity).
    assert (AP : about_port (p_layer p) (p_reason p) = false) by (rewrite EL; destruct ER as [-> | ->]; reflexivity).
    destruct (calm_step M e s p MU CA CO WF LN PS AP) as (s1 & a & -> & CO1 & CN & _).
    assert (CN' : s_conns s1 = s_conns s - 1) by (rewrite CN, EL; destruct ER as [-> | ->]; reflexivity). apply IH; auto. clear - LE. lia.
Qed.
(** And an attempt is answered positively exactly if there is room. *)
Theorem C68_room : forall M e s p, M <= u16_max -> calm M e -> counting s -> well_formed p -> p_local p <> None ->
  transport (p_layer p) = true -> p_reason p = ACCEPTING -> possible (p_layer p) ACCEPTING = true ->
  exists s' a, Lwip.filter (one_route e) true true s p = Answer s' a /\ (a = ERR_OK <-> s_conns s < M).
Proof.
  intros M e s p MU CA CO WF LN TP ER PS. destruct (calm_step M e s p MU CA CO WF LN) as (s1 & a & F & _ & _ & V); [rewrite ER; exact PS|rewrite ER; reflexivity|].
  exists s1, a. split; [exact F|]. rewrite V, ER. cbn. split; [intros [X|X]; [discriminate|exact X]|auto].
Qed.
(** But lwIP asks about every segment for a listening port, whatever it is: ACKs out of nowhere use up the connections that
    the peer may have, and nothing ever gives them back. *)
Definition peer_packet (r : reason) (accepted : bool) : packet :=
  mkPacket (TCP false 443 50000 accepted) r (Some 1) (Some [10; 0; 0; 1]) (Some [10; 0; 0; 9]).
Definition limit2 : env :=
  {| e_time := Some 100%Z; e_clock := Some 100%Z; e_policy := N.setbit 0 AR_ACCEPT; e_config := mkC 2 0 0 0 0 0;
     e_trigger := none; e_parent := none; e_default := none; e_fallthrough := None |}.
Definition fresh : rstate := mkR (N.setbit 0 RF_IN_TABLE) 0 0 0 0 0 0.
Theorem C68_stray_segments_refuted :
  let stray := Arrives (peer_packet ACCEPTING false) (mkSeg false true true) in
  let '(s, open) := port_run (fresh, 0) [(limit2, stray); (limit2, stray)] in
  calm 2 limit2 /\ counting fresh /\ open = 0 /\ s_conns s = 2 /\
  exists s', Lwip.filter (one_route limit2) true true s (peer_packet ACCEPTING false) = Answer s' ERR_ABRT.
Proof.
  vm_compute. split; [repeat split; eauto|]. split; [repeat split; discriminate|]. split; [reflexivity|]. split; [reflexivity|]. eexists. reflexivity.
Qed.
(** Likewise an attempt that is refused because the route is in the penalty box: it is counted all the same. *)
Theorem C68_boxed_attempt_refuted :
  let boxed := mkR (N.setbit (N.setbit 0 RF_IN_TABLE) RF_PENALTYBOXED) 0 0 0 0 0 0 in
  let '(s, open) := port_run (boxed, 0) [(limit2, Arrives (peer_packet ACCEPTING false) (mkSeg true false true))] in
  open = 0 /\ s_conns s = 1.
Proof. vm_compute. split; reflexivity. Qed.

(** The hypotheses are met: an attempt, an ending, a full table of connections. *)
Example C68_example :
  well_formed (peer_packet ACCEPTING false) /\ calm 2 limit2 /\ counting fresh /\
  (let syn := Arrives (peer_packet ACCEPTING false) (mkSeg true false true) in let fin := Ends (peer_packet CLOSED true) in
   attempt syn /\ ending fin /\
   let '(s, open) := port_run (fresh, 0) [(limit2, syn); (limit2, syn); (limit2, syn); (limit2, fin); (limit2, syn); (limit2, fin)] in s_conns s = 1 /\ open = 1 /\ s_hits s = 6) /\
  possible (UDP true 53 4000) BINDING = true /\ on_route limit2 100 fresh.
Proof.
  split; [split; intros a E; inversion E; reflexivity|]. split; [repeat split; eexists; reflexivity|]. split; [repeat split; vm_compute; discriminate|]. split.
  - cbv zeta. split; [exists (peer_packet ACCEPTING false), false, 443, 50000, false; repeat split; try discriminate; intros a E; inversion E; reflexivity|].
    split; [exists (peer_packet CLOSED true), false, 443, 50000; repeat split; try discriminate; try (intros a E; inversion E; reflexivity); left; reflexivity|].
    vm_compute. repeat split.
  - split; [reflexivity|]. repeat split; vm_compute; discriminate.
Qed.
Print Assumptions C68_once.
Print Assumptions C68_verdict.
Print Assumptions C68_unasked.
Print Assumptions C68_fail_open_refuted.
Print Assumptions C68_boxed.
Print Assumptions C68_connection_limit.
Print Assumptions C68_room.
Print Assumptions C68_stray_segments_refuted.
Print Assumptions C68_boxed_attempt_refuted.
