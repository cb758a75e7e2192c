(** C65: the built-in action that tracks a peer. *)
From Verif Require Import Base Labels Addr AddrSpec RouteFlags RouteKey RouteKeySpec RouteKeyProofs RouteTable RouteTableProofs LookupProps LookupFacts Exchange EventConfig Table.
From Verif Require Import Dispatch Export ExportSpec ExportProofs TrackPeer TrackPeerSpec TrackPeerProofs.
Open Scope N_scope.

(** Traffic whose route is already stored, or waits for deletion, is not tracked: the action does nothing. *)
Theorem C65_stored_target : forall c now locked target rule aux t h ar,
  N.testbit (r_flags (f_route target)) RF_IN_TABLE = true \/ N.testbit (r_flags (f_route target)) RF_PENDING_DELETE = true ->
  track_peer c now locked target rule aux t h ar = Ret (OK, t, None, ar).
Proof.
  intros c now locked target rule aux t h ar H. unfold track_peer. cbv zeta. cbn [export x_flags]. unfold has.
  destruct H as [H|H]; rewrite H; rewrite ?orb_true_r; reflexivity.
Qed.
Print Assumptions C65_stored_target.

(** The action succeeds whatever the outcome.  Either no route is added and the stored routes are as before, or exactly one is, and it
    is the traffic as a route of the aux event of the rule's event (of the rule's event if it has none), with the flags as the
    configuration of that event changes them, no counts, no hits, private data zeroed, and a purge time only from the configuration.
    The results keep what they had. *)
Theorem C65_tracks_partial : forall c now target rule aux t h ar,
  traffic c target -> registered c (tracking_event rule aux) ->
  e_size (ic (conf_of c (tracking_event rule aux))) <= 65535 ->
  exists t' made ar', track_peer c now true target rule aux t h ar = Ret (OK, t', made, ar') /\
    (forall b, N.testbit ar b = true -> N.testbit ar' b = true) /\
    match made with
    | None => t_routes t' = t_routes t
    | Some r => exists x, added (t_routes t) (t_routes t') x /\ tracks c target (tracking_event rule aux) x /\
        (forall b, b <> RF_IN_TABLE -> N.testbit (r_flags (f_route r)) b = N.testbit (r_flags x) b) /\ r_event (f_route r) = r_event x /\
        f_hits r = 0 /\ m_insert (f_meta r) = now /\ m_hit (f_meta r) = 0%Z /\ m_penalty (f_meta r) = 0%Z /\
        m_conn (f_meta r) = 0 /\ m_derog (f_meta r) = 0 /\ m_comm (f_meta r) = 0 /\
        (let idle := e_idle (ic (conf_of c (tracking_event rule aux))) in
         m_purge (f_meta r) = if (0 <? idle)%Z then (now + idle)%Z else 0%Z) /\
        f_data r = repeat 0 (N.to_nat (e_size (ic (conf_of c (tracking_event rule aux))))) /\
        (forall b, N.testbit (snd (h (2 ^ AR_INSERTED))) b = true -> N.testbit ar' b = true)
    end.
Proof.
  intros c now target rule aux t h ar TR REG SE.
  destruct (has (r_flags (f_route target)) RF_IN_TABLE) eqn:T1.
  { exists t, None, ar. split; [apply C65_stored_target; left; exact T1|]. split; auto. }
  destruct (has (r_flags (f_route target)) RF_PENDING_DELETE) eqn:T2.
  { exists t, None, ar. split; [apply C65_stored_target; right; exact T2|]. split; auto. }
  pose proof (track_form c now target rule aux t h ar TR REG SE T1 T2) as TF. cbv zeta in TF. rewrite TF. clear TF.
  set (e := tracking_event rule aux) in *. set (F := final_flags _ _). destruct (flags_sensical F); cbn [negb]; [|exists t, None, ar; repeat split; auto].
  destruct (has F RF_IN_TABLE); [exists t, None, ar; repeat split; auto|]. unfold after_insert.
  change (2 ^ AR_INSERTED) with (N.setbit 0 AR_INSERTED). destruct (h (N.setbit 0 AR_INSERTED)) as [ok ar1]. cbn [snd].
  destruct (rt_insert t (f_route (new_route c now target e)) ok) as [x t1] eqn:E.
  assert (KEEP : forall b, N.testbit ar b = true -> N.testbit (N.lor ar ar1) b = true) by (intros b B; rewrite N.lor_spec, B; reflexivity).
  destruct ok; [|assert (X : x <> OK) by (exact (insert_not_ok _ _ _ _ E)); assert (RR : t_routes t1 = t_routes t) by (exact (insert_failed _ _ _ _ _ E (or_introl eq_refl)));
    destruct x; try congruence; do 3 eexists; (split; [reflexivity|]); split; auto].
  destruct x; try (do 3 eexists; (split; [reflexivity|]); split; [auto|]; apply (insert_failed _ _ _ _ _ E); right; discriminate).
  exists t1, (Some (new_route c now target e)), (N.lor ar ar1). split; [reflexivity|]. split; [exact KEEP|].
  exists (stored (f_route (new_route c now target e))). split; [apply insert_added; exact E|]. split; [apply new_route_tracks|].
  split. { intros b NB. unfold stored. cbn [with_flags r_flags]. rewrite N.setbit_neq by congruence. reflexivity. }
  repeat split; try reflexivity. intros b B. rewrite N.lor_spec, B. apply orb_true_r.
Qed.
Print Assumptions C65_tracks_partial.

(** It is added whenever nothing stands in the way: the flags make sense, no route with that key is stored, no address masks, and
    the insert actions of its event succeed. *)
Theorem C65_added : forall c now target rule aux ops t h ar,
  traffic c target -> registered c (tracking_event rule aux) ->
  let i := ic (conf_of c (tracking_event rule aux)) in
  e_size i <= 65535 -> reached ops t ->
  N.testbit (r_flags (f_route target)) RF_IN_TABLE = false -> N.testbit (r_flags (f_route target)) RF_PENDING_DELETE = false ->
  N.testbit (e_radd i) RF_IN_TABLE = false ->
  (forall b, b = RF_RADDR_BITMASK \/ b = RF_LADDR_BITMASK -> stored_flags i (r_flags (f_route target)) b = false) ->
  (stored_flags i (r_flags (f_route target)) RF_FAMILY_WILD = true ->
     stored_flags i (r_flags (f_route target)) RF_RADDR_WILD = true /\ stored_flags i (r_flags (f_route target)) RF_LADDR_WILD = true /\
     stored_flags i (r_flags (f_route target)) RF_PROTO_WILD = true) ->
  (stored_flags i (r_flags (f_route target)) RF_PROTO_WILD = true ->
     stored_flags i (r_flags (f_route target)) RF_RPORT_WILD = true /\ stored_flags i (r_flags (f_route target)) RF_LPORT_WILD = true) ->
  (forall x y, In x (t_routes t) -> tracks c target (tracking_event rule aux) y -> ~ same_key x y) ->
  fst (h (2 ^ AR_INSERTED)) = true ->
  exists t' r ar', track_peer c now true target rule aux t h ar = Ret (OK, t', Some r, ar').
Proof.
  intros c now target rule aux ops t h ar TR REG i SE RCH T1 T2 RI BM FW PW NK HO. apply reached_inv in RCH. destruct RCH as [INV _].
  pose proof (track_form c now target rule aux t h ar TR REG SE T1 T2) as TF. cbv zeta in TF. rewrite TF. clear TF.
  set (e := tracking_event rule aux) in *. fold i. set (F := final_flags i (r_flags (f_route target))).
  assert (FB : forall b, b <> RF_IN_TABLE -> has F b = stored_flags i (r_flags (f_route target)) b).
  { intros b NB. unfold stored_flags. destruct (N.eqb_spec b RF_IN_TABLE); [contradiction|]. unfold F, has. apply final_bits. }
  assert (SF : flags_sensical F = true).
  { unfold flags_sensical. rewrite !FB by discriminate.
    destruct (stored_flags i (r_flags (f_route target)) RF_FAMILY_WILD); [destruct (FW eq_refl) as (-> & -> & X); destruct (PW X) as [-> ->]; rewrite X; reflexivity|].
    destruct (stored_flags i (r_flags (f_route target)) RF_PROTO_WILD); [destruct (PW eq_refl) as (-> & ->); reflexivity|reflexivity]. }
  rewrite SF. cbn [negb].
  assert (NI : has F RF_IN_TABLE = false). { unfold has, F. rewrite final_bits, RI. change ((14 <=? RF_IN_TABLE) && (RF_IN_TABLE <? 18)) with true. rewrite andb_false_r. reflexivity. }
  rewrite NI. unfold after_insert. change (2 ^ AR_INSERTED) with (N.setbit 0 AR_INSERTED) in HO. destruct (h (N.setbit 0 AR_INSERTED)) as [ok ar1]. cbn [fst] in HO. subst ok.
  assert (OKR : fst (rt_insert t (f_route (new_route c now target e)) true) = OK).
  { apply insert_free; [exact INV| |exact SF|exact NI| |].
    - destruct TR as (e0 & family & proto & raddr & rlen & rport & riface & laddr & llen & lport & liface & flags & Ar & Al & SZ & Q).
      unfold route_init in Q. destruct (negb (anybit flags DIRECTION_FLAGS)); [discriminate|].
      destruct (_ && _) eqn:E1 in Q; [discriminate|]. destruct (_ && _) eqn:E2 in Q; [discriminate|]. destruct (negb (flags_sensical flags)); [discriminate|].
      match type of Q with (OK, Some ?x) = _ => assert (R : f_route target = x) by congruence end. clear Q.
      assert (M1 : has flags RF_RADDR_BITMASK = true -> (rlen mod 16 = 0)%nat) by (intros H; apply Nat.eqb_eq; exact (andb_negb_false _ _ E1 H)).
      assert (M2 : has flags RF_LADDR_BITMASK = true -> (llen mod 16 = 0)%nat) by (intros H; apply Nat.eqb_eq; exact (andb_negb_false _ _ E2 H)).
      unfold new_route. cbn [f_route]. apply clamp_ok. fold i. fold F. split; cbn [r_raddr r_rlen r_laddr r_llen r_flags].
      + rewrite R. cbn [r_raddr r_rlen]. apply init_addr_ok; assumption.
      + rewrite R. cbn [r_laddr r_llen]. apply init_addr_ok; assumption.
      + rewrite FB by discriminate. rewrite BM by (left; reflexivity). discriminate.
      + rewrite FB by discriminate. rewrite BM by (right; reflexivity). discriminate.
    - unfold has_bitmask. change (r_flags (f_route (new_route c now target e))) with F. rewrite !FB by discriminate. rewrite !BM by auto. reflexivity.
    - intros x IN. apply (NK x); [exact IN|apply new_route_tracks]. }
  destruct (rt_insert t (f_route (new_route c now target e)) true) as [x t1]. cbn [fst] in OKR. subst x. do 3 eexists. reflexivity.
Qed.
Print Assumptions C65_added.

(** Witnesses: rule 1 of event "call" with aux event "pin"; traffic from 192.168.1.7 to port 443. *)
Definition ev_call : event := {| ev_label := [99; 97; 108; 108]; ev_prio := 0; ev_filter := None |}.
Definition ev_pin : event := {| ev_label := [112; 105; 110]; ev_prio := 3; ev_filter := None |}.
Definition tconf (idle : Z) : iconf := mkI (mkE 4 0 0 0 0 idle 0 (2 ^ RF_GREENLISTED) 0 0 0 0 0) 0.
Definition tctx : xctx := Export.mkC (mkI zero_econf 0) [(ev_call, None); (ev_pin, Some (tconf 60))].
Definition packet : froute :=
  mkF {| r_family := 2; r_proto := 6; r_raddr := [192; 168; 1; 7]; r_rlen := 32; r_rport := 5000; r_riface := 1; r_laddr := [10; 0; 0; 1]; r_llen := 32; r_lport := 443; r_liface := 1;
         r_flags := 1024; r_event := None |} no_meta 0 [].
Definition rule1 : froute :=
  mkF {| r_family := 2; r_proto := 6; r_raddr := []; r_rlen := 0; r_rport := 0; r_riface := 1; r_laddr := [10; 0; 0; 1]; r_llen := 32; r_lport := 443; r_liface := 1;
         r_flags := 1024 + 2 + 32 + 2 ^ RF_IN_TABLE; r_event := Some ev_call |} no_meta 0 [].
Lemma packet_traffic : traffic tctx packet.
Proof.
  exists None, 2, 6, [192; 168; 1; 7], 32%nat, 5000, 1, [10; 0; 0; 1], 32%nat, 443, 1, 1024.
  split; [split; [reflexivity|repeat constructor]|]. split; [split; [reflexivity|repeat constructor]|]. split; [vm_compute; discriminate|reflexivity].
Qed.
Example C65_example : traffic tctx packet /\ registered tctx (tracking_event rule1 (Some ev_pin)) /\
  exists t' r, track_peer tctx 1000 true packet rule1 (Some ev_pin) t_init no_insert_actions (2 ^ AR_CONNECT) =
    Ret (OK, t', Some r, 2 ^ AR_CONNECT + 2 ^ AR_INSERTED) /\
  length (t_routes t') = 1%nat /\ m_purge (f_meta r) = 1060%Z /\ r_rport (f_route r) = 5000 /\ r_event (f_route r) = Some ev_pin /\
  N.testbit (r_flags (f_route r)) RF_GREENLISTED = true /\ length (f_data r) = 4%nat /\ m_conn (f_meta r) = 0.
Proof.
  split; [apply packet_traffic|]. split; [exists (Some (tconf 60)); split; [reflexivity|cbn; lia]|].
  do 2 eexists. split; [vm_compute; reflexivity|]. repeat split; reflexivity.
Qed.
(** a second packet of the same traffic adds nothing *)
Example C65_again : match track_peer tctx 1000 true packet rule1 (Some ev_pin) t_init no_insert_actions 0 with
  | Ret (_, t', _, _) => track_peer tctx 1001 true packet rule1 (Some ev_pin) t' no_insert_actions 0 = Ret (OK, t', None, 0) | _ => False end.
Proof. vm_compute. reflexivity. Qed.

(** Not safe in every state: if the aux event has been deleted from the context (the rule's event still refers to it), or the lock is
    not obtained, the results are combined with an uninitialised value. *)
Theorem C65_deleted_event_refuted : ~ (forall c now target rule aux t h ar, traffic c target ->
  track_peer c now true target rule aux t h ar <> UB).
Proof.
  intros H. apply (H (Export.mkC (mkI zero_econf 0) [(ev_call, None)]) 1000%Z packet rule1 (Some ev_pin) t_init no_insert_actions 0); [exact packet_traffic|reflexivity].
Qed.
Print Assumptions C65_deleted_event_refuted.

(** The observation that caused the tracking is not counted: the new route starts with no counts, and the results then say INSERTED,
    so that dispatching does not count it on the rule either.  "Every observation counts on the rule or on the new route" is false. *)
Definition tracking_hook (c : xctx) (now : Z) (target rule : froute) (aux : option event) (t : rtable) : hook :=
  Some (fun s ar => match track_peer c now true target rule aux t no_insert_actions ar with Ret (_, _, _, ar') => (s, ar') | _ => (s, ar) end).
Definition no_hooks : hooks := {| h_post := None; h_match := None; h_update := None; h_decision := None |}.
Theorem C65_observation_counted_refuted : ~ (forall c now target rule aux t t' r ar' e s s' ar'',
  traffic c target -> registered c (tracking_event rule aux) ->
  track_peer c now true target rule aux t no_insert_actions (2 ^ AR_DEROGATORY) = Ret (OK, t', Some r, ar') ->
  h_post (e_trigger e) = None -> h_match (e_parent e) = tracking_hook c now target rule aux t ->
  e_fallthrough e = None -> c_add (e_config e) = 0 -> c_clear (e_config e) = 0 -> c_threshold (e_config e) = 0 ->
  has (Dispatch.s_flags s) RF_IN_TABLE = true ->
  dispatch_0 e (r_flags (f_route target)) s (2 ^ AR_DEROGATORY) = (OK, s', ar'') ->
  s_derog s' = s_derog s + 1 \/ m_derog (f_meta r) = 1).
Proof.
  intros H.
  set (e := {| e_time := Some 1000%Z; e_clock := Some 1000%Z; e_policy := 1; e_config := Dispatch.mkC 10 0 0 0 0 0; e_trigger := no_hooks;
               e_parent := {| h_post := None; h_match := tracking_hook tctx 1000 packet rule1 (Some ev_pin) t_init; h_update := None; h_decision := None |};
               e_default := no_hooks; e_fallthrough := None |}).
  set (s := Dispatch.mkR (2 ^ RF_IN_TABLE + 1024) 0 0 0 0 0 0).
  destruct (track_peer tctx 1000 true packet rule1 (Some ev_pin) t_init no_insert_actions (2 ^ AR_DEROGATORY)) as [[[[x t'] [r|]] ar']| |] eqn:E; try (vm_compute in E; discriminate).
  destruct (dispatch_0 e (r_flags (f_route packet)) s (2 ^ AR_DEROGATORY)) as [[x' s'] ar''] eqn:D.
  assert (x = OK) by (vm_compute in E; congruence). subst x. assert (x' = OK) by (vm_compute in D; congruence). subst x'.
  specialize (H tctx 1000%Z packet rule1 (Some ev_pin) t_init t' r ar' e s s' ar'' packet_traffic).
  assert (RG : registered tctx (tracking_event rule1 (Some ev_pin))) by (exists (Some (tconf 60)); split; [reflexivity|cbn; lia]).
  specialize (H RG E eq_refl eq_refl eq_refl eq_refl eq_refl eq_refl eq_refl D).
  assert (S0 : s_derog s' = 0) by (vm_compute in D; assert (Q : s' = Dispatch.mkR 17408 0 0 0 0 1000 0) by congruence; rewrite Q; reflexivity).
  assert (R0 : m_derog (f_meta r) = 0).
  { assert (RR : Ret (OK, t', Some r, ar') = track_peer tctx 1000 true packet rule1 (Some ev_pin) t_init no_insert_actions (2 ^ AR_DEROGATORY)) by (symmetry; exact E).
    vm_compute in RR. injection RR as _ -> _. reflexivity. }
  rewrite S0, R0 in H. destruct H as [H|H]; vm_compute in H; discriminate.
Qed.
Print Assumptions C65_observation_counted_refuted.
