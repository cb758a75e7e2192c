(** Lemmas for TrackPeerProps.v. *)
From Verif Require Import Base Labels Addr AddrSpec RouteFlags RouteKey RouteKeySpec RouteKeyProofs RouteTable RouteTableProofs Exchange EventConfig Table Dispatch Export ExportSpec ExportProofs TrackPeer TrackPeerSpec.
Open Scope N_scope.

Definition final_flags (i : econf) (f : N) : N := N.lor (N.ldiff (N.ldiff f INTERNAL_FLAGS) (e_rclr i)) (e_radd i).
Definition new_route (c : xctx) (now : Z) (target : froute) (e : option event) : froute :=
  let i := ic (conf_of c e) in let k := f_route target in
  mkF (clamp_wildcard_fields {| r_family := r_family k; r_proto := r_proto k; r_raddr := r_raddr k; r_rlen := r_rlen k; r_rport := r_rport k;
         r_riface := r_riface k; r_laddr := r_laddr k; r_llen := r_llen k; r_lport := r_lport k; r_liface := r_liface k;
         r_flags := final_flags i (r_flags k); r_event := e |})
      (mkMeta now 0 0 (if (0 <? e_idle i)%Z then (now + e_idle i)%Z else 0%Z) 0 0 0) 0 (repeat 0 (N.to_nat (e_size i))).

Lemma final_bits i f b : N.testbit (final_flags i f) b = N.testbit (e_radd i) b || ((N.testbit f b && negb ((14 <=? b) && (b <? 18))) && negb (N.testbit (e_rclr i) b)).
Proof. unfold final_flags. rewrite N.lor_spec, !N.ldiff_spec, internal_bits. apply orb_comm. Qed.

Lemma tracking_event_get c rule aux : registered c (tracking_event rule aux) ->
  (match tracking_label (r_event (f_route rule)) aux with None => (OK, None) | Some l => event_get c l end) = (OK, tracking_event rule aux).
Proof.
  unfold tracking_label, tracking_event, registered. destruct (r_event (f_route rule)) as [p|]; [|destruct aux; reflexivity].
  destruct aux as [a|]; intros (i & E & L); unfold event_get; destruct (Nat.eqb_spec (length (ev_label a)) 0) || destruct (Nat.eqb_spec (length (ev_label p)) 0); try lia;
    match goal with |- context [(32 <? ?n)%nat] => destruct (Nat.ltb_spec 32 n); [lia|] end; rewrite E; reflexivity.
Qed.

Definition after_insert (ar : N) (r : froute) (h : insert_hook) (t : rtable) : err * rtable * option froute * N :=
  let '(ok, ar1) := h (N.setbit 0 AR_INSERTED) in
  let '(x, t1) := rt_insert t (f_route r) ok in
  match x with
  | OK => (OK, t1, Some r, N.lor ar ar1)
  | CALLBACK_ERROR n => (OK, t1, None, N.lor ar ar1)
  | _ => (OK, t1, None, ar)
  end.

Lemma track_form c now target rule aux t h ar : traffic c target -> registered c (tracking_event rule aux) ->
  e_size (ic (conf_of c (tracking_event rule aux))) <= 65535 ->
  has (r_flags (f_route target)) RF_IN_TABLE = false -> has (r_flags (f_route target)) RF_PENDING_DELETE = false ->
  let e := tracking_event rule aux in let F := final_flags (ic (conf_of c e)) (r_flags (f_route target)) in
  track_peer c now true target rule aux t h ar =
  Ret (if negb (flags_sensical F) then (OK, t, None, ar)
       else if has F RF_IN_TABLE then (OK, t, None, ar)
       else after_insert ar (new_route c now target e) h t).
Proof.
  intros (e0 & family & proto & raddr & rlen & rport & riface & laddr & llen & lport & liface & flags & Ar & Al & SZ & Q) REG SE T1 T2 e F.
  unfold track_peer. cbv zeta. cbn [export x_flags tracking_exports x_label negb]. rewrite T1, T2. cbn [orb]. fold e. fold e in SE.
  rewrite (tracking_event_get c rule aux REG). fold e.
  set (ex := tracking_exports (export c target) (tracking_label (r_event (f_route rule)) aux)).
  unfold insert_by_exports. change (x_label ex) with (tracking_label (r_event (f_route rule)) aux). rewrite (tracking_event_get c rule aux REG). fold e.
  unfold route_init in Q. destruct (anybit flags DIRECTION_FLAGS) eqn:D; cbn [negb] in Q; [|discriminate].
  destruct (_ && _) eqn:E1 in Q; [discriminate|]. destruct (_ && _) eqn:E2 in Q; [discriminate|]. destruct (flags_sensical flags) eqn:SF; cbn [negb] in Q; [|discriminate].
  match type of Q with (OK, Some ?x) = _ => assert (R : f_route target = x) by congruence end. clear Q.
  assert (M1 : has flags RF_RADDR_BITMASK = true -> (rlen mod 16 = 0)%nat) by (intros H; apply Nat.eqb_eq; exact (andb_negb_false _ _ E1 H)).
  assert (M2 : has flags RF_LADDR_BITMASK = true -> (llen mod 16 = 0)%nat) by (intros H; apply Nat.eqb_eq; exact (andb_negb_false _ _ E2 H)).
  assert (NB : new_by_exports c e ex = (OK, Some (mkF {| r_family := family; r_proto := proto;
      r_raddr := r_raddr (f_route target); r_rlen := rlen; r_rport := rport; r_riface := riface;
      r_laddr := r_laddr (f_route target); r_llen := llen; r_lport := lport; r_liface := liface;
      r_flags := N.ldiff flags INTERNAL_FLAGS; r_event := e |} (mkMeta 0 0 0 0 0 0 0) 0 (repeat 0 (N.to_nat (e_size (ic (conf_of c e)))))))).
  { unfold new_by_exports, init_by_exports, ex, tracking_exports, export. rewrite R.
    cbn [x_private x_flags x_rlen x_llen x_raddr x_laddr x_family x_proto x_rport x_lport x_riface x_liface x_meta r_flags r_rlen r_llen r_raddr r_laddr r_family r_proto r_rport r_lport r_riface r_liface m_purge m_conn m_derog m_comm].
    cbv zeta. rewrite N.eqb_refl. cbn [negb andb]. rewrite E1, E2, D, SF. cbn [negb].
    destruct (N.ltb_spec 65535 (N.of_nat (bits_to_bytes rlen + bits_to_bytes llen))); [lia|].
    destruct (N.ltb_spec (e_size (ic (conf_of c e))) (N.of_nat 0)); [lia|]. destruct (N.ltb_spec 65535 (e_size (ic (conf_of c e)))); [lia|].
    rewrite !init_addr_idem by assumption. reflexivity. }
  rewrite NB. unfold prepare. cbn [f_route f_meta f_hits f_data r_event r_flags m_purge m_hit m_penalty m_conn m_derog m_comm].
  assert (FF : N.lor (N.ldiff (N.ldiff flags INTERNAL_FLAGS) (e_rclr (ic (conf_of c e)))) (e_radd (ic (conf_of c e))) = F) by (unfold F, final_flags; rewrite R; reflexivity).
  rewrite FF. destruct (flags_sensical F); cbn [negb]; [|cbn [bind]; rewrite N.lor_0_r; reflexivity].
  destruct (has F RF_IN_TABLE); [cbn [bind]; rewrite N.lor_0_r; reflexivity|]. rewrite Z.eqb_refl. cbn [negb andb bind].
  rewrite andb_true_r. unfold after_insert.
  match goal with |- context [count_on_insert 0 ?r] => assert (EQ : count_on_insert 0 r = new_route c now target e) end.
  { unfold count_on_insert, new_route, has. rewrite N.bits_0. cbn [andb bump]. cbn [f_route f_meta f_hits f_data m_insert m_hit m_penalty m_purge m_conn m_derog m_comm].
    unfold with_flags. cbn [r_family r_proto r_raddr r_rlen r_rport r_riface r_laddr r_llen r_lport r_liface r_flags r_event]. rewrite R.
    cbn [r_family r_proto r_raddr r_rlen r_rport r_riface r_laddr r_llen r_lport r_liface r_flags r_event].
    rewrite ?N.bits_0. unfold F. rewrite R. reflexivity. }
  rewrite EQ. destruct (h (N.setbit 0 AR_INSERTED)) as [ok ar1]. destruct (rt_insert t (f_route (new_route c now target e)) ok) as [x t1].
  destruct x; cbn [bind]; rewrite ?N.lor_0_r; reflexivity.
Qed.

Lemma new_route_tracks c now target e : tracks c target e (stored (f_route (new_route c now target e))).
Proof.
  unfold tracks. cbv zeta. unfold stored, new_route. cbn [f_route]. rewrite clamp_idem. unfold clamp_wildcard_fields, with_flags.
  cbn [r_family r_proto r_raddr r_rlen r_rport r_riface r_laddr r_llen r_lport r_liface r_flags r_event].
  split. { intros b. unfold stored_flags. destruct (N.eqb_spec b RF_IN_TABLE) as [->|NE]; [apply N.setbit_eq|].
    rewrite N.setbit_neq by congruence. apply final_bits. }
  unfold dropped, stored_flags, has. rewrite !final_bits. cbn [N.eqb RF_IN_TABLE RF_FAMILY_WILD RF_PROTO_WILD RF_RPORT_WILD RF_LPORT_WILD RF_RIFACE_WILD RF_LIFACE_WILD RF_RADDR_WILD RF_LADDR_WILD Pos.eqb].
  repeat split; reflexivity.
Qed.
Lemma insert_added t r t' : rt_insert t r true = (OK, t') -> added (t_routes t) (t_routes t') (stored r).
Proof.
  unfold rt_insert. destruct (negb (flags_sensical (r_flags r))); [discriminate|]. destruct (has (r_flags r) RF_IN_TABLE); [discriminate|]. cbv zeta.
  fold (stored r). destruct (seek (t_routes t) (stored r)) as [p x]. destruct (x =? 0)%Z; [discriminate|].
  match goal with |- (let '(_, _) := ?y in _) = _ -> _ => destruct y as [e' bm] end. destruct (is_success e') eqn:S'; cbn [negb]; [|intros Q; assert (e' = OK) by congruence; subst e'; discriminate S'].
  intros Q. match type of Q with (OK, ?y) = _ => assert (R : t' = y) by congruence end. subst t'. cbn [t_routes].
  exists (firstn p (t_routes t)), (skipn p (t_routes t)). split; [symmetry; apply firstn_skipn|reflexivity].
Qed.
Lemma insert_failed t r ok e t' : rt_insert t r ok = (e, t') -> (ok = false \/ e <> OK) -> t_routes t' = t_routes t.
Proof.
  intros H. pose proof (insert_cases t r ok) as IC. rewrite H in IC. destruct IC as [->|(p & x & bm & last & _ & _ & _ & _ & _ & [(-> & -> & ->)|(_ & ->)] & _)]; [reflexivity| |reflexivity].
  intros [X|X]; [discriminate|congruence].
Qed.
Lemma insert_not_ok t r e t' : rt_insert t r false = (e, t') -> e <> OK.
Proof.
  unfold rt_insert. destruct (negb (flags_sensical (r_flags r))); [intros Q E; congruence|]. destruct (has (r_flags r) RF_IN_TABLE); [intros Q E; congruence|]. cbv zeta.
  destruct (seek _ _) as [p x]. destruct (x =? 0)%Z; [intros Q E; congruence|].
  match goal with |- (let '(_, _) := ?y in _) = _ -> _ => destruct y as [e' bm] end. destruct (is_success e') eqn:S'; cbn [negb]; intros Q E; subst e; [congruence|].
  assert (e' = OK) by congruence. subst e'. discriminate S'.
Qed.
Lemma insert_free t r : rt_inv t -> route_ok r -> flags_sensical (r_flags r) = true -> has (r_flags r) RF_IN_TABLE = false ->
  has_bitmask r = false -> (forall x, In x (t_routes t) -> ~ same_key x (stored r)) -> fst (rt_insert t r true) = OK.
Proof.
  intros [So Ok _] RO SF NI NB NK. unfold rt_insert. rewrite SF, NI. cbn [negb]. cbv zeta. fold (stored r).
  pose proof (seek_spec _ (stored r) So Ok (stored_ok r RO)) as SP. destruct (seek (t_routes t) (stored r)) as [p x]. destruct SP as (_ & _ & P3).
  assert (X : x <> 0%Z).
  { destruct (nth_error (t_routes t) p) as [y|] eqn:E; [|destruct P3; lia]. destruct P3 as [-> _]. intros Z0. apply rcmp_0 in Z0. exact (NK y (nth_error_In _ _ E) Z0). }
  destruct (Z.eqb_spec x 0); [contradiction|].
  assert (HB : has_bitmask (stored r) = false).
  { unfold has_bitmask, stored, clamp_wildcard_fields, with_flags, has in *. cbn [r_flags] in *. rewrite !N.setbit_neq by discriminate. exact NB. }
  rewrite HB. reflexivity.
Qed.
