(** C14-C19: what a dispatch decides and how it counts. *)
From Verif Require Import Base RouteFlags Dispatch DispatchProofs.
Open Scope N_scope.

(** The situation when the decision about a matched route is taken, after the clock was read and the post and match
    actions (arbitrary code) ran: the route [s], its flags [cur], the results so far [ar]. *)
Definition situation (e : env) (s0 : rstate) (ar0 : N) (s : rstate) (cur ar : N) : Prop :=
  exists switched, before_verdict e s0 ar0 = (s, cur, ar, switched).
(** Update and decision actions that only observe: they change neither the route nor the bits the dispatcher decides. *)
Definition verdict_bit (k : N) : Prop := In k [AR_ACCEPT; AR_REJECT; AR_FALLTHROUGH; AR_PORT_RESET].
Definition observes (h : hook) : Prop := forall f, h = Some f -> forall s ar, fst (f s ar) = s /\ forall k, verdict_bit k -> has (snd (f s ar)) k = has ar k.
Definition observers (e : env) : Prop :=
  observes (h_update (e_parent e)) /\ observes (h_decision (e_parent e)) /\ observes (h_update (e_default e)) /\ observes (h_decision (e_default e)).
Definition no_mask (f : N) : Prop := has f RF_RADDR_BITMASK = false /\ has f RF_LADDR_BITMASK = false.
Definition time_of (e : env) : Z := match e_time e with Some t => t | None => 0%Z end.

Lemma verdict_bit_stop k : verdict_bit k -> AR_STOP <> k.
Proof. intros [<-|[<-|[<-|[<-|[]]]]]; discriminate. Qed.
Lemma observed h s ar : observes (h_update h) -> observes (h_decision h) ->
  let '(s', ar') := after_verdict h s ar in s' = s /\ forall k, verdict_bit k -> has ar' k = has ar k.
Proof.
  intros HU HD. unfold after_verdict.
  assert (U : let '(s1, ar1) := match h_update h with Some f => if has ar AR_UPDATE then f s (N.clearbit ar AR_STOP) else (s, ar) | None => (s, ar) end in
     s1 = s /\ forall k, verdict_bit k -> has ar1 k = has ar k).
  { destruct (h_update h) as [f|]; [|split; reflexivity]. destruct (has ar AR_UPDATE); [|split; reflexivity].
    destruct (HU f eq_refl s (N.clearbit ar AR_STOP)) as [E1 E2]. destruct (f s _) as [s1 ar1]. cbn [fst snd] in *. split; [exact E1|].
    intros k Hk. rewrite E2 by exact Hk. apply clear_other. apply verdict_bit_stop. exact Hk. }
  destruct (match h_update h with Some f => _ | None => _ end) as [s1 ar1]. destruct U as [-> U].
  destruct (h_decision h) as [f|]; [|split; [reflexivity|exact U]].
  destruct (HD f eq_refl s (N.clearbit ar1 AR_STOP)) as [E1 E2]. destruct (f s _) as [s2 ar2]. cbn [fst snd] in *. split; [exact E1|].
  intros k Hk. rewrite E2 by exact Hk. rewrite clear_other by (apply verdict_bit_stop; exact Hk). apply U. exact Hk.
Qed.
Lemma dispatch_verdict e tf s0 ar0 s cur ar : no_mask tf -> observers e -> situation e s0 ar0 s cur ar ->
  exists s' ar', dispatch_0 e tf s0 ar0 = (OK, s', ar') /\ s' = fst (verdict (e_config e) (e_policy e) (time_of e) (e_clock e) s cur ar) /\
    forall k, verdict_bit k -> has ar' k = has (snd (verdict (e_config e) (e_policy e) (time_of e) (e_clock e) s cur ar)) k.
Proof.
  intros [B1 B2] (O1 & O2 & O3 & O4) (sw & E). unfold dispatch_0. rewrite B1, B2, E. cbn [orb]. fold (time_of e).
  destruct (verdict _ _ _ _ s cur ar) as [s1 ar1].
  pose proof (observed (if sw then e_default e else e_parent e) s1 ar1) as OB.
  destruct (after_verdict _ s1 ar1) as [s2 ar2]. exists s2, ar2. split; [reflexivity|]. cbn [fst snd]. apply OB; destruct sw; assumption.
Qed.
Lemma vb_reject : verdict_bit AR_REJECT. Proof. right; left; reflexivity. Qed.
Lemma vb_accept : verdict_bit AR_ACCEPT. Proof. left; reflexivity. Qed.
Lemma vb_fall : verdict_bit AR_FALLTHROUGH. Proof. right; right; left; reflexivity. Qed.

(** The penalty box is in force: not lifted by this very event, and its time is not over (or is unlimited). *)
Definition box_in_force (e : env) (s : rstate) (cur ar : N) : Prop :=
  has cur RF_PENALTYBOXED = true /\
  ~ (has ar AR_COMMENDABLE = true /\ has (c_flags (e_config e)) EC_COMMENDABLE_CLEARS = true) /\
  (c_box_duration (e_config e) <= 0 \/ s_boxed_at s = 0 \/ time_of e - s_boxed_at s <= c_box_duration (e_config e))%Z.

(** C14: traffic on a boxed route is rejected; it is accepted only if the caller or an action had said so before. *)
Theorem C14_boxed_rejected : forall e tf s0 ar0 s cur ar,
  no_mask tf -> observers e -> situation e s0 ar0 s cur ar -> box_in_force e s cur ar ->
  exists s' ar', dispatch_0 e tf s0 ar0 = (OK, s', ar') /\ has ar' AR_REJECT = true /\ has ar' AR_ACCEPT = has ar AR_ACCEPT /\ s_flags s' = s_flags s.
Proof.
  intros e tf s0 ar0 s cur ar NM OB SI (B & NC & T). destruct (dispatch_verdict e tf s0 ar0 s cur ar NM OB SI) as (s' & ar' & D & -> & V).
  do 2 eexists. split; [exact D|]. rewrite !V by (apply vb_reject || apply vb_accept). clear V D.
  pose proof (verdict_bits (e_config e) (e_policy e) (time_of e) (e_clock e) s cur ar) as VB.
  destruct (verdict _ _ _ _ s cur ar) as [s1 ar1]. cbn [fst snd].
  pose proof (count_spec (e_config e) s cur ar) as CS. destruct (count _ s cur ar) as [[s2 ar2] over]. destruct CS as (F & BA & _ & ->).
  assert (NC' : has ar AR_COMMENDABLE && has (c_flags (e_config e)) EC_COMMENDABLE_CLEARS = false) by (apply andb_false_iff; destruct (has ar AR_COMMENDABLE), (has (c_flags (e_config e)) EC_COMMENDABLE_CLEARS); auto; exfalso; apply NC; auto).
  destruct over.
  - destruct VB as (-> & VB & _). rewrite !VB by discriminate. rewrite set_same, set_other by discriminate. repeat split; auto.
  - rewrite release_boxed in VB; [|exact B|exact NC'|rewrite BA; exact T]. unfold decide in VB. rewrite B in VB. destruct VB as (-> & VB & _).
    rewrite !VB by discriminate. rewrite set_same, set_other by discriminate. repeat split; auto.
Qed.
(** Green-listed traffic is accepted, unless this event reaches a threshold or the connection limit. *)
Definition within_limits (c : econfig) (s : rstate) (cur ar : N) : Prop :=
  let '(s1, _, over) := count c s cur ar in over = false /\ over_threshold c s1 = false.
Theorem C14_greenlisted_accepted : forall e tf s0 ar0 s cur ar,
  no_mask tf -> observers e -> situation e s0 ar0 s cur ar ->
  has cur RF_GREENLISTED = true -> has cur RF_PENALTYBOXED = false -> within_limits (e_config e) s cur ar ->
  exists s' ar', dispatch_0 e tf s0 ar0 = (OK, s', ar') /\ has ar' AR_ACCEPT = true /\ has ar' AR_REJECT = has ar AR_REJECT.
Proof.
  intros e tf s0 ar0 s cur ar NM OB SI G NB WL. destruct (dispatch_verdict e tf s0 ar0 s cur ar NM OB SI) as (s' & ar' & D & -> & V).
  do 2 eexists. split; [exact D|]. rewrite !V by (apply vb_reject || apply vb_accept). clear V D.
  pose proof (verdict_bits (e_config e) (e_policy e) (time_of e) (e_clock e) s cur ar) as VB.
  destruct (verdict _ _ _ _ s cur ar) as [s1 ar1]. cbn [fst snd]. unfold within_limits in WL.
  pose proof (count_spec (e_config e) s cur ar) as CS. destruct (count _ s cur ar) as [[s2 ar2] over]. destruct CS as (F & BA & _ & ->). destruct WL as [-> OT].
  rewrite release_unboxed in VB by exact NB. unfold decide in VB. rewrite NB, OT, G in VB. destruct VB as (-> & VB & _).
  rewrite !VB by discriminate. rewrite set_same, set_other by discriminate. split; reflexivity.
Qed.
(** A green-listed route with too many derogatory observations is rejected. *)
Definition nohooks : hooks := {| h_post := None; h_match := None; h_update := None; h_decision := None |}.
Definition mkenv (now : Z) (policy : N) (c : econfig) : env :=
  {| e_time := Some now; e_clock := Some now; e_policy := policy; e_config := c; e_trigger := nohooks; e_parent := nohooks; e_default := nohooks; e_fallthrough := None |}.
Definition bit (k : N) : N := N.shiftl 1 k.
Definition in_table_route (extra : N) : rstate := mkR (N.lor (N.lor (bit RF_IN) (bit RF_IN_TABLE)) extra) 0 0 0 0 0%Z 0%Z.
Lemma nohooks_observers now policy c : observers (mkenv now policy c).
Proof. split; [|split; [|split]]; intros f H; discriminate H. Qed.
Theorem C14_threshold_beats_greenlist :
  exists e s0 ar0, observers e /\ has (s_flags s0) RF_GREENLISTED = true /\ has (s_flags s0) RF_PENALTYBOXED = false /\
    exists s' ar', dispatch_0 e 0 s0 ar0 = (OK, s', ar') /\ has ar' AR_ACCEPT = false /\ has ar' AR_REJECT = true.
Proof.
  exists (mkenv 100 (bit AR_ACCEPT) (mkC 0 1 0 0 0 0)), (in_table_route (bit RF_GREENLISTED)), (bit AR_DEROGATORY).
  split; [apply nohooks_observers|]. split; [reflexivity|]. split; [reflexivity|]. do 2 eexists. split; [reflexivity|]. split; reflexivity.
Qed.
(** The dispatcher never chooses both: if at most one of ACCEPT and REJECT is set when the decision is taken and the
    default policy is not contradictory, then not both are set afterwards, unless ACCEPT came from elsewhere. *)
Theorem C14_not_both : forall e tf s0 ar0 s cur ar,
  no_mask tf -> observers e -> situation e s0 ar0 s cur ar ->
  has ar AR_ACCEPT = false -> has ar AR_REJECT = false -> has (e_policy e) AR_ACCEPT && has (e_policy e) AR_REJECT = false ->
  exists s' ar', dispatch_0 e tf s0 ar0 = (OK, s', ar') /\ has ar' AR_ACCEPT && has ar' AR_REJECT = false.
Proof.
  intros e tf s0 ar0 s cur ar NM OB SI NA NR P. destruct (dispatch_verdict e tf s0 ar0 s cur ar NM OB SI) as (s' & ar' & D & -> & V).
  do 2 eexists. split; [exact D|]. rewrite !V by (apply vb_reject || apply vb_accept). clear V D.
  pose proof (verdict_bits (e_config e) (e_policy e) (time_of e) (e_clock e) s cur ar) as VB.
  destruct (verdict _ _ _ _ s cur ar) as [s1 ar1]. cbn [fst snd].
  pose proof (count_spec (e_config e) s cur ar) as CS. destruct (count _ s cur ar) as [[s2 ar2] over]. destruct CS as (F & BA & _ & ->).
  destruct over.
  - destruct VB as (_ & VB & _). rewrite !VB by discriminate. rewrite (set_other ar AR_REJECT AR_ACCEPT), NA by discriminate. reflexivity.
  - pose proof (release_bits (e_config e) (time_of e) (e_clock e) s2 cur ar AR_ACCEPT ltac:(discriminate)) as RA.
    pose proof (release_bits (e_config e) (time_of e) (e_clock e) s2 cur ar AR_REJECT ltac:(discriminate)) as RR.
    destruct (release _ _ _ s2 cur ar) as [[s3 cur3] ar3]. cbn [snd] in RA, RR. rewrite NA in RA. rewrite NR in RR.
    unfold decide in VB. destruct (has cur3 RF_PENALTYBOXED).
    { destruct VB as (_ & VB & _). rewrite !VB by discriminate. rewrite (set_other ar3 AR_REJECT AR_ACCEPT), RA by discriminate. reflexivity. }
    destruct (over_threshold _ s3).
    { rewrite box_eq in VB. destruct VB as (_ & VB & _). rewrite !VB by discriminate. rewrite (set_other _ AR_REJECT AR_ACCEPT) by discriminate.
      destruct (_ =? _); [rewrite RA; reflexivity|]. rewrite (set_other ar3 AR_UPDATE AR_ACCEPT), RA by discriminate. reflexivity. }
    destruct (has cur3 RF_GREENLISTED).
    { destruct VB as (_ & VB & _). rewrite !VB by discriminate. rewrite (set_other ar3 AR_ACCEPT AR_REJECT), RR by discriminate. apply andb_false_r. }
    rewrite RA, RR in VB. cbn [orb] in VB. destruct VB as (_ & VB & _). rewrite !VB, !has_lor by discriminate.
    rewrite !set_other, RA, RR by discriminate. exact P.
Qed.
(** A boxed route in a table without actions: a fresh rejection. *)
Example C14_example :
  let e := mkenv 100 (bit AR_ACCEPT) (mkC 10 5 50 0 0 0) in
  let s := set_boxed_at (in_table_route (bit RF_PENALTYBOXED)) 60 in
  situation e s 0 (set_last_hit s 100) (s_flags s) 0 /\ box_in_force e (set_last_hit s 100) (s_flags s) 0 /\
  dispatch_0 e 0 s 0 = (OK, set_last_hit s 100, bit AR_REJECT).
Proof. split; [exists false; reflexivity|]. split; [|reflexivity]. split; [reflexivity|]. split; [intros [H _]; discriminate|]. right. right. cbn. lia. Qed.

(** C15: the number of tracked connections changes exactly so. *)
Definition counted (ar cur : N) : Prop := has ar AR_INSERTED = false /\ has ar AR_FALLTHROUGH = false /\ has cur RF_DONT_COUNT_CONN = false.
Definition spec_conns (max n : N) (ar : N) : N :=
  if has ar AR_CONNECT then (if n <? max then n + 1 else n)
  else if has ar AR_DISCONNECT then N.pred n else n.
Lemma verdict_conns c policy now clock s cur ar : counted ar cur -> c_max_conns c <= u16_max ->
  s_conns (fst (verdict c policy now clock s cur ar)) = spec_conns (c_max_conns c) (s_conns s) ar /\
  (has ar AR_CONNECT = true -> c_max_conns c <= s_conns s -> has (snd (verdict c policy now clock s cur ar)) AR_REJECT = true).
Proof.
  intros (N1 & N2 & N3) MX.
  assert (DEC : forall s cur ar, s_conns (fst (fst (decide c policy clock s cur ar))) = s_conns s).
  { intros s1 cur1 ar1. unfold decide. destruct (has cur1 RF_PENALTYBOXED); [reflexivity|]. destruct (over_threshold c s1).
    - rewrite box_eq. cbn. unfold boxed. destruct (has (s_flags s1) RF_PENALTYBOXED), clock; reflexivity.
    - destruct (has cur1 RF_GREENLISTED); [reflexivity|]. destruct (_ || _); reflexivity. }
  assert (CC : let '(s1, ar1, over) := count c s cur ar in s_conns s1 = spec_conns (c_max_conns c) (s_conns s) ar /\
      (has ar AR_CONNECT = true -> c_max_conns c <= s_conns s -> over = true)).
  { unfold count. rewrite N1, N2, N3. cbn [orb]. cbv zeta. unfold spec_conns, connect.
    set (s' := if has ar AR_DEROGATORY then _ else s). assert (E' : s_conns s' = s_conns s) by (unfold s'; destruct (has ar AR_DEROGATORY); reflexivity).
    assert (CM : forall x, s_conns (if has ar AR_COMMENDABLE then (if has (c_flags c) EC_COMMENDABLE_CLEARS then set_derog (set_commend x (fst (incr_safely u16_max (s_commend x)))) 0 else set_commend x (fst (incr_safely u16_max (s_commend x)))) else x) = s_conns x)
      by (intros x; destruct (has ar AR_COMMENDABLE), (has (c_flags c) EC_COMMENDABLE_CLEARS); reflexivity).
    destruct (has ar AR_CONNECT) eqn:EC.
    - rewrite E'. destruct (N.leb_spec (c_max_conns c) (s_conns s)) as [L|L]; cbn [negb].
      + destruct (N.ltb_spec (s_conns s) (c_max_conns c)); [lia|]. split; [exact E'|reflexivity].
      + destruct (N.ltb_spec (s_conns s) (c_max_conns c)); [|lia].
        assert (EM : (s_conns s + 1) mod 65536 = s_conns s + 1) by (apply N.mod_small; unfold u16_max in MX; lia). rewrite EM.
        destruct (N.ltb_spec (c_max_conns c) (s_conns s + 1)); [lia|]. cbn [negb]. rewrite CM. cbn [set_conns s_conns]. split; [reflexivity|lia].
    - destruct (has ar AR_DISCONNECT).
      + rewrite CM. cbn [set_conns s_conns]. rewrite E'. unfold decr_safely. destruct (N.ltb_spec (s_conns s) 1); cbn [fst]; (split; [lia|discriminate]).
      + rewrite CM, E'. split; [reflexivity|discriminate]. }
  unfold verdict. pose proof (count_spec c s cur ar) as CS. destruct (count c s cur ar) as [[s1 ar1] over]. destruct CC as [C1 C2]. destruct CS as (_ & _ & _ & ->).
  destruct over.
  - cbn [fst snd]. split; [exact C1|]. intros _ _. destruct (_ && _); [rewrite set_other by discriminate|]; apply set_same.
  - split.
    + pose proof (release_spec c now clock s1 cur ar) as R. destruct (release c now clock s1 cur ar) as [[s2 cur2] ar2].
      specialize (DEC s2 cur2 ar2). destruct (decide c policy clock s2 cur2 ar2) as [[s3 cur3] ar3]. cbn [fst] in *. rewrite DEC, <- C1.
      destruct R as [(-> & _)|(-> & _)]; reflexivity.
    + intros H1 H2. specialize (C2 H1 H2). discriminate.
Qed.
Theorem C15_connection_count_partial : forall e tf s0 ar0 s cur ar,
  no_mask tf -> observers e -> situation e s0 ar0 s cur ar -> counted ar cur -> 1 <= c_max_conns (e_config e) <= u16_max ->
  s_conns s <= c_max_conns (e_config e) ->
  exists s' ar', dispatch_0 e tf s0 ar0 = (OK, s', ar') /\
    s_conns s' = spec_conns (c_max_conns (e_config e)) (s_conns s) ar /\ s_conns s' <= c_max_conns (e_config e) /\
    (has ar AR_CONNECT = true -> s_conns s = c_max_conns (e_config e) -> has ar' AR_REJECT = true).
Proof.
  intros e tf s0 ar0 s cur ar NM OB SI CT MX LE. destruct (dispatch_verdict e tf s0 ar0 s cur ar NM OB SI) as (s' & ar' & D & -> & V).
  do 2 eexists. split; [exact D|]. rewrite V by apply vb_reject.
  destruct (verdict_conns (e_config e) (e_policy e) (time_of e) (e_clock e) s cur ar CT ltac:(lia)) as [C1 C2]. rewrite C1.
  split; [reflexivity|]. split; [|intros H1 H2; apply C2; [exact H1|lia]].
  unfold spec_conns. destruct (has ar AR_CONNECT); [destruct (N.ltb_spec (s_conns s) (c_max_conns (e_config e))); lia|]. destruct (has ar AR_DISCONNECT); lia.
Qed.
(** Any sequence of dispatches to a route of the table, without actions: never above the limit, and always the number of
    successful connects minus disconnects. *)
Definition quiet (e : env) : Prop :=
  h_post (e_trigger e) = None /\ h_match (e_parent e) = None /\ observers e /\ c_add (e_config e) = 0 /\ c_clear (e_config e) = 0.
Definition dispatch_all (c : econfig) (evs : list (env * N)) (s : rstate) : rstate :=
  fold_left (fun s ev => snd (fst (dispatch_0 (fst ev) 0 s (snd ev)))) evs s.
Lemma quiet_situation e s ar : quiet e -> has (s_flags s) RF_IN_TABLE = true ->
  exists s1 ar1, situation e s ar s1 (s_flags s) ar1 /\ s_flags s1 = s_flags s /\ s_conns s1 = s_conns s /\ (forall k, k <> AR_ERROR -> has ar1 k = has ar k).
Proof.
  intros (Q1 & Q2 & _ & Q3 & Q4) IT. unfold situation, before_verdict. rewrite Q1, Q3, Q4.
  destruct (e_time e) as [t|]; destruct (e_fallthrough e) as [f|]; rewrite ?IT; rewrite Q2.
  all: do 2 eexists; (split; [exists false; rewrite ?N.lor_0_r, ?N.ldiff_0_r; reflexivity|]); (split; [reflexivity|]); (split; [reflexivity|]); intros k Hk; try reflexivity; apply set_other; congruence.
Qed.
Lemma verdict_flags c policy now clock s cur ar k : k <> RF_PENALTYBOXED -> has (s_flags (fst (verdict c policy now clock s cur ar))) k = has (s_flags s) k.
Proof.
  intros NK. pose proof (verdict_bits c policy now clock s cur ar) as VB. destruct (verdict c policy now clock s cur ar) as [s' ar']. cbn [fst].
  pose proof (count_spec c s cur ar) as CS. destruct (count c s cur ar) as [[s1 ar1] over]. destruct CS as (F & _).
  destruct over; [destruct VB as (-> & _); rewrite F; reflexivity|].
  pose proof (release_spec c now clock s1 cur ar1) as R. destruct (release c now clock s1 cur ar1) as [[s2 cur2] ar2].
  assert (F2 : has (s_flags s2) k = has (s_flags s) k).
  { destruct R as [(-> & _)|(-> & _)]; [rewrite F; reflexivity|]. rewrite unboxed_flags, F. destruct (N.eqb_spec RF_PENALTYBOXED k); [congruence|]. apply andb_true_r. }
  unfold decide in VB. destruct (has cur2 RF_PENALTYBOXED); [destruct VB as (-> & _); exact F2|]. destruct (over_threshold c s2).
  - rewrite box_eq in VB. destruct VB as (-> & _). cbn [is_success set_commend set_derog s_flags]. rewrite boxed_flags, F2. destruct (N.eqb_spec RF_PENALTYBOXED k); [congruence|]. apply orb_false_r.
  - destruct (has cur2 RF_GREENLISTED); [destruct VB as (-> & _); exact F2|]. destruct (_ || _); destruct VB as (-> & _); exact F2.
Qed.
Theorem C15_all_histories_partial : forall max evs s,
  1 <= max <= u16_max -> s_conns s <= max -> has (s_flags s) RF_IN_TABLE = true -> has (s_flags s) RF_DONT_COUNT_CONN = false ->
  Forall (fun ev => quiet (fst ev) /\ c_max_conns (e_config (fst ev)) = max /\ has (snd ev) AR_INSERTED = false /\ has (snd ev) AR_FALLTHROUGH = false) evs ->
  let s' := fold_left (fun s ev => snd (fst (dispatch_0 (fst ev) 0 s (snd ev)))) evs s in
  s_conns s' <= max /\ s_conns s' = fold_left (fun n ev => spec_conns max n (snd ev)) evs (s_conns s).
Proof.
  intros max evs. induction evs as [|[e ar] evs IH]; intros s MX LE IT DC F; cbn [fold_left]; [split; [exact LE|reflexivity]|].
  inversion F as [|? ? H F']; subst. cbn [fst snd] in *. destruct H as (Q & M & N1 & N2).
  destruct (quiet_situation e s ar Q IT) as (s1 & ar1 & SI & F1 & C1 & A1).
  assert (CT : counted ar1 (s_flags s)) by (repeat split; [rewrite A1 by discriminate; exact N1|rewrite A1 by discriminate; exact N2|exact DC]).
  destruct (C15_connection_count_partial e 0 s ar s1 (s_flags s) ar1 ltac:(split; reflexivity) (proj1 (proj2 (proj2 Q))) SI CT ltac:(lia) ltac:(lia)) as (s' & ar' & D & C2 & C3 & _).
  destruct (dispatch_verdict e 0 s ar s1 (s_flags s) ar1 ltac:(split; reflexivity) (proj1 (proj2 (proj2 Q))) SI) as (s'' & ar'' & D' & V & _).
  rewrite D in D'. assert (ES : s'' = s') by congruence. rewrite ES in V. clear D' ES s''. rewrite D. cbn [fst snd].
  assert (SP : forall n, spec_conns max n ar = spec_conns max n ar1) by (intros n; unfold spec_conns; rewrite !A1 by discriminate; reflexivity).
  rewrite SP, <- C1, <- M, <- C2. rewrite M. apply IH; [exact MX|lia| | |exact F'].
  - rewrite V, verdict_flags, F1 by discriminate. exact IT.
  - rewrite V, verdict_flags, F1 by discriminate. exact DC.
Qed.
(** "If nonzero, the concurrent connection limit": with zero every connection is rejected instead. *)
Theorem C15_zero_is_unlimited_refuted :
  exists e s0, observers e /\ c_max_conns (e_config e) = 0 /\ s_conns s0 = 0 /\ has (s_flags s0) RF_PENALTYBOXED = false /\
    exists s' ar', dispatch_0 e 0 s0 (bit AR_CONNECT) = (OK, s', ar') /\ has ar' AR_REJECT = true /\ s_conns s' = 0.
Proof.
  exists (mkenv 100 (bit AR_ACCEPT) (mkC 0 0 0 0 0 0)), (in_table_route 0). split; [apply nohooks_observers|]. repeat split. do 2 eexists. split; [reflexivity|]. split; reflexivity.
Qed.
(** A limit above 65535 (the member is 32 bits wide) lets the 16-bit counter wrap to zero. *)
Theorem C15_no_wrap_refuted :
  exists e s0, observers e /\ c_max_conns (e_config e) = 100000 /\ s_conns s0 = 65535 /\
    exists s' ar', dispatch_0 e 0 s0 (bit AR_CONNECT) = (OK, s', ar') /\ s_conns s' = 0 /\ has ar' AR_REJECT = false.
Proof.
  exists (mkenv 100 (bit AR_ACCEPT) (mkC 100000 0 0 0 0 0)), (set_conns (in_table_route 0) 65535). split; [apply nohooks_observers|]. repeat split. do 2 eexists. split; [reflexivity|]. split; reflexivity.
Qed.
(** A connection attempt that is rejected because the route is boxed still occupies a connection. *)
Theorem C15_rejected_not_counted_refuted :
  exists e s0, observers e /\ c_max_conns (e_config e) = 10 /\ s_conns s0 = 0 /\
    exists s' ar', dispatch_0 e 0 s0 (bit AR_CONNECT) = (OK, s', ar') /\ s_conns s' = 1 /\ has ar' AR_REJECT = true.
Proof.
  exists (mkenv 100 (bit AR_ACCEPT) (mkC 10 0 0 0 0 0)), (in_table_route (bit RF_PENALTYBOXED)). split; [apply nohooks_observers|]. repeat split. do 2 eexists. split; [reflexivity|]. split; reflexivity.
Qed.
Example C15_example :
  let ev k := (mkenv 100 (bit AR_ACCEPT) (mkC 2 0 0 0 0 0), bit k) in
  s_conns (fold_left (fun s ev => snd (fst (dispatch_0 (fst ev) 0 s (snd ev)))) [ev AR_CONNECT; ev AR_CONNECT; ev AR_CONNECT; ev AR_DISCONNECT] (in_table_route 0)) = 1 /\
  quiet (fst (ev AR_CONNECT)).
Proof. split; [reflexivity|]. split; [reflexivity|]. split; [reflexivity|]. split; [apply nohooks_observers|]. split; reflexivity. Qed.

(** C16: a derogatory observation that brings the balance to the threshold boxes the route, rejects the traffic and
    starts the counts over; otherwise the route is not boxed by the dispatch. *)
Definition balance_reached (c : econfig) (derog commend : N) : Prop :=
  if has (c_flags c) EC_IGNORE_COMMENDABLE then c_threshold c <= derog else (Z.of_N (c_threshold c) <= Z.of_N derog - Z.of_N commend)%Z.
Lemma over_threshold_spec c s : over_threshold c s = true <-> 0 < c_threshold c /\ balance_reached c (s_derog s) (s_commend s).
Proof.
  unfold over_threshold, balance_reached. rewrite andb_true_iff, N.ltb_lt. destruct (has (c_flags c) EC_IGNORE_COMMENDABLE); [rewrite N.leb_le|rewrite Z.leb_le]; reflexivity.
Qed.
(** Observations made by this event. *)
Definition new_derog (c : econfig) (s : rstate) (ar : N) : N :=
  if has ar AR_COMMENDABLE && has (c_flags c) EC_COMMENDABLE_CLEARS then 0
  else if has ar AR_DEROGATORY then N.min (s_derog s + 1) u16_max else s_derog s.
Definition new_commend (s : rstate) (ar : N) : N := if has ar AR_COMMENDABLE then N.min (s_commend s + 1) u16_max else s_commend s.
Lemma incr_min i : i <= u16_max -> fst (incr_safely u16_max i) = N.min (i + 1) u16_max.
Proof. intros H. unfold incr_safely. destruct (N.ltb_spec (u16_max - i) 1); cbn [fst]; lia. Qed.
Lemma count_counts c s cur ar : has ar AR_INSERTED = false -> has ar AR_FALLTHROUGH = false -> has ar AR_CONNECT = false ->
  s_derog s <= u16_max -> s_commend s <= u16_max ->
  let '(s1, _, over) := count c s cur ar in over = false /\ s_derog s1 = new_derog c s ar /\ s_commend s1 = new_commend s ar.
Proof.
  intros N1 N2 N3 H1 H2. unfold count, new_derog, new_commend. rewrite N1, N2, N3. cbn [orb]. cbv zeta.
  destruct (has ar AR_DEROGATORY), (has cur RF_DONT_COUNT_CONN), (has ar AR_DISCONNECT), (has ar AR_COMMENDABLE), (has (c_flags c) EC_COMMENDABLE_CLEARS);
    cbn [andb set_derog set_conns set_commend s_derog s_commend s_conns]; rewrite ?incr_min by assumption; repeat split; reflexivity.
Qed.
Theorem C16_threshold : forall e tf s0 ar0 s cur ar,
  no_mask tf -> observers e -> situation e s0 ar0 s cur ar -> cur = s_flags s -> has cur RF_PENALTYBOXED = false ->
  has ar AR_INSERTED = false -> has ar AR_FALLTHROUGH = false -> has ar AR_CONNECT = false ->
  s_derog s <= u16_max -> s_commend s <= u16_max ->
  exists s' ar', dispatch_0 e tf s0 ar0 = (OK, s', ar') /\
    (0 < c_threshold (e_config e) /\ balance_reached (e_config e) (new_derog (e_config e) s ar) (new_commend s ar) ->
       has (s_flags s') RF_PENALTYBOXED = true /\ has ar' AR_REJECT = true /\ s_derog s' = 0 /\ s_commend s' = 0 /\
       (forall t, e_clock e = Some t -> s_boxed_at s' = t)) /\
    (~ (0 < c_threshold (e_config e) /\ balance_reached (e_config e) (new_derog (e_config e) s ar) (new_commend s ar)) ->
       has (s_flags s') RF_PENALTYBOXED = false /\ s_derog s' = new_derog (e_config e) s ar /\ s_commend s' = new_commend s ar).
Proof.
  intros e tf s0 ar0 s cur ar NM OB SI EC NB N1 N2 N3 H1 H2. destruct (dispatch_verdict e tf s0 ar0 s cur ar NM OB SI) as (s' & ar' & D & -> & V).
  do 2 eexists. split; [exact D|]. rewrite V by apply vb_reject. clear V D.
  pose proof (verdict_bits (e_config e) (e_policy e) (time_of e) (e_clock e) s cur ar) as VB.
  destruct (verdict _ _ _ _ s cur ar) as [s1 ar1]. cbn [fst snd].
  pose proof (count_counts (e_config e) s cur ar N1 N2 N3 H1 H2) as CC. pose proof (count_spec (e_config e) s cur ar) as CS.
  destruct (count _ s cur ar) as [[s2 ar2] over]. destruct CS as (F & BA & _ & ->). destruct CC as (-> & DR & CM).
  rewrite release_unboxed in VB by exact NB. unfold decide in VB. rewrite NB in VB.
  pose proof (over_threshold_spec (e_config e) s2) as OT. rewrite DR, CM in OT.
  assert (F2 : has (s_flags s2) RF_PENALTYBOXED = false) by (rewrite F, <- EC; exact NB).
  destruct (over_threshold (e_config e) s2).
  - split; [|intros Q; exfalso; apply Q; apply OT; reflexivity]. intros _. rewrite box_eq in VB. destruct VB as (-> & VB & _). rewrite VB by discriminate.
    cbn [is_success set_commend set_derog s_flags s_derog s_commend s_boxed_at]. rewrite boxed_flags, N.eqb_refl, orb_true_r. rewrite set_same. repeat split.
    intros t Ht. unfold boxed. rewrite F2, Ht. reflexivity.
  - split; [intros Q; apply OT in Q; discriminate|]. intros _.
    assert (ES : s1 = s2) by (destruct (has cur RF_GREENLISTED); [|destruct (_ || _)]; destruct VB as (-> & _); reflexivity). subst s1. repeat split; assumption.
Qed.
Example C16_example :
  let e := mkenv 100 (bit AR_ACCEPT) (mkC 10 3 50 0 0 0) in
  let s := set_derog (in_table_route 0) 2 in
  exists s', dispatch_0 e 0 s (bit AR_DEROGATORY) = (OK, s', bit AR_DEROGATORY + bit AR_REJECT + bit AR_UPDATE) /\ has (s_flags s') RF_PENALTYBOXED = true /\
  snd (fst (dispatch_0 e 0 (set_derog s 1) (bit AR_DEROGATORY))) = set_last_hit (set_derog s 2) 100.
Proof. eexists. split; [reflexivity|]. split; reflexivity. Qed.

(** C17: a box with a time stamp ends exactly when its duration is over. *)
Theorem C17_box_expires : forall e tf s0 ar0 s cur ar,
  no_mask tf -> observers e -> situation e s0 ar0 s cur ar -> cur = s_flags s -> has cur RF_PENALTYBOXED = true ->
  (0 < c_box_duration (e_config e))%Z -> s_boxed_at s <> 0%Z ->
  ~ (has ar AR_COMMENDABLE = true /\ has (c_flags (e_config e)) EC_COMMENDABLE_CLEARS = true) ->
  has ar AR_CONNECT = false -> (* a connection over the limit ends the dispatch early *)
  (forall s1, s_derog s1 = s_derog s \/ s_derog s1 = s_derog s + 1 -> over_threshold (e_config e) s1 = false) -> (* no second boxing by the same event *)
  exists s' ar', dispatch_0 e tf s0 ar0 = (OK, s', ar') /\
    (has (s_flags s') RF_PENALTYBOXED = true <-> (time_of e <= s_boxed_at s + c_box_duration (e_config e))%Z).
Proof.
  intros e tf s0 ar0 s cur ar NM OB SI EC B D0 Q0 NC NCON NT. destruct (dispatch_verdict e tf s0 ar0 s cur ar NM OB SI) as (s' & ar' & D & -> & V).
  do 2 eexists. split; [exact D|]. clear V D.
  pose proof (verdict_bits (e_config e) (e_policy e) (time_of e) (e_clock e) s cur ar) as VB.
  destruct (verdict _ _ _ _ s cur ar) as [s1 ar1]. cbn [fst snd].
  assert (CD : let '(s2, _, over) := count (e_config e) s cur ar in over = false /\ (s_derog s2 = s_derog s \/ s_derog s2 = s_derog s + 1)).
  { unfold count. destruct (has ar AR_INSERTED || has ar AR_FALLTHROUGH); [auto|]. rewrite NCON. cbv zeta.
    assert (NC' : has ar AR_COMMENDABLE = true -> has (c_flags (e_config e)) EC_COMMENDABLE_CLEARS = false) by (intros HC; destruct (has (c_flags (e_config e)) EC_COMMENDABLE_CLEARS); [exfalso; apply NC; auto|reflexivity]).
    assert (IS : forall i, fst (incr_safely u16_max i) = i \/ fst (incr_safely u16_max i) = i + 1) by (intros i; unfold incr_safely; destruct (_ <? _); auto).
    destruct (has ar AR_DEROGATORY), (has cur RF_DONT_COUNT_CONN), (has ar AR_DISCONNECT), (has ar AR_COMMENDABLE);
      try rewrite (NC' eq_refl); cbn [set_derog set_conns set_commend s_derog s_commend s_conns]; split; auto. }
  pose proof (count_spec (e_config e) s cur ar) as CS. destruct (count _ s cur ar) as [[s2 ar2] over]. destruct CD as [-> CD]. destruct CS as (F & BA & _ & ->).
  assert (NC' : has ar AR_COMMENDABLE && has (c_flags (e_config e)) EC_COMMENDABLE_CLEARS = false) by (apply andb_false_iff; destruct (has ar AR_COMMENDABLE), (has (c_flags (e_config e)) EC_COMMENDABLE_CLEARS); auto; exfalso; apply NC; auto).
  destruct (Z.le_gt_cases (time_of e) (s_boxed_at s + c_box_duration (e_config e))) as [T|T].
  - rewrite release_boxed in VB; [|exact B|exact NC'|right; right; rewrite BA; lia]. unfold decide in VB. rewrite B in VB. destruct VB as (-> & _).
    rewrite F, <- EC. split; auto.
  - pose proof (release_expired (e_config e) (time_of e) (e_clock e) s2 cur ar B D0 ltac:(rewrite BA; exact Q0) ltac:(rewrite BA; lia)) as R.
    destruct (release _ _ _ s2 cur ar) as [[s3 cur3] ar3]. destruct R as (-> & -> & NB3). unfold decide in VB. rewrite NB3, NT in VB by exact CD.
    assert (ES : s1 = unboxed s2) by (destruct (has _ RF_GREENLISTED); [|destruct (_ || _)]; destruct VB as (-> & _); reflexivity). subst s1. split; [congruence|lia].
Qed.
(** With no duration configured the box never ends by itself. *)
Theorem C17_unlimited_box : forall e tf s0 ar0 s cur ar,
  no_mask tf -> observers e -> situation e s0 ar0 s cur ar -> cur = s_flags s -> has cur RF_PENALTYBOXED = true ->
  c_box_duration (e_config e) = 0%Z -> ~ (has ar AR_COMMENDABLE = true /\ has (c_flags (e_config e)) EC_COMMENDABLE_CLEARS = true) ->
  exists s' ar', dispatch_0 e tf s0 ar0 = (OK, s', ar') /\ has (s_flags s') RF_PENALTYBOXED = true /\ has ar' AR_REJECT = true.
Proof.
  intros e tf s0 ar0 s cur ar NM OB SI EC B D0 NC.
  destruct (C14_boxed_rejected e tf s0 ar0 s cur ar NM OB SI) as (s' & ar' & D & R & _ & F); [split; [exact B|split; [exact NC|left; lia]]|].
  exists s', ar'. split; [exact D|]. split; [rewrite F, <- EC; exact B|exact R].
Qed.
(** A route that was put in the box when it was inserted (flag given by the caller or by route_flags_to_add_on_insert) has no
    time stamp and is never released, whatever the duration. *)
Theorem C17_box_expires_refuted : forall duration later,
  (0 < duration)%Z -> exists e s0, quiet e /\ time_of e = later /\ c_box_duration (e_config e) = duration /\
    s_boxed_at s0 = 0%Z /\ has (s_flags s0) RF_PENALTYBOXED = true /\
    exists s' ar', dispatch_0 e 0 s0 0 = (OK, s', ar') /\ has (s_flags s') RF_PENALTYBOXED = true /\ has ar' AR_REJECT = true.
Proof.
  intros duration later HD. exists (mkenv later (bit AR_ACCEPT) (mkC 0 0 duration 0 0 0)), (in_table_route (bit RF_PENALTYBOXED)).
  split; [split; [reflexivity|split; [reflexivity|split; [apply nohooks_observers|split; reflexivity]]]|]. repeat split.
  eexists. eexists. split; [|split; [|]].
  - unfold dispatch_0, before_verdict, verdict, release. cbn. rewrite andb_false_r. reflexivity.
  - reflexivity.
  - reflexivity.
Qed.
Example C17_example :
  let s := set_boxed_at (in_table_route (bit RF_PENALTYBOXED)) 60 in
  let after now := s_flags (snd (fst (dispatch_0 (mkenv now (bit AR_ACCEPT) (mkC 0 0 50 0 0 0)) 0 s 0))) in
  has (after 110%Z) RF_PENALTYBOXED = true /\ has (after 111%Z) RF_PENALTYBOXED = false.
Proof. split; reflexivity. Qed.

(** C18: the default policy decides when nothing else does. *)
Theorem C18_no_route : forall e tf ar, has ar AR_ACCEPT = false -> has ar AR_REJECT = false ->
  exists ar', dispatch_1 e tf None ar = (S_USED_FALLBACK, None, ar') /\
    has ar' AR_ACCEPT = has (e_policy e) AR_ACCEPT /\ has ar' AR_REJECT = has (e_policy e) AR_REJECT /\ has ar' AR_FALLTHROUGH = true.
Proof.
  intros e tf ar HA HR. eexists. split; [reflexivity|]. rewrite set_same, !set_other, !has_lor, HA, HR by discriminate. repeat split; reflexivity.
Qed.
Theorem C18_undecided_route : forall e tf s0 ar0 s cur ar,
  no_mask tf -> observers e -> situation e s0 ar0 s cur ar ->
  has ar AR_ACCEPT = false -> has ar AR_REJECT = false ->
  has cur RF_PENALTYBOXED = false -> has cur RF_GREENLISTED = false -> within_limits (e_config e) s cur ar ->
  exists s' ar', dispatch_0 e tf s0 ar0 = (OK, s', ar') /\
    has ar' AR_ACCEPT = has (e_policy e) AR_ACCEPT /\ has ar' AR_REJECT = has (e_policy e) AR_REJECT /\ has ar' AR_FALLTHROUGH = true.
Proof.
  intros e tf s0 ar0 s cur ar NM OB SI HA HR NB NG WL. destruct (dispatch_verdict e tf s0 ar0 s cur ar NM OB SI) as (s' & ar' & D & -> & V).
  do 2 eexists. split; [exact D|]. rewrite !V by (apply vb_reject || apply vb_accept || apply vb_fall). clear V D.
  pose proof (verdict_bits (e_config e) (e_policy e) (time_of e) (e_clock e) s cur ar) as VB.
  destruct (verdict _ _ _ _ s cur ar) as [s1 ar1]. cbn [fst snd]. unfold within_limits in WL.
  pose proof (count_spec (e_config e) s cur ar) as CS. destruct (count _ s cur ar) as [[s2 ar2] over]. destruct CS as (F & BA & _ & ->). destruct WL as [-> OT].
  rewrite release_unboxed in VB by exact NB. unfold decide in VB. rewrite NB, OT, NG, HA, HR in VB. cbn [orb] in VB. destruct VB as (-> & VB & _).
  rewrite !VB, !has_lor by discriminate. rewrite set_same, !set_other, HA, HR by discriminate. repeat split; reflexivity.
Qed.
(** A decided event is not overridden by the policy. *)
Theorem C18_decided_keeps : forall e tf s0 ar0 s cur ar,
  no_mask tf -> observers e -> situation e s0 ar0 s cur ar ->
  has ar AR_ACCEPT || has ar AR_REJECT = true ->
  has cur RF_PENALTYBOXED = false -> has cur RF_GREENLISTED = false -> within_limits (e_config e) s cur ar ->
  exists s' ar', dispatch_0 e tf s0 ar0 = (OK, s', ar') /\
    has ar' AR_ACCEPT = has ar AR_ACCEPT /\ has ar' AR_REJECT = has ar AR_REJECT.
Proof.
  intros e tf s0 ar0 s cur ar NM OB SI HD NB NG WL. destruct (dispatch_verdict e tf s0 ar0 s cur ar NM OB SI) as (s' & ar' & D & -> & V).
  do 2 eexists. split; [exact D|]. rewrite !V by (apply vb_reject || apply vb_accept || apply vb_fall). clear V D.
  pose proof (verdict_bits (e_config e) (e_policy e) (time_of e) (e_clock e) s cur ar) as VB.
  destruct (verdict _ _ _ _ s cur ar) as [s1 ar1]. cbn [fst snd]. unfold within_limits in WL.
  pose proof (count_spec (e_config e) s cur ar) as CS. destruct (count _ s cur ar) as [[s2 ar2] over]. destruct CS as (F & BA & _ & ->). destruct WL as [-> OT].
  rewrite release_unboxed in VB by exact NB. unfold decide in VB. rewrite NB, OT, NG, HD in VB. destruct VB as (-> & VB & _).
  rewrite !VB by discriminate. split; reflexivity.
Qed.
Example C18_example :
  dispatch_0 (mkenv 100 (bit AR_REJECT) (mkC 10 3 0 0 0 0)) 0 (in_table_route 0) (bit AR_CONNECT) =
    (OK, set_conns (set_last_hit (in_table_route 0) 100) 1, bit AR_CONNECT + bit AR_REJECT + bit AR_FALLTHROUGH) /\
  dispatch_0 (mkenv 100 (bit AR_REJECT) (mkC 10 3 0 0 0 0)) 0 (in_table_route 0) (bit AR_ACCEPT) =
    (OK, set_last_hit (in_table_route 0) 100, bit AR_ACCEPT).
Proof. split; reflexivity. Qed.

(** C19: flag updates by the user. *)
Theorem C19_update_flags : forall s set clr clock ar e s' after ar',
  update_flags s set clr clock ar = (e, s', after, ar') ->
  (is_success e = false -> s' = s /\ ar' = ar) /\
  (is_success e = true -> s_flags s' = after /\ forall k, has (s_flags s') k = if has clr k then false else has s.(s_flags) k || has set k) /\
  has (s_flags s') RF_IN_TABLE = has (s_flags s) RF_IN_TABLE /\ has (s_flags s') RF_PENDING_DELETE = has (s_flags s) RF_PENDING_DELETE /\
  (has (s_flags s) RF_IN_TABLE = true -> forall k, k < 14 -> has (s_flags s') k = has (s_flags s) k).
Proof.
  intros s set clr clock ar e s' after ar' H. unfold update_flags in H.
  destruct (has set RF_PENALTYBOXED && has set RF_GREENLISTED).
  { assert (e = INVALID_ARG) by congruence. assert (s' = s) by congruence. assert (ar' = ar) by congruence. subst. repeat split; auto; discriminate. }
  destruct (anybit (N.lor set clr) PROTECTED_FLAGS) eqn:PR.
  { assert (e = NOT_PERMITTED) by congruence. assert (s' = s) by congruence. assert (ar' = ar) by congruence. subst. repeat split; auto; discriminate. }
  destruct (has (s_flags s) RF_IN_TABLE && anybit (N.lor set clr) IMMUTABLE_FLAGS) eqn:IM.
  { assert (e = NOT_PERMITTED) by congruence. assert (s' = s) by congruence. assert (ar' = ar) by congruence. subst. repeat split; auto; discriminate. }
  cbv zeta in H.
  assert (EF : s_flags s' = N.ldiff (N.lor (s_flags s) set) clr).
  { match type of H with (_, ?x, _, _) = _ => assert (s' = x) by congruence end. subst s'. clear -s. destruct (has (N.ldiff _ _) _ && negb _); [destruct clock|]; reflexivity. }
  assert (e = OK) by congruence. subst e. split; [discriminate|].
  assert (NB : forall m, anybit (N.lor set clr) m = false -> forall k, has m k = true -> has set k = false /\ has clr k = false).
  { intros m Hm k Hk. unfold anybit in Hm. apply negb_false_iff, N.eqb_eq in Hm.
    assert (Z : has (N.land (N.lor set clr) m) k = false) by (rewrite Hm; apply has_0). unfold has in *. rewrite N.land_spec, N.lor_spec, Hk, andb_true_r in Z. apply orb_false_iff. exact Z. }
  assert (KEEP : forall k, has set k = false -> has clr k = false -> has (s_flags s') k = has (s_flags s) k).
  { intros k H1 H2. rewrite EF, has_ldiff, has_lor, H1, H2, orb_false_r. apply andb_true_r. }
  split; [|split; [|split]].
  - intros _. split; [rewrite EF; congruence|]. intros k. rewrite EF, has_ldiff, has_lor. destruct (has clr k); [apply andb_false_r|apply andb_true_r].
  - destruct (NB _ PR RF_IN_TABLE eq_refl). apply KEEP; assumption.
  - destruct (NB _ PR RF_PENDING_DELETE eq_refl). apply KEEP; assumption.
  - intros IT k Hk. rewrite IT in IM. cbn [andb] in IM. destruct (NB _ IM k) as [A B]; [|apply KEEP; assumption].
    unfold has. change IMMUTABLE_FLAGS with (N.ones 14). apply N.ones_spec_low. exact Hk.
Qed.
(** Refusals are exactly these. *)
Theorem C19_refusals : forall s set clr clock ar,
  is_success (fst (fst (fst (update_flags s set clr clock ar)))) = false <->
  (has set RF_PENALTYBOXED = true /\ has set RF_GREENLISTED = true) \/
  (exists k, (k = RF_IN_TABLE \/ k = RF_PENDING_DELETE) /\ (has set k = true \/ has clr k = true)) \/
  (has (s_flags s) RF_IN_TABLE = true /\ exists k, k < 14 /\ (has set k = true \/ has clr k = true)).
Proof.
  assert (AB : forall x m, anybit x m = true <-> exists k, has x k = true /\ has m k = true).
  { intros x m. unfold anybit. rewrite negb_true_iff, N.eqb_neq. split.
    - intros H. exists (N.log2 (N.land x m)). pose proof (N.bit_log2 _ H) as Q. rewrite N.land_spec in Q. apply andb_true_iff. exact Q.
    - intros (k & H1 & H2) E. assert (Q : has (N.land x m) k = true) by (unfold has in *; rewrite N.land_spec, H1, H2; reflexivity). rewrite E, has_0 in Q. discriminate. }
  assert (P14 : forall k, has IMMUTABLE_FLAGS k = true <-> k < 14).
  { intros k. change IMMUTABLE_FLAGS with (N.ones 14). unfold has. destruct (N.lt_ge_cases k 14) as [L|G]; [rewrite N.ones_spec_low by exact L; tauto|rewrite N.ones_spec_high by exact G; split; [discriminate|lia]]. }
  assert (PP : forall k, has PROTECTED_FLAGS k = true <-> (k = RF_IN_TABLE \/ k = RF_PENDING_DELETE)).
  { intros k. unfold RF_IN_TABLE, RF_PENDING_DELETE. split; [|intros [->| ->]; reflexivity]. intros H. destruct (N.lt_ge_cases k 16) as [L|G].
    - assert (E : (k = 0 \/ k = 1 \/ k = 2 \/ k = 3 \/ k = 4 \/ k = 5 \/ k = 6 \/ k = 7 \/ k = 8 \/ k = 9 \/ k = 10 \/ k = 11 \/ k = 12 \/ k = 13 \/ k = 14 \/ k = 15)%N) by lia.
      repeat (destruct E as [-> |E]; [try discriminate; auto|]). auto.
    - exfalso. unfold has in H. rewrite N.bits_above_log2 in H; [discriminate|]. change (N.log2 PROTECTED_FLAGS) with 15. lia. }
  intros s set clr clock ar. unfold update_flags.
  destruct (has set RF_PENALTYBOXED && has set RF_GREENLISTED) eqn:E1.
  { apply andb_true_iff in E1. cbn. tauto. }
  apply andb_false_iff in E1. destruct (anybit (N.lor set clr) PROTECTED_FLAGS) eqn:E2.
  { cbn. apply AB in E2. destruct E2 as (k & H1 & H2). apply PP in H2. rewrite has_lor in H1. apply orb_true_iff in H1. split; [intros _; right; left; exists k; auto|reflexivity]. }
  destruct (has (s_flags s) RF_IN_TABLE && anybit (N.lor set clr) IMMUTABLE_FLAGS) eqn:E3.
  { cbn. apply andb_true_iff in E3. destruct E3 as [E3 E4]. apply AB in E4. destruct E4 as (k & H1 & H2). apply P14 in H2. rewrite has_lor in H1. apply orb_true_iff in H1.
    split; [intros _; right; right; split; [exact E3|exists k; auto]|reflexivity]. }
  cbn. split; [discriminate|]. intros [[A B]|[(k & K & H)|(IT & k & K & H)]]; exfalso.
  - destruct E1; congruence.
  - assert (X : anybit (N.lor set clr) PROTECTED_FLAGS = true) by (apply AB; exists k; split; [rewrite has_lor; apply orb_true_iff; exact H|apply PP; exact K]). congruence.
  - rewrite IT in E3. cbn [andb] in E3. assert (X : anybit (N.lor set clr) IMMUTABLE_FLAGS = true) by (apply AB; exists k; split; [rewrite has_lor; apply orb_true_iff; exact H|apply P14; exact K]). congruence.
Qed.
Example C19_example :
  fst (fst (fst (update_flags (in_table_route 0) (bit RF_GREENLISTED) 0 (Some 5%Z) 0))) = OK /\
  fst (fst (fst (update_flags (in_table_route 0) (bit RF_OUT) 0 (Some 5%Z) 0))) = NOT_PERMITTED.
Proof. split; reflexivity. Qed.

Print Assumptions C14_boxed_rejected.
Print Assumptions C14_greenlisted_accepted.
Print Assumptions C14_threshold_beats_greenlist.
Print Assumptions C14_not_both.
Print Assumptions C15_connection_count_partial.
Print Assumptions C15_all_histories_partial.
Print Assumptions C15_zero_is_unlimited_refuted.
Print Assumptions C15_no_wrap_refuted.
Print Assumptions C15_rejected_not_counted_refuted.
Print Assumptions C16_threshold.
Print Assumptions C17_box_expires.
Print Assumptions C17_unlimited_box.
Print Assumptions C17_box_expires_refuted.
Print Assumptions C18_no_route.
Print Assumptions C18_undecided_route.
Print Assumptions C18_decided_keeps.
Print Assumptions C19_update_flags.
Print Assumptions C19_refusals.
