(** Lemmas for C63: the sections "config-update" and "events". *)
Require Import ZArith NArith List Bool String Lia.
From Verif Require Import Json JsonSpec JsonGrammar Convert EventConfig Loader LoaderSpec LoaderProofs.
From Verif Require JsonText Table Names.
Import ListNotations.
Open Scope Z_scope.

Section Events.
  Context {W D V F : Type}.
  Variable api : calls W V F.
  Variable cv : converters W D V F.
  Variable only_values : bool.
  Notation jps := (jps D).
  Notation process := (process api cv only_values).
  Notation run := (run api cv only_values).
  Notation members ms := (flat_map (fun m => (JSON_KEY, snd (fst m)) :: events (snd m)) ms).

  Lemma run_cons t d evs x : run ((t, d) :: evs) x = bind (process t d x) (run evs).
  Proof. reflexivity. Qed.
  Lemma run_nil x : run [] x = Good x.
  Proof. reflexivity. Qed.
  Lemma process_key j w k : j_section j <> S_USER_VALUE_JSON ->
    if 32 <=? Z.of_nat (List.length k) then process JSON_KEY k (j, w) = Err else process JSON_KEY k (j, w) = Good (with_key j (upto_nul k) (j_depth j), w).
  Proof. intros H. cbn [Loader.process]. change MAX_LABEL with 32. destruct (32 <=? Z.of_nat (List.length k)); destruct (j_section j); congruence. Qed.

  Ltac compute_keys := repeat match goal with |- context [is (JsonText.bytes ?a) ?b] => let v := eval vm_compute in (is (JsonText.bytes a) b) in change (is (JsonText.bytes a) b) with v end.
  (** ** config-update *)
  Lemma update_section pol ms c w dom key kd :
    agrees (let+ (c, w) := each_member (config_update_member api cv) ms (c, w) in let+ w := does (a_defaults api c w) in let+ w := apply_policy api pol w in Means (c, w))
      (run (members ms ++ [(JSON_OBJECT_END, [])]) (mkJ 1 T_TOPCONFIG O_NONE S_NONE 2 key kd c pol dom zero_route zero_event [], w))
      (fun a x => exists key kd dom, x = (mkJ 1 T_NONE O_NONE S_NONE 1 key kd (fst a) pol dom zero_route zero_event [], snd a)).
  Proof.
    rewrite run_app. eapply agrees_bind.
    - apply (agrees_members api cv only_values (config_update_member api cv) (P_update pol) (Q_update pol)).
      + intros k a x (key' & kd' & dom' & ->). pose proof (process_key (mkJ 1 T_TOPCONFIG O_NONE S_NONE 2 key' kd' (fst a) pol dom' zero_route zero_event []) (snd a) k ltac:(discriminate)) as H.
        destruct (32 <=? _); [exact H|]. eexists. split; [exact H|]. exists dom'. reflexivity.
      + intros k v a x _ HQ. apply update_member. exact HQ.
      + exists key, kd, dom. reflexivity.
    - intros [c1 w1] x (key' & kd' & dom' & ->). cbn [fst snd]. rewrite run_one.
      cbn -[call does apply_policy]. unfold call, does at 1. destruct (fst (a_defaults api c1 w1) <? 0); cbn -[does apply_policy]; [discriminate|].
      unfold apply_policy. destruct (N.eqb pol 0); cbn -[does]; [eexists; split; [reflexivity|]; eexists _, _, _; reflexivity|].
      unfold does. destruct (fst (a_policy api pol _) <? 0); cbn; [discriminate|]. eexists; split; [reflexivity|]; eexists _, _, _; reflexivity.
  Qed.

  (** ** Events *)
  Section One.
  Variables (dflt : econf) (pol : N).
  Definition ev_of (e : LoaderSpec.event) (l : Z) : event_uc :=
    mkEv (e_label e) (e_priority e) (match e_config e with Some c => c | None => zero_econf end) (match e_config e with Some _ => true | None => false end) (e_inserted e) l.
  Definition St sec dep key kd dom e : jps := mkJ 1 T_EVENTS O_EVENT sec dep key kd dflt pol dom zero_route e [].

  (** *** Lists of names *)
  Definition Q_list k e w (c : econf) (x : jps * W) : Prop :=
    exists dom l, x = (St S_EVENTCONFIG 5 k 4 dom (mkEv (e_label e) (e_priority e) c true (e_inserted e) l), w).
  (* how a token inside "config" is handled *)
  Lemma in_config t d dep k kd dom e w : (dep = 4 /\ t <> JSON_OBJECT_BEG \/ dep = 5) ->
    event_clause api cv only_values (St S_EVENTCONFIG dep k kd dom e) w t d =
    bind (eventconfig_clause api cv (St S_EVENTCONFIG dep k kd dom e) w t d (ev_config e))
      (fun '(c, j, w) => Good (with_event j (mkEv (ev_label e) (ev_priority e) c (ev_configed e) (ev_inserted e) (ev_list e)), w)).
  Proof. intros [[-> N]| ->]; unfold event_clause; cbn [j_object j_depth j_section St j_event j_key]; destruct t; try reflexivity; congruence. Qed.

  Lemma list_element k names add e w v c x : config_list k = Some (names, add) -> Q_list k e w c x ->
    agrees (match v with VStr _ d => let+ f := named_in names d in Means (add c f) | _ => Refused end) (run (events v) x) (Q_list k e w).
  Proof.
    intros CL (dom & l & ->). set (e0 := mkEv _ _ _ _ _ _).
    assert (NS : forall t d, t <> JSON_STRING -> t <> JSON_ARRAY_BEG -> t <> JSON_KEY -> deeper t = 0 -> process t d (St S_EVENTCONFIG 5 k 4 dom e0, w) = Err).
    { intros t d N1 N2 N3 T. assert (X : process t d (St S_EVENTCONFIG 5 k 4 dom e0, w) = event_clause api cv only_values (St S_EVENTCONFIG 5 k 4 dom e0) w t d) by (destruct t; try discriminate; try congruence; reflexivity). rewrite X. clear X.
      rewrite in_config by auto. unfold eventconfig_clause. cbn [j_depth St j_key]. change (5 =? 5) with true. cbn iota.
      destruct (is k "route-flags-to-add-on-insert" || is k "route-flags-to-clear-on-insert"); [destruct t; try discriminate; try congruence; reflexivity|]. destruct (is k "action-res-filter-bits-set" || _ || _ || _); [destruct t; try discriminate; try congruence; reflexivity|reflexivity]. }
    assert (DP : forall t d, (t = JSON_ARRAY_BEG \/ t = JSON_OBJECT_BEG) -> forall y, process t d (St S_EVENTCONFIG 5 k 4 dom e0, w) <> Good y).
    { intros t d T y. assert (X : process t d (St S_EVENTCONFIG 5 k 4 dom e0, w) = event_clause api cv only_values (St S_EVENTCONFIG 6 k 4 dom e0) w t d) by (destruct T as [-> | ->]; reflexivity). rewrite X. clear X.
      assert (X : event_clause api cv only_values (St S_EVENTCONFIG 6 k 4 dom e0) w t d = bind (insert_event api only_values e0 w) (fun '(e, w) => event_clause_2 api only_values (with_event (St S_EVENTCONFIG 6 k 4 dom e0) e) w t d)) by (destruct T as [-> | ->]; reflexivity). rewrite X. clear X.
      destruct (insert_event api only_values e0 w) as [[e1 w1]| |]; cbn [bind]; [|discriminate|discriminate]. destruct T as [-> | ->]; discriminate. }
    destruct v as [| | |dd|rr data|vs|ms]; cbn [events]; rewrite ?run_one; cbn [agrees].
    1-4: intros y; rewrite NS by (try discriminate; reflexivity); discriminate.
    2-3: intros y; rewrite run_cons; match goal with |- bind ?p _ <> _ => destruct p eqn:E end; cbn [bind]; try discriminate; exfalso; revert E; apply DP; auto.
    unfold named_in. destruct (forallb (fun c => 0 <? c) data) eqn:PD; [|exact Logic.I].
    assert (X : process JSON_STRING data (St S_EVENTCONFIG 5 k 4 dom e0, w) = event_clause api cv only_values (St S_EVENTCONFIG 5 k 4 dom e0) w JSON_STRING data) by reflexivity. rewrite X. clear X. rewrite in_config by auto.
    unfold eventconfig_clause. cbn [j_depth St j_key]. change (5 =? 5) with true. cbn iota.
    unfold config_list in CL.
    repeat (match type of CL with context [is k ?s] => destruct (is k s) eqn:? end; [match goal with H : is k _ = true |- _ => apply is_eq in H; subst k end; compute_keys; cbn [orb]; cbn iota; injection CL as <- <-;
      match goal with |- context [flag_of_text _] => rewrite (flag_text _ PD) | |- _ => rewrite (result_text _ PD) end;
      match goal with |- context [in_table ?t ?d] => pose proof (in_table_meant t d); destruct (in_table t d) end; cbn; try discriminate; try congruence; eexists; (split; [reflexivity|]); exists dom, l; reflexivity|]).
    discriminate.
  Qed.

  Definition P_config e w (c : econf) (x : jps * W) : Prop :=
    exists key kd dom l, x = (St S_EVENTCONFIG 4 key kd dom (mkEv (e_label e) (e_priority e) c true (e_inserted e) l), w).
  Definition Q_config e w k (c : econf) (x : jps * W) : Prop :=
    exists dom l, x = (St S_EVENTCONFIG 4 k 4 dom (mkEv (e_label e) (e_priority e) c true (e_inserted e) l), w).
  Lemma config_member_agrees e w k v c x : Q_config e w k c x -> agrees (config_member cv k v c) (run (events v) x) (P_config e w).
  Proof.
    intros (dom & l & ->). set (e0 := mkEv _ _ _ _ _ _).
    destruct (scalar v) as [[t d]|] eqn:SV.
    - rewrite (scalar_events v t d SV), run_one. pose proof (scalar_typed v t d SV) as ST.
      assert (X : config_member cv k v c = setting cv k t d c) by (destruct v; try discriminate; injection SV as <- <-; reflexivity). rewrite X. clear X.
      assert (X : process t d (St S_EVENTCONFIG 4 k 4 dom e0, w) = event_clause api cv only_values (St S_EVENTCONFIG 4 k 4 dom e0) w t d) by (destruct t; try discriminate; reflexivity). rewrite X. clear X.
      rewrite in_config by (left; split; [reflexivity|destruct t; discriminate]).
      pose proof (setting_agrees api cv (St S_EVENTCONFIG 4 k 4 dom e0) w t d c ST eq_refl ltac:(left; discriminate)) as H.
      change (j_key (St S_EVENTCONFIG 4 k 4 dom e0)) with k in H. change (ev_config e0) with c.
      destruct (setting cv k t d c) as [c'| |]; cbn [agrees] in *; [|intros y Y|exact Logic.I].
      + destruct H as (y & -> & ->). cbn. eexists. split; [reflexivity|]. exists k, 4, dom, l. reflexivity.
      + match type of Y with bind ?r _ = _ => destruct r as [z| |]; try discriminate end. exact (H z eq_refl).
    - destruct v as [| | |dd|rr data|vs|ms]; try discriminate; cbn [events config_member].
      + (* a list *)
        rewrite run_cons. destruct (config_list k) as [[names add]|] eqn:CL; cbn [given andthen].
        * assert (X : process JSON_ARRAY_BEG [] (St S_EVENTCONFIG 4 k 4 dom e0, w) = Good (St S_EVENTCONFIG 5 k 4 dom e0, w)).
          { transitivity (event_clause api cv only_values (St S_EVENTCONFIG 5 k 4 dom e0) w JSON_ARRAY_BEG []); [reflexivity|]. rewrite in_config by auto. unfold eventconfig_clause. cbn [j_depth St j_key]. change (5 =? 5) with true. cbn iota.
            unfold config_list in CL. destruct (is k "route-flags-to-add-on-insert"); [reflexivity|]. destruct (is k "route-flags-to-clear-on-insert"); [reflexivity|]. cbn [orb].
            destruct (is k "action-res-filter-bits-set"); [reflexivity|]. destruct (is k "action-res-filter-bits-unset"); [reflexivity|]. destruct (is k "action-res-bits-to-add"); [reflexivity|]. destruct (is k "action-res-bits-to-clear"); [reflexivity|]. discriminate. }
          rewrite X. cbn [bind]. rewrite run_app.
          assert (EM : forall (m : meaning econf), andthen m Means = m) by (intros [?| |]; reflexivity).
          rewrite <- (EM (each_element _ vs c)). eapply agrees_bind.
          -- apply (agrees_elements api cv only_values _ (Q_list k e w)); [|exists dom, l; reflexivity]. intros v a y HQ. exact (list_element k names add e w v a y CL HQ).
          -- intros c' y (dom' & l' & ->). rewrite run_one. cbn [agrees]. eexists. split; [reflexivity|]. exists k, 4, dom', l'. reflexivity.
        * cbn [agrees]. intros y. assert (X : process JSON_ARRAY_BEG [] (St S_EVENTCONFIG 4 k 4 dom e0, w) = Err); [|rewrite X; discriminate].
          transitivity (event_clause api cv only_values (St S_EVENTCONFIG 5 k 4 dom e0) w JSON_ARRAY_BEG []); [reflexivity|]. rewrite in_config by auto. unfold eventconfig_clause. cbn [j_depth St j_key]. change (5 =? 5) with true. cbn iota.
          unfold config_list in CL. destruct (is k "route-flags-to-add-on-insert"); [discriminate|]. destruct (is k "route-flags-to-clear-on-insert"); [discriminate|]. cbn [orb].
            destruct (is k "action-res-filter-bits-set"); [discriminate|]. destruct (is k "action-res-filter-bits-unset"); [discriminate|]. destruct (is k "action-res-bits-to-add"); [discriminate|]. destruct (is k "action-res-bits-to-clear"); [discriminate|]. reflexivity.
      + cbn [agrees]. intros y. rewrite run_cons. assert (X : process JSON_OBJECT_BEG [] (St S_EVENTCONFIG 4 k 4 dom e0, w) = Err); [|rewrite X; discriminate].
        transitivity (event_clause api cv only_values (St S_EVENTCONFIG 5 k 4 dom e0) w JSON_OBJECT_BEG []); [reflexivity|]. rewrite in_config by auto. unfold eventconfig_clause. cbn [j_depth St j_key]. change (5 =? 5) with true. cbn iota.
        destruct (is k "route-flags-to-add-on-insert" || is k "route-flags-to-clear-on-insert"); [reflexivity|]. destruct (is k "action-res-filter-bits-set" || _ || _ || _); reflexivity.
  Qed.

  (** *** Members of events *)
  Definition P_event (a : LoaderSpec.event * W) (x : jps * W) : Prop :=
    exists key kd dom l, x = (St S_NONE 3 key kd dom (ev_of (fst a) l), snd a).
  Definition Q_event k (a : LoaderSpec.event * W) (x : jps * W) : Prop :=
    exists dom l, x = (St S_NONE 3 k 3 dom (ev_of (fst a) l), snd a).

  Lemma insert_agrees e w l : agrees (inserted api only_values (e, w)) (insert_event api only_values (ev_of e l) w) (fun a y => y = (ev_of (fst a) l, snd a) /\ e_inserted (fst a) = true).
  Proof.
    unfold inserted, insert_event, ev_of. cbn [ev_inserted ev_label ev_priority ev_config ev_configed ev_as_inserted ev_list]. destruct (e_inserted e) eqn:I; [cbn; rewrite I; eexists; repeat split|].
    destruct only_values; [cbn; eexists; repeat split|].
    assert (X : (if match e_config e with Some _ => true | None => false end then Some match e_config e with Some c => c | None => zero_econf end else None) = e_config e) by (destruct (e_config e); reflexivity). rewrite X.
    unfold call, does. destruct (fst (a_event_insert api _ _ _ _) <? 0); cbn; [discriminate|]. eexists; repeat split.
  Qed.

  (* how a token that needs the event is handled *)
  Lemma needs_event sec dep t d k kd dom e w :
    sec <> S_EVENTCONFIG -> (dep = 3 /\ (t = JSON_STRING /\ is k "label" = false \/ t <> JSON_STRING /\ t <> JSON_NUMBER) \/ dep = 4 /\ (t <> JSON_OBJECT_BEG \/ is k "config" = false) \/ dep = 5 \/ dep = 2) ->
    event_clause api cv only_values (St sec dep k kd dom e) w t d =
    bind (insert_event api only_values e w) (fun '(e, w) => event_clause_2 api only_values (St sec dep k kd dom e) w t d).
  Proof.
    intros NC H. unfold event_clause. cbn [j_object j_depth j_section St j_event j_key].
    destruct H as [[-> [[-> L]|[N1 N2]]]|[[-> H]|[-> | ->]]].
    - rewrite L. destruct sec; try reflexivity; congruence.
    - destruct t; try congruence; destruct sec; try reflexivity; congruence.
    - destruct t; try (destruct sec; try reflexivity; congruence). destruct H as [H|H]; [congruence|]. rewrite H. destruct sec; try reflexivity; congruence.
    - destruct t; destruct sec; try reflexivity; congruence.
    - destruct t; destruct sec; try reflexivity; congruence.
  Qed.
  Lemma needs_agrees sec dep t d k kd dom e l w (f : LoaderSpec.event * W -> meaning (LoaderSpec.event * W)) P :
    sec <> S_EVENTCONFIG -> (dep = 3 /\ (t = JSON_STRING /\ is k "label" = false \/ t <> JSON_STRING /\ t <> JSON_NUMBER) \/ dep = 4 /\ (t <> JSON_OBJECT_BEG \/ is k "config" = false) \/ dep = 5 \/ dep = 2) ->
    (forall e1 w1, e_inserted e1 = true -> agrees (f (e1, w1)) (event_clause_2 api only_values (St sec dep k kd dom (ev_of e1 l)) w1 t d) P) ->
    agrees (andthen (inserted api only_values (e, w)) f) (event_clause api cv only_values (St sec dep k kd dom (ev_of e l)) w t d) P.
  Proof.
    intros H1 H2 H3. rewrite needs_event by assumption. eapply agrees_bind; [apply insert_agrees|]. intros [e1 w1] y [-> E]. cbn [fst snd] in *. apply H3. exact E.
  Qed.
  Lemma needs_refused sec dep t d k kd dom e l w :
    sec <> S_EVENTCONFIG -> (dep = 3 /\ (t = JSON_STRING /\ is k "label" = false \/ t <> JSON_STRING /\ t <> JSON_NUMBER) \/ dep = 4 /\ (t <> JSON_OBJECT_BEG \/ is k "config" = false) \/ dep = 5 \/ dep = 2) ->
    (forall e1 w1 y, event_clause_2 api only_values (St sec dep k kd dom e1) w1 t d <> Good y) ->
    forall y, event_clause api cv only_values (St sec dep k kd dom (ev_of e l)) w t d <> Good y.
  Proof.
    intros H1 H2 H3 y. rewrite needs_event by assumption. destruct (insert_event api only_values (ev_of e l) w) as [[e1 w1]| |]; cbn [bind]; [apply H3|discriminate|discriminate].
  Qed.

  Lemma append_agrees label type : forall l w, only_values = false ->
    agrees (append_actions api only_values label type l w) (append_all api label type l w) eq.
  Proof.
    intros l w O. revert w. induction l as [|a l IH]; intros w; cbn [append_actions append_all]; [cbn; eauto|]. unfold append. rewrite O.
    unfold call, does. destruct (fst (a_append api label type a w) <? 0); cbn [andthen bind agrees]; [discriminate|]. rewrite O in IH. apply IH.
  Qed.
  Lemma not_shorter d : negb (shorter 33 d) = (MAX_LABEL <? Z.of_nat (List.length d)).
  Proof. unfold shorter, MAX_LABEL. destruct (Z.ltb_spec (Z.of_nat (List.length d)) 33), (Z.ltb_spec 32 (Z.of_nat (List.length d))); try reflexivity; lia. Qed.

  Lemma string_member k rr d e w dom l : agrees (event_member api cv only_values dflt k (VStr rr d) (e, w)) (process JSON_STRING d (St S_NONE 3 k 3 dom (ev_of e l), w)) P_event.
  Proof.
    assert (X : process JSON_STRING d (St S_NONE 3 k 3 dom (ev_of e l), w) = event_clause api cv only_values (St S_NONE 3 k 3 dom (ev_of e l)) w JSON_STRING d) by reflexivity. rewrite X. clear X.
    unfold event_member. destruct (is k "label") eqn:EL.
    - unfold event_clause. cbn [j_object j_depth j_section St j_event j_key]. rewrite EL. unfold shorter, require, MAX_LABEL.
      destruct (Z.ltb_spec (Z.of_nat (List.length d)) 32), (Z.leb_spec 32 (Z.of_nat (List.length d))); try lia; cbn; [|discriminate]. eexists. split; [reflexivity|]. exists k, 3, dom, l. reflexivity.
    - apply needs_agrees; [discriminate|tauto|]. intros e1 w1 I. unfold event_clause_2. cbn [j_depth St j_key j_event ev_label ev_of].
      destruct (is k "aux-parent-event").
      + destruct only_values eqn:O; cbn [andthen]; [cbn; eexists; split; [reflexivity|]; exists k, 3, dom, l; reflexivity|].
        unfold does, call. destruct (fst (a_aux api _ _ _) <? 0); cbn; [discriminate|]. eexists. split; [reflexivity|]. exists k, 3, dom, l. reflexivity.
      + assert (X : match subevent k with Some ty => subevent_type k = ty /\ ty <> 0 | None => subevent_type k = 0 end).
        { unfold subevent, subevent_type. destruct (is k "insert-event"), (is k "match-event"), (is k "update-event"), (is k "delete-event"), (is k "decision-event"); repeat split; discriminate. }
        destruct (subevent k) as [ty|]; cbn [given andthen]; [|rewrite X; cbn; discriminate].
        destruct X as [-> NZ]. destruct (Z.eqb_spec ty 0) as [|_]; [contradiction|]. cbn [negb]. rewrite <- not_shorter. unfold require. destruct (shorter 33 d); cbn [negb andthen]; [|cbn; discriminate].
        destruct only_values eqn:O; [cbn; eexists; split; [reflexivity|]; exists k, 3, dom, l; reflexivity|].
        destruct (a_post_actions api d w1) as [acts|]; cbn [given andthen]; [|cbn; discriminate].
        pose proof (append_agrees (e_label e1) ty acts w1 O) as A. rewrite O in A. eapply agrees_bind; [exact A|]. intros w2 ? ->. cbn. eexists. split; [reflexivity|]. exists k, 3, dom, l. reflexivity.
  Qed.
  Definition Q_actions k (e : LoaderSpec.event) type (w : W) (x : jps * W) : Prop :=
    exists dom, x = (St S_ACTION_LIST 4 k 3 dom (ev_of e type), w).
  Lemma action_element k e type v w x : e_inserted e = true -> Q_actions k e type w x ->
    agrees (match v with VStr _ d => let+ _ := require (shorter 33 d) in append api only_values (e_label e) type d w | _ => Refused end) (run (events v) x) (Q_actions k e type).
  Proof.
    intros I (dom & ->). destruct v as [| | |dd|rr d|vs|ms]; cbn [events]; rewrite ?run_one; try (cbn [agrees]).
    1-4: match goal with |- context [process ?t ?d _] => change (process t d (St S_ACTION_LIST 4 k 3 dom (ev_of e type), w)) with (event_clause api cv only_values (St S_ACTION_LIST 4 k 3 dom (ev_of e type)) w t d) end; apply needs_refused; [discriminate|right; left; split; [reflexivity|left; discriminate]|intros; discriminate].
    - change (process JSON_STRING d (St S_ACTION_LIST 4 k 3 dom (ev_of e type), w)) with (event_clause api cv only_values (St S_ACTION_LIST 4 k 3 dom (ev_of e type)) w JSON_STRING d).
      rewrite needs_event by (solve [discriminate|right; left; split; [reflexivity|left; discriminate]]). unfold insert_event. cbn [ev_inserted ev_of]. rewrite I. cbn [bind]. unfold event_clause_2. cbn [j_depth St j_key j_event ev_label ev_of j_section ev_list].
      rewrite <- not_shorter. unfold require. destruct (shorter 33 d); cbn [negb andthen]; [|cbn; discriminate]. unfold append.
      destruct only_values eqn:O; [cbn; eexists; split; [reflexivity|]; exists dom; unfold ev_of; rewrite I; reflexivity|].
      unfold does, call. destruct (fst (a_append api _ _ _ _) <? 0); cbn; [discriminate|]. eexists. split; [reflexivity|]. exists dom. unfold ev_of. rewrite I. reflexivity.
    - intros y. rewrite run_cons. assert (X : forall z, process JSON_ARRAY_BEG [] (St S_ACTION_LIST 4 k 3 dom (ev_of e type), w) <> Good z); [|destruct (process JSON_ARRAY_BEG _ _) as [z| |]; [destruct (X z eq_refl)|discriminate|discriminate]].
      change (process JSON_ARRAY_BEG [] (St S_ACTION_LIST 4 k 3 dom (ev_of e type), w)) with (event_clause api cv only_values (St S_ACTION_LIST 5 k 3 dom (ev_of e type)) w JSON_ARRAY_BEG []).
      apply needs_refused; [discriminate|auto|intros; discriminate].
    - intros y. rewrite run_cons. assert (X : forall z, process JSON_OBJECT_BEG [] (St S_ACTION_LIST 4 k 3 dom (ev_of e type), w) <> Good z); [|destruct (process JSON_OBJECT_BEG _ _) as [z| |]; [destruct (X z eq_refl)|discriminate|discriminate]].
      change (process JSON_OBJECT_BEG [] (St S_ACTION_LIST 4 k 3 dom (ev_of e type), w)) with (event_clause api cv only_values (St S_ACTION_LIST 5 k 3 dom (ev_of e type)) w JSON_OBJECT_BEG []).
      apply needs_refused; [discriminate|auto|intros; discriminate].
  Qed.
  Lemma event_member_agrees k v a x : Q_event k a x -> agrees (event_member api cv only_values dflt k v a) (run (events v) x) P_event.
  Proof.
    intros (dom & l & ->). destruct a as [e w]. cbn [fst snd]. destruct v as [| | |d|rr d|vs|ms]; cbn [events]; rewrite ?run_one.
    1-3: cbn [event_member agrees]; match goal with |- context [process ?t ?d _] => change (process t d (St S_NONE 3 k 3 dom (ev_of e l), w)) with (event_clause api cv only_values (St S_NONE 3 k 3 dom (ev_of e l)) w t d) end; apply needs_refused; [discriminate|left; split; [reflexivity|right; split; discriminate]|intros; discriminate].
    - cbn [event_member]. change (process JSON_NUMBER d (St S_NONE 3 k 3 dom (ev_of e l), w)) with (event_clause api cv only_values (St S_NONE 3 k 3 dom (ev_of e l)) w JSON_NUMBER d).
      unfold event_clause. cbn [j_object j_depth j_section St j_event j_key ev_inserted ev_of]. unfold require. destruct (is k "priority"); cbn [andb andthen]; [|cbn; discriminate]. destruct (e_inserted e) eqn:I; cbn [negb andthen]; [cbn; discriminate|].
      eapply agrees_bind; [apply agrees_num|]. intros n ? <-. cbn. eexists. split; [reflexivity|]. exists k, 3, dom, l. unfold ev_of. cbn. rewrite ?I. reflexivity.
    - apply string_member.
    - cbn [event_member]. rewrite run_cons. change (process JSON_ARRAY_BEG [] (St S_NONE 3 k 3 dom (ev_of e l), w)) with (event_clause api cv only_values (St S_NONE 4 k 3 dom (ev_of e l)) w JSON_ARRAY_BEG []).
      rewrite needs_event by (solve [discriminate|right; left; split; [reflexivity|left; discriminate]]).
      assert (AB : forall A B C (r : res A) (f : A -> res B) (g : B -> res C), bind (bind r f) g = bind r (fun a => bind (f a) g)) by (intros ? ? ? [?| |] ? ?; reflexivity). rewrite AB.
      eapply agrees_bind; [apply insert_agrees|]. intros [e1 w1] y [-> I]. cbn [fst snd] in *. unfold event_clause_2. cbn [j_depth St j_key j_event ev_label ev_of j_section].
      assert (X : match action_list k with Some ty => list_type k = ty /\ ty <> 0 | None => list_type k = 0 end).
      { unfold action_list, list_type. destruct (is k "actions" || is k "post-actions"), (is k "insert-actions"), (is k "match-actions"), (is k "update-actions"), (is k "delete-actions"), (is k "decision-actions"); repeat split; discriminate. }
      destruct (action_list k) as [ty|]; cbn [given andthen]; [|rewrite X; cbn; discriminate]. destruct X as [-> NZ]. destruct (Z.eqb_spec ty 0) as [|_]; [contradiction|]. cbn [bind]. rewrite run_app.
      eapply agrees_bind.
      + apply (agrees_elements api cv only_values _ (Q_actions k e1 ty)); [|exists dom; reflexivity]. intros v a y HQ. exact (action_element k e1 ty v a y I HQ).
      + intros w2 y (dom' & ->). rewrite run_one. change (process JSON_ARRAY_END [] (St S_ACTION_LIST 4 k 3 dom' (ev_of e1 ty), w2)) with (event_clause api cv only_values (St S_ACTION_LIST 3 k 3 dom' (ev_of e1 ty)) w2 JSON_ARRAY_END []).
        rewrite needs_event by (solve [discriminate|left; split; [reflexivity|right; split; discriminate]]). unfold insert_event. cbn [ev_inserted ev_of]. rewrite I. cbn. eexists. split; [reflexivity|]. exists k, 3, dom', ty. unfold ev_of. cbn [fst snd]. rewrite ?I. reflexivity.
    - cbn [event_member]. rewrite run_cons. destruct (is k "config") eqn:EC; cbn [andb].
      + assert (X : process JSON_OBJECT_BEG [] (St S_NONE 3 k 3 dom (ev_of e l), w) = if e_inserted e then Err else Good (St S_EVENTCONFIG 4 k 3 dom (mkEv (e_label e) (e_priority e) dflt true (e_inserted e) l), w)).
        { transitivity (event_clause api cv only_values (St S_NONE 4 k 3 dom (ev_of e l)) w JSON_OBJECT_BEG []); [reflexivity|]. unfold event_clause. cbn [j_object j_depth j_section St j_event j_key]. rewrite EC. cbn [ev_inserted ev_of]. destruct (e_inserted e) eqn:I; [reflexivity|]. cbn. unfold ev_with_config, ev_of. cbn. rewrite I. reflexivity. }
        rewrite X. unfold require. destruct (e_inserted e) eqn:I; cbn [negb andthen bind]; [cbn; discriminate|]. rewrite <- I. rewrite run_app. eapply agrees_bind.
        * apply (agrees_members api cv only_values (config_member cv) (P_config e w) (Q_config e w)); [| |exists k, 3, dom, l; reflexivity].
          -- intros k' c y (key' & kd' & dom' & l' & ->). pose proof (process_key (St S_EVENTCONFIG 4 key' kd' dom' (mkEv (e_label e) (e_priority e) c true (e_inserted e) l')) w k' ltac:(discriminate)) as H.
             destruct (32 <=? _); [exact H|]. eexists. split; [exact H|]. exists dom', l'. reflexivity.
          -- intros k' v c y _ HQ. apply config_member_agrees. exact HQ.
        * intros c y (key' & kd' & dom' & l' & ->). rewrite run_one. cbn [agrees]. eexists. split; [reflexivity|]. exists key', kd', dom', l'. unfold ev_of. cbn. reflexivity.
      + cbn [require andthen agrees]. intros y. assert (X : forall z, process JSON_OBJECT_BEG [] (St S_NONE 3 k 3 dom (ev_of e l), w) <> Good z); [|destruct (process JSON_OBJECT_BEG _ _) as [z| |]; [destruct (X z eq_refl)|discriminate|discriminate]].
        change (process JSON_OBJECT_BEG [] (St S_NONE 3 k 3 dom (ev_of e l), w)) with (event_clause api cv only_values (St S_NONE 4 k 3 dom (ev_of e l)) w JSON_OBJECT_BEG []).
        apply needs_refused; [discriminate|auto|intros; discriminate].
  Qed.

  (** *** The list of events *)
  Definition P_events (w : W) (x : jps * W) : Prop :=
    exists key kd dom, x = (mkJ 1 T_EVENTS O_NONE S_NONE 2 key kd dflt pol dom zero_route zero_event [], w).
  Lemma event_element_agrees v w x : P_events w x -> agrees (event_element api cv only_values dflt v w) (run (events v) x) P_events.
  Proof.
    intros (key & kd & dom & ->). destruct v as [| | |d|rr d|vs|ms]; cbn [events]; rewrite ?run_one; try (cbn; discriminate).
    cbn [event_element]. rewrite run_cons.
    assert (X : process JSON_OBJECT_BEG [] (mkJ 1 T_EVENTS O_NONE S_NONE 2 key kd dflt pol dom zero_route zero_event [], w) = Good (St S_NONE 3 key kd dom (ev_of new_event 0), w)) by reflexivity. rewrite X. cbn [bind]. rewrite run_app. eapply agrees_bind.
    - apply (agrees_members api cv only_values (event_member api cv only_values dflt) P_event Q_event); [| |exists key, kd, dom, 0; reflexivity].
      + intros k' [e1 w1] y (key' & kd' & dom' & l' & ->). pose proof (process_key (St S_NONE 3 key' kd' dom' (ev_of e1 l')) w1 k' ltac:(discriminate)) as H.
        destruct (32 <=? _); [exact H|]. eexists. split; [exact H|]. exists dom', l'. reflexivity.
      + intros k' v a y _ HQ. apply event_member_agrees. exact HQ.
    - intros [e1 w1] y (key' & kd' & dom' & l' & ->). cbn [fst snd]. rewrite run_one.
      change (process JSON_OBJECT_END [] (St S_NONE 3 key' kd' dom' (ev_of e1 l'), w1)) with (event_clause api cv only_values (St S_NONE 2 key' kd' dom' (ev_of e1 l')) w1 JSON_OBJECT_END []).
      rewrite needs_event by (solve [discriminate|auto]). eapply agrees_bind; [apply insert_agrees|]. intros [e2 w2] z [-> I]. cbn [fst snd]. cbn. eexists. split; [reflexivity|]. exists key', kd', dom'. reflexivity.
  Qed.
  Lemma events_section vs w key kd dom :
    agrees (each_element (event_element api cv only_values dflt) vs w)
      (run (flat_map events vs ++ [(JSON_ARRAY_END, [])]) (mkJ 1 T_EVENTS O_NONE S_NONE 2 key kd dflt pol dom zero_route zero_event [], w))
      (fun w x => exists key kd dom, x = (mkJ 1 T_NONE O_NONE S_NONE 1 key kd dflt pol dom zero_route zero_event [], w)).
  Proof.
    rewrite run_app. assert (EM : forall (m : meaning W), andthen m Means = m) by (intros [?| |]; reflexivity). rewrite <- (EM (each_element _ vs w)). eapply agrees_bind.
    - apply (agrees_elements api cv only_values _ P_events); [|exists key, kd, dom; reflexivity]. intros v a y HP. apply event_element_agrees. exact HP.
    - intros w1 y (key' & kd' & dom' & ->). rewrite run_one. cbn. eexists. split; [reflexivity|]. exists key', kd', dom'. reflexivity.
  Qed.
  End One.
End Events.
