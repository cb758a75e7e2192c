(** Lemmas for C63: no token has undefined behaviour (under the hypotheses of C63_safe_partial). *)
Require Import ZArith NArith List Bool String Lia.
From Verif Require Import Json JsonSpec Convert EventConfig Loader LoaderSpec LoaderProofs.
From Verif Require JsonText Table Names.
Import ListNotations.
Open Scope Z_scope.

Definition okp {A} (r : res A) (P : A -> Prop) : Prop := match r with Good a => P a | Err => True | Bad => False end.
Lemma okp_bind {A B} (r : res A) (f : A -> res B) (P : A -> Prop) (Q : B -> Prop) : okp r P -> (forall a, P a -> okp (f a) Q) -> okp (bind r f) Q.
Proof. destruct r; cbn; auto. Qed.
Lemma okp_number c : c <> CUB -> okp (number c) (fun _ => True).
Proof. destruct c; cbn; auto. Qed.
Definition any {A} (a : A) : Prop := True.

Section Safe.
  Context {W D V F : Type}.
  Variable api : calls W V F.
  Variable cv : converters W D V F.
  Variable only_values : bool.
  Notation jps := (jps D).
  Hypothesis durations : forall t d, cv_duration cv t d <> CUB.
  Hypothesis addresses : forall w m f n t d g b n', cv_address cv w m f n t d = Some (g, b, n') -> (List.length b <= 16)%nat.
  Hypothesis ports : forall p d, cv_port_name cv p d <> NoEntry.
  Hypothesis protocols : forall d, cv_proto_name cv d <> NoEntry.

  Lemma ub8 t d : convert_uint8 t d <> CUB. Proof. apply never_ub. cbn. tauto. Qed.
  Lemma ub16 t d : convert_uint16 t d <> CUB. Proof. apply never_ub. cbn. tauto. Qed.
  Lemma ub32 t d : convert_uint32 t d <> CUB. Proof. apply never_ub. cbn. tauto. Qed.
  Lemma ub64 t d : convert_uint64 t d <> CUB. Proof. apply never_ub. cbn. tauto. Qed.
  Lemma sb64 t d : convert_sint64 t d <> CUB. Proof. apply never_ub. cbn. tauto. Qed.
  Lemma ubd t d : duration cv t d <> CUB. Proof. unfold duration. destruct (numeric_type t); [apply durations|discriminate]. Qed.

  Definition okr (r : route) : Prop := List.length (sa_addr (r_remote r)) = 16%nat /\ List.length (sa_addr (r_local r)) = 16%nat.
  Definition safe (j : jps) : Prop := positive (j_key j) /\ is (j_key j) "bitmask" = false /\ okr (j_route j).
  Definition text (t : jtype) (d : list Z) : Prop := t = JSON_STRING -> positive d.

  Lemma ok_call {A} (a : A) (r : Z * W) (P : A * W -> Prop) : (forall w, P (a, w)) -> okp (call a r) P.
  Proof. intros H. unfold call. destruct (fst r <? 0); cbn; auto. Qed.
  Lemma ok_flag_text d : positive d -> okp (flag_of_text d) (fun _ => True).
  Proof. intros P. rewrite flag_text by exact P. destruct (in_table _ d); exact Logic.I. Qed.
  Lemma ok_result_text d : positive d -> okp (result_of_text d) (fun _ => True).
  Proof. intros P. rewrite result_text by exact P. destruct (in_table _ d); exact Logic.I. Qed.
  Lemma ok_flag_key d : positive d -> okp (flag_of_key d) (fun _ => True).
  Proof. intros P. rewrite flag_key by exact P. destruct (in_table _ d); exact Logic.I. Qed.

  Lemma ok_eventconfig j w t d c : text t d -> okp (eventconfig_clause api cv j w t d c) (fun x => j_key (snd (fst x)) = j_key j /\ j_route (snd (fst x)) = j_route j).
  Proof.
    intros TX. unfold eventconfig_clause.
    assert (K : forall r : res econf, okp r (fun _ => True) -> okp (do c <- r; Good (c, j, w)) (fun x => j_key (snd (fst x)) = j_key j /\ j_route (snd (fst x)) = j_route j)) by (intros [?| |] H; cbn in *; auto).
    assert (KN : forall n (f : Z -> econf), n <> CUB -> okp (do c <- (do v <- number n; Good (f v)); Good (c, j, w)) (fun x => j_key (snd (fst x)) = j_key j /\ j_route (snd (fst x)) = j_route j)).
    { intros n f N. apply K. eapply okp_bind; [apply okp_number; exact N|]. intros ? _. exact Logic.I. }
    destruct (j_depth j =? 5).
    { destruct (_ || _); [destruct t; cbn; auto; apply K; eapply okp_bind; [apply ok_flag_text, TX; reflexivity|intros ? _; exact Logic.I]|].
      destruct (_ || _); [destruct t; cbn; auto; apply K; eapply okp_bind; [apply ok_result_text, TX; reflexivity|intros ? _; exact Logic.I]|]. exact Logic.I. }
    assert (END : okp (match j_table j with T_TOPCONFIG => do (_, w) <- call tt (a_defaults api c w); let j := with_table j T_NONE in if negb (N.eqb (j_policy j) 0) then do (_, w) <- call tt (a_policy api (j_policy j) w); Good (c, j, w) else Good (c, j, w) | _ => Err end)
      (fun x => j_key (snd (fst x)) = j_key j /\ j_route (snd (fst x)) = j_route j)).
    { destruct (j_table j); try exact Logic.I. eapply okp_bind; [apply (ok_call _ _ (fun _ => True)); auto|]. intros [_ w1] _. cbv zeta. destruct (negb _); [|cbn; auto]. eapply okp_bind; [apply (ok_call _ _ (fun _ => True)); auto|]. intros [_ w2] _. cbn. auto. }
    assert (M : forall (A : Type) (P : A -> Prop) (a b c : A), P a -> P b -> P c -> P (match t with JSON_ARRAY_END => a | JSON_OBJECT_END => b | _ => c end)) by (intros; destruct t; assumption).
    apply (M _ (fun r => okp r (fun x => j_key (snd (fst x)) = j_key j /\ j_route (snd (fst x)) = j_route j))); [cbn; auto|exact END|]. clear M.
    destruct (is _ _); [apply KN, ub32|]. destruct (is _ _); [apply KN, ubd|]. destruct (is _ _); [apply KN, ubd|]. destruct (is _ _); [apply KN, ub32|].
    destruct (is _ _); [apply K; unfold config_flag; destruct t; exact Logic.I|]. destruct (is _ _); [apply K; unfold config_flag; destruct t; exact Logic.I|].
    destruct (is _ _); [destruct (j_table j); try exact Logic.I; eapply okp_bind; [apply okp_number, ub32|]; intros n _; eapply okp_bind; [apply (ok_call _ _ (fun _ => True)); auto|]; intros [_ w2] _; cbn; auto|].
    destruct (is _ _); [destruct (j_table j); try exact Logic.I; eapply okp_bind; [apply okp_number, ubd|]; intros n _; eapply okp_bind; [apply (ok_call _ _ (fun _ => True)); auto|]; intros [_ w2] _; cbn; auto|]. exact Logic.I.
  Qed.

  Lemma okr_set remote r s : okr r -> List.length (sa_addr s) = 16%nat -> okr (set_sa remote r s).
  Proof. intros [A B] H. destruct remote; split; cbn; auto. Qed.
  Lemma okr_get remote r : okr r -> List.length (sa_addr (get_sa remote r)) = 16%nat.
  Proof. intros [A B]. destruct remote; auto. Qed.
  Lemma okr_flags r f : okr r -> okr (with_flags r f).
  Proof. auto. Qed.
  Lemma ok_endpoint remote k w t d r : okr r -> is k "bitmask" = false -> okp (endpoint_clause cv remote k w t d r) okr.
  Proof.
    intros R NB. unfold endpoint_clause. rewrite NB. pose proof (okr_get remote r R) as G.
    destruct (is k "port").
    { destruct (_ =? AF_UNSPEC); [exact Logic.I|]. destruct t; try exact Logic.I.
      - eapply okp_bind; [apply okp_number, ub16|]. intros n _. apply okr_set; [exact R|exact G].
      - destruct (negb _); [exact Logic.I|]. destruct (64 <=? _); [exact Logic.I|]. pose proof (ports (sa_proto (get_sa remote r)) d) as P. destruct (cv_port_name cv _ d); try congruence; [|exact Logic.I]. apply okr_set; [exact R|exact G]. }
    destruct (is k "address").
    { destruct (_ =? AF_UNSPEC); [exact Logic.I|]. unfold address_into. match goal with |- context [cv_address cv ?a ?b ?c ?e t d] => pose proof (addresses a b c e t d) as P; destruct (cv_address cv a b c e t d) as [[[g b'] n]|]; [|exact Logic.I] end.
      specialize (P _ _ _ eq_refl). unfold write_at. rewrite G. destruct (Nat.leb_spec (0 + List.length b') 16); [|lia]. cbn [bind okp]. apply okr_set; [exact R|]. cbn [with_len with_family with_addr sa_addr]. rewrite !app_length, skipn_length, G. cbn [firstn List.length]. lia. }
    destruct (is k "prefix-bits").
    { destruct (_ =? AF_UNSPEC); [exact Logic.I|]. destruct (N.testbit _ _); [exact Logic.I|]. eapply okp_bind; [apply okp_number, ub16|]. intros n _. apply okr_set; [exact R|exact G]. }
    destruct (is k "interface").
    { eapply okp_bind; [apply okp_number, ub8|]. intros n _. apply okr_set; [exact R|exact G]. }
    exact Logic.I.
  Qed.
  Lemma ok_reset (j : jps) : okr (j_route j) -> j_key (reset j) = j_key j /\ okr (j_route (reset j)).
  Proof. intros R. unfold reset. destruct (j_object j); split; try reflexivity; try exact R; split; reflexivity. Qed.
  Ltac s0 := split; [reflexivity|assumption].
  Ltac s2 := split; cbn [fst j_key j_route with_section with_dom]; [assumption|match goal with H : j_route _ = _ |- _ => rewrite H end; assumption].
  Definition same (j : jps) (x : jps * W) : Prop := j_key (fst x) = j_key j /\ okr (j_route (fst x)).
  Lemma ok_route j w t d : safe j -> okp (route_clause api cv only_values j w t d) (same j).
  Proof.
    intros (PK & NB & R). unfold route_clause.
    assert (K : forall r : res route, okp r okr -> okp (bind r (fun r' => Good (with_route j r', w))) (same j)).
    { intros [r| |] H; cbn in *; auto. split; [reflexivity|exact H]. }
    assert (G3 : okp (if is (j_key j) "parent-event" then if MAX_LABEL <? Z.of_nat (List.length d) then Err else bind (Good (clear_bit (mkRoute d (r_remote (j_route j)) (r_local (j_route j)) (r_flags (j_route j))) B_EVENT)) (fun r' => Good (with_route j r', w))
      else if is (j_key j) "family" then bind (family_clause cv w t d (j_route j)) (fun r' => Good (with_route j r', w))
      else if is (j_key j) "protocol" then bind (protocol_clause cv t d (j_route j)) (fun r' => Good (with_route j r', w))
      else bind (bind (flag_of_key (j_key j)) (fun f => boolean_clause t f (j_route j))) (fun r' => Good (with_route j r', w))) (same j)).
    { destruct (is (j_key j) "parent-event"); [destruct (MAX_LABEL <? _); [exact Logic.I|]; apply K; exact R|].
      destruct (is (j_key j) "family").
      { apply K. unfold family_clause. destruct t; try exact Logic.I; [eapply okp_bind; [apply okp_number, ub16|]; intros n _; exact R|]. destruct (cv_family_name cv w d); [exact R|exact Logic.I]. }
      destruct (is (j_key j) "protocol").
      { apply K. unfold protocol_clause. destruct t; try exact Logic.I.
        - eapply okp_bind; [apply okp_number, ub16|]. intros n _. cbn [okp]. destruct (_ && _); exact R.
        - destruct (_ =? AF_UNSPEC); [exact Logic.I|]. destruct (negb _); [exact Logic.I|]. destruct (64 <=? _); [exact Logic.I|]. pose proof (protocols d) as P. destruct (cv_proto_name cv d); try congruence; [|exact Logic.I]. cbn [okp]. destruct (_ && _); exact R. }
      apply K. eapply okp_bind; [apply ok_flag_key, PK|]. intros f _. unfold boolean_clause. destruct t; try exact Logic.I; exact R. }
    assert (G4 : okp (match j_section j with S_REMOTE => bind (endpoint_clause cv true (j_key j) w t d (j_route j)) (fun r' => Good (with_route j r', w)) | S_LOCAL => bind (endpoint_clause cv false (j_key j) w t d (j_route j)) (fun r' => Good (with_route j r', w)) | _ => Err end) (same j)).
    { destruct (j_section j); try exact Logic.I; apply K, ok_endpoint; assumption. }
    destruct (j_depth j) as [|[[p|p|]|[p|[p|p|]|]|]|p]; try exact Logic.I; destruct t; try exact Logic.I; try exact G3; try exact G4.
    all: first
      [ solve [split; [reflexivity|exact R]]
      | solve [destruct only_values; [apply ok_reset; exact R|apply ok_call; intros w1; apply ok_reset; exact R]]
      | solve [destruct (is (j_key j) "remote"); [split; [reflexivity|exact R]|]; destruct (is (j_key j) "local"); [split; [reflexivity|exact R]|exact Logic.I]]
      | pose proof (ok_reset j R) as [A B]; split; [exact A|exact B] ].
  Qed.

  Lemma ok_append label type l : forall w, okp (append_all api label type l w) (fun _ => True).
  Proof. induction l as [|a l IH]; intros w; cbn [append_all]; [exact Logic.I|]. eapply okp_bind; [apply (ok_call _ _ (fun _ => True)); auto|]. intros [_ w1] _. apply IH. Qed.
  Lemma ok_event_2 j w t d : okr (j_route j) -> okp (event_clause_2 api only_values j w t d) (same j).
  Proof.
    intros R. unfold event_clause_2.
    destruct (j_depth j) as [|[[p|p|]|[p|[p|p|]|]|]|p]; try exact Logic.I; destruct t; try exact Logic.I.
    - destruct (is _ _); [destruct only_values; [s0|apply ok_call; intros; s0]|]. destruct (negb _); [|exact Logic.I]. destruct (MAX_LABEL <? _); [exact Logic.I|]. destruct only_values; [s0|].
      destruct (a_post_actions api d w); [|exact Logic.I]. eapply okp_bind; [apply ok_append|]. intros w1 _. s0.
    - destruct (j_section j); try exact Logic.I. s0.
    - destruct (j_section j); try exact Logic.I. destruct (MAX_LABEL <? _); [exact Logic.I|]. destruct only_values; [s0|apply ok_call; intros; s0].
    - destruct (j_section j); try exact Logic.I. destruct (_ =? 0); [exact Logic.I|s0].
    - apply ok_reset. exact R.
  Qed.
  Lemma ok_event j w t d : okr (j_route j) -> text t d -> okp (event_clause api cv only_values j w t d) (same j).
  Proof.
    intros R TX. unfold event_clause.
    assert (TI : okp (bind (insert_event api only_values (j_event j) w) (fun '(e, w) => event_clause_2 api only_values (with_event j e) w t d)) (same j)).
    { apply okp_bind with (P := fun _ => True).
      - unfold insert_event. destruct (ev_inserted _); [exact Logic.I|]. destruct only_values; [exact Logic.I|]. apply ok_call. auto.
      - intros [e1 w1] _. apply (ok_event_2 (with_event j e1)). exact R. }
    assert (CI : okp (match j_section j with
        | S_EVENTCONFIG =>
          if (j_depth j =? 4) || (j_depth j =? 5) then
            do (c, j1, w) <- eventconfig_clause api cv j w t d (ev_config (j_event j));
            Good (with_event j1 (mkEv (ev_label (j_event j)) (ev_priority (j_event j)) c (ev_configed (j_event j)) (ev_inserted (j_event j)) (ev_list (j_event j))), w)
          else if (j_depth j =? 3) && (match t with JSON_OBJECT_END => true | _ => false end) then Good (with_section j S_NONE, w)
          else bind (insert_event api only_values (j_event j) w) (fun '(e, w) => event_clause_2 api only_values (with_event j e) w t d)
        | _ => bind (insert_event api only_values (j_event j) w) (fun '(e, w) => event_clause_2 api only_values (with_event j e) w t d)
        end) (same j)).
    { destruct (j_section j); try exact TI. destruct ((j_depth j =? 4) || _).
      - eapply okp_bind; [apply ok_eventconfig; exact TX|]. intros [[c1 j1] w1] [A B]. cbn [fst snd] in *. split; cbn; [exact A|rewrite B; exact R].
      - destruct (_ && _); [s0|exact TI]. }
    destruct (j_object j).
    - destruct (j_depth j) as [|[[p|p|]|p|]|p]; try exact Logic.I; destruct t; try exact Logic.I; s0.
    - exact Logic.I.
    - cbv zeta. destruct (j_depth j) as [|[[p|p|]|[p|[p|p|]|]|]|p]; try exact CI; destruct t; try exact CI.
      + destruct (is _ _); [|exact Logic.I]. destruct (ev_inserted _); [exact Logic.I|]. eapply okp_bind; [apply okp_number, ub16|]. intros n _. s0.
      + destruct (is _ _); [|exact CI]. destruct (MAX_LABEL <=? _); [exact Logic.I|s0].
      + destruct (j_section j); try exact CI. destruct (is _ _); [|exact CI]. destruct (ev_inserted _); [exact Logic.I|s0].
    - exact Logic.I.
  Qed.
  Lemma ok_policies j w t d : okr (j_route j) -> okp (defaultpolicy_clause api only_values j w t d) (same j).
  Proof.
    intros R. unfold defaultpolicy_clause.
    assert (M : forall (A : Type) (P : A -> Prop) (a b : A), P a -> P b -> P (match t with JSON_OBJECT_END => a | _ => b end)) by (intros; destruct t; assumption).
    apply (M _ (fun r => okp r (same j))); clear M; [cbv zeta; destruct (negb _); [apply ok_call; intros; s0|s0]|].
    { destruct (is _ _).
      - apply okp_bind with (P := fun _ => True); [|intros p _; s0]. unfold policy_of. destruct t; try exact Logic.I. destruct (is _ _); [exact Logic.I|]. destruct (is _ _); [exact Logic.I|]. destruct (is _ _); exact Logic.I.
      - destruct (is _ _); [|exact Logic.I]. destruct only_values; [s0|apply ok_call; intros; s0]. }
  Qed.
  Lemma ok_user_value j w t d : okr (j_route j) -> okp (user_value_clause api cv j w t d) (same j).
  Proof.
    intros R. unfold user_value_clause. cbv zeta.
    destruct (_ && _); [s0|]. destruct (_ && _); [apply ok_reset; exact R|]. destruct (_ && _); [s0|]. destruct (_ && _).
    { unfold value_plain. assert (AD : forall w, okp (match cv_double cv t d with Some v => call (with_object j O_NONE) (a_store api (j_key j) (UDouble v) w) | None => Err end) (same j)) by (intros w1; destruct (cv_double cv t d); [apply ok_call; intros; s0|exact Logic.I]).
      destruct t; try exact Logic.I; try s0; try (apply ok_call; intros; s0).
      - pose proof (sb64 JSON_NUMBER d). destruct (convert_sint64 JSON_NUMBER d) as [i| | |]; try congruence; try apply AD. destruct (a_store api (j_key j) (USint i) w) as [r w1]. destruct (r =? 0); [s0|apply AD].
      - destruct (MAX_VALUE <=? _); [exact Logic.I|]. apply ok_call; intros; s0. }
    match goal with |- context [with_dom (with_section j ?a) ?b] => set (j1 := if _ && _ && is _ _ then with_dom (with_section j a) b else j) end.
    assert (S1 : j_key j1 = j_key j /\ j_route j1 = j_route j) by (unfold j1; destruct (_ && _ && is _ _); split; reflexivity). destruct S1 as [K1 R1]. clearbody j1.
    destruct (_ && _).
    - unfold value_json. destruct (dom_step cv t d (j_dom j1)) as [r x]. destruct (r <? 0); [exact Logic.I|]. destruct (_ =? 3); [|s2]. destruct (dom_value cv x); [|exact Logic.I]. apply ok_call. intros. s2.
    - destruct (_ && _); [|exact Logic.I]. unfold Loader.value_member. destruct (negb _); [exact Logic.I|]. destruct (negb _); [exact Logic.I|].
      destruct (is _ _); [eapply okp_bind; [apply okp_number, ub64|]; intros n _; apply ok_call; intros; s2|].
      destruct (is _ _); [eapply okp_bind; [apply okp_number, sb64|]; intros n _; apply ok_call; intros; s2|].
      destruct (is _ _); [destruct (cv_double cv t d); [apply ok_call; intros; s2|exact Logic.I]|].
      destruct (is _ _); [destruct (MAX_VALUE <=? _); [exact Logic.I|apply ok_call; intros; s2]|].
      destruct (is _ _); [destruct (MAX_VALUE <=? _); [exact Logic.I|apply ok_call; intros; s2]|]. exact Logic.I.
  Qed.
  Lemma ok_section j w t d : okr (j_route j) -> okp (section_start j w t d) (same j).
  Proof.
    intros R. unfold section_start. destruct (_ && _); [|exact Logic.I].
    assert (V0 : okp (if negb (j_depth j =? 1) then Err else if is (j_key j) "wolfsentry-config-version" then do v <- number (convert_uint32 t d); if v =? 1 then Good (with_version j 1, w) else Err else Err) (same j)).
    { destruct (negb _); [exact Logic.I|]. destruct (is _ _); [|exact Logic.I]. eapply okp_bind; [apply okp_number, ub32|]. intros n _. destruct (n =? 1); [s0|exact Logic.I]. }
    destruct t; try exact Logic.I; try exact V0.
    - clear V0. destruct (j_version j =? 0); [exact Logic.I|]. destruct (negb (j_depth j =? 2)); [exact Logic.I|]. destruct (_ || _); [s0|]. destruct (_ || _); [s0|exact Logic.I].
    - clear V0. destruct (j_version j =? 0); [exact Logic.I|]. destruct (negb (j_depth j =? 2)); [exact Logic.I|]. destruct (is _ _); [s0|]. destruct (is _ _); [s0|]. destruct (is _ _); [s0|exact Logic.I].
  Qed.
  Lemma ok_value j w t d : safe j -> text t d -> okp (process_value api cv only_values j w t d) (same j).
  Proof.
    intros SJ TX. pose proof SJ as (PK & NB & R). unfold process_value.
    assert (M : forall (A : Type) (P : A -> Prop) (a b c : A), P a -> P b -> P c -> P (match t, j_depth j with JSON_OBJECT_BEG, 1 => a | JSON_OBJECT_END, 0 => b | _, _ => c end)) by (intros; destruct t; try assumption; destruct (j_depth j) as [|[p|p|]|p]; assumption).
    apply (M _ (fun r => okp r (same j))); clear M; [s0|apply ok_reset; exact R|].
    { destruct (j_table j).
      - apply ok_section. exact R.
      - eapply okp_bind; [apply ok_eventconfig; exact TX|]. intros [[c1 j1] w1] [A B]. cbn [fst snd] in *. split; cbn; [exact A|rewrite B; exact R].
      - destruct t; try (apply ok_event; assumption). destruct (_ =? 1); [s0|apply ok_event; assumption].
      - apply ok_policies. exact R.
      - destruct t; try (apply ok_route; assumption). destruct (_ =? 1); [s0|apply ok_route; assumption].
      - destruct t; try (apply ok_user_value; assumption). destruct (_ =? 1); [s0|apply ok_user_value; assumption]. }
  Qed.
  Lemma ok_process t d j w : safe j -> text t d -> (t = JSON_KEY -> is (upto_nul d) "bitmask" = false) -> okp (process api cv only_values t d (j, w)) (fun x => safe (fst x)).
  Proof.
    intros SJ TX NB. pose proof SJ as (PK & NB' & R).
    assert (K : forall r, okp r (same j) -> okp r (fun x => safe (fst x))) by (intros [x| |]; cbn; auto; intros [A B]; unfold safe; rewrite A; auto).
    assert (TK : t = JSON_KEY \/ t <> JSON_KEY) by (destruct t; auto; right; discriminate). destruct TK as [-> |TK].
    - cbn [Loader.process].
      assert (G : okp (if MAX_LABEL <=? Z.of_nat (List.length d) then Err else Good (with_key j (upto_nul d) (j_depth j), w)) (fun x => safe (fst x))) by (destruct (MAX_LABEL <=? _); [exact Logic.I|]; cbn; repeat split; cbn; [apply upto_nul_positive|apply NB; reflexivity|apply R|apply R]).
      destruct (j_section j); try exact G. apply K, ok_user_value. exact R.
    - assert (X : process api cv only_values t d (j, w) = process_value api cv only_values (with_depth j (j_depth j + deeper t)) w t d) by (destruct t; try reflexivity; congruence). rewrite X.
      apply K. apply (ok_value (with_depth j (j_depth j + deeper t))); [exact SJ|exact TX].
  Qed.
  Lemma ok_run evs : forall j w, safe j -> (forall t d, In (t, d) evs -> text t d) -> (forall d, In (JSON_KEY, d) evs -> is (upto_nul d) "bitmask" = false) -> run api cv only_values evs (j, w) <> Bad.
  Proof.
    induction evs as [|[t d] evs IH]; intros j w SJ TX NB; cbn [run]; [discriminate|].
    pose proof (ok_process t d j w SJ (TX t d (or_introl eq_refl)) (fun e => NB d (or_introl (f_equal (fun t => (t, d)) e)))) as H.
    destruct (process api cv only_values t d (j, w)) as [[j1 w1]| |]; cbn [bind okp fst] in *; [|discriminate|contradiction]. apply IH; [exact H| |]; intros; [apply TX|apply NB]; right; assumption.
  Qed.
End Safe.
