(** Lemmas for C63: members of "user-values", the section "default-policies", the document. *)
Require Import ZArith NArith List Bool String Lia.
From Verif Require Import Json JsonSpec JsonGrammar Convert EventConfig Loader LoaderSpec LoaderProofs LoaderEvents LoaderRoutes LoaderValues.
From Verif Require JsonText Table Names DomProofs.
Import ListNotations.
Open Scope Z_scope.

Section Doc.
  Context {W D V F : Type}.
  Variable api : calls W V F.
  Variable cv : converters W D V F.
  Variable only_values : bool.
  Notation jps := (jps D).
  Notation process := (process api cv only_values).
  Notation run := (run api cv only_values).
  Notation members ms := (flat_map (fun m => (JSON_KEY, snd (fst m)) :: events (snd m)) ms).

  Section Lists.
  Variables (dflt : econf) (pol : N).
  Notation Uv := (Uv (D := D) dflt pol).
  Notation Js := (Js (D := D) dflt pol).

  (** ** User values *)
  Definition P_members label (w : W) (x : jps * W) : Prop := exists key kd dom, x = (Uv O_USER_VALUE S_NONE 3 key kd dom label, w).
  Definition Q_members label k (w : W) (x : jps * W) : Prop := exists dom, x = (Uv O_USER_VALUE S_NONE 3 k 3 dom label, w).
  Definition kept label (k : list Z) (w : W) (r : Z * D) : res (jps * W) :=
    if fst r <? 0 then Err else match dom_value cv (snd r) with None => Err | Some v => call (Uv O_USER_VALUE S_NONE 3 k 3 (snd r) label) (a_store api label (UJson v) w) end.
  Lemma json_scalar t d k dom label w : is k "json" = true -> t <> JSON_KEY -> deeper t = 0 ->
    process t d (Uv O_USER_VALUE S_NONE 3 k 3 dom label, w) = kept label k w (dom_step cv t d (dom_init cv)).
  Proof.
    intros J NK DT. assert (X : process t d (Uv O_USER_VALUE S_NONE 3 k 3 dom label, w) = user_value_clause api cv (Uv O_USER_VALUE S_NONE 3 k 3 dom label) w t d) by (destruct t; try discriminate; try congruence; reflexivity). rewrite X. clear X.
    unfold user_value_clause. cbn -[is value_json Z.leb Loader.value_member]. rewrite J. change (3 <=? 3) with true. cbn -[is value_json]. unfold value_json, kept. cbn [j_dom with_dom with_section LoaderValues.Uv j_depth].
    destruct (dom_step cv t d (dom_init cv)) as [r x]. reflexivity.
  Qed.
  Lemma json_first t d k dom label w : is k "json" = true -> deeper t = 1 ->
    process t d (Uv O_USER_VALUE S_NONE 3 k 3 dom label, w) = if fst (dom_step cv t d (dom_init cv)) <? 0 then Err else Good (Js 4 (snd (dom_step cv t d (dom_init cv))) k label, w).
  Proof.
    intros J DT. assert (X : process t d (Uv O_USER_VALUE S_NONE 3 k 3 dom label, w) = user_value_clause api cv (Uv O_USER_VALUE S_NONE 4 k 3 dom label) w t d) by (destruct t; try discriminate; reflexivity). rewrite X. clear X.
    unfold user_value_clause. cbn -[is value_json Z.leb Loader.value_member]. rewrite J. change (3 <=? 4) with true. cbn -[is value_json]. unfold value_json. cbn [j_dom with_dom with_section LoaderValues.Uv j_depth].
    destruct (dom_step cv t d (dom_init cv)) as [r x]. cbn. destruct (r <? 0); reflexivity.
  Qed.
  Lemma json_last t d k dom label w : deeper t = -1 -> process t d (Js 4 dom k label, w) = kept label k w (dom_step cv t d dom).
  Proof.
    intros DT. assert (X : process t d (Js 4 dom k label, w) = user_value_clause api cv (Js 3 dom k label) w t d) by (destruct t; try discriminate; reflexivity). rewrite X. clear X.
    unfold user_value_clause. cbn -[is value_json Z.leb Loader.value_member]. change (3 <=? 3) with true. cbn -[is value_json]. unfold value_json, kept. cbn [j_dom with_dom with_section LoaderValues.Uv LoaderValues.Js j_depth].
    destruct (dom_step cv t d dom) as [r x]. reflexivity.
  Qed.
  Lemma json_run v k dom label w : is k "json" = true ->
    run (events v) (Uv O_USER_VALUE S_NONE 3 k 3 dom label, w) = kept label k w (deliver (dom_step cv) 0 (dom_init cv) (events v)).
  Proof.
    intros J.
    assert (SC : forall t d, t <> JSON_KEY -> deeper t = 0 -> run [(t, d)] (Uv O_USER_VALUE S_NONE 3 k 3 dom label, w) = kept label k w (deliver (dom_step cv) 0 (dom_init cv) [(t, d)])).
    { intros t d NK DT. rewrite run_one, json_scalar by assumption. cbn [deliver]. change (0 <? 0) with false. cbn iota. destruct (dom_step cv t d (dom_init cv)); reflexivity. }
    assert (CT : forall t t' evs, deeper t = 1 -> deeper t' = -1 -> follows api cv only_values dflt pol 4 evs 4 ->
      run ((t, []) :: evs ++ [(t', [])]) (Uv O_USER_VALUE S_NONE 3 k 3 dom label, w) = kept label k w (deliver (dom_step cv) 0 (dom_init cv) ((t, []) :: evs ++ [(t', [])]))).
    { intros t t' evs D1 D2 FE. rewrite run_cons, json_first by assumption. cbn [deliver]. change (0 <? 0) with false. cbn iota. destruct (dom_step cv t [] (dom_init cv)) as [r x]. cbn [fst snd].
      destruct (r <? 0) eqn:R.
      - apply Z.ltb_lt in R. rewrite DomProofs.deliver_stop by exact R. cbn [bind]. unfold kept. cbn [fst]. apply Z.ltb_lt in R. rewrite R. reflexivity.
      - cbn [bind]. rewrite run_app, FE. rewrite DomProofs.deliver_app. apply Z.ltb_ge in R. destruct (deliver_code cv evs r x R) as [X1 X2]. rewrite X2. rewrite <- X1.
        destruct (fst (deliver (dom_step cv) r x evs) <? 0) eqn:R2.
        + apply Z.ltb_lt in R2. rewrite DomProofs.deliver_stop by exact R2. cbn [bind]. unfold kept. cbn [fst]. apply Z.ltb_lt in R2. rewrite R2. reflexivity.
        + cbn [bind]. rewrite run_one, json_last by exact D2. cbn [deliver]. rewrite R2. destruct (dom_step cv t' [] _); reflexivity. }
    destruct v as [| | |l|r d|vs|ms]; cbn [events]; try (apply SC; [discriminate|reflexivity]); (apply CT; [reflexivity|reflexivity|]).
    - induction vs as [|v vs IH]; cbn [flat_map]; [apply follows_nil|]. apply (follows_app _ _ _ _ _ _ _ 4); [apply follows_value; lia|exact IH].
    - induction ms as [|[[rr k'] v] ms IH]; cbn [flat_map]; [apply follows_nil|]. apply (follows_app _ _ _ _ _ _ _ 4); [|exact IH]. cbn [fst snd].
      apply (follows_app _ _ _ _ _ _ [(JSON_KEY, k')] 4); [apply (follows_one api cv only_values dflt pol 4 JSON_KEY k'); cbn [deeper]; lia|apply follows_value; lia].
  Qed.

  Lemma shorter_value d : (MAX_VALUE <=? Z.of_nat (List.length d)) = negb (shorter MAX_VALUE d).
  Proof. unfold shorter. destruct (Z.ltb_spec (Z.of_nat (List.length d)) MAX_VALUE), (Z.leb_spec MAX_VALUE (Z.of_nat (List.length d))); try reflexivity; lia. Qed.

  Lemma member_agrees label k v w x : Q_members label k w x -> agrees (value_type api cv label k v w) (run (events v) x) (P_members label).
  Proof.
    intros (dom & ->). unfold value_type. destruct (is k "json") eqn:J.
    - rewrite json_run by exact J. unfold kept. destruct (deliver (dom_step cv) 0 (dom_init cv) (events v)) as [r x]. cbn [fst snd]. unfold require.
      destruct (Z.leb_spec 0 r), (Z.ltb_spec r 0); try lia; cbn [andthen]; [|cbn; discriminate]. destruct (dom_value cv x); cbn [given andthen]; [|cbn; discriminate].
      eapply agrees_weaken; [apply agrees_call|]. intros w1 y ->. exists k, 3, x. reflexivity.
    - assert (ST : forall u, agrees (does (a_store api label u w)) (call (Uv O_USER_VALUE S_NONE 3 k 3 dom label) (a_store api label u w)) (P_members label)).
      { intros u. eapply agrees_weaken; [apply agrees_call|]. intros w1 y ->. exists k, 3, dom. reflexivity. }
      destruct (scalar v) as [[t d]|] eqn:SV.
      + rewrite (scalar_events v t d SV), run_one. pose proof (scalar_typed v t d SV) as S1.
        assert (X : process t d (Uv O_USER_VALUE S_NONE 3 k 3 dom label, w) = user_value_clause api cv (Uv O_USER_VALUE S_NONE 3 k 3 dom label) w t d) by (destruct t; try discriminate; reflexivity). rewrite X. clear X.
        assert (X : user_value_clause api cv (Uv O_USER_VALUE S_NONE 3 k 3 dom label) w t d = Loader.value_member api cv (Uv O_USER_VALUE S_NONE 3 k 3 dom label) w t d).
        { unfold user_value_clause. cbn -[is value_json Z.leb Loader.value_member]. rewrite J. cbn -[is Loader.value_member]. reflexivity. }
        rewrite X. clear X. unfold Loader.value_member. cbn [j_key j_keydepth LoaderValues.Uv j_label]. change (3 =? 3) with true. cbn [negb].
        assert (X : match v with VNum d => Some (JSON_NUMBER, d) | VStr _ d => Some (JSON_STRING, d) | _ => None end = if numeric_type t then Some (t, d) else None) by (destruct v; try discriminate; injection SV as <- <-; reflexivity).
        rewrite X. clear X. destruct (numeric_type t); cbn [given andthen negb]; [|cbn; discriminate].
        destruct (is k "uint"); [eapply agrees_bind; [apply agrees_num|]; intros n ? <-; apply ST|].
        destruct (is k "sint"); [eapply agrees_bind; [apply agrees_num|]; intros n ? <-; apply ST|].
        destruct (is k "float"); [destruct (cv_double cv t d); cbn [given andthen]; [apply ST|cbn; discriminate]|].
        rewrite shorter_value. unfold require. destruct (is k "string"); [destruct (shorter MAX_VALUE d); cbn [negb andthen]; [apply ST|cbn; discriminate]|].
        destruct (is k "base64"); [destruct (shorter MAX_VALUE d); cbn [negb andthen]; [apply ST|cbn; discriminate]|]. cbn. discriminate.
      + assert (X : match v with VNum d => Some (JSON_NUMBER, d) | VStr _ d => Some (JSON_STRING, d) | _ => None end = None) by (destruct v; try discriminate; reflexivity). rewrite X. cbn [given andthen agrees]. intros y.
        destruct v as [| | |dd|rr data|vs|ms]; try discriminate SV; cbn [events]; rewrite run_cons.
        * assert (Y : process JSON_ARRAY_BEG [] (Uv O_USER_VALUE S_NONE 3 k 3 dom label, w) = Err); [|rewrite Y; discriminate].
          transitivity (user_value_clause api cv (Uv O_USER_VALUE S_NONE 4 k 3 dom label) w JSON_ARRAY_BEG []); [reflexivity|]. unfold user_value_clause. cbn -[is value_json Z.leb Loader.value_member]. rewrite J. cbn -[is Loader.value_member Z.leb]. rewrite ?andb_false_r. reflexivity.
        * assert (Y : process JSON_OBJECT_BEG [] (Uv O_USER_VALUE S_NONE 3 k 3 dom label, w) = Err); [|rewrite Y; discriminate].
          transitivity (user_value_clause api cv (Uv O_USER_VALUE S_NONE 4 k 3 dom label) w JSON_OBJECT_BEG []); [reflexivity|]. unfold user_value_clause. cbn -[is value_json Z.leb Loader.value_member]. rewrite J. cbn -[is Loader.value_member Z.leb]. rewrite ?andb_false_r. reflexivity.
  Qed.

  Definition P_values (w : W) (x : jps * W) : Prop := exists key kd dom, x = (Uv O_NONE S_NONE 2 key kd dom [], w).
  Definition Q_values k (w : W) (x : jps * W) : Prop := exists dom, x = (Uv O_NONE S_NONE 2 k 2 dom [], w).
  Lemma value_agrees k v w x : Q_values k w x -> agrees (LoaderSpec.value_member api cv k v w) (run (events v) x) P_values.
  Proof.
    intros (dom & ->).
    assert (ST : forall u w, agrees (does (a_store api k u w)) (call (Uv O_NONE S_NONE 2 k 2 dom []) (a_store api k u w)) P_values).
    { intros u w1. eapply agrees_weaken; [apply agrees_call|]. intros w2 y ->. exists k, 2, dom. reflexivity. }
    destruct (scalar v) as [[t d]|] eqn:SV.
    - rewrite (scalar_events v t d SV), run_one. pose proof (scalar_typed v t d SV) as S1.
      assert (X : process t d (Uv O_NONE S_NONE 2 k 2 dom [], w) = value_plain api cv (Uv O_NONE S_NONE 2 k 2 dom []) w t d) by (destruct t; try discriminate; reflexivity). rewrite X. clear X.
      unfold value_plain. cbn [j_key LoaderValues.Uv]. change (with_object (Uv O_NONE S_NONE 2 k 2 dom []) O_NONE) with (Uv O_NONE S_NONE 2 k 2 dom []).
      destruct v as [| | |dd|rr data|vs|ms]; try discriminate SV; injection SV as <- <-; cbn [LoaderSpec.value_member]; try apply ST.
      + assert (AD : forall w1, agrees (let+ f := given (cv_double cv JSON_NUMBER dd) in does (a_store api k (UDouble f) w1)) (match cv_double cv JSON_NUMBER dd with Some v => call (Uv O_NONE S_NONE 2 k 2 dom []) (a_store api k (UDouble v) w1) | None => Err end) P_values).
        { intros w1. destruct (cv_double cv JSON_NUMBER dd); cbn [given andthen]; [apply ST|cbn; discriminate]. }
        destruct (convert_sint64 JSON_NUMBER dd) as [i| | |]; [|apply AD|apply AD|exact Logic.I]. destruct (a_store api k (USint i) w) as [r w1]. cbn [fst snd]. destruct (r =? 0); [|apply AD]. cbn. eexists. split; [reflexivity|]. exists k, 2, dom. reflexivity.
      + rewrite shorter_value. unfold require. destruct (shorter MAX_VALUE data); cbn [negb andthen]; [apply ST|cbn; discriminate].
    - destruct v as [| | |dd|rr data|vs|ms]; try discriminate SV; cbn [LoaderSpec.value_member].
      + cbn [agrees]. intros y. apply (array_refused api cv only_values T_USER_VALUES); [right; reflexivity|reflexivity|reflexivity].
      + cbn [events]. rewrite run_cons. assert (X : process JSON_OBJECT_BEG [] (Uv O_NONE S_NONE 2 k 2 dom [], w) = Good (Uv O_USER_VALUE S_NONE 3 k 2 dom k, w)) by reflexivity. rewrite X. cbn [bind]. rewrite run_app.
        assert (EM : forall (m : meaning W), andthen m Means = m) by (intros [?| |]; reflexivity). rewrite <- (EM (each_member _ ms w)). eapply agrees_bind.
        * apply (agrees_members api cv only_values _ (P_members k) (Q_members k)); [| |exists k, 2, dom; reflexivity].
          -- intros k' w' y (key' & kd' & dom' & ->). pose proof (process_key api cv only_values (Uv O_USER_VALUE S_NONE 3 key' kd' dom' k) w' k' ltac:(discriminate)) as H. destruct (32 <=? _); [exact H|]. eexists. split; [exact H|]. exists dom'. reflexivity.
          -- intros k' v a y _ HQ. apply member_agrees. exact HQ.
        * intros w1 y (key' & kd' & dom' & ->). rewrite run_one. cbn. eexists. split; [reflexivity|]. exists key', kd', dom'. reflexivity.
  Qed.
  Lemma values_section ms w key kd dom :
    agrees (each_member (LoaderSpec.value_member api cv) ms w)
      (run (members ms ++ [(JSON_OBJECT_END, [])]) (Uv O_NONE S_NONE 2 key kd dom [], w))
      (fun w x => exists key kd dom, x = (mkJ 1 T_NONE O_NONE S_NONE 1 key kd dflt pol dom zero_route zero_event [], w)).
  Proof.
    rewrite run_app. assert (EM : forall (m : meaning W), andthen m Means = m) by (intros [?| |]; reflexivity). rewrite <- (EM (each_member _ ms w)). eapply agrees_bind.
    - apply (agrees_members api cv only_values _ P_values Q_values); [| |exists key, kd, dom; reflexivity].
      + intros k' w' y (key' & kd' & dom' & ->). pose proof (process_key api cv only_values (Uv O_NONE S_NONE 2 key' kd' dom' []) w' k' ltac:(discriminate)) as H. destruct (32 <=? _); [exact H|]. eexists. split; [exact H|]. exists dom'. reflexivity.
      + intros k' v a y _ HQ. apply value_agrees. exact HQ.
    - intros w1 y (key' & kd' & dom' & ->). rewrite run_one. cbn. eexists. split; [reflexivity|]. exists key', kd', dom'. reflexivity.
  Qed.
  End Lists.

  (** ** Default policies *)
  Definition doomed (j : jps) : Prop := j_table j = T_NONE /\ 2 <= j_depth j /\ j_keydepth j <> 1 /\ j_section j = S_NONE.
  Definition mid (n : Z) (j : jps) : Prop := j_table j = T_DEFAULTPOLICIES /\ j_depth j = n /\ j_keydepth j <> 1 /\ j_section j = S_NONE.
  Lemma doomed_step t d j w y : doomed j -> process t d (j, w) = Good y -> t = JSON_KEY /\ doomed (fst y).
  Proof.
    intros (T & DP & KD & SE) E. assert (TK : t = JSON_KEY \/ t <> JSON_KEY) by (destruct t; auto; right; discriminate). destruct TK as [-> |TK].
    - split; [reflexivity|]. cbn [Loader.process] in E. rewrite SE in E. destruct (MAX_LABEL <=? _); [discriminate|]. injection E as <-. repeat split; cbn; auto; lia.
    - exfalso. assert (X : process t d (j, w) = process_value api cv only_values (with_depth j (j_depth j + deeper t)) w t d) by (destruct t; try reflexivity; congruence). rewrite X in E. clear X.
      assert (N : section_start (with_depth j (j_depth j + deeper t)) w t d = Err). { unfold section_start. cbn [j_keydepth with_depth]. destruct (Z.eqb_spec (j_keydepth j) 1); [contradiction|]. reflexivity. }
      unfold process_value in E. cbn [j_table with_depth] in E. rewrite T in E. rewrite N in E. cbn [j_depth with_depth] in E. destruct t; try discriminate; cbn [deeper] in E.
      + destruct (j_depth j + 1) as [|[p|p|]|p] eqn:Q; try discriminate; lia.
      + destruct (j_depth j + -1) as [|[p|p|]|p] eqn:Q; try discriminate; lia.
  Qed.
  Lemma doomed_run evs : forall j w y, doomed j -> run evs (j, w) = Good y -> (forall t d, In (t, d) evs -> t = JSON_KEY) /\ doomed (fst y).
  Proof.
    induction evs as [|[t d] evs IH]; intros j w y DJ E; [injection E as <-; split; [intros ? ? []|exact DJ]|]. rewrite run_cons in E.
    destruct (process t d (j, w)) as [[j1 w1]| |] eqn:E1; try discriminate. destruct (doomed_step _ _ _ _ _ DJ E1) as [-> D1]. destruct (IH _ _ _ D1 E) as [A B]. split; [|exact B]. intros t' d' [[= <- <-]|I]; [reflexivity|exact (A t' d' I)].
  Qed.
  Lemma mid_step t d n j w y : mid n j -> 2 <= n + deeper t -> process t d (j, w) = Good y ->
    match t with JSON_OBJECT_END => doomed (fst y) | _ => mid (n + deeper t) (fst y) end.
  Proof.
    intros (T & DP & KD & SE) N E. assert (TK : t = JSON_KEY \/ t <> JSON_KEY) by (destruct t; auto; right; discriminate). destruct TK as [-> |TK].
    - cbn [Loader.process deeper] in *. rewrite SE in E. destruct (MAX_LABEL <=? _); [discriminate|]. injection E as <-. cbn. unfold mid. cbn. repeat split; auto; lia.
    - assert (X : process t d (j, w) = process_value api cv only_values (with_depth j (j_depth j + deeper t)) w t d) by (destruct t; try reflexivity; congruence). rewrite X in E. clear X.
      rewrite DP in E. rewrite process_value_deep in E by exact N. cbn [j_table with_depth] in E. rewrite T in E. unfold defaultpolicy_clause in E. cbn [j_key j_policy with_depth with_table] in E.
      assert (G : (if is (j_key j) "default-policy" then do p <- policy_of t d; Good (with_policy (with_depth j (n + deeper t)) p, w)
        else if is (j_key j) "default-event" then if only_values then Good (with_depth j (n + deeper t), w) else call (with_depth j (n + deeper t)) (a_default_event api d w) else Err) = Good y -> mid (n + deeper t) (fst y)).
      { destruct (is (j_key j) "default-policy").
        - destruct (policy_of t d); try discriminate. intros [= <-]. repeat split; assumption.
        - destruct (is (j_key j) "default-event"); [|discriminate]. destruct only_values; [intros [= <-]; repeat split; assumption|]. unfold call. destruct (fst _ <? 0); [discriminate|]. intros [= <-]. repeat split; assumption. }
      destruct t; try (exact (G E)); try congruence.
      destruct (N.eqb (j_policy j) 0); cbn [negb] in E; [injection E as <-; repeat split; assumption|]. unfold call in E. destruct (fst _ <? 0); [discriminate|]. injection E as <-. repeat split; assumption.
  Qed.
  Definition outcome n (plain : bool) (y : jps * W) : Prop := plain = true /\ mid n (fst y) \/ plain = false /\ doomed (fst y).
  Lemma mid_value v : forall n j w y, 2 <= n -> mid n j -> run (events v) (j, w) = Good y -> outcome n (no_object v) y.
  Proof.
    assert (SC : forall t d n j w y, deeper t = 0 -> 2 <= n -> mid n j -> run [(t, d)] (j, w) = Good y -> outcome n true y).
    { intros t d n j w y DT N M E. rewrite run_one in E. apply (mid_step t d n) in E; [|exact M|lia]. left. split; [reflexivity|]. rewrite DT, Z.add_0_r in E. destruct t; try exact E; discriminate. }
    assert (CT : forall t t' evs n j w y plain, deeper t = 1 -> t = JSON_ARRAY_BEG /\ t' = JSON_ARRAY_END \/ t = JSON_OBJECT_BEG /\ t' = JSON_OBJECT_END -> 2 <= n -> mid n j ->
      (forall j w y, mid (n + 1) j -> run evs (j, w) = Good y -> plain = true /\ mid (n + 1) (fst y) \/ plain = false /\ doomed (fst y) \/ t = JSON_OBJECT_BEG /\ (mid (n + 1) (fst y) \/ doomed (fst y))) ->
      run ((t, []) :: evs ++ [(t', [])]) (j, w) = Good y -> match t with JSON_OBJECT_BEG => doomed (fst y) | _ => plain = true /\ mid n (fst y) end).
    { intros t t' evs n j w y plain D1 TT N M H E. rewrite run_cons in E. destruct (process t [] (j, w)) as [[j1 w1]| |] eqn:E1; try discriminate. cbn [bind] in E.
      apply (mid_step t [] n) in E1; [|exact M|lia]. assert (M1 : mid (n + 1) j1) by (destruct t; try discriminate; exact E1). clear E1.
      rewrite run_app in E. destruct (run evs (j1, w1)) as [[j2 w2]| |] eqn:E2; try discriminate. cbn [bind] in E. rewrite run_one in E. specialize (H _ _ _ M1 E2). cbn [fst] in H.
      assert (ND : ~ doomed j2). { intros X. destruct (doomed_step _ _ _ _ _ X E) as [-> _]. destruct TT as [[_ ?]|[_ ?]]; discriminate. }
      assert (M2 : mid (n + 1) j2) by tauto. destruct TT as [[-> ->]|[-> ->]].
      - apply (mid_step JSON_ARRAY_END [] (n + 1)) in E; [|exact M2|cbn [deeper]; lia]. cbn [deeper] in E. replace (n + 1 + -1) with n in E by lia. split; [|exact E]. destruct H as [[? _]|[[_ ?]|[? _]]]; [assumption|contradiction|discriminate].
      - apply (mid_step JSON_OBJECT_END [] (n + 1)) in E; [|exact M2|cbn [deeper]; lia]. exact E. }
    induction v as [| | |l|r d|vs H|ms H] using jvalue_ind'; intros n j w y N M E; try (eapply SC; [|exact N|exact M|exact E]; reflexivity); cbn [events] in E.
    - apply (CT _ _ _ n j w y (forallb no_object vs)) in E; [left; exact E|reflexivity|auto|exact N|exact M|]. clear E j w y M. assert (N' : 2 <= n + 1) by lia. clear N. revert N'. generalize (n + 1). intros m N' j w y M E.
      enough (X : forallb no_object vs = true /\ mid m (fst y) \/ forallb no_object vs = false /\ doomed (fst y)) by tauto. revert j w y M E. induction H as [|v vs Hv _ IH]; intros j w y M E; cbn [flat_map forallb] in *; [injection E as <-; left; auto|].
      rewrite run_app in E. destruct (run (events v) (j, w)) as [[j1 w1]| |] eqn:E1; try discriminate. cbn [bind] in E. apply (Hv m) in E1; [|exact N'|exact M]. destruct E1 as [[-> M1]|[-> D1]]; cbn [andb fst] in *; [exact (IH _ _ _ M1 E)|].
      right. split; [reflexivity|]. exact (proj2 (doomed_run _ _ _ _ D1 E)).
    - right. split; [reflexivity|]. apply (CT _ _ _ n j w y true) in E; [exact E|reflexivity|auto|exact N|exact M|]. clear E j w y M. assert (N' : 2 <= n + 1) by lia. clear N. revert N'. generalize (n + 1). intros m N' j w y M E. right; right. split; [reflexivity|].
      revert j w y M E. induction H as [|[[rr k] v] ms Hv _ IH]; intros j w y M E; cbn [flat_map fst snd] in *; [injection E as <-; left; auto|].
      cbn [app] in E. rewrite run_cons in E. destruct (process JSON_KEY k (j, w)) as [[j0 w0]| |] eqn:E0; try discriminate. cbn [bind] in E. apply (mid_step JSON_KEY k m) in E0; [|exact M|cbn [deeper]; lia]. cbn [deeper fst] in E0. rewrite Z.add_0_r in E0.
      rewrite run_app in E. destruct (run (events v) (j0, w0)) as [[j1 w1]| |] eqn:E1; try discriminate. cbn [bind] in E. apply (Hv m) in E1; [|exact N'|exact E0]. destruct E1 as [[_ M1]|[_ D1]]; cbn [fst] in *; [exact (IH _ _ _ M1 E)|].
      right. exact (proj2 (doomed_run _ _ _ _ D1 E)).
  Qed.

  Section Policies.
  Variable dflt : econf.
  Definition Dp dep key kd p dom : jps := mkJ 1 T_DEFAULTPOLICIES O_NONE S_NONE dep key kd dflt p dom zero_route zero_event [].
  Lemma ignored v k p dom w : only_values = true -> is k "default-event" = true -> no_object v = true -> forall n, 2 <= n -> run (events v) (Dp n k 2 p dom, w) = Good (Dp n k 2 p dom, w).
  Proof.
    intros O K. apply is_eq in K. subst k.
    assert (ST : forall t d n, t <> JSON_KEY -> t <> JSON_OBJECT_END -> 2 <= n + deeper t -> process t d (Dp n (JsonText.bytes "default-event") 2 p dom, w) = Good (Dp (n + deeper t) (JsonText.bytes "default-event") 2 p dom, w)).
    { intros t d n NK NO N. assert (X : process t d (Dp n (JsonText.bytes "default-event") 2 p dom, w) = process_value api cv only_values (Dp (n + deeper t) (JsonText.bytes "default-event") 2 p dom) w t d) by (destruct t; try reflexivity; congruence). rewrite X.
      rewrite process_value_deep by exact N. unfold defaultpolicy_clause. rewrite O. destruct t; try congruence; reflexivity. }
    induction v as [| | |l|r d|vs H|ms H] using jvalue_ind'; intros NB n N; cbn [events]; try (rewrite run_one, ST by (try discriminate; cbn [deeper]; lia); cbn [deeper]; rewrite Z.add_0_r; reflexivity); [|discriminate NB].
    rewrite run_cons, ST by (try discriminate; cbn [deeper]; lia). cbn [deeper bind]. rewrite run_app.
    assert (X : run (flat_map events vs) (Dp (n + 1) (JsonText.bytes "default-event") 2 p dom, w) = Good (Dp (n + 1) (JsonText.bytes "default-event") 2 p dom, w)).
    { cbn [no_object] in NB. assert (N' : 2 <= n + 1) by lia. revert NB. induction H as [|v vs Hv _ IH]; cbn [flat_map forallb]; intros NB; [reflexivity|]. apply andb_prop in NB. destruct NB as [B1 B2]. rewrite run_app, (Hv B1 _ N'). cbn [bind]. exact (IH B2). }
    rewrite X. cbn [bind]. rewrite run_one, ST by (try discriminate; cbn [deeper]; lia). cbn [deeper]. replace (n + 1 + -1) with n by lia. reflexivity.
  Qed.

  Hypothesis no_empty_event : forall w, fst (a_default_event api [] w) < 0.
  Lemma policies_section ms : forall p w key kd dom,
    agrees (let+ (p, w) := each_member (default_policy_member api only_values) ms (p, w) in let+ w := apply_policy api p w in Means (p, w))
      (run (members ms ++ [(JSON_OBJECT_END, [])]) (Dp 2 key kd p dom, w))
      (fun a x => exists key kd dom, x = (mkJ 1 T_NONE O_NONE S_NONE 1 key kd dflt (fst a) dom zero_route zero_event [], snd a)).
  Proof.
    induction ms as [|[[rr k] v] ms IH]; intros p w key kd dom; cbn [each_member flat_map app].
    - rewrite run_one. cbn -[call apply_policy]. unfold apply_policy. destruct (N.eqb p 0); cbn -[does]; [eexists; split; [reflexivity|]; exists key, kd, dom; reflexivity|].
      unfold does, call. destruct (fst (a_policy api p w) <? 0); cbn; [discriminate|]. eexists. split; [reflexivity|]. exists key, kd, dom. reflexivity.
    - cbn [fst snd]. rewrite run_cons. pose proof (process_key api cv only_values (Dp 2 key kd p dom) w k ltac:(discriminate)) as H. destruct (32 <=? _); [rewrite H; cbn; discriminate|].
      rewrite H. clear H. change (with_key (Dp 2 key kd p dom) (upto_nul k) (j_depth (Dp 2 key kd p dom))) with (Dp 2 (upto_nul k) 2 p dom). cbn [bind]. rewrite <- app_assoc, run_app. generalize (upto_nul k). clear k rr key kd. intros k.
      assert (GO : forall m r, agrees m r (fun a x => x = (Dp 2 k 2 (fst a) dom, snd a)) ->
        agrees (let+ (p0, w0) := (let+ a := m in each_member (default_policy_member api only_values) ms a) in let+ w1 := apply_policy api p0 w0 in Means (p0, w1)) (bind r (run (members ms ++ [(JSON_OBJECT_END, [])])))
          (fun a x => exists key kd dom, x = (mkJ 1 T_NONE O_NONE S_NONE 1 key kd dflt (fst a) dom zero_route zero_event [], snd a))).
      { intros m r A. destruct m as [[p1 w1]| |]; cbn [agrees andthen fst snd] in *; [destruct A as (x & -> & ->); cbn [bind]; apply IH|intros y E; destruct r as [x| |]; try discriminate; exact (A x eq_refl)|exact Logic.I]. }
      destruct (scalar v) as [[t d]|] eqn:SV.
      + apply GO. rewrite (scalar_events v t d SV), run_one. pose proof (scalar_typed v t d SV) as S1.
        assert (X : process t d (Dp 2 k 2 p dom, w) = defaultpolicy_clause api only_values (Dp 2 k 2 p dom) w t d) by (destruct t; try discriminate; reflexivity). rewrite X. clear X. unfold defaultpolicy_clause. cbn [j_key Dp].
        assert (X : forall (A : Type) (a b : A), match t with JSON_OBJECT_END => a | _ => b end = b) by (destruct t; try discriminate; reflexivity). rewrite X. clear X. unfold default_policy_member.
        destruct (is k "default-policy").
        * destruct v as [| | |dd|rr data|vs|ms']; try discriminate SV; injection SV as <- <-; cbn [policy_of bind]; try (cbn; discriminate).
          destruct (is data "accept"); [cbn; eexists; split; reflexivity|]. destruct (is data "reject"); [cbn; eexists; split; reflexivity|]. destruct (is data "reset"); cbn -[N.lor]; [eexists; split; reflexivity|discriminate].
        * destruct (is k "default-event"); [|cbn; discriminate]. destruct only_values.
          -- assert (NB : no_object v = true) by (destruct v; try discriminate SV; reflexivity). rewrite NB. cbn. eexists. split; reflexivity.
          -- rewrite SV. cbn [given andthen]. unfold call, does. destruct (fst _ <? 0); cbn; [discriminate|]. eexists. split; reflexivity.
      + assert (BEG : exists t evs, events v = (t, []) :: evs /\ deeper t = 1) by (destruct v; try discriminate SV; eexists _, _; split; reflexivity). destruct BEG as (t & evs & EV & DT).
        assert (X : process t [] (Dp 2 k 2 p dom, w) = defaultpolicy_clause api only_values (Dp 3 k 2 p dom) w t []) by (destruct t; try discriminate; reflexivity).
        unfold defaultpolicy_clause in X. cbn [j_key Dp] in X. assert (Y : forall (A : Type) (a b : A), match t with JSON_OBJECT_END => a | _ => b end = b) by (destruct t; try discriminate; reflexivity). rewrite Y in X. clear Y. unfold default_policy_member.
        destruct (is k "default-policy") eqn:K1.
        * assert (R : match v with VStr _ d => if is d "accept" then Means (1%N, w) else if is d "reject" then Means (2%N, w) else if is d "reset" then Means (N.lor 2 4096, w) else Refused | _ => Refused end = Refused :> meaning (N * W)) by (destruct v; try discriminate SV; reflexivity).
          rewrite R. cbn [andthen agrees]. intros y. rewrite EV, run_cons, X. destruct t; discriminate.
        * destruct (is k "default-event") eqn:K2; [|cbn [andthen agrees]; intros y; rewrite EV, run_cons, X; discriminate].
          assert (O : only_values = true \/ only_values = false) by (destruct only_values; auto). destruct O as [O|O]; [assert (IFO : forall (A : Type) (a b : A), (if only_values then a else b) = a) by (intros; rewrite O; reflexivity)|assert (IFO : forall (A : Type) (a b : A), (if only_values then a else b) = b) by (intros; rewrite O; reflexivity)]; rewrite IFO in X; rewrite IFO.
          -- destruct (no_object v) eqn:NB; unfold require; cbn [andthen].
             ++ rewrite (ignored v k p dom w O K2 NB 2 ltac:(lia)). cbn [bind]. apply IH.
             ++ cbn [agrees]. intros y E. destruct (run (events v) (Dp 2 k 2 p dom, w)) as [[j1 w1]| |] eqn:E1; try discriminate. cbn [bind] in E. apply mid_value with (n := 2) in E1; [|lia|repeat split; discriminate].
                rewrite NB in E1. destruct E1 as [[? _]|[_ D1]]; [discriminate|]. cbn [fst] in D1. destruct (doomed_run _ _ _ _ D1 E) as [A _]. specialize (A JSON_OBJECT_END []). rewrite in_app_iff in A. discriminate A. right. left. reflexivity.
          -- rewrite SV. cbn [given andthen agrees]. intros y. rewrite EV, run_cons, X. unfold call. destruct (Z.ltb_spec (fst (a_default_event api [] w)) 0); [discriminate|]. pose proof (no_empty_event w). lia.
  Qed.
  End Policies.

  (** ** The document *)
  Hypothesis no_empty_event : forall w, fst (a_default_event api [] w) < 0.
  Definition P_top (s : progress (W := W)) (x : jps * W) : Prop :=
    exists key kd dom, x = (mkJ (if versioned s then 1 else 0) T_NONE O_NONE S_NONE 1 key kd (defaults s) (policy s) dom zero_route zero_event [], content s).
  Definition Q_top k (s : progress (W := W)) (x : jps * W) : Prop :=
    exists dom, x = (mkJ (if versioned s then 1 else 0) T_NONE O_NONE S_NONE 1 k 1 (defaults s) (policy s) dom zero_route zero_event [], content s).
  Lemma section_agrees k v s x : Q_top k s x -> agrees (section api cv only_values k v s) (run (events v) x) P_top.
  Proof.
    intros (dom & ->). destruct s as [ver dfl pol w]. cbn [versioned defaults policy content].
    assert (VA : forall t d, t = JSON_FALSE \/ t = JSON_TRUE \/ t = JSON_NUMBER \/ t = JSON_STRING -> scalar v = Some (t, d) ->
      agrees (section api cv only_values k v (Progress ver dfl pol w)) (process t d (mkJ (if ver then 1 else 0) T_NONE O_NONE S_NONE 1 k 1 dfl pol dom zero_route zero_event [], w)) P_top).
    { intros t d TT SV.
      assert (X : section api cv only_values k v (Progress ver dfl pol w) = let+ _ := require (is k "wolfsentry-config-version") in let+ n := num (convert_uint32 t d) in let+ _ := require (n =? 1) in Means (Progress true dfl pol w)).
      { destruct v; try discriminate SV; injection SV as <- <-; try reflexivity. destruct TT as [?|[?|[?|?]]]; discriminate. }
      assert (Y : process t d (mkJ (if ver then 1 else 0) T_NONE O_NONE S_NONE 1 k 1 dfl pol dom zero_route zero_event [], w) =
        if is k "wolfsentry-config-version" then do n <- number (convert_uint32 t d); if n =? 1 then Good (mkJ 1 T_NONE O_NONE S_NONE 1 k 1 dfl pol dom zero_route zero_event [], w) else Err else Err).
      { destruct TT as [-> |[-> |[-> | ->]]]; reflexivity. }
      rewrite X, Y. unfold require. destruct (is k "wolfsentry-config-version"); cbn [andthen]; [|cbn; discriminate]. eapply agrees_bind; [apply agrees_num|]. intros n ? <-. destruct (n =? 1); cbn; [|discriminate].
      eexists. split; [reflexivity|]. exists k, 1, dom. reflexivity. }
    destruct v as [| | |d|rr d|vs|ms]; cbn [events]; rewrite ?run_one.
    - cbn. discriminate.
    - apply VA; [auto|reflexivity].
    - apply VA; [auto|reflexivity].
    - apply VA; [auto|reflexivity].
    - apply VA; [auto|reflexivity].
    - rewrite run_cons. cbn [section versioned defaults policy content]. unfold require. destruct ver; cbn [andthen]; [|cbn; discriminate].
      assert (X : process JSON_ARRAY_BEG [] (mkJ 1 T_NONE O_NONE S_NONE 1 k 1 dfl pol dom zero_route zero_event [], w) =
        if is k "events-insert" || is k "events" then Good (mkJ 1 T_EVENTS O_NONE S_NONE 2 k 1 dfl pol dom zero_route zero_event [], w)
        else if is k "static-routes-insert" || is k "routes" then Good (mkJ 1 T_ROUTES O_NONE S_NONE 2 k 1 dfl pol dom zero_route zero_event [], w) else Err) by reflexivity.
      rewrite X. clear X. destruct (is k "events-insert" || is k "events"); [|destruct (is k "static-routes-insert" || is k "routes")]; cbn [bind]; [| |cbn; discriminate].
      + assert (BR : forall (r : res (jps * W)), bind r (fun x => Good x) = r) by (intros [?| |]; reflexivity). rewrite <- (BR (run _ _)). eapply agrees_bind; [apply events_section|]. intros w1 y (key' & kd' & dom' & ->). cbn. eexists. split; [reflexivity|]. exists key', kd', dom'. reflexivity.
      + assert (BR : forall (r : res (jps * W)), bind r (fun x => Good x) = r) by (intros [?| |]; reflexivity). rewrite <- (BR (run _ _)). eapply agrees_bind; [apply routes_section|]. intros w1 y (key' & kd' & dom' & ->). cbn. eexists. split; [reflexivity|]. exists key', kd', dom'. reflexivity.
    - rewrite run_cons. cbn [section versioned defaults policy content]. unfold require. destruct ver; cbn [andthen]; [|cbn; discriminate].
      assert (X : process JSON_OBJECT_BEG [] (mkJ 1 T_NONE O_NONE S_NONE 1 k 1 dfl pol dom zero_route zero_event [], w) =
        if is k "config-update" then Good (mkJ 1 T_TOPCONFIG O_NONE S_NONE 2 k 1 dfl pol dom zero_route zero_event [], w)
        else if is k "default-policies" then Good (mkJ 1 T_DEFAULTPOLICIES O_NONE S_NONE 2 k 1 dfl pol dom zero_route zero_event [], w)
        else if is k "user-values" then Good (mkJ 1 T_USER_VALUES O_NONE S_NONE 2 k 1 dfl pol dom zero_route zero_event [], w) else Err) by reflexivity.
      rewrite X. clear X. assert (BR : forall (r : res (jps * W)), bind r (fun x => Good x) = r) by (intros [?| |]; reflexivity).
      destruct (is k "config-update"); [|destruct (is k "default-policies"); [|destruct (is k "user-values")]]; cbn [bind]; [| | |cbn; discriminate]; rewrite <- (BR (run _ _)).
      + pose proof (update_section api cv only_values pol ms dfl w dom k 1) as A. 
        set (M := each_member (config_update_member api cv) ms (dfl, w)) in *.
        assert (E : (let+ (c, w0) := M in let+ w1 := does (a_defaults api c w0) in let+ w2 := apply_policy api pol w1 in Means (Progress true c pol w2)) = (let+ (c, w0) := (let+ (c, w0) := M in let+ w1 := does (a_defaults api c w0) in let+ w2 := apply_policy api pol w1 in Means (c, w2)) in Means (Progress true c pol w0))).
        { destruct M as [[c1 w1]| |]; cbn [andthen]; try reflexivity. destruct (does (a_defaults api c1 w1)); cbn [andthen]; try reflexivity. destruct (apply_policy api pol a); reflexivity. }
        rewrite E. eapply agrees_bind; [exact A|]. intros [c1 w1] y (key' & kd' & dom' & ->). cbn. eexists. split; [reflexivity|]. exists key', kd', dom'. reflexivity.
      + pose proof (policies_section dfl no_empty_event ms pol w k 1 dom) as A. 
        set (M := each_member (default_policy_member api only_values) ms (pol, w)) in *.
        assert (E : (let+ (p, w0) := M in let+ w1 := apply_policy api p w0 in Means (Progress true dfl p w1)) = (let+ (p, w0) := (let+ (p, w0) := M in let+ w1 := apply_policy api p w0 in Means (p, w1)) in Means (Progress true dfl p w0))).
        { destruct M as [[c1 w1]| |]; cbn [andthen]; try reflexivity. destruct (apply_policy api c1 w1); reflexivity. }
        rewrite E. eapply agrees_bind; [exact A|]. intros [c1 w1] y (key' & kd' & dom' & ->). cbn. eexists. split; [reflexivity|]. exists key', kd', dom'. reflexivity.
      + eapply agrees_bind; [exact (values_section dfl pol ms w k 1 dom)|]. intros w1 y (key' & kd' & dom' & ->). cbn. eexists. split; [reflexivity|]. exists key', kd', dom'. reflexivity.
  Qed.
  Lemma document_agrees v dflt w dom :
    agrees (document_meaning api cv only_values v dflt w) (run (events v) (start dflt dom, w)) (fun w' x => snd x = w').
  Proof.
    destruct v as [| | |d|rr d|vs|ms]; try (cbn; discriminate). cbn [document_meaning events]. rewrite run_cons. assert (X : process JSON_OBJECT_BEG [] (start dflt dom, w) = Good (mkJ 0 T_NONE O_NONE S_NONE 1 [] 0 dflt 0 dom zero_route zero_event [], w)) by reflexivity.
    rewrite X. cbn [bind]. rewrite run_app. eapply agrees_bind.
    - apply (agrees_members api cv only_values _ P_top Q_top); [| |exists [], 0, dom; reflexivity].
      + intros k' s y (key' & kd' & dom' & ->). pose proof (process_key api cv only_values (mkJ (if versioned s then 1 else 0) T_NONE O_NONE S_NONE 1 key' kd' (defaults s) (policy s) dom' zero_route zero_event []) (content s) k' ltac:(discriminate)) as H. destruct (32 <=? _); [exact H|]. eexists. split; [exact H|]. exists dom'. reflexivity.
      + intros k' v a y _ HQ. apply section_agrees. exact HQ.
    - intros s y (key' & kd' & dom' & ->). rewrite run_one. cbn. eexists. split; reflexivity.
  Qed.
End Doc.
