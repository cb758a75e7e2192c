(** Lemmas for C63: lists of routes, the sections "default-policies" and "user-values". *)
Require Import ZArith NArith List Bool String Lia.
From Verif Require Import Json JsonSpec JsonGrammar Convert EventConfig Loader LoaderSpec LoaderProofs LoaderEvents LoaderRoutes.
From Verif Require JsonText Table Names DomProofs.
Import ListNotations.
Open Scope Z_scope.

Section Values.
  Context {W D V F : Type}.
  Variable api : calls W V F.
  Variable cv : converters W D V F.
  Variable only_values : bool.
  Notation jps := (jps D).
  Notation process := (process api cv only_values).
  Notation run := (run api cv only_values).
  Notation members ms := (flat_map (fun m => (JSON_KEY, snd (fst m)) :: events (snd m)) ms).

  (** ** Depth and section while inside *)
  Lemma value_json_stays j w t d y : value_json api cv j w t d = Good y -> j_depth (fst y) = j_depth j /\ j_table (fst y) = j_table j.
  Proof.
    unfold value_json. destruct (dom_step cv t d (j_dom j)) as [r x]. destruct (r <? 0); [discriminate|]. cbn [with_dom j_depth]. destruct (j_depth j =? 3); [|intros [= <-]; split; reflexivity].
    destruct (dom_value cv x); [|discriminate]. unfold call. destruct (fst _ <? 0); [discriminate|]. intros [= <-]; split; reflexivity.
  Qed.
  Lemma call_stays (j j' : jps) (r : Z * W) (y : jps * W) : j_depth j' = j_depth j /\ j_table j' = j_table j -> call j' r = Good y -> j_depth (fst y) = j_depth j /\ j_table (fst y) = j_table j.
  Proof. intros H E. unfold call in E. destruct (fst (r : Z * W) <? 0); [discriminate|]. injection E as <-. exact H. Qed.
  Lemma value_member_stays j w t d y : Loader.value_member api cv j w t d = Good y -> j_depth (fst y) = j_depth j /\ j_table (fst y) = j_table j.
  Proof.
    unfold Loader.value_member. intros E.
    repeat match type of E with (if ?b then _ else _) = _ => destruct b | (match ?b with _ => _ end) = _ => destruct b end; try discriminate;
      try (unfold bind in E; match type of E with match ?b with _ => _ end = _ => destruct b end; try discriminate); eapply call_stays; try exact E; split; reflexivity.
  Qed.
  Lemma value_plain_stays j w t d y : value_plain api cv j w t d = Good y -> j_depth (fst y) = j_depth j /\ j_table (fst y) = j_table j.
  Proof.
    unfold value_plain. intros E.
    assert (AD : forall w1, match cv_double cv t d with Some v => call (with_object j O_NONE) (a_store api (j_key j) (UDouble v) w1) | None => Err end = Good y -> j_depth (fst y) = j_depth j /\ j_table (fst y) = j_table j).
    { intros w1 H. destruct (cv_double cv t d); [|discriminate]. eapply call_stays; [|exact H]. split; reflexivity. }
    destruct t; try discriminate; try (eapply call_stays; [|exact E]; split; reflexivity); try (injection E as <-; split; reflexivity).
    - destruct (convert_sint64 JSON_NUMBER d) as [i| | |]; try discriminate; try (apply (AD w E)). destruct (a_store api (j_key j) (USint i) w) as [r w1]. destruct (r =? 0); [injection E as <-; split; reflexivity|exact (AD w1 E)].
    - destruct (MAX_VALUE <=? _); [discriminate|]. eapply call_stays; [|exact E]; split; reflexivity.
  Qed.
  Lemma user_value_stays j w t d y : 2 <= j_depth j -> user_value_clause api cv j w t d = Good y -> j_depth (fst y) = j_depth j /\ j_table (fst y) = j_table j.
  Proof.
    intros DJ. unfold user_value_clause. destruct (Z.eqb_spec (j_depth j) 1); [lia|]. cbn [andb]. cbv zeta.
    destruct ((j_depth j =? 2) && _ && _); [intros [= <-]; apply reset_depth|].
    destruct ((j_depth j =? 3) && _ && _); [intros [= <-]; split; reflexivity|].
    destruct ((j_depth j =? 2) && _ && _); [apply value_plain_stays|].
    set (j1 := if _ && _ && is _ _ then _ else j). assert (X : j_depth j1 = j_depth j /\ j_table j1 = j_table j) by (unfold j1; destruct (_ && _ && is _ _); split; reflexivity). destruct X as [<- <-].
    destruct ((3 <=? _) && _ && _); [apply value_json_stays|]. destruct ((j_depth j1 =? 3) && _); [apply value_member_stays|discriminate].
  Qed.

  Lemma process_value_deep j w t d : 2 <= j_depth j ->
    process_value api cv only_values j w t d =
      match j_table j with
      | T_NONE => section_start j w t d
      | T_TOPCONFIG => bind (eventconfig_clause api cv j w t d (j_default j)) (fun '(c, j, w) => Good (with_default j c, w))
      | T_DEFAULTPOLICIES => defaultpolicy_clause api only_values j w t d
      | T_ROUTES => route_clause api cv only_values j w t d
      | T_EVENTS => event_clause api cv only_values j w t d
      | T_USER_VALUES => user_value_clause api cv j w t d
      end.
  Proof.
    intros H. unfold process_value. destruct (Z.eqb_spec (j_depth j) 1) as [E|N1]; [lia|].
    assert (X : forall A (a b c : A), match t, j_depth j with JSON_OBJECT_BEG, 1 => a | JSON_OBJECT_END, 0 => b | _, _ => c end = c).
    { intros A a b c. destruct t; try reflexivity; destruct (j_depth j) as [|[p|p|]|p]; try reflexivity; lia. }
    rewrite X. destruct (j_table j); try reflexivity; destruct t; reflexivity.
  Qed.
  Definition inside (tbl : table_uc) : Prop := tbl = T_ROUTES \/ tbl = T_USER_VALUES.
  Lemma process_stays tbl t d j w y : inside tbl -> j_table j = tbl -> 2 <= j_depth j + deeper t -> process t d (j, w) = Good y ->
    j_table (fst y) = tbl /\ j_depth (fst y) = j_depth j + deeper t.
  Proof.
    intros I TB DP E. assert (TK : t = JSON_KEY \/ t <> JSON_KEY) by (destruct t; auto; right; discriminate). destruct TK as [-> |TK].
    - cbn [deeper] in *. rewrite Z.add_0_r in *. cbn [Loader.process] in E. destruct (j_section j) eqn:SJ; try (destruct (MAX_LABEL <=? _); [discriminate|]; injection E as <-; split; [exact TB|reflexivity]).
      apply user_value_stays in E; [|exact DP]. destruct E as [-> ->]. auto.
    - assert (X : process t d (j, w) = process_value api cv only_values (with_depth j (j_depth j + deeper t)) w t d) by (destruct t; try reflexivity; congruence). rewrite X in E. clear X.
      rewrite process_value_deep in E by exact DP. cbn [j_table with_depth] in E. rewrite TB in E. destruct I as [-> | ->].
      + apply route_clause_stays in E. destruct E as [-> ->]. split; [exact TB|reflexivity].
      + apply user_value_stays in E; [|exact DP]. destruct E as [-> ->]. split; [exact TB|reflexivity].
  Qed.
  Definition stays (tbl : table_uc) (n : Z) (evs : list Json.event) : Prop :=
    forall j w y, j_table j = tbl -> j_depth j = n -> run evs (j, w) = Good y -> j_table (fst y) = tbl /\ j_depth (fst y) = n.
  Lemma stays_app tbl n a b : stays tbl n a -> stays tbl n b -> stays tbl n (a ++ b).
  Proof.
    intros A B j w y T N E. rewrite run_app in E. destruct (run a (j, w)) as [[j1 w1]| |] eqn:E1; try discriminate. cbn [bind] in E. destruct (A j w _ T N E1) as [T1 N1]. exact (B j1 w1 y T1 N1 E).
  Qed.
  Lemma stays_nil tbl n : stays tbl n [].
  Proof. intros j w y T N [= <-]. auto. Qed.
  Lemma stays_one tbl n t d : inside tbl -> deeper t = 0 -> 2 <= n -> stays tbl n [(t, d)].
  Proof. intros I DT N j w y T DN E. rewrite run_one in E. apply (process_stays tbl) in E; [|exact I|exact T|lia]. destruct E as [E1 E2]. split; [exact E1|lia]. Qed.
  Lemma stays_between tbl n t d t' d' evs : inside tbl -> deeper t = 1 -> deeper t' = -1 -> 2 <= n -> stays tbl (n + 1) evs -> stays tbl n ((t, d) :: evs ++ [(t', d')]).
  Proof.
    intros I D1 D2 N H j w y T DN E. rewrite run_cons in E. destruct (process t d (j, w)) as [[j1 w1]| |] eqn:E1; try discriminate. cbn [bind] in E.
    apply (process_stays tbl) in E1; [|exact I|exact T|lia]. cbn [fst] in E1. rewrite run_app in E. destruct (run evs (j1, w1)) as [[j2 w2]| |] eqn:E2; try discriminate. cbn [bind] in E.
    apply H in E2; [|tauto|lia]. cbn [fst] in E2. rewrite run_one in E. apply (process_stays tbl) in E; [|exact I|tauto|lia]. split; [tauto|lia].
  Qed.
  Lemma value_stays tbl v : inside tbl -> forall n, 2 <= n -> stays tbl n (events v).
  Proof.
    intros I. induction v as [| | |l|r d|vs H|ms H] using jvalue_ind'; intros n N; cbn [events]; try (apply stays_one; auto).
    - apply stays_between; try assumption; try reflexivity. assert (N' : 2 <= n + 1) by lia. clear N. revert N'. generalize (n + 1). intros m N'. induction H as [|v vs Hv _ IH]; cbn [flat_map]; [apply stays_nil|]. apply stays_app; [apply Hv; exact N'|exact IH].
    - apply stays_between; try assumption; try reflexivity. assert (N' : 2 <= n + 1) by lia. clear N. revert N'. generalize (n + 1). intros m N'. induction H as [|[[rr k] v] ms Hv _ IH]; cbn [flat_map]; [apply stays_nil|]. apply stays_app; [|exact IH].
      cbn [fst snd] in *. apply (stays_app tbl m [(JSON_KEY, k)] (events v)); [apply stays_one; auto|apply Hv; exact N'].
  Qed.
  Lemma array_refused tbl vs j w y : inside tbl -> j_table j = tbl -> j_depth j = 2 -> run (events (VArr vs)) (j, w) <> Good y.
  Proof.
    intros I T DJ E. cbn [events] in E. rewrite run_cons in E. destruct (process JSON_ARRAY_BEG [] (j, w)) as [[j1 w1]| |] eqn:E1; try discriminate. cbn [bind] in E.
    apply (process_stays tbl) in E1; [|exact I|exact T|cbn [deeper]; lia]. cbn [fst deeper] in E1. rewrite run_app in E. destruct (run (flat_map events vs) (j1, w1)) as [[j2 w2]| |] eqn:E2; try discriminate. cbn [bind] in E.
    assert (SV : stays tbl 3 (flat_map events vs)). { clear - I. induction vs as [|v vs IH]; cbn [flat_map]; [apply stays_nil|]. apply stays_app; [apply value_stays; [exact I|lia]|exact IH]. }
    apply SV in E2; [|tauto|lia]. cbn [fst] in E2. rewrite run_one in E. cbn [Loader.process deeper] in E. destruct E2 as [T2 D2]. rewrite D2 in E. rewrite process_value_deep in E by (cbn; lia). cbn [with_depth j_table] in E. rewrite T2 in E. destruct I as [-> | ->].
    - cbn in E. discriminate.
    - unfold user_value_clause in E. cbn [j_depth with_depth j_object j_section j_key j_keydepth] in E. cbn -[is] in E. rewrite ?andb_false_r in E. cbn -[is] in E.
      destruct (j_object j2); cbn -[is] in E; try discriminate; destruct (j_keydepth j2 =? 2); cbn -[is] in E; try discriminate; destruct (j_section j2); cbn -[is] in E; try discriminate; try (destruct (is (j_key j2) "json"); cbn in E; discriminate).
  Qed.

  (** ** Routes *)
  Section Lists.
  Variables (dflt : econf) (pol : N).
  Definition P_routes (w : W) (x : jps * W) : Prop :=
    exists key kd dom, x = (mkJ 1 T_ROUTES O_NONE S_NONE 2 key kd dflt pol dom zero_route zero_event [], w).
  Lemma route_element_agrees v w x : P_routes w x -> agrees (route_element api cv only_values v w) (run (events v) x) P_routes.
  Proof.
    intros (key & kd & dom & ->). destruct v as [| | |d|rr d|vs|ms]; try (cbn; discriminate).
    - cbn [route_element agrees]. intros y. apply (array_refused T_ROUTES); [left; reflexivity|reflexivity|reflexivity].
    - cbn [route_element events]. rewrite run_cons.
      assert (X : process JSON_OBJECT_BEG [] (mkJ 1 T_ROUTES O_NONE S_NONE 2 key kd dflt pol dom zero_route zero_event [], w) = Good (Rt dflt pol S_NONE 3 key kd dom new_route, w)) by reflexivity. rewrite X. cbn [bind]. rewrite run_app. eapply agrees_bind.
      + apply (agrees_members api cv only_values (route_member cv w) (P_route dflt pol w) (Q_route dflt pol w)); [| |exists key, kd, dom; reflexivity].
        * intros k' r' y (key' & kd' & dom' & ->). pose proof (process_key api cv only_values (Rt dflt pol S_NONE 3 key' kd' dom' r') w k' ltac:(discriminate)) as H. destruct (32 <=? _); [exact H|]. eexists. split; [exact H|]. exists dom'. reflexivity.
        * intros k' v a y PK HQ. apply route_member_agrees; [exact PK|exact HQ].
      + intros r1 y (key' & kd' & dom' & ->). rewrite run_one.
        assert (X1 : (if (List.length (r_label r1) =? 0)%nat then None else Some (r_label r1)) = match r_label r1 with [] => None | l => Some l end) by (destruct (r_label r1); reflexivity).
        assert (X2 : process JSON_OBJECT_END [] (Rt dflt pol S_NONE 3 key' kd' dom' r1, w) = (if only_values then Good (mkJ 1 T_ROUTES O_NONE S_NONE 2 key' kd' dflt pol dom' zero_route zero_event [], w)
          else call (mkJ 1 T_ROUTES O_NONE S_NONE 2 key' kd' dflt pol dom' zero_route zero_event []) (a_route_insert api (r_remote r1) (r_local r1) (r_flags r1) (if (List.length (r_label r1) =? 0)%nat then None else Some (r_label r1)) w))) by reflexivity.
        rewrite X2, X1. destruct only_values; [cbn; eexists; split; [reflexivity|]; exists key', kd', dom'; reflexivity|].
        unfold call, does. destruct (fst _ <? 0); cbn; [discriminate|]. eexists. split; [reflexivity|]. exists key', kd', dom'. reflexivity.
  Qed.
  Lemma routes_section vs w key kd dom :
    agrees (each_element (route_element api cv only_values) vs w)
      (run (flat_map events vs ++ [(JSON_ARRAY_END, [])]) (mkJ 1 T_ROUTES O_NONE S_NONE 2 key kd dflt pol dom zero_route zero_event [], w))
      (fun w x => exists key kd dom, x = (mkJ 1 T_NONE O_NONE S_NONE 1 key kd dflt pol dom zero_route zero_event [], w)).
  Proof.
    rewrite run_app. assert (EM : forall (m : meaning W), andthen m Means = m) by (intros [?| |]; reflexivity). rewrite <- (EM (each_element _ vs w)). eapply agrees_bind.
    - apply (agrees_elements api cv only_values _ P_routes); [|exists key, kd, dom; reflexivity]. intros v a y HP. apply route_element_agrees. exact HP.
    - intros w1 y (key' & kd' & dom' & ->). rewrite run_one. cbn. eexists. split; [reflexivity|]. exists key', kd', dom'. reflexivity.
  Qed.

  (** ** User values *)
  Definition Uv obj sec dep key kd dom label : jps := mkJ 1 T_USER_VALUES obj sec dep key kd dflt pol dom zero_route zero_event label.

  (** A value kept whole *)
  Definition Js n dom k label : jps := Uv O_USER_VALUE S_USER_VALUE_JSON n k 3 dom label.
  Lemma json_step t d n dom k label w : 4 <= n + deeper t ->
    process t d (Js n dom k label, w) = if fst (dom_step cv t d dom) <? 0 then Err else Good (Js (n + deeper t) (snd (dom_step cv t d dom)) k label, w).
  Proof.
    intros N. assert (X : process t d (Js n dom k label, w) = user_value_clause api cv (Js (n + deeper t) dom k label) w t d).
    { destruct t; try (cbn [Loader.process Js Uv j_section deeper]; rewrite ?Z.add_0_r; reflexivity); cbn [Loader.process]; rewrite process_value_deep by (cbn [deeper with_depth j_depth Js Uv] in *; lia); reflexivity. }
    rewrite X. clear X. set (m := n + deeper t) in *. unfold user_value_clause. cbn [Js Uv j_depth j_object j_section].
    destruct (Z.eqb_spec m 1); [lia|]. destruct (Z.eqb_spec m 2); [lia|]. destruct (Z.eqb_spec m 3); [lia|]. assert (L3 : (3 <=? m) = true) by (apply Z.leb_le; lia). cbn -[Z.leb is value_json]. rewrite L3. cbn [andb]. unfold value_json. cbn [j_dom j_depth with_dom Js Uv].
    destruct (dom_step cv t d dom) as [r x]. cbn [fst snd]. destruct (r <? 0); [reflexivity|]. destruct (Z.eqb_spec m 3); [lia|]. reflexivity.
  Qed.
  Definition follows n (evs : list Json.event) n' : Prop := forall dom k label w,
    run evs (Js n dom k label, w) = if fst (deliver (dom_step cv) 0 dom evs) <? 0 then Err else Good (Js n' (snd (deliver (dom_step cv) 0 dom evs)) k label, w).
  (* deliver from a code that is not negative does not depend on it, when there is something to deliver; we keep codes >= 0 apart *)
  Lemma deliver_code evs : forall c (dom : D), 0 <= c -> (fst (deliver (dom_step cv) c dom evs) <? 0) = (fst (deliver (dom_step cv) 0 dom evs) <? 0) /\ snd (deliver (dom_step cv) c dom evs) = snd (deliver (dom_step cv) 0 dom evs).
  Proof.
    intros c dom C. destruct evs as [|[t d] evs]; cbn [deliver fst snd]; [destruct (Z.ltb_spec c 0); [lia|]; split; reflexivity|]. destruct (Z.ltb_spec c 0); [lia|]. change (0 <? 0) with false. split; reflexivity.
  Qed.
  Lemma follows_app n a m b n' : follows n a m -> follows m b n' -> follows n (a ++ b) n'.
  Proof.
    intros A B dom k label w. rewrite run_app, A, DomProofs.deliver_app. destruct (fst (deliver (dom_step cv) 0 dom a) <? 0) eqn:E; cbn [bind].
    - apply Z.ltb_lt in E. rewrite (DomProofs.deliver_stop _ _ b _ _ E). cbn [fst]. apply Z.ltb_lt in E. rewrite E. reflexivity.
    - rewrite B. apply Z.ltb_ge in E. destruct (deliver_code b _ (snd (deliver (dom_step cv) 0 dom a)) E) as [-> ->]. reflexivity.
  Qed.
  Lemma follows_nil n : follows n [] n.
  Proof. intros dom k label w. reflexivity. Qed.
  Lemma follows_one n t d : 4 <= n + deeper t -> follows n [(t, d)] (n + deeper t).
  Proof. intros N dom k label w. rewrite run_one, json_step by exact N. cbn [deliver]. change (0 <? 0) with false. cbn iota. destruct (dom_step cv t d dom) as [r x]. reflexivity. Qed.
  Lemma follows_value v : forall n, 4 <= n -> follows n (events v) n.
  Proof.
    induction v as [| | |l|r d|vs H|ms H] using jvalue_ind'; intros n N; cbn [events]; try (match goal with |- follows n [(?t, ?d)] n => pose proof (follows_one n t d) as X; cbn [deeper] in X; rewrite Z.add_0_r in X; exact (X N) end).
    - apply (follows_app n [(JSON_ARRAY_BEG, [])] (n + 1)); [apply follows_one; cbn [deeper]; lia|].
      apply (follows_app (n + 1) _ (n + 1)); [|pose proof (follows_one (n + 1) JSON_ARRAY_END []) as X; cbn [deeper] in X; replace (n + 1 + -1) with n in X by lia; apply X; lia].
      assert (N' : 4 <= n + 1) by lia. clear N. revert N'. generalize (n + 1). intros m N'. induction H as [|v vs Hv _ IH]; cbn [flat_map]; [apply follows_nil|]. apply (follows_app m _ m); [apply Hv; exact N'|exact IH].
    - apply (follows_app n [(JSON_OBJECT_BEG, [])] (n + 1)); [apply follows_one; cbn [deeper]; lia|].
      apply (follows_app (n + 1) _ (n + 1)); [|pose proof (follows_one (n + 1) JSON_OBJECT_END []) as X; cbn [deeper] in X; replace (n + 1 + -1) with n in X by lia; apply X; lia].
      assert (N' : 4 <= n + 1) by lia. clear N. revert N'. generalize (n + 1). intros m N'. induction H as [|[[rr k] v] ms Hv _ IH]; cbn [flat_map]; [apply follows_nil|]. apply (follows_app m _ m); [|exact IH].
      cbn [fst snd] in *. apply (follows_app m [(JSON_KEY, k)] m); [pose proof (follows_one m JSON_KEY k) as X; cbn [deeper] in X; rewrite Z.add_0_r in X; exact (X N')|apply Hv; exact N'].
  Qed.
  End Lists.
End Values.
