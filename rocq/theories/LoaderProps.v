(** * C63: what a configuration document does

    [document_meaning] (LoaderSpec.v) says, member by member, what a JSON value does to the contents [w] of a context; [api] are
    the calls made on the context, [cv] the conversions of names and addresses; [only_values] is
    WOLFSENTRY_CONFIG_LOAD_FLAG_NO_ROUTES_OR_EVENTS.  [callback] (Loader.v) is json_process, and [load_chunks] the parser, fed with
    the pieces of the text (Json.v). *)
Require Import ZArith NArith List Bool String Lia.
From Verif Require Import Json JsonSpec JsonProps JsonGrammarProps Convert EventConfig Loader LoaderSpec LoaderProofs LoaderDoc LoaderSafe.
From Verif Require JsonText Names.
Import ListNotations.
Open Scope Z_scope.

Lemma deliver_run {W D V F} (api : calls W V F) (cv : converters W D V F) o evs : forall x,
  deliver (callback api cv o) 0 (Good x) evs = match run api cv o evs x with Good y => (0, Good y) | Err => (-1, Err) | Bad => (-1, Bad) end.
Proof.
  induction evs as [|[t d] evs IH]; intros x; cbn [deliver run]; [reflexivity|]. change (0 <? 0) with false. cbn [callback]. destruct (process api cv o t d x) as [y| |]; cbn [bind].
  - apply IH.
  - destruct evs as [|[t' d'] evs]; reflexivity.
  - destruct evs as [|[t' d'] evs]; reflexivity.
Qed.

(** A configuration (a JSON text within the limits of the parser, in whatever pieces) that means something is loaded: the answer
    is success, and the contents are what it means.  One whose meaning is that it is refused is refused.  An empty label names
    no default event (event_get_reference refuses it). *)
Theorem C63_meaning :
  forall (W D V F : Type) (api : calls W V F) (cv : converters W D V F) (only_values : bool) cfg pieces v defaults dom (w : W),
    (forall w, fst (a_default_event api [] w) < 0) ->
    config_ok cfg -> not_too_long cfg (List.concat pieces) -> document (List.concat pieces) v -> JsonSpec.within cfg v ->
    exists code pos x, load_chunks cfg (callback api cv only_values) (Good (start defaults dom, w)) pieces = Some (code, pos, x) /\
      match document_meaning api cv only_values v defaults w with
      | Means w' => code = 0 /\ exists j, x = Good (j, w')
      | Refused => code < 0 /\ forall y, x <> Good y
      | Unspecified => True
      end.
Proof.
  intros W D V F api cv o cfg pieces v dflt dom w NE C L DV WI. destruct (C53_wellformed_pieces_accepted _ cfg (callback api cv o) (Good (start dflt dom, w)) pieces v C L DV WI) as (pos & E).
  rewrite deliver_run in E. pose proof (document_agrees api cv o NE v dflt w dom) as A. destruct (document_meaning api cv o v dflt w) as [w'| |]; cbn [agrees] in A.
  - destruct A as ([j w1] & R & <-). rewrite R in E. cbn [fst snd] in *. exists 0, pos, (Good (j, w1)). split; [exact E|]. split; [reflexivity|]. exists j. reflexivity.
  - destruct (run api cv o (events v) (start dflt dom, w)) as [y| |]; [destruct (A y eq_refl)| |]; cbn [fst snd] in E; eexists _, _, _; (split; [exact E|split; [lia|discriminate]]).
  - eexists _, _, _. split; [exact E|exact Logic.I].
Qed.
Print Assumptions C63_meaning.

(** And nothing else is loaded: a text the answer to which is success is a JSON text and means what the contents became, unless
    its meaning is not specified.  Missing: texts that end in a letter or digit (C63_truncated_refuted). *)
Theorem C63_loaded_partial :
  forall (W D V F : Type) (api : calls W V F) (cv : converters W D V F) (only_values : bool) cfg text defaults dom (w : W) code pos x,
    (forall w, fst (a_default_event api [] w) < 0) ->
    config_ok cfg -> 0 <= max_nesting_level cfg -> strict cfg -> not_too_long cfg text -> byte_list text ->
    (forall d c, text = d ++ [c] -> ~ is_alnum c) ->
    json_parse cfg (callback api cv only_values) (Good (start defaults dom, w)) text = Some (code, pos, x) -> 0 <= code ->
    exists v, document text v /\ JsonSpec.within cfg v /\
      ((exists j w', document_meaning api cv only_values v defaults w = Means w' /\ x = Good (j, w')) \/
       document_meaning api cv only_values v defaults w = Unspecified).
Proof.
  intros W D V F api cv o cfg text dflt dom w code pos x NE C N S0 L B LA E CO.
  destruct (C53_accepted_is_wellformed_partial _ cfg _ _ text code pos x C N S0 L B LA E CO) as (v & DV & WI & DE). exists v. split; [exact DV|]. split; [exact WI|].
  rewrite deliver_run in DE. pose proof (document_agrees api cv o NE v dflt w dom) as A. destruct (document_meaning api cv o v dflt w) as [w'| |]; cbn [agrees] in A; [|exfalso|right; reflexivity].
  - destruct A as ([j w1] & R & <-). rewrite R in DE. injection DE as <- <-. left. exists j, w1. split; reflexivity.
  - destruct (run api cv o (events v) (start dflt dom, w)) as [y| |]; [destruct (A y eq_refl)| |]; injection DE as <- <-; lia.
Qed.
Print Assumptions C63_loaded_partial.

(** Nothing is loaded from a document that does not begin with its version, and none has another version than 1. *)
Definition version_key := JsonText.bytes "wolfsentry-config-version".
Theorem C63_version_first :
  forall (W D V F : Type) (api : calls W V F) (cv : converters W D V F) (only_values : bool) v defaults (w w' : W),
    document_meaning api cv only_values v defaults w = Means w' ->
    v = VObj [] /\ w' = w \/
    exists raw k first rest t d, v = VObj ((raw, k, first) :: rest) /\ upto_nul k = version_key /\ scalar first = Some (t, d) /\ convert_uint32 t d = CSet 1.
Proof.
  intros W D V F api cv o v dflt w w' E. destruct v as [| | |dd|rr data|vs|ms]; try discriminate. destruct ms as [|[[raw k] first] rest]; [cbn in E; injection E as <-; left; split; reflexivity|]. right.
  cbn [document_meaning each_member] in E. destruct (32 <=? _); [discriminate|].
  assert (S1 : exists s, section api cv o (upto_nul k) first (Progress false dflt 0 w) = Means s) by (destruct (section api cv o (upto_nul k) first (Progress false dflt 0 w)) as [s| |]; [exists s; reflexivity|discriminate|discriminate]). clear E.
  destruct S1 as (s & S1).
  assert (SC : exists t d, scalar first = Some (t, d) /\ (let+ _ := require (is (upto_nul k) "wolfsentry-config-version") in let+ n := num (convert_uint32 t d) in let+ _ := require (n =? 1) in Means (Progress true dflt 0 w)) = Means s).
  { destruct first as [| | |dd|rr data|vs|ms]; try (cbn in S1; discriminate); eexists _, _; (split; [reflexivity|exact S1]). }
  destruct SC as (t & d & SV & S2). exists raw, k, first, rest, t, d. split; [reflexivity|]. unfold require in S2. destruct (is (upto_nul k) "wolfsentry-config-version") eqn:K; [|discriminate]. split; [exact (is_eq _ _ K)|]. split; [exact SV|].
  cbn [andthen] in S2. destruct (convert_uint32 t d) as [m| | |]; cbn [num andthen] in S2; try discriminate. destruct (m =? 1) eqn:Q; [apply Z.eqb_eq in Q; subst m; reflexivity|discriminate].
Qed.
Print Assumptions C63_version_first.

(** With the flag, whatever the tokens, no event, action, route or default event is touched: replacing all those calls changes
    nothing. *)
Theorem C63_only_values :
  forall (W D V F : Type) (api api' : calls W V F) (cv : converters W D V F) t d u,
    a_defaults api = a_defaults api' -> a_policy api = a_policy api' -> a_max_routes api = a_max_routes api' ->
    a_max_idle api = a_max_idle api' -> a_store api = a_store api' ->
    callback api cv true t d u = callback api' cv true t d u.
Proof.
  intros W D V F api api' cv t d u E1 E2 E3 E4 E5.
  assert (A1 : forall j w t d c, eventconfig_clause api cv j w t d c = eventconfig_clause api' cv j w t d c).
  { intros j w t0 d0 c. unfold eventconfig_clause. rewrite E1, E2, E3, E4. reflexivity. }
  assert (A2 : forall (j : jps D) w t d, defaultpolicy_clause api true j w t d = defaultpolicy_clause api' true j w t d).
  { intros j w t0 d0. unfold defaultpolicy_clause. rewrite E2. reflexivity. }
  assert (A3 : forall j w t d, route_clause api cv true j w t d = route_clause api' cv true j w t d) by (intros; reflexivity).
  assert (A4 : forall (j : jps D) w t d, event_clause_2 api true j w t d = event_clause_2 api' true j w t d) by (intros; reflexivity).
  assert (A5 : forall e w, insert_event api true e w = insert_event api' true e w) by (intros; reflexivity).
  assert (A6 : forall e w (j : jps D) t d, (do (e, w) <- insert_event api true e w; event_clause_2 api true (with_event j e) w t d) = (do (e, w) <- insert_event api' true e w; event_clause_2 api' true (with_event j e) w t d)).
  { intros e w j t0 d0. rewrite A5. destruct (insert_event api' true e w) as [[e1 w1]| |]; cbn [bind]; [apply A4|reflexivity|reflexivity]. }
  assert (A7 : forall j w t d, event_clause api cv true j w t d = event_clause api' cv true j w t d).
  { intros j w t0 d0. unfold event_clause. rewrite A6, A1. reflexivity. }
  assert (A8 : forall j w t d, user_value_clause api cv j w t d = user_value_clause api' cv j w t d).
  { assert (B1 : forall j w t d, value_plain api cv j w t d = value_plain api' cv j w t d) by (intros j w t0 d0; unfold value_plain; rewrite E5; reflexivity).
    assert (B2 : forall j w t d, value_json api cv j w t d = value_json api' cv j w t d) by (intros j w t0 d0; unfold value_json; rewrite E5; reflexivity).
    assert (B3 : forall j w t d, Loader.value_member api cv j w t d = Loader.value_member api' cv j w t d) by (intros j w t0 d0; unfold Loader.value_member; rewrite E5; reflexivity).
    intros j w t0 d0. unfold user_value_clause. rewrite B1. cbv zeta. rewrite B2, B3. reflexivity. }
  assert (A9 : forall j w t d, process_value api cv true j w t d = process_value api' cv true j w t d).
  { intros j w t0 d0. unfold process_value. rewrite A1, A2, A3, A7, A8. reflexivity. }
  destruct u as [[j w]| |]; cbn [callback]; [|reflexivity|reflexivity].
  assert (A : process api cv true t d (j, w) = process api' cv true t d (j, w)) by (unfold process; rewrite A8, A9; reflexivity).
  rewrite A. reflexivity.
Qed.
Print Assumptions C63_only_values.

(** No undefined behaviour, for documents without "bitmask" and without NULs in strings, if looking up names of protocols and
    services never succeeds without a result, and addresses have at most 16 bytes.  Missing: the rest (C63_undefined_refuted). *)
Theorem C63_safe_partial :
  forall (W D V F : Type) (api : calls W V F) (cv : converters W D V F) (only_values : bool) cfg pieces v defaults dom (w : W),
    (forall t d, cv_duration cv t d <> CUB) ->
    (forall w m f n t d g b n', cv_address cv w m f n t d = Some (g, b, n') -> (List.length b <= 16)%nat) ->
    (forall p d, cv_port_name cv p d <> NoEntry) -> (forall d, cv_proto_name cv d <> NoEntry) ->
    (forall d, In (JSON_STRING, d) (events v) -> Forall (fun c => 0 < c) d) ->
    (forall d, In (JSON_KEY, d) (events v) -> upto_nul d <> JsonText.bytes "bitmask") ->
    config_ok cfg -> not_too_long cfg (List.concat pieces) -> document (List.concat pieces) v -> JsonSpec.within cfg v ->
    exists code pos x, load_chunks cfg (callback api cv only_values) (Good (start defaults dom, w)) pieces = Some (code, pos, x) /\ x <> Bad.
Proof.
  intros W D V F api cv o cfg pieces v dflt dom w H1 H2 H3 H4 H5 H6 C L DV WI. destruct (C53_wellformed_pieces_accepted _ cfg (callback api cv o) (Good (start dflt dom, w)) pieces v C L DV WI) as (pos & E).
  rewrite deliver_run in E.
  assert (S1 : run api cv o (events v) (start dflt dom, w) <> Bad).
  { apply ok_run; try assumption.
    - repeat split.
    - intros t d IN ->. specialize (H5 d IN). unfold positive. apply forallb_forall. rewrite Forall_forall in H5. intros c IC. apply Z.ltb_lt. exact (H5 c IC).
    - intros d IN. specialize (H6 d IN). destruct (is (upto_nul d) "bitmask") eqn:K; [|reflexivity]. apply is_eq in K. contradiction. }
  destruct (run api cv o (events v) (start dflt dom, w)); cbn [fst snd] in E; [|  |congruence]; eexists _, _, _; (split; [exact E|discriminate]).
Qed.
Print Assumptions C63_safe_partial.

(** ** A context that writes down the calls made on it *)
Inductive made := MEvent (label : list Z) (priority : Z) (config : option econf) | MAction (event : list Z) (type : Z) (action : list Z)
  | MAux (event parent : list Z) | MDefaults (c : econf) | MPolicy (p : N) | MDefaultEvent (e : list Z) | MMaxRoutes (n : Z) | MMaxIdle (n : Z)
  | MRoute (remote local : sa) (flags : N) (event : option (list Z)) | MStore (k : list Z) (v : uval unit unit).
Definition log := list made.
Definition made_by (m : made) (w : log) : Z * log := (0, w ++ [m]).
Definition logging : calls log unit unit :=
  Calls (fun l p c => made_by (MEvent l p c)) (fun l a => made_by (MAux l a)) (fun _ _ => Some []) (fun e t a => made_by (MAction e t a))
    (fun c => made_by (MDefaults c)) (fun p => made_by (MPolicy p)) (fun e w => match e with [] => (-1, w) | _ => made_by (MDefaultEvent e) w end)
    (fun n => made_by (MMaxRoutes n)) (fun n => made_by (MMaxIdle n)) (fun r l f e => made_by (MRoute r l f e)) (fun k v => made_by (MStore k v)).
(** addresses are four bytes written as they are; "inet" is family 2, "tcp" protocol 6, "ssh" service 22; other names are looked
    up as glibc does: without error and without result *)
Definition simple : converters log unit unit unit :=
  Conv (fun t d => convert_sint64 t d) (fun _ _ => Some tt)
    (fun _ _ f _ _ d => if (List.length d =? 4)%nat then Some (f, d, 32) else None)
    (fun _ d => if is d "ssh" then Found 22 else NoEntry) (fun d => if is d "tcp" then Found 6 else NoEntry)
    (fun _ d => if is d "inet" then Some 2 else None) (fun _ f => if f =? 2 then Some 32 else None)
    tt (fun _ _ _ => (0, tt)) (fun _ => Some tt).
Definition text := JsonText.text.
Definition load_text (flag : bool) (t : list Z) := load_chunks ws_cfg (callback logging simple flag) (Good (start zero_econf tt, [])) [t].
Definition answer (r : option (Z * jpos * res (jps unit * log))) : option (Z * res log) :=
  match r with Some (c, _, Good (_, w)) => Some (c, Good w) | Some (c, _, Err) => Some (c, Err) | Some (c, _, Bad) => Some (c, Bad) | None => None end.

Definition document_text := text "{'wolfsentry-config-version':1,'config-update':{'max-connection-count':5,'commendable-clears-derogatory':true},'events':[{'label':'call-in','priority':3,'config':{'route-flags-to-add-on-insert':['penalty-boxed','port-reset']},'actions':['a1','a2']}],'default-policies':{'default-policy':'reset','default-event':'call-in'},'routes':[{'parent-event':'call-in','family':'inet','protocol':'tcp','remote':{'address':'abcd','prefix-bits':24},'local':{'port':'ssh'},'green-listed':true}],'user-values':{'u':7,'s':{'string':'x'}}}".
Definition conf0 := with_cflags (with_max_conns zero_econf 5) 2.
Definition made_for_it : log :=
  [MDefaults conf0; MEvent (text "call-in") 3 (Some (with_radd conf0 17825792)); MAction (text "call-in") TYPE_POST (text "a1"); MAction (text "call-in") TYPE_POST (text "a2");
   MDefaultEvent (text "call-in"); MPolicy 4098;
   MRoute (mkSa 2 6 0 24 0 (text "abcd" ++ repeat 0 12)) (mkSa 2 6 22 0 0 (repeat 0 16)) 2097904 (Some (text "call-in"));
   MStore (text "u") (USint 7); MStore (text "s") (UString (text "x"))].


(** the same document as a value *)
Definition str (s : string) := VStr (text s) (text s).
Definition num_ (s : string) := VNum (text s).
Definition mem (k : string) (v : jvalue) := (text k, text k, v).
Definition document_value : jvalue :=
  VObj [mem "wolfsentry-config-version" (num_ "1");
    mem "config-update" (VObj [mem "max-connection-count" (num_ "5"); mem "commendable-clears-derogatory" VTrue]);
    mem "events" (VArr [VObj [mem "label" (str "call-in"); mem "priority" (num_ "3");
      mem "config" (VObj [mem "route-flags-to-add-on-insert" (VArr [str "penalty-boxed"; str "port-reset"])]); mem "actions" (VArr [str "a1"; str "a2"])]]);
    mem "default-policies" (VObj [mem "default-policy" (str "reset"); mem "default-event" (str "call-in")]);
    mem "routes" (VArr [VObj [mem "parent-event" (str "call-in"); mem "family" (str "inet"); mem "protocol" (str "tcp");
      mem "remote" (VObj [mem "address" (str "abcd"); mem "prefix-bits" (num_ "24")]); mem "local" (VObj [mem "port" (str "ssh")]); mem "green-listed" VTrue]]);
    mem "user-values" (VObj [mem "u" (num_ "7"); mem "s" (VObj [mem "string" (str "x")])])].

(** The theorems apply: the document is a JSON text within the limits, is loaded, and the log is what it means. *)
Example C63_example :
  answer (load_text false document_text) = Some (0, Good made_for_it) /\
  answer (load_text true document_text) = Some (0, Good [MDefaults conf0; MPolicy 4098; MStore (text "u") (USint 7); MStore (text "s") (UString (text "x"))]) /\
  document_meaning logging simple false document_value zero_econf [] = Means made_for_it /\
  option_map snd (json_parse ws_cfg record_cb [] document_text) = Some (events document_value) /\
  config_ok ws_cfg /\ not_too_long ws_cfg document_text /\ strict ws_cfg /\ (forall w, fst (a_default_event logging [] w) < 0) /\
  exists v, document document_text v /\ JsonSpec.within ws_cfg v.
Proof.
  split; [vm_compute; reflexivity|]. split; [vm_compute; reflexivity|]. split; [vm_compute; reflexivity|].
  assert (A : option_map snd (json_parse ws_cfg record_cb [] document_text) = Some (events document_value)) by (vm_compute; reflexivity). split; [exact A|].
  assert (H1 : config_ok ws_cfg) by (unfold config_ok; cbn; lia). split; [exact H1|].
  assert (H4 : not_too_long ws_cfg document_text) by (left; reflexivity). split; [exact H4|].
  assert (H3 : strict ws_cfg).
  { intros b Hb. assert (b = 8 \/ b = 9 \/ b = 10 \/ b = 11) as [->|[->|[->| ->]]] by lia; reflexivity. }
  split; [exact H3|]. split; [intros w; reflexivity|].
  assert (H2 : 0 <= max_nesting_level ws_cfg) by (cbn; lia).
  assert (H5 : byte_list document_text) by (unfold byte_list; vm_compute; repeat constructor; discriminate).
  assert (H6 : forall d c, document_text = d ++ [c] -> ~ is_alnum c).
  { intros d c E. assert (Q : last document_text 0 = c) by (rewrite E; apply last_last). rewrite <- Q.
    vm_compute. intros F. repeat destruct F as [F|F]; destruct F as [F1 F2]; try (apply F1; reflexivity); apply F2; reflexivity. }
  destruct (json_parse ws_cfg record_cb [] document_text) as [[[code pos] x]|] eqn:E; [|discriminate].
  assert (Q : match json_parse ws_cfg record_cb [] document_text with Some (c, _, _) => c | None => -1 end = 0) by (vm_compute; reflexivity).
  rewrite E in Q. subst code.
  destruct (C53_accepted_is_wellformed_partial _ ws_cfg record_cb [] document_text _ _ _ H1 H2 H3 H4 H5 H6 E (Z.le_refl 0)) as (v & DV & WI & _).
  exists v. split; assumption.
Qed.

(** ** What goes wrong *)

(** Names of protocols and services that do not exist are looked up without error and without result (glibc), and the missing
    result is used; and a "bitmask" after a "prefix-bits" writes beyond the end of the address: undefined behaviour. *)
Theorem C63_undefined_refuted :
  answer (load_text false (text "{'wolfsentry-config-version':1,'routes':[{'family':2,'protocol':'nonesuch'}]}")) = Some (-1, Bad) /\
  answer (load_text false (text "{'wolfsentry-config-version':1,'routes':[{'family':2,'protocol':6,'remote':{'port':'nonesuch'}}]}")) = Some (-1, Bad) /\
  answer (load_text false (text "{'wolfsentry-config-version':1,'routes':[{'family':2,'remote':{'address':'abcd','prefix-bits':24,'bitmask':'wxyz'}}]}")) = Some (-1, Bad).
Proof. split; [vm_compute; reflexivity|]. split; vm_compute; reflexivity. Qed.
Print Assumptions C63_undefined_refuted.

(** The documentation allows lists of flags in "config-update"; they are refused, whatever the context and the flags. *)
Theorem C63_config_update_lists_refuted :
  forall (W D V F : Type) (api : calls W V F) (cv : converters W D V F) (only_values : bool) k flag defaults dom (w : W),
    In k ["route-flags-to-add-on-insert"; "route-flags-to-clear-on-insert"; "action-res-filter-bits-set"; "action-res-filter-bits-unset";
          "action-res-bits-to-add"; "action-res-bits-to-clear"]%string ->
    run api cv only_values (events (VObj [mem "wolfsentry-config-version" (num_ "1"); mem "config-update" (VObj [mem k (VArr [str flag])])])) (start defaults dom, w) = Err.
Proof.
  intros W D V F api cv o k flag dflt dom w H.
  repeat (destruct H as [<- |H]; [vm_compute; reflexivity|]). destruct H.
Qed.
Print Assumptions C63_config_update_lists_refuted.

(** A text cut off in the middle of a number is loaded as far as it goes, and the answer is success. *)
Theorem C63_truncated_refuted :
  exists j w, option_map (fun r => (fst (fst r), snd r)) (load_text false (text "{'wolfsentry-config-version':1,'routes':[{'parent-event':'a'},{'family':2")) = Some (0, Good (j, w)) /\
    w = [MRoute zero_sa zero_sa 255 (Some (text "a"))].
Proof. vm_compute. eexists _, _. split; reflexivity. Qed.
Print Assumptions C63_truncated_refuted.
