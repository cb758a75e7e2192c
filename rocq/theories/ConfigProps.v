(** * C66: a configuration document, from its text to the running configuration

    [configure] below is a whole session (init, feeds, fini) over the parser and json_process; [document_meaning] (LoaderSpec.v) is
    what a document does to the contents of a context; [installed] (SessionSpec.v) runs the insert actions. *)
Require Import ZArith NArith List Bool String Lia.
From Verif Require Import Json JsonSpec JsonProps JsonGrammarProps Session SessionSpec SessionProofs Loader LoaderSpec LoaderProofs LoaderDoc LoaderSafe Config.
From Verif Require EventConfig JsonText LoaderProps SessionProps.
Import ListNotations.
Open Scope Z_scope.

Section Configure.
  Context {C D V F : Type} (api : Loader.calls C V F) (cv : converters C D V F) (failure : jtype -> list Z -> jps D * C -> Z)
    (left_behind : jtype -> list Z -> jps D * C -> C) (defaults_get : C -> Z * EventConfig.econf) (dom : D).
  Definition k_of (k : Session.calls C unit) := composed api cv failure left_behind defaults_get dom k.
  Definition configure (k : Session.calls C unit) (cfg : jconfig) (ia nm fl : Z) (pieces : list (list Z)) (a : C) : option (Z * world C) :=
    load (k_of k) cfg true ia nm fl pieces a.
  Definition meaning_of (fl : Z) (v : jvalue) (defaults : EventConfig.econf) (c : C) : meaning C :=
    document_meaning api cv (Z.testbit fl LF_NO_ROUTES_OR_EVENTS) v defaults c.
  (** json_process never behaves in an undefined way (Bad in Loader.v) while the document is read. *)
  Definition defined (fl : Z) (v : jvalue) (defaults : EventConfig.econf) (c : C) : Prop :=
    run api cv (Z.testbit fl LF_NO_ROUTES_OR_EVENTS) (events v) (start defaults dom, c) <> Bad.
  (** Failures are errors, and an empty label names no default event. *)
  Definition proper : Prop := (forall t d x, failure t d x < 0) /\ (forall c, fst (a_default_event api [] c) < 0).

  Lemma deliver_tokens fl evs : (forall t d x, failure t d x < 0) -> forall j c,
    match run api cv (Z.testbit fl LF_NO_ROUTES_OR_EVENTS) evs (j, c) with
    | Good (j', c') => deliver (on_token api cv failure left_behind fl) 0 (Good j, c) evs = (0, (Good j', c'))
    | Err => exists r c', deliver (on_token api cv failure left_behind fl) 0 (Good j, c) evs = (r, (Err, c')) /\ r < 0
    | Bad => exists r c', deliver (on_token api cv failure left_behind fl) 0 (Good j, c) evs = (r, (Bad, c')) /\ r < 0
    end.
  Proof.
    intros NF. induction evs as [|[t d] evs IH]; intros j c; cbn [deliver run]; [reflexivity|]. change (0 <? 0) with false. cbv iota. cbn [on_token].
    destruct (process api cv (Z.testbit fl LF_NO_ROUTES_OR_EVENTS) t d (j, c)) as [[j1 c1]| |]; cbn [bind].
    - apply IH.
    - exists (failure t d (j, c)), (left_behind t d (j, c)). split; [|apply NF]. destruct evs as [|[t' d'] evs]; [reflexivity|]. cbn [deliver]. pose proof (NF t d (j, c)). destruct (Z.ltb_spec (failure t d (j, c)) 0); [reflexivity|lia].
    - exists (failure t d (j, c)), (left_behind t d (j, c)). split; [|apply NF]. destruct evs as [|[t' d'] evs]; [reflexivity|]. cbn [deliver]. pose proof (NF t d (j, c)). destruct (Z.ltb_spec (failure t d (j, c)) 0); [reflexivity|lia].
  Qed.

  (** What the parser answers. *)
  Lemma reading k cfg fl pieces v defaults c : proper -> config_ok cfg -> not_too_long cfg (List.concat pieces) -> document (List.concat pieces) v -> JsonSpec.within cfg v ->
    exists code pos j c', load_chunks cfg (cb (k_of k) fl) (Good (start defaults dom), c) pieces = Some (code, pos, (j, c')) /\
      match meaning_of fl v defaults c with Means c1 => code = 0 /\ c' = c1 | Refused => code < 0 | Unspecified => True end.
  Proof.
    intros (NF & NE) Hc Hl Hd Hw. destruct (C53_wellformed_pieces_accepted _ cfg (cb (k_of k) fl) (Good (start defaults dom), c) pieces v Hc Hl Hd Hw) as (pos & E).
    pose proof (deliver_tokens fl (events v) NF (start defaults dom) c) as DT. pose proof (document_agrees api cv (Z.testbit fl LF_NO_ROUTES_OR_EVENTS) NE v defaults c dom) as A.
    unfold meaning_of. change (cb (k_of k) fl) with (on_token api cv failure left_behind fl) in *.
    destruct (document_meaning api cv (Z.testbit fl LF_NO_ROUTES_OR_EVENTS) v defaults c) as [c1| |]; cbn [agrees] in A.
    - destruct A as ([j1 c2] & R & <-). rewrite R in DT. rewrite DT in E. cbn [fst snd] in *. exists 0, pos, (Good j1), c2. auto.
    - destruct (run api cv _ (events v) (start defaults dom, c)) as [y| |]; [destruct (A y eq_refl)| |]; destruct DT as (r & c' & DT & R); rewrite DT in E; cbn [fst snd] in E; eexists _, _, _, _; (split; [exact E|exact R]).
    - destruct (deliver (on_token api cv failure left_behind fl) 0 (Good (start defaults dom), c) (events v)) as [r [j c']]. exists r, pos, j, c'. split; [exact E|exact Logic.I].
  Qed.
End Configure.

(** Load-then-commit.  The document is read into what the new configuration starts from, with its actions inhibited; if it means
    something there, then that takes the place of the running configuration, insert actions are run, and the answer is success. *)
Theorem C66_committed :
  forall (C D V F : Type) (api : Loader.calls C V F) (cv : converters C D V F) failure left_behind defaults_get (dom : D) k cfg ia nm fl pieces v a r0 c0 r1 defaults c1 r2 a1 old,
    proper api failure -> config_ok cfg ->
    not_too_long cfg (List.concat pieces) -> document (List.concat pieces) v -> JsonSpec.within cfg v ->
    Z.testbit fl LF_FINI = false -> Z.testbit fl LF_DRY_RUN = false -> Z.testbit fl LF_LOAD_THEN_COMMIT = true ->
    0 <= k_lock k -> k_clone k (starts_from fl) a = (r0, c0) -> 0 <= r0 -> defaults_get (k_inhibit k c0) = (r1, defaults) -> 0 <= r1 ->
    meaning_of api cv fl v defaults (k_inhibit k c0) = Means c1 ->
    k_exchange k a c1 = (r2, a1, old) -> 0 <= r2 -> last_steps_succeed k ->
    exists w, configure api cv failure left_behind defaults_get dom k cfg ia nm fl pieces a = Some (0, w) /\ w_actual w = snd (installed k fl a1).
Proof.
  intros C D V F api cv failure left_behind defaults_get dom k cfg ia nm fl pieces v a r0 c0 r1 defaults c1 r2 a1 old P Hc Hl Hd Hw NFI ND LC HL KC R0 KS R1 M EX R2 (LS1 & LS2 & LS3).
  destruct (reading api cv failure left_behind defaults_get dom k cfg fl pieces v defaults (k_inhibit k c0) P Hc Hl Hd Hw) as (code & pos & j & c' & E & O). rewrite M in O. destruct O as [-> ->].
  destruct (session_ends (k_of api cv failure left_behind defaults_get dom k) cfg ia pieces fl _ _ (Some a) 0 pos _ E) as (s & F1 & Fl & Ac & En).
  unfold configure, load, init. rewrite NFI. cbn [negb]. change (k_lock (k_of api cv failure left_behind defaults_get dom k)) with (k_lock k). destruct (Z.ltb_spec (k_lock k) 0); [lia|].
  unfold apart. rewrite ND, LC. cbn [orb]. assert (KF : kind fl = starts_from fl) by (unfold kind, starts_from; destruct (Z.testbit fl LF_NO_FLUSH), (Z.testbit fl LF_FLUSH_ONLY_ROUTES); reflexivity). rewrite KF.
  cbn [k_of composed k_clone k_inhibit k_start]. rewrite KC. destruct (Z.ltb_spec r0 0); [lia|]. unfold on_start. rewrite KS. destruct (Z.ltb_spec r1 0); [lia|].
  change (composed api cv failure left_behind defaults_get dom k) with (k_of api cv failure left_behind defaults_get dom k). rewrite F1, (fini_ended _ cfg s 0 j c1 En), Ac, Fl, ND, LC.
  change (0 <? 0) with false. cbv iota zeta.
  assert (X : fst (commit (k_of api cv failure left_behind defaults_get dom k) fl a c1) = 0 \/ 0 <= fst (commit (k_of api cv failure left_behind defaults_get dom k) fl a c1)) by
    (right; unfold commit; cbn [k_of composed k_exchange k_bulk_clear k_flush k_enable k_bulk_insert k_free]; rewrite EX; destruct (Z.ltb_spec r2 0); [lia|];
     destruct (Z.testbit fl LF_NO_FLUSH); cbn [negb];
     [change (0 <? 0) with false; cbv iota; specialize (LS3 (k_enable k a1)); destruct (k_bulk_insert k (k_enable k a1)) as [r3 a3]; cbn [fst] in LS3; destruct (Z.ltb_spec r3 0); [lia|]; destruct (k_free k old); rewrite out_code; lia
     |specialize (LS1 a1); destruct (k_bulk_clear k a1) as [r3 a2]; cbn [fst] in LS1; destruct (Z.ltb_spec r3 0); [lia|]; specialize (LS2 old); destruct (k_flush k old) as [r4 c4]; cbn [fst] in LS2; destruct (Z.ltb_spec r4 0); [lia|];
      specialize (LS3 (k_enable k a2)); destruct (k_bulk_insert k (k_enable k a2)) as [r5 a3]; cbn [fst] in LS3; destruct (Z.ltb_spec r5 0); [lia|]; destruct (k_free k c4); rewrite out_code; lia]).
  assert (Y : w_actual (snd (commit (k_of api cv failure left_behind defaults_get dom k) fl a c1)) = snd (installed k fl a1)).
  { unfold commit, installed; cbn [k_of composed k_exchange k_bulk_clear k_flush k_enable k_bulk_insert k_free]; rewrite EX; destruct (Z.ltb_spec r2 0); [lia|].
    destruct (Z.testbit fl LF_NO_FLUSH); cbn [negb].
    - change (0 <? 0) with false; cbv iota; specialize (LS3 (k_enable k a1)); destruct (k_bulk_insert k (k_enable k a1)) as [r3 a3]; cbn [fst] in LS3; destruct (Z.ltb_spec r3 0); [lia|]; destruct (k_free k old); rewrite out_actual; reflexivity.
    - specialize (LS1 a1); destruct (k_bulk_clear k a1) as [r3 a2]; cbn [fst snd] in *; destruct (Z.ltb_spec r3 0); [lia|]; specialize (LS2 old); destruct (k_flush k old) as [r4 c4]; cbn [fst] in LS2; destruct (Z.ltb_spec r4 0); [lia|];
      specialize (LS3 (k_enable k a2)); destruct (k_bulk_insert k (k_enable k a2)) as [r5 a3]; cbn [fst] in LS3; destruct (Z.ltb_spec r5 0); [lia|]; destruct (k_free k c4); rewrite out_actual; reflexivity. }
  destruct (Z.ltb_spec (fst (commit (k_of api cv failure left_behind defaults_get dom k) fl a c1)) 0); [lia|]. eexists. split; [reflexivity|]. exact Y.
Qed.
Print Assumptions C66_committed.

(** A document that is refused there (and read without undefined behaviour) changes nothing, and the answer is an error, with or
    without commit. *)
Theorem C66_refused :
  forall (C D V F : Type) (api : Loader.calls C V F) (cv : converters C D V F) failure left_behind defaults_get (dom : D) k cfg ia nm fl pieces v a r0 c0 r1 defaults,
    proper api failure -> errors_stay_errors k -> config_ok cfg ->
    not_too_long cfg (List.concat pieces) -> document (List.concat pieces) v -> JsonSpec.within cfg v ->
    Z.testbit fl LF_FINI = false -> Z.testbit fl LF_DRY_RUN = true \/ Z.testbit fl LF_LOAD_THEN_COMMIT = true ->
    0 <= k_lock k -> k_clone k (starts_from fl) a = (r0, c0) -> 0 <= r0 -> defaults_get (k_inhibit k c0) = (r1, defaults) -> 0 <= r1 ->
    defined api cv dom fl v defaults (k_inhibit k c0) ->
    meaning_of api cv fl v defaults (k_inhibit k c0) = Refused ->
    exists r w, configure api cv failure left_behind defaults_get dom k cfg ia nm fl pieces a = Some (r, w) /\ r < 0 /\ w_actual w = a.
Proof.
  intros C D V F api cv failure left_behind defaults_get dom k cfg ia nm fl pieces v a r0 c0 r1 defaults P ES Hc Hl Hd Hw NFI AP HL KC R0 KS R1 _ M.
  destruct (reading api cv failure left_behind defaults_get dom k cfg fl pieces v defaults (k_inhibit k c0) P Hc Hl Hd Hw) as (code & pos & j & c' & E & O). rewrite M in O.
  destruct (session_ends (k_of api cv failure left_behind defaults_get dom k) cfg ia pieces fl _ _ (Some a) code pos _ E) as (s & F1 & Fl & Ac & En).
  unfold configure, load, init. rewrite NFI. cbn [negb]. change (k_lock (k_of api cv failure left_behind defaults_get dom k)) with (k_lock k). destruct (Z.ltb_spec (k_lock k) 0); [lia|].
  assert (A : apart fl = true) by (unfold apart; destruct AP as [-> | ->]; [reflexivity|apply orb_true_r]). rewrite A.
  assert (KF : kind fl = starts_from fl) by (unfold kind, starts_from; destruct (Z.testbit fl LF_NO_FLUSH), (Z.testbit fl LF_FLUSH_ONLY_ROUTES); reflexivity). rewrite KF.
  cbn [k_of composed k_clone k_inhibit k_start]. rewrite KC. destruct (Z.ltb_spec r0 0); [lia|]. unfold on_start. rewrite KS. destruct (Z.ltb_spec r1 0); [lia|].
  change (composed api cv failure left_behind defaults_get dom k) with (k_of api cv failure left_behind defaults_get dom k). rewrite F1, (fini_ended _ cfg s code j c' En), Ac.
  destruct (Z.ltb_spec code 0); [|lia]. cbv zeta. rewrite out_code. cbn [k_of composed k_translate]. pose proof (ES code O). destruct (Z.ltb_spec (k_translate k code) 0); [|lia].
  eexists _, _. split; [apply f_equal; apply surjective_pairing|]. rewrite out_code, out_actual. auto.
Qed.
Print Assumptions C66_refused.

(** A dry run answers success for a document that means something, and leaves the running configuration as it was. *)
Theorem C66_dry_run :
  forall (C D V F : Type) (api : Loader.calls C V F) (cv : converters C D V F) failure left_behind defaults_get (dom : D) k cfg ia nm fl pieces v a r0 c0 r1 defaults c1,
    proper api failure -> config_ok cfg ->
    not_too_long cfg (List.concat pieces) -> document (List.concat pieces) v -> JsonSpec.within cfg v ->
    Z.testbit fl LF_FINI = false -> Z.testbit fl LF_DRY_RUN = true ->
    0 <= k_lock k -> k_clone k (starts_from fl) a = (r0, c0) -> 0 <= r0 -> defaults_get (k_inhibit k c0) = (r1, defaults) -> 0 <= r1 ->
    meaning_of api cv fl v defaults (k_inhibit k c0) = Means c1 ->
    exists w, configure api cv failure left_behind defaults_get dom k cfg ia nm fl pieces a = Some (0, w) /\ w_actual w = a.
Proof.
  intros C D V F api cv failure left_behind defaults_get dom k cfg ia nm fl pieces v a r0 c0 r1 defaults c1 P Hc Hl Hd Hw NFI DR HL KC R0 KS R1 M.
  destruct (reading api cv failure left_behind defaults_get dom k cfg fl pieces v defaults (k_inhibit k c0) P Hc Hl Hd Hw) as (code & pos & j & c' & E & O). rewrite M in O. destruct O as [-> ->].
  destruct (session_ends (k_of api cv failure left_behind defaults_get dom k) cfg ia pieces fl _ _ (Some a) 0 pos _ E) as (s & F1 & Fl & Ac & En).
  unfold configure, load, init. rewrite NFI. cbn [negb]. change (k_lock (k_of api cv failure left_behind defaults_get dom k)) with (k_lock k). destruct (Z.ltb_spec (k_lock k) 0); [lia|].
  unfold apart. rewrite DR. cbn [orb].
  assert (KF : kind fl = starts_from fl) by (unfold kind, starts_from; destruct (Z.testbit fl LF_NO_FLUSH), (Z.testbit fl LF_FLUSH_ONLY_ROUTES); reflexivity). rewrite KF.
  cbn [k_of composed k_clone k_inhibit k_start]. rewrite KC. destruct (Z.ltb_spec r0 0); [lia|]. unfold on_start. rewrite KS. destruct (Z.ltb_spec r1 0); [lia|].
  change (composed api cv failure left_behind defaults_get dom k) with (k_of api cv failure left_behind defaults_get dom k). rewrite F1, (fini_ended _ cfg s 0 j c1 En), Ac, Fl, DR.
  change (0 <? 0) with false. cbv iota zeta. rewrite out_code. change (0 <? 0) with false. cbv iota. eexists. split; [reflexivity|]. apply out_actual.
Qed.
Print Assumptions C66_dry_run.

(** In place: the running configuration (emptied first, unless the load is incremental) becomes what the document means; the
    defaults are those from before it was emptied.  A document that is refused is answered with an error. *)
Theorem C66_in_place :
  forall (C D V F : Type) (api : Loader.calls C V F) (cv : converters C D V F) failure left_behind defaults_get (dom : D) k cfg ia nm fl pieces v a r1 defaults a0,
    proper api failure -> errors_stay_errors k -> config_ok cfg ->
    not_too_long cfg (List.concat pieces) -> document (List.concat pieces) v -> JsonSpec.within cfg v ->
    Z.testbit fl LF_FINI = false -> Z.testbit fl LF_DRY_RUN = false -> Z.testbit fl LF_LOAD_THEN_COMMIT = false ->
    0 <= k_lock k -> defaults_get a = (r1, defaults) -> 0 <= r1 ->
    (if Z.testbit fl LF_NO_FLUSH then a0 = a
     else exists r2, (if Z.testbit fl LF_FLUSH_ONLY_ROUTES then k_flush_routes k a else k_flush k a) = (r2, a0) /\ 0 <= r2) ->
    defined api cv dom fl v defaults a0 ->
    exists r w, configure api cv failure left_behind defaults_get dom k cfg ia nm fl pieces a = Some (r, w) /\
      match meaning_of api cv fl v defaults a0 with
      | Means a1 => r = 0 /\ w_actual w = a1
      | Refused => r < 0
      | Unspecified => True
      end.
Proof.
  intros C D V F api cv failure left_behind defaults_get dom k cfg ia nm fl pieces v a r1 defaults a0 P ES Hc Hl Hd Hw NFI ND NC HL KS R1 FL _.
  destruct (SessionProps.C62_in_place C (res (jps D)) (k_of api cv failure left_behind defaults_get dom k) cfg ia nm fl pieces a r1 (Good (start defaults dom)) a0) as (code & a1 & r & w & (pos & j & RD) & LD & WA & RC & RO); try assumption.
  { cbn [k_of composed k_start]. unfold on_start. rewrite KS. reflexivity. }
  exists r, w. split; [exact LD|].
  destruct (reading api cv failure left_behind defaults_get dom k cfg fl pieces v defaults a0 P Hc Hl Hd Hw) as (code' & pos' & j' & c' & E & O).
  unfold cb in E. rewrite RD in E. assert (X : code = code' /\ a1 = c') by (split; congruence). destruct X as [<- <-].
  destruct (meaning_of api cv fl v defaults a0) as [c1| |]; [|tauto|exact Logic.I]. destruct O as [-> <-]. split; [apply RO; lia|exact WA].
Qed.
Print Assumptions C66_in_place.

(** When reading the document is defined: as C63_safe_partial. *)
Theorem C66_defined :
  forall (C D V F : Type) (api : Loader.calls C V F) (cv : converters C D V F) (dom : D) fl v defaults c,
    (forall t d, cv_duration cv t d <> Convert.CUB) ->
    (forall w m f n t d g b n', cv_address cv w m f n t d = Some (g, b, n') -> (List.length b <= 16)%nat) ->
    (forall p d, cv_port_name cv p d <> NoEntry) -> (forall d, cv_proto_name cv d <> NoEntry) ->
    (forall d, In (JSON_STRING, d) (events v) -> Forall (fun c => 0 < c) d) ->
    (forall d, In (JSON_KEY, d) (events v) -> upto_nul d <> JsonText.bytes "bitmask") ->
    defined api cv dom fl v defaults c.
Proof.
  intros C D V F api cv dom fl v defaults c H1 H2 H3 H4 H5 H6. apply ok_run; try assumption.
  - repeat split.
  - intros t d IN ->. specialize (H5 d IN). unfold positive. apply forallb_forall. rewrite Forall_forall in H5. intros x IC. apply Z.ltb_lt. exact (H5 x IC).
  - intros d IN. specialize (H6 d IN). destruct (is (upto_nul d) "bitmask") eqn:K; [|reflexivity]. apply is_eq in K. contradiction.
Qed.
Print Assumptions C66_defined.

(** Conversely: a load-then-commit that answers success was given a JSON document within the limits, and, unless the meaning of
    the document is not specified, what is running then is what it means.  Missing: texts that end in a letter or digit
    (C66_truncated_refuted). *)
Theorem C66_only_documents_partial :
  forall (C D V F : Type) (api : Loader.calls C V F) (cv : converters C D V F) failure left_behind defaults_get (dom : D) k cfg memory ia nm fl pieces a r w,
    proper api failure -> errors_stay_errors k -> config_ok cfg -> 0 <= max_nesting_level cfg -> strict cfg -> byte_list (List.concat pieces) ->
    (forall d c, List.concat pieces = d ++ [c] -> ~ is_alnum c) -> ia < 0 -> nm < 0 ->
    Z.testbit fl LF_DRY_RUN = false -> Z.testbit fl LF_LOAD_THEN_COMMIT = true ->
    load (k_of api cv failure left_behind defaults_get dom k) cfg memory ia nm fl pieces a = Some (r, w) -> 0 <= r ->
    exists v r0 c0 r1 defaults, document (List.concat pieces) v /\ JsonSpec.within cfg v /\
      k_clone k (starts_from fl) a = (r0, c0) /\ defaults_get (k_inhibit k c0) = (r1, defaults) /\
      ((exists c1 r2 a1 old, meaning_of api cv fl v defaults (k_inhibit k c0) = Means c1 /\ k_exchange k a c1 = (r2, a1, old) /\ 0 <= r2 /\
          w_actual w = snd (installed k fl a1)) \/
       meaning_of api cv fl v defaults (k_inhibit k c0) = Unspecified).
Proof.
  intros C D V F api cv failure left_behind defaults_get dom k cfg memory ia nm fl pieces a r w (NF & NE) ES Hc MN ST BL NA IA NM ND LC LD R.
  destruct (SessionProps.C62_commit_success _ _ (k_of api cv failure left_behind defaults_get dom k) cfg memory ia nm fl pieces a w r Hc IA NM ES ND LC LD R)
    as (_ & r0 & c0 & r1 & j & code & c1 & r2 & a1 & old & KC & KS & (pos & j' & RD) & CO & EX & R2 & _ & WA).
  cbn [k_of composed k_clone k_inhibit k_exchange k_start] in KC, KS, EX. unfold on_start in KS. destruct (defaults_get (k_inhibit k c0)) as [r1' defaults] eqn:DG.
  assert (X : j = Good (start defaults dom)) by congruence. subst j.
  assert (NT : not_too_long cfg (List.concat pieces)).
  { destruct (load_ends cfg _ (k_event (k_of api cv failure left_behind defaults_get dom k) fl) (Good (start defaults dom), k_inhibit k c0) pieces Hc) as (code' & pos' & u' & E & TL).
    cbn [k_of composed k_inhibit] in *. rewrite E in RD. assert (Q : code' = code) by congruence. subst code'.
    assert (DD : not_too_long cfg (List.concat pieces) \/ ~ not_too_long cfg (List.concat pieces)) by (unfold not_too_long; lia). destruct DD as [DD|DD]; [exact DD|]. specialize (TL DD). lia. }
  destruct (C52_chunking_irrelevant _ cfg (k_event (k_of api cv failure left_behind defaults_get dom k) fl) (Good (start defaults dom), k_inhibit k c0) pieces Hc NT) as (res & JP & _ & LCH).
  cbn [k_of composed k_inhibit] in *. rewrite RD in LCH. assert (Q : res = (code, pos, (j', c1))) by congruence. subst res.
  destruct (C53_accepted_is_wellformed_partial _ cfg _ _ (List.concat pieces) code pos _ Hc MN ST NT BL NA JP CO) as (v & DV & WI & DE).
  exists v, r0, c0, r1', defaults. split; [exact DV|]. split; [exact WI|]. split; [exact KC|]. split; [exact DG|].
  pose proof (deliver_tokens api cv failure left_behind defaults_get fl (events v) NF (start defaults dom) (k_inhibit k c0)) as DT.
  pose proof (document_agrees api cv (Z.testbit fl LF_NO_ROUTES_OR_EVENTS) NE v defaults (k_inhibit k c0) dom) as A.
  change (k_event (k_of api cv failure left_behind defaults_get dom k) fl) with (on_token api cv failure left_behind fl) in DE. unfold meaning_of. destruct (document_meaning api cv (Z.testbit fl LF_NO_ROUTES_OR_EVENTS) v defaults (k_inhibit k c0)) as [c2| |]; cbn [agrees] in A; [left|exfalso|right; reflexivity].
  - destruct A as ([j1 c3] & RN & <-). rewrite RN in DT. rewrite DT in DE. cbn [snd]. assert (Q : c3 = c1) by congruence. subst c3. exists c1, r2, a1, old. split; [reflexivity|]. split; [exact EX|]. split; [exact R2|exact WA].
  - destruct (run api cv _ (events v) (start defaults dom, k_inhibit k c0)) as [y| |]; [destruct (A y eq_refl)| |]; destruct DT as (rr & cc & DT & RR); rewrite DT in DE; assert (Q : rr = code) by congruence; lia.
Qed.
Print Assumptions C66_only_documents_partial.

(** ** A context that writes down the calls made on it, and whether its actions are inhibited *)
Import LoaderProps.
Definition book : Type := log * bool.
Definition on_log {A} (f : log -> A * log) (c : book) : A * book := let '(r, l) := f (fst c) in (r, (l, snd c)).
Definition book_api : Loader.calls book unit unit :=
  Loader.Calls (fun l p c => on_log (a_event_insert logging l p c)) (fun l a => on_log (a_aux logging l a)) (fun l c => a_post_actions logging l (fst c)) (fun e t a => on_log (a_append logging e t a))
    (fun c => on_log (a_defaults logging c)) (fun p => on_log (a_policy logging p)) (fun e => on_log (a_default_event logging e))
    (fun n => on_log (a_max_routes logging n)) (fun n => on_log (a_max_idle logging n)) (fun r l f e => on_log (a_route_insert logging r l f e)) (fun k v => on_log (a_store logging k v)).
Definition book_cv : converters book unit unit unit :=
  Conv (cv_duration simple) (cv_double simple) (fun _ => cv_address simple []) (cv_port_name simple) (cv_proto_name simple)
    (fun _ => cv_family_name simple []) (fun _ => cv_family_bits simple []) (dom_init simple) (dom_step simple) (dom_value simple).
Definition book_session : Session.calls book unit :=
  Session.Calls 0 (fun kd c => (0, match kd with CloneAll => c | _ => ([], snd c) end)) (fun c => (fst c, true)) (fun c => (fst c, false)) (fun _ _ => (0, tt))
    (fun c => (0, ([], snd c))) (fun c => (0, ([], snd c))) (fun a c => (0, (fst c, snd c), (fst a, snd a))) (fun a => (0, a)) (fun a => (0, a)) (fun c => (0, c)) (fun _ _ _ u => (0, u)) (fun r => r).
Definition book_load (fl : Z) (t : list Z) (a : book) := configure book_api book_cv (fun _ _ _ => -1) (fun _ _ x => snd x) (fun _ => (0, EventConfig.zero_econf)) tt book_session ws_cfg (-1) (-2) fl [t] a.

(** A file cut off in the middle of a number, loaded with load-then-commit: the answer is success and the running configuration
    has been replaced by its beginning. *)
Theorem C66_truncated_refuted :
  exists v w, document (text "{'wolfsentry-config-version':1,'routes':[{'parent-event':'a'},{'family':22,'green-listed':true}]}") v /\
    book_load 4 (text "{'wolfsentry-config-version':1,'routes':[{'parent-event':'a'},{'family':2") ([MPolicy 1], false) = Some (0, w) /\
    w_actual w = ([MRoute zero_sa zero_sa 255 (Some (text "a"))], false).
Proof.
  assert (X : exists v, document (text "{'wolfsentry-config-version':1,'routes':[{'parent-event':'a'},{'family':22,'green-listed':true}]}") v).
  { set (t := text _). assert (H1 : config_ok ws_cfg) by (unfold config_ok; cbn; lia). assert (H2 : 0 <= max_nesting_level ws_cfg) by (cbn; lia).
    assert (H3 : strict ws_cfg) by (intros b Hb; assert (b = 8 \/ b = 9 \/ b = 10 \/ b = 11) as [->|[->|[->| ->]]] by lia; reflexivity).
    assert (H4 : not_too_long ws_cfg t) by (left; reflexivity). assert (H5 : byte_list t) by (unfold byte_list; vm_compute; repeat constructor; discriminate).
    assert (H6 : forall d c, t = d ++ [c] -> ~ is_alnum c).
    { intros d c E. assert (Q : last t 0 = c) by (rewrite E; apply last_last). rewrite <- Q. vm_compute. intros F. repeat destruct F as [F|F]; destruct F as [F1 F2]; try (apply F1; reflexivity); apply F2; reflexivity. }
    destruct (json_parse ws_cfg record_cb [] t) as [[[code pos] x]|] eqn:E; [|exfalso; assert (Q : match json_parse ws_cfg record_cb [] t with Some _ => 0 | None => 1 end = 0) by (vm_compute; reflexivity); rewrite E in Q; discriminate Q].
    assert (Q : match json_parse ws_cfg record_cb [] t with Some (c, _, _) => c | None => -1 end = 0) by (vm_compute; reflexivity). rewrite E in Q. subst code.
    destruct (C53_accepted_is_wellformed_partial _ ws_cfg record_cb [] t _ _ _ H1 H2 H3 H4 H5 H6 E (Z.le_refl 0)) as (v & DV & _). exists v. exact DV. }
  destruct X as (v & DV). eexists v, _. split; [exact DV|]. split; vm_compute; reflexivity.
Qed.
Print Assumptions C66_truncated_refuted.

(** The theorems apply: the document of C63_example, committed, tried and loaded in place, and one with an unknown flag. *)
Example C66_example :
  book_load 4 document_text ([MPolicy 1], false) = Some (0, World (made_for_it, false) None false false) /\
  book_load 2 document_text ([MPolicy 1], false) = Some (0, World ([MPolicy 1], false) None false false) /\
  book_load 1 document_text ([MPolicy 1], false) = Some (0, World (MPolicy 1 :: made_for_it, false) None false false) /\
  book_load 4 (text "{'wolfsentry-config-version':1,'routes':[{'no-such-flag':true}]}") ([MPolicy 1], false) = Some (-1, World ([MPolicy 1], false) None false false) /\
  meaning_of book_api book_cv 4 document_value EventConfig.zero_econf ([], true) = Means (made_for_it, true) /\
  proper book_api (fun _ _ (_ : jps unit * book) => -1) /\ errors_stay_errors book_session /\ last_steps_succeed book_session /\
  defined book_api book_cv tt 4 document_value EventConfig.zero_econf ([], true).
Proof.
  split; [vm_compute; reflexivity|]. split; [vm_compute; reflexivity|]. split; [vm_compute; reflexivity|]. split; [vm_compute; reflexivity|]. split; [vm_compute; reflexivity|].
  split; [split; [intros; lia|intros [l b]; cbn; lia]|]. split; [intros r H; exact H|]. split; [repeat split; intros [l b]; cbn; lia|]. vm_compute. discriminate.
Qed.
