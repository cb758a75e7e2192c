(** C31: action lists run in order and stop when told. *)
From Verif Require Import Base RouteFlags Dispatch DispatchProofs DispatchProps Actions ActionsSpec.
Open Scope N_scope.

Section Facts.
  Variable U : Type.
  Variable handler : action -> action_type -> world U -> N -> err * world U * N.
  Variable ty : action_type.
  Lemma bump_same (w : world U) a ar : same_but_hits (bump w a, ar) (w, ar).
  Proof. repeat split. Qed.
  Lemma same_refl (x : world U * N) : same_but_hits x x.
  Proof. repeat split. Qed.
  Lemma given_same (w : world U) a ar : same_but_hits (given (a, if has (s_flags (w_route w)) RF_DONT_COUNT_HITS then w else bump w a, ar)) (w, ar).
  Proof. destruct (has _ _); [apply same_refl|apply bump_same]. Qed.
  Lemma walk_visit l : forall w ar, let '(e, w', ar', cs) := walk handler ty l w ar in
    visit handler ty l (w, ar) cs e /\ last_left handler ty (w, ar) cs = (w', ar').
  Proof.
    induction l as [|a l IH]; intros w ar; cbn [walk].
    - split; [constructor|reflexivity].
    - destruct (w_disabled w a) eqn:D.
      + specialize (IH w ar). destruct (walk handler ty l w ar) as [[[e w'] ar'] cs]. destruct IH as [IH IL]. split; [constructor; assumption|exact IL].
      + set (w1 := if has (s_flags (w_route w)) RF_DONT_COUNT_HITS then w else bump w a).
        pose proof (given_same w a ar) as G. fold w1 in G.
        destruct (handler a ty w1 ar) as [[e w2] ar2] eqn:HC.
        assert (AN : answer handler ty (a, w1, ar) = (e, w2, ar2)) by exact HC.
        destruct (is_success e) eqn:S1; cbn [negb].
        * destruct (has ar2 AR_STOP) eqn:ST.
          -- split; [|cbn [last_left]; unfold left_by; rewrite AN; reflexivity].
             apply V_stop; [exact D|reflexivity|exact G| |]; unfold failed, stopped; rewrite AN; cbn [fst snd]; congruence.
          -- specialize (IH w2 ar2). destruct (walk handler ty l w2 ar2) as [[[e3 w3] ar3] cs]. destruct IH as [IH IL].
             assert (LB : left_by handler ty (a, w1, ar) = (w2, ar2)) by (unfold left_by; rewrite AN; reflexivity).
             split; [|cbn [last_left]; rewrite LB; exact IL].
             apply V_call; [exact D|reflexivity|exact G| |rewrite LB; exact IH].
             split; unfold failed, stopped; rewrite AN; cbn [fst snd]; congruence.
        * split; [|cbn [last_left]; unfold left_by; rewrite AN; reflexivity].
          replace e with (fst (fst (answer handler ty (a, w1, ar)))) by (rewrite AN; reflexivity).
          apply V_fail; [exact D|reflexivity|exact G|]. unfold failed. rewrite AN. exact S1.
  Qed.
  Lemma visit_chained l x cs e : visit handler ty l x cs e -> chained handler ty x cs.
  Proof. induction 1; cbn [chained]; auto. Qed.
  Lemma visit_order l x cs e : keeps_enabled handler ty -> visit handler ty l x cs e ->
    exists l1 l2, l = l1 ++ l2 /\ map who cs = filter (fun a => negb (w_disabled (fst x) a)) l1 /\
      ((l2 = [] /\ e = OK /\ Forall (carries_on handler ty) cs) \/
       (exists l0 c cs0, l1 = l0 ++ [who c] /\ cs = cs0 ++ [c] /\ Forall (carries_on handler ty) cs0 /\
          ((failed handler ty c /\ e = fst (fst (answer handler ty c))) \/ (~ failed handler ty c /\ stopped handler ty c /\ e = OK)))).
  Proof.
    intros KE V. induction V as [x|a l x cs e D V IH|a l x c D W G F|a l x c D W G NF ST|a l x c cs e D W G CO V IH].
    - exists [], []. repeat split. left. repeat split. constructor.
    - destruct IH as (l1 & l2 & E & M & R). exists (a :: l1), l2. split; [rewrite E; reflexivity|]. cbn [filter]. rewrite D. cbn [negb]. split; [exact M|].
      destruct R as [R|(l0 & c & cs0 & E1 & E2 & R)]; [left; exact R|right]. exists (a :: l0), c, cs0. rewrite E1. repeat split; try assumption; apply R.
    - exists [a], l. split; [reflexivity|]. cbn [filter map]. rewrite D. cbn [negb]. rewrite W. split; [reflexivity|]. right. exists [], c, [].
      rewrite W. repeat split; [constructor|left; split; [exact F|reflexivity]].
    - exists [a], l. split; [reflexivity|]. cbn [filter map]. rewrite D. cbn [negb]. rewrite W. split; [reflexivity|]. right. exists [], c, [].
      rewrite W. repeat split; [constructor|right; repeat split; assumption].
    - destruct IH as (l1 & l2 & E & M & R). exists (a :: l1), l2. split; [rewrite E; reflexivity|]. cbn [filter map]. rewrite D. cbn [negb]. rewrite W.
      split.
      + f_equal. rewrite M. apply filter_ext. intros y. f_equal.
        destruct c as [[ca cw] car]. unfold left_by, answer. destruct G as (_ & _ & GD & _). cbn [given fst snd] in *. rewrite <- GD.
        specialize (KE ca cw car y). destruct (handler ca ty cw car) as [[e' w'] ar']. cbn [fst snd] in *. exact KE.
      + destruct R as [(R1 & R2 & R3)|(l0 & c' & cs0 & E1 & E2 & R3 & R4)].
        * left. repeat split; try assumption. constructor; assumption.
        * right. exists (a :: l0), c', (c :: cs0). rewrite E1, E2. repeat split; try assumption. constructor; assumption.
  Qed.
  Lemma dispatch_walk ctx ev w ar l : may_run ctx ev ty w ar l ->
    list_dispatch handler ctx ev ty w (Some ar) =
    let '(e, w', ar', cs) := walk handler ty l (marked ty w) ar in (e, w', Some ar', cs).
  Proof.
    intros (L & ST & ON & IC & IE). unfold list_dispatch, marked. rewrite ST, L.
    assert (I : inhibited ctx ev = false). { unfold inhibited. rewrite IC. destruct (ev_flags ev) as [f|]; [|reflexivity]. apply IE. reflexivity. }
    rewrite I. destruct (once_flag ty) as [f|]; [rewrite (ON f eq_refl)|]; reflexivity.
  Qed.
  Lemma walk_hits l : keeps_hits handler ty -> forall w ar, let '(e, w', ar', cs) := walk handler ty l w ar in
    forall a, w_hits w' a mod 2^32 = (if has (s_flags (w_route w)) RF_DONT_COUNT_HITS then w_hits w a
      else w_hits w a + N.of_nat (count_occ N.eq_dec (map who cs) a)) mod 2^32.
  Proof.
    intros KH. induction l as [|b l IH]; intros w ar; cbn [walk].
    - intros a. cbn [map count_occ]. destruct (has _ _); [reflexivity|]. change (N.of_nat 0) with 0. rewrite N.add_0_r. reflexivity.
    - destruct (w_disabled w b).
      + specialize (IH w ar). destruct (walk handler ty l w ar) as [[[e w'] ar'] cs]. exact IH.
      + set (w1 := if has (s_flags (w_route w)) RF_DONT_COUNT_HITS then w else bump w b).
        assert (W1 : forall a, w_hits w1 a mod 2^32 = (if has (s_flags (w_route w)) RF_DONT_COUNT_HITS then w_hits w a else w_hits w a + (if N.eq_dec b a then 1 else 0)) mod 2^32).
        { intros a. unfold w1. destruct (has _ _); [reflexivity|]. cbn [bump w_hits]. destruct (N.eqb_spec a b) as [->|NE].
          - destruct (N.eq_dec b b) as [_|NE]; [|congruence]. rewrite N.mod_mod by discriminate. reflexivity.
          - destruct (N.eq_dec b a) as [EQ|_]; [congruence|]. rewrite N.add_0_r. reflexivity. }
        assert (F1 : has (s_flags (w_route w1)) RF_DONT_COUNT_HITS = has (s_flags (w_route w)) RF_DONT_COUNT_HITS).
        { unfold w1. destruct (has (s_flags (w_route w)) _) eqn:E; cbn [bump w_route]; exact E. }
        pose proof (KH b w1 ar) as K. destruct (handler b ty w1 ar) as [[e w2] ar2]. cbn [fst snd] in K. destruct K as [K1 K2].
        assert (ONE : forall a, w_hits w2 a mod 2^32 = (if has (s_flags (w_route w)) RF_DONT_COUNT_HITS then w_hits w a
            else w_hits w a + N.of_nat (count_occ N.eq_dec (map who [(b, w1, ar)]) a)) mod 2^32).
        { intros a. rewrite K1, W1. cbn [map who fst count_occ]. destruct (has _ _); [reflexivity|]. destruct (N.eq_dec b a); reflexivity. }
        destruct (negb (is_success e)); [exact ONE|]. destruct (has ar2 AR_STOP); [exact ONE|].
        specialize (IH w2 ar2). destruct (walk handler ty l w2 ar2) as [[[e3 w3] ar3] cs]. intros a. rewrite IH, K2, F1.
        specialize (W1 a). rewrite K1. cbn [map who fst count_occ].
        destruct (has (s_flags (w_route w)) RF_DONT_COUNT_HITS); [exact W1|].
        rewrite <- N.add_mod_idemp_l by discriminate. rewrite W1. rewrite N.add_mod_idemp_l by discriminate. destruct (N.eq_dec b a); f_equal; lia.
  Qed.
End Facts.

(** C31, any callbacks: the enabled actions are called in list order, each with what the previous one left, up to and including the
    first that fails or says STOP; the caller gets what the last one left and the failure, if any. *)
Theorem C31_in_order : forall U handler ctx ev ty w ar l, may_run ctx ev ty w ar l ->
  exists e w' ar' cs, list_dispatch (U := U) handler ctx ev ty w (Some ar) = (e, w', Some ar', cs) /\
    visit handler ty l (marked ty w, ar) cs e /\ last_left handler ty (marked ty w, ar) cs = (w', ar').
Proof.
  intros U handler ctx ev ty w ar l M. rewrite (dispatch_walk U handler ty ctx ev w ar l M).
  pose proof (walk_visit U handler ty l (marked ty w) ar) as V. destruct (walk handler ty l (marked ty w) ar) as [[[e w'] ar'] cs].
  do 4 eexists. split; [reflexivity|exact V].
Qed.
(** C31, callbacks that do not enable or disable actions: the actions called are exactly the enabled ones of the list, in order,
    or of the part of the list that ends with the one that failed or said STOP. *)
Theorem C31_exactly_the_enabled : forall U handler ctx ev ty w ar l, may_run ctx ev ty w ar l -> keeps_enabled handler ty ->
  exists e w' ar' cs l1 l2, list_dispatch (U := U) handler ctx ev ty w (Some ar) = (e, w', Some ar', cs) /\
    l = l1 ++ l2 /\ map who cs = filter (fun a => negb (w_disabled w a)) l1 /\ chained handler ty (marked ty w, ar) cs /\
    ((l2 = [] /\ e = OK /\ Forall (carries_on handler ty) cs) \/
     (exists l0 c cs0, l1 = l0 ++ [who c] /\ cs = cs0 ++ [c] /\ Forall (carries_on handler ty) cs0 /\
        ((failed handler ty c /\ e = fst (fst (answer handler ty c))) \/ (~ failed handler ty c /\ stopped handler ty c /\ e = OK)))).
Proof.
  intros U handler ctx ev ty w ar l M KE. destruct (C31_in_order U handler ctx ev ty w ar l M) as (e & w' & ar' & cs & R & V & _).
  destruct (visit_order U handler ty l _ cs e KE V) as (l1 & l2 & E & MW & O). exists e, w', ar', cs, l1, l2.
  repeat split; try assumption; [|apply (visit_chained U handler ty l _ cs e V)].
  rewrite MW. apply filter_ext. intros a. unfold marked. destruct (once_flag ty); reflexivity.
Qed.
(** C31: an action list without repetition (C32) never calls an action twice. *)
Theorem C31_at_most_once : forall U handler ctx ev ty w ar l, may_run ctx ev ty w ar l -> NoDup l ->
  exists e w' ar' cs, list_dispatch (U := U) handler ctx ev ty w (Some ar) = (e, w', Some ar', cs) /\ NoDup (map who cs) /\ incl (map who cs) l.
Proof.
  intros U handler ctx ev ty w ar l M ND. destruct (C31_in_order U handler ctx ev ty w ar l M) as (e & w' & ar' & cs & R & V & _).
  do 4 eexists. split; [exact R|]. clear R M. revert ND. induction V as [x|a l x cs e D V IH|a l x c D W G F|a l x c D W G NF ST|a l x c cs e D W G CO V IH]; intros ND.
  - split; [constructor|intros ? []].
  - apply NoDup_cons_iff in ND. destruct (IH (proj2 ND)) as [N1 N2]. split; [exact N1|]. intros y Y. right. apply N2. exact Y.
  - cbn [map]. rewrite W. split; [constructor; [intros []|constructor]|intros y [<-|[]]; left; reflexivity].
  - cbn [map]. rewrite W. split; [constructor; [intros []|constructor]|intros y [<-|[]]; left; reflexivity].
  - apply NoDup_cons_iff in ND. destruct (IH (proj2 ND)) as [N1 N2]. cbn [map]. rewrite W. split.
    + constructor; [|exact N1]. intros C. apply (proj1 ND). apply N2. exact C.
    + intros y [<-|Y]; [left; reflexivity|right; apply N2; exact Y].
Qed.
(** C31: nothing is called and nothing changes (but for the mark on the route) when actions are inhibited in the context or by the event itself. *)
Theorem C31_inhibited : forall U handler ctx ev ty (w : world U) ar,
  has ctx EC_INHIBIT_ACTIONS = true \/ (exists f, ev_flags ev = Some f /\ has f EC_INHIBIT_ACTIONS = true) ->
  exists e w', list_dispatch handler ctx ev ty w ar = (e, w', ar, []) /\ (w' = w \/ (w' = marked ty w /\ e = OK)).
Proof.
  intros U handler ctx ev ty w ar I. assert (IN : inhibited ctx ev = true).
  { unfold inhibited. destruct I as [->|(f & -> & ->)]; [reflexivity|apply orb_true_r]. }
  unfold list_dispatch, marked. destruct ar as [ar|]; [|do 2 eexists; split; [reflexivity|left; reflexivity]].
  destruct (has ar AR_STOP); [do 2 eexists; split; [reflexivity|left; reflexivity]|].
  destruct (the_list ev ty); [|do 2 eexists; split; [reflexivity|left; reflexivity]]. rewrite IN.
  destruct (once_flag ty) as [f|]; [destruct (has _ f)|]; do 2 eexists; (split; [reflexivity|]); [left; reflexivity|right; split; reflexivity|left; reflexivity].
Qed.
(** C31: the refusals: no results to write to, STOP already set, no list of that type, insert or delete actions already run for the route;
    nothing is called and nothing changes. *)
Theorem C31_refused : forall U handler ctx ev ty (w : world U) ar,
  (ar = None -> list_dispatch handler ctx ev ty w ar = (INVALID_ARG, w, ar, [])) /\
  (forall r, ar = Some r -> has r AR_STOP = true -> list_dispatch handler ctx ev ty w ar = (ALREADY_STOPPED, w, ar, [])) /\
  (forall r, ar = Some r -> has r AR_STOP = false -> ty = T_NONE -> list_dispatch handler ctx ev ty w ar = (INVALID_ARG, w, ar, [])) /\
  (forall r, ar = Some r -> has r AR_STOP = false -> ty = T_INSERT -> has (s_flags (w_route w)) RF_INSERT_ACTIONS_CALLED = true ->
     list_dispatch handler ctx ev ty w ar = (ALREADY, w, ar, [])) /\
  (forall r, ar = Some r -> has r AR_STOP = false -> ty = T_DELETE -> has (s_flags (w_route w)) RF_DELETE_ACTIONS_CALLED = true ->
     list_dispatch handler ctx ev ty w ar = (ALREADY, w, ar, [])).
Proof.
  intros U handler ctx ev ty w ar. unfold list_dispatch. split; [intros ->; reflexivity|]. split; [intros r -> ->; reflexivity|].
  split; [intros r -> -> ->; reflexivity|]. split; intros r -> -> -> FL; cbn [the_list once_flag]; rewrite FL; reflexivity.
Qed.
(** C31: after a run of the insert (delete) actions, with callbacks that leave the mark alone, a second run calls nothing. *)
Theorem C31_insert_actions_once : forall U handler ctx ev ty (w : world U) ar l f, may_run ctx ev ty w ar l -> once_flag ty = Some f ->
  (forall a w ar, has (s_flags (w_route w)) f = true -> has (s_flags (w_route (snd (fst (handler a ty w ar))))) f = true) ->
  exists e w' ar' cs, list_dispatch handler ctx ev ty w (Some ar) = (e, w', Some ar', cs) /\
    forall ctx2 ev2 ar2, exists e2, list_dispatch handler ctx2 ev2 ty w' ar2 = (e2, w', ar2, []) /\ is_success e2 = false.
Proof.
  intros U handler ctx ev ty w ar l f M OF KF. destruct (C31_in_order U handler ctx ev ty w ar l M) as (e & w' & ar' & cs & R & V & L).
  do 4 eexists. split; [exact R|].
  assert (MK : has (s_flags (w_route (marked ty w))) f = true).
  { unfold marked. rewrite OF. cbn [set_route w_route set_flags s_flags]. apply N.setbit_eq. }
  assert (K : has (s_flags (w_route w')) f = true).
  { replace w' with (fst (last_left handler ty (marked ty w, ar) cs)) by (rewrite L; reflexivity). clear L R M OF.
    change (marked ty w) with (fst (marked ty w, ar)) in MK. revert V MK. generalize (marked ty w, ar). intros x V.
    assert (LB : forall c (y : world U * N), same_but_hits (given c) y -> has (s_flags (w_route (fst y))) f = true -> has (s_flags (w_route (fst (left_by handler ty c)))) f = true).
    { intros [[ca cw] car] y (_ & GR & _ & _) HY. cbn [given fst snd] in GR. unfold left_by, answer. specialize (KF ca cw car).
      destruct (handler ca ty cw car) as [[e' w1] ar1]. cbn [fst snd] in *. apply KF. rewrite GR. exact HY. }
    induction V as [x|a l x cs e D V IH|a l x c D W G F|a l x c D W G NF ST|a l x c cs e D W G CO V IH]; intros MK; cbn [last_left]; eauto. }
  intros ctx2 ev2 ar2. unfold list_dispatch. destruct ar2 as [ar2|]; [|eexists; split; reflexivity].
  destruct (has ar2 AR_STOP); [eexists; split; reflexivity|]. destruct (the_list ev2 ty); [|eexists; split; reflexivity].
  rewrite OF, K. eexists; split; reflexivity.
Qed.
(** C31: the hit counter of an action grows by one (modulo 2^32) each time the action is called, unless the rule route says not to count. *)
Theorem C31_hits : forall U handler ctx ev ty (w : world U) ar l, may_run ctx ev ty w ar l -> keeps_hits handler ty ->
  exists e w' ar' cs, list_dispatch handler ctx ev ty w (Some ar) = (e, w', Some ar', cs) /\
    forall a, w_hits w' a mod 2^32 = (if has (s_flags (w_route w)) RF_DONT_COUNT_HITS then w_hits w a
      else w_hits w a + N.of_nat (count_occ N.eq_dec (map who cs) a)) mod 2^32.
Proof.
  intros U handler ctx ev ty w ar l M KH. rewrite (dispatch_walk U handler ty ctx ev w ar l M).
  pose proof (walk_hits U handler ty l KH (marked ty w) ar) as V. destruct (walk handler ty l (marked ty w) ar) as [[[e w'] ar'] cs].
  do 4 eexists. split; [reflexivity|]. intros a. rewrite V. unfold marked. destruct (once_flag ty) as [f|] eqn:OF; [|reflexivity].
  cbn [set_route w_route set_flags s_flags w_hits]. unfold has. rewrite N.setbit_neq; [reflexivity|].
  intros ->. destruct ty; cbn [once_flag] in OF; discriminate OF.
Qed.

(** Examples: three actions, the second disabled; the last says STOP. *)
Definition ex_handler (a : action) (ty : action_type) (w : world unit) (ar : N) : err * world unit * N :=
  (OK, w, if a =? 3 then N.setbit ar AR_STOP else N.setbit ar (100 + a)).
Definition ex_world : world unit := mkW (mkR (N.setbit 0 RF_IN_TABLE) 0 0 0 0 0 0) (fun a => a =? 2) (fun _ => 5) tt.
Definition ex_event : event_lists := mkEv [] [1; 2; 3; 4] [] [] [] [] None.
Example C31_ex_run : may_run 0 ex_event T_INSERT ex_world 0 [1; 2; 3; 4] /\ keeps_enabled ex_handler T_INSERT /\ keeps_hits ex_handler T_INSERT /\
  (let '(e, w, ar, cs) := list_dispatch ex_handler 0 ex_event T_INSERT ex_world (Some 0) in
   e = OK /\ map who cs = [1; 3] /\ w_hits w 1 = 6 /\ w_hits w 2 = 5 /\ w_hits w 3 = 6 /\ w_hits w 4 = 5).
Proof.
  split; [|split; [|split]].
  - split; [reflexivity|]. split; [reflexivity|]. split; [intros f E; injection E as <-; reflexivity|]. split; [reflexivity|discriminate].
  - intros a w ar x. reflexivity.
  - intros a w ar. split; reflexivity.
  - vm_compute. repeat split.
Qed.

(** C31 (refuted part): "errors are reported with the ERROR bit" is false for the lists run by a dispatch: routes.c 2428, 2458, 2608
    and 2624 only warn.  Here the match action of the rule's event fails; the dispatch succeeds and the results are those of a run
    without the failure.  [as_hook] is the list run as dispatch_0 runs it. *)
Definition as_hook {U} (handler : action -> action_type -> world U -> N -> err * world U * N) (ctx : N) (ev : event_lists) (ty : action_type)
    (dis : action -> bool) (u : U) : hook :=
  Some (fun s ar => let '(_, w, ar', _) := list_dispatch handler ctx ev ty (mkW s dis (fun _ => 0) u) (Some ar) in
                    (w_route w, match ar' with Some r => r | None => ar end)).
Definition failing (a : action) (ty : action_type) (w : world unit) (ar : N) : err * world unit * N := (CALLBACK_ERROR 1, w, ar).
Definition ev_match : event_lists := mkEv [] [] [7] [] [] [] None.
Theorem C31_error_bit_refuted :
  exists (e : env) s ar, e_parent e = {| h_post := None; h_match := as_hook failing 0 ev_match T_MATCH (fun _ => false) tt; h_update := None; h_decision := None |} /\
    fst (fst (fst (list_dispatch failing 0 ev_match T_MATCH (mkW s (fun _ => false) (fun _ => 0) tt) (Some ar)))) = CALLBACK_ERROR 1 /\
    exists s' ar', dispatch_0 e 0 s ar = (OK, s', ar') /\ has ar' AR_ERROR = false /\ has ar' AR_ACCEPT = true.
Proof.
  exists {| e_time := Some 100%Z; e_clock := Some 100%Z; e_policy := bit AR_ACCEPT; e_config := mkC 0 0 0 0 0 0; e_trigger := nohooks;
            e_parent := {| h_post := None; h_match := as_hook failing 0 ev_match T_MATCH (fun _ => false) tt; h_update := None; h_decision := None |};
            e_default := nohooks; e_fallthrough := None |}, (in_table_route 0), 0.
  split; [reflexivity|]. split; [reflexivity|]. do 2 eexists. split; [vm_compute; reflexivity|]. split; reflexivity.
Qed.
Print Assumptions C31_in_order.
Print Assumptions C31_exactly_the_enabled.
Print Assumptions C31_at_most_once.
Print Assumptions C31_inhibited.
Print Assumptions C31_refused.
Print Assumptions C31_insert_actions_once.
Print Assumptions C31_hits.
Print Assumptions C31_error_bit_refuted.
