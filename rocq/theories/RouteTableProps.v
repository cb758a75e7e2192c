(** C44: bitmask-matched families; C49: failed insertions. *)
From Verif Require Import Base Labels Addr AddrSpec RouteFlags RouteKey RouteKeySpec RouteKeyProofs RouteTable Lookup LookupSpec LookupMatch LookupProofs RouteTableProofs LookupStart LookupFacts RouteTableHist LookupProps.
Open Scope N_scope.

(** Number of routes of family [af] with an address mask. *)
Definition masked_routes (l : list route) (af : N) : nat :=
  length (filter (fun r => (N.testbit (r_flags r) RF_RADDR_BITMASK || N.testbit (r_flags r) RF_LADDR_BITMASK) && (r_family r =? af)) l).
Lemma masked_routes_eq l af : bm_routes l af = N.of_nat (masked_routes l af).
Proof.
  induction l as [|r l IH]; [reflexivity|]. cbn [bm_routes]. rewrite IH. unfold masked_routes. cbn [filter]. unfold is_bm, has_bitmask, has.
  destruct ((N.testbit (r_flags r) RF_RADDR_BITMASK || N.testbit (r_flags r) RF_LADDR_BITMASK) && (r_family r =? af))%bool; cbn [length]; lia.
Qed.

(** After any history in which insert actions succeed, mask matching is on for exactly the families that have a route
    with a mask, and the recorded count is the number of those routes. *)
Theorem C44_bitmask_families_exact_partial : forall ops t af,
  reached ops t -> Forall op_succeeds ops ->
  (is_bitmask_matching (t_bm t) af = true <-> exists r, In r (t_routes t) /\ has_bitmask r = true /\ r_family r = af) /\
  (forall n, In (af, n) (t_bm t) -> n = N.of_nat (masked_routes (t_routes t) af)) /\
  (length (t_bm t) <= 4)%nat.
Proof.
  intros ops t af [HO ->] HS.
  assert (B : bm_ok (t_bm (snd (rt_run t_init ops))) (t_routes (snd (rt_run t_init ops)))).
  { apply bm_run; [|exact HS]. split; [constructor|constructor|cbn; lia|reflexivity]. }
  destruct B as [ND F LN G]. split; [|split].
  - rewrite bm_matching, <- (bm_get_pos _ _ F), G. apply bm_routes_exists.
  - intros n Hn. rewrite <- masked_routes_eq, <- G. symmetry. apply bm_get_in; assumption.
  - exact LN.
Qed.
(** Not so if an insert action fails: the reference taken for the rejected route is never dropped. *)
Definition masked : route := mk_route 2 6 [10; 0; 255; 0]%N 0 1 [] 80 1 (fIN + 4096) None.
Lemma masked_ok : route_ok masked.
Proof. split; try (split; [reflexivity|bytes]); intros; reflexivity. Qed.
Theorem C44_bitmask_families_exact_refuted :
  exists ops t, reached ops t /\ is_bitmask_matching (t_bm t) 2 = true /\ t_routes t = [].
Proof.
  exists [RInsert masked false]. eexists. split; [split; [repeat constructor; apply masked_ok|reflexivity]|]. split; reflexivity.
Qed.
Example C44_example :
  let t := snd (rt_run t_init [RInsert masked true; RInsert (tcp [10; 0; 0; 1]%N 80 fIN) true; RDelete masked]) in
  t_bm t = [] /\ length (t_routes t) = 1%nat /\ t_bm (snd (rt_run t_init [RInsert masked true])) = [(2, 1)].
Proof. repeat split; reflexivity. Qed.

(** C49: an insertion that is refused for a reason other than its actions leaves the table as it was. *)
Theorem C49_refused_insert_changes_nothing_partial : forall t r e t',
  rt_insert t r true = (e, t') -> is_success e = false -> t' = t.
Proof.
  intros t r e t' H HE. pose proof (insert_cases t r true) as IC. rewrite H in IC.
  destruct IC as [->|(p & c & bm & last & _ & _ & _ & _ & _ & ET & _)]; [reflexivity|].
  destruct ET as [(_ & -> & _)|(Q & _)]; [discriminate HE|discriminate Q].
Qed.
(** A failing insert action removes the route from the table again, in every table ... *)
Theorem C49_failed_actions_remove_route_partial : forall t r e t',
  rt_insert t r false = (e, t') -> is_success e = false /\ t_routes t' = t_routes t.
Proof.
  intros t r e t' H. pose proof (insert_cases t r false) as IC. rewrite H in IC. split.
  - unfold rt_insert in H. destruct (negb (flags_sensical (r_flags r))); [assert (e = INVALID_ARG) by congruence; subst; reflexivity|].
    destruct (has (r_flags r) RF_IN_TABLE); [assert (e = ITEM_ALREADY_PRESENT) by congruence; subst; reflexivity|]. cbv zeta in H.
    destruct (seek _ _) as [p c]. destruct (c =? 0)%Z; [assert (e = ITEM_ALREADY_PRESENT) by congruence; subst; reflexivity|].
    match type of H with (let '(_, _) := ?x in _) = _ => destruct x as [e' bm] end. destruct (is_success e') eqn:S; cbn [negb] in H; [|congruence].
    assert (E : e = CALLBACK_ERROR 0) by congruence. rewrite E. reflexivity.
  - destruct IC as [->|(p & c & bm & last & _ & _ & _ & _ & _ & ET & _)]; [reflexivity|].
    destruct ET as [(Q & _)|(_ & ->)]; [discriminate Q|reflexivity].
Qed.
(** ... but not every trace of it: a wildcard-family route leaves a dangling pointer that the next lookup follows. *)
Theorem C49_failed_insert_leaves_no_trace_refuted :
  exists ops t target, reached ops t /\ traffic_ok target /\ t_routes t = [] /\ t_last_af t = PDangling /\
    lookup 1 t target None = Some LUB.
Proof.
  exists [RInsert (anyfam 1) false]. eexists. exists (tcp [10; 0; 0; 1]%N 80 fIN).
  split; [split; [repeat constructor; apply mk_ok; bytes|reflexivity]|].
  split; [split; [apply tcp_ok; bytes|split; [split; reflexivity|]]|repeat split; reflexivity].
  intros b Hb. assert (E : (b = 0 \/ b = 1 \/ b = 2 \/ b = 3 \/ b = 4 \/ b = 5 \/ b = 6 \/ b = 7)%N) by lia.
  repeat (destruct E as [-> |E]; [reflexivity|]). subst b. reflexivity.
Qed.
(** The table stays sorted by key without duplicates, and the recorded highest priority is a lower bound of all
    priorities, in every history. *)
Theorem C07_route_table_sorted : forall ops t, reached ops t ->
  (forall i j a b, (i < j)%nat -> nth_error (t_routes t) i = Some a -> nth_error (t_routes t) j = Some b ->
     (route_key_cmp a b < 0)%Z /\ ~ same_key a b) /\
  (forall r, In r (t_routes t) -> t_highest t <= eff_prio (r_event r)).
Proof.
  intros ops t HR. apply reached_inv in HR. destruct HR as [[So F H] _]. split; [|exact H]. intros i j a b Hij Ha Hb.
  rewrite Forall_forall in F. rewrite route_key_cmp_eq by (apply F; eapply nth_error_In; eassumption).
  pose proof (sorted_nth _ So i j a b Hij Ha Hb). split; [assumption|]. intros Q. apply rcmp_0 in Q. lia.
Qed.
Print Assumptions C44_bitmask_families_exact_partial.
Print Assumptions C44_bitmask_families_exact_refuted.
Print Assumptions C49_refused_insert_changes_nothing_partial.
Print Assumptions C49_failed_actions_remove_route_partial.
Print Assumptions C49_failed_insert_leaves_no_trace_refuted.
Print Assumptions C07_route_table_sorted.
