(** C36 for the route table: lookups and the header's fields. *)
From Verif Require Import Base Labels Addr AddrSpec RouteFlags RouteKey RouteKeySpec RouteTable TableSpec Lookup LookupSpec RouteTableProofs RouteTableHist LookupFacts LookupStart LookupProps CloneRoute.
Open Scope N_scope.

(** Partial: for a table no wildcard-family route was ever put in (and whose insert actions all succeeded), every later sequence
    of insertions and deletions gives the same results on the clone, and every lookup afterwards the same answer. Missing: tables
    with wildcard-family routes, where the clone differs (below). *)
Theorem C36_route_clone_behaves_as_original_partial : forall ops t, reached ops t -> Forall op_succeeds ops -> Forall no_family_wildcard ops ->
  forall later, Forall op_succeeds later ->
    fst (rt_run (rt_clone t) later) = fst (rt_run t later) /\
    t_routes (snd (rt_run (rt_clone t) later)) = t_routes (snd (rt_run t later)) /\
    forall fuel target ar, lookup fuel (snd (rt_run (rt_clone t) later)) target ar = lookup fuel (snd (rt_run t later)) target ar.
Proof.
  intros ops t [HO ->] HS HW later HL.
  assert (B : bm_ok (t_bm (snd (rt_run t_init ops))) (t_routes (snd (rt_run t_init ops)))).
  { apply bm_run; [|exact HS]. split; [constructor|constructor|cbn; lia|reflexivity]. }
  assert (NW : nowild (snd (rt_run t_init ops))) by (apply nowild_run; [split; [reflexivity|constructor]|exact HW]).
  set (t := snd (rt_run t_init ops)) in *.
  assert (T : rtwin t (rt_clone t)).
  { destruct NW as [P F]. constructor; cbn [rt_clone t_routes t_last_af t_highest t_bm]; try reflexivity; [|exact B|eapply rebuild_ok; exact B].
    rewrite P. apply last_wild_none. exact F. }
  destruct (rtwin_run later t (rt_clone t) T HL) as [E T']. split; [exact E|]. split; [apply (rw_r _ _ T')|]. intros. apply rtwin_lookup. exact T'.
Qed.
Print Assumptions C36_route_clone_behaves_as_original_partial.

(** With two wildcard-family routes a lookup that ends on the original runs for ever on its clone. *)
Theorem C36_route_clone_refuted : exists ops t target r,
  reached ops t /\ traffic_ok target /\ lookup 100 t target None = Some r /\ forall fuel, lookup fuel (rt_clone t) target None = None.
Proof.
  exists [RInsert (anyfam 2) true; RInsert (anyfam 3) true; RInsert (tcp [10; 0; 0; 1]%N 80 fIN) true]. eexists. exists (tcp [10; 0; 0; 2]%N 80 fIN). eexists.
  split; [split; [repeat constructor; apply mk_ok; bytes|reflexivity]|].
  split; [split; [apply tcp_ok; bytes|split; [split; reflexivity|]]|].
  { intros b Hb. assert (E : (b = 0 \/ b = 1 \/ b = 2 \/ b = 3 \/ b = 4 \/ b = 5 \/ b = 6 \/ b = 7)%N) by lia.
    repeat (destruct E as [-> |E]; [reflexivity|]). subst b. reflexivity. }
  split; [vm_compute; reflexivity|].
  set (t := rt_clone (snd (rt_run t_init _))). set (tg := tcp [10; 0; 0; 2]%N 80 fIN).
  assert (LOOP : forall f, scan f t (as_target tg) None true false 0 true None = None).
  { induction f as [|f IH]; [reflexivity|]. cbn [scan].
    assert (E : scan_step t (as_target tg) None true false 0 true None = SNext 0 true None) by (vm_compute; reflexivity).
    rewrite E. exact IH. }
  intros fuel. unfold lookup. fold (as_target tg).
  replace (seek (t_routes t) (as_target tg)) with (3%nat, (-1)%Z) by (vm_compute; reflexivity).
  replace (contiguous (r_flags (as_target tg))) with true by reflexivity. cbn [andb Z.eqb].
  replace (lookup_start t (as_target tg) _) with (StAt 2) by (vm_compute; reflexivity).
  replace (is_bitmask_matching (t_bm t) (r_family (as_target tg))) with false by reflexivity.
  assert (E : scan fuel t (as_target tg) None true false 2 false None = None).
  { destruct fuel as [|f]; [reflexivity|]. cbn [scan].
    assert (E : scan_step t (as_target tg) None true false 2 false None = SNext 1 true None) by (vm_compute; reflexivity). rewrite E.
    destruct f as [|f]; [reflexivity|]. cbn [scan].
    assert (E2 : scan_step t (as_target tg) None true false 1 true None = SNext 0 true None) by (vm_compute; reflexivity). rewrite E2. apply LOOP. }
  rewrite E. reflexivity.
Qed.
Print Assumptions C36_route_clone_refuted.
(** Non-vacuity: a bitmask-free history of two routes and its clone. *)
Example C36_route_clone_example :
  let ops := [RInsert (tcp [10; 0; 0; 1]%N 80 fIN) true; RInsert (tcp [10; 0; 0; 9]%N 80 fIN) true; RDelete (tcp [10; 0; 0; 1]%N 80 fIN)] in
  Forall op_succeeds ops /\ Forall no_family_wildcard ops /\ Forall rop_ok ops /\
  lookup 5 (rt_clone (snd (rt_run t_init ops))) (tcp [10; 0; 0; 9]%N 80 fIN) None = Some (LFound 0 0).
Proof.
  split; [repeat constructor|]. split; [repeat constructor|]. split; [repeat constructor; apply mk_ok; bytes|vm_compute; reflexivity].
Qed.

(** The header: default policy, default event, limit on purgeable routes and best priority are those of the original... *)
Theorem C36_route_header_cloned : forall ev s d, clone_header ev false s rh_init = (OK, d) ->
  h_policy d = h_policy s /\ h_max_routes d = h_max_routes s /\ h_default_event d = h_default_event s /\ h_highest d = h_highest s /\
  (h_fallthrough s = None -> h_fallthrough d = None).
Proof.
  intros ev s d. unfold clone_header. cbv zeta. destruct (h_default_event s) as [l|]; [destruct (ev l)|]; cbn [fst snd negb is_success];
  try discriminate; (destruct (h_fallthrough s) as [n|]; [destruct (n =? u16_max)|]; cbn [negb is_success]; intros H; try discriminate; injection H as <-; cbn; repeat split; intros; congruence).
Qed.
Print Assumptions C36_route_header_cloned.
(** ... but the idle time after which routes are purged is not: whatever it was, the clone has none. *)
Theorem C36_idle_time_refuted : forall ev s e d, clone_header ev false s rh_init = (e, d) -> h_max_idle d = 0%Z.
Proof.
  intros ev s e d. unfold clone_header. cbv zeta. destruct (h_default_event s) as [l|]; [destruct (ev l)|]; cbn [negb is_success];
  try (intros H; injection H as <- <-; reflexivity);
  (destruct (h_fallthrough s) as [n|]; [destruct (n =? u16_max)|]; cbn [negb is_success]; intros H; injection H as <- <-; reflexivity).
Qed.
Print Assumptions C36_idle_time_refuted.
Example C36_header_example : clone_header (fun _ => true) false (mkRH 10 5 48 (Some [65]) (Some 1) 7) rh_init = (OK, mkRH 10 0 48 (Some [65]) (Some 2) 7).
Proof. reflexivity. Qed.
