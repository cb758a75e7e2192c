(** C10-C13: route lookup. *)
From Verif Require Import Base Labels Addr AddrSpec RouteFlags RouteKey RouteKeySpec RouteKeyProofs RouteTable Lookup LookupSpec LookupMatch LookupProofs RouteTableProofs LookupStart LookupFacts LookupBitmask RouteTableHist.
Open Scope Z_scope.

(** The table after a history of insertions (with succeeding or failing insert actions), deletions and clonings of
    well-formed routes. *)
Definition reached (ops : list rop) (t : rtable) : Prop := Forall rop_ok ops /\ t = snd (rt_run t_init ops).
Definition has_direction (t : route) : Prop := N.testbit (r_flags t) RF_IN = true \/ N.testbit (r_flags t) RF_OUT = true.

Lemma reached_inv ops t : reached ops t -> rt_inv t /\ all_stored t.
Proof.
  intros [HO ->]. split; [apply inv_run; [apply inv_init|exact HO]|]. apply all_stored_run; [constructor|exact HO].
Qed.

(** C10: what a lookup returns agrees with the traffic in every field and in direction and passes the filter; it is
    not penalty-boxed if those are to be skipped, unless its key is the very key of the target. *)
Theorem C10_found_route_applies_partial : forall ops t fuel target ar i inx,
  reached ops t -> route_ok target -> no_bitmask target -> has_direction target ->
  lookup fuel t target ar = Some (LFound i inx) ->
  exists r, nth_error (t_routes t) i = Some r /\ agrees r target /\ direction_agrees r target /\ passes_filter ar r /\
    (not_excluded ar r \/ same_key r (as_target target)).
Proof.
  intros ops t fuel target ar i inx HR OKT NB HD H. apply reached_inv in HR. destruct HR as [INV _]. pose proof INV as [So F _].
  pose proof (lookup_eq fuel t target ar) as LE. cbv zeta in LE. pose proof (seek_spec _ _ So F (as_target_ok _ OKT)) as SP.
  destruct (seek (t_routes t) (as_target target)) as [p c]. destruct LE as [(r & Er & C & _ & FP & _ & LE)|LE]; rewrite LE in H.
  - assert (i = p) by congruence. subst i c. rewrite Er in SP. destruct SP as (_ & _ & SP & _). symmetry in SP. apply rcmp_0 in SP.
    exists r. split; [exact Er|]. split; [|split; [|split; [apply filter_sound; exact FP|right; exact SP]]].
    + apply agrees_as_target. apply same_key_agrees; [| |exact SP]; unfold no_bitmask, has in *; rewrite as_target_bit by discriminate; tauto.
    + destruct SP as (_ & _ & _ & _ & _ & _ & _ & _ & _ & _ & EF & _). destruct HD as [HD|HD]; [left|right]; (split; [|exact HD]);
        rewrite EF by reflexivity; rewrite as_target_bit by discriminate; exact HD.
  - destruct (lookup_start t (as_target target) _) as [s| |]; try discriminate.
    destruct (scan fuel t (as_target target) ar _ _ s false None) as [[[[[j jinx] jp]|]|]|] eqn:SC; try discriminate.
    assert (j = i) by congruence. subst j. apply scan_sound in SC; [|discriminate].
    apply cand_applies in SC; [|exact F|exact OKT]. destruct SC as (r & Er & [A B C D] & _). exists r. split; [exact Er|]. split; [exact A|]. split; [exact B|]. split; [exact C|]. left. exact D.
Qed.

(** The exclusion of penalty-boxed routes is missing when the key equals the target's key: routes.c 1724-1745 do not
    test ACTION_RES_EXCLUDE_REJECT_ROUTES, unlike 1843-1848. *)
Definition mk_route (family proto : N) (raddr : list N) (rport riface : N) (laddr : list N) (lport liface flags : N) (e : option event) : route :=
  {| r_family := family; r_proto := proto; r_raddr := raddr; r_rlen := 8 * length raddr; r_rport := rport; r_riface := riface;
     r_laddr := laddr; r_llen := 8 * length laddr; r_lport := lport; r_liface := liface; r_flags := flags; r_event := e |}.
Definition tcp (raddr : list N) (lport flags : N) : route := mk_route 2 6 raddr 40000 1 [127; 0; 0; 1]%N lport 1 flags None.
Definition fIN : N := 1024. Definition fOUT : N := 2048. Definition fEVW : N := 256. Definition fPBOX : N := 1048576.
Lemma mk_ok family proto raddr rport riface laddr lport liface flags e :
  Forall (fun b => (b < 256)%N) raddr -> Forall (fun b => (b < 256)%N) laddr ->
  has flags RF_RADDR_BITMASK = false -> has flags RF_LADDR_BITMASK = false ->
  route_ok (mk_route family proto raddr rport riface laddr lport liface flags e).
Proof.
  intros H1 H2 B1 B2. unfold mk_route.
  assert (L : forall n, n = ((8 * n + 7) / 8)%nat) by (intros n; replace (8 * n + 7)%nat with (7 + n * 8)%nat by lia; rewrite Nat.div_add by lia; reflexivity).
  split; cbn [r_raddr r_rlen r_laddr r_llen r_flags]; try (split; [apply L|assumption]); congruence.
Qed.
Ltac bytes := repeat constructor.
Theorem C10_penalty_box_exclusion_refuted :
  exists ops t target a fuel i inx r,
    reached ops t /\ route_ok target /\ has_direction target /\ excludes_rejecting (Some a) /\
    lookup fuel t target (Some a) = Some (LFound i inx) /\ nth_error (t_routes t) i = Some r /\ N.testbit (r_flags r) RF_PENALTYBOXED = true.
Proof.
  exists [RInsert (tcp [10; 0; 0; 1]%N 80 (fIN + fEVW + fPBOX)) true]. eexists. exists (tcp [10; 0; 0; 1]%N 80 fIN), 48%N, 1%nat. do 3 eexists.
  split; [split; [repeat constructor; apply mk_ok; bytes|reflexivity]|]. split; [apply mk_ok; bytes|]. split; [left; reflexivity|].
  split; [exists 48%N; repeat split|]. split; [reflexivity|]. split; reflexivity.
Qed.
(** Non-vacuity of C10. *)
Example C10_example :
  let t := snd (rt_run t_init [RInsert (tcp [10; 0; 0; 1]%N 80 fIN) true; RInsert (tcp [10]%N 0 (fIN + 8)) true]) in
  lookup 5 t (tcp [10; 0; 0; 1]%N 80 fIN) None = Some (LFound 1 0) /\
  lookup 5 t (tcp [10; 9; 9; 9]%N 443 fIN) None = Some (LFound 0 10) /\ lookup 5 t (tcp [11; 0; 0; 1]%N 80 fIN) None = Some LNotFound.
Proof. repeat split; reflexivity. Qed.

(** C11: a lookup of traffic naming every field does not miss a matching route of the traffic's family whose addresses
    are whole-byte prefixes of the traffic's addresses or wildcards, if it is less specific than the traffic. *)
Record less_specific (r target : route) : Prop := {
  ls_family : r_family r = r_family target;
  ls_bitmask : no_bitmask r;
  ls_raddr : (r_rlen r mod 8 = 0 /\ r_rlen r <= r_rlen target)%nat;
  ls_laddr : (r_llen r mod 8 = 0 /\ r_llen r <= r_llen target)%nat;
  ls_differs : ~ same_fields r target }.
Definition traffic_ok (target : route) : Prop := route_ok target /\ no_bitmask target /\ no_wildcards target.
Lemma sizes_no_bitmask r t : no_bitmask r -> sizes_ok r t.
Proof. intros [B1 B2]. split; intros H; congruence. Qed.

Theorem C11_no_miss_partial : forall ops t target ar r fuel,
  reached ops t -> traffic_ok target -> In r (t_routes t) -> filter_ok r -> applies ar r target -> less_specific r target ->
  lookup fuel t target ar <> Some LNotFound.
Proof.
  intros ops t target ar r fuel HR (OKT & NBT & NW) IN FO AP [LF LB LR LL LD] H. apply reached_inv in HR. destruct HR as [INV AS]. pose proof INV as [So F _].
  unfold all_stored in AS. rewrite Forall_forall in AS. destruct (AS r IN) as (r0 & OK0 & ->). apply In_nth_error in IN. destruct IN as (k & Ek).
  pose proof (less_specific_first r0 target OK0 OKT NW NBT (ap_agrees _ _ _ AP) LF LB LR LL LD) as LE.
  destruct (applies_cand t target ar k (stored r0) F OKT NBT FO Ek (sizes_no_bitmask _ _ LB) AP) as (inx & _ & CD).
  destruct (start_covers t (as_target target) k (stored r0) INV (as_target_ok _ OKT) (no_wildcards_contiguous _ NW) Ek LF (or_introl LE)) as (i & ES & KI & IL).
  destruct (lookup_covers fuel t target ar k (stored r0) inx _ i LNotFound INV OKT ES KI IL Ek (or_intror LF) CD H) as [Q|(j & jinx & rj & Q & _)]; discriminate.
Qed.
(** Families with bitmask routes: no matching route of the family is missed, bitmask or not, more or less specific. *)
Theorem C11_no_miss_bitmask_family_partial : forall ops t target ar r fuel,
  reached ops t -> traffic_ok target -> In r (t_routes t) -> filter_ok r -> applies ar r target -> sizes_ok r target ->
  r_family r = r_family target -> is_bitmask_matching (t_bm t) (r_family target) = true ->
  lookup fuel t target ar <> Some LNotFound.
Proof.
  intros ops t target ar r fuel HR (OKT & NBT & NW) IN FO AP SZ LF BM H. apply reached_inv in HR. destruct HR as [INV AS]. pose proof INV as [So F _].
  apply In_nth_error in IN. destruct IN as (k & Ek).
  destruct (applies_cand t target ar k r F OKT NBT FO Ek SZ AP) as (inx & _ & CD).
  destruct (start_covers t (as_target target) k r INV (as_target_ok _ OKT) (no_wildcards_contiguous _ NW) Ek LF (or_intror BM)) as (i & ES & KI & IL).
  destruct (lookup_covers fuel t target ar k r inx _ i LNotFound INV OKT ES KI IL Ek (or_intror LF) CD H) as [Q|(j & jinx & rj & Q & _)]; discriminate.
Qed.
(** In a history of succeeding insertions of plain routes and of deletions, the route is really found. *)
Theorem C11_found_partial : forall ops t target ar r,
  reached ops t -> Forall front_ok ops -> (forall x, In x (t_routes t) -> no_bitmask x) ->
  traffic_ok target -> In r (t_routes t) -> filter_ok r -> applies ar r target -> less_specific r target ->
  exists i inx, lookup (length (t_routes t)) t target ar = Some (LFound i inx).
Proof.
  intros ops t target ar r HR FR NBA TO IN FO AP LS. pose proof (C11_no_miss_partial ops t target ar r (length (t_routes t)) HR TO IN FO AP LS) as NM.
  pose proof HR as [HO ET]. apply reached_inv in HR. destruct HR as [INV AS]. pose proof INV as [So F _]. destruct TO as (OKT & NBT & NW).
  assert (FI : front_inv t) by (subst t; apply front_run; [apply inv_init|apply front_init|exact HO|exact FR]).
  assert (LA : t_last_af t = PNull \/ t_last_af t = PAt 0) by (destruct FI as [_ [[Q _]|[Q _]]]; tauto).
  assert (LEN : t_routes t <> []) by (intros E; rewrite E in IN; contradiction).
  assert (PT : plain_table t).
  { split; [exact NBA|]. destruct LA as [LA|LA]; [left; exact LA|right]. exists O. split; [exact LA|]. destruct (t_routes t); [contradiction|cbn [length]; lia]. }
  destruct (lookup (length (t_routes t)) t target ar) as [[i inx| |]|] eqn:E; [exists i, inx; reflexivity|congruence| |]; exfalso;
    (pose proof (lookup_eq (length (t_routes t)) t target ar) as LE; cbv zeta in LE; destruct (seek (t_routes t) (as_target target)) as [p c];
     destruct LE as [(x & _ & _ & _ & _ & _ & LE)|LE]; [congruence|]; rewrite E in LE).
  - destruct (lookup_start t (as_target target) _) as [i| |] eqn:ES; try discriminate.
    + assert (SF : scan (length (t_routes t)) t (as_target target) ar (contiguous (r_flags (as_target target))) (is_bitmask_matching (t_bm t) (r_family (as_target target))) i false None <> Some None).
      { apply scan_safe; [exact F|apply as_target_ok; exact OKT| |exact PT|discriminate]. unfold no_bitmask, has in *. rewrite !as_target_bit by discriminate. exact NBT. }
      destruct (scan _ _ _ _ _ _ i false None) as [[[[[j jinx] jp]|]|]|]; congruence.
    + unfold lookup_start in ES. cbv zeta in ES. destruct LA as [LA|LA]; rewrite LA in ES;
      repeat match type of ES with
             | context [match (if ?b then _ else _) with StAt _ => _ | StNone => _ | StUB => _ end] => destruct b
             | context [match cursor_of _ _ with _ => _ end] => destruct (cursor_of t (as_target target))
             | context [if ?b then _ else _] => destruct b
             end; discriminate.
  - destruct (lookup_start t (as_target target) _) as [i| |] eqn:ES; try discriminate.
    assert (IL : (i < length (t_routes t))%nat).
    { eapply (start_lt t (as_target target)); [exact INV|apply as_target_ok; exact OKT| |exact ES]. intros j Hj. destruct (pt_last t PT) as [Q|(q & Q & HQ)]; congruence. }
    assert (ST : scan (length (t_routes t)) t (as_target target) ar (contiguous (r_flags (as_target target))) (is_bitmask_matching (t_bm t) (r_family (as_target target))) i false None <> None).
    { apply scan_terminates; [left; intros j Hj; destruct LA; congruence|exact IL]. }
    destruct (scan _ _ _ _ _ _ i false None) as [[[[[j jinx] jp]|]|]|]; congruence.
Qed.
Lemma tcp_ok raddr lport flags : Forall (fun b => (b < 256)%N) raddr -> has flags RF_RADDR_BITMASK = false -> has flags RF_LADDR_BITMASK = false -> route_ok (tcp raddr lport flags).
Proof. intros. apply mk_ok; try assumption; bytes. Qed.
(** The claim for all tables is false: with an outbound route that has the same fields as an inbound-and-outbound one,
    inbound traffic is told that no route exists. *)
Theorem C11_never_misses_refuted :
  exists ops t target r fuel,
    reached ops t /\ traffic_ok target /\ In r (t_routes t) /\ applies None r target /\ lookup fuel t target None = Some LNotFound.
Proof.
  exists [RInsert (tcp [10; 0; 0; 1]%N 80 fOUT) true; RInsert (tcp [10; 0; 0; 1]%N 80 (fIN + fOUT)) true]. eexists.
  exists (tcp [10; 0; 0; 1]%N 80 fIN), (stored (tcp [10; 0; 0; 1]%N 80 (fIN + fOUT))), 5%nat.
  split; [split; [repeat constructor; apply tcp_ok; bytes|reflexivity]|].
  split; [split; [apply tcp_ok; bytes|split; [split; reflexivity|]]|].
  { intros b Hb. assert (E : (b = 0 \/ b = 1 \/ b = 2 \/ b = 3 \/ b = 4 \/ b = 5 \/ b = 6 \/ b = 7)%N) by lia.
    repeat (destruct E as [-> |E]; [reflexivity|]). subst b. reflexivity. }
  split; [right; left; reflexivity|]. split; [|reflexivity].
  split; [split; try (left; reflexivity); right; right; right; left; split; reflexivity|left; split; reflexivity|intros a e s u HA; discriminate|intros (a & HA & _); discriminate].
Qed.

(** C12: among the routes considered, the one with the lowest priority value and then the fewest ignored fields wins. *)
Theorem C12_fewest_ignored_fields_partial : forall ops t target ar r fuel i inx,
  reached ops t -> traffic_ok target -> In r (t_routes t) -> filter_ok r -> applies ar r target -> less_specific r target ->
  lookup fuel t target ar = Some (LFound i inx) ->
  exists best rinx, nth_error (t_routes t) i = Some best /\ route_key_cmp_1 r (as_target target) true = Some (0, rinx) /\
    ((eff_prio (r_event best) < eff_prio (r_event r))%N \/
     (eff_prio (r_event best) = eff_prio (r_event r) /\ (popcount (N.land inx WILDCARD_FLAGS) <= popcount (N.land rinx WILDCARD_FLAGS))%N)).
Proof.
  intros ops t target ar r fuel i inx HR (OKT & NBT & NW) IN FO AP [LF LB LR LL LD] H. apply reached_inv in HR. destruct HR as [INV AS]. pose proof INV as [So F _].
  unfold all_stored in AS. rewrite Forall_forall in AS. destruct (AS r IN) as (r0 & OK0 & ->). apply In_nth_error in IN. destruct IN as (k & Ek).
  pose proof (less_specific_first r0 target OK0 OKT NW NBT (ap_agrees _ _ _ AP) LF LB LR LL LD) as LE.
  destruct (applies_cand t target ar k (stored r0) F OKT NBT FO Ek (sizes_no_bitmask _ _ LB) AP) as (rinx & K & CD).
  destruct (start_covers t (as_target target) k (stored r0) INV (as_target_ok _ OKT) (no_wildcards_contiguous _ NW) Ek LF (or_introl LE)) as (s & ES & KI & IL).
  destruct (lookup_covers fuel t target ar k (stored r0) rinx _ s _ INV OKT ES KI IL Ek (or_intror LF) CD H) as [Q|(j & jinx & rj & Q & Ej & BT)]; [discriminate|].
  assert (j = i) by congruence. assert (jinx = inx) by congruence. subst. exists rj, rinx. split; [exact Ej|]. split; [exact K|exact BT].
Qed.
(** A longer remote prefix does not always win: 10.0.0.0/8 is preferred to 10.1.2.0/24 for 10.1.2.3 when the routes
    leave the local address empty (routes.c 528 scores the local instead of the remote address). *)
Definition net (raddr : list N) : route := mk_route 2 6 raddr 40000 1 [] 80 1 fIN None.
Theorem C12_longest_prefix_refuted :
  exists ops t target fuel inx,
    reached ops t /\ traffic_ok target /\
    In (stored (net [10; 1; 2]%N)) (t_routes t) /\ agrees (stored (net [10; 1; 2]%N)) target /\
    (r_rlen (net [10; 1; 2]%N) = 24 /\ r_rlen (net [10]%N) = 8)%nat /\
    exists i, lookup fuel t target None = Some (LFound i inx) /\ nth_error (t_routes t) i = Some (stored (net [10]%N)).
Proof.
  exists [RInsert (net [10]%N) true; RInsert (net [10; 1; 2]%N) true]. eexists. exists (mk_route 2 6 [10; 1; 2; 3]%N 40000 1 [127; 0; 0; 1]%N 80 1 fIN None), 5%nat. eexists.
  split; [split; [repeat constructor; apply mk_ok; bytes|reflexivity]|].
  split; [split; [apply mk_ok; bytes|split; [split; reflexivity|]]|].
  { intros b Hb. assert (E : (b = 0 \/ b = 1 \/ b = 2 \/ b = 3 \/ b = 4 \/ b = 5 \/ b = 6 \/ b = 7)%N) by lia.
    repeat (destruct E as [-> |E]; [reflexivity|]). subst b. reflexivity. }
  split; [right; left; reflexivity|]. split.
  { split; try (left; reflexivity); right.
    - right; right; right. split; [discriminate|]. intros i Hi. change (i < 24)%nat in Hi.
      assert (E : (i / 8 < 3)%nat) by (apply Nat.div_lt_upper_bound; lia). unfold addr_bit. cbn [stored with_flags r_raddr clamp_wildcard_fields mk_route net].
      destruct (i / 8)%nat as [|[|[|n]]]; [reflexivity..|lia].
    - left. reflexivity. }
  split; [split; reflexivity|]. exists O. split; reflexivity.
Qed.
(** In a family with bitmask routes, if all routes that agree with the traffic are remote-bitmask routes for addresses
    of the traffic's size, ties are broken by the number of zero bits of the route's (masked) address, the more the
    better: a measure that does not depend on the traffic, nor on the mask. *)
Theorem C12_bitmask_ties_partial : forall ops t target ar r fuel i inx,
  reached ops t -> traffic_ok target -> (0 < r_rlen target)%nat -> (r_rlen target mod 8 = 0)%nat ->
  is_bitmask_matching (t_bm t) (r_family target) = true ->
  (forall x, In x (t_routes t) -> agrees x target -> mask_route (r_rlen target) x) ->
  In r (t_routes t) -> filter_ok r -> applies ar r target -> sizes_ok r target -> r_family r = r_family target ->
  lookup fuel t target ar = Some (LFound i inx) ->
  exists best rinx, nth_error (t_routes t) i = Some best /\ route_key_cmp_1 r (as_target target) true = Some (0, rinx) /\
    ((eff_prio (r_event best) < eff_prio (r_event r))%N \/
     (eff_prio (r_event best) = eff_prio (r_event r) /\
      ((popcount (N.land inx WILDCARD_FLAGS) < popcount (N.land rinx WILDCARD_FLAGS))%N \/
       (popcount (N.land inx WILDCARD_FLAGS) = popcount (N.land rinx WILDCARD_FLAGS) /\ mask_zeros r <= mask_zeros best)))).
Proof.
  intros ops t target ar r fuel i inx HR (OKT & NBT & NW) HP H8 BM ALLM IN FO AP SZ LF H. apply reached_inv in HR. destruct HR as [INV AS]. pose proof INV as [So F _].
  apply In_nth_error in IN. destruct IN as (k & Ek).
  destruct (applies_cand t target ar k r F OKT NBT FO Ek SZ AP) as (rinx & K & CD).
  destruct (start_covers t (as_target target) k r INV (as_target_ok _ OKT) (no_wildcards_contiguous _ NW) Ek LF (or_intror BM)) as (s & ES & KI & IL).
  assert (ALL : forall i inx prio x, cand t (as_target target) ar (i, inx, prio) -> nth_error (t_routes t) i = Some x ->
    has (r_flags x) RF_RADDR_BITMASK = true /\
    score true (r_raddr (as_target target)) (r_rlen (as_target target)) (r_raddr x) (r_rlen x) = Some (mask_zeros x)).
  { intros j jinx jp x CX EX. destruct (cand_applies t target ar j jinx jp F OKT CX) as (x' & EX' & [AG _ _ _] & _).
    assert (x' = x) by congruence. subst x'. pose proof (nth_error_In _ _ EX) as INX. pose proof (ALLM x INX AG) as MR.
    rewrite Forall_forall in F. pose proof (score_zero target x (F x INX) HP H8 MR) as SC. destruct MR as [MB _].
    unfold has in *. split; [exact MB|]. rewrite MB in SC. exact SC. }
  pose proof (lookup_eq fuel t target ar) as LE. cbv zeta in LE. pose proof (seek_spec _ _ So F (as_target_ok _ OKT)) as SP.
  destruct (seek (t_routes t) (as_target target)) as [p c]. destruct LE as [(x & Ex & C & _ & FP & _ & LE)|LE].
  - exfalso. subst c. rewrite Ex in SP. destruct SP as (_ & _ & SP & _). symmetry in SP. apply rcmp_0 in SP.
    pose proof (nth_error_In _ _ Ex) as INX.
    assert (AG : agrees x target).
    { apply agrees_as_target. apply same_key_agrees; [| |exact SP]; unfold no_bitmask, has in *; rewrite as_target_bit by discriminate; tauto. }
    destruct (ALLM x INX AG) as [MB _]. destruct SP as (_ & _ & _ & _ & _ & _ & _ & _ & _ & _ & EF & _).
    rewrite EF in MB by reflexivity. rewrite as_target_bit in MB by discriminate. destruct NBT as [NB1 _]. unfold has in NB1. congruence.
  - rewrite LE, ES in H. change (r_family (as_target target)) with (r_family target) in H. rewrite BM in H.
    destruct (scan fuel t (as_target target) ar _ true s false None) as [[b|]|] eqn:SC; try discriminate.
    assert (NFW : has (r_flags (as_target target)) RF_FAMILY_WILD = false).
    { unfold has. rewrite as_target_bit by discriminate. apply NW. reflexivity. }
    assert (SV := SC). apply (scan_visits3 t (as_target target) ar ALL fuel _ s false None b rinx (eff_prio (r_event r)) k r) in SV;
      try assumption; try discriminate; [|apply sorted_family; exact So].
    destruct SV as ([[j jinx] jp] & -> & BT). assert (j = i) by congruence. assert (jinx = inx) by congruence. subst j jinx.
    apply scan_sound in SC; [|discriminate]. destruct SC as (rj & Erj & _ & _ & _ & _ & ->).
    exists rj, rinx. split; [exact Erj|]. split; [exact K|].
    unfold better3, zat in BT. rewrite Erj, Ek in BT. exact BT.
Qed.
(** So a more specific mask does not win either: for 10.1.2.3, 10.0.0.0 with mask 255.0.0.0 is preferred to 10.1.2.0
    with mask 255.255.255.0 (addr_bitmask_match_size, routes.c 291-323, subtracts a number of bits from a number of
    bytes and then ignores the traffic's address). *)
Definition masked (addr mask : list N) : route := mk_route 2 6 (addr ++ mask) 40000 1 [127; 0; 0; 1]%N 80 1 (fIN + 4096) None.
Definition wide : route := masked [10; 0; 0; 0]%N [255; 0; 0; 0]%N.
Definition narrow : route := masked [10; 1; 2; 0]%N [255; 255; 255; 0]%N.
Definition host : route := mk_route 2 6 [10; 1; 2; 3]%N 40000 1 [127; 0; 0; 1]%N 80 1 fIN None.
Lemma masked_ok a m : length a = 4%nat -> length m = 4%nat -> Forall (fun b => (b < 256)%N) a -> Forall (fun b => (b < 256)%N) m -> route_ok (masked a m).
Proof.
  intros L1 L2 F1 F2. unfold masked, mk_route. split; cbn [r_raddr r_rlen r_laddr r_llen r_flags].
  - rewrite app_length, L1, L2. split; [rewrite app_length, L1, L2; reflexivity|apply Forall_app; split; assumption].
  - split; [reflexivity|bytes].
  - intros _. rewrite app_length, L1, L2. reflexivity.
  - discriminate.
Qed.
Lemma host_ok : traffic_ok host.
Proof.
  split; [apply mk_ok; bytes|split; [split; reflexivity|]].
  intros b Hb. assert (E : (b = 0 \/ b = 1 \/ b = 2 \/ b = 3 \/ b = 4 \/ b = 5 \/ b = 6 \/ b = 7)%N) by lia.
  repeat (destruct E as [-> |E]; [reflexivity|]). subst b. reflexivity.
Qed.
Lemma narrow_agrees : agrees (stored narrow) host.
Proof.
  split; try (left; reflexivity); right.
  - right; right; left. split; [vm_compute; lia|]. intros j Hj. change (j < 4)%nat in Hj.
    destruct j as [|[|[|[|j]]]]; [reflexivity..|lia].
  - right; right; left. split; reflexivity.
Qed.
Lemma wide_agrees : agrees (stored wide) host.
Proof.
  split; try (left; reflexivity); right.
  - right; right; left. split; [vm_compute; lia|]. intros j Hj. change (j < 4)%nat in Hj.
    destruct j as [|[|[|[|j]]]]; [reflexivity..|lia].
  - right; right; left. split; reflexivity.
Qed.
Theorem C12_longest_mask_refuted :
  exists ops t (fuel : nat) (inx : N),
    reached ops t /\ traffic_ok host /\
    In (stored narrow) (t_routes t) /\ agrees (stored narrow) host /\ agrees (stored wide) host /\
    exists i, lookup fuel t host None = Some (LFound i inx) /\ nth_error (t_routes t) i = Some (stored wide).
Proof.
  exists [RInsert wide true; RInsert narrow true]. eexists. exists 5%nat. eexists.
  split; [split; [repeat constructor; apply masked_ok; bytes|reflexivity]|].
  split; [exact host_ok|]. split; [vm_compute; tauto|].
  split; [exact narrow_agrees|]. split; [exact wide_agrees|].
  eexists. split; [vm_compute; reflexivity|reflexivity].
Qed.
(** Non-vacuity: that table and that traffic meet the hypotheses of [C12_bitmask_ties_partial], with both routes as the
    competitor. *)
Example C12_bitmask_ties_example :
  let t := snd (rt_run t_init [RInsert wide true; RInsert narrow true]) in
  is_bitmask_matching (t_bm t) (r_family host) = true /\ (r_rlen host mod 8 = 0)%nat /\
  (forall x, In x (t_routes t) -> mask_route (r_rlen host) x) /\ In (stored narrow) (t_routes t) /\
  filter_ok (stored narrow) /\ applies None (stored narrow) host /\ sizes_ok (stored narrow) host /\
  mask_zeros (stored narrow) = 28 /\ mask_zeros (stored wide) = 30.
Proof.
  cbv zeta. split; [reflexivity|]. split; [reflexivity|]. split; [|split; [vm_compute; tauto|split; [|split; [|split; [|split; reflexivity]]]]].
  - intros x H. assert (E : x = stored narrow \/ x = stored wide) by (vm_compute in H; destruct H as [<- |[<- |[]]]; [right|left]; reflexivity).
    destruct E as [-> | ->]; split; reflexivity.
  - intros e s u H. discriminate.
  - split; [exact narrow_agrees|left; split; reflexivity|intros a e s u H; discriminate|intros (a & H & _); discriminate].
  - split; reflexivity.
Qed.

(** C13: a lookup ends after at most as many steps as there are routes, if the table's wildcard-family pointer is at
    the front or null ... *)
Theorem C13_terminates_partial : forall ops t target ar,
  reached ops t -> Forall front_ok ops -> route_ok target -> lookup (length (t_routes t)) t target ar <> None.
Proof.
  intros ops t target ar HR FR OKT E. pose proof HR as [HO ET]. apply reached_inv in HR. destruct HR as [INV AS].
  assert (FI : front_inv t) by (subst t; apply front_run; [apply inv_init|apply front_init|exact HO|exact FR]).
  assert (LA : t_last_af t = PNull \/ (t_last_af t = PAt 0 /\ (0 < length (t_routes t))%nat)).
  { destruct FI as [_ [[Q _]|[Q (x & l & EX & _)]]]; [left; exact Q|right; split; [exact Q|rewrite EX; cbn [length]; lia]]. }
  pose proof (lookup_eq (length (t_routes t)) t target ar) as LE. cbv zeta in LE. destruct (seek (t_routes t) (as_target target)) as [p c].
  destruct LE as [(x & _ & _ & _ & _ & _ & LE)|LE]; [congruence|]. rewrite E in LE.
  destruct (lookup_start t (as_target target) _) as [i| |] eqn:ES; try discriminate.
  assert (IL : (i < length (t_routes t))%nat).
  { eapply (start_lt t (as_target target)); [exact INV|apply as_target_ok; exact OKT| |exact ES]. intros j Hj. destruct LA as [LA|[LA LL]]; [congruence|]. assert (j = O) by congruence. lia. }
  assert (ST : scan (length (t_routes t)) t (as_target target) ar (contiguous (r_flags (as_target target))) (is_bitmask_matching (t_bm t) (r_family (as_target target))) i false None <> None).
  { apply scan_terminates; [left; intros j Hj; destruct LA as [LA|[LA _]]; congruence|exact IL]. }
  destruct (scan _ _ _ _ _ _ i false None) as [[[[[j jinx] jp]|]|]|]; congruence.
Qed.
(** ... and for targets that leave the family open, in every table. *)
Theorem C13_terminates_family_wild_partial : forall ops t target ar,
  reached ops t -> route_ok target -> N.testbit (r_flags target) RF_FAMILY_WILD = true -> lookup (length (t_routes t)) t target ar <> None.
Proof.
  intros ops t target ar HR OKT W E. apply reached_inv in HR. destruct HR as [INV AS].
  assert (W' : has (r_flags (as_target target)) RF_FAMILY_WILD = true) by (unfold has; rewrite as_target_bit by discriminate; exact W).
  pose proof (lookup_eq (length (t_routes t)) t target ar) as LE. cbv zeta in LE. destruct (seek (t_routes t) (as_target target)) as [p c].
  destruct LE as [(x & _ & _ & _ & _ & _ & LE)|LE]; [congruence|]. rewrite E in LE.
  destruct (cursor_of t (as_target target)) as [q|] eqn:EC.
  - pose proof (cursor_lt t _ q INV (as_target_ok _ OKT) EC) as QL. rewrite start_at in LE; [|exact QL|left; exact W'].
    match type of LE with context [scan ?f ?a ?b ?c ?d ?e ?i false None] => assert (ST : scan f a b c d e i false None <> None) end.
    { apply scan_terminates; [right; exact W'|]. destruct (is_bitmask_matching _ _); [apply span_end_lt|]; exact QL. }
    destruct (scan _ _ _ _ _ _ _ false None) as [[[[[j jinx] jp]|]|]|]; congruence.
  - unfold lookup_start in LE. cbv zeta in LE. rewrite W' in LE. discriminate.
Qed.

(** In general lookups need not end: insert wildcard-family routes A and B, delete A, insert C behind B, insert an
    ordinary route; traffic that does not match it runs forever. *)
Definition anyfam (riface : N) : route := mk_route 0 0 [] 0 riface [] 0 0 (191 + fIN) None.
Theorem C13_terminates_refuted :
  exists ops t target,
    reached ops t /\ traffic_ok target /\ has_direction target /\ forall fuel, lookup fuel t target None = None.
Proof.
  exists [RInsert (anyfam 1) true; RInsert (anyfam 2) true; RDelete (anyfam 1); RInsert (anyfam 3) true; RInsert (tcp [10; 0; 0; 1]%N 80 fIN) true]. eexists.
  exists (tcp [10; 0; 0; 2]%N 80 fIN).
  split; [split; [repeat constructor; apply mk_ok; bytes|reflexivity]|].
  split; [split; [apply tcp_ok; bytes|split; [split; reflexivity|]]|].
  { intros b Hb. assert (E : (b = 0 \/ b = 1 \/ b = 2 \/ b = 3 \/ b = 4 \/ b = 5 \/ b = 6 \/ b = 7)%N) by lia.
    repeat (destruct E as [-> |E]; [reflexivity|]). subst b. reflexivity. }
  split; [left; reflexivity|].
  set (t := snd (rt_run t_init _)). set (tg := tcp [10; 0; 0; 2]%N 80 fIN).
  assert (LOOP : forall f, scan f t (as_target tg) None true false 0 true None = None).
  { induction f as [|f IH]; [reflexivity|]. cbn [scan].
    assert (E : scan_step t (as_target tg) None true false 0 true None = SNext 0 true None) by (vm_compute; reflexivity).
    rewrite E. exact IH. }
  intros fuel. unfold lookup. fold (as_target tg).
  replace (seek (t_routes t) (as_target tg)) with (3%nat, -1) by (vm_compute; reflexivity).
  replace (contiguous (r_flags (as_target tg))) with true by reflexivity. cbn [andb Z.eqb].
  replace (lookup_start t (as_target tg) _) with (StAt 2) by (vm_compute; reflexivity).
  replace (is_bitmask_matching (t_bm t) (r_family (as_target tg))) with false by reflexivity.
  assert (E : scan fuel t (as_target tg) None true false 2 false None = None).
  { destruct fuel as [|f]; [reflexivity|]. cbn [scan].
    assert (E : scan_step t (as_target tg) None true false 2 false None = SNext 1 true None) by (vm_compute; reflexivity). rewrite E.
    destruct f as [|f]; [reflexivity|]. cbn [scan].
    assert (E2 : scan_step t (as_target tg) None true false 1 true None = SNext 0 true None) by (vm_compute; reflexivity). rewrite E2. apply LOOP. }
  rewrite E. reflexivity.
Qed.
(** Cloning such a table gives the same result even without deletion. *)
Theorem C13_clone_terminates_refuted :
  exists ops t target,
    reached (ops ++ [RClone]) t /\ traffic_ok target /\ forall fuel, lookup fuel t target None = None.
Proof.
  exists [RInsert (anyfam 2) true; RInsert (anyfam 3) true; RInsert (tcp [10; 0; 0; 1]%N 80 fIN) true]. eexists. exists (tcp [10; 0; 0; 2]%N 80 fIN).
  split; [split; [repeat constructor; apply mk_ok; bytes|reflexivity]|].
  split; [split; [apply tcp_ok; bytes|split; [split; reflexivity|]]|].
  { intros b Hb. assert (E : (b = 0 \/ b = 1 \/ b = 2 \/ b = 3 \/ b = 4 \/ b = 5 \/ b = 6 \/ b = 7)%N) by lia.
    repeat (destruct E as [-> |E]; [reflexivity|]). subst b. reflexivity. }
  set (t := snd (rt_run t_init _)). set (tg := tcp [10; 0; 0; 2]%N 80 fIN).
  assert (LOOP : forall f, scan f t (as_target tg) None true false 0 true None = None).
  { induction f as [|f IH]; [reflexivity|]. cbn [scan].
    assert (E : scan_step t (as_target tg) None true false 0 true None = SNext 0 true None) by (vm_compute; reflexivity).
    rewrite E. exact IH. }
  intros fuel. unfold lookup. fold (as_target tg).
  replace (seek (t_routes t) (as_target tg)) with (3%nat, -1) by (vm_compute; reflexivity).
  replace (contiguous (r_flags (as_target tg))) with true by reflexivity. cbn [andb Z.eqb].
  replace (lookup_start t (as_target tg) _) with (StAt 2) by (vm_compute; reflexivity).
  replace (is_bitmask_matching (t_bm t) (r_family (as_target tg))) with false by reflexivity.
  assert (E : scan fuel t (as_target tg) None true false 2 false None = None).
  { destruct fuel as [|f]; [reflexivity|]. cbn [scan].
    assert (E : scan_step t (as_target tg) None true false 2 false None = SNext 1 true None) by (vm_compute; reflexivity). rewrite E.
    destruct f as [|f]; [reflexivity|]. cbn [scan].
    assert (E2 : scan_step t (as_target tg) None true false 1 true None = SNext 0 true None) by (vm_compute; reflexivity). rewrite E2. apply LOOP. }
  rewrite E. reflexivity.
Qed.
(** Non-vacuity: the histories of the partial theorems include wildcard-family routes and deletions. *)
Example C13_example :
  let ops := [RInsert (anyfam 1) true; RInsert (tcp [10; 0; 0; 1]%N 80 fIN) true; RInsert (anyfam 2) true; RInsert (tcp [10; 0; 0; 9]%N 80 fIN) true; RDelete (tcp [10; 0; 0; 1]%N 80 fIN)] in
  Forall front_ok ops /\ Forall rop_ok ops /\ length (t_routes (snd (rt_run t_init ops))) = 3%nat /\ lookup 3 (snd (rt_run t_init ops)) (tcp [10; 0; 0; 9]%N 443 fIN) None = Some (LFound 0 191).
Proof.
  split; [repeat constructor; try discriminate; (left; reflexivity) || (right; discriminate)|].
  split; [repeat constructor; apply mk_ok; bytes|]. split; vm_compute; reflexivity.
Qed.
(** A less specific matching route of the family: the hypotheses of C11 and C12. *)
Example C11_example :
  let r := stored (tcp [10; 0]%N 0 (fIN + 8)) in
  less_specific r (tcp [10; 0; 0; 9]%N 443 fIN) /\ filter_ok r /\ traffic_ok (tcp [10; 0; 0; 9]%N 443 fIN) /\ applies None r (tcp [10; 0; 0; 9]%N 443 fIN).
Proof.
  cbv zeta. split; [split; try reflexivity; [split; reflexivity|split; [reflexivity|vm_compute; lia]|split; [reflexivity|vm_compute; lia]|]|].
  { unfold same_fields. intros (_ & E & _). discriminate. }
  split; [intros e s u H; discriminate|]. split.
  { split; [apply tcp_ok; bytes|split; [split; reflexivity|]]. intros b Hb.
    assert (E : (b = 0 \/ b = 1 \/ b = 2 \/ b = 3 \/ b = 4 \/ b = 5 \/ b = 6 \/ b = 7)%N) by lia.
    repeat (destruct E as [-> |E]; [reflexivity|]). subst b. reflexivity. }
  split; [split; try (left; reflexivity)|left; split; reflexivity|intros a e s u H; discriminate|intros (a & H & _); discriminate].
  - right. right; right; right. split; [discriminate|]. intros i Hi. change (i < 16)%nat in Hi.
    assert (E : (i / 8 < 2)%nat) by (apply Nat.div_lt_upper_bound; lia). unfold addr_bit. cbn [stored with_flags r_raddr clamp_wildcard_fields mk_route tcp].
    destruct (i / 8)%nat as [|[|n]]; [reflexivity..|lia].
  - right. left. reflexivity.
  - right. right; right; left. split; reflexivity.
Qed.

Print Assumptions C10_found_route_applies_partial.
Print Assumptions C10_penalty_box_exclusion_refuted.
Print Assumptions C11_no_miss_partial.
Print Assumptions C11_no_miss_bitmask_family_partial.
Print Assumptions C11_found_partial.
Print Assumptions C11_never_misses_refuted.
Print Assumptions C12_fewest_ignored_fields_partial.
Print Assumptions C12_longest_prefix_refuted.
Print Assumptions C12_bitmask_ties_partial.
Print Assumptions C12_longest_mask_refuted.
Print Assumptions C13_terminates_partial.
Print Assumptions C13_terminates_family_wild_partial.
Print Assumptions C13_terminates_refuted.
Print Assumptions C13_clone_terminates_refuted.
