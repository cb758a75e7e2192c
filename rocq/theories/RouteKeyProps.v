(** C07: route keys are totally ordered and identify a route. *)
From Verif Require Import Base Labels Addr AddrSpec AddrProofs RouteFlags RouteKey RouteKeySpec RouteKeyProofs Table TableSpec TableProps.
Open Scope Z_scope.

(** The comparison is defined on all well-formed routes and is zero exactly for routes with the same key. *)
Theorem C07_zero_iff_same_key : forall a b, route_ok a -> route_ok b ->
  route_key_cmp_1 a b false <> None /\ (route_key_cmp a b = 0 <-> same_key a b).
Proof.
  intros a b Ha Hb. split.
  - destruct (route_key_cmp_rcmp a b Ha Hb) as (i & ->). discriminate.
  - rewrite route_key_cmp_eq by assumption. apply rcmp_0.
Qed.

Theorem C07_antisymmetric_transitive :
  (forall a b, route_ok a -> route_ok b -> Z.sgn (route_key_cmp a b) = - Z.sgn (route_key_cmp b a)) /\
  (forall a b c, route_ok a -> route_ok b -> route_ok c ->
     route_key_cmp a b < 0 -> route_key_cmp b c < 0 -> route_key_cmp a c < 0).
Proof.
  pose proof rcmp_total_order as [R A T]. split.
  - intros a b Ha Hb. rewrite !route_key_cmp_eq by assumption. apply A.
  - intros a b c Ha Hb Hc. rewrite !route_key_cmp_eq by assumption. intros H1 H2.
    pose proof (T a b c ltac:(lia) ltac:(lia)). destruct (Z.eq_dec (rcmp a c) 0) as [E|E]; [|lia].
    pose proof (A a c) as AC. pose proof (T b c a ltac:(lia) ltac:(lia)). pose proof (A a b). lia.
Qed.

(** Routes with their well-formedness, as the keys of the route table: the hypothesis of the table theorems C01-C04
    holds for the route table. *)
Theorem C07_route_table_order : total_order (fun a b : {r | route_ok r} => route_key_cmp (proj1_sig a) (proj1_sig b)).
Proof.
  pose proof rcmp_total_order as [R A T]. split.
  - intros [a Ha]. cbn [proj1_sig]. rewrite route_key_cmp_eq by assumption. apply R.
  - intros [a Ha] [b Hb]. cbn [proj1_sig]. rewrite !route_key_cmp_eq by assumption. apply A.
  - intros [a Ha] [b Hb] [d Hd]. cbn [proj1_sig]. rewrite !route_key_cmp_eq by assumption. apply T.
Qed.

(** wolfsentry_route_init produces well-formed routes, and clamping the wildcarded fields keeps them so. *)
Theorem C07_init_well_formed : forall e family proto raddr rlen rport riface laddr llen lport liface flags r,
  addr_ok raddr rlen -> addr_ok laddr llen ->
  route_init e family proto raddr rlen rport riface laddr llen lport liface flags = (OK, Some r) ->
  route_ok r /\ route_ok (clamp_wildcard_fields r).
Proof.
  assert (IB : forall bm a n, addr_ok a n -> (bm = true -> (n mod 16 = 0)%nat) -> addr_ok (init_addr bm a n) n).
  { intros [|] a n Ha Hm; unfold init_addr; [|apply init_prefix_ok; exact Ha].
    specialize (Hm eq_refl). destruct Ha as [L B]. unfold init_bitmask_addr.
    assert (E : (bits_to_bytes n = n / 16 + n / 16)%nat).
    { unfold bits_to_bytes. pose proof (Nat.div_mod n 16 ltac:(lia)) as D. rewrite Hm, Nat.add_0_r in D. rewrite D at 1.
      replace (16 * (n / 16) + 7)%nat with (7 + (2 * (n / 16)) * 8)%nat by lia. rewrite Nat.div_add by lia. cbn [Nat.div Nat.divmod fst]. lia. }
    fold (bits_to_bytes n) in L. rewrite E in *.
    replace ((n / 16 + n / 16) / 2)%nat with (n / 16)%nat by (replace (n / 16 + n / 16)%nat with ((n / 16) * 2)%nat by lia; rewrite Nat.div_mul; lia).
    split.
    - rewrite app_length, land_bytes_len by (rewrite firstn_length, skipn_length; lia). rewrite firstn_length, skipn_length.
      fold (bits_to_bytes n). lia.
    - apply Forall_app. split; [apply land_bytes_ok; apply firstn_ok; exact B|apply skipn_ok; exact B]. }
  assert (RP : forall n k, addr_ok (repeat 0%N n) k <-> n = ((k + 7) / 8)%nat).
  { intros n k. unfold addr_ok. rewrite repeat_length. split; [tauto|]. intros; split; [assumption|].
    apply Forall_forall. intros x Hx. apply repeat_spec in Hx. subst. reflexivity. }
  intros e family proto raddr rlen rport riface laddr llen lport liface flags r Hr Hl H. unfold route_init in H.
  destruct (negb (anybit flags DIRECTION_FLAGS)); [discriminate|].
  destruct (has flags RF_RADDR_BITMASK && negb (rlen mod 16 =? 0)%nat) eqn:E1; [discriminate|].
  destruct (has flags RF_LADDR_BITMASK && negb (llen mod 16 =? 0)%nat) eqn:E2; [discriminate|].
  destruct (negb (flags_sensical flags)); [discriminate|].
  match type of H with (OK, Some ?x) = _ => assert (r = x) by congruence end. clear H.
  assert (M1 : has flags RF_RADDR_BITMASK = true -> (rlen mod 16 = 0)%nat).
  { intros B. rewrite B in E1. cbn [andb] in E1. apply negb_false_iff, Nat.eqb_eq in E1. exact E1. }
  assert (M2 : has flags RF_LADDR_BITMASK = true -> (llen mod 16 = 0)%nat).
  { intros B. rewrite B in E2. cbn [andb] in E2. apply negb_false_iff, Nat.eqb_eq in E2. exact E2. }
  pose proof (IB _ _ _ Hr M1) as I1. pose proof (IB _ _ _ Hl M2) as I2. subst r. split.
  - split; cbn [r_raddr r_rlen r_laddr r_llen r_flags]; assumption.
  - unfold clamp_wildcard_fields. cbn [r_raddr r_rlen r_laddr r_llen r_flags]. split; cbn [r_raddr r_rlen r_laddr r_llen r_flags]; try assumption.
    + destruct (has flags RF_RADDR_WILD); [|exact I1]. apply RP. destruct I1 as [L _]. exact L.
    + destruct (has flags RF_LADDR_WILD); [|exact I2]. apply RP. destruct I2 as [L _]. exact L.
Qed.

(** A field declared a wildcard does not identify the route: two routes that agree but for the values of wildcarded
    fields (an address may differ in content, not in length) have the same key once in a table, so the second insertion
    finds the first. *)
Definition same_unless (wild : bool) {A} (x y : A) : Prop := x = y \/ wild = true.
Theorem C07_wildcarded_values_irrelevant : forall a b,
  route_ok a -> route_ok b -> r_flags a = r_flags b -> same_event (r_event a) (r_event b) ->
  r_rlen a = r_rlen b -> r_llen a = r_llen b ->
  same_unless (N.testbit (r_flags a) RF_FAMILY_WILD) (r_family a) (r_family b) ->
  same_unless (N.testbit (r_flags a) RF_PROTO_WILD) (r_proto a) (r_proto b) ->
  same_unless (N.testbit (r_flags a) RF_RADDR_WILD) (r_raddr a) (r_raddr b) ->
  same_unless (N.testbit (r_flags a) RF_RPORT_WILD) (r_rport a) (r_rport b) ->
  same_unless (N.testbit (r_flags a) RF_RIFACE_WILD) (r_riface a) (r_riface b) ->
  same_unless (N.testbit (r_flags a) RF_LADDR_WILD) (r_laddr a) (r_laddr b) ->
  same_unless (N.testbit (r_flags a) RF_LPORT_WILD) (r_lport a) (r_lport b) ->
  same_unless (N.testbit (r_flags a) RF_LIFACE_WILD) (r_liface a) (r_liface b) ->
  route_key_cmp (clamp_wildcard_fields a) (clamp_wildcard_fields b) = 0.
Proof.
  intros a b Ha Hb EF EE L1 L2 H1 H2 H3 H4 H5 H6 H7 H8.
  assert (CK : forall r, route_ok r -> route_ok (clamp_wildcard_fields r)).
  { intros r [[A1 A2] [B1 B2] A B]. unfold clamp_wildcard_fields. split; cbn [r_raddr r_rlen r_laddr r_llen r_flags]; try assumption.
    - destruct (has (r_flags r) RF_RADDR_WILD); [|split; assumption]. split; [rewrite repeat_length; exact A1|].
      apply Forall_forall. intros x Hx. apply repeat_spec in Hx. subst. reflexivity.
    - destruct (has (r_flags r) RF_LADDR_WILD); [|split; assumption]. split; [rewrite repeat_length; exact B1|].
      apply Forall_forall. intros x Hx. apply repeat_spec in Hx. subst. reflexivity. }
  rewrite route_key_cmp_eq by (apply CK; assumption). apply rcmp_0.
  assert (LR : length (r_raddr a) = length (r_raddr b)) by (destruct Ha as [[A1 _] _ _ _], Hb as [[A2 _] _ _ _]; rewrite A1, A2, L1; reflexivity).
  assert (LL : length (r_laddr a) = length (r_laddr b)) by (destruct Ha as [_ [A1 _] _ _], Hb as [_ [A2 _] _ _]; rewrite A1, A2, L2; reflexivity).
  unfold same_key, clamp_wildcard_fields, same_unless, has in *. cbn [r_family r_proto r_raddr r_rlen r_rport r_riface r_laddr r_llen r_lport r_liface r_flags r_event].
  rewrite <- EF, <- LR, <- LL.
  assert (U : forall A (w : bool) (z x y : A), x = y \/ w = true -> (if w then z else x) = (if w then z else y)).
  { intros A w z x y [-> | ->]; reflexivity. }
  repeat apply conj; try (apply U; assumption); try assumption. reflexivity.
Qed.
(** Non-vacuity: two routes differing only in the direction flag coexist; clearing an internal flag does not matter. *)
Definition ex_route (rport : N) (flags : N) : route :=
  {| r_family := 2; r_proto := 6; r_raddr := [10; 0; 0; 1]%N; r_rlen := 32; r_rport := rport; r_riface := 1;
     r_laddr := [127; 0; 0; 1]%N; r_llen := 32; r_lport := 80; r_liface := 1; r_flags := flags; r_event := None |}.
Example C07_example :
  route_ok (ex_route 1 1024) /\ route_key_cmp (ex_route 1 1024) (ex_route 1 2048) = -1 /\
  route_key_cmp (ex_route 1 (1024 + 16384)) (ex_route 1 1024) = 0 /\ route_key_cmp (ex_route 2 1024) (ex_route 1 2048) = 1.
Proof.
  split; [|repeat split; reflexivity].
  split; cbn; try (split; [reflexivity|repeat constructor]); discriminate.
Qed.

Example C07_wildcarded_example :
  let a := ex_route 1 (1024 + 32) in let b := ex_route 2 (1024 + 32) in
  same_unless (N.testbit (r_flags a) RF_RPORT_WILD) (r_rport a) (r_rport b) /\ route_ok a /\ route_ok b /\ r_rport a <> r_rport b /\
  route_key_cmp a b <> 0 /\ route_key_cmp (clamp_wildcard_fields a) (clamp_wildcard_fields b) = 0.
Proof.
  assert (OK : forall p, route_ok (ex_route p (1024 + 32))).
  { intros p. split; cbn; try (split; [reflexivity|repeat constructor]); discriminate. }
  cbv zeta. split; [right; reflexivity|]. split; [apply OK|]. split; [apply OK|]. split; [discriminate|]. split; [discriminate|reflexivity].
Qed.

Print Assumptions C07_wildcarded_values_irrelevant.
Print Assumptions C07_zero_iff_same_key.
Print Assumptions C07_antisymmetric_transitive.
Print Assumptions C07_route_table_order.
Print Assumptions C07_init_well_formed.
