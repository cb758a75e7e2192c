(** The wildcard comparison decides agreement. *)
From Verif Require Import Base Labels LabelsProofs Addr AddrSpec AddrProofs RouteFlags RouteKey RouteKeySpec RouteKeyProofs RouteTable Lookup LookupSpec.
Open Scope Z_scope.
Ltac Zify.zify_post_hook ::= Z.to_euclidean_division_equations.

Lemma bytes_eq_nth (a b : list N) n : length a = n -> length b = n -> ((forall i, (i < n)%nat -> nth i a 0%N = nth i b 0%N) <-> a = b).
Proof.
  intros Ha Hb. split; [|intros -> i _; reflexivity]. revert b n Ha Hb.
  induction a as [|x a IH]; intros b n Ha Hb H; destruct b as [|y b]; cbn in Ha, Hb; subst; try discriminate; [reflexivity|].
  f_equal; [apply (H O); lia|]. apply (IH b (length a)); [reflexivity|lia|]. intros i Hi. apply (H (S i)). lia.
Qed.

(** Zero-ness and inexactness of the plain comparison. *)
Lemma prefix_zero l ln r rn : addr_ok l ln -> addr_ok r rn ->
  exists c i, cmp_addrs_prefixful l ln r rn false true = Some (c, i) /\ (c = 0 <-> prefix_agrees l ln r rn) /\
    (c = 0 -> i = negb (ln =? rn)%nat).
Proof.
  intros [Ll Bl] [Lr Br]. fold (bits_to_bytes ln) in Ll. fold (bits_to_bytes rn) in Lr.
  unfold cmp_addrs_prefixful, prefix_agrees. cbv zeta.
  set (m := Nat.min ln rn).
  assert (HL : (bits_to_bytes m <= length l)%nat) by (unfold bits_to_bytes in *; lia).
  assert (HR : (bits_to_bytes m <= length r)%nat) by (unfold bits_to_bytes in *; lia).
  destruct (Nat.eqb_spec m 0) as [M0|M0].
  { destruct (Nat.eqb_spec ln rn) as [E|E]; cbn [orb negb]; do 2 eexists; (split; [reflexivity|]); (split; [|reflexivity]);
      (split; [intros _|reflexivity]); unfold m in M0; lia. }
  assert (H0 : (0 < bits_to_bytes m)%nat) by (unfold bits_to_bytes; lia).
  assert (NZ : ln <> O /\ rn <> O) by (unfold m in M0; lia).
  destruct (Nat.eqb_spec ln rn) as [E|E]; cbn [negb].
  - subst rn. destruct (memcmp_some (bits_to_bytes ln) l r) as (c & Hc & Hz); [lia|lia|]. rewrite Hc.
    rewrite (bytes_eq_nth l r (bits_to_bytes ln)) in Hz by lia.
    destruct (Z.eqb_spec c 0) as [C|C]; do 2 eexists; (split; [reflexivity|]); (split; [|intros; try reflexivity; contradiction]).
    + split; [intros _; right; right; left; split; [reflexivity|tauto]|reflexivity].
    + split; [contradiction|]. intros [Q|[Q|[[_ Q]|[Q _]]]]; try lia; try tauto. 
  - assert (SB : forall P : Prop, (P <-> same_bits (compared_bits m) l r) -> (P <-> ln = 0%nat \/ rn = 0%nat \/ (ln = rn /\ l = r) \/ (ln <> rn /\ same_bits (compared_bits m) l r))) by tauto.
    unfold compared_bits in SB. destruct (Nat.eqb_spec (m mod 8) 0) as [M|M].
    + destruct (memcmp_some (bits_to_bytes m) l r HL HR) as (c & Hc & Hz). rewrite Hc.
      pose proof (same_bits_bytes (bits_to_bytes m) l r Bl Br) as S8.
      replace (8 * bits_to_bytes m)%nat with m in S8 by (unfold bits_to_bytes; lia).
      unfold compared_bits. rewrite (proj2 (Nat.eqb_eq _ _) M).
      destruct (Z.eqb_spec c 0) as [C|C]; do 2 eexists; (split; [reflexivity|]); (split; [|intros; try reflexivity; contradiction]); apply SB; tauto.
    + destruct (memcmp_some (bits_to_bytes m - 1) l r) as (c & Hc & Hz); [lia|lia|]. rewrite Hc.
      assert (EB : (m / 8 = bits_to_bytes m - 1)%nat) by (unfold bits_to_bytes; lia).
      rewrite EB in SB. unfold compared_bits. rewrite (proj2 (Nat.eqb_neq _ _) M), EB.
      pose proof (same_bits_split (bits_to_bytes m - 1) (8 - m mod 8) l r ltac:(lia) Bl Br) as SS.
      destruct (Z.eqb_spec c 0) as [C|C]; cbn [negb].
      * rewrite !nth_error_nth' by lia.
        pose proof (shr_eq (nth (bits_to_bytes m - 1) l 0%N) (nth (bits_to_bytes m - 1) r 0%N) (m mod 8) ltac:(lia) (nth_lt _ _ Bl) (nth_lt _ _ Br)) as SE.
        destruct (N.eqb_spec (shr (nth (bits_to_bytes m - 1) l 0%N) (m mod 8)) (shr (nth (bits_to_bytes m - 1) r 0%N) (m mod 8))) as [S|S].
        -- do 2 eexists; (split; [reflexivity|]); (split; [|reflexivity]). apply SB; tauto.
        -- destruct (N.ltb _ _); do 2 eexists; (split; [reflexivity|]); (split; [|discriminate]); apply SB; (split; [discriminate|tauto]).
      * do 2 eexists; (split; [reflexivity|]); (split; [|contradiction]). apply SB; tauto.
Qed.

Lemma nth_skipn (l : list N) k j : nth j (skipn k l) 0%N = nth (k + j) l 0%N.
Proof. revert l; induction k as [|k IH]; intros l; [reflexivity|]. destruct l as [|x l]; [destruct j; reflexivity|]. cbn [skipn plus nth]. apply IH. Qed.

(** Any result of the loop decides [covers_masked], whether or not sizes are right. *)
Lemma mask_loop_zero fuel : forall i pad maskful mask target inx x,
  mask_loop fuel i pad maskful mask target inx = Some (0, x) ->
  forall j, (i <= j < i + fuel)%nat ->
    (if (j <? pad)%nat then 0%N else N.land (nth (j - pad) target 0%N) (nth j mask 0%N)) = nth j maskful 0%N.
Proof.
  induction fuel as [|k IH]; intros i pad maskful mask target inx x H j Hj; [lia|].
  cbn [mask_loop] in H. destruct (nth_error maskful i) as [a|] eqn:EA; [|discriminate].
  pose proof (nth_error_nth _ _ 0%N EA) as EA'.
  destruct (Nat.ltb_spec i pad) as [P|P].
  - destruct (N.eqb_spec a 0) as [A0|A0]; cbn [negb] in H.
    + destruct (Nat.eq_dec j i) as [->|]; [|eapply IH; [exact H|lia]]. destruct (Nat.ltb_spec i pad); [congruence|lia].
    + assert (Z.of_N a = 0) by congruence. lia.
  - destruct (nth_error target (i - pad)) as [tb|] eqn:ET; [|discriminate]. destruct (nth_error mask i) as [mk|] eqn:EM; [|discriminate].
    pose proof (nth_error_nth _ _ 0%N ET) as ET'. pose proof (nth_error_nth _ _ 0%N EM) as EM'.
    destruct (N.eqb_spec (N.land tb mk) a) as [Q|Q].
    + destruct (Nat.eq_dec j i) as [->|]; [|eapply IH; [exact H|lia]]. destruct (Nat.ltb_spec i pad); [lia|congruence].
    + assert (Z.of_N a - Z.of_N (N.land tb mk) = 0) by congruence. lia.
Qed.

Lemma mask_zero l ln r rn i : cmp_addrs_bitmaskful l ln r rn false true = Some (0, i) -> mask_agrees l ln r rn.
Proof.
  unfold cmp_addrs_bitmaskful, mask_agrees. cbv zeta. cbn [andb orb].
  destruct (Nat.ltb_spec (ln / 2) rn) as [A|A], (Nat.ltb_spec (rn / 2) ln) as [B|B]; cbn [andb]; try discriminate.
  all: destruct (Nat.eqb_spec (Nat.min ln rn) 0) as [Z|Z]; [intros _; lia|].
  all: destruct (Nat.eqb_spec ln rn) as [E|E]; [lia|].
  all: destruct (Nat.ltb_spec ln rn) as [Q|Q]; [|try lia]; try lia; intros H.
  - right; right; right. split; [lia|]. intros j Hj. unfold covers_masked.
    pose proof (mask_loop_zero _ _ _ _ _ _ _ _ H j ltac:(lia)) as W. rewrite nth_skipn in W. exact W.
  - right; right; left. split; [lia|]. intros j Hj. unfold covers_masked.
    pose proof (mask_loop_zero _ _ _ _ _ _ _ _ H j ltac:(lia)) as W. rewrite nth_skipn in W. exact W.
Qed.
Lemma mask_zero_conv l ln r rn : addr_ok l ln -> addr_ok r rn -> (Nat.max ln rn mod 16 = 0)%nat -> mask_agrees l ln r rn ->
  exists i, cmp_addrs_bitmaskful l ln r rn false true = Some (0, i).
Proof.
  intros [Ll _] [Lr _] HM. fold (bits_to_bytes ln) in Ll. fold (bits_to_bytes rn) in Lr.
  unfold cmp_addrs_bitmaskful, mask_agrees. cbv zeta. cbn [andb orb]. intros HA.
  destruct (Nat.eqb_spec (Nat.min ln rn) 0) as [Z|Z].
  { replace ((ln / 2 <? rn) && (rn / 2 <? ln))%nat with false
      by (symmetry; apply andb_false_iff; destruct (Nat.ltb_spec (ln / 2) rn), (Nat.ltb_spec (rn / 2) ln); auto; lia).
    destruct (ln =? rn)%nat; eexists; reflexivity. }
  assert (SZ : (2 * rn <= ln \/ 2 * ln <= rn)%nat) by lia.
  replace ((ln / 2 <? rn) && (rn / 2 <? ln))%nat with false
    by (symmetry; apply andb_false_iff; destruct (Nat.ltb_spec (ln / 2) rn), (Nat.ltb_spec (rn / 2) ln); auto; lia).
  replace (ln =? rn)%nat with false by (symmetry; apply Nat.eqb_neq; lia).
  destruct (Nat.ltb_spec ln rn) as [Q|Q].
  - destruct HA as [HA|[HA|[[HA _]|[HA HC]]]]; try lia.
    destruct (mask_loop_safe (bits_to_bytes (rn / 2)) 0 (rn / 2 - ln) r (skipn (bits_to_bytes (rn / 2)) r) l false) as (c & x & Hc & Hz);
      [unfold bits_to_bytes in *; lia| rewrite skipn_length; unfold bits_to_bytes in *; lia | unfold bits_to_bytes in *; lia |].
    rewrite Hc. exists x. f_equal. f_equal. apply Hz. intros j Hj. rewrite nth_skipn. apply HC. lia.
  - destruct HA as [HA|[HA|[[HA HC]|[HA HC]]]]; try lia.
    destruct (mask_loop_safe (bits_to_bytes (ln / 2)) 0 (ln / 2 - rn) l (skipn (bits_to_bytes (ln / 2)) l) r false) as (c & x & Hc & Hz);
      [unfold bits_to_bytes in *; lia| rewrite skipn_length; unfold bits_to_bytes in *; lia | unfold bits_to_bytes in *; lia |].
    rewrite Hc. exists x. f_equal. f_equal. apply Hz. intros j Hj. rewrite nth_skipn. apply HC. lia.
Qed.

(** One field of the wildcard comparison. *)
Lemma field_zero wf bit a b k inx o :
  cmp_field true wf bit a b k inx = Some (0, o) ->
  (a = b \/ has wf bit = true) /\ exists inx', k inx' = Some (0, o) /\ inx' = (if N.eqb a b then inx else N.setbit inx bit).
Proof.
  unfold cmp_field. cbn [andb]. destruct (N.eqb_spec a b) as [E|E].
  - intros H. split; [left; exact E|]. exists inx. split; [exact H|reflexivity].
  - destruct (has wf bit) eqn:W.
    + intros H. split; [right; reflexivity|]. eexists. split; [exact H|reflexivity].
    + destruct (N.ltb a b); intros H; discriminate H.
Qed.
Lemma field_zero_conv wf bit a b k inx o :
  (a = b \/ has wf bit = true) -> k (if N.eqb a b then inx else N.setbit inx bit) = Some (0, o) ->
  cmp_field true wf bit a b k inx = Some (0, o).
Proof.
  unfold cmp_field. cbn [andb]. destruct (N.eqb_spec a b) as [E|E]; [auto|]. intros [Q|Q] H; [contradiction|]. rewrite Q. exact H.
Qed.
Lemma addr_wild_zero bm l ln r rn c i : cmp_addr bm l ln r rn true true = Some (c, i) -> c = 0.
Proof.
  unfold cmp_addr, cmp_addrs_bitmaskful, cmp_addrs_prefixful. cbv zeta. cbn [andb orb].
  destruct bm;
  repeat match goal with
         | |- context [if ?b then _ else _] => destruct b
         | |- context [match memcmp ?n ?a ?b with _ => _ end] => destruct (memcmp n a b)
         end; intros H; congruence.
Qed.
Lemma addr_zero wf bit bm l ln r rn (k : N -> option (Z * N)) inx o :
  cmp_addr_field true wf bit bm l ln r rn k inx = Some (0, o) ->
  (has wf bit = true \/ exists i, cmp_addr (has wf bm) l ln r rn false true = Some (0, i)) /\
  exists i : bool, k (if i then N.setbit inx bit else inx) = Some (0, o) /\ cmp_addr (has wf bm) l ln r rn (has wf bit) true = Some (0, i).
Proof.
  unfold cmp_addr_field. cbn [andb]. destruct (cmp_addr (has wf bm) l ln r rn (has wf bit) true) as [[c i]|] eqn:E; [|discriminate].
  destruct (Z.eqb_spec c 0) as [C|C]; cbn [negb]; [|intros H; congruence]. subst c. intros H. split.
  - destruct (has wf bit); [left; reflexivity|]. right. exists i. exact E.
  - exists i. split; [exact H|reflexivity].
Qed.

Lemma lor_has a b bit : has (N.lor a b) bit = true <-> has a bit = true \/ has b bit = true.
Proof. unfold has. rewrite N.lor_spec, orb_true_iff. reflexivity. Qed.

Lemma cmp_addr_agrees r t bit bm a n b m i :
  addr_ok a n -> addr_ok b m ->
  cmp_addr (has (N.lor (r_flags r) (r_flags t)) bm) a n b m false true = Some (0, i) ->
  (if has (N.lor (r_flags r) (r_flags t)) bm then mask_agrees a n b m else prefix_agrees a n b m) \/ ignored r t bit.
Proof.
  intros Ha Hb H. left. unfold cmp_addr in H. destruct (has _ bm).
  - eapply mask_zero. exact H.
  - destruct (prefix_zero a n b m Ha Hb) as (c & i' & Hc & Hz & _). apply Hz. congruence.
Qed.

(** The inexact flags of a match: one bit per field that differs. *)
Definition dif (b : bool) (bit inx : N) : N := if b then N.setbit inx bit else inx.

Lemma match_sound r t inx : route_ok r -> route_ok t -> route_key_cmp_1 r t true = Some (0, inx) -> agrees r t.
Proof.
  intros [R1 R2 _ _] [T1 T2 _ _] H. unfold route_key_cmp_1 in H. cbv zeta in H.
  apply field_zero in H. destruct H as [F1 (i1 & H & _)].
  apply addr_zero in H. destruct H as [F2 (i2 & H & _)].
  apply field_zero in H. destruct H as [F3 (i3 & H & _)].
  apply field_zero in H. destruct H as [F4 (i4 & H & _)].
  apply addr_zero in H. destruct H as [F5 (i5 & H & _)].
  apply field_zero in H. destruct H as [F6 (i6 & H & _)].
  apply field_zero in H. destruct H as [F7 (i7 & H & _)].
  apply field_zero in H. destruct H as [F8 _].
  rewrite lor_has in *. unfold has in F1, F3, F4, F6, F7, F8.
  split; try assumption; unfold addr_agrees.
  - destruct F2 as [F2|[i F2]]; [left; exact F2|]. destruct (cmp_addr_agrees r t RF_RADDR_WILD _ _ _ _ _ _ R1 T1 F2); tauto.
  - destruct F5 as [F5|[i F5]]; [left; exact F5|]. destruct (cmp_addr_agrees r t RF_LADDR_WILD _ _ _ _ _ _ R2 T2 F5); tauto.
Qed.

Lemma event_wild wf a b inx : has wf RF_EVENT_WILD = true -> exists o, cmp_event true wf a b inx = Some (0, o) /\ N.land o 255 = N.land inx 255.
Proof.
  intros W. unfold cmp_event, cmp_field. cbn [andb]. rewrite W.
  assert (S8 : forall x, N.land (N.setbit x RF_EVENT_WILD) 255 = N.land x 255).
  { intros x. apply N.bits_inj. intros k. rewrite !N.land_spec. change 255%N with (N.ones 8).
    destruct (N.lt_ge_cases k 8); [|rewrite N.ones_spec_high by assumption; rewrite !andb_false_r; reflexivity].
    rewrite N.setbit_neq by (unfold RF_EVENT_WILD; lia). reflexivity. }
  destruct (N.eqb (eff_prio a) (eff_prio b)).
  - destruct (event_eqb a b); [eexists; split; reflexivity|]. destruct (has inx RF_EVENT_WILD); [eexists; split; reflexivity|].
    destruct a as [x|], b as [y|]; try (eexists; split; [reflexivity|apply S8]).
    cbv zeta. destruct (_ =? 0); eexists; (split; [reflexivity|]); [reflexivity|apply S8].
  - destruct (event_eqb a b); [eexists; split; [reflexivity|apply S8]|].
    replace (has (N.setbit inx RF_EVENT_WILD) RF_EVENT_WILD) with true by (symmetry; unfold has; apply N.setbit_eq).
    eexists. split; [reflexivity|apply S8].
Qed.

(** Conversely, agreeing routes compare equal, if the sizes allow bitmask comparison. *)
Definition sizes_ok (r t : route) : Prop :=
  (has (r_flags r) RF_RADDR_BITMASK = true -> (Nat.max (r_rlen r) (r_rlen t) mod 16 = 0)%nat) /\
  (has (r_flags r) RF_LADDR_BITMASK = true -> (Nat.max (r_llen r) (r_llen t) mod 16 = 0)%nat).

Lemma addr_zero_conv wf bit bm l ln r rn (k : N -> option (Z * N)) inx :
  addr_ok l ln -> addr_ok r rn -> (has wf bm = true -> (Nat.max ln rn mod 16 = 0)%nat) ->
  (has wf bit = true \/ (if has wf bm then mask_agrees l ln r rn else prefix_agrees l ln r rn)) ->
  exists i : bool, cmp_addr_field true wf bit bm l ln r rn k inx = k (if i then N.setbit inx bit else inx).
Proof.
  intros Hl Hr HM HA. unfold cmp_addr_field. cbn [andb].
  assert (S : exists i, cmp_addr (has wf bm) l ln r rn (has wf bit) true = Some (0, i)).
  { destruct (has wf bit) eqn:W.
    - assert (NN : cmp_addr (has wf bm) l ln r rn true true <> None).
      { unfold cmp_addr. destruct (has wf bm) eqn:B.
        - apply bitmaskful_safe; try assumption. discriminate.
        - apply prefixful_safe; assumption. }
      destruct (cmp_addr (has wf bm) l ln r rn true true) as [[c i]|] eqn:E; [|contradiction].
      exists i. rewrite (addr_wild_zero _ _ _ _ _ _ _ E). reflexivity.
    - destruct HA as [HA|HA]; [discriminate|]. unfold cmp_addr. destruct (has wf bm).
      + apply mask_zero_conv; auto.
      + destruct (prefix_zero l ln r rn Hl Hr) as (c & i & Hc & Hz & _). exists i. rewrite Hc. f_equal. f_equal. apply Hz. exact HA. }
  destruct S as (i & ->). exists i. reflexivity.
Qed.

Lemma field_go wf bit a b k inx : (a = b \/ has wf bit = true) -> cmp_field true wf bit a b k inx = k (dif (negb (N.eqb a b)) bit inx).
Proof. unfold cmp_field, dif. cbn [andb]. destruct (N.eqb_spec a b) as [E|E]; cbn [negb]; [reflexivity|]. intros [Q|Q]; [contradiction|]. rewrite Q. reflexivity. Qed.

Lemma match_complete r t : route_ok r -> route_ok t -> sizes_ok r t ->
  has (r_flags t) RF_RADDR_BITMASK = false -> has (r_flags t) RF_LADDR_BITMASK = false ->
  has (r_flags t) RF_EVENT_WILD = true ->
  agrees r t -> exists inx, route_key_cmp_1 r t true = Some (0, inx).
Proof.
  intros [R1 R2 _ _] [T1 T2 _ _] [SZ1 SZ2] TB1 TB2 TE [A1 A2 A3 A4 A5 A6 A7 A8]. unfold route_key_cmp_1. cbv zeta.
  set (wf := N.lor (r_flags r) (r_flags t)).
  assert (FA : forall bit x y, field_agrees r t bit x y -> x = y \/ has wf bit = true).
  { intros bit x y [Q|Q]; [left; exact Q|right]. apply lor_has. exact Q. }
  assert (BM1 : has wf RF_RADDR_BITMASK = true -> has (r_flags r) RF_RADDR_BITMASK = true) by (unfold wf; rewrite lor_has; intros [Q|Q]; congruence).
  assert (BM2 : has wf RF_LADDR_BITMASK = true -> has (r_flags r) RF_LADDR_BITMASK = true) by (unfold wf; rewrite lor_has; intros [Q|Q]; congruence).
  rewrite field_go by (apply FA; assumption).
  edestruct (addr_zero_conv wf RF_RADDR_WILD RF_RADDR_BITMASK) as (i2 & ->); [exact R1|exact T1|auto| |].
  { destruct A2 as [Q|Q]; [left; apply lor_has; exact Q|right; exact Q]. }
  rewrite field_go by (apply FA; assumption). rewrite field_go by (apply FA; assumption).
  edestruct (addr_zero_conv wf RF_LADDR_WILD RF_LADDR_BITMASK) as (i5 & ->); [exact R2|exact T2|auto| |].
  { destruct A5 as [Q|Q]; [left; apply lor_has; exact Q|right; exact Q]. }
  rewrite field_go by (apply FA; assumption). rewrite field_go by (apply FA; assumption). rewrite field_go by (apply FA; assumption).
  cbn [negb andb].
  match goal with |- exists _, cmp_event true wf ?a ?b ?i = _ => destruct (event_wild wf a b i) as (o & Ho & _) end.
  { unfold wf. apply lor_has. right. exact TE. }
  exists o. exact Ho.
Qed.
