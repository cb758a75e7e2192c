(** Lemmas about dispatch. *)
From Verif Require Import Base RouteFlags Dispatch.
Open Scope N_scope.

Lemma set_same f b : has (N.setbit f b) b = true.
Proof. apply N.setbit_eq. Qed.
Lemma set_other f a b : a <> b -> has (N.setbit f a) b = has f b.
Proof. intros H. unfold has. apply N.setbit_neq. exact H. Qed.
Lemma clear_other f a b : a <> b -> has (N.clearbit f a) b = has f b.
Proof. intros H. unfold has. apply N.clearbit_neq. exact H. Qed.
Lemma has_lor a b k : has (N.lor a b) k = has a k || has b k.
Proof. apply N.lor_spec. Qed.
Lemma has_ldiff a b k : has (N.ldiff a b) k = has a k && negb (has b k).
Proof. apply N.ldiff_spec. Qed.
Lemma has_0 k : has 0 k = false.
Proof. apply N.bits_0. Qed.
Lemma has_bit a k : has (N.setbit 0 a) k = (a =? k).
Proof. unfold has. rewrite N.setbit_eqb, N.bits_0, orb_false_r. reflexivity. Qed.

(** The exact effect of the two flag updates that dispatch makes. *)
Definition unboxed (s : rstate) : rstate := set_flags s (N.ldiff (s_flags s) (N.setbit 0 RF_PENALTYBOXED)).
Lemma unbox_eq s clock ar :
  update_flags s 0 (N.setbit 0 RF_PENALTYBOXED) clock ar =
  (OK, unboxed s, s_flags (unboxed s), if s_flags s =? s_flags (unboxed s) then ar else N.setbit ar AR_UPDATE).
Proof.
  unfold update_flags. rewrite has_0. cbn [andb].
  replace (anybit (N.lor 0 (N.setbit 0 RF_PENALTYBOXED)) PROTECTED_FLAGS) with false by reflexivity.
  replace (anybit (N.lor 0 (N.setbit 0 RF_PENALTYBOXED)) IMMUTABLE_FLAGS) with false by reflexivity. rewrite andb_false_r, N.lor_0_r. cbv zeta.
  replace (has (N.ldiff (s_flags s) (N.setbit 0 RF_PENALTYBOXED)) RF_PENALTYBOXED) with false.
  - reflexivity.
  - rewrite has_ldiff, has_bit, N.eqb_refl. symmetry. apply andb_false_r.
Qed.
Definition boxed (s : rstate) (clock : option Z) : rstate :=
  let s' := set_flags s (N.lor (s_flags s) (N.setbit 0 RF_PENALTYBOXED)) in
  if has (s_flags s) RF_PENALTYBOXED then s' else match clock with Some t => set_boxed_at s' t | None => s' end.
Lemma box_eq s clock ar :
  update_flags s (N.setbit 0 RF_PENALTYBOXED) 0 clock ar =
  (OK, boxed s clock, s_flags (boxed s clock), if s_flags s =? s_flags (boxed s clock) then ar else N.setbit ar AR_UPDATE).
Proof.
  unfold update_flags. rewrite !has_bit. replace (RF_PENALTYBOXED =? RF_GREENLISTED) with false by reflexivity. rewrite andb_false_r.
  replace (anybit (N.lor (N.setbit 0 RF_PENALTYBOXED) 0) PROTECTED_FLAGS) with false by reflexivity.
  replace (anybit (N.lor (N.setbit 0 RF_PENALTYBOXED) 0) IMMUTABLE_FLAGS) with false by reflexivity. rewrite andb_false_r, N.ldiff_0_r. cbv zeta.
  replace (has (N.lor (s_flags s) (N.setbit 0 RF_PENALTYBOXED)) RF_PENALTYBOXED) with true.
  - unfold boxed. destruct (has (s_flags s) RF_PENALTYBOXED), clock; reflexivity.
  - rewrite has_lor, has_bit, N.eqb_refl. symmetry. apply orb_true_r.
Qed.
Lemma boxed_flags s clock k : has (s_flags (boxed s clock)) k = has (s_flags s) k || (RF_PENALTYBOXED =? k).
Proof.
  unfold boxed. destruct (has (s_flags s) RF_PENALTYBOXED), clock; cbn [set_flags set_boxed_at s_flags]; rewrite has_lor, has_bit; reflexivity.
Qed.
Lemma unboxed_flags s k : has (s_flags (unboxed s)) k = has (s_flags s) k && negb (RF_PENALTYBOXED =? k).
Proof. unfold unboxed. cbn [set_flags s_flags]. rewrite has_ldiff, has_bit. reflexivity. Qed.

(** Counting leaves flags and times alone, and only adds REJECT when over the limit. *)
Lemma count_spec c s cur ar : let '(s', ar', over) := count c s cur ar in
  s_flags s' = s_flags s /\ s_boxed_at s' = s_boxed_at s /\ s_last_hit s' = s_last_hit s /\
  ar' = (if over then N.setbit ar AR_REJECT else ar).
Proof.
  unfold count. destruct (has ar AR_INSERTED || has ar AR_FALLTHROUGH); [repeat split|]. cbv zeta.
  destruct (has ar AR_DEROGATORY), (has cur RF_DONT_COUNT_CONN), (has ar AR_CONNECT), (has ar AR_DISCONNECT);
    unfold connect; cbn [set_derog s_conns];
    repeat match goal with |- context [if ?b then _ else _] => destruct b end; cbn; repeat split; reflexivity.
Qed.
Lemma release_spec c now clock s cur ar : let '(s', cur', ar') := release c now clock s cur ar in
  (s' = s /\ cur' = cur /\ ar' = ar) \/ (s' = unboxed s /\ cur' = s_flags s' /\ (ar' = ar \/ ar' = N.setbit ar AR_UPDATE)).
Proof.
  unfold release. cbv zeta. rewrite !unbox_eq.
  destruct (has cur RF_PENALTYBOXED && has ar AR_COMMENDABLE && has (c_flags c) EC_COMMENDABLE_CLEARS).
  - assert (NB : has (s_flags (unboxed s)) RF_PENALTYBOXED = false) by (rewrite unboxed_flags, N.eqb_refl; apply andb_false_r).
    rewrite NB. cbn [andb]. right. split; [reflexivity|]. split; [reflexivity|]. destruct (_ =? _); auto.
  - destruct (_ && _); [|left; repeat split; reflexivity]. destruct (_ >? _)%Z; [|left; repeat split; reflexivity].
    rewrite unbox_eq. right. split; [reflexivity|]. split; [reflexivity|]. destruct (_ =? _); auto.
Qed.
Lemma release_bits c now clock s cur ar k : k <> AR_UPDATE -> has (snd (release c now clock s cur ar)) k = has ar k.
Proof.
  intros H. pose proof (release_spec c now clock s cur ar) as R. destruct (release c now clock s cur ar) as [[s' cur'] ar']. cbn [snd].
  destruct R as [(_ & _ & ->)|(_ & _ & [->| ->])]; try reflexivity. apply set_other. congruence.
Qed.

(** A boxed route stays boxed. *)
Lemma release_boxed c now clock s cur ar :
  has cur RF_PENALTYBOXED = true -> has ar AR_COMMENDABLE && has (c_flags c) EC_COMMENDABLE_CLEARS = false ->
  (c_box_duration c <= 0 \/ s_boxed_at s = 0 \/ now - s_boxed_at s <= c_box_duration c)%Z ->
  release c now clock s cur ar = (s, cur, ar).
Proof.
  intros B NC H. unfold release. cbv zeta. rewrite B. cbn [andb]. rewrite NC. rewrite B. cbn [andb].
  destruct (Z.gtb_spec (c_box_duration c) 0) as [D|D]; cbn [andb]; [|reflexivity].
  destruct (Z.eqb_spec (s_boxed_at s) 0) as [Q|Q]; cbn [negb]; [reflexivity|].
  destruct (Z.gtb_spec (now - s_boxed_at s) (c_box_duration c)); [lia|reflexivity].
Qed.
Lemma release_expired c now clock s cur ar :
  has cur RF_PENALTYBOXED = true -> (0 < c_box_duration c)%Z -> (s_boxed_at s <> 0)%Z -> (now - s_boxed_at s > c_box_duration c)%Z ->
  let '(s', cur', ar') := release c now clock s cur ar in s' = unboxed s /\ cur' = s_flags s' /\ has cur' RF_PENALTYBOXED = false.
Proof.
  intros B D0 Q0 H. unfold release. cbv zeta. rewrite !unbox_eq. rewrite B. cbn [andb].
  assert (NB : has (s_flags (unboxed s)) RF_PENALTYBOXED = false) by (rewrite unboxed_flags, N.eqb_refl; apply andb_false_r).
  destruct (has ar AR_COMMENDABLE && has (c_flags c) EC_COMMENDABLE_CLEARS).
  - rewrite NB. cbn [andb]. repeat split; assumption.
  - rewrite B. cbn [andb]. destruct (Z.gtb_spec (c_box_duration c) 0) as [D|D]; [|lia]. cbn [andb].
    destruct (Z.eqb_spec (s_boxed_at s) 0) as [Q|Q]; cbn [negb]; [lia|].
    destruct (Z.gtb_spec (now - s_boxed_at s) (c_box_duration c)); [|lia]. rewrite unbox_eq. repeat split; assumption.
Qed.
Lemma release_unboxed c now clock s cur ar : has cur RF_PENALTYBOXED = false -> release c now clock s cur ar = (s, cur, ar).
Proof. intros B. unfold release. cbv zeta. rewrite B. cbn [andb]. rewrite B. reflexivity. Qed.

(** The shape of a verdict. *)
Lemma verdict_bits c policy now clock s cur ar :
  let '(s', ar') := verdict c policy now clock s cur ar in
  let '(s1, ar1, over) := count c s cur ar in
  let '(s2, cur2, ar2) := (if over then (s1, cur, ar1) else let '(s, cur, ar) := release c now clock s1 cur ar1 in decide c policy clock s cur ar) in
  s' = s2 /\ (forall k, k <> AR_PORT_RESET -> has ar' k = has ar2 k) /\ (has ar' AR_PORT_RESET = has ar2 AR_PORT_RESET || (has ar2 AR_REJECT && has cur2 RF_PORT_RESET)).
Proof.
  unfold verdict. destruct (count c s cur ar) as [[s1 ar1] over].
  destruct (if over then _ else _) as [[s2 cur2] ar2]. split; [reflexivity|]. split.
  - intros k Hk. destruct (_ && _); [|reflexivity]. apply set_other. congruence.
  - destruct (has ar2 AR_REJECT && has cur2 RF_PORT_RESET); [rewrite set_same; symmetry; apply orb_true_r|rewrite orb_false_r; reflexivity].
Qed.
