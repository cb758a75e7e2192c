(** C08, C09 and the address part of C48. *)
From Verif Require Import Base Labels Addr AddrSpec AddrProofs.
Open Scope Z_scope.

(** C08, exact behaviour: a route initialised with the first [n] bits of [p] matches a full-length address [t] of
    [m] bits iff the two agree on the first [compared_bits n] bits. *)
Theorem C08_prefix_match_exact : forall p n t m,
  addr_ok p n -> addr_ok t m -> (m mod 8 = 0)%nat -> (n <= m)%nat ->
  exists c inexact, cmp_addrs_prefixful (init_addr false p n) n t m false true = Some (c, inexact) /\
    (c = 0 <-> same_bits (compared_bits n) p t).
Proof. exact prefix_match. Qed.

(** C08 for prefix lengths that are a multiple of 4: the English claim.  Missing: the other prefix lengths, for
    which it is false, as the next theorem shows. *)
Theorem C08_prefix_match_partial : forall p n t m,
  addr_ok p n -> addr_ok t m -> (m mod 8 = 0)%nat -> (n <= m)%nat -> (n mod 4 = 0)%nat ->
  exists c inexact, cmp_addrs_prefixful (init_addr false p n) n t m false true = Some (c, inexact) /\
    (c = 0 <-> same_bits n p t).
Proof.
  intros p n t m Hp Ht M H H4. assert (EC : compared_bits n = n); [|pose proof (prefix_match p n t m Hp Ht M H) as PM; rewrite EC in PM; exact PM].
  unfold compared_bits. destruct (Nat.eqb_spec (n mod 8) 0); [reflexivity|].
  pose proof (Nat.mod_upper_bound n 8 ltac:(lia)). pose proof (Nat.div_mod n 8 ltac:(lia)).
  assert ((n mod 8 = 4)%nat); [|lia].
  assert (Q : ((n mod 8) mod 4 = 0)%nat).
  { replace (n mod 8)%nat with (n - 8 * (n / 8))%nat by lia.
    pose proof (Nat.div_mod n 4 ltac:(lia)) as D. rewrite H4 in D. apply Nat.mod_divides; [lia|].
    exists (n / 4 - 2 * (n / 8))%nat. lia. }
  destruct (n mod 8)%nat as [|[|[|[|[|[|[|[|]]]]]]]]; cbn in Q; try lia.
Qed.

(** C08 is false in general: 10.64.0.0/10 does not match 10.68.0.1 although the first ten bits agree, and
    10.128.0.0/15 matches 10.129.0.1 but also 10.255.0.1, whose first fifteen bits differ. *)
Theorem C08_prefix_match_refuted :
  (exists p n t m c i, addr_ok p n /\ addr_ok t m /\ (m mod 8 = 0)%nat /\ (n <= m)%nat /\ same_bits n p t /\
     cmp_addrs_prefixful (init_addr false p n) n t m false true = Some (c, i) /\ c <> 0) /\
  (exists p n t m i, addr_ok p n /\ addr_ok t m /\ (m mod 8 = 0)%nat /\ (n <= m)%nat /\ ~ same_bits n p t /\
     cmp_addrs_prefixful (init_addr false p n) n t m false true = Some (0, i)).
Proof.
  split.
  - exists [10; 64]%N, 10%nat, [10; 68; 0; 1]%N, 32%nat, (-1), false.
    split; [split; [reflexivity|repeat constructor]|]. split; [split; [reflexivity|repeat constructor]|].
    split; [reflexivity|]. split; [lia|]. split.
    + intros i Hi. do 10 (destruct i as [|i]; [reflexivity|]). lia.
    + split; [reflexivity|discriminate].
  - exists [10; 128]%N, 15%nat, [10; 255; 0; 1]%N, 32%nat, true.
    split; [split; [reflexivity|repeat constructor]|]. split; [split; [reflexivity|repeat constructor]|].
    split; [reflexivity|]. split; [lia|]. split.
    + intros S. specialize (S 9%nat ltac:(lia)). discriminate S.
    + reflexivity.
Qed.

(** C09: a bitmask route made of an address and a mask of [L] bits each matches an address of [L] bits iff they agree
    on every bit selected by the mask. *)
Theorem C09_bitmask_match : forall addr mask t L,
  addr_ok addr L -> addr_ok mask L -> addr_ok t L -> (L mod 8 = 0)%nat -> (0 < L)%nat ->
  exists c inexact, cmp_addrs_bitmaskful (init_addr true (addr ++ mask) (L + L)) (L + L) t L false true = Some (c, inexact) /\
    (c = 0 <-> (forall j, (j < L)%nat -> addr_bit mask j = true -> addr_bit t j = addr_bit addr j)).
Proof. exact bitmask_match. Qed.

(** The stored address is address AND mask, so a second initialisation changes nothing. *)
Theorem C09_bitmask_normalised : forall addr mask L j,
  addr_ok addr L -> addr_ok mask L -> (L mod 8 = 0)%nat -> (j < L)%nat ->
  addr_bit (init_addr true (addr ++ mask) (L + L)) j = addr_bit addr j && addr_bit mask j /\
  addr_bit (init_addr true (addr ++ mask) (L + L)) (L + j) = addr_bit mask j.
Proof.
  intros addr mask L j Ha Hm M J. unfold init_addr. rewrite init_bitmask_split by assumption.
  destruct Ha as [La _], Hm as [Lm _].
  assert (LL : length (land_bytes addr mask) = length addr) by (apply land_bytes_len; congruence).
  pose proof (Nat.div_mod L 8 ltac:(lia)) as D.
  pose proof (Nat.div_mod j 8 ltac:(lia)) as D2. pose proof (Nat.mod_upper_bound j 8 ltac:(lia)).
  assert (E0 : ((L + 7) / 8 = L / 8)%nat) by (rewrite D at 1; rewrite M, Nat.add_0_r; replace (8 * (L / 8) + 7)%nat with (7 + (L / 8) * 8)%nat by lia;
    rewrite Nat.div_add by lia; cbn [Nat.div Nat.divmod fst]; reflexivity).
  split; unfold addr_bit.
  - rewrite app_nth1 by (apply Nat.div_lt_upper_bound; lia). rewrite land_bytes_nth by congruence. apply N.land_spec.
  - assert (E1 : ((L + j) / 8 = L / 8 + j / 8)%nat) by (rewrite D at 1; rewrite M, Nat.add_0_r; rewrite (Nat.mul_comm 8), Nat.div_add_l by lia; lia).
    assert (E2 : ((L + j) mod 8 = j mod 8)%nat) by (rewrite D at 1; rewrite M, Nat.add_0_r, (Nat.mul_comm 8), Nat.add_comm, Nat.mod_add by lia; reflexivity).
    rewrite E1, E2, app_nth2 by lia. rewrite LL, La, E0. replace (L / 8 + j / 8 - L / 8)%nat with (j / 8)%nat by lia. reflexivity.
Qed.

(** C48: neither address comparison reads outside the two addresses ... *)
Theorem C48_prefix_cmp_safe : forall l ln r rn w s,
  addr_ok l ln -> addr_ok r rn -> cmp_addrs_prefixful l ln r rn w s <> None.
Proof. exact prefixful_safe. Qed.
(** ... provided, for bitmasks, that the longer one has a length that is a multiple of 16 bits, as
    wolfsentry_route_init requires of a route with the bitmask flag. *)
Theorem C48_bitmask_cmp_safe_partial : forall l ln r rn w s,
  addr_ok l ln -> addr_ok r rn -> (s = true -> w = false -> (Nat.max ln rn mod 16 = 0)%nat) ->
  cmp_addrs_bitmaskful l ln r rn w s <> None.
Proof. exact bitmaskful_safe. Qed.
(** Prefix scoring is safe; bitmask scoring is safe unless the shorter address has at least two bits and no more bits
    than the mask has bytes. *)
Theorem C48_prefix_score_safe : forall a an b bn, addr_ok a an -> addr_ok b bn ->
  exists k, addr_prefix_match_size a an b bn = Some (Z.of_nat k) /\ (k <= Nat.min an bn)%nat.
Proof. exact prefix_size_some. Qed.
Theorem C48_bitmask_score_safe_partial : forall a an b bn, addr_ok a an -> addr_ok b bn ->
  (Nat.min an bn <= 1 \/ bits_to_bytes (Nat.max an bn / 2) < Nat.min an bn)%nat ->
  addr_bitmask_match_size a an b bn <> None.
Proof. exact bitmask_size_safe. Qed.
(** An 8-bit address that matches a bitmask route with 16 bytes of address and 16 bytes of mask makes the scoring read
    past the address. *)
Theorem C48_bitmask_score_refuted : exists target route,
  addr_ok target 8 /\ addr_ok route 256 /\ init_addr true route 256 = route /\
  (exists i, cmp_addrs_bitmaskful route 256 target 8 false true = Some (0, i)) /\
  addr_bitmask_match_size target 8 route 256 = None.
Proof.
  exists [7%N], (repeat 0%N 32). split; [split; [reflexivity|repeat constructor]|].
  split; [split; [reflexivity|repeat constructor]|]. split; [reflexivity|]. split; [exists false; reflexivity|reflexivity].
Qed.

(** Non-vacuity: 192.168.16.0/20 against 192.168.31.7 and 192.168.32.1; 10.0.0.5 under mask 255.0.0.255. *)
Example C08_example :
  cmp_addrs_prefixful (init_addr false [192; 168; 17]%N 20) 20 [192; 168; 31; 7]%N 32 false true = Some (0, true) /\
  cmp_addrs_prefixful (init_addr false [192; 168; 17]%N 20) 20 [192; 168; 32; 1]%N 32 false true = Some (-1, false).
Proof. split; reflexivity. Qed.
Example C09_example :
  cmp_addrs_bitmaskful (init_addr true [10; 9; 9; 5; 255; 0; 0; 255]%N 64) 64 [10; 1; 2; 5]%N 32 false true = Some (0, true) /\
  cmp_addrs_bitmaskful (init_addr true [10; 9; 9; 5; 255; 0; 0; 255]%N 64) 64 [10; 1; 2; 6]%N 32 false true = Some (-1, true).
Proof. split; reflexivity. Qed.

Print Assumptions C08_prefix_match_exact.
Print Assumptions C08_prefix_match_partial.
Print Assumptions C08_prefix_match_refuted.
Print Assumptions C09_bitmask_match.
Print Assumptions C09_bitmask_normalised.
Print Assumptions C48_prefix_cmp_safe.
Print Assumptions C48_bitmask_cmp_safe_partial.
Print Assumptions C48_prefix_score_safe.
Print Assumptions C48_bitmask_score_safe_partial.
Print Assumptions C48_bitmask_score_refuted.
