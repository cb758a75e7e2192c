(** C01-C04: the object tables and the by-ID index of a context, for every history of calls.
    [run] executes the calls on explicit memory; [UB] and [Diverge] are its outcomes for touching memory that
    is not allocated and for not terminating. *)
From Verif Require Import Base Links Table TableSpec TableProofs TableHist TableCount.
From Coq Require Import Permutation Sorted.
Open Scope N_scope.

(** C01: in every reachable state, head-to-tail iteration of every table is strictly increasing. *)
Theorem C01_tables_sorted : forall (K : Type) (cmp : N -> K -> K -> Z), (forall k, total_order (cmp k)) ->
  forall cb ops rs s, run cmp (tinit cb) ops = Ret (rs, s) ->
  forall k, exists l, iter_fwd s k = Some l /\ StronglySorted (fun a b => (cmp k (fst a) (fst b) < 0)%Z) l.
Proof.
  intros K cmp TO cb ops rs s E k. destruct (run_ok cmp TO ops (tinit cb) [] 0 (init_ok cmp cb)) as (rs' & s' & live & E' & _ & (n & HT) & _).
  assert (s' = s) by congruence. subst. destruct (iter_ok cmp TO s live n k HT) as (l & I1 & _ & I3 & _). exists l. split; assumption.
Qed.
Print Assumptions C01_tables_sorted.

(** C01: a creation that does not succeed (key present, ID callback error, IDs exhausted) leaves every table as it was. *)
Theorem C01_failed_creation_no_effect : forall (K : Type) (cmp : N -> K -> K -> Z), (forall k, total_order (cmp k)) ->
  forall cb ops rs s, run cmp (tinit cb) ops = Ret (rs, s) ->
  forall k key answers e d s', step cmp s (Create k key answers) = Ret ((e, d), s') -> e <> OK ->
  forall k', iter_fwd s' k' = iter_fwd s k'.
Proof.
  intros K cmp TO cb ops rs s E k key answers e d s' Es Hne k'.
  destruct (run_ok cmp TO ops (tinit cb) [] 0 (init_ok cmp cb)) as (rs' & s0 & live & E' & _ & (n & HT) & _).
  assert (s0 = s) by congruence. subst.
  destruct (step_ok cmp TO s live n (Create k key answers) HT) as (r & s2 & live' & E2 & Sp & HT' & _).
  assert (s2 = s') by congruence. assert (r = (e, d)) by congruence. subst.
  assert (live' = live) by (inversion Sp; subst; congruence || reflexivity). subst live'.
  destruct (iter_ok cmp TO s live n k' HT) as (l & I1 & _ & I3 & I4 & _).
  destruct (iter_ok cmp TO s' live _ k' HT') as (l' & I1' & _ & I3' & I4' & _). rewrite I1, I1'. f_equal.
  eapply (sorted_perm_eq cmp TO k'); [exact I3'|exact I3|]. eapply Permutation_trans; [exact I4'|]. symmetry. exact I4.
Qed.
Print Assumptions C01_failed_creation_no_effect.

(** C02: every history runs to completion and answers every call exactly as the finite maps of TableSpec do;
    the entry counters are exact. *)
Theorem C02_tables_are_maps : forall (K : Type) (cmp : N -> K -> K -> Z), (forall k, total_order (cmp k)) ->
  forall cb ops, exists rs s live, run cmp (tinit cb) ops = Ret (rs, s) /\ spec_run cmp cb [] 0 ops rs live /\
  forall k, n_ents (th s k) = N.of_nat (length (table_of k live)) /\
            exists l, iter_fwd s k = Some l /\ Permutation l (table_of k live).
Proof.
  intros K cmp TO cb ops. destruct (run_ok cmp TO ops (tinit cb) [] 0 (init_ok cmp cb)) as (rs & s & live & E & Sp & (n & HT) & _).
  exists rs, s, live. split; [exact E|]. split; [exact Sp|]. intros k.
  destruct (iter_ok cmp TO s live n k HT) as (l & I1 & _ & _ & I4 & I5). rewrite <- (Permutation_length I4). split; [exact I5|].
  exists l. split; assumption.
Qed.
Print Assumptions C02_tables_are_maps.

(** C02: the change counters of every table (wolfsentry_table_n_inserts, _n_deletes) are the numbers of
    successful insertions and deletions, modulo 2^32, told from the results of the calls. *)
Theorem C02_change_counters : forall (K : Type) (cmp : N -> K -> K -> Z), (forall k, total_order (cmp k)) ->
  forall cb ops rs s, run cmp (tinit cb) ops = Ret (rs, s) ->
  forall k, n_inserts (th s k) = total (inserted k) ops rs mod 2 ^ 32 /\
            n_deletes (th s k) = total (deleted k) ops rs mod 2 ^ 32.
Proof.
  intros K cmp TO cb ops rs s E k.
  refine (run_counts cmp ops (tinit cb) rs s _ E k). intros k'. cbn. split; discriminate.
Qed.
Print Assumptions C02_change_counters.

(** C03: no history touches unallocated memory or loops; both directions of iteration agree. *)
Theorem C03_pointers_safe : forall (K : Type) (cmp : N -> K -> K -> Z), (forall k, total_order (cmp k)) ->
  forall cb ops, run cmp (tinit cb) ops <> UB /\ run cmp (tinit cb) ops <> Diverge.
Proof.
  intros K cmp TO cb ops. destruct (run_ok cmp TO ops (tinit cb) [] 0 (init_ok cmp cb)) as (rs & s & live & E & _). rewrite E. split; discriminate.
Qed.
Theorem C03_iteration_reversible : forall (K : Type) (cmp : N -> K -> K -> Z), (forall k, total_order (cmp k)) ->
  forall cb ops rs s, run cmp (tinit cb) ops = Ret (rs, s) ->
  forall k, exists l, iter_fwd s k = Some l /\ iter_bwd s k = Some (rev l).
Proof.
  intros K cmp TO cb ops rs s E k. destruct (run_ok cmp TO ops (tinit cb) [] 0 (init_ok cmp cb)) as (rs' & s' & live & E' & _ & (n & HT) & _).
  assert (s' = s) by congruence. subst. destruct (iter_ok cmp TO s live n k HT) as (l & I1 & I2 & _). exists l. split; assumption.
Qed.
Print Assumptions C03_pointers_safe.
Print Assumptions C03_iteration_reversible.

(** C04: live objects have distinct IDs in 1..2^32-1; an ID resolves exactly to its live object. *)
Theorem C04_ids_unique : forall (K : Type) (cmp : N -> K -> K -> Z), (forall k, total_order (cmp k)) ->
  forall cb ops, exists rs s live, run cmp (tinit cb) ops = Ret (rs, s) /\ spec_run cmp cb [] 0 ops rs live /\
  consistent cmp live /\
  (forall e, In e live -> step cmp s (GetId (e_id e)) = Ret ((OK, Some e), s)) /\
  (forall id, id <> 0 -> (forall e, In e live -> e_id e <> id) -> step cmp s (GetId id) = Ret ((ITEM_NOT_FOUND, None), s)).
Proof.
  intros K cmp TO cb ops. destruct (run_ok cmp TO ops (tinit cb) [] 0 (init_ok cmp cb)) as (rs & s & live & E & Sp & (n & HT) & _).
  exists rs, s, live. split; [exact E|]. split; [exact Sp|].
  pose proof (consistent_ok cmp TO s live n HT) as HC. split; [exact HC|].
  destruct HT as (tls & ids & ents & HT). split.
  - intros e He. destruct HC as (Hnd & Hr & _). pose proof (Hr e He) as Hre. cbn [step].
    destruct (seekid_found cmp TO s live n tls ids ents (e_id e) HT) as [(e' & a & k & t1 & t2 & i1 & i2 & e1 & e2 & Hid & Hk & Hd & Et & Ei & Ee & D1 & D2 & Eg)|(Hno & Eg)]; [intros Z; rewrite Z in Hre; destruct Hre as [Hlt _]; inversion Hlt| |].
    + rewrite Eg. cbn [bind]. rewrite (describe_descr _ _ _ Hd). cbn [bind].
      assert (He' : In e' live).
      { apply (Permutation_in _ (Permutation_sym (i_p _ _ _ _ _ _ _ HT))). rewrite Ee. apply in_or_app. right. left. reflexivity. }
      assert (Eee : e' = e); [|rewrite Eee; reflexivity]. clear -Hnd He He' Hid. induction live as [|x l IH]; [contradiction|].
      cbn [map] in Hnd. inversion Hnd as [|? ? Hn Hd]; subst. destruct He as [->|He], He' as [->|He']; auto.
      * exfalso. apply Hn. rewrite <- Hid. apply in_map, He'.
      * exfalso. apply Hn. rewrite Hid. apply in_map, He.
    + exfalso. apply (Hno e He). reflexivity.
  - intros id Hz Hno. cbn [step].
    destruct (seekid_found cmp TO s live n tls ids ents id HT Hz) as [(e' & a & k & t1 & t2 & i1 & i2 & e1 & e2 & Hid & Hk & Hd & Et & Ei & Ee & D1 & D2 & Eg)|(_ & Eg)].
    + exfalso. apply (Hno e'); [|exact Hid]. apply (Permutation_in _ (Permutation_sym (i_p _ _ _ _ _ _ _ HT))). rewrite Ee. apply in_or_app. right. left. reflexivity.
    + rewrite Eg. reflexivity.
Qed.
Print Assumptions C04_ids_unique.

(** The hypotheses are met: integer keys, two tables, a history with reclamation, a duplicate and deletions by key and by ID. *)
Lemma zsub_order : total_order (fun a b : Z => (a - b)%Z).
Proof. constructor; intros; Lia.lia. Qed.
Definition zcmp (_ : N) (a b : Z) : Z := (a - b)%Z.
Example table_history :
  exists s, run zcmp (tinit false)
    [Create 0 5 []; Create 0 3 []; Create 1 5 []; Create 0 3 []; DeleteId 2; Create 0 9 []; Create 0 4 []; DeleteKey 0 5%Z; GetId 3; Get 0 9]%Z
  = Ret ([(OK, Some (0, 5%Z, 1)); (OK, Some (0, 3%Z, 2)); (OK, Some (1, 5%Z, 3)); (ITEM_ALREADY_PRESENT, None); (OK, Some (0, 3%Z, 2));
          (OK, Some (0, 9%Z, 5)); (OK, Some (0, 4%Z, 6)); (OK, Some (0, 5%Z, 1)); (OK, Some (1, 5%Z, 3)); (OK, Some (0, 9%Z, 5))], s) /\
    iter_fwd s 0 = Some [(4%Z, 6); (9%Z, 5)] /\ iter_bwd s 0 = Some [(9%Z, 5); (4%Z, 6)] /\
    n_inserts (th s 0) = 4 /\ n_deletes (th s 0) = 2 /\ n_ents (th s 0) = 2.
Proof. eexists. split; [vm_compute; reflexivity|]. repeat split; vm_compute; reflexivity. Qed.
Example table_history_callback :
  exists s, run zcmp (tinit true) [Create 0 5%Z [inl 7]; Create 0 6%Z [inl 7; inl 8]; Create 0 7%Z [inl 7; inr 3]; Create 0 8%Z [inl 0]]
  = Ret ([(OK, Some (0, 5%Z, 7)); (OK, Some (0, 6%Z, 8)); (CALLBACK_ERROR 3, None); (INVALID_ARG, None)], s).
Proof. eexists. vm_compute. reflexivity. Qed.
