(** The change counters of the tables (wolfsentry_table_n_inserts / _n_deletes). *)
From Verif Require Import Base Links Table TableSpec.
Open Scope N_scope.

Section Count.
  Context {K : Type}.
  Variable cmp : N -> K -> K -> Z.

  Lemma binds : forall {A B} (m : out A) (f : A -> out B) b, bind m f = Ret b -> exists a, m = Ret a /\ f a = Ret b.
  Proof. intros A B [a| |] f b H; cbn in H; try discriminate. eauto. Qed.
  Ltac ib H := let a := fresh "a" in let E := fresh "E" in apply binds in H; destruct H as (a & E & H).

  Lemma del_id_th : forall (s : tst K) a e s', delete_by_id_1 s a = Ret (e, s') ->
    th s' = th s /\ (e = OK -> forall o, ob s a = Some o -> ob s' a = Some (mkobj 0 (opar o) (okey o))).
  Proof.
    unfold delete_by_id_1; intros s a e s' H. ib H.
    destruct (oid a0 =? 0); [assert (e = INVALID_ARG /\ s' = s) as [-> ->] by (split; congruence); split; [reflexivity|discriminate]|].
    ib H. destruct a1 as [h hd]. cbn [set_il] in H.
    assert (Es : s' = set_ob (let s := set_il s h (mkth hd (u32 (n_ents (ih s) + u32_max)) (n_inserts (ih s)) (u32 (n_deletes (ih s) + 1))) in
               if negb (usecb s) && (oid a0 =? u32 (ctr s + u32_max)) then set_ctr s (u32 (ctr s + u32_max)) else s) a (mkobj 0 (opar a0) (okey a0)))
      by (cbv zeta; congruence).
    subst s'. cbv zeta. destruct (negb _ && _); (split; [reflexivity|]); intros _ o Ho;
      (assert (o = a0) by (rewrite Ho in E; cbn in E; congruence)); subst; cbn; unfold upd; rewrite Pos.eqb_refl; reflexivity.
  Qed.
  Lemma ins_id_th : forall (s : tst K) a e s', insert_by_id s a = Ret (e, s') -> th s' = th s /\ ob s' = ob s.
  Proof.
    unfold insert_by_id; intros s a e s' H. ib H.
    destruct (oid a0 =? 0); [assert (s' = s) as -> by congruence; auto|].
    ib H. assert (D : s' = s \/ exists h hd, s' = set_il s h hd).
    { destruct a1 as [[x z]|]; [destruct z|]; try (left; congruence);
        (ib H; destruct a1 as [h hd]; right; eexists; eexists; cbn [set_il] in H |- *;
         match type of H with Ret (_, ?t) = _ => assert (s' = t) as -> by congruence end; reflexivity). }
    destruct D as [->|(h & hd & ->)]; auto.
  Qed.
  Lemma alloc_th : forall answers (s : tst K) a e s', id_allocate s a answers = Ret (e, s') -> th s' = th s.
  Proof.
    unfold id_allocate; intros answers s a e s' H.
    destruct (usecb s).
    - revert s H; induction answers as [|x l IH]; intros s H; cbn [alloc_cb] in H; ib H.
      + assert (s' = s) as -> by congruence; reflexivity.
      + destruct x as [id|er]; [|assert (s' = s) as -> by congruence; reflexivity].
        cbv zeta in H. ib H. destruct a1 as [e1 s1]. apply ins_id_th in E0. destruct E0 as [E0 _]. cbn in E0.
        destruct e1; try (assert (s' = s1) as -> by congruence; exact E0).
        rewrite (IH _ H). exact E0.
    - generalize dependent s. generalize (fuel_of (K := K)). intros g s H.
      generalize dependent s. intros s. generalize (g s). intros n. revert s.
      induction n as [|n IH]; intros s H; cbn [alloc_ctr] in H; [discriminate|].
      ib H. cbv zeta in H. ib H. destruct a1 as [e1 s1]. apply ins_id_th in E0. destruct E0 as [E0 _]. cbn in E0.
      destruct e1; try (assert (s' = s1) as -> by congruence; exact E0).
      rewrite (IH _ H). exact E0.
  Qed.

  Definition counts (s s' : tst K) (k i d : N) : Prop :=
    n_inserts (th s' k) = u32 (n_inserts (th s k) + i) /\ n_deletes (th s' k) = u32 (n_deletes (th s k) + d).
  Definition small (s : tst K) : Prop := forall k, n_inserts (th s k) <= u32_max /\ n_deletes (th s k) <= u32_max.

  Lemma u32_small : forall n, n <= u32_max -> u32 (n + 0) = n.
  Proof. intros n H. unfold u32, u32_max in *. rewrite N.add_0_r, N.mod_small; lia. Qed.
  Lemma u32_le : forall n, u32 n <= u32_max.
  Proof. intros n; unfold u32, u32_max. pose proof (N.mod_lt n (2 ^ 32)). lia. Qed.
  Lemma counts_same : forall s s', small s -> th s' = th s -> forall k, counts s s' k 0 0.
  Proof.
    intros s s' B E k; unfold counts; rewrite E. destruct (B k) as [B1 B2].
    rewrite !u32_small by assumption. split; reflexivity.
  Qed.

  Lemma insert_counts : forall s k a e s', small s -> table_ent_insert cmp s k a = Ret (e, s') ->
    forall k', counts s s' k' (if is_success e then if k =? k' then 1 else 0 else 0) 0.
  Proof.
    unfold table_ent_insert; intros s k a e s' B H k'. ib H.
    destruct (oid a0 =? 0); [assert (e = INVALID_ARG /\ s' = s) as [-> ->] by (split; congruence); apply counts_same; auto|].
    ib H.
    assert (D : (exists s1 e1, delete_by_id_1 s a = Ret (e1, s1) /\ s' = s1 /\ is_success e = false) \/
                exists h hd, s' = set_ob (set_tl s h k (mkth hd (u32 (n_ents (th s k) + 1)) (u32 (n_inserts (th s k) + 1)) (n_deletes (th s k)))) a (mkobj (oid a0) (Some k) (okey a0)) /\ e = OK).
    { destruct a1 as [[x z]|]; [destruct z|].
      - left. ib H. destruct a1 as [e1 s1]. exists s1, e1. destruct (is_success e1) eqn:Q.
        + assert (e = ITEM_ALREADY_PRESENT /\ s' = s1) as [-> ->] by (split; congruence). auto.
        + assert (e = e1 /\ s' = s1) as [-> ->] by (split; congruence). auto.
      - right; ib H; destruct a1 as [h hd]; exists h, hd; split; cbv zeta in H; congruence.
      - right; ib H; destruct a1 as [h hd]; exists h, hd; split; cbv zeta in H; congruence.
      - right; ib H; destruct a1 as [h hd]; exists h, hd; split; cbv zeta in H; congruence. }
    destruct D as [(s1 & e1 & Hd & -> & ->)|(h & hd & -> & ->)].
    - apply counts_same; [exact B|]. exact (proj1 (del_id_th _ _ _ _ Hd)).
    - unfold counts; cbn. unfold updk. destruct (B k') as [B1 B2]. rewrite (N.eqb_sym k k').
      destruct (k' =? k) eqn:Q; cbn; [apply N.eqb_eq in Q; subst k'|]; rewrite ?u32_small by assumption; split; reflexivity.
  Qed.

  Lemma delete_1_counts : forall (s : tst K) a e s', small s -> delete_1 s a = Ret (e, s') -> is_success e = true ->
    exists o k, ob s a = Some o /\ opar o = Some k /\ forall k', counts s s' k' 0 (if k =? k' then 1 else 0).
  Proof.
    unfold delete_1; intros s a e s' B H Hs. ib H.
    destruct (opar a0) as [k|] eqn:P; [|assert (e = INVALID_ARG) as -> by congruence; discriminate].
    ib H. destruct a1 as [h hd]. cbv zeta in H.
    exists a0, k. split; [destruct (ob s a); cbn in E; congruence|]. split; [exact P|]. intros k'.
    match type of H with context [set_ob ?x _ _] => set (s1 := x) in H end.
    assert (T : th s' = th s1).
    { destruct (oid a0 =? 0).
      - match type of H with Ret (_, ?x) = _ => assert (s' = x) as -> by congruence end. reflexivity.
      - apply del_id_th in H. destruct H as [H _]. exact H. }
    unfold counts. rewrite T. subst s1. cbn. unfold updk. destruct (B k') as [B1 B2]. rewrite (N.eqb_sym k k').
    destruct (k' =? k) eqn:Q; cbn; [apply N.eqb_eq in Q; subst k'|]; rewrite ?u32_small by assumption; split; reflexivity.
  Qed.

  Lemma delete_1_fails : forall (s : tst K) a e s', delete_1 s a = Ret (e, s') -> is_success e = false ->
    (forall o, ob s a = Some o -> opar o <> None -> oid o <> 0 -> False) -> th s' = th s.
  Proof.
    unfold delete_1; intros s a e s' H Hs Hx. ib H.
    destruct (opar a0) as [k|] eqn:P; [|assert (s' = s) as -> by congruence; reflexivity].
    ib H. destruct a1 as [h hd]. cbv zeta in H. destruct (oid a0 =? 0) eqn:Q.
    - assert (e = OK) by congruence. subst; discriminate.
    - exfalso. apply (Hx a0); [destruct (ob s a); cbn in E; congruence|congruence|apply N.eqb_neq; exact Q].
  Qed.

  Lemma delete_1_ok : forall (s : tst K) a e s' o, ob s a = Some o -> opar o <> None ->
    delete_1 s a = Ret (e, s') -> e = OK.
  Proof.
    unfold delete_1; intros s a e s' o Ho Hp H. rewrite Ho in H. cbn [ub_none bind] in H.
    destruct (opar o) as [k|] eqn:P; [|congruence].
    ib H. destruct a0 as [h hd]. cbv zeta in H. destruct (oid o =? 0) eqn:Q; [congruence|].
    unfold delete_by_id_1 in H. cbn [set_ob ob] in H. unfold upd in H. rewrite Pos.eqb_refl in H. cbn [ub_none bind] in H.
    cbn [oid] in H. rewrite Q in H. ib H. destruct a0. cbv zeta in H. congruence.
  Qed.

  Lemma free_th : forall (s : tst K) a, th (free s a) = th s. Proof. reflexivity. Qed.
  Lemma malloc_th : forall (s : tst K) key a s', malloc s key = (a, s') -> th s' = th s.
  Proof. unfold malloc; intros s key a s' H; cbv zeta in H; injection H as _ <-; reflexivity. Qed.

  Lemma step_counts : forall s o r s', small s -> step cmp s o = Ret (r, s') ->
    forall k, counts s s' k (inserted k o r) (deleted k o r).
  Proof.
    intros s o r s' B H k. destruct o as [k0 key answers|k0 key|id|k0 key|id]; unfold step in H; cbn [inserted deleted].
    - destruct (malloc s key) as [a s0] eqn:M. apply malloc_th in M.
      ib H. destruct a0 as [e1 s1]. apply alloc_th in E.
      assert (B1 : small s1) by (intro; rewrite E, M; apply B).
      destruct (is_success e1) eqn:Q1.
      + ib H. destruct a0 as [e2 s2]. pose proof (insert_counts _ _ _ _ _ B1 E0 k) as C.
        destruct (is_success e2) eqn:Q.
        * ib H. assert (r = (OK, a0) /\ s' = s2) as [-> ->] by (split; congruence).
          unfold counts in *. rewrite E, M in C. exact C.
        * assert (r = (e2, None) /\ s' = free s2 a) as [-> ->] by (split; congruence).
          unfold counts in *. rewrite free_th. rewrite E, M in C. destruct e2; try discriminate Q; exact C.
      + assert (r = (e1, None) /\ s' = free s1 a) as [-> ->] by (split; congruence).
        replace (match e1 with OK => if k0 =? k then 1 else 0 | _ => 0 end) with 0 by (destruct e1; try discriminate Q1; reflexivity).
        apply counts_same; [exact B|]. rewrite free_th, E; exact M.
    - ib H. destruct a as [e1 [a|]].
      + ib H. ib H. destruct a1 as [e2 s2]. destruct (is_success e2) eqn:Q.
        * assert (r = (OK, a0) /\ s' = free s2 a) as [-> ->] by (split; congruence).
          destruct (delete_1_counts _ _ _ _ B E1 Q) as (o & k1 & Ho & Hp & C).
          unfold describe in E0. rewrite Ho in E0. cbn [ub_none bind] in E0. rewrite Hp in E0.
          assert (a0 = Some (k1, okey o, oid o)) as -> by congruence.
          specialize (C k). unfold counts in *. rewrite free_th. exact C.
        * assert (r = (e2, None) /\ s' = s2) as [-> ->] by (split; congruence). replace (match e2 with OK => 0 | _ => 0 end) with 0 by (destruct e2; reflexivity).
          apply counts_same; [exact B|]. eapply delete_1_fails; [exact E1|exact Q|].
          intros o Ho Hp _. rewrite (delete_1_ok _ _ _ _ _ Ho Hp E1) in Q. discriminate.
      + assert (r = (e1, None) /\ s' = s) as [-> ->] by (split; congruence).
        destruct e1; apply counts_same; auto.
    - ib H. destruct a as [e1 [a|]].
      + ib H. ib H. destruct a1 as [e2 s2]. pose proof (del_id_th _ _ _ _ E1) as [T2 O2].
        assert (B2 : small s2) by (intro; rewrite T2; apply B).
        destruct (is_success e2) eqn:Q.
        * assert (e2 = OK) as ->.
          { unfold delete_by_id_1 in E1. ib E1. destruct (oid a1 =? 0); [injection E1 as <- _; discriminate|].
            ib E1. destruct a2. cbv zeta in E1. congruence. }
          ib H. unfold describe in E0. ib E0.
          assert (Ho : ob s a = Some a2) by (destruct (ob s a); cbn in E3; congruence).
          specialize (O2 eq_refl _ Ho).
          assert (a1 = mkobj 0 (opar a2) (okey a2)) as -> by (rewrite O2 in E2; cbn in E2; congruence). cbn [opar] in H.
          destruct (opar a2) as [k1|] eqn:P.
          -- ib H. destruct a1 as [e3 s3].
             destruct (is_success e3) eqn:Q3.
             ++ assert (r = (OK, a0) /\ s' = free s3 a) as [-> ->] by (split; congruence).
                assert (a0 = Some (k1, okey a2, oid a2)) as -> by congruence.
                destruct (delete_1_counts _ _ _ _ B2 E4 Q3) as (o & k2 & Ho2 & Hp & C).
                rewrite O2 in Ho2. assert (o = mkobj 0 (Some k1) (okey a2)) as -> by congruence. cbn in Hp.
                assert (k2 = k1) as -> by congruence. specialize (C k). unfold counts in *. rewrite free_th, T2 in *. exact C.
             ++ assert (X : e3 = OK) by (eapply delete_1_ok; [exact O2|cbn; congruence|exact E4]). subst e3; discriminate.
          -- assert (r = (OK, a0) /\ s' = free s2 a) as [-> ->] by (split; congruence).
             assert (a0 = None) as -> by congruence. apply counts_same; [exact B|]. rewrite free_th; exact T2.
        * assert (r = (e2, None) /\ s' = s2) as [-> ->] by (split; congruence). replace (match e2 with OK => 0 | _ => 0 end) with 0 by (destruct e2; reflexivity).
          apply counts_same; auto.
      + assert (r = (e1, None) /\ s' = s) as [-> ->] by (split; congruence).
        destruct e1; apply counts_same; auto.
    - ib H. destruct a as [e1 [a|]]; [ib H|]; (assert (s' = s) as -> by congruence); apply counts_same; auto.
    - ib H. destruct a as [e1 [a|]]; [ib H|]; (assert (s' = s) as -> by congruence); apply counts_same; auto.
  Qed.

  Lemma counts_small : forall s s', (forall k, exists i d, counts s s' k i d) -> small s'.
  Proof. intros s s' H k. destruct (H k) as (i & d & -> & ->). split; apply u32_le. Qed.

  Lemma u32_add : forall a b c, u32 (u32 (a + b) + c) = u32 (a + (b + c)).
  Proof.
    intros a b c. unfold u32. rewrite N.add_mod_idemp_l by discriminate. f_equal. lia.
  Qed.

  Lemma run_counts : forall ops s rs s', small s -> run cmp s ops = Ret (rs, s') ->
    forall k, counts s s' k (total (inserted k) ops rs) (total (deleted k) ops rs).
  Proof.
    induction ops as [|o ops IH]; intros s rs s' B H k; cbn [run] in H.
    - assert (rs = [] /\ s' = s) as [-> ->] by (split; congruence). apply counts_same; auto.
    - ib H. destruct a as [r s1]. ib H. destruct a as [rs1 s2].
      assert (rs = r :: rs1 /\ s' = s2) as [-> ->] by (split; congruence).
      pose proof (step_counts _ _ _ _ B E) as C.
      assert (B1 : small s1) by (eapply counts_small; intro k1; eexists; eexists; apply C).
      pose proof (IH _ _ _ B1 E0 k) as C1. specialize (C k). destruct C as [C1a C1b], C1 as [C2a C2b].
      unfold counts. cbn [total]. rewrite C2a, C2b, C1a, C1b, !u32_add. split; reflexivity.
  Qed.
End Count.
