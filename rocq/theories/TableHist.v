(** Lemmas about whole histories of table operations (used by TableProps.v). *)
From Verif Require Import Base Links LinksProofs Table TableSpec TableProofs.
From Coq Require Import Permutation Sorted.
Open Scope N_scope.
Ltac Zify.zify_post_hook ::= Z.to_euclidean_division_equations.

Lemma Forall2_length {A B} (R : A -> B -> Prop) l1 l2 : Forall2 R l1 l2 -> length l1 = length l2.
Proof. induction 1; cbn; congruence. Qed.
Lemma filter_length_le {A} (f : A -> bool) l : (length (filter f l) <= length l)%nat.
Proof. induction l as [|a l IH]; cbn; [lia|]. destruct (f a); cbn; lia. Qed.

Section H.
  Context {K : Type}.
  Variable cmp : N -> K -> K -> Z.
  Hypothesis TO : forall k, total_order (cmp k).
  Notation tst := (tst K).
  Notation objrec := (objrec K).
  Notation G := (G cmp).
  Notation entry := (@entry K).

  Definition descr (s : tst) (a : addr) (e : entry) : Prop :=
    ob s a = Some (mkobj (e_id e) (Some (e_kind e)) (e_key e)).
  Record TInv (s : tst) (live : list entry) (n : N) (tls : N -> list addr) (ids : list addr) (ents : list entry) : Prop := {
    i_G : G s tls ids;
    i_d : Forall2 (descr s) ids ents;
    i_p : Permutation live ents;
    i_all : forall a, ob s a <> None -> In a ids;
    i_ctr : usecb s = false -> exists m, ctr s <= m /\ m <= u32_max /\ m <= n /\ forall e, In e live -> e_id e <= m
  }.

  Lemma live_addr s live n tls ids ents e : TInv s live n tls ids ents -> In e live -> exists a, In a ids /\ descr s a e.
  Proof.
    intros H Hin. apply (Permutation_in _ (i_p _ _ _ _ _ _ H)) in Hin.
    pose proof (i_d _ _ _ _ _ _ H) as Hd. revert Hin. clear H. induction Hd as [|a e' ids ents H1 H2 IH]; intros [].
    - subst. exists a. split; [left; reflexivity|exact H1].
    - destruct (IH H) as (b & Hb & Hd). exists b. split; [right; exact Hb|exact Hd].
  Qed.
  Lemma addr_live s live n tls ids ents a : TInv s live n tls ids ents -> In a ids -> exists e, In e live /\ descr s a e.
  Proof.
    intros H Hin. 
    pose proof (i_d _ _ _ _ _ _ H) as Hd. assert (Hx : exists e, In e ents /\ descr s a e).
    { revert Hin. clear H. induction Hd as [|b e' ids' ents' H1 H2 IH]; intros [].
      - subst. exists e'. split; [left; reflexivity|exact H1].
      - destruct (IH H) as (e & He & Hd). exists e. split; [right; exact He|exact Hd]. }
    destruct Hx as (e & He & Hde). exists e. split; [|exact Hde].
    apply (Permutation_in _ (Permutation_sym (i_p _ _ _ _ _ _ H))). exact He.
  Qed.
  Lemma live_ids s live n tls ids ents id : TInv s live n tls ids ents ->
    (In id (map e_id live) <-> exists a oa, In a ids /\ ob s a = Some oa /\ oid oa = id).
  Proof.
    intros H. split.
    - intros Hin. apply in_map_iff in Hin. destruct Hin as (e & <- & He).
      destruct (live_addr _ _ _ _ _ _ _ H He) as (a & Ha & Hd). exists a. eexists. split; [exact Ha|]. split; [exact Hd|reflexivity].
    - intros (a & oa & Ha & Ho & <-). destruct (addr_live _ _ _ _ _ _ _ H Ha) as (e & He & Hd).
      apply in_map_iff. exists e. split; [|exact He]. unfold descr in Hd. rewrite Ho in Hd.
      assert (oa = mkobj (e_id e) (Some (e_kind e)) (e_key e)) by congruence. subst. reflexivity.
  Qed.
  Lemma live_keys s live n tls ids ents k key : TInv s live n tls ids ents ->
    ((exists e, In e live /\ has_key cmp k key e) <-> exists a oa, In a (tls k) /\ ob s a = Some oa /\ cmp k (okey oa) key = 0%Z).
  Proof.
    intros H. pose proof (i_G _ _ _ _ _ _ H) as HG. split.
    - intros (e & He & Hk & Hc). destruct (live_addr _ _ _ _ _ _ _ H He) as (a & Ha & Hd). unfold descr in Hd.
      exists a. eexists. split; [|split; [exact Hd|exact Hc]]. eapply (g_par _ _ _ _ HG); [exact Hd|]. cbn [opar]. congruence.
    - intros (a & oa & Ha & Ho & Hc). assert (Hi : In a ids) by (apply (i_all _ _ _ _ _ _ H); congruence).
      destruct (addr_live _ _ _ _ _ _ _ H Hi) as (e & He & Hd). exists e. split; [exact He|].
      destruct (g_in _ _ _ _ HG k a Ha) as (o & Eo & Hp). unfold descr in Hd. rewrite Ho in *.
      assert (oa = mkobj (e_id e) (Some (e_kind e)) (e_key e)) by congruence.
      assert (oa = o) by congruence. subst. cbn [opar okey] in *. split; [congruence|exact Hc].
  Qed.
  Lemma live_id_range s live n tls ids ents e : TInv s live n tls ids ents -> In e live -> 0 < e_id e <= u32_max.
  Proof.
    intros H He. destruct (live_addr _ _ _ _ _ _ _ H He) as (a & Ha & Hd).
    destruct (g_ii _ _ _ _ (i_G _ _ _ _ _ _ H) a Ha) as (o & Eo & Hz & Hm). unfold descr in Hd.
    assert (o = mkobj (e_id e) (Some (e_kind e)) (e_key e)) by congruence. subst. cbn [oid] in *. lia.
  Qed.

  (** Allocation of an ID for a loose object [e]. *)
  Definition idrel (s : tst) (ids : list addr) (L : list N) : Prop :=
    forall id, In id L <-> exists a oa, In a ids /\ ob s a = Some oa /\ oid oa = id.
  Definition loose (s s' : tst) (e : addr) (key : K) : Prop :=
    (forall x, x <> e -> ob s' x = ob s x) /\ usecb s' = usecb s /\ brk s' = brk s /\
    exists o', ob s' e = Some o' /\ opar o' = None /\ okey o' = key.
  Definition linked (s s' : tst) (e : addr) (key : K) (id : N) : Prop :=
    (forall x, x <> e -> ob s' x = ob s x) /\ usecb s' = usecb s /\ brk s' = brk s /\
    ob s' e = Some (mkobj id None key).

  Lemma idrel_frame s s' ids L e : idrel s ids L -> ~ In e ids -> (forall x, x <> e -> ob s' x = ob s x) -> idrel s' ids L.
  Proof.
    intros H Hni Hf id. rewrite (H id). split; intros (a & oa & Ha & Ho & Hi); exists a, oa;
      (split; [exact Ha|split; [|exact Hi]]); rewrite ?Hf in *; auto; try (intros ->; contradiction).
  Qed.

  Lemma alloc_cb_spec answers : forall (s : tst) tls ids (live : list entry) e o,
    G s tls ids -> ob s e = Some o -> opar o = None -> ~ In e ids -> idrel s ids (map e_id live) ->
    match cb_choice live answers with
    | inr x => exists s', alloc_cb s e answers = Ret (CALLBACK_ERROR x, s') /\ G s' tls ids /\ loose s s' e (okey o) 
    | inl 0 => exists s', alloc_cb s e answers = Ret (INVALID_ARG, s') /\ G s' tls ids /\ loose s s' e (okey o) 
    | inl id => ~ In id (map e_id live) /\ id <= u32_max /\ exists s' l1 l2, ids = l1 ++ l2 /\ alloc_cb s e answers = Ret (OK, s') /\ G s' tls (l1 ++ e :: l2) /\
                  linked s s' e (okey o) id 
    end.
  Proof.
    induction answers as [|[id|x] answers IH]; intros s tls ids live e o H Ho Hp Hni Hr; cbn [cb_choice alloc_cb].
    - rewrite Ho. cbn [ub_none bind]. exists s. split; [reflexivity|]. split; [exact H|]. repeat split. exists o. auto.
    - rewrite Ho. cbn [ub_none bind].
      set (s1 := set_ob s e (mkobj (u32 id) (opar o) (okey o))).
      assert (H1 : G s1 tls ids) by (eapply G_set_ob_loose; eauto).
      assert (Ho1 : ob s1 e = Some (mkobj (u32 id) (opar o) (okey o))) by apply upd_eq.
      assert (Hf1 : forall x, x <> e -> ob s1 x = ob s x) by (intros x Hx; apply upd_neq, Hx).
      assert (Hr1 : idrel s1 ids (map e_id live)) by (eapply idrel_frame; eauto).
      assert (Hmx : u32 id <= u32_max) by (unfold u32, u32_max; lia).
      destruct (existsb (fun e0 => e_id e0 =? u32 id) live) eqn:Ex.
      + apply existsb_exists in Ex. destruct Ex as (en & Hen & Heq). apply N.eqb_eq in Heq.
        assert (Hin : In (u32 id) (map e_id live)) by (apply in_map_iff; exists en; auto).
        apply Hr1 in Hin. destruct Hin as (a & oa & Ha & Hoa & Hid).
        destruct (g_ii _ _ _ _ H1 a Ha) as (oa' & Eoa' & Hnz & _). assert (oa' = oa) by congruence. subst oa'.
        destruct (insert_by_id_spec cmp TO s1 tls ids e _ H1 Ho1) as [(_ & Ei)|(Hno & _)]; cbn [oid]; try assumption; try congruence.
        * rewrite Ei. cbn [bind].
          specialize (IH s1 tls ids live e _ H1 Ho1 Hp Hni Hr1). cbn [okey opar] in IH.
          assert (Ht : forall s' : tst, (loose s1 s' e (okey o) -> loose s s' e (okey o)) /\ (forall i, linked s1 s' e (okey o) i -> linked s s' e (okey o) i)).
          { intros s'. split; [intros (A & B & C & D)|intros i (A & B & C & D)]; (split; [|split; [|split]]; try assumption);
              intros y Hy; rewrite A, Hf1; auto. }
          destruct (cb_choice live answers) as [[|p]|x].
          -- destruct IH as (s' & E1 & E2 & E3). exists s'. split; [exact E1|]. split; [exact E2|apply Ht, E3].
          -- destruct IH as (Hn & Hm & s' & l1 & l2 & E0 & E1 & E2 & E3). split; [exact Hn|]. split; [exact Hm|].
             exists s', l1, l2. split; [exact E0|]. split; [exact E1|]. split; [exact E2|apply Ht, E3].
          -- destruct IH as (s' & E1 & E2 & E3). exists s'. split; [exact E1|]. split; [exact E2|apply Ht, E3].
        * exfalso. eapply (Hno a oa); [exact Ha|exact Hoa|exact Hid].
      + assert (Hnl : ~ In (u32 id) (map e_id live)).
        { intros Hin. apply in_map_iff in Hin. destruct Hin as (en & He & Hen). assert (existsb (fun e0 => e_id e0 =? u32 id) live = true); [|congruence].
          apply existsb_exists. exists en. split; [exact Hen|]. apply N.eqb_eq, He. }
        destruct (u32 id) as [|p] eqn:Eid.
        * unfold insert_by_id. rewrite Ho1. cbn [ub_none bind oid N.eqb]. exists s1. split; [reflexivity|]. split; [exact H1|].
          split; [exact Hf1|]. split; [reflexivity|]. split; [reflexivity|]. eexists. split; [exact Ho1|]. auto.
        * split; [exact Hnl|]. split; [exact Hmx|].
          destruct (insert_by_id_spec cmp TO s1 tls ids e _ H1 Ho1) as [((a & oa & Ha & Hoa & Hid) & Ei)|(Hno & s' & l1 & l2 & E0 & E1 & E2 & Eob & _ & Eu & Eb & _)]; cbn [oid]; try assumption; try discriminate.
          -- exfalso. apply Hnl. apply Hr1. exists a, oa. cbn [oid] in Hid. auto.
          -- rewrite E1. cbn [bind]. exists s', l1, l2. split; [exact E0|]. split; [reflexivity|]. split; [exact E2|].
             split; [|split; [|split]].
             ++ intros y Hy. rewrite Eob. apply Hf1, Hy.
             ++ exact Eu.
             ++ exact Eb.
             ++ rewrite Eob, Ho1, Hp. reflexivity.
    - rewrite Ho. cbn [ub_none bind]. exists s. split; [reflexivity|]. split; [exact H|]. repeat split. exists o. auto.
  Qed.

  Lemma filter_drop (L : list N) c : In (c + 1) L -> lt (length (filter (fun i => c + 1 <? i) L)) (length (filter (fun i => c <? i) L)).
  Proof.
    assert (Hle : forall L, le (length (filter (fun i => c + 1 <? i) L)) (length (filter (fun i => c <? i) L))).
    { clear L. induction L as [|x L IH]; cbn [filter length]; [lia|].
      destruct (N.ltb_spec (c + 1) x), (N.ltb_spec c x); cbn [length]; lia. }
    induction L as [|x L IH]; [intros []|]. intros [->|Hin]; cbn [filter].
    - destruct (N.ltb_spec (c + 1) (c + 1)), (N.ltb_spec c (c + 1)); try lia. cbn [length]. specialize (Hle L). lia.
    - specialize (IH Hin). destruct (N.ltb_spec (c + 1) x), (N.ltb_spec c x); cbn [length]; lia.
  Qed.

  Lemma alloc_ctr_spec L m : m <= u32_max -> (forall i, In i L -> i <= m) -> forall fuel s tls ids e o,
    G s tls ids -> ob s e = Some o -> opar o = None -> ~ In e ids -> idrel s ids L -> ctr s <= m ->
    lt (length (filter (fun i => ctr s <? i) L)) fuel ->
    (exists s', alloc_ctr fuel s e = Ret (INVALID_ARG, s') /\ G s' tls ids /\ loose s s' e (okey o) /\ ctr s' = 0 /\ m = u32_max) \/
    (exists id s' l1 l2, id <> 0 /\ id <= u32_max /\ id <= m + 1 /\ ~ In id L /\ ids = l1 ++ l2 /\ alloc_ctr fuel s e = Ret (OK, s') /\
       G s' tls (l1 ++ e :: l2) /\ linked s s' e (okey o) id /\ ctr s' = id).
  Proof.
    intros Hm HL. induction fuel as [|fuel IH]; intros s tls ids e o H Ho Hp Hni Hr Hc Hf; [lia|].
    cbn [alloc_ctr]. rewrite Ho. cbn [ub_none bind].
    set (c' := u32 (ctr s + 1)). set (s0 := set_ctr s c').
    change (ctr s0) with c'. change (ob (set_ctr s c')) with (ob s).
    set (s1 := set_ob s0 e (mkobj c' (opar o) (okey o))).
    assert (H1 : G s1 tls ids).
    { eapply G_set_ob_loose; [apply G_set_ctr; exact H|exact Ho|exact Hp|exact Hp|exact Hni]. }
    assert (Ho1 : ob s1 e = Some (mkobj c' (opar o) (okey o))) by apply upd_eq.
    assert (Hf1 : forall x, x <> e -> ob s1 x = ob s x) by (intros x Hx; apply upd_neq, Hx).
    assert (Hr1 : idrel s1 ids L) by (eapply idrel_frame; eauto).
    assert (Hmx : c' <= u32_max) by (unfold c', u32, u32_max; lia).
    destruct (N.eq_dec c' 0) as [Hz|Hnz].
    - left. unfold insert_by_id. rewrite Ho1. cbn [ub_none bind oid]. rewrite (proj2 (N.eqb_eq _ _) Hz).
      exists s1. split; [reflexivity|]. split; [exact H1|]. split.
      + split; [exact Hf1|]. split; [reflexivity|]. split; [reflexivity|]. eexists. split; [exact Ho1|]. auto.
      + split; [exact Hz|]. unfold c', u32, u32_max in *. lia.
    - assert (Hc' : c' = ctr s + 1) by (unfold c', u32, u32_max in *; lia).
      destruct (insert_by_id_spec cmp TO s1 tls ids e _ H1 Ho1) as [((a & oa & Ha & Hoa & Hid) & Ei)|(Hno & s' & l1 & l2 & E0 & E1 & E2 & Eob & Ec & Eu & Eb & _)]; cbn [oid]; try assumption.
      + rewrite Ei. cbn [bind]. cbn [oid] in Hid.
        assert (Hin : In c' L) by (apply Hr1; exists a, oa; auto).
        specialize (IH s1 tls ids e _ H1 Ho1 Hp Hni Hr1). cbn [okey opar] in IH.
        assert (Ht : forall s' : tst, (loose s1 s' e (okey o) -> loose s s' e (okey o)) /\ (forall i, linked s1 s' e (okey o) i -> linked s s' e (okey o) i)).
        { intros s'. split; [intros (A & B & C & D)|intros i (A & B & C & D)]; (split; [|split; [|split]]; try assumption);
              intros y Hy; rewrite A, Hf1; auto. }
        destruct IH as [(s' & E1 & E2 & E3 & E4)|(id & s' & l1 & l2 & Z1 & Z2 & Z3 & Z4 & E0 & E1 & E2 & E3 & E4)].
        * change (ctr s1) with c'. apply HL, Hin.
        * change (ctr s1) with c'. rewrite Hc' in *. pose proof (filter_drop L (ctr s) Hin). lia.
        * left. exists s'. split; [exact E1|]. split; [exact E2|]. split; [apply Ht, E3|exact E4].
        * right. exists id, s', l1, l2. repeat (split; [assumption|]). split; [apply Ht, E3|exact E4].
      + rewrite E1. cbn [bind]. right. exists c', s', l1, l2. split; [exact Hnz|]. split; [exact Hmx|]. split; [lia|]. split.
        { intros Hin. apply Hr1 in Hin. destruct Hin as (a & oa & Ha & Hoa & Hid). eapply Hno; eauto. }
        split; [exact E0|]. split; [reflexivity|]. split; [exact E2|]. split; [|exact Ec].
        split; [|split; [|split]].
        * intros y Hy. rewrite Eob. apply Hf1, Hy.
        * exact Eu.
        * exact Eb.
        * rewrite Eob, Ho1, Hp. reflexivity.
  Qed.

  Lemma Forall2_frame s s' e ids ents : Forall2 (descr s) ids ents -> ~ In e ids -> (forall x, x <> e -> ob s' x = ob s x) ->
    Forall2 (descr s') ids ents.
  Proof.
    intros H Hni Hf. induction H as [|a en ids ents H1 H2 IH]; [constructor|]. constructor.
    - unfold descr in *. rewrite Hf; [exact H1|]. intros ->. apply Hni. left. reflexivity.
    - apply IH. intros Hin. apply Hni. right. exact Hin.
  Qed.

  Definition TI s live n := exists tls ids ents, TInv s live n tls ids ents.

  Lemma free_ok s0 s live n tls ids ents e o :
    TInv s0 live n tls ids ents -> G s tls ids -> (forall x, x <> e -> ob s x = ob s0 x) ->
    ob s e = Some o -> opar o = None -> ~ In e ids ->
    (usecb s = false -> exists m, ctr s <= m /\ m <= u32_max /\ m <= n + 1 /\ forall en, In en live -> e_id en <= m) ->
    TInv (free s e) live (n + 1) tls ids ents.
  Proof.
    intros H HG Hf Ho Hp Hni Hm. constructor.
    - eapply G_free; eauto.
    - eapply Forall2_frame; [apply (i_d _ _ _ _ _ _ H)|exact Hni|]. intros x Hx. cbn [free ob]. rewrite upd_neq by exact Hx. apply Hf, Hx.
    - apply (i_p _ _ _ _ _ _ H).
    - intros a. cbn [free ob]. unfold upd. destruct (Pos.eqb_spec a e) as [->|Hae]; [congruence|]. rewrite Hf by exact Hae.
      apply (i_all _ _ _ _ _ _ H).
    - exact Hm.
  Qed.

  Lemma create_tail s live n tls ids ents key k (s0 : tst) (s1 : tst) e id l1 l2 :
    TInv s live n tls ids ents -> e = brk s -> s0 = snd (malloc s key) -> usecb s1 = usecb s ->
    linked s0 s1 e key id -> ids = l1 ++ l2 -> G s1 tls (l1 ++ e :: l2) -> id <> 0 -> id <= u32_max ->
    (usecb s = false -> exists m, ctr s1 <= m /\ id <= m /\ m <= u32_max /\ m <= n + 1 /\ forall en, In en live -> e_id en <= m) ->
    exists r s' live', 
      (let* (e0, s) := table_ent_insert cmp s1 k e in
        if is_success e0 then let* d := describe s e in Ret ((OK, d), s) else Ret ((e0, None), free s e)) = Ret (r, s') /\
      ((r = (OK, Some (k, key, id)) /\ live' = (k, key, id) :: live /\ (forall en, In en live -> ~ has_key cmp k key en)) \/
       (r = (ITEM_ALREADY_PRESENT, None) /\ live' = live /\ exists en, In en live /\ has_key cmp k key en)) /\
      TI s' live' (n + 1) /\ usecb s' = usecb s.
  Proof.
    intros H He Hs0 Hu (Hf & _ & _ & Ho) E HG Hnz Hmx Hm. subst s0.
    assert (Hne : ob s e = None).
    { destruct (ob s e) eqn:Ex; [|reflexivity]. exfalso. assert (ob s e <> None) as Hx by congruence.
      apply (g_brk _ _ _ _ (i_G _ _ _ _ _ _ H)) in Hx. subst e. lia. }
    assert (Hni : ~ In e ids).
    { intros Hin. destruct (g_ii _ _ _ _ (i_G _ _ _ _ _ _ H) e Hin) as (x & Ex & _). congruence. }
    assert (Hf' : forall x, x <> e -> ob s1 x = ob s x).
    { intros x Hx. rewrite Hf by exact Hx. cbn [malloc snd ob]. apply upd_neq. congruence. }
    assert (Hk : (exists en, In en live /\ has_key cmp k key en) <-> exists a oa, In a (tls k) /\ ob s1 a = Some oa /\ cmp k (okey oa) key = 0%Z).
    { rewrite (live_keys _ _ _ _ _ _ k key H). split; intros (a & oa & Ha & Hoa & Hc); exists a, oa; (split; [exact Ha|split; [|exact Hc]]).
      - rewrite Hf'; [exact Hoa|congruence].
      - rewrite <- Hf'; [exact Hoa|]. intros ->. destruct (g_in _ _ _ _ (i_G _ _ _ _ _ _ H) k e Ha) as (x & Ex & _). congruence. }
    destruct (table_ent_insert_spec cmp TO s1 tls l1 l2 k e _ HG Ho eq_refl) as
      [(Hex & s' & Es & HG' & Hob & Hc & Hu' & Hb)|(Hno & s' & t1 & t2 & Et & Es & HG' & Hob & Hc & Hu' & Hb)]; cbn [okey oid] in *.
    - rewrite Es. cbn [bind is_success]. eexists. exists (free s' e), live. split; [reflexivity|]. split.
      + right. split; [reflexivity|]. split; [reflexivity|]. apply Hk. exact Hex.
      + split; [|cbn; congruence]. rewrite E in *. exists tls, (l1 ++ l2), ents.
        eapply free_ok; [exact H|exact HG'| |rewrite Hob; apply upd_eq|reflexivity|exact Hni|].
        * intros x Hx. rewrite Hob, upd_neq by exact Hx. apply Hf', Hx.
        * rewrite Hu', Hu. intros Hcb. destruct (Hm Hcb) as (m & M1 & M2 & M3 & M4 & M5). exists m. 
          destruct Hc as [->| ->]; repeat split; assumption.
    - rewrite Es. cbn [bind is_success]. unfold describe. rewrite Hob, upd_eq. cbn [ub_none bind opar okey oid].
      eexists. exists s', ((k, key, id) :: live). split; [reflexivity|]. split.
      + left. split; [reflexivity|]. split; [reflexivity|]. intros en Hen Hh.
        destruct (proj1 Hk) as (a & oa & Ha & Hoa & Hz); [exists en; auto|]. eapply Hno; eauto.
      + split; [|congruence].
        pose proof (i_d _ _ _ _ _ _ H) as Hd. rewrite E in Hd. apply Forall2_app_inv_l in Hd. destruct Hd as (e1 & e2 & D1 & D2 & Ee).
        exists (updt tls k (t1 ++ e :: t2)), (l1 ++ e :: l2), (e1 ++ (k, key, id) :: e2).
        assert (Hf2 : forall x, x <> e -> ob s' x = ob s x) by (intros x Hx; rewrite Hob, upd_neq by exact Hx; apply Hf', Hx).
        rewrite E, in_app_iff in Hni.
        constructor.
        * exact HG'.
        * apply Forall2_app; [eapply Forall2_frame; eauto; tauto|]. constructor; [|eapply Forall2_frame; eauto; tauto].
          unfold descr. rewrite Hob. apply upd_eq.
        * apply (Permutation_cons_app (l := live) e1 e2). pose proof (i_p _ _ _ _ _ _ H) as HPx. rewrite Ee in HPx. exact HPx.
        * intros a Ha. destruct (Pos.eq_dec a e) as [->|Hae]; [apply in_or_app; right; left; reflexivity|].
          rewrite Hf2 in Ha by exact Hae. apply (i_all _ _ _ _ _ _ H) in Ha. rewrite E in Ha. apply in_app_or in Ha. apply in_or_app.
          destruct Ha; [left|right; right]; assumption.
        * rewrite Hu', Hu, Hc. intros Hcb. destruct (Hm Hcb) as (m & M1 & M2 & M3 & M4 & M5). exists m.
          repeat split; try assumption. intros en [<-|Hen]; [exact M2|apply M5, Hen].
  Qed.

  Lemma seek_found s live n tls ids ents k key : TInv s live n tls ids ents ->
    (exists e a t1 t2 i1 i2 e1 e2, has_key cmp k key e /\ descr s a e /\ tls k = t1 ++ a :: t2 /\ ids = i1 ++ a :: i2 /\ ents = e1 ++ e :: e2 /\
       Forall2 (descr s) i1 e1 /\ Forall2 (descr s) i2 e2 /\ table_ent_get cmp s k key = Ret (OK, Some a)) \/
    ((forall e, In e live -> ~ has_key cmp k key e) /\ table_ent_get cmp s k key = Ret (ITEM_NOT_FOUND, None)).
  Proof.
    intros H. pose proof (i_G _ _ _ _ _ _ H) as HG.
    destruct (tseek_G cmp TO s tls ids k key HG) as (l1 & l2 & E & H1 & H2).
    assert (Hno : (match l2 with [] => True | a :: _ => forall oa, ob s a = Some oa -> cmp k (okey oa) key <> 0%Z end) ->
                  forall e, In e live -> ~ has_key cmp k key e).
    { intros Hz e He Hh. destruct (proj1 (live_keys _ _ _ _ _ _ k key H)) as (a & oa & Ha & Hoa & Hc); [exists e; auto|].
      rewrite E in Ha. apply in_app_or in Ha. destruct Ha as [Ha|Ha].
      - specialize (H1 _ _ Ha Hoa). lia.
      - destruct l2 as [|b l2]; [contradiction|]. destruct Ha as [->|Ha]; [eapply Hz; eauto|].
        destruct H2 as (o2 & Eo2 & Hle & _). pose proof (after_key cmp TO _ _ _ _ _ _ _ _ _ HG E Eo2 Hle _ _ Ha Hoa). lia. }
    unfold table_ent_get. destruct l2 as [|a l2].
    - right. rewrite H2. cbn [bind]. split; [apply Hno, I|reflexivity].
    - destruct H2 as (oa & Eoa & Hle & Es). rewrite Es. cbn [bind].
      destruct (cmp k (okey oa) key) as [|p|p] eqn:Ec.
      + left. assert (Hin : In a (tls k)) by (rewrite E; apply in_or_app; right; left; reflexivity).
        assert (Hi : In a ids) by (apply (i_all _ _ _ _ _ _ H); congruence).
        apply in_split in Hi. destruct Hi as (i1 & i2 & Ei). pose proof (i_d _ _ _ _ _ _ H) as Hd. rewrite Ei in Hd.
        apply Forall2_app_inv_l in Hd. destruct Hd as (e1 & ex & D1 & D2 & Ee). inversion D2 as [|a' e ? e2 D3 D4]; subst a' ex.
        exists e, a, l1, l2, i1, i2, e1, e2. unfold descr in D3.
        destruct (g_in _ _ _ _ HG k a Hin) as (o & Eo & Hp).
        assert (Eqo : oa = mkobj (e_id e) (Some (e_kind e)) (e_key e)) by congruence.
        split; [split; [|]|].
        * assert (opar oa = Some k) by congruence. rewrite Eqo in H0. cbn in H0. congruence.
        * rewrite Eqo in Ec. exact Ec.
        * repeat (split; [assumption|]). reflexivity.
      + right. split; [|reflexivity]. apply Hno. intros ox Eox. assert (ox = oa) by congruence. subst. lia.
      + lia.
  Qed.
  Lemma seekid_found s live n tls ids ents id : TInv s live n tls ids ents -> id <> 0 ->
    (exists e a k t1 t2 i1 i2 e1 e2, e_id e = id /\ e_kind e = k /\ descr s a e /\ tls k = t1 ++ a :: t2 /\ ids = i1 ++ a :: i2 /\ ents = e1 ++ e :: e2 /\
       Forall2 (descr s) i1 e1 /\ Forall2 (descr s) i2 e2 /\ get_by_id s id = Ret (OK, Some a)) \/
    ((forall e, In e live -> e_id e <> id) /\ get_by_id s id = Ret (ITEM_NOT_FOUND, None)).
  Proof.
    intros H Hz. pose proof (i_G _ _ _ _ _ _ H) as HG.
    destruct (iseek_G cmp TO s tls ids id HG) as (l1 & l2 & E & H1 & H2).
    assert (Hno : (match l2 with [] => True | a :: _ => forall oa, ob s a = Some oa -> oid oa <> id end) ->
                  forall e, In e live -> e_id e <> id).
    { intros Hc e He Hh. destruct (proj1 (live_ids _ _ _ _ _ _ id H)) as (a & oa & Ha & Hoa & Hi); [apply in_map_iff; exists e; auto|].
      rewrite E in Ha. apply in_app_or in Ha. destruct Ha as [Ha|Ha].
      - specialize (H1 _ _ Ha Hoa). lia.
      - destruct l2 as [|b l2]; [contradiction|]. destruct Ha as [->|Ha]; [eapply Hc; eauto|].
        destruct H2 as (o2 & Eo2 & Hle & _). pose proof (after_id cmp TO _ _ _ _ _ _ _ _ HG E Eo2 Hle _ _ Ha Hoa). lia. }
    unfold get_by_id. rewrite (proj2 (N.eqb_neq _ _) Hz). destruct l2 as [|a l2].
    - right. rewrite H2. cbn [bind]. split; [apply Hno, I|reflexivity].
    - destruct H2 as (oa & Eoa & Hle & Es). rewrite Es. cbn [bind].
      destruct (N.eq_dec (oid oa) id) as [Eq|Ne].
      + left. rewrite (proj2 (proj2 (id_cmp_sign (oid oa) id)) Eq).
        assert (Hi : In a ids) by (apply (i_all _ _ _ _ _ _ H); congruence).
        apply in_split in Hi. destruct Hi as (i1 & i2 & Ei). pose proof (i_d _ _ _ _ _ _ H) as Hd. rewrite Ei in Hd.
        apply Forall2_app_inv_l in Hd. destruct Hd as (e1 & ex & D1 & D2 & Ee). inversion D2 as [|a' e ? e2 D3 D4]; subst a' ex.
        pose proof D3 as D3'. unfold descr in D3'.
        assert (Eqo : oa = mkobj (e_id e) (Some (e_kind e)) (e_key e)) by congruence.
        assert (Hin : In a (tls (e_kind e))) by (eapply (g_par _ _ _ _ HG); [exact D3'|reflexivity]).
        apply in_split in Hin. destruct Hin as (t1 & t2 & Et).
        exists e, a, (e_kind e), t1, t2, i1, i2, e1, e2. split; [subst oa; exact Eq|]. split; [reflexivity|].
        repeat (split; [assumption|]). reflexivity.
      + right. assert (Hic : id_cmp (oid oa) id = 1%Z).
        { unfold id_cmp. destruct (N.ltb_spec (oid oa) id), (N.ltb_spec id (oid oa)); lia. }
        rewrite Hic. split; [|reflexivity]. apply Hno. intros ox Eox. assert (ox = oa) by congruence. subst. lia.
  Qed.

  Lemma delete_inv s s' live n tls i1 i2 e1 e2 e a k t1 t2 :
    TInv s live n tls (i1 ++ a :: i2) (e1 ++ e :: e2) -> tls k = t1 ++ a :: t2 -> descr s a e ->
    Forall2 (descr s) i1 e1 -> Forall2 (descr s) i2 e2 ->
    G s' (updt tls k (t1 ++ t2)) (i1 ++ i2) ->
    (forall x, ob s' x = upd (ob s) a (Some (mkobj 0 None (e_key e))) x) ->
    (ctr s' = ctr s \/ ctr s' = e_id e) -> usecb s' = usecb s ->
    Permutation live (e :: (e1 ++ e2)) /\ TI (free s' a) (e1 ++ e2) n.
  Proof.
    intros H Et Hd D1 D2 HG Hob Hc Hu.
    assert (HP : Permutation live (e :: e1 ++ e2)).
    { eapply Permutation_trans; [apply (i_p _ _ _ _ _ _ H)|]. symmetry. apply Permutation_middle. }
    split; [exact HP|].
    assert (Hni : ~ In a (i1 ++ i2)).
    { destruct (g_i _ _ _ _ (i_G _ _ _ _ _ _ H)) as (Hnd & _). apply NoDup_remove_2 in Hnd. exact Hnd. }
    exists (updt tls k (t1 ++ t2)), (i1 ++ i2), (e1 ++ e2). constructor.
    - eapply G_free; [exact HG|rewrite Hob; apply upd_eq|reflexivity|exact Hni].
    - eapply Forall2_frame; [apply Forall2_app; eassumption|exact Hni|]. intros x Hx. cbn [free ob].
      rewrite upd_neq by exact Hx. rewrite Hob. apply upd_neq, Hx.
    - reflexivity.
    - intros x. cbn [free ob]. unfold upd at 1. destruct (Pos.eqb_spec x a) as [->|Hx]; [congruence|]. rewrite Hob, upd_neq by exact Hx.
      intros Hn. apply (i_all _ _ _ _ _ _ H) in Hn. apply in_app_or in Hn. apply in_or_app. destruct Hn as [|[|]]; [left; assumption|congruence|right; assumption].
    - cbn [free usecb ctr]. rewrite Hu. intros Hcb. destruct (i_ctr _ _ _ _ _ _ H Hcb) as (m & M1 & M2 & M3 & M4). exists m.
      assert (Hin : forall en, In en (e :: e1 ++ e2) -> In en live) by (intros en; apply Permutation_in; symmetry; exact HP).
      split; [destruct Hc as [->| ->]; [exact M1|apply M4, Hin; left; reflexivity]|].
      repeat split; try assumption. intros en Hen. apply M4, Hin. right. exact Hen.
  Qed.

  Lemma describe_descr s a e : descr s a e -> describe s a = Ret (Some e).
  Proof. intros H. unfold describe. rewrite H. destruct e as [[k key] id]. reflexivity. Qed.

  Lemma step_ok s live n o : TI s live n ->
    exists r s' live', step cmp s o = Ret (r, s') /\ spec_step cmp (usecb s) live n o r live' /\
      TI s' live' (n + count_create o) /\ usecb s' = usecb s.
  Proof.
    intros (tls & ids & ents & H). pose proof (i_G _ _ _ _ _ _ H) as HG.
    destruct o as [k key answers|k key|id|k key|id]; cbn [step count_create]; rewrite ?N.add_0_r.
    - (* create *)
      set (e := brk s). set (s0 := snd (malloc s key)).
      change (malloc s key) with (e, s0). cbv beta iota zeta.
      assert (H0 : G s0 tls ids) by (apply G_malloc, HG).
      assert (Ho : ob s0 e = Some (mkobj 0 None key)) by (apply upd_eq).
      assert (Hf0 : forall x, x <> e -> ob s0 x = ob s x) by (intros x Hx; apply upd_neq, Hx).
      assert (Hne : ob s e = None).
      { destruct (ob s e) eqn:Ex; [|reflexivity]. exfalso. assert (ob s e <> None) as Hx by congruence.
        apply (g_brk _ _ _ _ HG) in Hx. subst e. lia. }
      assert (Hni : ~ In e ids).
      { intros Hin. destruct (g_ii _ _ _ _ HG e Hin) as (x & Ex & _). congruence. }
      assert (Hr0 : idrel s0 ids (map e_id live)).
      { eapply idrel_frame; [|exact Hni|exact Hf0]. intros id. apply (live_ids _ _ _ _ _ _ id H). }
      assert (Hloose : forall s1, G s1 tls ids -> loose s0 s1 e key ->
         (usecb s = false -> exists m, ctr s1 <= m /\ m <= u32_max /\ m <= n + 1 /\ forall en, In en live -> e_id en <= m) ->
         TI (free s1 e) live (n + 1) /\ usecb (free s1 e) = usecb s).
      { intros s1 G1 (F1 & U1 & B1 & o1 & Eo1 & P1 & _) M1. split; [|cbn; exact U1].
        exists tls, ids, ents. eapply free_ok; [exact H|exact G1| |exact Eo1|exact P1|exact Hni|].
        - intros x Hx. rewrite F1 by exact Hx. apply Hf0, Hx.
        - rewrite U1. exact M1. }
      unfold id_allocate. change (usecb s0) with (usecb s). destruct (usecb s) eqn:Ecb.
      + pose proof (alloc_cb_spec answers s0 tls ids live e _ H0 Ho eq_refl Hni Hr0) as Ha. cbn [okey] in Ha.
        destruct (cb_choice live answers) as [[|p]|x] eqn:Ech.
        * destruct Ha as (s1 & E1 & G1 & L1). rewrite E1. cbn [bind is_success]. eexists. exists (free s1 e), live. split; [reflexivity|].
          split; [apply sp_create_cb_zero; auto|]. apply Hloose; auto. discriminate.
        * destruct Ha as (Hnl & Hmx & s1 & l1 & l2 & Ei & E1 & G1 & L1). rewrite E1. cbn [bind is_success].
          destruct (create_tail s live n tls ids ents key k s0 s1 e (N.pos p) l1 l2 H eq_refl eq_refl) as (r & s' & live' & Er & Hc & HT & Hu); auto.
          { destruct L1 as (_ & U & _). exact U. }
          { discriminate. }
          { rewrite Ecb. discriminate. }
          exists r, s', live'. split; [exact Er|]. split; [|split; [exact HT|rewrite Hu; exact Ecb]].
          destruct Hc as [(-> & -> & Hnk)|(-> & -> & en & Hen & Hk)].
          -- apply sp_create_ok; auto; [discriminate|]. intros en Hen Heq. apply Hnl. apply in_map_iff. exists en. auto.
          -- eapply sp_create_dup; eauto.
        * destruct Ha as (s1 & E1 & G1 & L1). rewrite E1. cbn [bind is_success]. eexists. exists (free s1 e), live. split; [reflexivity|].
          split; [apply sp_create_cb_error; auto|]. apply Hloose; auto. discriminate.
      + destruct (i_ctr _ _ _ _ _ _ H Ecb) as (m & M1 & M2 & M3 & M4).
        destruct (alloc_ctr_spec (map e_id live) m M2) with (fuel := fuel_of s0) (s := s0) (tls := tls) (ids := ids) (e := e) (o := mkobj 0 (@None N) key)
          as [(s1 & E1 & G1 & L1 & C1 & Em)|(id & s1 & l1 & l2 & Z1 & Z2 & Z3 & Z4 & Ei & E1 & G1 & L1 & C1)]; auto.
        { intros i Hi. apply in_map_iff in Hi. destruct Hi as (en & <- & Hen). apply M4, Hen. }
        { assert (Hl : (length (map e_id live) < fuel_of s)%nat).
          { rewrite map_length, (Permutation_length (i_p _ _ _ _ _ _ H)), <- (Forall2_length _ _ _ (i_d _ _ _ _ _ _ H)).
            apply (ids_len cmp s tls ids HG). }
          pose proof (filter_length_le (fun i => ctr s0 <? i) (map e_id live)). unfold fuel_of in *. change (brk s0) with (Pos.succ (brk s)). lia. }
        * rewrite E1. cbn [bind is_success]. eexists. exists (free s1 e), live. split; [reflexivity|].
          split; [apply sp_create_exhausted; auto; lia|]. apply Hloose; auto. intros _. exists m.
          rewrite C1. split; [lia|]. split; [lia|]. split; [lia|exact M4].
        * rewrite E1. cbn [bind is_success]. cbn [okey] in L1.
          destruct (create_tail s live n tls ids ents key k s0 s1 e id l1 l2 H eq_refl eq_refl) as (r & s' & live' & Er & Hc & HT & Hu); auto.
          { destruct L1 as (_ & U & _). exact U. }
          { intros _. exists (N.max m id). rewrite C1. repeat split; try lia. intros en Hen. specialize (M4 en Hen). lia. }
          exists r, s', live'. split; [exact Er|]. split; [|split; [exact HT|rewrite Hu; exact Ecb]].
          destruct Hc as [(-> & -> & Hnk)|(-> & -> & en & Hen & Hk)].
          -- apply sp_create_ok; auto; [|discriminate]. intros en Hen Heq. apply Z4. apply in_map_iff. exists en. auto.
          -- eapply sp_create_dup; eauto.
    - (* delete by key *)
      destruct (seek_found s live n tls ids ents k key H) as [(e & a & t1 & t2 & i1 & i2 & e1 & e2 & Hk & Hd & Et & Ei & Ee & D1 & D2 & Eg)|(Hno & Eg)].
      + rewrite Eg. cbn [bind]. rewrite (describe_descr _ _ _ Hd). cbn [bind].
        subst ids ents. assert (Hek : e_kind e = k) by apply Hk.
        destruct (delete_1_spec_id cmp TO s tls i1 i2 k t1 t2 a _ HG Et Hd) as (s' & Es & HG' & Hob & Hc & Hu & Hb); [cbn; congruence|].
        rewrite Es. cbn [bind is_success].
        destruct (delete_inv s s' live n tls i1 i2 e1 e2 e a k t1 t2 H Et Hd D1 D2 HG' Hob Hc Hu) as (HP & HT).
        eexists. exists (free s' a), (e1 ++ e2). split; [reflexivity|]. split; [apply sp_delete_ok; assumption|]. split; [exact HT|exact Hu].
      + rewrite Eg. cbn [bind]. eexists. exists s, live. split; [reflexivity|]. split; [apply sp_delete_none, Hno|].
        split; [exists tls, ids, ents; exact H|reflexivity].
    - (* delete by id *)
      destruct (N.eq_dec id 0) as [->|Hz].
      { cbn [get_by_id N.eqb bind]. eexists. exists s, live. split; [reflexivity|]. split; [apply sp_deleteid_zero|].
        split; [exists tls, ids, ents; exact H|reflexivity]. }
      destruct (seekid_found s live n tls ids ents id H Hz) as [(e & a & k & t1 & t2 & i1 & i2 & e1 & e2 & Hid & Hk & Hd & Et & Ei & Ee & D1 & D2 & Eg)|(Hno & Eg)].
      + rewrite Eg. cbn [bind]. rewrite (describe_descr _ _ _ Hd). cbn [bind].
        subst ids ents. 
        destruct (delete_by_id_1_spec cmp TO s tls i1 i2 a _ HG Hd) as (s1 & Es1 & HG1 & Hob1 & Hc1 & Hu1 & Hb1 & _). cbn [opar okey oid] in *.
        rewrite Es1. cbn [bind is_success]. assert (Hoa : ob s1 a = Some (mkobj 0 (Some (e_kind e)) (e_key e))) by (rewrite Hob1; apply upd_eq).
        rewrite Hoa. cbn [ub_none bind opar].
        destruct (delete_1_spec_noid cmp TO s1 tls (i1 ++ i2) k t1 t2 a _ HG1 Et Hoa) as (s' & Es & HG' & Hob & Hc & Hu & Hb); [cbn; congruence|reflexivity|].
        rewrite Es. cbn [bind is_success okey] in *.
        destruct (delete_inv s s' live n tls i1 i2 e1 e2 e a k t1 t2 H Et Hd D1 D2 HG') as (HP & HT).
        { intros x. rewrite Hob. unfold upd. destruct (Pos.eqb_spec x a) as [->|Hx]; [reflexivity|]. rewrite Hob1. apply upd_neq, Hx. }
        { rewrite Hc. exact Hc1. }
        { congruence. }
        eexists. exists (free s' a), (e1 ++ e2). split; [reflexivity|]. split; [subst id; apply sp_deleteid_ok; assumption|].
        split; [exact HT|]. cbn [free usecb]. congruence.
      + rewrite Eg. cbn [bind]. eexists. exists s, live. split; [reflexivity|]. split; [apply sp_deleteid_none; assumption|].
        split; [exists tls, ids, ents; exact H|reflexivity].
    - (* get *)
      destruct (seek_found s live n tls ids ents k key H) as [(e & a & t1 & t2 & i1 & i2 & e1 & e2 & Hk & Hd & Et & Ei & Ee & D1 & D2 & Eg)|(Hno & Eg)].
      + rewrite Eg. cbn [bind]. rewrite (describe_descr _ _ _ Hd). cbn [bind]. eexists. exists s, live. split; [reflexivity|]. split.
        * apply sp_get_ok; [|exact Hk]. apply (Permutation_in _ (Permutation_sym (i_p _ _ _ _ _ _ H))). rewrite Ee. apply in_or_app. right. left. reflexivity.
        * split; [exists tls, ids, ents; exact H|reflexivity].
      + rewrite Eg. cbn [bind]. eexists. exists s, live. split; [reflexivity|]. split; [apply sp_get_none, Hno|].
        split; [exists tls, ids, ents; exact H|reflexivity].
    - (* get by id *)
      destruct (N.eq_dec id 0) as [->|Hz].
      { cbn [get_by_id N.eqb bind]. eexists. exists s, live. split; [reflexivity|]. split; [apply sp_getid_zero|].
        split; [exists tls, ids, ents; exact H|reflexivity]. }
      destruct (seekid_found s live n tls ids ents id H Hz) as [(e & a & k & t1 & t2 & i1 & i2 & e1 & e2 & Hid & Hk & Hd & Et & Ei & Ee & D1 & D2 & Eg)|(Hno & Eg)].
      + rewrite Eg. cbn [bind]. rewrite (describe_descr _ _ _ Hd). cbn [bind]. eexists. exists s, live. split; [reflexivity|]. split.
        * subst id. apply sp_getid_ok; [|exact Hz]. apply (Permutation_in _ (Permutation_sym (i_p _ _ _ _ _ _ H))). rewrite Ee. apply in_or_app. right. left. reflexivity.
        * split; [exists tls, ids, ents; exact H|reflexivity].
      + rewrite Eg. cbn [bind]. eexists. exists s, live. split; [reflexivity|]. split; [apply sp_getid_none; assumption|].
        split; [exists tls, ids, ents; exact H|reflexivity].
  Qed.

  Lemma init_ok cb : TI (tinit cb) [] 0.
  Proof.
    exists (fun _ => []), [], []. constructor.
    - assert (D : dll (fun _ => None) (mklhdr None None) []) by (repeat split; constructor).
      constructor; try (cbn; intros; contradiction || discriminate || congruence || reflexivity || tauto || (constructor; fail)).
    - constructor.
    - constructor.
    - cbn. congruence.
    - intros _. exists 0. cbn. unfold u32_max. repeat split; try lia.
  Qed.

  Lemma run_ok ops : forall s live n, TI s live n ->
    exists rs s' live', run cmp s ops = Ret (rs, s') /\ spec_run cmp (usecb s) live n ops rs live' /\
      (exists n', TI s' live' n') /\ usecb s' = usecb s.
  Proof.
    induction ops as [|o ops IH]; intros s live n H; cbn [run].
    - exists [], s, live. split; [reflexivity|]. split; [constructor|]. split; [exists n; exact H|reflexivity].
    - destruct (step_ok s live n o H) as (r & s1 & live1 & E1 & S1 & H1 & U1). rewrite E1. cbn [bind].
      destruct (IH s1 live1 _ H1) as (rs & s2 & live2 & E2 & S2 & H2 & U2). rewrite E2. cbn [bind].
      exists (r :: rs), s2, live2. split; [reflexivity|]. rewrite U1 in *. split; [econstructor; eauto|]. split; [exact H2|exact U2].
  Qed.

  (** What the invariant says about observations. *)
  Lemma describe_all_map (s : tst) l d : describe_all s l = Some d <-> map (fun a => option_map (fun o => (okey o, oid o)) (ob s a)) l = map Some d.
  Proof.
    revert d. induction l as [|a l IH]; intros d; cbn [describe_all map].
    - split; [intros E; assert (d = []) by congruence; subst; reflexivity|]. destruct d; [reflexivity|discriminate].
    - destruct (ob s a) as [o|]; cbn [option_map].
      + destruct (describe_all s l) as [d'|] eqn:Ed.
        * split.
          -- intros E. assert (d = (okey o, oid o) :: d') by congruence. subst. cbn [map]. f_equal. apply IH. reflexivity.
          -- destruct d as [|x d]; [discriminate|]. cbn [map]. intros E. inversion E as [[E1 E2]]. apply IH in E2. congruence.
        * split; [discriminate|]. destruct d as [|x d]; [discriminate|]. cbn [map]. intros E. inversion E as [[E1 E2]]. apply IH in E2. discriminate.
      + split; [discriminate|]. destruct d; discriminate.
  Qed.

  Definition isk (s : tst) k a : bool := match ob s a with Some o => match opar o with Some k' => k' =? k | None => false end | None => false end.
  Lemma table_filter s k ids ents : Forall2 (descr s) ids ents ->
    map (fun a => option_map (fun o => (okey o, oid o)) (ob s a)) (filter (isk s k) ids) = map Some (table_of k ents).
  Proof.
    unfold table_of. induction 1 as [|a e ids ents H1 H2 IH]; [reflexivity|]. cbn [filter]. unfold isk at 1. rewrite H1. cbn [opar].
    destruct (e_kind e =? k); [|exact IH]. cbn [map]. rewrite IH, H1. reflexivity.
  Qed.

  Lemma table_of_perm k (l1 l2 : list entry) : Permutation l1 l2 -> Permutation (table_of k l1) (table_of k l2).
  Proof.
    intros H. unfold table_of. apply Permutation_map. induction H; cbn [filter].
    - constructor.
    - destruct (e_kind x =? k); [constructor|]; assumption.
    - destruct (e_kind x =? k), (e_kind y =? k); try apply Permutation_refl. apply perm_swap.
    - eapply Permutation_trans; eauto.
  Qed.

  Lemma iter_ok s live n k : TI s live n ->
    exists l, iter_fwd s k = Some l /\ iter_bwd s k = Some (rev l) /\ strictly_sorted cmp k l /\ Permutation l (table_of k live) /\
      n_ents (th s k) = N.of_nat (length l).
  Proof.
    intros (tls & ids & ents & H). pose proof (i_G _ _ _ _ _ _ H) as HG.
    destruct (g_t _ _ _ _ HG k) as (Hnd & Hh & Ht & Hs). pose proof (tls_len cmp s tls ids k HG) as Hlen.
    set (g := fun a => option_map (fun o => (okey o, oid o)) (ob s a)).
    assert (HP : Permutation (tls k) (filter (isk s k) ids)).
    { apply NoDup_Permutation; [exact Hnd|apply NoDup_filter, (g_i _ _ _ _ HG)|]. intros a. rewrite filter_In. unfold isk. split.
      - intros Ha. destruct (g_in _ _ _ _ HG k a Ha) as (o & Eo & Hp). split; [apply (i_all _ _ _ _ _ _ H); congruence|]. rewrite Eo, Hp. apply N.eqb_refl.
      - intros (Ha & Hk). destruct (ob s a) as [o|] eqn:Eo; [|discriminate]. destruct (opar o) as [k'|] eqn:Ep; [|discriminate].
        apply N.eqb_eq in Hk. subst. eapply (g_par _ _ _ _ HG); eauto. }
    assert (HPm : Permutation (map Some (table_of k ents)) (map g (tls k))).
    { rewrite <- (table_filter s k ids ents (i_d _ _ _ _ _ _ H)). apply Permutation_map. symmetry. exact HP. }
    apply Permutation_sym, Permutation_map_inv in HPm. destruct HPm as (l & El & Pl).
    assert (Hsub : forall l, (length (filter (isk s k) l) <= length l)%nat) by (intros; apply filter_length_le).
    exists l. repeat apply conj.
    - unfold iter_fwd. rewrite Hh. rewrite (walk_next_seg _ _ None) by (eassumption || lia). apply describe_all_map. exact El.
    - unfold iter_bwd. rewrite Ht. rewrite (walk_prev_seg _ _ None) by (eassumption || lia). apply describe_all_map.
      rewrite !map_rev. f_equal. exact El.
    - unfold strictly_sorted. pose proof (g_ts _ _ _ _ HG k) as Hss. clear -El Hss. revert l El. induction (tls k) as [|a t IH]; intros l El.
      + destruct l; [constructor|discriminate].
      + destruct l as [|x l]; [discriminate|]. cbn [map] in El. inversion El as [[E1 E2]]. apply StronglySorted_inv in Hss. destruct Hss as [S1 S2].
        constructor; [apply IH; assumption|]. rewrite Forall_forall in *. intros y Hy.
        assert (Hy' : In (Some y) (map g t)) by (rewrite E2; apply in_map, Hy). apply in_map_iff in Hy'. destruct Hy' as (b & Eb & Hb).
        destruct (S2 b Hb) as (oa & ob' & Ea & Eob & Hlt). unfold g in E1, Eb. rewrite Ea in E1. rewrite Eob in Eb. cbn [option_map] in *.
        assert (x = (okey oa, oid oa)) by congruence. assert (y = (okey ob', oid ob')) by congruence. subst. exact Hlt.
    - apply Permutation_sym. eapply Permutation_trans; [apply table_of_perm, (i_p _ _ _ _ _ _ H)|]. exact Pl.
    - rewrite (g_nt _ _ _ _ HG k). assert (Hl : length l = length (tls k)) by (rewrite <- (map_length Some l), <- El, map_length; reflexivity).
      rewrite Hl. unfold u32. apply N.mod_small.
      assert (Hid : (length (map e_id ents) <= N.to_nat u32_max)%nat).
      { assert (Hndi : NoDup (map e_id ents)).
        { pose proof (g_is _ _ _ _ HG) as Hss. pose proof (i_d _ _ _ _ _ _ H) as Hd. clear -Hss Hd.
          induction Hd as [|a e ids ents D1 D2 IH]; [constructor|]. apply StronglySorted_inv in Hss. destruct Hss as [S1 S2]. cbn [map].
          constructor; [|apply IH, S1]. intros Hin. apply in_map_iff in Hin. destruct Hin as (e' & Ee & He').
          rewrite Forall_forall in S2. assert (Hx : exists a', In a' ids /\ descr s a' e').
          { clear -D2 He'. induction D2; destruct He'; [subst; eexists; split; [left; reflexivity|assumption]|].
            destruct IHD2 as (a' & ? & ?); [assumption|]. exists a'. split; [right|]; assumption. }
          destruct Hx as (a' & Ha' & Hd'). destruct (S2 a' Ha') as (o1 & o2 & E1 & E2 & Hlt). unfold descr in *.
          rewrite D1 in E1. rewrite Hd' in E2. assert (o1 = mkobj (e_id e) (Some (e_kind e)) (e_key e)) by congruence.
          assert (o2 = mkobj (e_id e') (Some (e_kind e')) (e_key e')) by congruence. subst. cbn [oid] in Hlt. lia. }
        assert (Hb : (length (map N.succ_pos (map e_id ents)) < Pos.to_nat (N.succ_pos (u32_max + 1)))%nat).
        { apply nodup_bounded.
          - apply FinFun.Injective_map_NoDup; [|exact Hndi]. intros x y Hxy. apply (f_equal N.pos) in Hxy. rewrite !N.succ_pos_spec in Hxy. lia.
          - intros a Ha. apply in_map_iff in Ha. destruct Ha as (i & <- & Hi). apply in_map_iff in Hi. destruct Hi as (e & <- & He).
            assert (He' : In e live) by (apply (Permutation_in _ (Permutation_sym (i_p _ _ _ _ _ _ H))); exact He).
            pose proof (live_id_range _ _ _ _ _ _ _ H He'). pose proof (N.succ_pos_spec (e_id e)). pose proof (N.succ_pos_spec (u32_max + 1)). lia. }
        rewrite map_length in Hb. pose proof (N.succ_pos_spec (u32_max + 1)) as Hsp. 
        assert (Hz : forall x, In x (map e_id ents) -> x <> 0).
        { intros x Hx ->. apply in_map_iff in Hx. destruct Hx as (e & E0 & He).
          assert (He' : In e live) by (apply (Permutation_in _ (Permutation_sym (i_p _ _ _ _ _ _ H))); exact He).
          pose proof (live_id_range _ _ _ _ _ _ _ H He'). lia. }
        assert (Hb2 : (length (0%N :: map e_id ents) < Pos.to_nat (N.succ_pos (u32_max + 1)))%nat).
        { rewrite <- (map_length N.succ_pos). apply nodup_bounded.
          - apply FinFun.Injective_map_NoDup. { intros x y Hxy. apply (f_equal N.pos) in Hxy. rewrite !N.succ_pos_spec in Hxy. lia. }
            constructor; [intros Hin; apply (Hz 0 Hin); reflexivity|exact Hndi].
          - intros a Ha. apply in_map_iff in Ha. destruct Ha as (i & <- & [<-|Hi]).
            + pose proof (N.succ_pos_spec 0). lia.
            + apply in_map_iff in Hi. destruct Hi as (e & <- & He).
              assert (He' : In e live) by (apply (Permutation_in _ (Permutation_sym (i_p _ _ _ _ _ _ H))); exact He).
              pose proof (live_id_range _ _ _ _ _ _ _ H He'). pose proof (N.succ_pos_spec (e_id e)). lia. }
        cbn [length] in Hb2. lia. }
      rewrite map_length, <- (Forall2_length _ _ _ (i_d _ _ _ _ _ _ H)) in Hid.
      pose proof (Permutation_length HP). specialize (Hsub ids). unfold u32_max in Hid. lia.
  Qed.

  Lemma consistent_ok s live n : TI s live n -> consistent cmp live.
  Proof.
    intros (tls & ids & ents & H). pose proof (i_G _ _ _ _ _ _ H) as HG. 
    assert (Hndi : NoDup (map e_id ents)).
    { pose proof (g_is _ _ _ _ HG) as Hss. pose proof (i_d _ _ _ _ _ _ H) as Hd. clear -Hss Hd.
      induction Hd as [|a e ids ents D1 D2 IH]; [constructor|]. apply StronglySorted_inv in Hss. destruct Hss as [S1 S2]. cbn [map].
      constructor; [|apply IH, S1]. intros Hin. apply in_map_iff in Hin. destruct Hin as (e' & Ee & He').
      rewrite Forall_forall in S2. assert (Hx : exists a', In a' ids /\ descr s a' e').
      { clear -D2 He'. induction D2; destruct He'; [subst; eexists; split; [left; reflexivity|assumption]|].
        destruct IHD2 as (a' & ? & ?); [assumption|]. exists a'. split; [right|]; assumption. }
      destruct Hx as (a' & Ha' & Hd'). destruct (S2 a' Ha') as (o1 & o2 & E1 & E2 & Hlt). unfold descr in *.
      rewrite D1 in E1. rewrite Hd' in E2. assert (o1 = mkobj (e_id e) (Some (e_kind e)) (e_key e)) by congruence.
      assert (o2 = mkobj (e_id e') (Some (e_kind e')) (e_key e')) by congruence. subst. cbn [oid] in Hlt. lia. }
    assert (HndL : NoDup (map e_id live)).
    { eapply Permutation_NoDup; [|exact Hndi]. apply Permutation_map, Permutation_sym, (i_p _ _ _ _ _ _ H). }
    split; [exact HndL|]. split; [intros e He; eapply live_id_range; eauto|].
    intros l1 e1 l2 e2 l3 El Hk Hc.
    assert (I1 : In e1 live) by (rewrite El; apply in_or_app; right; left; reflexivity).
    assert (I2 : In e2 live) by (rewrite El; apply in_or_app; right; right; apply in_or_app; right; left; reflexivity).
    destruct (live_addr _ _ _ _ _ _ _ H I1) as (a1 & A1 & D1). destruct (live_addr _ _ _ _ _ _ _ H I2) as (a2 & A2 & D2).
    assert (T1 : In a1 (tls (e_kind e1))) by (eapply (g_par _ _ _ _ HG); [exact D1|reflexivity]).
    assert (T2 : In a2 (tls (e_kind e1))) by (eapply (g_par _ _ _ _ HG); [exact D2|cbn; congruence]).
    assert (Hid : e_id e1 <> e_id e2).
    { rewrite El, map_app in HndL. cbn [map] in HndL. rewrite map_app in HndL. cbn [map] in HndL. apply NoDup_remove_2 in HndL.
      intros E. apply HndL. rewrite E. apply in_or_app. right. apply in_or_app. right. left. reflexivity. }
    destruct (Pos.eq_dec a1 a2) as [->|Hna].
    { unfold descr in D1, D2. rewrite D1 in D2. apply Hid. congruence. }
    pose proof (g_ts _ _ _ _ HG (e_kind e1)) as Hs.
    assert (Hlt : klt cmp s (e_kind e1) a1 a2 \/ klt cmp s (e_kind e1) a2 a1).
    { clear -T1 T2 Hs Hna. induction (tls (e_kind e1)) as [|b t IH]; [contradiction|]. apply StronglySorted_inv in Hs. destruct Hs as [S1 S2].
      rewrite Forall_forall in S2. destruct T1 as [->|T1], T2 as [->|T2]; try congruence; auto. }
    unfold klt in Hlt. unfold descr in D1, D2. 
    destruct Hlt as [(oa & ob' & Ea & Eb & Hlt)|(oa & ob' & Ea & Eb & Hlt)]; rewrite D1 in *; rewrite D2 in *;
      inversion Ea; inversion Eb; subst; cbn [okey] in Hlt.
    - lia.
    - apply (cmp_sym0 cmp TO) in Hc. lia.
  Qed.

  Lemma sorted_perm_eq k l1 l2 : strictly_sorted cmp k l1 -> strictly_sorted cmp k l2 -> Permutation l1 l2 -> l1 = l2.
  Proof.
    unfold strictly_sorted. revert l2. induction l1 as [|a l1 IH]; intros l2 S1 S2 P.
    - apply Permutation_nil in P. congruence.
    - destruct l2 as [|b l2]; [apply Permutation_sym, Permutation_nil in P; discriminate|].
      apply StronglySorted_inv in S1, S2. destruct S1 as [S1 F1], S2 as [S2 F2]. rewrite Forall_forall in *.
      assert (a = b).
      { assert (Ia : In a (b :: l2)) by (eapply Permutation_in; [exact P|left; reflexivity]).
        assert (Ib : In b (a :: l1)) by (eapply Permutation_in; [symmetry; exact P|left; reflexivity]).
        destruct Ia as [E|Ia]; [congruence|]. destruct Ib as [E|Ib]; [congruence|].
        specialize (F1 _ Ib). specialize (F2 _ Ia). pose proof (proj2 (cmp_pos_neg cmp TO k (fst a) (fst b)) F2). lia. }
      subst b. f_equal. apply IH; [exact S1|exact S2|]. eapply Permutation_cons_inv. exact P.
  Qed.
End H.
