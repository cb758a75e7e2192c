(** Two contexts with the same live objects, ID callback and ID counter answer every later call alike. *)
From Verif Require Import Base Links LinksProofs Table TableSpec TableProofs TableHist.
From Coq Require Import Permutation Sorted.
Open Scope N_scope.

Ltac inv_bind H := match type of H with bind ?m _ = Ret _ => let E := fresh "E" in let v := fresh "v" in destruct m as [v| |] eqn:E; cbn [bind] in H; [|discriminate|discriminate] end.

Section S.
  Context {K : Type}.
  Variable cmp : N -> K -> K -> Z.
  Hypothesis TO : forall k, total_order (cmp k).
  Notation tst := (tst K).
  Notation entry := (@entry K).
  Notation TI := (TI cmp).
  Notation G := (TableProofs.G cmp).

  (** Counter after the by-ID deletion of an object with ID [id]. *)
  Definition reclaim (cb : bool) (id c : N) : N := if negb cb && (id =? u32 (c + u32_max)) then u32 (c + u32_max) else c.

  Lemma dbi_ctr (s : tst) a er s' : delete_by_id_1 s a = Ret (er, s') ->
    usecb s' = usecb s /\ exists o, ob s a = Some o /\ (is_success er = true -> oid o <> 0 /\ ctr s' = reclaim (usecb s) (oid o) (ctr s)).
  Proof.
    unfold delete_by_id_1. intros H. destruct (ob s a) as [o|] eqn:Eo; [|discriminate]. cbn [ub_none bind] in H.
    destruct (N.eqb_spec (oid o) 0) as [Z|NZ].
    - injection H as <- <-. split; [reflexivity|]. exists o. split; [reflexivity|discriminate].
    - inv_bind H. destruct v as [h hd]. injection H as <- <-. unfold reclaim.
      set (s1 := set_il s _ _). change (usecb s1) with (usecb s). change (ctr s1) with (ctr s). destruct (negb (usecb s) && (oid o =? u32 (ctr s + u32_max))) eqn:X;
      (split; [reflexivity|]; exists o; split; [reflexivity|]; intros _; split; [exact NZ|]; rewrite ?X; reflexivity).
  Qed.
  Lemma tei_ctr (s : tst) k a er s' : table_ent_insert cmp s k a = Ret (er, s') ->
    (er = OK -> ctr s' = ctr s) /\ (er = ITEM_ALREADY_PRESENT -> exists o, ob s a = Some o /\ ctr s' = reclaim (usecb s) (oid o) (ctr s)).
  Proof.
    unfold table_ent_insert. intros H. inv_bind H. destruct (N.eqb_spec (oid v) 0) as [Z|NZ].
    { injection H as <- <-. split; intros X; discriminate. }
    inv_bind H.
    assert (HL : forall r : option (addr * Z), bind (ub_none (link_before (tl s) (tlh (th s k)) (option_map fst r) a)) (fun '(h, hd) =>
        Ret (OK, set_ob (set_tl s h k (mkth hd (u32 (n_ents (th s k) + 1)) (u32 (n_inserts (th s k) + 1)) (n_deletes (th s k)))) a
                   (mkobj (oid v) (Some k) (okey v)))) = Ret (er, s') -> er = OK /\ ctr s' = ctr s).
    { intros r X. inv_bind X. destruct v1 as [h hd]. injection X as <- <-. split; reflexivity. }
    assert (HD : bind (delete_by_id_1 s a) (fun '(e, s) => if is_success e then Ret (ITEM_ALREADY_PRESENT, s) else Ret (e, s)) = Ret (er, s') ->
       exists o, ob s a = Some o /\ (er = OK -> False) /\ (er = ITEM_ALREADY_PRESENT -> ctr s' = reclaim (usecb s) (oid o) (ctr s))).
    { intros X. inv_bind X. destruct v1 as [e s1]. destruct (dbi_ctr _ _ _ _ E1) as (_ & o & Eo & F). exists o. split; [exact Eo|].
      destruct (is_success e) eqn:Es; injection X as <- <-.
      - split; [discriminate|]. intros _. apply F. reflexivity.
      - split; [intros ->; discriminate|]. intros ->. exfalso. clear -E1 Es. unfold delete_by_id_1 in E1. inv_bind E1.
        destruct (oid v =? 0); [discriminate|]. inv_bind E1. destruct v0. discriminate. }
    destruct v0 as [[b [|p|p]]|].
    - destruct (HD H) as (o & Eo & F1 & F2). split; [intros X; destruct (F1 X)|intros X; exists o; auto].
    - destruct (HL (Some (b, Z.pos p)) H) as [-> C]. split; [auto|discriminate].
    - destruct (HL (Some (b, Z.neg p)) H) as [-> C]. split; [auto|discriminate].
    - destruct (HL None H) as [-> C]. split; [auto|discriminate].
  Qed.
  Lemma d1_ctr (s : tst) a er s' o : delete_1 s a = Ret (er, s') -> ob s a = Some o -> is_success er = true ->
    usecb s' = usecb s /\ ctr s' = if oid o =? 0 then ctr s else reclaim (usecb s) (oid o) (ctr s).
  Proof.
    unfold delete_1. intros H Eo Es. rewrite Eo in H. cbn [ub_none bind] in H. destruct (opar o) as [k|]; [|injection H as <- <-; discriminate].
    inv_bind H. destruct v as [h hd]. destruct (N.eqb_spec (oid o) 0) as [Z|NZ].
    - injection H as <- <-. split; reflexivity.
    - apply dbi_ctr in H. destruct H as (U & o' & Eo' & F). unfold set_ob in Eo'. cbn [ob] in Eo'. rewrite upd_eq in Eo'. injection Eo' as <-.
      destruct (F Es) as (_ & C). split; [exact U|exact C].
  Qed.

  (** Calls other than creations: the counter changes only by reclaiming the ID of a deleted object. *)
  Lemma describe_some (s : tst) a e : describe s a = Ret (Some e) -> exists o, ob s a = Some o /\ oid o = e_id e.
  Proof.
    unfold describe. intros H. inv_bind H. destruct (ob s a) as [o|]; [|discriminate]. cbn [ub_none] in E. injection E as <-.
    destruct (opar o); [|discriminate]. injection H as <-. exists o. split; reflexivity.
  Qed.
  Lemma delkey_ctr (s : tst) k key e s' : step cmp s (DeleteKey k key) = Ret ((OK, Some e), s') -> e_id e <> 0 -> ctr s' = reclaim (usecb s) (e_id e) (ctr s).
  Proof.
    cbn [step]. intros H NZ. inv_bind H. destruct v as [er [a|]]; [|congruence]. inv_bind H. inv_bind H. destruct v0 as [e0 s1].
    destruct (is_success e0) eqn:Es; [|congruence]. injection H as -> <-. destruct (describe_some _ _ _ E0) as (o & Eo & Ei).
    destruct (d1_ctr _ _ _ _ o E1 Eo Es) as (_ & C). rewrite Ei in C. cbn [free ctr]. rewrite (proj2 (N.eqb_neq _ _) NZ) in C. exact C.
  Qed.
  Lemma delid_ctr (s : tst) id e s' : step cmp s (DeleteId id) = Ret ((OK, Some e), s') -> ctr s' = reclaim (usecb s) (e_id e) (ctr s).
  Proof.
    cbn [step]. intros H. inv_bind H. destruct v as [er [a|]]; [|congruence]. inv_bind H. inv_bind H. destruct v0 as [e0 s1].
    destruct (is_success e0) eqn:Es; [|congruence]. inv_bind H.
    assert (D : describe s a = Ret (Some e) -> ctr s1 = reclaim (usecb s) (e_id e) (ctr s) /\ usecb s1 = usecb s /\ oid v0 = 0).
    { intros D. destruct (describe_some _ _ _ D) as (o & Eo & Ei). pose proof (dbi_ctr _ _ _ _ E1) as (U & o' & Eo' & F).
      assert (o' = o) by congruence. subst o'. destruct (F Es) as (_ & C). rewrite Ei in C. split; [exact C|]. split; [exact U|].
      clear -E1 E2 Es. unfold delete_by_id_1 in E1. inv_bind E1. destruct (oid v =? 0); [injection E1 as <- <-; discriminate|]. inv_bind E1. destruct v1 as [h hd].
      injection E1 as _ <-. unfold set_ob in E2. cbn [ob] in E2. rewrite upd_eq in E2. cbn in E2. injection E2 as <-. reflexivity. }
    destruct (opar v0).
    - inv_bind H. destruct v1 as [e1 s2]. destruct (is_success e1) eqn:Es1; [|congruence]. injection H as -> <-. destruct (D E0) as (C & U & Z).
      assert (Eo : ob s1 a = Some v0) by (destruct (ob s1 a); cbn in E2; congruence).
      destruct (d1_ctr _ _ _ _ _ E3 Eo Es1) as (_ & C2). rewrite Z in C2. cbn [free ctr]. cbn in C2. congruence.
    - injection H as -> <-. cbn [free ctr]. apply D. exact E0.
  Qed.

  (** ** The exact behaviour of a creation *)
  Inductive picks (L : list N) : N -> err -> N -> Prop :=
  | pk_zero c : u32 (c + 1) = 0 -> picks L c INVALID_ARG 0
  | pk_ok c : u32 (c + 1) <> 0 -> ~ In (u32 (c + 1)) L -> picks L c OK (u32 (c + 1))
  | pk_used c er c' : u32 (c + 1) <> 0 -> In (u32 (c + 1)) L -> picks L (u32 (c + 1)) er c' -> picks L c er c'.
  Lemma picks_det L L' c er c' er2 c2 : (forall i, In i L <-> In i L') -> picks L c er c' -> picks L' c er2 c2 -> er2 = er /\ c2 = c'.
  Proof.
    intros HL H. revert er2 c2. induction H as [c Z|c NZ NI|c er c' NZ HI H IH]; intros er2 c2 H2; inversion H2; subst; try congruence; auto.
    - exfalso. apply NI, HL. assumption.
    - exfalso. apply H1. apply HL. exact HI.
  Qed.

  Lemma alloc_ctr_picks L : forall fuel (s : tst) tls ids e o er s',
    G s tls ids -> ob s e = Some o -> opar o = None -> ~ In e ids -> idrel s ids L ->
    alloc_ctr fuel s e = Ret (er, s') -> picks L (ctr s) er (ctr s').
  Proof.
    induction fuel as [|fuel IH]; intros s tls ids e o er s' H Ho Hp Hni Hr E; [discriminate|].
    cbn [alloc_ctr] in E. rewrite Ho in E. cbn [ub_none bind] in E.
    set (c' := u32 (ctr s + 1)) in E. set (s0 := set_ctr s c') in E.
    change (ctr s0) with c' in E.
    set (s1 := set_ob s0 e (mkobj c' (opar o) (okey o))) in E.
    assert (H1 : G s1 tls ids).
    { eapply G_set_ob_loose; [apply G_set_ctr; exact H|exact Ho|exact Hp|exact Hp|exact Hni]. }
    assert (Ho1 : ob s1 e = Some (mkobj c' (opar o) (okey o))) by apply upd_eq.
    assert (Hf1 : forall x, x <> e -> ob s1 x = ob s x) by (intros x Hx; apply upd_neq, Hx).
    assert (Hr1 : idrel s1 ids L) by (eapply idrel_frame; eauto).
    assert (Hmx : c' <= u32_max) by (unfold c', u32, u32_max; pose proof (N.mod_upper_bound (ctr s + 1) 4294967296); lia).
    destruct (N.eq_dec c' 0) as [Hz|Hnz].
    - unfold insert_by_id in E. rewrite Ho1 in E. cbn [ub_none bind oid] in E. rewrite (proj2 (N.eqb_eq _ _) Hz) in E. cbn [bind] in E.
      injection E as <- <-. change (ctr s1) with c'. rewrite Hz. apply pk_zero. exact Hz.
    - destruct (insert_by_id_spec cmp TO s1 tls ids e _ H1 Ho1) as [((a & oa & Ha & Hoa & Hid) & Ei)|(Hno & s2 & l1 & l2 & E0 & E1 & E2 & Eob & Ec & Eu & Eb & _)]; cbn [oid]; try assumption.
      + rewrite Ei in E. cbn [bind] in E. cbn [oid] in Hid.
        assert (Hin : In c' L) by (apply Hr1; exists a, oa; auto).
        apply pk_used; [exact Hnz|exact Hin|]. change (u32 (ctr s + 1)) with (ctr s1). eapply IH; [exact H1|exact Ho1|exact Hp|exact Hni|exact Hr1|exact E].
      + rewrite E1 in E. cbn [bind] in E. injection E as <- <-. rewrite Ec. change (ctr s1) with c'. apply pk_ok; [exact Hnz|].
        intros Hin. apply Hr1 in Hin. destruct Hin as (a & oa & Ha & Hoa & Hid). eapply Hno; eauto.
  Qed.
  Lemma insert_by_id_ctr (s : tst) e er s' : insert_by_id s e = Ret (er, s') -> ctr s' = ctr s.
  Proof.
    unfold insert_by_id. intros H. inv_bind H. destruct (oid v =? 0); [congruence|]. inv_bind H.
    destruct v0 as [[b [|p|p]]|]; try (injection H as <- <-; reflexivity); inv_bind H; destruct v0; injection H as <- <-; reflexivity.
  Qed.
  Lemma alloc_cb_ctr : forall answers (s : tst) e er s', alloc_cb s e answers = Ret (er, s') -> ctr s' = ctr s.
  Proof.
    induction answers as [|[id|x] answers IH]; intros s e er s' H; cbn [alloc_cb] in H; inv_bind H; try (injection H as <- <-; reflexivity).
    inv_bind H. destruct v0 as [e0 s1]. apply insert_by_id_ctr in E0. change (ctr (set_ob s e (mkobj (u32 id) (opar v) (okey v)))) with (ctr s) in E0.
    destruct e0; try (injection H as <- <-; exact E0). rewrite <- E0. apply (IH _ _ _ _ H).
  Qed.

  Definition alloc_res (cb : bool) (live : list entry) (answers : list (N + N)) (c : N) (er : err) (id c1 : N) : Prop :=
    if cb then c1 = c /\ match cb_choice live answers with
                         | inr x => er = CALLBACK_ERROR x /\ id = 0
                         | inl 0 => er = INVALID_ARG /\ id = 0
                         | inl i => er = OK /\ id = i end
    else picks (map e_id live) c er c1 /\ id = c1.
  Lemma exact_create (s : tst) live n k key answers : TI s live n ->
    exists er id c1 r s' live', step cmp s (Create k key answers) = Ret (r, s') /\ TI s' live' (n + 1) /\ usecb s' = usecb s /\
      alloc_res (usecb s) live answers (ctr s) er id c1 /\
      ((is_success er = false /\ r = (er, None) /\ live' = live /\ ctr s' = c1) \/
       (er = OK /\ ((r = (OK, Some (k, key, id)) /\ live' = (k, key, id) :: live /\ (forall en, In en live -> ~ has_key cmp k key en) /\ ctr s' = c1) \/
                    (r = (ITEM_ALREADY_PRESENT, None) /\ live' = live /\ (exists en, In en live /\ has_key cmp k key en) /\ ctr s' = reclaim (usecb s) id c1)))).
  Proof.
    intros (tls & ids & ents & H). pose proof (i_G _ _ _ _ _ _ _ H) as HG. cbn [step].
    set (e := brk s). set (s0 := snd (malloc s key)).
    change (malloc s key) with (e, s0). cbv beta iota zeta.
    assert (H0 : G s0 tls ids) by (apply G_malloc, HG).
    assert (Ho : ob s0 e = Some (mkobj 0 None key)) by (apply upd_eq).
    assert (Hf0 : forall x, x <> e -> ob s0 x = ob s x) by (intros x Hx; apply upd_neq, Hx).
    assert (Hne : ob s e = None).
    { destruct (ob s e) eqn:Ex; [|reflexivity]. exfalso. assert (ob s e <> None) as Hx by congruence.
      apply (g_brk _ _ _ _ HG) in Hx. subst e. lia. }
    assert (Hni : ~ In e ids).
    { intros Hin. destruct (g_ii _ _ _ _ HG e Hin) as (x & Ex & _). congruence. }
    assert (Hr0 : idrel s0 ids (map e_id live)).
    { eapply idrel_frame; [|exact Hni|exact Hf0]. intros id. apply (live_ids _ _ _ _ _ _ _ id H). }
    assert (Hloose : forall s1, G s1 tls ids -> loose s0 s1 e key ->
       (usecb s = false -> exists m, ctr s1 <= m /\ m <= u32_max /\ m <= n + 1 /\ forall en, In en live -> e_id en <= m) ->
       TI (free s1 e) live (n + 1) /\ usecb (free s1 e) = usecb s).
    { intros s1 G1 (F1 & U1 & B1 & o1 & Eo1 & P1 & _) M1. split; [|cbn; exact U1].
      exists tls, ids, ents. eapply free_ok; [exact H|exact G1| |exact Eo1|exact P1|exact Hni|].
      - intros x Hx. rewrite F1 by exact Hx. apply Hf0, Hx.
      - rewrite U1. exact M1. }
    assert (Htail : forall s1 id, ob s1 e = Some (mkobj id None key) -> usecb s1 = usecb s -> forall r s' (live' : list entry),
      (let* (e0, s) := table_ent_insert cmp s1 k e in
        if is_success e0 then let* d := describe s e in Ret ((OK, d), s) else Ret ((e0, None), free s e)) = Ret (r, s') ->
      ((r = (OK, Some (k, key, id)) /\ live' = (k, key, id) :: live /\ (forall en, In en live -> ~ has_key cmp k key en)) \/
       (r = (ITEM_ALREADY_PRESENT, None) /\ live' = live /\ exists en, In en live /\ has_key cmp k key en)) ->
      ((r = (OK, Some (k, key, id)) /\ live' = (k, key, id) :: live /\ (forall en, In en live -> ~ has_key cmp k key en) /\ ctr s' = ctr s1) \/
       (r = (ITEM_ALREADY_PRESENT, None) /\ live' = live /\ (exists en, In en live /\ has_key cmp k key en) /\ ctr s' = reclaim (usecb s) id (ctr s1)))).
    { intros s1 id Eo U r s' live' Er Hc. inv_bind Er. destruct v as [e0 s2]. destruct (tei_ctr _ _ _ _ _ E) as [T1 T2].
      destruct Hc as [(-> & -> & Hnk)|(-> & -> & en)].
      - left. split; [reflexivity|]. split; [reflexivity|]. split; [exact Hnk|]. destruct (is_success e0) eqn:Es; [|congruence].
        inv_bind Er. injection Er as X <-. apply T1.
        clear -E Es Eo. unfold table_ent_insert in E. rewrite Eo in E. cbn [ub_none bind oid] in E. destruct (id =? 0); [injection E as <- <-; discriminate|]. inv_bind E.
        destruct v as [[b [|p|p]]|]; inv_bind E; destruct v; try congruence. destruct (is_success e1) eqn:Z; injection E as <- <-; [discriminate|congruence].
      - right. split; [reflexivity|]. split; [reflexivity|]. split; [exact en|]. destruct (is_success e0) eqn:Es; [inv_bind Er; congruence|].
        injection Er as -> <-. destruct (T2 eq_refl) as (o & Eo' & C). rewrite Eo in Eo'. injection Eo' as <-. cbn [free ctr]. rewrite <- U. exact C. }
    unfold id_allocate, alloc_res. change (usecb s0) with (usecb s). destruct (usecb s) eqn:Ecb.
    - pose proof (alloc_cb_spec cmp TO answers s0 tls ids live e _ H0 Ho eq_refl Hni Hr0) as Ha. cbn [okey] in Ha.
      destruct (cb_choice live answers) as [[|p]|x] eqn:Ech.
      + destruct Ha as (s1 & E1 & G1 & L1). pose proof (alloc_cb_ctr _ _ _ _ _ E1) as C1. rewrite E1. cbn [bind is_success].
        exists INVALID_ARG, 0, (ctr s). eexists. exists (free s1 e), live. split; [reflexivity|].
        destruct (Hloose s1 G1 L1) as [T U]; [discriminate|]. split; [exact T|]. split; [exact U|]. split; [split; [reflexivity|split; reflexivity]|].
        left. split; [reflexivity|]. split; [reflexivity|]. split; [reflexivity|exact C1].
      + destruct Ha as (Hnl & Hmx & s1 & l1 & l2 & Ei & E1 & G1 & L1). pose proof (alloc_cb_ctr _ _ _ _ _ E1) as C1. rewrite E1. cbn [bind is_success].
        destruct (create_tail cmp TO s live n tls ids ents key k s0 s1 e (N.pos p) l1 l2 H eq_refl eq_refl) as (r & s' & live' & Er & Hc & HT & Hu); auto.
        { destruct L1 as (_ & U & _). exact U. }
        { discriminate. }
        { rewrite Ecb. discriminate. }
        exists OK, (N.pos p), (ctr s), r, s', live'. split; [exact Er|]. split; [exact HT|]. split; [congruence|]. split; [split; [reflexivity|split; reflexivity]|].
        right. split; [reflexivity|]. change (ctr s0) with (ctr s) in C1. rewrite <- C1. eapply Htail; [apply L1| |exact Er|exact Hc]. destruct L1 as (_ & U & _). rewrite U. exact Ecb.
      + destruct Ha as (s1 & E1 & G1 & L1). pose proof (alloc_cb_ctr _ _ _ _ _ E1) as C1. rewrite E1. cbn [bind is_success].
        exists (CALLBACK_ERROR x), 0, (ctr s). eexists. exists (free s1 e), live. split; [reflexivity|].
        destruct (Hloose s1 G1 L1) as [T U]; [discriminate|]. split; [exact T|]. split; [exact U|]. split; [split; [reflexivity|split; reflexivity]|].
        left. split; [reflexivity|]. split; [reflexivity|]. split; [reflexivity|exact C1].
    - destruct (i_ctr _ _ _ _ _ _ _ H Ecb) as (m & M1 & M2 & M3 & M4).
      destruct (alloc_ctr_spec cmp TO (map e_id live) m M2) with (fuel := fuel_of s0) (s := s0) (tls := tls) (ids := ids) (e := e) (o := mkobj 0 (@None N) key)
        as [(s1 & E1 & G1 & L1 & C1 & Em)|(id & s1 & l1 & l2 & Z1 & Z2 & Z3 & Z4 & Ei & E1 & G1 & L1 & C1)]; auto.
      { intros i Hi. apply in_map_iff in Hi. destruct Hi as (en & <- & Hen). apply M4, Hen. }
      { assert (Hl : (length (map e_id live) < fuel_of s)%nat).
        { rewrite map_length, (Permutation_length (i_p _ _ _ _ _ _ _ H)), <- (Forall2_length _ _ _ (i_d _ _ _ _ _ _ _ H)).
          apply (ids_len cmp s tls ids HG). }
        pose proof (filter_length_le (fun i => ctr s0 <? i) (map e_id live)). unfold fuel_of in *. change (brk s0) with (Pos.succ (brk s)). lia. }
      + pose proof (alloc_ctr_picks _ _ _ _ _ _ _ _ _ H0 Ho eq_refl Hni Hr0 E1) as PK. rewrite E1. cbn [bind is_success].
        exists INVALID_ARG, (ctr s1), (ctr s1). eexists. exists (free s1 e), live. split; [reflexivity|].
        destruct (Hloose s1 G1 L1) as [T U]. { intros _. exists m. rewrite C1. split; [lia|]. split; [lia|]. split; [lia|exact M4]. }
        split; [exact T|]. split; [exact U|]. split; [split; [exact PK|reflexivity]|].
        left. repeat split; reflexivity.
      + pose proof (alloc_ctr_picks _ _ _ _ _ _ _ _ _ H0 Ho eq_refl Hni Hr0 E1) as PK. rewrite E1. cbn [bind is_success]. cbn [okey] in L1.
        destruct (create_tail cmp TO s live n tls ids ents key k s0 s1 e id l1 l2 H eq_refl eq_refl) as (r & s' & live' & Er & Hc & HT & Hu); auto.
        { destruct L1 as (_ & U & _). exact U. }
        { intros _. exists (N.max m id). rewrite C1. repeat split; try lia. intros en Hen. specialize (M4 en Hen). lia. }
        exists OK, id, (ctr s1), r, s', live'. split; [exact Er|]. split; [exact HT|]. split; [congruence|]. split; [split; [exact PK|congruence]|].
        right. split; [reflexivity|]. eapply Htail; [apply L1| |exact Er|exact Hc]. destruct L1 as (_ & U & _). rewrite U. exact Ecb.
  Qed.

  (** ** Twins *)
  Lemma cb_choice_perm (l1 l2 : list entry) ans : Permutation l1 l2 -> cb_choice l1 ans = cb_choice l2 ans.
  Proof.
    intros P. induction ans as [|[id|x] ans IH]; [reflexivity| |reflexivity]. cbn [cb_choice]. rewrite IH.
    assert (X : existsb (fun e => e_id e =? u32 id) l1 = existsb (fun e => e_id e =? u32 id) l2); [|rewrite X; reflexivity].
    apply eq_true_iff_eq. rewrite !existsb_exists. split; intros (x & Hx & Hy); exists x; (split; [|exact Hy]);
      [apply (Permutation_in _ P)|apply (Permutation_in _ (Permutation_sym P))]; exact Hx.
  Qed.
  Lemma alloc_res_det cb (l1 l2 : list entry) ans c er id c1 er2 id2 c2 : Permutation l1 l2 ->
    alloc_res cb l1 ans c er id c1 -> alloc_res cb l2 ans c er2 id2 c2 -> er2 = er /\ id2 = id /\ c2 = c1.
  Proof.
    intros P. unfold alloc_res. destruct cb.
    - rewrite (cb_choice_perm _ _ ans P). intros (-> & H1) (-> & H2). destruct (cb_choice l2 ans) as [[|p]|x]; destruct H1, H2; subst; repeat split; congruence.
    - intros (P1 & ->) (P2 & ->). assert (X : er2 = er /\ c2 = c1); [|destruct X; subst; auto].
      eapply (picks_det (map e_id l1) (map e_id l2)); [|exact P1|exact P2]. intros i. apply (Permutation_map e_id) in P.
      split; [apply (Permutation_in _ P)|apply (Permutation_in _ (Permutation_sym P))].
  Qed.

  Lemma same_key_eq (live : list entry) k key e1 e2 : consistent cmp live -> In e1 live -> In e2 live ->
    has_key cmp k key e1 -> has_key cmp k key e2 -> e1 = e2.
  Proof.
    intros (_ & _ & HC) I1 I2 (K1 & C1) (K2 & C2).
    assert (Z12 : cmp k (e_key e1) (e_key e2) = 0%Z /\ cmp k (e_key e2) (e_key e1) = 0%Z).
    { pose proof (to_anti _ (TO k) key (e_key e2)) as A2. rewrite C2 in A2. pose proof (to_anti _ (TO k) key (e_key e1)) as A1. rewrite C1 in A1.
      pose proof (to_trans _ (TO k) (e_key e1) key (e_key e2)) as T1. pose proof (to_trans _ (TO k) (e_key e2) key (e_key e1)) as T2.
      pose proof (to_anti _ (TO k) (e_key e1) (e_key e2)) as A3. lia. }
    destruct Z12 as [Z12 Z21]. apply in_split in I1. destruct I1 as (l1 & l2 & ->). apply in_app_or in I2. destruct I2 as [I2|[I2|I2]]; [|exact I2|].
    - exfalso. apply in_split in I2. destruct I2 as (m1 & m2 & ->). eapply (HC m1 e2 m2 e1 l2); [rewrite <- app_assoc; reflexivity|congruence|]. rewrite K2. exact Z21.
    - exfalso. apply in_split in I2. destruct I2 as (m1 & m2 & ->). eapply (HC l1 e1 m1 e2 m2); [reflexivity|congruence|]. rewrite K1. exact Z12.
  Qed.
  Lemma same_id_eq (live : list entry) e1 e2 : consistent cmp live -> In e1 live -> In e2 live -> e_id e1 = e_id e2 -> e1 = e2.
  Proof.
    intros (Hnd & _) He He' Hid. induction live as [|x l IH]; [contradiction|]. cbn [map] in Hnd. inversion Hnd as [|? ? Hn Hd]; subst.
    destruct He as [->|He], He' as [->|He']; auto.
    - exfalso. apply Hn. rewrite Hid. apply in_map, He'.
    - exfalso. apply Hn. rewrite <- Hid. apply in_map, He.
  Qed.

  Lemma get_same (s : tst) k key r s' : step cmp s (Get k key) = Ret (r, s') -> s' = s.
  Proof. cbn [step]. intros H. inv_bind H. destruct v as [e [a|]]; [inv_bind H|]; congruence. Qed.
  Lemma getid_same (s : tst) id r s' : step cmp s (GetId id) = Ret (r, s') -> s' = s.
  Proof. cbn [step]. intros H. inv_bind H. destruct v as [e [a|]]; [inv_bind H|]; congruence. Qed.
  Lemma dbi_err (s : tst) a er s' : delete_by_id_1 s a = Ret (er, s') -> er = OK \/ er = INVALID_ARG.
  Proof. unfold delete_by_id_1. intros H. inv_bind H. destruct (oid v =? 0); [right; congruence|]. inv_bind H. destruct v0. left. congruence. Qed.
  Lemma d1_err (s : tst) a er s' : delete_1 s a = Ret (er, s') -> er = OK \/ er = INVALID_ARG.
  Proof. unfold delete_1. intros H. inv_bind H. destruct (opar v); [|right; congruence]. inv_bind H. destruct v0. destruct (oid v =? 0); [left; congruence|]. eapply dbi_err, H. Qed.
  Lemma delkey_nf (s : tst) k key s' : step cmp s (DeleteKey k key) = Ret ((ITEM_NOT_FOUND, None), s') -> s' = s.
  Proof.
    cbn [step]. intros H. inv_bind H. destruct v as [e [a|]]; [|congruence]. inv_bind H. inv_bind H. destruct v0 as [e0 s0].
    destruct (d1_err _ _ _ _ E1) as [->| ->]; cbn [is_success] in H; congruence.
  Qed.
  Lemma delid_nf (s : tst) id s' : step cmp s (DeleteId id) = Ret ((ITEM_NOT_FOUND, None), s') -> s' = s.
  Proof.
    cbn [step]. intros H. inv_bind H. destruct v as [e [a|]]; [|congruence]. inv_bind H. inv_bind H. destruct v0 as [e0 s0].
    destruct (dbi_err _ _ _ _ E1) as [->| ->]; cbn [is_success] in H; [|congruence]. inv_bind H. destruct (opar v0); [|congruence].
    inv_bind H. destruct v1 as [e1 s1]. destruct (d1_err _ _ _ _ E3) as [->| ->]; cbn [is_success] in H; congruence.
  Qed.
  Lemma delid_zero (s : tst) r s' : step cmp s (DeleteId 0) = Ret (r, s') -> s' = s.
  Proof. cbn [step get_by_id N.eqb bind]. congruence. Qed.

  Definition twin (s1 s2 : tst) : Prop :=
    (exists l1 l2 n1 n2, TI s1 l1 n1 /\ TI s2 l2 n2 /\ Permutation l1 l2) /\ usecb s1 = usecb s2 /\ ctr s1 = ctr s2.

  Lemma twin_iter s1 s2 k : twin s1 s2 -> iter_fwd s1 k = iter_fwd s2 k /\ iter_bwd s1 k = iter_bwd s2 k /\ n_ents (th s1 k) = n_ents (th s2 k).
  Proof.
    intros ((l1 & l2 & n1 & n2 & T1 & T2 & P) & _ & _).
    destruct (iter_ok cmp TO s1 l1 n1 k T1) as (i1 & F1 & B1 & S1 & P1 & N1). destruct (iter_ok cmp TO s2 l2 n2 k T2) as (i2 & F2 & B2 & S2 & P2 & N2).
    assert (i1 = i2).
    { eapply (sorted_perm_eq cmp TO k); [exact S1|exact S2|]. eapply Permutation_trans; [exact P1|]. eapply Permutation_trans; [apply table_of_perm, P|]. symmetry. exact P2. }
    subst i2. rewrite F1, F2, B1, B2, N1, N2. repeat split.
  Qed.

  Lemma twin_step s1 s2 o r s1' : twin s1 s2 -> step cmp s1 o = Ret (r, s1') -> exists s2', step cmp s2 o = Ret (r, s2') /\ twin s1' s2'.
  Proof.
    intros ((l1 & l2 & n1 & n2 & T1 & T2 & P) & U & C) E1.
    assert (PI : forall x, In x l1 <-> In x l2) by (intros x; split; apply Permutation_in; [exact P|symmetry; exact P]).
    pose proof (consistent_ok cmp TO _ _ _ T1) as C1. pose proof (consistent_ok cmp TO _ _ _ T2) as C2.
    destruct (match o with Create k key a => true | _ => false end) eqn:Ek.
    - destruct o as [k key ans| | | | ]; try discriminate. clear Ek.
      destruct (exact_create s1 l1 n1 k key ans T1) as (er1 & id1 & c1 & r1 & s1x & l1' & X1 & T1' & U1 & A1 & R1).
      destruct (exact_create s2 l2 n2 k key ans T2) as (er2 & id2 & c2 & r2 & s2x & l2' & X2 & T2' & U2 & A2 & R2).
      assert (r1 = r) by congruence. assert (s1x = s1') by congruence. subst r1 s1x.
      rewrite <- U, <- C in A2. destruct (alloc_res_det _ _ _ _ _ _ _ _ _ _ _ P A1 A2) as (-> & -> & ->).
      assert (HK : (forall en, In en l1 -> ~ has_key cmp k key en) -> (exists en, In en l2 /\ has_key cmp k key en) -> False).
      { intros A (en & B & D). apply (A en); [apply PI, B|exact D]. }
      assert (HK' : (forall en, In en l2 -> ~ has_key cmp k key en) -> (exists en, In en l1 /\ has_key cmp k key en) -> False).
      { intros A (en & B & D). apply (A en); [apply PI, B|exact D]. }
      assert (RR : r2 = r /\ Permutation l1' l2' /\ ctr s1' = ctr s2x).
      { destruct R1 as [(F1 & -> & -> & D1)|(F1 & [(-> & -> & Q1 & D1)|(-> & -> & Q1 & D1)])]; destruct R2 as [(F2 & -> & -> & D2)|(F2 & [(-> & -> & Q2 & D2)|(-> & -> & Q2 & D2)])];
          try (subst er1; discriminate); try (exfalso; auto; fail).
        - repeat split; [exact P|congruence].
        - repeat split; [constructor; exact P|congruence].
        - rewrite <- U in D2. repeat split; [exact P|congruence]. }
      destruct RR as (-> & P' & C'). exists s2x. split; [exact X2|]. split; [exists l1', l2', (n1 + 1), (n2 + 1); auto|]. split; [congruence|exact C'].
    - destruct (step_ok cmp TO s1 l1 n1 o T1) as (r1 & s1x & l1' & X1 & S1 & T1' & U1).
      destruct (step_ok cmp TO s2 l2 n2 o T2) as (r2 & s2x & l2' & X2 & S2 & T2' & U2).
      assert (r1 = r) by congruence. assert (s1x = s1') by congruence. subst r1 s1x.
      destruct o as [k key ans|k key|id|k key|id]; [discriminate| | | |].
      + assert (Q : r2 = r /\ Permutation l1' l2' /\ ctr s1' = ctr s2x).
        { inversion S1 as [| | | | |k1 key1 e1 lx1 J1 I1 Y1 Y2 Y3|k1 key1 Q1 Y1 Y2 Y3| | | | | | | |]; inversion S2 as [| | | | |k2 key2 e2 lx2 J2 I2 Z1 Z2 Z3|k2 key2 Q2 Z1 Z2 Z3| | | | | | | |]; clear S1 S2; subst k1 key1 k2 key2.
          - assert (A1 : In e1 l1) by (apply (Permutation_in _ (Permutation_sym I1)); left; reflexivity).
            assert (A2 : In e2 l1) by (apply PI, (Permutation_in _ (Permutation_sym I2)); left; reflexivity).
            assert (e1 = e2) by (eapply same_key_eq; [exact C1|exact A1|exact A2|exact J1|exact J2]). subst e2.
            assert (Hz : e_id e1 <> 0) by (destruct C1 as (_ & R & _); specialize (R _ A1); lia).
            split; [congruence|]. split.
            + apply (Permutation_cons_inv (a := e1)). eapply Permutation_trans; [symmetry; subst; exact I1|]. eapply Permutation_trans; [exact P|]. subst. exact I2.
            + rewrite <- Y2 in X1. rewrite <- Z2 in X2. rewrite (delkey_ctr _ _ _ _ _ X1 Hz), (delkey_ctr _ _ _ _ _ X2 Hz). congruence.
          - exfalso. apply (Q2 e1); [rewrite <- ?Z3; apply PI, (Permutation_in _ (Permutation_sym I1)); left; reflexivity|exact J1].
          - exfalso. apply (Q1 e2); [rewrite <- ?Y3; apply PI, (Permutation_in _ (Permutation_sym I2)); left; reflexivity|exact J2].
          - split; [congruence|]. split; [rewrite <- Y3, <- Z3; exact P|]. rewrite <- Y2 in X1. rewrite <- Z2 in X2.
            rewrite (delkey_nf _ _ _ _ X1), (delkey_nf _ _ _ _ X2). exact C. }
        destruct Q as (-> & P' & C'). exists s2x. split; [exact X2|]. split; [exists l1', l2'; eauto|]. split; [congruence|exact C'].
      + assert (Q : r2 = r /\ Permutation l1' l2' /\ ctr s1' = ctr s2x).
        { inversion S1 as [| | | | | | |e1 lx1 J1 I1 Y1 Y2 Y3|id1 J1 Q1 Y1 Y2 Y3|Y1 Y2 Y3| | | | |]; inversion S2 as [| | | | | | |e2 lx2 J2 I2 Z1 Z2 Z3|id2 J2 Q2 Z1 Z2 Z3|Z1 Z2 Z3| | | | |]; clear S1 S2; try congruence.
          - assert (A1 : In e1 l1) by (apply (Permutation_in _ (Permutation_sym I1)); left; reflexivity).
            assert (A2 : In e2 l1) by (apply PI, (Permutation_in _ (Permutation_sym I2)); left; reflexivity).
            assert (e1 = e2) by (eapply same_id_eq; [exact C1|exact A1|exact A2|congruence]). subst e2.
            split; [congruence|]. split.
            + apply (Permutation_cons_inv (a := e1)). eapply Permutation_trans; [symmetry; subst; exact I1|]. eapply Permutation_trans; [exact P|]. subst. exact I2.
            + rewrite <- Y2 in X1. rewrite <- Z2 in X2. rewrite (delid_ctr _ _ _ _ X1), (delid_ctr _ _ _ _ X2). congruence.
          - exfalso. apply (Q2 e1); [rewrite <- ?Z3; apply PI, (Permutation_in _ (Permutation_sym I1)); left; reflexivity|congruence].
          - exfalso. apply (Q1 e2); [rewrite <- ?Y3; apply PI, (Permutation_in _ (Permutation_sym I2)); left; reflexivity|congruence].
          - split; [congruence|]. split; [rewrite <- Y3, <- Z3; exact P|]. rewrite <- Y2 in X1. rewrite <- Z2 in X2.
            rewrite (delid_nf _ _ _ X1), (delid_nf _ _ _ X2). exact C.
          - split; [congruence|]. split; [rewrite <- Y3, <- Z3; exact P|]. rewrite <- Y1 in X1. rewrite <- Z1 in X2.
            rewrite (delid_zero _ _ _ X1), (delid_zero _ _ _ X2). exact C. }
        destruct Q as (-> & P' & C'). exists s2x. split; [exact X2|]. split; [exists l1', l2'; eauto|]. split; [congruence|exact C'].
      + pose proof (get_same _ _ _ _ _ X1) as V1. pose proof (get_same _ _ _ _ _ X2) as V2. subst s1' s2x. assert (r2 = r).
        { inversion S1 as [| | | | | | | | | |k1 key1 e1 I1 J1 Y1 Y2 Y3|k1 key1 Q1 Y1 Y2 Y3| | |]; inversion S2 as [| | | | | | | | | |k2 key2 e2 I2 J2 Z1 Z2 Z3|k2 key2 Q2 Z1 Z2 Z3| | |]; try congruence; rewrite <- ?Y3, <- ?Z3 in *.
          - assert (e1 = e2) by (eapply same_key_eq; [exact C1|exact I1|apply PI, I2|exact J1|exact J2]). congruence.
          - exfalso. apply (Q2 e1); [apply PI, I1|exact J1].
          - exfalso. apply (Q1 e2); [apply PI, I2|exact J2]. }
        subst r2. exists s2. split; [exact X2|]. split; [exists l1, l2; eauto|]. split; assumption.
      + pose proof (getid_same _ _ _ _ X1) as V1. pose proof (getid_same _ _ _ _ X2) as V2. subst s1' s2x. assert (r2 = r).
        { inversion S1 as [| | | | | | | | | | | |e1 I1 J1 Y1 Y2 Y3|id1 J1 Q1 Y1 Y2 Y3|Y1 Y2 Y3]; inversion S2 as [| | | | | | | | | | | |e2 I2 J2 Z1 Z2 Z3|id2 J2 Q2 Z1 Z2 Z3|Z1 Z2 Z3]; try congruence; rewrite <- ?Y3, <- ?Z3 in *.
          - assert (e1 = e2) by (eapply same_id_eq; [exact C1|exact I1|apply PI, I2|congruence]). congruence.
          - exfalso. apply (Q2 e1); [apply PI, I1|congruence].
          - exfalso. apply (Q1 e2); [apply PI, I2|congruence]. }
        subst r2. exists s2. split; [exact X2|]. split; [exists l1, l2; eauto|]. split; assumption.
  Qed.
  Lemma twin_run ops : forall s1 s2 rs s1', twin s1 s2 -> run cmp s1 ops = Ret (rs, s1') -> exists s2', run cmp s2 ops = Ret (rs, s2') /\ twin s1' s2'.
  Proof.
    induction ops as [|o ops IH]; intros s1 s2 rs s1' T H; cbn [run] in *.
    - injection H as <- <-. exists s2. split; [reflexivity|exact T].
    - inv_bind H. destruct v as [r s1a]. inv_bind H. destruct v as [rs' s1b]. injection H as <- <-.
      destruct (twin_step _ _ _ _ _ T E) as (s2a & X & Ta). destruct (IH _ _ _ _ Ta E0) as (s2b & Y & Tb). exists s2b. rewrite X. cbn [bind]. rewrite Y. split; [reflexivity|exact Tb].
  Qed.

  (** Every live object was created with its kind. *)
  Lemma spec_kinds cb live n o r live' ks : spec_step cmp cb live n o r live' ->
    (forall k key a, o = Create k key a -> In k ks) -> (forall e, In e live -> In (e_kind e) ks) -> forall e, In e live' -> In (e_kind e) ks.
  Proof.
    intros H Hc Hl. destruct H; try exact Hl.
    - intros x [<-|Hx]; [cbn; eapply Hc; reflexivity|apply Hl, Hx].
    - intros x Hx. apply Hl. apply (Permutation_in _ (Permutation_sym H0)). right. exact Hx.
    - intros x Hx. apply Hl. apply (Permutation_in _ (Permutation_sym H0)). right. exact Hx.
  Qed.
  Lemma spec_run_kinds cb live n ops rs live' ks : spec_run cmp cb live n ops rs live' ->
    (forall k key a, In (Create k key a) ops -> In k ks) -> (forall e, In e live -> In (e_kind e) ks) -> forall e, In e live' -> In (e_kind e) ks.
  Proof.
    induction 1 as [|live n o r live1 ops rs live2 H1 H2 IH]; intros Hc Hl; [exact Hl|].
    apply IH; [intros k key a Hin; eapply Hc; right; exact Hin|]. eapply spec_kinds; [exact H1| |exact Hl]. intros k key a ->. eapply Hc. left. reflexivity.
  Qed.
End S.
