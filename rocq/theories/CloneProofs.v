(** Lemmas about Clone.v: the clone of a well-formed table is a well-formed table with the same entries. *)
From Verif Require Import Base Links LinksProofs Table TableSpec TableProofs TableHist Clone.
From Coq Require Import Permutation Sorted.
Open Scope N_scope.
Ltac Zify.zify_post_hook ::= Z.to_euclidean_division_equations.

Lemma hdor_snoc l e n : hdor (l ++ [e]) n = Some (match l with [] => e | a :: _ => a end).
Proof. destruct l; reflexivity. Qed.
Lemma seg_snoc h h' : forall l p e,
  seg h p l None -> NoDup l -> ~ In e l -> h' e = Some (mklnk (lastor p l) None) ->
  (forall a, a <> e -> Some a <> lastor None l -> h' a = h a) ->
  (forall a x, Some a = lastor None l -> h a = Some x -> h' a = Some (mklnk (prv x) (Some e))) ->
  seg h' p (l ++ [e]) None.
Proof.
  induction l as [|a l IH]; intros p e Hs Hnd Hni He Hf Hl; cbn [app seg] in *.
  - split; [exact He|exact I].
  - destruct Hs as [Ha Hs]. inversion Hnd as [|? ? Hna Hnd']; subst. destruct l as [|b l].
    + cbn [app seg hdor lastor] in *. split; [rewrite (Hl a _ eq_refl Ha); reflexivity|]. split; [exact He|exact I].
    + assert (La : Some a <> lastor None (b :: l)).
      { intros E. apply Hna. clear -E. cbn [lastor] in E. revert b E. induction l as [|c l IH]; intros b E; cbn [lastor] in E.
        - left. congruence.
        - right. apply IH. exact E. }
      split.
      * rewrite Hf; [|intros ->; apply Hni; left; reflexivity|exact La]. exact Ha.
      * apply IH.
        -- exact Hs.
        -- exact Hnd'.
        -- intros Hin. apply Hni. right. exact Hin.
        -- exact He.
        -- exact Hf.
        -- exact Hl.
Qed.

Section P.
  Context {K : Type}.
  Variable cmp : N -> K -> K -> Z.
  Hypothesis TO : forall k, total_order (cmp k).
  Notation tst := (tst K).
  Notation G := (G cmp).
  Notation entry := (@entry K).

  (** Adding a loose object at the end of a table. *)
  Lemma G_append (d d' : tst) tls ids k e o :
    G d tls ids -> ob d e = Some o -> opar o = None -> ~ In e ids ->
    (forall a oa, In a (tls k) -> ob d a = Some oa -> (cmp k (okey oa) (okey o) < 0)%Z) ->
    (forall x, ob d' x = upd (ob d) e (Some (mkobj (oid o) (Some k) (okey o))) x) ->
    il d' = il d -> ih d' = ih d -> brk d' = brk d ->
    (forall j, j <> k -> th d' j = th d j) ->
    dll (tl d') (tlh (th d' k)) (tls k ++ [e]) ->
    (forall a, ~ In a (e :: tls k) -> tl d' a = tl d a) -> (forall a, tl d' a = None <-> tl d a = None) ->
    n_ents (th d' k) = u32 (N.of_nat (S (length (tls k)))) ->
    G d' (updt tls k (tls k ++ [e])) ids.
  Proof.
    intros H Ho Hp Hni Hlt Hob Hil Hih Hbrk Hth Hdll Hfr Hal Hn.
    assert (Hnt : forall j a, In a (tls j) -> a <> e).
    { intros j a Hj ->. destruct (g_in _ _ _ _ H j e Hj) as (x & Ex & Px). congruence. }
    assert (Hne : forall a, In a ids -> a <> e) by (intros a Ha ->; contradiction).
    assert (Hdisj : forall j a, j <> k -> In a (tls j) -> ~ In a (e :: tls k)).
    { intros j a Hj Ha [E|Hin]; [apply (Hnt j a Ha); congruence|]. destruct (g_in _ _ _ _ H j a Ha) as (x & Ex & Px).
      destruct (g_in _ _ _ _ H k a Hin) as (y & Ey & Py). congruence. }
    assert (Hold : forall a, a <> e -> ob d' a = ob d a) by (intros a Ha; rewrite Hob; apply upd_neq, Ha).
    assert (Hnew : ob d' e = Some (mkobj (oid o) (Some k) (okey o))) by (rewrite Hob; apply upd_eq).
    constructor.
    - intros j. destruct (N.eq_dec j k) as [->|Hj]; [rewrite updt_eq; exact Hdll|].
      rewrite updt_neq by exact Hj. rewrite (Hth j Hj). eapply dll_frame; [|apply (g_t _ _ _ _ H j)].
      intros a Ha. apply Hfr. eapply Hdisj; eauto.
    - rewrite Hil, Hih. apply (g_i _ _ _ _ H).
    - intros a. rewrite Hal, (g_ta _ _ _ _ H), Hob. unfold upd. destruct (Pos.eqb_spec a e) as [->|]; [|reflexivity]. split; [congruence|discriminate].
    - intros a. rewrite Hil, (g_ia _ _ _ _ H), Hob. unfold upd. destruct (Pos.eqb_spec a e) as [->|]; [|reflexivity]. split; [congruence|discriminate].
    - intros a. rewrite Hob, Hbrk. unfold upd. destruct (Pos.eqb_spec a e) as [->|]; intros; apply (g_brk _ _ _ _ H); congruence.
    - intros j a. destruct (N.eq_dec j k) as [->|Hj].
      + rewrite updt_eq. intros Ha. apply in_app_or in Ha. destruct Ha as [Ha|[<-|[]]].
        * rewrite (Hold a) by (eapply Hnt; eauto). apply (g_in _ _ _ _ H). exact Ha.
        * eexists. split; [exact Hnew|reflexivity].
      + rewrite updt_neq by exact Hj. intros Ha. rewrite (Hold a) by (eapply Hnt; eauto). apply (g_in _ _ _ _ H). exact Ha.
    - intros a oa j. destruct (Pos.eq_dec a e) as [->|Ha].
      + rewrite Hnew. intros E1 E2. assert (j = k) by (assert (oa = mkobj (oid o) (Some k) (okey o)) by congruence; subst oa; cbn [opar] in E2; congruence).
        subst j. rewrite updt_eq. apply in_or_app. right. left. reflexivity.
      + rewrite (Hold a Ha). intros E1 E2. pose proof (g_par _ _ _ _ H a oa j E1 E2) as Hin. destruct (N.eq_dec j k) as [->|Hj].
        * rewrite updt_eq. apply in_or_app. left. exact Hin.
        * rewrite updt_neq by exact Hj. exact Hin.
    - intros a Ha. rewrite (Hold a) by (apply Hne; exact Ha). apply (g_ii _ _ _ _ H). exact Ha.
    - assert (SS : forall j l, StronglySorted (klt cmp d j) l -> (forall a, In a l -> a <> e) -> StronglySorted (klt cmp d' j) l).
      { intros j l Hs Hl. eapply SS_impl; [|exact Hs]. intros a b Ha Hb (oa & ob' & E1 & E2 & Hl').
        exists oa, ob'. rewrite !Hold by (apply Hl; assumption). repeat split; assumption. }
      intros j. destruct (N.eq_dec j k) as [->|Hj].
      + rewrite updt_eq. apply SS_app. split; [apply SS; [apply (g_ts _ _ _ _ H)|apply Hnt]|]. split; [repeat constructor|].
        intros a b Ha [<-|[]]. destruct (g_in _ _ _ _ H k a Ha) as (oa & Ea & _). exists oa. eexists. split; [rewrite Hold; [exact Ea|eapply Hnt; eauto]|].
        split; [exact Hnew|]. cbn [okey]. eapply Hlt; eauto.
      + rewrite updt_neq by exact Hj. apply SS; [apply (g_ts _ _ _ _ H)|apply Hnt].
    - eapply SS_impl; [|apply (g_is _ _ _ _ H)]. intros a b Ha Hb (oa & ob' & E1 & E2 & Hl').
      exists oa, ob'. rewrite !Hold by (apply Hne; assumption). repeat split; assumption.
    - intros j. destruct (N.eq_dec j k) as [->|Hj].
      + rewrite updt_eq, Hn, app_length. cbn [length]. f_equal. f_equal. lia.
      + rewrite updt_neq by exact Hj. rewrite (Hth j Hj). apply (g_nt _ _ _ _ H).
    - rewrite Hih. apply (g_ni _ _ _ _ H).
  Qed.

  (** The state of the destination in the loop, with the tail and count it will get at the end. *)
  Lemma iseek_set_tail fuel : forall (d : tst) k l n id i, iseek fuel (set_tail d k l n) id i = iseek fuel d id i.
  Proof.
    induction fuel as [|f IH]; intros d k l n id [a|]; cbn [iseek]; try reflexivity. cbn [set_tail ob il].
    destruct (ob d a) as [o|]; cbn [ub_none bind]; [|reflexivity]. destruct (id_cmp (oid o) id >=? 0)%Z; [reflexivity|].
    destruct (get_nxt (il d) a); cbn [ub_none bind]; [|reflexivity]. apply IH.
  Qed.
  Lemma insert_by_id_set_tail (d : tst) k l n e :
    insert_by_id (set_tail d k l n) e = bind (insert_by_id d e) (fun '(er, d') => Ret (er, set_tail d' k l n)).
  Proof.
    unfold insert_by_id. cbn [set_tail ob il ih]. destruct (ob d e) as [o|]; cbn [ub_none bind]; [|reflexivity].
    destruct (oid o =? 0); [reflexivity|]. change (fuel_of (set_tail d k l n)) with (fuel_of d). rewrite iseek_set_tail.
    destruct (iseek _ _ _ _) as [[[a z]|]| |]; cbn [bind]; try reflexivity.
    - destruct z; cbn [option_map fst]; try reflexivity; destruct (link_before _ _ _ _) as [[h hd]|]; reflexivity.
    - cbn [option_map]. destruct (link_before _ _ _ _) as [[h hd]|]; reflexivity.
  Qed.
  Lemma set_tail_th (d : tst) k l n j : th (set_tail d k l n) j = if N.eqb j k then mkth (mklhdr (lhead (tlh (th d k))) l) n (n_inserts (th d k)) (n_deletes (th d k)) else th d j.
  Proof. reflexivity. Qed.

  (** Cloned so far: the entries [D], as the objects of the destination. *)
  Record CI (d : tst) (D : list entry) (tls : N -> list addr) (ids : list addr) : Prop := {
    c_G : G d tls ids;
    c_d : exists ents, Forall2 (descr d) ids ents /\ Permutation D ents;
    c_all : forall a, ob d a <> None -> In a ids
  }.

  Lemma link_dll (d : tst) l e h hd :
    dll (tl d) hd l -> ~ In e l -> tl d e = Some (mklnk None None) ->
    h = tl d -> 
    exists h1, ub_none (set_prv h e (lastor None l)) = Ret h1 /\
      match lastor None l with
      | Some p => exists h2, set_nxt h1 p (Some e) = Some h2 /\ dll h2 (mklhdr (lhead hd) (Some e)) (l ++ [e]) /\
          (forall a, ~ In a (e :: l) -> h2 a = tl d a) /\ (forall a, h2 a = None <-> tl d a = None)
      | None => l = [] /\ dll h1 (mklhdr (Some e) (Some e)) (l ++ [e]) /\
          (forall a, ~ In a (e :: l) -> h1 a = tl d a) /\ (forall a, h1 a = None <-> tl d a = None)
      end.
  Proof.
    intros (Hnd & Hh & Ht & Hs) Hni He ->. unfold set_prv. rewrite He. cbn [ub_none nxt].
    set (h1 := upd (tl d) e (Some (mklnk (lastor None l) None))). exists h1. split; [reflexivity|].
    destruct (snoc_case l) as [->|(l' & p & ->)].
    - cbn [lastor app]. split; [reflexivity|]. split.
      + split; [repeat constructor; intros []|]. split; [reflexivity|]. split; [reflexivity|]. cbn [seg hdor]. split; [apply upd_eq|exact I].
      + split.
        * intros a Ha. apply upd_neq. intros ->. apply Ha. left. reflexivity.
        * intros a. unfold h1, upd. destruct (Pos.eqb_spec a e) as [->|]; [rewrite He; split; discriminate|reflexivity].
    - rewrite lastor_app in *. assert (Hp : exists x, tl d p = Some (mklnk x None)).
      { apply seg_app in Hs. destruct Hs as [_ Hs]. cbn [seg hdor] in Hs. eexists. apply Hs. }
      destruct Hp as (x & Hp). assert (Hpe : p <> e) by (intros ->; apply Hni, in_or_app; right; left; reflexivity).
      unfold set_nxt. unfold h1 at 1. rewrite upd_neq by exact Hpe. rewrite Hp. cbn [prv]. eexists. split; [reflexivity|]. split.
      + split; [apply (NoDup_insert (l' ++ [p]) []); [rewrite app_nil_r; exact Hnd|rewrite app_nil_r; exact Hni]|].
        split; [cbn [lhead]; rewrite Hh, !hdor_snoc; destruct l'; reflexivity|]. split; [cbn [ltail]; rewrite lastor_app; reflexivity|].
        eapply seg_snoc; [exact Hs|exact Hnd|exact Hni| | |].
        * rewrite upd_neq by congruence. unfold h1. rewrite upd_eq, lastor_app. reflexivity.
        * rewrite lastor_app. intros a Ha Hl. rewrite upd_neq by congruence. unfold h1. apply upd_neq. exact Ha.
        * rewrite lastor_app. intros a y Ea Ey. assert (a = p) by congruence. subst a. rewrite upd_eq. rewrite Hp in Ey.
          assert (y = mklnk x None) by congruence. subst y. reflexivity.
      + split.
        * intros a Ha. rewrite upd_neq by (intros ->; apply Ha; right; apply in_or_app; right; left; reflexivity).
          unfold h1. apply upd_neq. intros ->. apply Ha. left. reflexivity.
        * intros a. unfold upd at 1. destruct (Pos.eqb_spec a p) as [->|Hap]; [rewrite Hp; split; discriminate|].
          unfold h1, upd. destruct (Pos.eqb_spec a e) as [->|]; [rewrite He; split; discriminate|reflexivity].
  Qed.

  (** One turn of the loop. *)
  Lemma clone_step (d : tst) D tls ids k id key prev :
    let l := tls k in let n := u32 (N.of_nat (length l)) in
    CI (set_tail d k (lastor None l) n) D tls ids -> prev = lastor None l -> (l = [] -> lhead (tlh (th d k)) = None) ->
    id <> 0 -> id <= u32_max -> ~ In id (map e_id D) ->
    (forall en, In en D -> e_kind en = k -> (cmp k (e_key en) key < 0)%Z) ->
    exists e d1 d2, clone_object d k id key = (e, d1) /\ 
      (let* d := clone_link d1 k prev e in insert_by_id d e) = Ret (OK, d2) /\
      exists ids', CI (set_tail d2 k (Some e) (u32 (N.of_nat (S (length l))))) (D ++ [(k, key, id)]) (updt tls k (l ++ [e])) ids' /\
      usecb d2 = usecb d /\ ctr d2 = ctr d.
  Proof.
    intros l n H -> Hhead Hnz Hmx Hid Hlt. destruct H as [HG (ents & HD & HP) Hall].
    set (F := set_tail d k (lastor None l) n) in *.
    (* allocation in the tail-adjusted state *)
    assert (EB : brk F = brk d) by reflexivity.
    set (e := brk d). set (F0 := snd (malloc F key)).
    assert (H0 : G F0 tls ids) by (apply G_malloc, HG).
    assert (Hne : ob F e = None).
    { destruct (ob F e) eqn:Ex; [|reflexivity]. exfalso. assert (ob F e <> None) as Hx by congruence.
      apply (g_brk _ _ _ _ HG) in Hx. rewrite EB in Hx. unfold e in Hx. lia. }
    assert (Hni : ~ In e ids).
    { intros Hin. destruct (g_ii _ _ _ _ HG e Hin) as (x & Ex & _). congruence. }
    assert (Ho0 : ob F0 e = Some (mkobj 0 None key)) by apply upd_eq.
    set (F1 := set_ob F0 e (mkobj id None key)).
    assert (H1 : G F1 tls ids) by (eapply G_set_ob_loose; [exact H0|exact Ho0|reflexivity|reflexivity|exact Hni]).
    assert (Ho1 : ob F1 e = Some (mkobj id None key)) by apply upd_eq.
    assert (Hold : forall x, x <> e -> ob F1 x = ob d x).
    { intros x Hx. unfold F1. cbn [set_ob ob]. rewrite upd_neq by exact Hx. unfold F0. cbn [malloc snd ob]. fold e. rewrite EB. apply upd_neq, Hx. }
    unfold clone_object. cbn [malloc]. fold e.
    set (d1 := set_ob _ e (mkobj id (Some k) key)). exists e, d1.
    assert (Hnk : ~ In e l).
    { intros Hin. destruct (g_in _ _ _ _ HG k e Hin) as (x & Ex & _). congruence. }
    assert (Htl1 : tl d1 = tl F1) by reflexivity.
    destruct (link_dll F1 l e (tl F1) (tlh (th F1 k))) as (h1 & E1 & HL); [apply (g_t _ _ _ _ H1 k)|exact Hnk|apply upd_eq|reflexivity|].
    set (pd := match lastor None l with Some p => match set_nxt h1 p (Some e) with Some h2 => Ret (set_tl d1 h2 k (th d1 k)) | None => UB end | None => Ret (set_tl d1 h1 k (mkth (mklhdr (Some e) (ltail (tlh (th d1 k)))) (n_ents (th d1 k)) (n_inserts (th d1 k)) (n_deletes (th d1 k)))) end).
    assert (HPD : exists d1', pd = Ret d1' /\ ob d1' = ob d1 /\ il d1' = il d1 /\ ih d1' = ih d1 /\ brk d1' = brk d1 /\ usecb d1' = usecb d1 /\ ctr d1' = ctr d1 /\
       (forall j, j <> k -> th d1' j = th d1 j) /\ dll (tl d1') (mklhdr (lhead (tlh (th d1' k))) (Some e)) (l ++ [e]) /\
       (forall a, ~ In a (e :: l) -> tl d1' a = tl F1 a) /\ (forall a, tl d1' a = None <-> tl F1 a = None) /\ True).
    { unfold pd. destruct (lastor None l) as [p|] eqn:EL.
      - destruct HL as (h2 & E2 & HL1 & HL2 & HL3). change (@Some positive e) with (@Some addr e). rewrite E2. eexists. split; [reflexivity|].
        cbn [set_tl ob il ih brk usecb ctr tl th]. repeat (split; [reflexivity|]).
        split; [intros j Hj; unfold updk; rewrite (proj2 (N.eqb_neq _ _) Hj); reflexivity|].
        split; [unfold updk; rewrite N.eqb_refl; change (lhead (tlh (th d1 k))) with (lhead (tlh (th d k)));
          assert (EH : lhead (tlh (th F1 k)) = lhead (tlh (th d k))) by (unfold F1, F0, F; cbn [set_ob malloc snd th set_tail]; unfold updk; rewrite N.eqb_refl; reflexivity);
          rewrite EH in HL1; exact HL1|].
        split; [exact HL2|]. split; [exact HL3|exact I].
      - destruct HL as (EN & HL1 & HL2 & HL3). eexists. split; [reflexivity|].
        cbn [set_tl ob il ih brk usecb ctr tl th]. repeat (split; [reflexivity|]).
        split; [intros j Hj; unfold updk; rewrite (proj2 (N.eqb_neq _ _) Hj); reflexivity|].
        split; [unfold updk; rewrite N.eqb_refl; exact HL1|]. split; [exact HL2|]. split; [exact HL3|exact I]. }
    destruct HPD as (d1' & EPD & O1 & I1 & IH1 & B1 & U1 & C1 & T1 & DL & FR & AL & _).
    assert (EQ : clone_link d1 k (lastor None l) e = Ret d1').
    { unfold clone_link. rewrite Htl1, E1. cbn [bind]. unfold pd in EPD. destruct (lastor None l) as [p|].
      - change (@Some addr e) with (@Some positive e). destruct (set_nxt h1 p (Some e)); [|discriminate]. cbn [ub_none bind]. exact EPD.
      - exact EPD. }
    rewrite EQ. cbn [bind]. clear EQ pd EPD.
    set (m := u32 (N.of_nat (S (length l)))).
    set (F2 := set_tail d1' k (Some e) m).
    assert (Hob2 : forall x, ob F2 x = upd (ob F1) e (Some (mkobj id (Some k) key)) x).
    { intros x. unfold F2. cbn [set_tail ob]. rewrite O1. unfold d1, F1, F0. cbn [set_ob malloc snd ob]. unfold F. cbn [set_tail ob brk]. fold e.
      unfold upd. destruct (Pos.eqb_spec x e); reflexivity. }
    assert (H2 : G F2 (updt tls k (l ++ [e])) ids).
    { eapply (G_append F1 F2 tls ids k e (mkobj id None key)); try exact H1; try exact Ho1; try reflexivity; try exact Hni.
      - intros a oa Ha Hoa. cbn [okey]. assert (Hae : a <> e) by (intros ->; contradiction). rewrite (Hold a Hae) in Hoa.
        destruct (g_in _ _ _ _ HG k a Ha) as (o' & Eo' & Po'). change (ob F a) with (ob d a) in Eo'.
        assert (Hia : In a ids) by (apply Hall; change (ob F a) with (ob d a); congruence).
        assert (X : exists en, In en ents /\ descr F a en).
        { clear -HD Hia. induction HD as [|b en ids ents D1 D2 IH]; [contradiction|]. destruct Hia as [->|Hia].
          - exists en. split; [left; reflexivity|exact D1].
          - destruct (IH Hia) as (en' & I1 & I2). exists en'. split; [right; exact I1|exact I2]. }
        destruct X as (en & Hen & Den). unfold descr in Den. change (ob F a) with (ob d a) in Den.
        assert (E : oa = mkobj (e_id en) (Some (e_kind en)) (e_key en)) by congruence. subst oa. cbn [okey].
        apply Hlt; [apply (Permutation_in _ (Permutation_sym HP)); exact Hen|]. assert (o' = mkobj (e_id en) (Some (e_kind en)) (e_key en)) by congruence.
        subst o'. cbn [opar] in Po'. congruence.
      - exact Hob2.
      - unfold F2. cbn [set_tail il]. rewrite I1. reflexivity.
      - unfold F2. cbn [set_tail ih]. rewrite IH1. reflexivity.
      - unfold F2. cbn [set_tail brk]. rewrite B1. reflexivity.
      - intros j Hj. unfold F2. rewrite set_tail_th, (proj2 (N.eqb_neq _ _) Hj), (T1 j Hj).
        unfold d1, F1, F0, F. cbn [set_ob malloc snd th set_tail]. unfold updk. rewrite (proj2 (N.eqb_neq _ _) Hj). reflexivity.
      - unfold F2. rewrite set_tail_th, N.eqb_refl. cbn [set_tail tl tlh]. exact DL.
      - unfold F2. cbn [set_tail tl]. exact FR.
      - unfold F2. cbn [set_tail tl]. exact AL.
      - unfold F2. rewrite set_tail_th, N.eqb_refl. reflexivity. }
    assert (Ho2 : ob F2 e = Some (mkobj id (Some k) key)) by (rewrite Hob2; apply upd_eq).
    destruct (insert_by_id_spec cmp TO F2 _ ids e _ H2 Ho2) as [((a & oa & Ha & Hoa & Hida) & _)|(_ & F3 & i1 & i2 & Ei & Ein & H3 & O3 & C3 & U3 & B3 & T3 & TL3)]; cbn [oid]; try assumption.
    { exfalso. apply Hid. cbn [oid] in Hida. rewrite Hob2 in Hoa. assert (Hae : a <> e) by (intros ->; contradiction).
      rewrite upd_neq in Hoa by exact Hae. rewrite (Hold a Hae) in Hoa.
      assert (X : exists en, In en ents /\ descr F a en).
      { clear -HD Ha. induction HD as [|b en ids ents D1 D2 IH]; [contradiction|]. destruct Ha as [->|Hia].
        - exists en. split; [left; reflexivity|exact D1].
        - destruct (IH Hia) as (en' & I1 & I2). exists en'. split; [right; exact I1|exact I2]. }
      destruct X as (en & Hen & Den). unfold descr in Den. change (ob F a) with (ob d a) in Den.
      assert (E : oa = mkobj (e_id en) (Some (e_kind en)) (e_key en)) by congruence. subst oa. cbn [oid] in Hida. rewrite <- Hida.
      apply in_map. apply (Permutation_in _ (Permutation_sym HP)). exact Hen. }
    unfold F2 in Ein. rewrite insert_by_id_set_tail in Ein.
    destruct (insert_by_id d1' e) as [[er d2]| |] eqn:E2; cbn [bind] in Ein; try discriminate.
    assert (er = OK) by congruence. subst er. assert (EF3 : F3 = set_tail d2 k (Some e) m) by congruence.
    exists d2. split; [reflexivity|]. split; [reflexivity|]. exists (i1 ++ e :: i2).
    enough (Q : CI F3 (D ++ [(k, key, id)]) (updt tls k (l ++ [e])) (i1 ++ e :: i2) /\ usecb d2 = usecb d /\ ctr d2 = ctr d) by (rewrite EF3 in Q; exact Q).
    assert (Ob3 : forall x, ob F3 x = upd (ob F1) e (Some (mkobj id (Some k) key)) x) by (intros x; rewrite O3; apply Hob2).
    split.
    - constructor.
      + exact H3.
      + rewrite Ei in HD. apply Forall2_app_inv_l in HD. destruct HD as (e1 & e2 & D1 & D2 & Ee). rewrite Ei in Hni. rewrite in_app_iff in Hni.
        exists (e1 ++ (k, key, id) :: e2). split.
        * assert (Hfr : forall x, x <> e -> ob F3 x = ob F x) by (intros x Hx; rewrite Ob3, upd_neq by exact Hx; rewrite (Hold x Hx); reflexivity).
          apply Forall2_app; [eapply Forall2_frame; [exact D1|intros Hin; apply Hni; left; exact Hin|exact Hfr]|]. constructor; [|eapply Forall2_frame; [exact D2|intros Hin; apply Hni; right; exact Hin|exact Hfr]].
          unfold descr. rewrite Ob3. apply upd_eq.
        * eapply Permutation_trans; [apply Permutation_app_comm|]. cbn [app]. apply Permutation_cons_app. rewrite Ee in HP. exact HP.
      + intros a. rewrite Ob3. unfold upd. destruct (Pos.eqb_spec a e) as [->|Hae]; [intros _; apply in_or_app; right; left; reflexivity|].
        rewrite (Hold a Hae). intros Hx. assert (Hia : In a ids) by (apply Hall; exact Hx). rewrite Ei in Hia. apply in_app_or in Hia. apply in_or_app.
        destruct Hia; [left|right; right]; assumption.
    - rewrite EF3 in U3, C3. cbn [set_tail usecb ctr] in U3, C3. unfold F2 in U3, C3. cbn [set_tail usecb ctr] in U3, C3. rewrite U3, C3, U1, C1. split; reflexivity.
  Qed.

  Definition before (k : N) (a b : entry) : Prop := (cmp k (e_key a) (e_key b) < 0)%Z.
  Lemma clone_loop_spec (s : tst) (cf : addr -> err) k : (forall a, is_success (cf a) = true) -> forall l2 es, Forall2 (descr s) l2 es ->
    forall fuel p d D tls ids,
    seg (tl s) p l2 None -> (length l2 <= fuel)%nat -> Forall (fun e => e_kind e = k) es ->
    CI (set_tail d k (lastor None (tls k)) (u32 (N.of_nat (length (tls k))))) D tls ids ->
    (tls k = [] -> lhead (tlh (th d k)) = None) ->
    NoDup (map e_id (D ++ es)) -> Forall (fun e => e_id e <> 0 /\ e_id e <= u32_max) es ->
    StronglySorted (before k) es -> (forall a b, In a D -> e_kind a = k -> In b es -> before k a b) ->
    exists d' tls' ids', clone_loop fuel cf s d k (hdor l2 None) (lastor None (tls k)) = Ret (OK, d', lastor None (tls' k)) /\
      CI (set_tail d' k (lastor None (tls' k)) (u32 (N.of_nat (length (tls' k))))) (D ++ es) tls' ids' /\
      length (tls' k) = (length (tls k) + length es)%nat /\ (forall j, j <> k -> tls' j = tls j) /\ usecb d' = usecb d /\ ctr d' = ctr d.
  Proof.
    intros Hcf l2 es HF. induction HF as [|a e l2 es HDe HF IH]; intros fuel p d D tls ids Hs Hf Hk HC Hh Hnd Hr Hss Hb.
    - exists d, tls, ids. destruct fuel; cbn [clone_loop hdor]; rewrite app_nil_r; repeat (split; [reflexivity || assumption || (cbn [length]; lia)|]); split; reflexivity.
    - cbn [length] in Hf. destruct fuel as [|f]; [lia|]. cbn [hdor clone_loop]. cbn [seg] in Hs. destruct Hs as [Ha Hs].
      unfold descr in HDe. rewrite HDe. cbn [ub_none bind oid okey]. rewrite Hcf. cbn [negb].
      inversion Hk as [|? ? Hk1 Hk2]; subst. inversion Hr as [|? ? [Hr1 Hr1'] Hr2]; subst. apply StronglySorted_inv in Hss. destruct Hss as [Hss1 Hss2].
      destruct (clone_step d D tls ids (e_kind e) (e_id e) (e_key e) (lastor None (tls (e_kind e))) HC eq_refl Hh Hr1 Hr1') as (n & d1 & d2 & E1 & E2 & ids' & HC' & U & C).
      + rewrite map_app in Hnd. cbn [map] in Hnd. apply NoDup_remove_2 in Hnd. intros Hin. apply Hnd. apply in_or_app. left. exact Hin.
      + intros en Hen Hke. apply (Hb en e Hen Hke). left. reflexivity.
      + rewrite E1. destruct (clone_link d1 (e_kind e) (lastor None (tls (e_kind e))) n) as [d1'| |]; cbn [bind] in E2 |- *; try discriminate.
        rewrite E2. cbn [bind is_success negb]. unfold get_nxt. rewrite Ha. cbn [option_map ub_none bind nxt].
        destruct (IH f (Some a) d2 (D ++ [e]) (updt tls (e_kind e) (tls (e_kind e) ++ [n])) ids') as (d' & tls' & ids'' & EL & HC2 & HL & HT & U2 & C2).
        * exact Hs.
        * lia.
        * exact Hk2.
        * rewrite updt_eq, lastor_app, app_length. cbn [length]. replace (length (tls (e_kind e)) + 1)%nat with (S (length (tls (e_kind e)))) by lia.
          destruct e as [[ke keye] ide]. exact HC'.
        * rewrite updt_eq. intros E. destruct (tls (e_kind e)); discriminate.
        * rewrite <- app_assoc. exact Hnd.
        * exact Hr2.
        * exact Hss1.
        * intros x y Hx Hkx Hy. apply in_app_or in Hx. destruct Hx as [Hx|[<-|[]]].
          -- apply Hb; [exact Hx|exact Hkx|right; exact Hy].
          -- rewrite Forall_forall in Hss2. apply Hss2. exact Hy.
        * rewrite updt_eq, lastor_app in EL. exists d', tls', ids''. split; [exact EL|]. rewrite <- app_assoc in HC2. cbn [app] in HC2. split; [exact HC2|].
          rewrite updt_eq, app_length in HL. cbn [length] in HL |- *. split; [lia|]. split; [|split; congruence].
          intros j Hj. rewrite (HT j Hj). apply updt_neq. exact Hj.
  Qed.

  Lemma G_th_ext (d d' : tst) tls ids : G d tls ids -> tl d' = tl d -> il d' = il d -> ob d' = ob d -> ih d' = ih d -> brk d' = brk d ->
    (forall j, tlh (th d' j) = tlh (th d j) /\ n_ents (th d' j) = n_ents (th d j)) -> G d' tls ids.
  Proof.
    intros H E1 E2 E3 E4 E5 E6. destruct H. constructor; try (rewrite ?E1, ?E2, ?E3, ?E4, ?E5; assumption).
    - intros k. rewrite E1, (proj1 (E6 k)). apply g_t.
    - intros k. unfold klt in *. rewrite E3. apply g_ts.
    - unfold ilt in *. rewrite E3. apply g_is.
    - intros k. rewrite (proj2 (E6 k)). apply g_nt.
  Qed.

  (** One table. *)
  Lemma table_clone_spec (s : tst) stls sids cf k es d D tls ids :
    (forall a, is_success (cf a) = true) -> G s stls sids -> Forall2 (descr s) (stls k) es -> Forall (fun e => e_kind e = k) es ->
    CI d D tls ids -> tls k = [] -> (forall en, In en D -> e_kind en <> k) ->
    NoDup (map e_id (D ++ es)) -> Forall (fun e => e_id e <> 0 /\ e_id e <= u32_max) es -> StronglySorted (before k) es ->
    exists d' tls' ids', table_clone cf s d k = Ret (OK, d') /\ CI d' (D ++ es) tls' ids' /\
      (forall j, j <> k -> tls' j = tls j) /\ usecb d' = usecb d /\ ctr d' = ctr d.
  Proof.
    intros Hcf HS HF Hk HC Ht Hno Hnd Hr Hss. unfold table_clone.
    pose proof (g_t _ _ _ _ (c_G _ _ _ _ HC) k) as Hd. rewrite Ht in Hd. destruct Hd as (_ & Hh & Htl & _). cbn [hdor lastor] in Hh, Htl. rewrite Hh.
    destruct (g_t _ _ _ _ HS k) as (Snd & Sh & St & Ss). rewrite Sh.
    destruct (clone_loop_spec s cf k Hcf (stls k) es HF (fuel_of s) None d D tls ids) as (d' & tls' & ids' & EL & HC2 & HL & HT & U & C); auto.
    - pose proof (tls_len cmp s stls sids k HS). lia.
    - rewrite Ht. cbn [lastor length N.of_nat]. destruct HC as [HG HD Hall]. constructor; [|exact HD|exact Hall].
      eapply G_th_ext; [exact HG|reflexivity..|]. intros j. rewrite set_tail_th. destruct (N.eqb_spec j k) as [->|]; [|split; reflexivity].
      cbn [tlh n_ents]. rewrite (g_nt _ _ _ _ HG k), Ht. split; [|reflexivity]. destruct (tlh (th d k)) as [lh lt]. cbn [lhead ltail] in *. congruence.
    - intros a b Ha Hka _. exfalso. apply (Hno a Ha Hka).
    - rewrite Ht in EL. cbn [lastor] in EL. rewrite EL. cbn [bind is_success].
      exists (set_tail d' k (lastor None (tls' k)) (n_ents (th s k))), tls', ids'. split; [reflexivity|].
      assert (Hn : n_ents (th s k) = u32 (N.of_nat (length (tls' k)))).
      { rewrite (g_nt _ _ _ _ HS k), HL, Ht. cbn [length Nat.add]. rewrite (Forall2_length _ _ _ HF). reflexivity. }
      rewrite Hn. split; [exact HC2|]. split; [exact HT|]. split; [exact U|exact C].
  Qed.

  (** All tables, one after the other. *)
  Lemma clone_tables_spec (s : tst) stls sids cf (te : N -> list entry) :
    (forall k a, is_success (cf k a) = true) -> G s stls sids -> (forall k, Forall2 (descr s) (stls k) (te k)) ->
    (forall k, Forall (fun e => e_kind e = k) (te k)) ->
    (forall k, Forall (fun e => e_id e <> 0 /\ e_id e <= u32_max) (te k)) -> (forall k, StronglySorted (before k) (te k)) ->
    forall ks d D tls ids, NoDup ks -> CI d D tls ids -> (forall k, In k ks -> tls k = []) -> (forall en, In en D -> ~ In (e_kind en) ks) ->
    NoDup (map e_id (D ++ flat_map te ks)) ->
    exists d' tls' ids', clone_tables cf s d ks = Ret (OK, d') /\ CI d' (D ++ flat_map te ks) tls' ids' /\ usecb d' = usecb d /\ ctr d' = ctr d.
  Proof.
    intros Hcf HS HF Hk Hr Hss. induction ks as [|k ks IH]; intros d D tls ids Hnk HC Ht Hno Hnd; cbn [clone_tables flat_map] in *.
    - exists d, tls, ids. rewrite app_nil_r. repeat (split; [reflexivity || assumption|]). reflexivity.
    - inversion Hnk as [|? ? Hk1 Hk2]; subst. rewrite app_assoc in Hnd.
      destruct (table_clone_spec s stls sids (cf k) k (te k) d D tls ids (Hcf k) HS (HF k) (Hk k) HC) as (d1 & tls1 & ids1 & E1 & HC1 & HT1 & U1 & C1); auto.
      + apply Ht. left. reflexivity.
      + intros en Hen E. apply (Hno en Hen). left. congruence.
      + rewrite map_app in Hnd. clear -Hnd. revert Hnd. generalize (map e_id (flat_map te ks)). induction (map e_id (D ++ te k)) as [|x l IHl]; intros m H; [constructor|].
        cbn [app] in H. inversion H; subst. constructor; [intros Hin; apply H2, in_or_app; left; exact Hin|eapply IHl; eauto].
      + rewrite E1. cbn [bind is_success].
        destruct (IH d1 (D ++ te k) tls1 ids1 Hk2 HC1) as (d' & tls' & ids' & E2 & HC2 & U2 & C2).
        * intros j Hj. rewrite HT1 by (intros ->; contradiction). apply Ht. right. exact Hj.
        * intros en Hen Hin. apply in_app_or in Hen. destruct Hen as [Hen|Hen]; [apply (Hno en Hen); right; exact Hin|].
          pose proof (Hk k) as Hkk. rewrite Forall_forall in Hkk. rewrite (Hkk en Hen) in Hin. contradiction.
        * exact Hnd.
        * exists d', tls', ids'. rewrite app_assoc. split; [exact E2|]. split; [exact HC2|]. split; congruence.
  Qed.

  (** The entries of one table, in order. *)
  Definition entries_of (s : tst) (stls : N -> list addr) (k : N) : list entry :=
    flat_map (fun a => match ob s a with Some o => [(k, okey o, oid o)] | None => [] end) (stls k).
  Lemma flat_perm (te : N -> list entry) (live : list entry) ks :
    NoDup ks -> (forall e, In e live -> In (e_kind e) ks) -> (forall k, Permutation (te k) (filter (fun e => e_kind e =? k) live)) ->
    Permutation (flat_map te ks) live.
  Proof.
    intros Hnd Hin Hp.
    assert (A : Permutation (flat_map te ks) (flat_map (fun k => filter (fun e => e_kind e =? k) live) ks)).
    { clear Hin Hnd. induction ks as [|k ks IH]; [constructor|]. cbn [flat_map]. apply Permutation_app; [apply Hp|exact IH]. }
    eapply Permutation_trans; [exact A|]. clear A Hp.
    induction live as [|x live IH].
    - cbn [filter]. induction ks; [constructor|]. cbn [flat_map app]. apply IHks; [inversion Hnd; assumption|intros e []].
    - assert (Hx : In (e_kind x) ks) by (apply Hin; left; reflexivity).
      apply in_split in Hx. destruct Hx as (k1 & k2 & Ek). specialize (IH (fun e He => Hin e (or_intror He))). rewrite Ek in *.
      assert (F : forall l, ~ In (e_kind x) l -> flat_map (fun k => filter (fun e => e_kind e =? k) (x :: live)) l = flat_map (fun k => filter (fun e => e_kind e =? k) live) l).
      { induction l as [|j l IHl]; intros Hl; [reflexivity|]. cbn [flat_map filter]. destruct (N.eqb_spec (e_kind x) j) as [E|E]; [exfalso; apply Hl; left; congruence|].
        f_equal. apply IHl. intros Hi. apply Hl. right. exact Hi. }
      apply NoDup_remove_2 in Hnd. rewrite in_app_iff in Hnd. rewrite flat_map_app in *. cbn [flat_map] in *.
      rewrite (F k1), (F k2) by tauto. cbn [filter]. rewrite N.eqb_refl. cbn [app].
      eapply Permutation_trans; [symmetry; apply Permutation_middle|]. constructor. exact IH.
  Qed.

  Lemma clone_ok (s : tst) live n cf ks :
    TI cmp s live n -> (forall k a, is_success (cf k a) = true) -> NoDup ks -> (forall e, In e live -> In (e_kind e) ks) ->
    exists d, context_clone cf s ks = Ret (OK, d) /\ TI cmp d live n /\ usecb d = usecb s /\ ctr d = ctr s.
  Proof.
    intros (tls & ids & ents & H) Hcf Hnd Hin. pose proof (i_G _ _ _ _ _ _ _ H) as HG.
    set (te := entries_of s tls).
    assert (HF : forall k, Forall2 (descr s) (tls k) (te k)).
    { intros k. unfold te, entries_of. assert (A : forall a, In a (tls k) -> exists o, ob s a = Some o /\ opar o = Some k) by apply (g_in _ _ _ _ HG k).
      revert A. induction (tls k) as [|a l IH]; intros A; [constructor|]. cbn [flat_map]. destruct (A a) as (o & Eo & Po); [left; reflexivity|]. rewrite Eo. cbn [app].
      constructor; [unfold descr; rewrite Eo; destruct o as [oi op ok]; cbn in *; congruence|]. apply IH. intros b Hb. apply A. right. exact Hb. }
    assert (HK : forall k, Forall (fun e => e_kind e = k) (te k)).
    { intros k. apply Forall_forall. intros e He. unfold te, entries_of in He. apply in_flat_map in He. destruct He as (a & _ & He). destruct (ob s a); [|contradiction].
      destruct He as [<-|[]]. reflexivity. }
    assert (HP : forall k, Permutation (te k) (filter (fun e => e_kind e =? k) live)).
    { intros k. assert (Hids : Permutation (tls k) (filter (isk s k) ids)).
      { apply NoDup_Permutation; [apply (g_t _ _ _ _ HG k)|apply NoDup_filter, (g_i _ _ _ _ HG)|]. intros a. rewrite filter_In. unfold isk. split.
        - intros Ha. destruct (g_in _ _ _ _ HG k a Ha) as (o & Eo & Hp). split; [apply (i_all _ _ _ _ _ _ _ H); congruence|]. rewrite Eo, Hp. apply N.eqb_refl.
        - intros (Ha & Hk). destruct (ob s a) as [o|] eqn:Eo; [|discriminate]. destruct (opar o) as [k'|] eqn:Ep; [|discriminate].
          apply N.eqb_eq in Hk. subst. eapply (g_par _ _ _ _ HG); eauto. }
      set (ent := fun a => match ob s a with Some o => [(k, okey o, oid o)] | None => [] end).
      assert (A : Permutation (te k) (flat_map ent (filter (isk s k) ids))) by (apply Permutation_flat_map, Hids).
      eapply Permutation_trans; [exact A|].
      assert (B : flat_map ent (filter (isk s k) ids) = filter (fun e => e_kind e =? k) ents).
      { pose proof (i_d _ _ _ _ _ _ _ H) as HD. clear -HD. induction HD as [|a e ids ents D1 D2 IH]; [reflexivity|]. cbn [filter]. unfold descr in D1.
        unfold isk at 1. rewrite D1. cbn [opar]. destruct (N.eqb_spec (e_kind e) k) as [E|E]; [|exact IH]. cbn [flat_map]. unfold ent at 1. rewrite D1. cbn [okey oid app].
        rewrite IH. f_equal. destruct e as [[a1 a2] a3]. cbn in *. congruence. }
      rewrite B. clear -H. pose proof (i_p _ _ _ _ _ _ _ H) as HPx. clear H. induction HPx; cbn [filter]; repeat match goal with |- context[if ?c then _ else _] => destruct c end; try constructor; try assumption; try reflexivity.
      eapply Permutation_trans; eauto. }
    assert (Hsub : forall k e, In e (te k) -> In e live).
    { intros k e He. apply (Permutation_in _ (HP k)) in He. apply filter_In in He. apply He. }
    assert (HR : forall k, Forall (fun e => e_id e <> 0 /\ e_id e <= u32_max) (te k)).
    { intros k. apply Forall_forall. intros e He. assert (X : 0 < e_id e <= u32_max) by (eapply live_id_range; [exact TO|exact H|exact (Hsub k e He)]). lia. }
    assert (HSS : forall k, StronglySorted (before k) (te k)).
    { intros k. pose proof (g_ts _ _ _ _ HG k) as Hs. pose proof (HF k) as HFk. revert HFk Hs. generalize (te k). generalize (tls k). clear.
      induction l as [|a l IH]; intros l0 HFk Hs; inversion HFk; subst; [constructor|]. apply StronglySorted_inv in Hs. destruct Hs as [S1 S2]. constructor; [apply IH; assumption|].
      rewrite Forall_forall in *. intros z Hz.
      assert (X : exists b, In b l /\ descr s b z).
      { clear -H3 Hz. induction H3 as [|b w l l' D1 D2 IH2]; destruct Hz; [subst; exists b; split; [left; reflexivity|exact D1]|].
        destruct (IH2 H) as (c & C1 & C2). exists c. split; [right; exact C1|exact C2]. }
      destruct X as (b & Hb & Db). destruct (S2 b Hb) as (oa & ob' & E1 & E2 & Hlt). unfold descr in *. unfold before.
      assert (oa = mkobj (e_id y) (Some (e_kind y)) (e_key y)) by congruence. assert (ob' = mkobj (e_id z) (Some (e_kind z)) (e_key z)) by congruence. subst oa ob'. exact Hlt. }
    assert (HNL : NoDup (map e_id live)) by (apply (consistent_ok cmp TO s live n); exists tls, ids, ents; exact H).
    assert (HFP : Permutation (flat_map te ks) live) by (apply flat_perm; assumption).
    set (d0 := set_ctr (tinit (usecb s)) (ctr s) : tst).
    assert (HC0 : CI d0 [] (fun _ => []) []).
    { destruct (init_ok cmp (usecb s)) as (t0 & i0 & e0 & H0). pose proof (i_G _ _ _ _ _ _ _ H0) as G0.
      constructor.
      - assert (D : dll (fun _ => None) (mklhdr None None) []) by (repeat split; constructor).
        constructor; try (cbn; intros; contradiction || discriminate || congruence || reflexivity || tauto || (constructor; fail)).
      - exists []. split; constructor.
      - cbn. congruence. }
    destruct (clone_tables_spec s tls ids cf te Hcf HG HF HK HR HSS ks d0 [] (fun _ => []) [] Hnd HC0) as (d & tls' & ids' & E & HC & U & C).
    - reflexivity.
    - intros en [].
    - cbn [app]. eapply Permutation_NoDup; [|exact HNL]. apply Permutation_map. symmetry. exact HFP.
    - exists d. split; [exact E|]. cbn [app] in HC. destruct HC as [HGd (ents' & HD & HPd) Hall].
      split; [|split; [exact U|exact C]]. exists tls', ids', ents'. constructor.
      + exact HGd.
      + exact HD.
      + eapply Permutation_trans; [|exact HPd]. symmetry. exact HFP.
      + exact Hall.
      + rewrite U, C. exact (i_ctr _ _ _ _ _ _ _ H).
  Qed.
End P.
