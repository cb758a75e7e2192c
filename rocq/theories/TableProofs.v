From Verif Require Import Base Links LinksProofs Table TableSpec.
From Coq Require Import Permutation Sorted.
Open Scope N_scope.
Ltac Zify.zify_post_hook ::= Z.to_euclidean_division_equations.

Lemma nodup_bounded (l : list positive) b :
  NoDup l -> (forall a, In a l -> (a < b)%positive) -> (length l < Pos.to_nat b)%nat.
Proof.
  intros Hnd Hb.
  assert (H : (length (map Pos.to_nat l) <= length (seq 1 (Pos.to_nat b - 1)))%nat).
  { apply NoDup_incl_length.
    - apply FinFun.Injective_map_NoDup; [|exact Hnd]. intros x y. apply Pos2Nat.inj.
    - intros x Hx. apply in_map_iff in Hx. destruct Hx as (a & <- & Ha). apply Hb in Ha. apply in_seq. lia. }
  rewrite map_length, seq_length in H. lia.
Qed.

Lemma SS_app {A} (R : A -> A -> Prop) l1 l2 :
  StronglySorted R (l1 ++ l2) <-> StronglySorted R l1 /\ StronglySorted R l2 /\ (forall a b, In a l1 -> In b l2 -> R a b).
Proof.
  induction l1 as [|a l1 IH]; cbn [app].
  - split; [intros H; repeat split; [constructor|exact H|intros a b []]|tauto].
  - split.
    + intros H. apply StronglySorted_inv in H. destruct H as [H1 H2]. apply IH in H1. destruct H1 as (A1 & A2 & A3).
      rewrite Forall_forall in H2. repeat split.
      * constructor; [exact A1|]. apply Forall_forall. intros x Hx. apply H2, in_or_app. left; exact Hx.
      * exact A2.
      * intros x y [->|Hx] Hy; [apply H2, in_or_app; right; exact Hy|apply A3; assumption].
    + intros (H1 & H2 & H3). apply StronglySorted_inv in H1. destruct H1 as [H1 H1']. constructor.
      * apply IH. repeat split; [exact H1|exact H2|]. intros x y Hx Hy. apply H3; [right|]; assumption.
      * rewrite Forall_forall in *. intros x Hx. apply in_app_or in Hx. destruct Hx as [Hx|Hx]; [auto|].
        apply H3; [left; reflexivity|exact Hx].
Qed.
Lemma SS_impl {A} (R Q : A -> A -> Prop) l :
  (forall a b, In a l -> In b l -> R a b -> Q a b) -> StronglySorted R l -> StronglySorted Q l.
Proof.
  induction l as [|a l IH]; intros Hi H; [constructor|]. apply StronglySorted_inv in H. destruct H as [H1 H2].
  constructor.
  - apply IH; [|exact H1]. intros x y Hx Hy. apply Hi; right; assumption.
  - rewrite Forall_forall in *. intros x Hx. apply Hi; [left; reflexivity|right; exact Hx|auto].
Qed.
Lemma SS_map {A B} (f : A -> B) (R : B -> B -> Prop) l :
  StronglySorted (fun a b => R (f a) (f b)) l -> StronglySorted R (map f l).
Proof.
  induction l as [|a l IH]; intros H; [constructor|]. apply StronglySorted_inv in H. destruct H as [H1 H2].
  cbn [map]. constructor; [apply IH, H1|]. rewrite Forall_forall in *. intros x Hx. apply in_map_iff in Hx.
  destruct Hx as (y & <- & Hy). apply H2, Hy.
Qed.

  Lemma id_cmp_sign a b : (id_cmp a b >=? 0)%Z = negb (a <? b) /\ (id_cmp a b = 0%Z <-> a = b).
  Proof. unfold id_cmp. destruct (N.ltb_spec a b), (N.ltb_spec b a); cbn; split; try reflexivity; try lia; split; lia. Qed.

Section P.
  Context {K : Type}.
  Variable cmp : N -> K -> K -> Z.
  Hypothesis TO : forall k, total_order (cmp k).
  Notation tst := (tst K).
  Notation objrec := (objrec K).

  Lemma cmp_sym0 k a b : cmp k a b = 0%Z -> cmp k b a = 0%Z.
  Proof. intros H. pose proof (to_anti _ (TO k) a b) as A. rewrite H in A. cbn in A. destruct (cmp k b a); cbn in A; congruence. Qed.
  Lemma cmp_pos_neg k a b : (cmp k a b > 0)%Z <-> (cmp k b a < 0)%Z.
  Proof.
    pose proof (to_anti _ (TO k) a b) as A.
    destruct (cmp k a b) as [|p|p], (cmp k b a) as [|q|q]; cbn in A; try discriminate; split; intros; try lia; reflexivity.
  Qed.
  Lemma cmp_trans_lt k a b c : (cmp k a b < 0)%Z -> (cmp k b c <= 0)%Z -> (cmp k a c < 0)%Z.
  Proof.
    intros H1 H2. assert (H3 : (cmp k a c <= 0)%Z) by (apply (to_trans _ (TO k) a b c); lia).
    destruct (Z.eq_dec (cmp k a c) 0) as [E|E]; [|lia]. exfalso.
    apply cmp_sym0 in E. assert (H4 : (cmp k b a <= 0)%Z) by (apply (to_trans _ (TO k) b c a); lia).
    apply cmp_pos_neg in H1. lia.
  Qed.
  Lemma cmp_trans_lt2 k a b c : (cmp k a b <= 0)%Z -> (cmp k b c < 0)%Z -> (cmp k a c < 0)%Z.
  Proof.
    intros H1 H2. assert (H3 : (cmp k a c <= 0)%Z) by (apply (to_trans _ (TO k) a b c); lia).
    destruct (Z.eq_dec (cmp k a c) 0) as [E|E]; [|lia]. exfalso.
    apply cmp_sym0 in E. assert (H4 : (cmp k c b <= 0)%Z) by (apply (to_trans _ (TO k) c a b); lia).
    apply cmp_pos_neg in H2. lia.
  Qed.

  Ltac fixo := repeat match goal with
    | H1 : ob ?s ?a = Some ?x, H2 : ob ?s ?a = Some ?y |- _ => assert (x = y) by congruence; subst x; clear H1 end;
    repeat match goal with H : ob _ _ = Some _ |- _ => clear H end; cbn [okey oid] in *; (assumption || auto).

  Definition klt (s : tst) k a b : Prop :=
    exists oa o', ob s a = Some oa /\ ob s b = Some o' /\ (cmp k (okey oa) (okey o') < 0)%Z.
  Definition ilt (s : tst) a b : Prop :=
    exists oa o', ob s a = Some oa /\ ob s b = Some o' /\ oid oa < oid o'.

  Record G (s : tst) (tls : N -> list addr) (ids : list addr) : Prop := {
    g_t : forall k, dll (tl s) (tlh (th s k)) (tls k);
    g_i : dll (il s) (tlh (ih s)) ids;
    g_ta : forall a, tl s a = None <-> ob s a = None;
    g_ia : forall a, il s a = None <-> ob s a = None;
    g_brk : forall a, ob s a <> None -> (a < brk s)%positive;
    g_in : forall k a, In a (tls k) -> exists o, ob s a = Some o /\ opar o = Some k;
    g_par : forall a o k, ob s a = Some o -> opar o = Some k -> In a (tls k);
    g_ii : forall a, In a ids -> exists o, ob s a = Some o /\ oid o <> 0 /\ oid o <= u32_max;
    g_ts : forall k, StronglySorted (klt s k) (tls k);
    g_is : StronglySorted (ilt s) ids;
    g_nt : forall k, n_ents (th s k) = u32 (N.of_nat (length (tls k)));
    g_ni : n_ents (ih s) = u32 (N.of_nat (length ids))
  }.

  Lemma tls_len s tls ids k : G s tls ids -> (length (tls k) < fuel_of s)%nat.
  Proof.
    intros H. apply nodup_bounded; [apply (g_t _ _ _ H k)|]. intros a Ha. apply (g_brk _ _ _ H).
    destruct (g_in _ _ _ H k a Ha) as (o & -> & _). discriminate.
  Qed.
  Lemma ids_len s tls ids : G s tls ids -> (length ids < fuel_of s)%nat.
  Proof.
    intros H. apply nodup_bounded; [apply (g_i _ _ _ H)|]. intros a Ha. apply (g_brk _ _ _ H).
    destruct (g_ii _ _ _ H a Ha) as (o & -> & _). discriminate.
  Qed.

  Lemma tseek_seg (s : tst) k key : forall l p fuel,
    seg (tl s) p l None -> (forall a, In a l -> ob s a <> None) -> (length l <= fuel)%nat ->
    exists l1 l2, l = l1 ++ l2 /\
      (forall a o, In a l1 -> ob s a = Some o -> (cmp k (okey o) key < 0)%Z) /\
      match l2 with
      | [] => tseek cmp fuel s k key (hdor l None) = Ret None
      | a :: _ => exists o, ob s a = Some o /\ (0 <= cmp k (okey o) key)%Z /\
                            tseek cmp fuel s k key (hdor l None) = Ret (Some (a, cmp k (okey o) key))
      end.
  Proof.
    induction l as [|a l IH]; intros p fuel Hs Ho Hf.
    - exists [], []. repeat split; [intros a o []|destruct fuel; reflexivity].
    - destruct fuel as [|f]; [cbn in Hf; lia|]. cbn [seg] in Hs. destruct Hs as [Ha Hs].
      destruct (ob s a) as [o|] eqn:Eo; [|exfalso; apply (Ho a); [left; reflexivity|exact Eo]].
      cbn [hdor tseek]. rewrite Eo. cbn [ub_none bind].
      destruct (Z.geb_spec (cmp k (okey o) key) 0) as [Hc|Hc].
      + exists [], (a :: l). repeat split; [intros b o' []|]. exists o. repeat split; assumption.
      + unfold get_nxt. rewrite Ha. cbn [option_map nxt ub_none bind].
        destruct (IH (Some a) f Hs) as (l1 & l2 & E & H1 & H2).
        { intros b Hb. apply Ho. right. exact Hb. }
        { cbn [length] in Hf. lia. }
        exists (a :: l1), l2. split; [rewrite E; reflexivity|]. split; [|exact H2].
        intros b o' [<-|Hb] Hob; [assert (o' = o) by congruence; subst; exact Hc|eapply H1; eauto].
  Qed.
  Lemma iseek_seg (s : tst) id : forall l p fuel,
    seg (il s) p l None -> (forall a, In a l -> ob s a <> None) -> (length l <= fuel)%nat ->
    exists l1 l2, l = l1 ++ l2 /\
      (forall a o, In a l1 -> ob s a = Some o -> oid o < id) /\
      match l2 with
      | [] => iseek fuel s id (hdor l None) = Ret None
      | a :: _ => exists o, ob s a = Some o /\ id <= oid o /\
                            iseek fuel s id (hdor l None) = Ret (Some (a, id_cmp (oid o) id))
      end.
  Proof.
    induction l as [|a l IH]; intros p fuel Hs Ho Hf.
    - exists [], []. repeat split; [intros a o []|destruct fuel; reflexivity].
    - destruct fuel as [|f]; [cbn in Hf; lia|]. cbn [seg] in Hs. destruct Hs as [Ha Hs].
      destruct (ob s a) as [o|] eqn:Eo; [|exfalso; apply (Ho a); [left; reflexivity|exact Eo]].
      cbn [hdor iseek]. rewrite Eo. cbn [ub_none bind].
      rewrite (proj1 (id_cmp_sign _ _)). destruct (N.ltb_spec (oid o) id) as [Hc|Hc]; cbn [negb].
      + unfold get_nxt. rewrite Ha. cbn [option_map nxt ub_none bind].
        destruct (IH (Some a) f Hs) as (l1 & l2 & E & H1 & H2).
        { intros b Hb. apply Ho. right. exact Hb. }
        { cbn [length] in Hf. lia. }
        exists (a :: l1), l2. split; [rewrite E; reflexivity|]. split; [|exact H2].
        intros b o' [<-|Hb] Hob; [assert (o' = o) by congruence; subst; exact Hc|eapply H1; eauto].
      + exists [], (a :: l). repeat split; [intros b o' []|]. exists o. repeat split; assumption.
  Qed.

  (** Seeking in a well-formed table. *)
  Lemma tseek_G s tls ids k key : G s tls ids ->
    exists l1 l2, tls k = l1 ++ l2 /\
      (forall a o, In a l1 -> ob s a = Some o -> (cmp k (okey o) key < 0)%Z) /\
      match l2 with
      | [] => tseek cmp (fuel_of s) s k key (lhead (tlh (th s k))) = Ret None
      | a :: _ => exists o, ob s a = Some o /\ (0 <= cmp k (okey o) key)%Z /\
            tseek cmp (fuel_of s) s k key (lhead (tlh (th s k))) = Ret (Some (a, cmp k (okey o) key))
      end.
  Proof.
    intros H. destruct (g_t _ _ _ H k) as (Hnd & Hh & Ht & Hs). rewrite Hh. eapply tseek_seg; [exact Hs| |].
    - intros a Ha. destruct (g_in _ _ _ H k a Ha) as (o & -> & _). discriminate.
    - pose proof (tls_len _ _ _ k H). lia.
  Qed.
  Lemma iseek_G s tls ids id : G s tls ids ->
    exists l1 l2, ids = l1 ++ l2 /\
      (forall a o, In a l1 -> ob s a = Some o -> oid o < id) /\
      match l2 with
      | [] => iseek (fuel_of s) s id (lhead (tlh (ih s))) = Ret None
      | a :: _ => exists o, ob s a = Some o /\ id <= oid o /\
            iseek (fuel_of s) s id (lhead (tlh (ih s))) = Ret (Some (a, id_cmp (oid o) id))
      end.
  Proof.
    intros H. destruct (g_i _ _ _ H) as (Hnd & Hh & Ht & Hs). rewrite Hh. eapply iseek_seg; [exact Hs| |].
    - intros a Ha. destruct (g_ii _ _ _ H a Ha) as (o & -> & _). discriminate.
    - pose proof (ids_len _ _ _ H). lia.
  Qed.

  (** After the sought position every entry is larger. *)
  Lemma after_key s tls ids k key l1 a l2 o : G s tls ids -> tls k = l1 ++ a :: l2 -> ob s a = Some o ->
    (0 <= cmp k (okey o) key)%Z ->
    forall b ob', In b l2 -> ob s b = Some ob' -> (cmp k (okey ob') key > 0)%Z.
  Proof.
    intros H E Ho Hc b ob' Hb Hob. pose proof (g_ts _ _ _ H k) as Hs. rewrite E in Hs. apply SS_app in Hs.
    destruct Hs as (_ & Hs & _). apply StronglySorted_inv in Hs. destruct Hs as [_ Hs]. rewrite Forall_forall in Hs.
    destruct (Hs b Hb) as (o1 & o2 & E1 & E2 & Hlt).
    assert (o1 = o) by congruence. assert (o2 = ob') by congruence. subst.
    apply cmp_pos_neg. eapply cmp_trans_lt2; [|exact Hlt].
    destruct (Z.eq_dec (cmp k (okey o) key) 0) as [Z|Z]; [apply cmp_sym0 in Z; lia|].
    assert (cmp k (okey o) key > 0)%Z by lia. apply cmp_pos_neg in H0. lia.
  Qed.
  Lemma after_id s tls ids id l1 a l2 o : G s tls ids -> ids = l1 ++ a :: l2 -> ob s a = Some o -> id <= oid o ->
    forall b ob', In b l2 -> ob s b = Some ob' -> id < oid ob'.
  Proof.
    intros H E Ho Hc b ob' Hb Hob. pose proof (g_is _ _ _ H) as Hs. rewrite E in Hs. apply SS_app in Hs.
    destruct Hs as (_ & Hs & _). apply StronglySorted_inv in Hs. destruct Hs as [_ Hs]. rewrite Forall_forall in Hs.
    destruct (Hs b Hb) as (o1 & o2 & E1 & E2 & Hlt).
    assert (o1 = o) by congruence. assert (o2 = ob') by congruence. subst. lia.
  Qed.

  Lemma u32_succ x : u32 (u32 x + 1) = u32 (x + 1).
  Proof. unfold u32. lia. Qed.
  Lemma u32_pred x : u32 (u32 (x + 1) + u32_max) = u32 x.
  Proof. unfold u32, u32_max. lia. Qed.

  Lemma insert_by_id_spec s tls ids e o :
    G s tls ids -> ob s e = Some o -> oid o <> 0 -> oid o <= u32_max -> ~ In e ids ->
    ((exists a oa, In a ids /\ ob s a = Some oa /\ oid oa = oid o) /\ insert_by_id s e = Ret (ITEM_ALREADY_PRESENT, s)) \/
    ((forall a oa, In a ids -> ob s a = Some oa -> oid oa <> oid o) /\
     exists s' l1 l2, ids = l1 ++ l2 /\ insert_by_id s e = Ret (OK, s') /\ G s' tls (l1 ++ e :: l2) /\
       ob s' = ob s /\ ctr s' = ctr s /\ usecb s' = usecb s /\ brk s' = brk s /\ th s' = th s /\ tl s' = tl s).
  Proof.
    intros H Ho Hnz Hmx Hni. unfold insert_by_id. rewrite Ho. cbn [ub_none bind].
    rewrite (proj2 (N.eqb_neq _ _) Hnz).
    destruct (iseek_G s tls ids (oid o) H) as (l1 & l2 & E & H1 & H2).
    assert (Hlink : (match l2 with [] => True | a :: _ => forall oa, ob s a = Some oa -> oid o < oid oa end) ->
      (forall a oa, In a ids -> ob s a = Some oa -> oid oa <> oid o) /\
      exists s' l1 l2', ids = l1 ++ l2' /\
      bind (ub_none (link_before (il s) (tlh (ih s)) (hdor l2 None) e)) (fun '(h, hd) =>
        Ret (OK, set_il s h (mkth hd (u32 (n_ents (ih s) + 1)) (u32 (n_inserts (ih s) + 1)) (n_deletes (ih s))))) = Ret (OK, s')
      /\ G s' tls (l1 ++ e :: l2') /\
       ob s' = ob s /\ ctr s' = ctr s /\ usecb s' = usecb s /\ brk s' = brk s /\ th s' = th s /\ tl s' = tl s).
    { intros Hgt.
      assert (Hall : forall a oa, In a l2 -> ob s a = Some oa -> oid o < oid oa).
      { destruct l2 as [|b l2]; [intros ? ? []|]. intros a oa Ha Hoa.
        destruct H2 as (o2 & Eo2 & Hle & _). destruct Ha as [->|Ha]; [apply Hgt, Hoa|].
        eapply after_id; [exact H|exact E|exact Eo2|exact Hle|exact Ha|exact Hoa]. }
      split.
      { intros a oa Ha Hoa. rewrite E in Ha. apply in_app_or in Ha. destruct Ha as [Ha|Ha].
        - pose proof (H1 _ _ Ha Hoa). lia.
        - pose proof (Hall _ _ Ha Hoa). lia. }
      pose proof (g_i _ _ _ H) as Hd. rewrite E in Hd.
      destruct (link_before_spec (il s) (tlh (ih s)) l1 l2 e) as (h' & hd' & El & Hd' & Hfr & Hal); [exact Hd|rewrite <- E; exact Hni| |].
      { rewrite (g_ia _ _ _ H). congruence. }
      rewrite El. cbn [ub_none bind]. eexists. exists l1, l2. split; [exact E|]. split; [reflexivity|].
      split; [|cbn; repeat split; reflexivity].
      constructor; cbn [set_il tl il ob th ih brk tlh n_ents].
      - apply (g_t _ _ _ H).
      - exact Hd'.
      - apply (g_ta _ _ _ H).
      - intros a. rewrite Hal. apply (g_ia _ _ _ H).
      - apply (g_brk _ _ _ H).
      - apply (g_in _ _ _ H).
      - apply (g_par _ _ _ H).
      - intros a Ha. apply in_app_or in Ha. destruct Ha as [Ha|[<-|Ha]].
        + apply (g_ii _ _ _ H). rewrite E. apply in_or_app. left. exact Ha.
        + exists o. repeat split; assumption.
        + apply (g_ii _ _ _ H). rewrite E. apply in_or_app. right. exact Ha.
      - apply (g_ts _ _ _ H).
      - pose proof (g_is _ _ _ H) as Hs. rewrite E in Hs. apply SS_app in Hs. destruct Hs as (S1 & S2 & S3).
        assert (Hob : forall a, In a (l1 ++ l2) -> exists oa, ob s a = Some oa).
        { intros a Ha. rewrite <- E in Ha. destruct (g_ii _ _ _ H a Ha) as (oa & Eoa & _). exists oa. exact Eoa. }
        apply SS_app. split; [exact S1|]. split.
        + constructor; [exact S2|]. apply Forall_forall. intros b Hb.
          destruct (Hob b) as (ob' & Eob); [apply in_or_app; right; exact Hb|].
          exists o, ob'. repeat split; [exact Ho|exact Eob|eapply Hall; eauto].
        + intros a b Ha [<-|Hb].
          * destruct (Hob a) as (oa & Eoa); [apply in_or_app; left; exact Ha|].
            exists oa, o. repeat split; [exact Eoa|exact Ho|eapply H1; eauto].
          * apply S3; assumption.
      - apply (g_nt _ _ _ H).
      - rewrite (g_ni _ _ _ H), u32_succ, E, !app_length. cbn [length]. f_equal. lia. }
    destruct l2 as [|a l2].
    - right. rewrite H2. cbn [bind option_map hdor]. apply Hlink. exact I.
    - destruct H2 as (oa & Eoa & Hle & Es). rewrite Es. cbn [bind option_map fst].
      destruct (N.eq_dec (oid oa) (oid o)) as [Eq|Ne].
      + left. rewrite (proj2 (proj2 (id_cmp_sign (oid oa) (oid o))) Eq). split; [|reflexivity].
        exists a, oa. split; [rewrite E; apply in_or_app; right; left; reflexivity|]. split; assumption.
      + right. assert (Hgt : oid o < oid oa) by lia.
        assert (Hic : id_cmp (oid oa) (oid o) = 1%Z).
        { unfold id_cmp. destruct (N.ltb_spec (oid oa) (oid o)), (N.ltb_spec (oid o) (oid oa)); lia. }
        rewrite Hic. apply Hlink. intros ox Eox. assert (ox = oa) by congruence. subst. exact Hgt.
  Qed.

  Lemma delete_by_id_1_spec s tls l1 l2 e o :
    G s tls (l1 ++ e :: l2) -> ob s e = Some o -> 
    exists s', delete_by_id_1 s e = Ret (OK, s') /\ G s' tls (l1 ++ l2) /\
      (forall x, ob s' x = upd (ob s) e (Some (mkobj 0 (opar o) (okey o))) x) /\
      (ctr s' = ctr s \/ ctr s' = oid o) /\ usecb s' = usecb s /\ brk s' = brk s /\ th s' = th s /\ tl s' = tl s.
  Proof.
    intros H Ho. unfold delete_by_id_1. rewrite Ho. cbn [ub_none bind].
    assert (Hoid : oid o <> 0).
    { destruct (g_ii _ _ _ H e) as (o' & Eo & Hnz & _); [apply in_or_app; right; left; reflexivity|]. congruence. }
    rewrite (proj2 (N.eqb_neq _ _) Hoid).
    destruct (unlink_spec (il s) (tlh (ih s)) l1 l2 e (g_i _ _ _ H)) as (h' & hd' & El & Hd' & He & Hfr & Hal).
    rewrite El. cbn [ub_none bind].
    assert (Hni : ~ In e (l1 ++ l2)).
    { destruct (g_i _ _ _ H) as (Hnd & _). apply NoDup_remove_2 in Hnd. exact Hnd. }
    assert (Hne : forall a, In a (l1 ++ l2) -> a <> e) by (intros a Ha ->; contradiction).
    eexists. split; [reflexivity|]. 
    match goal with |- context [if ?c then _ else _] => set (cc := c) end.
    split; [|destruct cc eqn:Ecc; cbn [set_ob set_ctr set_il ob ctr usecb brk th tl]; repeat split; auto;
             right; unfold cc in Ecc; cbn [usecb ctr set_il] in Ecc; apply andb_true_iff in Ecc; destruct Ecc as [_ Ecc];
             apply N.eqb_eq in Ecc; symmetry; exact Ecc].
    set (o' := mkobj 0 (opar o) (okey o)).
    assert (HG : forall c, G (set_ob (set_ctr (set_il s h' (mkth hd' (u32 (n_ents (ih s) + u32_max)) (n_inserts (ih s)) (u32 (n_deletes (ih s) + 1)))) c) e o') tls (l1 ++ l2)).
    { intros c. constructor; cbn [set_ob set_ctr set_il tl il ob th ih brk tlh n_ents].
      - apply (g_t _ _ _ H).
      - exact Hd'.
      - intros a. rewrite (g_ta _ _ _ H). unfold upd. destruct (Pos.eqb_spec a e) as [->|]; [|reflexivity]. split; [congruence|discriminate].
      - intros a. rewrite Hal, (g_ia _ _ _ H). unfold upd. destruct (Pos.eqb_spec a e) as [->|]; [|reflexivity]. split; [congruence|discriminate].
      - intros a. unfold upd. destruct (Pos.eqb_spec a e) as [->|]; intros; apply (g_brk _ _ _ H); congruence.
      - intros k a Ha. destruct (g_in _ _ _ H k a Ha) as (oa & Eoa & Hp). unfold upd. destruct (Pos.eqb_spec a e) as [->|].
        + exists o'. split; [reflexivity|]. cbn. congruence.
        + exists oa. split; assumption.
      - intros a oa k. unfold upd. destruct (Pos.eqb_spec a e) as [->|].
        + intros E1 E2. assert (oa = o') by congruence. subst oa. eapply (g_par _ _ _ H); [exact Ho|exact E2].
        + apply (g_par _ _ _ H).
      - intros a Ha. rewrite upd_neq by (apply Hne; exact Ha). apply (g_ii _ _ _ H). apply in_app_or in Ha.
        apply in_or_app. destruct Ha; [left|right; right]; assumption.
      - intros k. eapply SS_impl; [|apply (g_ts _ _ _ H k)]. intros a b Ha Hb (oa & ob' & E1 & E2 & Hlt).
        exists (if Pos.eqb a e then o' else oa), (if Pos.eqb b e then o' else ob'). cbn [ob set_ob set_ctr set_il]. unfold upd.
        destruct (Pos.eqb_spec a e) as [->|], (Pos.eqb_spec b e) as [->|]; repeat split; try assumption; fixo.
      - pose proof (g_is _ _ _ H) as Hs. apply SS_app in Hs. destruct Hs as (S1 & S2 & S3).
        apply StronglySorted_inv in S2. destruct S2 as [S2 _].
        eapply SS_impl; [|apply SS_app; split; [exact S1|split; [exact S2|intros a b Ha Hb; apply S3; [exact Ha|right; exact Hb]]]].
        intros a b Ha Hb (oa & ob' & E1 & E2 & Hlt). exists oa, ob'. cbn [ob set_ob set_ctr set_il]. rewrite !upd_neq by (apply Hne; assumption).
        repeat split; assumption.
      - apply (g_nt _ _ _ H).
      - rewrite (g_ni _ _ _ H), !app_length. cbn [length].
        replace (N.of_nat (length l1 + S (length l2))) with (N.of_nat (length l1 + length l2) + 1) by lia. apply u32_pred. }
    destruct cc.
    - apply (HG (u32 (ctr s + u32_max))).
    - apply (HG (ctr s)).
  Qed.

  Definition updt (tls : N -> list addr) k l : N -> list addr := fun x => if x =? k then l else tls x.
  Lemma updt_eq tls k l : updt tls k l k = l.
  Proof. unfold updt. rewrite N.eqb_refl. reflexivity. Qed.
  Lemma updt_neq tls k l x : x <> k -> updt tls k l x = tls x.
  Proof. intros. unfold updt. rewrite (proj2 (N.eqb_neq _ _)); auto. Qed.

  (** Changing the fields of an object that is in no list. *)
  Lemma G_set_ob_loose s tls ids e o o' :
    G s tls ids -> ob s e = Some o -> opar o = None -> opar o' = None -> ~ In e ids -> G (set_ob s e o') tls ids.
  Proof.
    intros H Ho Hp Hp' Hni.
    assert (Hnt : forall k, ~ In e (tls k)).
    { intros k Hk. destruct (g_in _ _ _ H k e Hk) as (x & Ex & Px). congruence. }
    constructor; cbn [set_ob tl il ob th ih brk].
    - apply (g_t _ _ _ H).
    - apply (g_i _ _ _ H).
    - intros a. rewrite (g_ta _ _ _ H). unfold upd. destruct (Pos.eqb_spec a e) as [->|]; [|reflexivity]. split; [congruence|discriminate].
    - intros a. rewrite (g_ia _ _ _ H). unfold upd. destruct (Pos.eqb_spec a e) as [->|]; [|reflexivity]. split; [congruence|discriminate].
    - intros a. unfold upd. destruct (Pos.eqb_spec a e) as [->|]; intros; apply (g_brk _ _ _ H); congruence.
    - intros k a Ha. rewrite upd_neq by (intros ->; eapply Hnt; eauto). apply (g_in _ _ _ H). exact Ha.
    - intros a oa k. unfold upd. destruct (Pos.eqb_spec a e) as [->|]; [congruence|]. apply (g_par _ _ _ H).
    - intros a Ha. rewrite upd_neq by (intros ->; contradiction). apply (g_ii _ _ _ H). exact Ha.
    - intros k. eapply SS_impl; [|apply (g_ts _ _ _ H k)]. intros a b Ha Hb (oa & ob' & E1 & E2 & Hlt).
      exists oa, ob'. cbn [ob set_ob set_ctr set_il]. rewrite !upd_neq by (intros ->; eapply Hnt; eauto). repeat split; assumption.
    - eapply SS_impl; [|apply (g_is _ _ _ H)]. intros a b Ha Hb (oa & ob' & E1 & E2 & Hlt).
      exists oa, ob'. cbn [ob set_ob set_ctr set_il]. rewrite !upd_neq by (intros ->; contradiction). repeat split; assumption.
    - apply (g_nt _ _ _ H).
    - apply (g_ni _ _ _ H).
  Qed.
  Lemma G_set_ctr s tls ids c : G s tls ids -> G (set_ctr s c) tls ids.
  Proof. intros H. destruct H. constructor; assumption. Qed.
  Lemma G_malloc s tls ids key : G s tls ids -> G (snd (malloc s key)) tls ids.
  Proof.
    intros H. set (e := brk s).
    assert (Hob : ob s e = None).
    { destruct (ob s e) eqn:E; [|reflexivity]. exfalso. assert (ob s e <> None) by congruence.
      apply (g_brk _ _ _ H) in H0. subst e. lia. }
    assert (Hnt : forall k a, In a (tls k) -> a <> e).
    { intros k a Hk ->. destruct (g_in _ _ _ H k e Hk) as (x & Ex & Px). congruence. }
    assert (Hni : forall a, In a ids -> a <> e).
    { intros a Hk ->. destruct (g_ii _ _ _ H e Hk) as (x & Ex & Px). congruence. }
    constructor; cbn [malloc snd tl il ob th ih brk]; fold e.
    - intros k. destruct (g_t _ _ _ H k) as (D1 & D2 & D3 & D4). repeat split; try assumption.
      eapply seg_frame; [|exact D4]. intros a Ha. apply upd_neq. eapply Hnt; eauto.
    - destruct (g_i _ _ _ H) as (D1 & D2 & D3 & D4). repeat split; try assumption.
      eapply seg_frame; [|exact D4]. intros a Ha. apply upd_neq. eapply Hni; eauto.
    - intros a. unfold upd. destruct (Pos.eqb_spec a e) as [->|]; [split; discriminate|apply (g_ta _ _ _ H)].
    - intros a. unfold upd. destruct (Pos.eqb_spec a e) as [->|]; [split; discriminate|apply (g_ia _ _ _ H)].
    - intros a. unfold upd. destruct (Pos.eqb_spec a e) as [->|]; [intros _; subst e; lia|].
      intros Ha. apply (g_brk _ _ _ H) in Ha. lia.
    - intros k a Ha. rewrite upd_neq by (eapply Hnt; eauto). apply (g_in _ _ _ H). exact Ha.
    - intros a oa k. unfold upd. destruct (Pos.eqb_spec a e) as [->|]; [|apply (g_par _ _ _ H)].
      intros E1 E2. assert (oa = mkobj 0 None key) by congruence. subst. discriminate.
    - intros a Ha. rewrite upd_neq by (eapply Hni; eauto). apply (g_ii _ _ _ H). exact Ha.
    - intros k. eapply SS_impl; [|apply (g_ts _ _ _ H k)]. intros a b Ha Hb (oa & ob' & E1 & E2 & Hlt).
      exists oa, ob'. cbn [ob malloc snd]. fold e. rewrite !upd_neq by (eapply Hnt; eauto). repeat split; assumption.
    - eapply SS_impl; [|apply (g_is _ _ _ H)]. intros a b Ha Hb (oa & ob' & E1 & E2 & Hlt).
      exists oa, ob'. cbn [ob malloc snd]. fold e. rewrite !upd_neq by (eapply Hni; eauto). repeat split; assumption.
    - apply (g_nt _ _ _ H).
    - apply (g_ni _ _ _ H).
  Qed.
  Lemma G_free s tls ids e o :
    G s tls ids -> ob s e = Some o -> opar o = None -> ~ In e ids -> G (free s e) tls ids.
  Proof.
    intros H Ho Hp Hni'.
    assert (Hnt : forall k a, In a (tls k) -> a <> e).
    { intros k a Hk ->. destruct (g_in _ _ _ H k e Hk) as (x & Ex & Px). congruence. }
    assert (Hni : forall a, In a ids -> a <> e) by (intros a Hk ->; contradiction).
    constructor; cbn [free tl il ob th ih brk].
    - intros k. destruct (g_t _ _ _ H k) as (D1 & D2 & D3 & D4). repeat split; try assumption.
      eapply seg_frame; [|exact D4]. intros a Ha. apply upd_neq. eapply Hnt; eauto.
    - destruct (g_i _ _ _ H) as (D1 & D2 & D3 & D4). repeat split; try assumption.
      eapply seg_frame; [|exact D4]. intros a Ha. apply upd_neq. eapply Hni; eauto.
    - intros a. unfold upd. destruct (Pos.eqb_spec a e) as [->|]; [tauto|apply (g_ta _ _ _ H)].
    - intros a. unfold upd. destruct (Pos.eqb_spec a e) as [->|]; [tauto|apply (g_ia _ _ _ H)].
    - intros a. unfold upd. destruct (Pos.eqb_spec a e) as [->|]; [congruence|].
      intros Ha. apply (g_brk _ _ _ H) in Ha. lia.
    - intros k a Ha. rewrite upd_neq by (eapply Hnt; eauto). apply (g_in _ _ _ H). exact Ha.
    - intros a oa k. unfold upd. destruct (Pos.eqb_spec a e) as [->|]; [discriminate|apply (g_par _ _ _ H)].
    - intros a Ha. rewrite upd_neq by (eapply Hni; eauto). apply (g_ii _ _ _ H). exact Ha.
    - intros k. eapply SS_impl; [|apply (g_ts _ _ _ H k)]. intros a b Ha Hb (oa & ob' & E1 & E2 & Hlt).
      exists oa, ob'. cbn [ob free]. rewrite !upd_neq by (eapply Hnt; eauto). repeat split; assumption.
    - eapply SS_impl; [|apply (g_is _ _ _ H)]. intros a b Ha Hb (oa & ob' & E1 & E2 & Hlt).
      exists oa, ob'. cbn [ob free]. rewrite !upd_neq by (eapply Hni; eauto). repeat split; assumption.
    - apply (g_nt _ _ _ H).
    - apply (g_ni _ _ _ H).
  Qed.

  Lemma dll_frame h h' hd l : (forall a, In a l -> h' a = h a) -> dll h hd l -> dll h' hd l.
  Proof. intros Hf (D1 & D2 & D3 & D4). repeat split; try assumption. eapply seg_frame; eauto. Qed.

  (** Insertion in a table. *)
  Lemma table_ent_insert_spec s tls ids1 ids2 k e o :
    G s tls (ids1 ++ e :: ids2) -> ob s e = Some o -> opar o = None ->
    ((exists a oa, In a (tls k) /\ ob s a = Some oa /\ cmp k (okey oa) (okey o) = 0%Z) /\
      exists s', table_ent_insert cmp s k e = Ret (ITEM_ALREADY_PRESENT, s') /\ G s' tls (ids1 ++ ids2) /\
         (forall x, ob s' x = upd (ob s) e (Some (mkobj 0 None (okey o))) x) /\
         (ctr s' = ctr s \/ ctr s' = oid o) /\ usecb s' = usecb s /\ brk s' = brk s) \/
    ((forall a oa, In a (tls k) -> ob s a = Some oa -> cmp k (okey oa) (okey o) <> 0%Z) /\
     exists s' l1 l2, tls k = l1 ++ l2 /\ table_ent_insert cmp s k e = Ret (OK, s') /\
       G s' (updt tls k (l1 ++ e :: l2)) (ids1 ++ e :: ids2) /\
       (forall x, ob s' x = upd (ob s) e (Some (mkobj (oid o) (Some k) (okey o))) x) /\
       ctr s' = ctr s /\ usecb s' = usecb s /\ brk s' = brk s).
  Proof.
    intros H Ho Hp. set (ids := ids1 ++ e :: ids2) in *. unfold table_ent_insert. rewrite Ho. cbn [ub_none bind].
    assert (Hie : In e ids) by (apply in_or_app; right; left; reflexivity).
    assert (Hoid : oid o <> 0).
    { destruct (g_ii _ _ _ H e Hie) as (o' & Eo & Hnz & _). congruence. }
    rewrite (proj2 (N.eqb_neq _ _) Hoid).
    assert (Hnt : forall k a, In a (tls k) -> a <> e).
    { intros k' a Hk ->. destruct (g_in _ _ _ H k' e Hk) as (x & Ex & Px). congruence. }
    destruct (tseek_G s tls ids k (okey o) H) as (l1 & l2 & E & H1 & H2).
    set (o' := mkobj (oid o) (Some k) (okey o)).
    assert (Hlink : (match l2 with [] => True | a :: _ => forall oa, ob s a = Some oa -> (cmp k (okey oa) (okey o) > 0)%Z end) ->
      (forall a oa, In a (tls k) -> ob s a = Some oa -> cmp k (okey oa) (okey o) <> 0%Z) /\
      exists s' l1 l2', tls k = l1 ++ l2' /\
      bind (ub_none (link_before (tl s) (tlh (th s k)) (hdor l2 None) e)) (fun '(h, hd) =>
        Ret (OK, set_ob (set_tl s h k (mkth hd (u32 (n_ents (th s k) + 1)) (u32 (n_inserts (th s k) + 1)) (n_deletes (th s k)))) e o')) = Ret (OK, s')
      /\ G s' (updt tls k (l1 ++ e :: l2')) ids /\ (forall x, ob s' x = upd (ob s) e (Some o') x) /\
       ctr s' = ctr s /\ usecb s' = usecb s /\ brk s' = brk s).
    { intros Hgt.
      assert (Hall : forall a oa, In a l2 -> ob s a = Some oa -> (cmp k (okey oa) (okey o) > 0)%Z).
      { destruct l2 as [|b l2]; [intros ? ? []|]. intros a oa Ha Hoa.
        destruct H2 as (o2 & Eo2 & Hle & _). destruct Ha as [->|Ha]; [apply Hgt, Hoa|].
        eapply after_key; [exact H|exact E|exact Eo2|exact Hle|exact Ha|exact Hoa]. }
      split.
      { intros a oa Ha Hoa. rewrite E in Ha. apply in_app_or in Ha. destruct Ha as [Ha|Ha].
        - pose proof (H1 _ _ Ha Hoa). lia.
        - pose proof (Hall _ _ Ha Hoa). lia. }
      pose proof (g_t _ _ _ H k) as Hd. rewrite E in Hd.
      destruct (link_before_spec (tl s) (tlh (th s k)) l1 l2 e) as (h' & hd' & El & Hd' & Hfr & Hal);
        [exact Hd|rewrite <- E; intros Hin; eapply Hnt; eauto| |].
      { rewrite (g_ta _ _ _ H). congruence. }
      rewrite El. cbn [ub_none bind]. eexists. exists l1, l2. split; [exact E|]. split; [reflexivity|].
      split; [|cbn; repeat split; reflexivity].
      assert (Hother : forall k' a, k' <> k -> In a (tls k') -> ~ In a (e :: l1 ++ l2)).
      { intros k' a Hk Ha [->|Hin]; [eapply Hnt; eauto|]. rewrite <- E in Hin.
        destruct (g_in _ _ _ H k' a Ha) as (x & Ex & Px). destruct (g_in _ _ _ H k a Hin) as (y & Ey & Py). congruence. }
      constructor; cbn [set_ob set_tl tl il ob th ih brk tlh n_ents].
      - intros k'. unfold updk. destruct (N.eqb_spec k' k) as [->|Hk].
        + rewrite updt_eq. exact Hd'.
        + rewrite updt_neq by exact Hk. eapply dll_frame; [|apply (g_t _ _ _ H k')].
          intros a Ha. apply Hfr. eapply Hother; eauto.
      - apply (g_i _ _ _ H).
      - intros a. rewrite Hal, (g_ta _ _ _ H). unfold upd. destruct (Pos.eqb_spec a e) as [->|]; [|reflexivity]. split; [congruence|discriminate].
      - intros a. rewrite (g_ia _ _ _ H). unfold upd. destruct (Pos.eqb_spec a e) as [->|]; [|reflexivity]. split; [congruence|discriminate].
      - intros a. unfold upd. destruct (Pos.eqb_spec a e) as [->|]; intros; apply (g_brk _ _ _ H); congruence.
      - intros k' a Ha. unfold upd. destruct (Pos.eqb_spec a e) as [->|].
        + destruct (N.eq_dec k' k) as [->|Hk]; [exists o'; split; reflexivity|].
          rewrite updt_neq in Ha by exact Hk. exfalso. eapply Hnt; eauto.
        + destruct (N.eq_dec k' k) as [->|Hk].
          * rewrite updt_eq in Ha. apply (g_in _ _ _ H). rewrite E. apply in_app_or in Ha. apply in_or_app.
            destruct Ha as [Ha|[->|Ha]]; [left; exact Ha|congruence|right; exact Ha].
          * rewrite updt_neq in Ha by exact Hk. apply (g_in _ _ _ H). exact Ha.
      - intros a oa k'. unfold upd. destruct (Pos.eqb_spec a e) as [->|].
        + intros E1 E2. assert (oa = o') by congruence. subst oa. cbn in E2. assert (k' = k) by congruence. subst.
          rewrite updt_eq. apply in_or_app. right. left. reflexivity.
        + intros E1 E2. pose proof (g_par _ _ _ H _ _ _ E1 E2) as Hin. destruct (N.eq_dec k' k) as [->|Hk].
          * rewrite updt_eq. rewrite E in Hin. apply in_app_or in Hin. apply in_or_app. destruct Hin; [left|right; right]; assumption.
          * rewrite updt_neq by exact Hk. exact Hin.
      - intros a Ha. destruct (g_ii _ _ _ H a Ha) as (oa & Eoa & Hz). unfold upd. destruct (Pos.eqb_spec a e) as [->|].
        + exists o'. split; [reflexivity|]. cbn. assert (oa = o) by congruence. subst. exact Hz.
        + exists oa. split; assumption.
      - intros k'. destruct (N.eq_dec k' k) as [->|Hk].
        + rewrite updt_eq. pose proof (g_ts _ _ _ H k) as Hs. rewrite E in Hs.
          assert (Hs' : StronglySorted (klt (set_ob (set_tl s h' k (mkth hd' (u32 (n_ents (th s k) + 1)) (u32 (n_inserts (th s k) + 1)) (n_deletes (th s k)))) e o') k) (l1 ++ l2)).
          { eapply SS_impl; [|exact Hs]. intros a b Ha Hb (oa & ob' & E1 & E2 & Hlt). exists oa, ob'. cbn [ob set_ob set_tl].
            rewrite <- E in Ha, Hb. rewrite !upd_neq by (eapply Hnt; eauto). repeat split; assumption. }
          apply SS_app in Hs'. destruct Hs' as (S1 & S2 & S3).
          assert (Hob : forall a, In a (l1 ++ l2) -> exists oa, ob s a = Some oa).
          { intros a Ha. rewrite <- E in Ha. destruct (g_in _ _ _ H k a Ha) as (oa & Eoa & _). exists oa. exact Eoa. }
          apply SS_app. split; [exact S1|]. split.
          * constructor; [exact S2|]. apply Forall_forall. intros b Hb.
            destruct (Hob b) as (ob' & Eob); [apply in_or_app; right; exact Hb|].
            exists o', ob'. cbn [ob set_ob set_tl]. rewrite upd_eq, upd_neq.
            -- repeat split; [exact Eob|]. apply cmp_pos_neg. eapply Hall; eauto.
            -- eapply Hnt. rewrite E. apply in_or_app. right. exact Hb.
          * intros a b Ha [<-|Hb].
            -- destruct (Hob a) as (oa & Eoa); [apply in_or_app; left; exact Ha|].
               exists oa, o'. cbn [ob set_ob set_tl]. rewrite upd_eq, upd_neq.
               ++ repeat split; [exact Eoa|eapply H1; eauto].
               ++ eapply Hnt. rewrite E. apply in_or_app. left. exact Ha.
            -- apply S3; assumption.
        + rewrite updt_neq by exact Hk. eapply SS_impl; [|apply (g_ts _ _ _ H k')].
          intros a b Ha Hb (oa & ob' & E1 & E2 & Hlt). exists oa, ob'. cbn [ob set_ob set_tl].
          rewrite !upd_neq by (eapply Hnt; eauto). repeat split; assumption.
      - eapply SS_impl; [|apply (g_is _ _ _ H)]. intros a b Ha Hb (oa & ob' & E1 & E2 & Hlt).
        exists (if Pos.eqb a e then o' else oa), (if Pos.eqb b e then o' else ob'). cbn [ob set_ob set_tl]. unfold upd.
        destruct (Pos.eqb_spec a e) as [->|], (Pos.eqb_spec b e) as [->|]; repeat split; try assumption; fixo.
      - intros k'. unfold updk. destruct (N.eqb_spec k' k) as [->|Hk].
        + rewrite updt_eq. cbn [n_ents]. rewrite (g_nt _ _ _ H), u32_succ, E, !app_length. cbn [length]. f_equal. lia.
        + rewrite updt_neq by exact Hk. apply (g_nt _ _ _ H).
      - apply (g_ni _ _ _ H). }
    assert (Hdup : (exists a oa, In a (tls k) /\ ob s a = Some oa /\ cmp k (okey oa) (okey o) = 0%Z) ->
       (exists a oa, In a (tls k) /\ ob s a = Some oa /\ cmp k (okey oa) (okey o) = 0%Z) /\
      exists s', (bind (delete_by_id_1 s e) (fun '(e0, s) => if is_success e0 then Ret (ITEM_ALREADY_PRESENT, s) else Ret (e0, s)))
          = Ret (ITEM_ALREADY_PRESENT, s') /\ G s' tls (ids1 ++ ids2) /\
         (forall x, ob s' x = upd (ob s) e (Some (mkobj 0 None (okey o))) x) /\
         (ctr s' = ctr s \/ ctr s' = oid o) /\ usecb s' = usecb s /\ brk s' = brk s).
    { intros Hex. split; [exact Hex|]. destruct (delete_by_id_1_spec s tls ids1 ids2 e o H Ho) as (s' & Es & HG & Hobs & Hc & Hu & Hb & Hth & Htl).
      rewrite Es. cbn [bind is_success]. exists s'. split; [reflexivity|]. split; [exact HG|].
      rewrite Hp in Hobs. repeat split; assumption. }
    destruct l2 as [|a l2].
    - right. rewrite H2. cbn [bind option_map hdor]. apply Hlink. exact I.
    - destruct H2 as (oa & Eoa & Hle & Es). rewrite Es. cbn [bind option_map fst].
      destruct (cmp k (okey oa) (okey o)) as [|p|p] eqn:Ec; [| |lia].
      + left. apply Hdup. exists a, oa. split; [rewrite E; apply in_or_app; right; left; reflexivity|]. split; assumption.
      + right. apply Hlink. intros ox Eox. assert (ox = oa) by congruence. subst. lia.
  Qed.

  (** Deletion from a table: with the ID still in force, and with the ID already dropped. *)
  Lemma unlink_table s tls ids k l1 l2 e o o' :
    G s tls ids -> tls k = l1 ++ e :: l2 -> ob s e = Some o -> opar o = Some k -> o' = mkobj (oid o) None (okey o) ->
    exists h hd, unlink (tl s) (tlh (th s k)) e = Some (h, hd) /\
      G (set_ob (set_tl s h k (mkth hd (u32 (n_ents (th s k) + u32_max)) (n_inserts (th s k)) (u32 (n_deletes (th s k) + 1)))) e o')
        (updt tls k (l1 ++ l2)) ids.
  Proof.
    intros H E Ho Hp ->. set (o' := mkobj (oid o) None (okey o)). 
    pose proof (g_t _ _ _ H k) as Hd. rewrite E in Hd.
    destruct (unlink_spec (tl s) (tlh (th s k)) l1 l2 e Hd) as (h & hd & El & Hd' & He & Hfr & Hal).
    exists h, hd. split; [exact El|].
    assert (Hni : ~ In e (l1 ++ l2)).
    { destruct Hd as (Hnd & _). apply NoDup_remove_2 in Hnd. exact Hnd. }
    assert (Hsub : forall a, In a (l1 ++ l2) -> In a (tls k)).
    { intros a Ha. rewrite E. apply in_app_or in Ha. apply in_or_app. destruct Ha; [left|right; right]; assumption. }
    assert (Hne : forall k' a, In a (updt tls k (l1 ++ l2) k') -> a <> e).
    { intros k' a Ha ->. destruct (N.eq_dec k' k) as [->|Hk].
      - rewrite updt_eq in Ha. contradiction.
      - rewrite updt_neq in Ha by exact Hk. destruct (g_in _ _ _ H k' e Ha) as (x & Ex & Px). congruence. }
    assert (Hother : forall k' a, k' <> k -> In a (tls k') -> ~ In a (e :: l1 ++ l2)).
    { intros k' a Hk Ha Hin. assert (Hin' : In a (tls k)).
      { destruct Hin as [<-|Hin]; [rewrite E; apply in_or_app; right; left; reflexivity|apply Hsub, Hin]. }
      destruct (g_in _ _ _ H k' a Ha) as (x & Ex & Px). destruct (g_in _ _ _ H k a Hin') as (y & Ey & Py). congruence. }
    constructor; cbn [set_ob set_tl tl il ob th ih brk tlh n_ents].
    - intros k'. unfold updk. destruct (N.eqb_spec k' k) as [->|Hk].
      + rewrite updt_eq. exact Hd'.
      + rewrite updt_neq by exact Hk. eapply dll_frame; [|apply (g_t _ _ _ H k')].
        intros a Ha. apply Hfr. eapply Hother; eauto.
    - apply (g_i _ _ _ H).
    - intros a. rewrite Hal, (g_ta _ _ _ H). unfold upd. destruct (Pos.eqb_spec a e) as [->|]; [|reflexivity]. split; [congruence|discriminate].
    - intros a. rewrite (g_ia _ _ _ H). unfold upd. destruct (Pos.eqb_spec a e) as [->|]; [|reflexivity]. split; [congruence|discriminate].
    - intros a. unfold upd. destruct (Pos.eqb_spec a e) as [->|]; intros; apply (g_brk _ _ _ H); congruence.
    - intros k' a Ha. rewrite upd_neq by (eapply Hne; eauto). apply (g_in _ _ _ H). destruct (N.eq_dec k' k) as [->|Hk].
      + rewrite updt_eq in Ha. apply Hsub, Ha.
      + rewrite updt_neq in Ha by exact Hk. exact Ha.
    - intros a oa k'. unfold upd. destruct (Pos.eqb_spec a e) as [->|Hae].
      + intros E1 E2. assert (oa = o') by congruence. subst oa. discriminate.
      + intros E1 E2. pose proof (g_par _ _ _ H _ _ _ E1 E2) as Hin. destruct (N.eq_dec k' k) as [->|Hk].
        * rewrite updt_eq. rewrite E in Hin. apply in_app_or in Hin. apply in_or_app. destruct Hin as [Hin|[Hin|Hin]]; [left; exact Hin|congruence|right; exact Hin].
        * rewrite updt_neq by exact Hk. exact Hin.
    - intros a Ha. destruct (g_ii _ _ _ H a Ha) as (oa & Eoa & Hz). unfold upd. destruct (Pos.eqb_spec a e) as [->|].
      + exists o'. split; [reflexivity|]. cbn. assert (oa = o) by congruence. subst. exact Hz.
      + exists oa. split; assumption.
    - intros k'. 
      assert (Hs : StronglySorted (klt s k') (updt tls k (l1 ++ l2) k')).
      { destruct (N.eq_dec k' k) as [->|Hk]; [|rewrite updt_neq by exact Hk; apply (g_ts _ _ _ H)].
        rewrite updt_eq. pose proof (g_ts _ _ _ H k) as Hs. rewrite E in Hs. apply SS_app in Hs. destruct Hs as (S1 & S2 & S3).
        apply StronglySorted_inv in S2. apply SS_app. split; [exact S1|]. split; [apply S2|].
        intros a b Ha Hb. apply S3; [exact Ha|right; exact Hb]. }
      eapply SS_impl; [|exact Hs]. intros a b Ha Hb (oa & ob' & E1 & E2 & Hlt). exists oa, ob'. cbn [ob set_ob set_tl].
      rewrite !upd_neq by (eapply Hne; eauto). repeat split; assumption.
    - eapply SS_impl; [|apply (g_is _ _ _ H)]. intros a b Ha Hb (oa & ob' & E1 & E2 & Hlt).
      exists (if Pos.eqb a e then o' else oa), (if Pos.eqb b e then o' else ob'). cbn [ob set_ob set_tl]. unfold upd.
      destruct (Pos.eqb_spec a e) as [->|], (Pos.eqb_spec b e) as [->|]; repeat split; try assumption; fixo.
    - intros k'. unfold updk. destruct (N.eqb_spec k' k) as [->|Hk].
      + rewrite updt_eq. cbn [n_ents]. rewrite (g_nt _ _ _ H), E, !app_length. cbn [length].
        replace (N.of_nat (length l1 + S (length l2))) with (N.of_nat (length l1 + length l2) + 1) by lia. apply u32_pred.
      + rewrite updt_neq by exact Hk. apply (g_nt _ _ _ H).
    - apply (g_ni _ _ _ H).
  Qed.

  Lemma delete_1_spec_id s tls i1 i2 k l1 l2 e o :
    G s tls (i1 ++ e :: i2) -> tls k = l1 ++ e :: l2 -> ob s e = Some o -> opar o = Some k ->
    exists s', delete_1 s e = Ret (OK, s') /\ G s' (updt tls k (l1 ++ l2)) (i1 ++ i2) /\
      (forall x, ob s' x = upd (ob s) e (Some (mkobj 0 None (okey o))) x) /\
      (ctr s' = ctr s \/ ctr s' = oid o) /\ usecb s' = usecb s /\ brk s' = brk s.
  Proof.
    intros H E Ho Hp. unfold delete_1. rewrite Ho. cbn [ub_none bind]. rewrite Hp.
    destruct (unlink_table s tls _ k l1 l2 e o _ H E Ho Hp eq_refl) as (h & hd & El & HG).
    rewrite El. cbn [ub_none bind].
    destruct (g_ii _ _ _ H e) as (o2 & Eo2 & Hnz & _); [apply in_or_app; right; left; reflexivity|].
    assert (o2 = o) by congruence. subst o2. rewrite (proj2 (N.eqb_neq _ _) Hnz).
    match type of HG with G ?x _ _ => set (s1 := x) in * end.
    destruct (delete_by_id_1_spec s1 _ i1 i2 e (mkobj (oid o) None (okey o)) HG) as (s' & Es & HG' & Hob & Hc & Hu & Hb & _).
    { unfold s1. cbn [set_ob set_tl ob]. apply upd_eq. }
    exists s'. split; [exact Es|]. split; [exact HG'|]. cbn [opar okey oid] in *.
    split; [|split; [|split]]; [|exact Hc|exact Hu|exact Hb].
    intros x. rewrite Hob. unfold s1. cbn [set_ob set_tl ob]. unfold upd. destruct (Pos.eqb x e); reflexivity.
  Qed.
  Lemma delete_1_spec_noid s tls ids k l1 l2 e o :
    G s tls ids -> tls k = l1 ++ e :: l2 -> ob s e = Some o -> opar o = Some k -> oid o = 0 ->
    exists s', delete_1 s e = Ret (OK, s') /\ G s' (updt tls k (l1 ++ l2)) ids /\
      (forall x, ob s' x = upd (ob s) e (Some (mkobj 0 None (okey o))) x) /\
      ctr s' = ctr s /\ usecb s' = usecb s /\ brk s' = brk s.
  Proof.
    intros H E Ho Hp Hz. unfold delete_1. rewrite Ho. cbn [ub_none bind]. rewrite Hp.
    destruct (unlink_table s tls _ k l1 l2 e o _ H E Ho Hp eq_refl) as (h & hd & El & HG).
    rewrite El. cbn [ub_none bind]. rewrite Hz. cbn [N.eqb]. eexists. split; [reflexivity|].
    rewrite Hz in HG. split; [exact HG|]. cbn. repeat split; reflexivity.
  Qed.
End P.
