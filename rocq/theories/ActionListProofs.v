From Coq Require FinFun.
From Verif Require Import Base Links LinksProofs LLProofs Table CleanupProofs ActionList ActionListSpec.
Open Scope N_scope.

Notation occ := (count_occ N.eq_dec).
Definition key (s : ast) (p : N) : option label := option_map fst (objs s p).
Definition ekey (s : ast) (a : addr) : option label := match pay s a with Some p => key s p | None => None end.

(** [own a]: the list an entry is on; [all]: the entries; [ps]: the actions they refer to; [ext]: references held by the call under way. *)
Record inv (s : ast) (al : list_id -> list addr) (all : list addr) (ps : list N) (own : addr -> list_id) (ext : list N)
    (T : list label) (L : list_id -> list label) : Prop := {
  i_dll : forall i, dll (links s) (hds s i) (al i);
  i_brk : forall i a, In a (al i) -> (a < brk s)%positive;
  i_len : forall i, (length (al i) < Pos.to_nat (brk s))%nat;
  i_nd : NoDup all;
  i_own : forall i a, In a (al i) <-> In a all /\ own a = i;
  i_ps : map (pay s) all = map Some ps;
  i_refs : forall p k r, objs s p = Some (k, r) -> r = N.of_nat (occ (tbl s) p + occ ps p + occ ext p) /\ 1 <= r <= u32_max /\ p < onext s;
  i_live : forall p, In p (tbl s) \/ In p ps \/ In p ext -> objs s p <> None;
  i_tnd : NoDup (tbl s);
  i_one : forall p q, In p (tbl s) \/ In p ps -> In q (tbl s) \/ In q ps -> key s p = key s q -> p = q;
  i_L : forall i, map (ekey s) (al i) = map Some (L i);
  i_LND : forall i, NoDup (L i);
  i_T : map (key s) (tbl s) = map Some T
}.

Lemma label_eqb_spec a b : reflect (a = b) (label_eqb a b).
Proof. unfold label_eqb. destruct (label_dec a b); constructor; assumption. Qed.
Lemma isin_spec x l : isin x l = true <-> In x l.
Proof.
  unfold isin. rewrite existsb_exists. split.
  - intros (y & Y & E). destruct (label_eqb_spec x y); [subst; exact Y|discriminate].
  - intros X. exists x. split; [exact X|]. destruct (label_eqb_spec x x); congruence.
Qed.
Lemma isin_false x l : isin x l = false <-> ~ In x l.
Proof. rewrite <- isin_spec. destruct (isin x l); split; congruence. Qed.

Lemma init_inv : inv ainit (fun _ => []) [] [] (fun _ => 0) [] [] (fun _ => []).
Proof.
  constructor; cbn.
  - intros i. split; [constructor|]. split; [reflexivity|]. split; [reflexivity|exact I].
  - intros i a [].
  - intros i. lia.
  - constructor.
  - intros i a. tauto.
  - reflexivity.
  - discriminate.
  - intros p [[]|[[]|[]]].
  - constructor.
  - intros p q [[]|[]].
  - reflexivity.
  - intros i. constructor.
  - reflexivity.
Qed.

Lemma lookup_ok s l : forall t T, map (key s) t = map Some T ->
  exists o, lookup s t l = Ret o /\
    match o with Some p => In p t /\ key s p = Some l /\ In l T | None => ~ In l T end.
Proof.
  induction t as [|p t IH]; intros [|k T] M; try discriminate M; cbn [lookup].
  - exists None. split; [reflexivity|intros []].
  - cbn [map] in M. injection M as Mk M. unfold key in Mk. destruct (objs s p) as [[k' r]|] eqn:E; [|discriminate Mk]. cbn in Mk. injection Mk as ->.
    cbn [ub_none bind]. destruct (label_eqb_spec k l) as [->|NE].
    + exists (Some p). split; [reflexivity|]. split; [left; reflexivity|]. split; [unfold key; rewrite E; reflexivity|left; reflexivity].
    + destruct (IH T M) as (o & Ho & P). exists o. split; [exact Ho|]. destruct o as [q|]; [destruct P as (P1 & P2 & P3); split; [right; exact P1|split; [exact P2|right; exact P3]]|].
      intros [X|X]; [congruence|contradiction].
Qed.

Lemma key_set_obj s p k r q : objs s p = Some (k, r) -> forall r', key (set_obj s p (Some (k, r'))) q = key s q.
Proof. intros E r'. unfold key, set_obj. cbn [objs set_obj]. destruct (N.eqb_spec q p) as [->|]; [rewrite E|]; reflexivity. Qed.
Lemma ekey_ext s s' : (forall a, pay s' a = pay s a) -> (forall p, key s' p = key s p) -> forall a, ekey s' a = ekey s a.
Proof. intros P K a. unfold ekey. rewrite P. destruct (pay s a); [apply K|reflexivity]. Qed.
Lemma map_eq_ext {A B} (f g : A -> B) l : (forall x, f x = g x) -> map f l = map g l.
Proof. intros E. apply map_ext. exact E. Qed.

(** taking a reference *)
Lemma ref_up s al all ps own ext T L p k r : inv s al all ps own ext T L -> objs s p = Some (k, r) -> r <> u32_max ->
  inv (set_obj s p (Some (k, r + 1))) al all ps own (p :: ext) T L.
Proof.
  intros I E NM. assert (K := key_set_obj s p k r). destruct I. constructor; cbn [links hds pay brk tbl onext set_obj] in *; try assumption.
  - intros q k' r'. unfold set_obj. cbn [objs set_obj]. cbn [count_occ]. destruct (N.eqb_spec q p) as [->|NE].
    + intros X. injection X as <- <-. destruct (i_refs0 p k r E) as (R1 & R2 & R3). destruct (N.eq_dec p p) as [_|]; [|congruence]. split; [lia|]. split; [lia|exact R3].
    + intros X. destruct (N.eq_dec p q) as [|_]; [congruence|]. exact (i_refs0 q k' r' X).
  - intros q X. cbn [objs set_obj]. destruct (N.eqb_spec q p) as [->|NE]; [discriminate|]. apply i_live0. destruct X as [X|[X|[X|X]]]; [tauto|tauto|congruence|tauto].
  - intros q q'. rewrite !K by exact E. apply i_one0.
  - intros i. rewrite <- (i_L0 i). apply map_eq_ext. apply ekey_ext; [reflexivity|]. intros q. apply K. exact E.
  - rewrite <- i_T0. apply map_eq_ext. intros q. apply K. exact E.
Qed.
(** dropping one *)
Lemma ref_down s al all ps own ext T L p : inv s al all ps own (p :: ext) T L ->
  exists s', drop_ref s p = Ret (OK, s') /\ inv s' al all ps own ext T L /\ hds s' = hds s /\ links s' = links s /\ pay s' = pay s /\ brk s' = brk s /\ tbl s' = tbl s /\
    (forall q, In q (tbl s) \/ In q ps -> key s' q = key s q).
Proof.
  intros I. assert (LV := i_live _ _ _ _ _ _ _ _ I p (or_intror (or_intror (or_introl eq_refl)))). unfold drop_ref. destruct (objs s p) as [[k r]|] eqn:E; [clear LV|congruence].
  cbn [ub_none bind]. assert (R := i_refs _ _ _ _ _ _ _ _ I p k r E). cbn [count_occ] in R. destruct (N.eq_dec p p) as [_|]; [|congruence]. destruct R as (R1 & R2 & R3).
  destruct (N.eqb_spec r 0) as [|_]; [lia|]. destruct (N.eqb_spec r 1) as [->|N1].
  - exists (set_obj s p None). split; [reflexivity|].
    assert (Z1 : occ (tbl s) p = 0%nat) by lia. assert (Z2 : occ ps p = 0%nat) by lia. assert (Z3 : occ ext p = 0%nat) by lia.
    rewrite <- count_occ_not_In in Z1, Z2, Z3.
    assert (K : forall q, q <> p -> key (set_obj s p None) q = key s q). { intros q NE. unfold key, set_obj. cbn [objs set_obj]. destruct (N.eqb_spec q p); [congruence|reflexivity]. }
    assert (KI : forall q, In q (tbl s) \/ In q ps -> key (set_obj s p None) q = key s q) by (intros q X; apply K; intros ->; tauto).
    split; [|repeat split; try reflexivity; exact KI].
    destruct I. constructor; cbn [links hds pay brk tbl onext set_obj] in *; try assumption.
    + intros q k' r'. unfold set_obj. cbn [objs set_obj]. destruct (N.eqb_spec q p) as [->|NE]; [discriminate|]. intros X. specialize (i_refs0 q k' r' X). cbn [count_occ] in i_refs0.
      destruct (N.eq_dec p q); [congruence|exact i_refs0].
    + intros q X. cbn [objs set_obj]. destruct (N.eqb_spec q p) as [->|NE]; [tauto|]. apply i_live0. cbn [In]. tauto.
    + intros q q' X X'. rewrite !KI by assumption. apply i_one0; assumption.
    + intros i. rewrite <- (i_L0 i). apply map_ext_in. intros a A. unfold ekey. cbn [pay set_obj]. destruct (pay s a) as [q|] eqn:PA; [|reflexivity]. apply KI.
      right. apply i_own0 in A. destruct A as [A _]. apply (in_map (pay s)) in A. rewrite i_ps0, PA in A. apply in_map_iff in A. destruct A as (x & X1 & X2). congruence.
    + rewrite <- i_T0. apply map_ext_in. intros q Q. apply KI. left. exact Q.
  - exists (set_obj s p (Some (k, r - 1))). split; [reflexivity|]. assert (K := key_set_obj s p k r).
    split; [|repeat split; try reflexivity; intros q _; apply K; exact E].
    destruct I. constructor; cbn [links hds pay brk tbl onext set_obj] in *; try assumption.
    + intros q k' r'. unfold set_obj. cbn [objs set_obj]. destruct (N.eqb_spec q p) as [->|NE].
      * intros X. injection X as <- <-. split; [lia|]. split; [lia|exact R3].
      * intros X. specialize (i_refs0 q k' r' X). cbn [count_occ] in i_refs0. destruct (N.eq_dec p q); [congruence|exact i_refs0].
    + intros q X. cbn [objs set_obj]. destruct (N.eqb_spec q p) as [->|NE]; [discriminate|]. apply i_live0. cbn [In]. tauto.
    + intros q q'. rewrite !K by exact E. apply i_one0.
    + intros i. rewrite <- (i_L0 i). apply map_eq_ext. apply ekey_ext; [reflexivity|]. intros q. apply K. exact E.
    + rewrite <- i_T0. apply map_eq_ext. intros q. apply K. exact E.
Qed.

(** an action with all its references taken is on some 2^32 lists *)
Lemma ekey_pay s al all ps own ext T L i a : inv s al all ps own ext T L -> In a (al i) -> exists p k, pay s a = Some p /\ In p ps /\ key s p = Some k /\ ekey s a = Some k.
Proof.
  intros I A. assert (A' := A). apply (i_own _ _ _ _ _ _ _ _ I) in A'. destruct A' as [A' _]. apply (in_map (pay s)) in A'. rewrite (i_ps _ _ _ _ _ _ _ _ I) in A'.
  apply in_map_iff in A'. destruct A' as (p & P1 & P2). assert (LV := i_live _ _ _ _ _ _ _ _ I p (or_intror (or_introl P2))).
  destruct (objs s p) as [[k r]|] eqn:E; [|congruence]. exists p, k. split; [congruence|]. split; [exact P2|]. unfold ekey, key. rewrite <- P1, E. split; reflexivity.
Qed.
Lemma count_filter (s : ast) p : forall all ps, map (pay s) all = map Some ps ->
  occ ps p = length (filter (fun a => match pay s a with Some q => q =? p | None => false end) all).
Proof.
  induction all as [|a all IH]; intros [|q ps] M; try discriminate M; [reflexivity|]. cbn [map] in M. injection M as M1 M2. cbn [count_occ filter]. rewrite M1.
  destruct (N.eqb_spec q p) as [->|NE]; destruct (N.eq_dec _ _) as [E|E]; try congruence; cbn [length]; rewrite (IH ps M2); reflexivity.
Qed.
Lemma map_In_some s al all ps own ext T L i k : inv s al all ps own ext T L -> (In k (L i) <-> exists a, In a (al i) /\ ekey s a = Some k).
Proof.
  intros I. rewrite <- (in_map_iff (ekey s) (al i)) with (y := Some k) || idtac.
  assert (M := i_L _ _ _ _ _ _ _ _ I i). split.
  - intros K. apply (in_map Some) in K. rewrite <- M in K. apply in_map_iff in K. destruct K as (a & A1 & A2). exists a. split; assumption.
  - intros (a & A1 & A2). apply (in_map (ekey s)) in A1. rewrite M, A2 in A1. apply in_map_iff in A1. destruct A1 as (x & X1 & X2). congruence.
Qed.
Lemma full_crowded s al all ps own ext T L p k : inv s al all ps own ext T L -> objs s p = Some (k, u32_max) -> (length ext <= 1)%nat -> crowded L k.
Proof.
  intros I E LE. set (mine := filter (fun a => match pay s a with Some q => q =? p | None => false end) all).
  assert (MI : forall a, In a mine <-> In a all /\ pay s a = Some p).
  { intros a. unfold mine. rewrite filter_In. destruct (pay s a) as [q|]; [|split; [intros [_ X]; discriminate|intros [_ X]; discriminate]].
    destruct (N.eqb_spec q p); split; intros [X Y]; split; try congruence; auto. }
  assert (LM : N.of_nat (length mine) + 2 >= u32_max).
  { destruct (i_refs _ _ _ _ _ _ _ _ I p k _ E) as (R & _ & _). rewrite (count_filter s p all ps (i_ps _ _ _ _ _ _ _ _ I)) in R. fold mine in R.
    assert (B1 : (occ (tbl s) p <= 1)%nat) by (apply NoDup_count_occ; apply (i_tnd _ _ _ _ _ _ _ _ I)).
    assert (B2 : (occ ext p <= 1)%nat). { pose proof (count_occ_bound N.eq_dec p ext). lia. } lia. }
  exists (map own mine). rewrite map_length. split; [|split; [|lia]].
  - assert (INJ : forall a b, In a mine -> In b mine -> own a = own b -> a = b).
    { intros a b A B O. rewrite MI in A, B. destruct A as [A1 A2], B as [B1 B2].
      assert (A3 : In a (al (own a))) by (apply (i_own _ _ _ _ _ _ _ _ I); split; [assumption|reflexivity]).
      assert (B3 : In b (al (own a))) by (apply (i_own _ _ _ _ _ _ _ _ I); split; [assumption|congruence]).
      assert (M := i_L _ _ _ _ _ _ _ _ I (own a)). assert (ND := i_LND _ _ _ _ _ _ _ _ I (own a)).
      assert (ND2 : NoDup (map (ekey s) (al (own a)))) by (rewrite M; apply FinFun.Injective_map_NoDup; [intros x y X; congruence|exact ND]).
      apply in_split in A3. destruct A3 as (l1 & l2 & S1). rewrite S1 in *. rewrite map_app in ND2. cbn [map] in ND2. apply NoDup_remove_2 in ND2.
      apply in_app_or in B3. destruct B3 as [B3|[B3|B3]]; [|symmetry; congruence|];
        exfalso; apply ND2; apply in_or_app; [left|right]; apply in_map_iff; exists b; (split; [unfold ekey; rewrite A2, B2; reflexivity|exact B3]). }
    assert (NDM : NoDup mine) by (apply NoDup_filter; apply (i_nd _ _ _ _ _ _ _ _ I)). clear - INJ NDM. induction mine as [|a m IH]; [constructor|]. apply NoDup_cons_iff in NDM. destruct NDM as [N1 N2].
    cbn [map]. constructor.
    + intros X. apply in_map_iff in X. destruct X as (b & B1 & B2). assert (a = b) by (apply INJ; [left; reflexivity|right; exact B2|congruence]). subst. contradiction.
    + apply IH; [|exact N2]. intros x y X Y. apply INJ; right; assumption.
  - intros i X. apply in_map_iff in X. destruct X as (a & <- & A). rewrite MI in A. destruct A as [A1 A2].
    rewrite (map_In_some _ _ _ _ _ _ _ _ (own a) k I). exists a. split; [apply (i_own _ _ _ _ _ _ _ _ I); split; [assumption|reflexivity]|].
    unfold ekey, key. rewrite A2, E. reflexivity.
Qed.

Lemma get_ref_ok s al all ps own ext T L g mem : inv s al all ps own ext T L -> (length ext <= 1)%nat ->
  exists full e o s', get_ref s g mem = Ret (e, o, s') /\ named T g mem full = e /\ (full = true -> crowded L (lab g)) /\
    match o with
    | None => s' = s /\ e <> OK
    | Some p => e = OK /\ inv s' al all ps own (p :: ext) T L /\ In p (tbl s') /\ key s' p = Some (lab g) /\ In (lab g) T
    end.
Proof.
  intros I LE. unfold get_ref, named.
  assert (G : exists (full : bool) (e : err) (o : option N) (s' : ast), (if (32 <? length (lab g))%nat then Ret (STRING_ARG_TOO_LONG, None, s) else if negb mem then Ret (SYS_RESOURCE_FAILED, None, s) else
      let* o := lookup s (tbl s) (lab g) in match o with None => Ret (ITEM_NOT_FOUND, None, s) | Some p => let* (k, r) := ub_none (objs s p) in
        if r =? u32_max then Ret (OVERFLOW_AVERTED, None, s) else Ret (OK, Some p, set_obj s p (Some (k, r + 1))) end) = Ret (e, o, s') /\
      (if (32 <? length (lab g))%nat then STRING_ARG_TOO_LONG else if negb mem then SYS_RESOURCE_FAILED else if negb (isin (lab g) T) then ITEM_NOT_FOUND else if full then OVERFLOW_AVERTED else OK) = e /\
      (full = true -> crowded L (lab g)) /\
      match o with None => s' = s /\ e <> OK | Some p => e = OK /\ inv s' al all ps own (p :: ext) T L /\ In p (tbl s') /\ key s' p = Some (lab g) /\ In (lab g) T end).
  { destruct (32 <? length (lab g))%nat; [exists false, STRING_ARG_TOO_LONG, None, s; repeat split; discriminate|].
    destruct mem; cbn [negb]; [|exists false, SYS_RESOURCE_FAILED, None, s; repeat split; discriminate].
    destruct (lookup_ok s (lab g) (tbl s) T (i_T _ _ _ _ _ _ _ _ I)) as (o & LO & P). rewrite LO. cbn [bind]. destruct o as [p|].
    - destruct P as (P1 & P2 & P3). assert (P3' := P3). apply isin_spec in P3'. rewrite P3'. cbn [negb]. unfold key in P2. destruct (objs s p) as [[k r]|] eqn:E; [|discriminate P2]. injection P2 as ->.
      cbn [ub_none bind]. destruct (N.eqb_spec r u32_max) as [->|NM].
      + exists true, OVERFLOW_AVERTED, None, s. split; [reflexivity|]. split; [reflexivity|]. split; [intros _; eapply full_crowded; eassumption|split; [reflexivity|discriminate]].
      + exists false, OK, (Some p), (set_obj s p (Some (lab g, r + 1))). split; [reflexivity|]. split; [reflexivity|]. split; [discriminate|]. split; [reflexivity|].
        split; [apply ref_up; assumption|]. split; [exact P1|]. split; [|exact P3]. rewrite (key_set_obj s p (lab g) r p E). unfold key. rewrite E. reflexivity.
    - apply isin_false in P. rewrite P. cbn [negb]. exists false, ITEM_NOT_FOUND, None, s. repeat split; discriminate. }
  destruct g as [[|x s0]|s0]; [exists false, INVALID_ARG, None, s; repeat split; discriminate|exact G|exact G].
Qed.

(** searching a list by action and by label *)
Lemma find_1_ok s p : forall l pr fuel, seg (links s) pr l None -> (forall a, In a l -> pay s a <> None) -> (length l < fuel)%nat ->
  exists o, find_1 fuel s p (hdor l None) = Ret o /\
    match o with Some a => exists l1 l2, l = l1 ++ a :: l2 /\ pay s a = Some p | None => forall a, In a l -> pay s a <> Some p end.
Proof.
  induction l as [|a l IH]; intros pr fuel SG PA LF.
  - destruct fuel; (exists None; split; [reflexivity|intros a []]).
  - destruct fuel as [|f]; [cbn in LF; lia|]. destruct SG as [E SG]. cbn [hdor find_1]. destruct (pay s a) as [q|] eqn:Q; [|exfalso; apply (PA a); [left; reflexivity|exact Q]].
    cbn [ub_none bind]. destruct (N.eqb_spec q p) as [->|NE]; [exists (Some a); split; [reflexivity|]; exists [], l; split; [reflexivity|exact Q]|].
    unfold get_nxt. rewrite E. cbn [option_map nxt ub_none bind]. destruct (IH (Some a) f SG) as (o & Ho & P); [intros b B; apply PA; right; exact B|cbn in LF; lia|].
    exists o. split; [exact Ho|]. destruct o as [b|].
    + destruct P as (l1 & l2 & P1 & P2). exists (a :: l1), l2. split; [rewrite P1; reflexivity|exact P2].
    + intros b [<-|B]; [congruence|apply P; exact B].
Qed.
Lemma find_label_ok s k : forall l pr fuel Ls, seg (links s) pr l None -> map (ekey s) l = map Some Ls -> (length l < fuel)%nat ->
  exists o, find_label fuel s k (hdor l None) = Ret o /\
    match o with Some a => exists l1 l2, l = l1 ++ a :: l2 /\ ekey s a = Some k /\ In k Ls | None => ~ In k Ls end.
Proof.
  induction l as [|a l IH]; intros pr fuel [|x Ls] SG M LF; try discriminate M.
  - destruct fuel; (exists None; split; [reflexivity|intros []]).
  - destruct fuel as [|f]; [cbn in LF; lia|]. destruct SG as [E SG]. cbn [map] in M. injection M as M1 M2. cbn [hdor find_label].
    assert (M1' := M1). unfold ekey, key in M1'. destruct (pay s a) as [p|]; [|discriminate M1']. cbn [ub_none bind]. destruct (objs s p) as [[k' r]|]; [|discriminate M1']. injection M1' as ->.
    cbn [ub_none bind]. destruct (label_eqb_spec x k) as [->|NE]; [exists (Some a); split; [reflexivity|]; exists [], l; split; [reflexivity|split; [exact M1|left; reflexivity]]|].
    unfold get_nxt. rewrite E. cbn [option_map nxt ub_none bind]. destruct (IH (Some a) f Ls SG M2) as (o & Ho & P); [cbn in LF; lia|].
    exists o. split; [exact Ho|]. destruct o as [b|].
    + destruct P as (l1 & l2 & P1 & P2 & P3). exists (a :: l1), l2. split; [rewrite P1; reflexivity|split; [exact P2|right; exact P3]].
    + intros [X|X]; [congruence|contradiction].
Qed.
Lemma read_ok s : forall l pr fuel Ls, seg (links s) pr l None -> map (ekey s) l = map Some Ls -> (length l < fuel)%nat -> read_from fuel s (hdor l None) = Ret Ls.
Proof.
  induction l as [|a l IH]; intros pr fuel [|x Ls] SG M LF; try discriminate M; [destruct fuel; reflexivity|].
  destruct fuel as [|f]; [cbn in LF; lia|]. destruct SG as [E SG]. cbn [map] in M. injection M as M1 M2. cbn [hdor read_from].
  unfold ekey, key in M1. destruct (pay s a) as [p|]; [|discriminate M1]. cbn [ub_none bind]. destruct (objs s p) as [[k' r]|]; [|discriminate M1]. injection M1 as ->.
  cbn [ub_none bind]. unfold get_nxt. rewrite E. cbn [option_map nxt ub_none bind]. rewrite (IH (Some a) f Ls SG M2) by (cbn in LF; lia). reflexivity.
Qed.
Lemma inv_read s al all ps own ext T L i : inv s al all ps own ext T L -> read_list s i = Ret (L i).
Proof.
  intros I. unfold read_list. destruct (i_dll _ _ _ _ _ _ _ _ I i) as (_ & H1 & _ & SG). rewrite H1. eapply read_ok; [exact SG|apply (i_L _ _ _ _ _ _ _ _ I)|apply (i_len _ _ _ _ _ _ _ _ I)].
Qed.
(** with p the registered action labelled k, an entry for p is an entry labelled k *)
Lemma find_in_ok s al all ps own ext T L i p k : inv s al all ps own ext T L -> In p (tbl s) -> key s p = Some k ->
  exists o, find_in s i p = Ret o /\
    match o with Some a => exists l1 l2, al i = l1 ++ a :: l2 /\ pay s a = Some p /\ ekey s a = Some k /\ In k (L i) | None => ~ In k (L i) end.
Proof.
  intros I P K. unfold find_in. destruct (i_dll _ _ _ _ _ _ _ _ I i) as (_ & H1 & _ & SG). rewrite H1.
  destruct (find_1_ok s p (al i) None (Pos.to_nat (brk s)) SG) as (o & Ho & F).
  { intros a A. destruct (ekey_pay _ _ _ _ _ _ _ _ i a I A) as (q & k' & X & _). congruence. }
  { apply (i_len _ _ _ _ _ _ _ _ I). }
  exists o. split; [exact Ho|]. destruct o as [a|].
  - destruct F as (l1 & l2 & F1 & F2). assert (EK : ekey s a = Some k) by (unfold ekey; rewrite F2; exact K). exists l1, l2. repeat split; try assumption.
    rewrite (map_In_some _ _ _ _ _ _ _ _ i k I). exists a. split; [rewrite F1; apply in_or_app; right; left; reflexivity|exact EK].
  - intros X. rewrite (map_In_some _ _ _ _ _ _ _ _ i k I) in X. destruct X as (a & A1 & A2). destruct (ekey_pay _ _ _ _ _ _ _ _ i a I A1) as (q & k' & X1 & X2 & X3 & X4).
    assert (q = p) by (apply (i_one _ _ _ _ _ _ _ _ I); [right; exact X2|left; exact P|congruence]). subst q. apply (F a A1 X1).
Qed.

Lemma map_split_some {A} (f : A -> option label) : forall l1 l2 Ls, map f (l1 ++ l2) = map Some Ls -> exists L1 L2, Ls = L1 ++ L2 /\ map f l1 = map Some L1 /\ map f l2 = map Some L2.
Proof.
  induction l1 as [|a l1 IH]; intros l2 Ls M; [exists [], Ls; repeat split; exact M|]. destruct Ls as [|x Ls]; [discriminate M|]. cbn [app map] in M. injection M as M1 M2.
  destruct (IH l2 Ls M2) as (L1 & L2 & -> & E1 & E2). exists (x :: L1), L2. cbn [map]. repeat split; try assumption. congruence.
Qed.
Definition changea (al : list_id -> list addr) (i : list_id) (l : list addr) : list_id -> list addr := fun j => if j =? i then l else al j.

Lemma new_entry_ok s al all ps own ext T L i p k g how l1 l2 L1 L2 : inv s al all ps own (p :: ext) T L -> In p (tbl s) -> key s p = Some k -> ~ In k (L i) ->
  al i = l1 ++ l2 -> L i = L1 ++ L2 -> map (ekey s) l1 = map Some L1 -> map (ekey s) l2 = map Some L2 ->
  (dll (upd (links s) (brk s) (Some g)) (hds s i) (l1 ++ l2) -> ~ In (brk s) (l1 ++ l2) ->
   op_ok (upd (links s) (brk s) (Some g)) (how (upd (links s) (brk s) (Some g)) (hds s i) (brk s)) (brk s :: l1 ++ l2) (l1 ++ brk s :: l2)) ->
  exists s', new_entry s i p g how = Ret s' /\
    inv s' (changea al i (l1 ++ brk s :: l2)) (brk s :: all) (p :: ps) (fun a => if Pos.eqb a (brk s) then i else own a) ext T (change L i (L1 ++ k :: L2)) /\
    tbl s' = tbl s /\ forall q, key s' q = key s q.
Proof.
  intros I P K NK EA EL M1 M2 HOW. set (a := brk s) in *.
  assert (FR : forall j, ~ In a (al j)) by (intros j X; apply (i_brk _ _ _ _ _ _ _ _ I) in X; unfold a in X; lia).
  assert (FA : ~ In a all). { intros X. apply (FR (own a)). apply (i_own _ _ _ _ _ _ _ _ I). split; [exact X|reflexivity]. }
  destruct HOW as (h' & hd' & E & D' & FRM & _); [rewrite <- EA; apply dll_upd_ni; [apply (i_dll _ _ _ _ _ _ _ _ I)|apply FR]|rewrite <- EA; apply FR|].
  unfold new_entry. fold a. rewrite E. cbn [ub_none bind]. eexists. split; [reflexivity|]. split; [|split; [reflexivity|intros q; reflexivity]].
  assert (LEN : (length (l1 ++ a :: l2) = S (length (al i)))%nat) by (rewrite EA, !app_length; cbn [length]; lia).
  destruct I. constructor; cbn [links hds pay brk tbl onext objs] in *.
  - intros j. unfold changea, set_hd. destruct (N.eqb_spec j i) as [->|NE]; [exact D'|].
    assert (DJ : dll (upd (links s) a (Some g)) (hds s j) (al j)) by (apply dll_upd_ni; [apply i_dll0|apply FR]).
    destruct DJ as (J1 & J2 & J3 & J4). split; [exact J1|]. split; [exact J2|]. split; [exact J3|]. eapply seg_frame; [|exact J4].
    intros b B. apply FRM. intros [X|X]; [subst b; apply (FR j B)|]. rewrite <- EA in X. apply i_own0 in B. apply i_own0 in X. destruct B, X. congruence.
  - intros j b. unfold changea. destruct (N.eqb_spec j i) as [->|NE].
    + intros X. apply in_app_or in X. assert (Y : b = a \/ In b (al i)) by (rewrite EA, in_app_iff; destruct X as [X|[X|X]]; [tauto|left; congruence|tauto]).
      destruct Y as [->|Y]; [unfold a; lia|]. apply i_brk0 in Y. lia.
    + intros X. apply i_brk0 in X. lia.
  - intros j. unfold changea. destruct (N.eqb_spec j i) as [->|NE]; [rewrite LEN; specialize (i_len0 i); lia|]. specialize (i_len0 j). lia.
  - constructor; assumption.
  - intros j b. unfold changea. destruct (Pos.eqb_spec b a) as [->|NB].
    + destruct (N.eqb_spec j i) as [->|NE].
      * split; [intros _; split; [left; reflexivity|reflexivity]|intros _; apply in_or_app; right; left; reflexivity].
      * split; [intros X; exfalso; apply (FR j X)|intros [_ X]; congruence].
    + cbn [In]. destruct (N.eqb_spec j i) as [->|NE].
      * rewrite in_app_iff. cbn [In]. specialize (i_own0 i b). rewrite EA, in_app_iff in i_own0. split; [intros [X|[X|X]]; [tauto|congruence|tauto]|intros [[X|X] Y]; [congruence|tauto]].
      * rewrite (i_own0 j b). split; [tauto|intros [[X|X] Y]; [congruence|tauto]].
  - cbn [map]. rewrite upd_eq, map_upd_ni by exact FA. rewrite i_ps0. reflexivity.
  - intros q k' r X. specialize (i_refs0 q k' r X). cbn [count_occ] in *. destruct (N.eq_dec p q); [|exact i_refs0]. split; [lia|tauto].
  - intros q X. apply i_live0. cbn [In] in *. tauto.
  - exact i_tnd0.
  - intros q q' X X' KK. apply i_one0; [cbn [In] in X; destruct X as [X|[<-|X]]; tauto|cbn [In] in X'; destruct X' as [X'|[<-|X']]; tauto|exact KK].
  - intros j. unfold change, changea. 
    assert (EK : forall b, In b (al j) -> ekey (mkA h' (set_hd (hds s) i hd') (upd (pay s) a (Some p)) (Pos.succ a) (objs s) (onext s) (tbl s)) b = ekey s b).
    { intros b B. unfold ekey. cbn [pay]. rewrite upd_neq by (intros ->; apply (FR j B)). reflexivity. }
    destruct (N.eqb_spec j i) as [->|NE].
    + rewrite !map_app. cbn [map]. rewrite <- M1, <- M2.
      rewrite (map_ext_in _ (ekey s) l1) by (intros b B; apply EK; rewrite EA; apply in_or_app; left; exact B).
      rewrite (map_ext_in _ (ekey s) l2) by (intros b B; apply EK; rewrite EA; apply in_or_app; right; exact B).
      f_equal. f_equal. unfold ekey. cbn [pay]. rewrite upd_eq. unfold key in *. cbn [objs]. exact K.
    + rewrite <- i_L0. apply map_ext_in. exact EK.
  - intros j. unfold change. destruct (N.eqb_spec j i) as [->|NE]; [|apply i_LND0]. specialize (i_LND0 i). rewrite EL in *. clear - i_LND0 NK.
    induction L1 as [|x L1 IH]; cbn [app] in *; [constructor; assumption|]. apply NoDup_cons_iff in i_LND0. destruct i_LND0 as [A B]. constructor.
    + rewrite in_app_iff in *. cbn [In] in *. intros [X|[X|X]]; [tauto|subst; tauto|tauto].
    + apply IH; [exact B|]. intros X. apply NK. right. exact X.
  - exact i_T0.
Qed.

Definition list_case s o : Prop := match o with Append i g t m => step s o = add s i g t m ll_append | Prepend i g t m => step s o = add s i g t m ll_prepend | _ => True end.
(** Abbreviation: some invariant holds at the end of a call. *)
Definition rep (s : ast) (T : list label) (L : list_id -> list label) : Prop := exists al all ps own, inv s al all ps own [] T L.

Lemma rep_ext s T L L' : rep s T L -> (forall i, L' i = L i) -> rep s T L'.
Proof.
  intros (al & all & ps & own & I) E. exists al, all, ps, own. destruct I. constructor; try assumption.
  - intros i. rewrite E. apply i_L0.
  - intros i. rewrite E. apply i_LND0.
Qed.

Lemma add_ok s T L i g t mem how front : rep s T L ->
  (forall h hd l ent, dll h hd l -> ~ In ent l -> h ent <> None -> op_ok h (how h hd ent) (ent :: l) (if front : bool then ent :: l else l ++ [ent])) ->
  exists full e s' L', add s i g t mem how = Ret (e, s') /\ (full = true -> crowded L (lab g)) /\ rep s' T L' /\
    match named T g t full with
    | OK => if isin (lab g) (L i) then (ITEM_ALREADY_PRESENT, T, L)
            else match mem with None => (SYS_RESOURCE_FAILED, T, L) | Some _ => (OK, T, change L i (if front then lab g :: L i else L i ++ [lab g])) end
    | e => (e, T, L)
    end = (e, T, L').
Proof.
  intros (al & all & ps & own & I) HOW. unfold add. destruct (get_ref_ok s al all ps own [] T L g t I) as (full & e & o & s1 & G & NA & CR & P); [cbn; lia|].
  rewrite G. cbn [bind]. exists full. rewrite NA. destruct o as [p|].
  - destruct P as (-> & I1 & P1 & P2 & P3). unfold add_1. destruct (find_in_ok s1 al all ps own [p] T L i p (lab g) I1 P1 P2) as (o & FO & F). rewrite FO. cbn [bind].
    assert (BACK : forall e0, is_success e0 = false -> exists s', (let* (e2, s2) := drop_ref s1 p in Ret ((if is_success e2 then e0 else e2), s2)) = Ret (e0, s') /\ rep s' T L).
    { intros e0 _. destruct (ref_down _ _ _ _ _ _ _ _ _ I1) as (s' & D & I' & _). rewrite D. cbn [bind is_success]. exists s'. split; [reflexivity|]. exists al, all, ps, own. exact I'. }
    destruct o as [a|].
    + destruct F as (l1 & l2 & F1 & F2 & F3 & F4). apply isin_spec in F4. rewrite F4. cbn [bind is_success]. destruct (BACK ITEM_ALREADY_PRESENT eq_refl) as (s' & B & R). rewrite B.
      exists ITEM_ALREADY_PRESENT, s', L. repeat split; try assumption.
    + assert (F' := F). apply isin_false in F'. rewrite F'. destruct mem as [ga|].
      * assert (ML := i_L _ _ _ _ _ _ _ _ I1 i).
        assert (NE : exists s', new_entry s1 i p ga how = Ret s' /\ rep s' T (change L i (if front then lab g :: L i else L i ++ [lab g]))).
        { destruct front.
          - destruct (new_entry_ok s1 al all ps own [] T L i p (lab g) ga how [] (al i) [] (L i) I1 P1 P2 F eq_refl eq_refl eq_refl ML) as (s' & E & I' & _).
            { intros D NI. apply (HOW _ _ _ _ D NI). rewrite upd_eq. discriminate. }
            exists s'. split; [exact E|]. do 4 eexists. exact I'.
          - destruct (new_entry_ok s1 al all ps own [] T L i p (lab g) ga how (al i) [] (L i) [] I1 P1 P2 F (eq_sym (app_nil_r _)) (eq_sym (app_nil_r _)) ML eq_refl) as (s' & E & I' & _).
            { intros D NI. rewrite app_nil_r in *. apply (HOW _ _ _ _ D NI). rewrite upd_eq. discriminate. }
            exists s'. split; [exact E|]. do 4 eexists. exact I'. }
        destruct NE as (s' & E & R). rewrite E. cbn [bind is_success]. exists OK, s', (change L i (if front then lab g :: L i else L i ++ [lab g])). repeat split; try assumption.
      * cbn [bind is_success]. destruct (BACK SYS_RESOURCE_FAILED eq_refl) as (s' & B & R). rewrite B. exists SYS_RESOURCE_FAILED, s', L. repeat split; try assumption.
  - destruct P as (-> & NE). exists e, s, L. split; [reflexivity|]. split; [exact CR|]. split; [exists al, all, ps, own; exact I|]. destruct e; try reflexivity. congruence.
Qed.

Lemma put_after_split pt x : forall L1 L2, ~ In pt L1 -> put_after pt x (L1 ++ pt :: L2) = L1 ++ pt :: x :: L2.
Proof.
  induction L1 as [|y L1 IH]; intros L2 NI; cbn [app put_after].
  - destruct (label_dec pt pt); [reflexivity|congruence].
  - destruct (label_dec y pt) as [->|]; [exfalso; apply NI; left; reflexivity|]. rewrite IH; [reflexivity|]. intros X. apply NI. right. exact X.
Qed.
Lemma take_out_split x : forall L1 L2, ~ In x L1 -> take_out x (L1 ++ x :: L2) = L1 ++ L2.
Proof.
  induction L1 as [|y L1 IH]; intros L2 NI; cbn [app take_out].
  - destruct (label_dec x x); [reflexivity|congruence].
  - destruct (label_dec y x) as [->|]; [exfalso; apply NI; left; reflexivity|]. rewrite IH; [reflexivity|]. intros X. apply NI. right. exact X.
Qed.

Lemma insert_after_ok s T L i g pt t t2 mem : rep s T L -> careful L (InsertAfter i g pt t t2 mem) ->
  exists f f2 e s' L', insert_after s i g pt t t2 mem = Ret (e, s') /\ (f = true -> crowded L (lab g)) /\ (f2 = true -> crowded L (lab pt)) /\ rep s' T L' /\
    expected f f2 T L (InsertAfter i g pt t t2 mem) = (e, T, L').
Proof.
  intros (al & all & ps & own & I) CA. cbn [expected]. unfold insert_after. destruct (get_ref_ok s al all ps own [] T L g t I) as (f & e & o & s1 & G & NA & CR & P); [cbn; lia|].
  rewrite G. cbn [bind]. destruct o as [p|].
  2:{ destruct P as (-> & NE). exists f, false, e, s, L. split; [reflexivity|]. split; [exact CR|]. split; [discriminate|]. split; [exists al, all, ps, own; exact I|].
      rewrite NA. destruct e; try reflexivity. congruence. }
  destruct P as (-> & I1 & P1 & P2 & P3). destruct (get_ref_ok s1 al all ps own [p] T L pt t2 I1) as (f2 & e2 & o2 & s2 & G2 & NA2 & CR2 & Q); [cbn; lia|].
  rewrite G2. cbn [bind]. destruct o2 as [q|].
  2:{ destruct Q as (-> & NE). destruct (ref_down _ _ _ _ _ _ _ _ _ I1) as (s' & D & I' & _). rewrite D. cbn [bind]. exists f, f2, e2, s', L. split; [reflexivity|]. split; [exact CR|]. split; [exact CR2|].
      split; [exists al, all, ps, own; exact I'|]. rewrite NA, NA2. destruct e2; try reflexivity. congruence. }
  destruct Q as (-> & I2 & Q1 & Q2 & Q3). exists f, f2. rewrite NA, NA2.
  assert (P1' : In p (tbl s2) /\ key s2 p = Some (lab g)).
  { clear - G2 P1 P2 I1. unfold get_ref in G2.
    assert (X : forall m, (if (32 <? length (lab pt))%nat then Ret (STRING_ARG_TOO_LONG, None, s1) else if negb m then Ret (SYS_RESOURCE_FAILED, None, s1) else
      let* o := lookup s1 (tbl s1) (lab pt) in match o with None => Ret (ITEM_NOT_FOUND, None, s1) | Some p => let* (k, r) := ub_none (objs s1 p) in
        if r =? u32_max then Ret (OVERFLOW_AVERTED, None, s1) else Ret (OK, Some p, set_obj s1 p (Some (k, r + 1))) end) = Ret (OK, Some q, s2) -> In p (tbl s2) /\ key s2 p = Some (lab g)).
    { intros m. destruct (32 <? _)%nat; [discriminate|]. destruct m; cbn [negb]; [|discriminate]. destruct (lookup _ _ _) as [[x|]| |]; cbn [bind]; try discriminate.
      destruct (objs s1 x) as [[k r]|] eqn:E; cbn [ub_none bind]; [|discriminate]. destruct (r =? u32_max); [discriminate|]. intros X. injection X as _ <-. split; [exact P1|].
      rewrite (key_set_obj s1 x k r p E). exact P2. }
    destruct pt as [[|y r]|r]; [discriminate G2|exact (X _ G2)|exact (X _ G2)]. }
  destruct P1' as [P1' P2'].
  assert (BACK : forall e0, is_success e0 = false -> exists s', (let* (e2, s3) := drop_ref s2 q in if negb (is_success e2) then Ret (e2, s3) else if is_success e0 then Ret (OK, s3) else let* (_, s4) := drop_ref s3 p in Ret (e0, s4)) = Ret (e0, s') /\ rep s' T L).
  { intros e0 ES. destruct (ref_down _ _ _ _ _ _ _ _ _ I2) as (s3 & D & I3 & _). rewrite D. cbn [bind is_success negb]. rewrite ES.
    destruct (ref_down _ _ _ _ _ _ _ _ _ I3) as (s4 & D4 & I4 & _). rewrite D4. cbn [bind]. exists s4. split; [reflexivity|]. exists al, all, ps, own. exact I4. }
  unfold insert_after_1. destruct (find_in_ok s2 al all ps own [q; p] T L i p (lab g) I2 P1' P2') as (o & FO & F). rewrite FO. cbn [bind]. destruct o as [a|].
  - destruct F as (l1 & l2 & F1 & F2 & F3 & F4). apply isin_spec in F4. rewrite F4. cbn [bind]. destruct (BACK ITEM_ALREADY_PRESENT eq_refl) as (s' & B & R). rewrite B.
    exists ITEM_ALREADY_PRESENT, s', L. repeat split; try assumption.
  - assert (F' := F). apply isin_false in F'. rewrite F'. destruct (find_in_ok s2 al all ps own [q; p] T L i q (lab pt) I2 Q1 Q2) as (o & FO2 & F2). rewrite FO2. cbn [bind]. destruct o as [a|].
    + destruct F2 as (l1 & l2 & S1 & S2 & S3 & S4). assert (S4' := S4). apply isin_spec in S4'. rewrite S4'. cbn [negb]. destruct mem as [ga|].
      * assert (ML := i_L _ _ _ _ _ _ _ _ I2 i). rewrite S1 in ML. replace (l1 ++ a :: l2) with ((l1 ++ [a]) ++ l2) in ML by (rewrite <- app_assoc; reflexivity).
        destruct (map_split_some _ _ _ _ ML) as (L1 & L2 & EL & M1 & M2). destruct (map_split_some _ _ _ _ M1) as (L0 & Lp & EL0 & M0 & Mp).
        destruct Lp as [|lp [|? ?]]; try discriminate Mp. cbn [map] in Mp. assert (lp = lab pt) by congruence. subst lp.
        assert (I2' : inv s2 al all ps own (p :: [q]) T L).
        { destruct I2. constructor; try assumption.
          - intros x k r X. destruct (i_refs0 x k r X) as (R1 & R2). split; [|exact R2]. rewrite R1. cbn [count_occ]. destruct (N.eq_dec q x), (N.eq_dec p x); lia.
          - intros x X. apply i_live0. cbn [In] in *. tauto. }
        destruct (new_entry_ok s2 al all ps own [q] T L i p (lab g) ga (fun (h : lheap) (hd : lhdr) (a0 : addr) => ll_insert_after h hd (Some a) a0) (l1 ++ [a]) l2 L1 L2 I2' P1' P2' F) as (s3 & E & I3 & TB & KE).
        { rewrite S1, <- app_assoc. reflexivity. }
        { exact EL. }
        { exact M1. }
        { exact M2. }
        { intros D NI. rewrite <- !app_assoc in *. cbn [app] in *. apply ll_insert_after_spec with (le := ga); [exact D|exact NI|apply upd_eq|].
          cbn [careful] in CA. destruct l2 as [|y l2]; [right|left; discriminate]. apply CA. destruct L2; [|discriminate M2]. exists L0. rewrite EL, EL0, app_nil_r. reflexivity. }
        rewrite E. cbn [bind]. destruct (ref_down _ _ _ _ _ _ _ _ _ I3) as (s4 & D4 & I4 & _). rewrite D4. cbn [bind is_success negb].
        exists OK, s4, (change L i (L1 ++ lab g :: L2)). split; [reflexivity|]. split; [exact CR|]. split; [exact CR2|]. split; [do 4 eexists; exact I4|].
        assert (ND := i_LND _ _ _ _ _ _ _ _ I i). rewrite EL, EL0. rewrite <- app_assoc. cbn [app]. rewrite put_after_split; [rewrite <- !app_assoc; reflexivity|].
        rewrite EL, EL0, <- app_assoc in ND. cbn [app] in ND. apply NoDup_remove_2 in ND. intros X. apply ND. apply in_or_app. left. exact X.
      * cbn [bind]. destruct (BACK SYS_RESOURCE_FAILED eq_refl) as (s' & B & R). rewrite B. exists SYS_RESOURCE_FAILED, s', L. repeat split; try assumption.
    + assert (F3 := F2). apply isin_false in F3. rewrite F3. cbn [negb bind]. destruct (BACK ITEM_NOT_FOUND eq_refl) as (s' & B & R). rewrite B. exists ITEM_NOT_FOUND, s', L. repeat split; try assumption.
Qed.

Lemma remove_ok s T L i g : rep s T L ->
  exists e s' L', remove s i g = Ret (e, s') /\ rep s' T L' /\ expected false false T L (Remove i g) = (e, T, L').
Proof.
  intros (al & all & ps & own & I). cbn [expected]. unfold remove. destruct (i_dll _ _ _ _ _ _ _ _ I i) as (NDi & H1 & H2 & SG). rewrite H1.
  destruct (find_label_ok s (lab g) (al i) None (Pos.to_nat (brk s)) (L i) SG (i_L _ _ _ _ _ _ _ _ I i) (i_len _ _ _ _ _ _ _ _ I i)) as (o & FO & F). rewrite FO. cbn [bind].
  destruct o as [a|].
  2:{ apply isin_false in F. rewrite F. exists ITEM_NOT_FOUND, s, L. repeat split. exists al, all, ps, own. exact I. }
  destruct F as (l1 & l2 & F1 & F2 & F3). assert (F4 := F3). apply isin_spec in F4. rewrite F4.
  assert (AI : In a (al i)) by (rewrite F1; apply in_or_app; right; left; reflexivity).
  destruct (ekey_pay _ _ _ _ _ _ _ _ i a I AI) as (p & k & PA & PP & KP & EK). assert (k = lab g) by congruence. subst k.
  assert (D := i_dll _ _ _ _ _ _ _ _ I i). rewrite F1 in D. destruct (ll_delete_spec _ _ _ _ _ D) as (h' & hd' & E & D' & FRM & DOM). rewrite E. cbn [ub_none bind]. cbn [pay]. rewrite PA. cbn [ub_none bind].
  assert (ML := i_L _ _ _ _ _ _ _ _ I i). rewrite F1 in ML. destruct (map_split_some _ _ _ _ ML) as (L1 & L2' & EL & M1 & M2'). destruct L2' as [|x L2]; [discriminate M2'|]. cbn [map] in M2'. injection M2' as MX M2.
  assert (x = lab g) by congruence. subst x.
  assert (AA : In a all) by (apply (i_own _ _ _ _ _ _ _ _ I) in AI; tauto). apply in_split in AA. destruct AA as (A1 & A2 & AE).
  assert (MP := i_ps _ _ _ _ _ _ _ _ I). rewrite AE, map_app in MP. cbn [map] in MP. rewrite PA in MP.
  assert (SP : exists P1 P2, ps = P1 ++ p :: P2 /\ map (pay s) A1 = map Some P1 /\ map (pay s) A2 = map Some P2).
  { clear - MP. revert ps MP. induction A1 as [|b A1 IH]; intros [|y ps] MP; try discriminate MP; cbn [map app] in MP.
    - injection MP as MP1 MP2. subst y. exists [], ps. repeat split. exact MP2.
    - injection MP as MP1 MP2. destruct (IH ps MP2) as (P1 & P2 & -> & E1 & E2). exists (y :: P1), P2. cbn [map]. repeat split; try assumption. congruence. }
  destruct SP as (P1 & P2 & PE & MP1 & MP2).
  set (s1 := mkA h' (set_hd (hds s) i hd') (pay s) (brk s) (objs s) (onext s) (tbl s)).
  set (s2 := mkA (upd h' a None) (set_hd (hds s) i hd') (upd (pay s) a None) (brk s) (objs s) (onext s) (tbl s)).
  assert (NDL := i_LND _ _ _ _ _ _ _ _ I i). rewrite EL in NDL.
  assert (ND12 : NoDup (l1 ++ l2) /\ ~ In a l1 /\ ~ In a l2) by (rewrite F1 in NDi; apply NoDup_mid; exact NDi). destruct ND12 as (ND12 & NA1 & NA2).
  assert (NDA := i_nd _ _ _ _ _ _ _ _ I). rewrite AE in NDA. destruct (NoDup_mid _ _ _ NDA) as (NDA' & NB1 & NB2).
  assert (NAL : forall j, j <> i -> ~ In a (al j)). { intros j NE X. apply (i_own _ _ _ _ _ _ _ _ I) in X. apply (i_own _ _ _ _ _ _ _ _ I) in AI. destruct X, AI. congruence. }
  assert (I2 : inv s2 (changea al i (l1 ++ l2)) (A1 ++ A2) (P1 ++ P2) own [p] T (change L i (L1 ++ L2))).
  { destruct I. unfold s2. constructor; cbn [links hds pay brk tbl onext objs] in *.
    - intros j. unfold changea, set_hd. destruct (N.eqb_spec j i) as [->|NE].
      + apply dll_upd_ni; [exact D'|]. intros X. apply in_app_or in X. tauto.
      + apply dll_upd_ni; [|apply NAL; exact NE]. destruct (i_dll0 j) as (J1 & J2 & J3 & J4). split; [exact J1|]. split; [exact J2|]. split; [exact J3|]. eapply seg_frame; [|exact J4].
        intros b B. apply FRM. intros X. assert (X' : In b (al i)) by (rewrite F1; apply in_app_or in X; apply in_or_app; cbn [In]; tauto). apply i_own0 in B. apply i_own0 in X'. destruct B, X'. congruence.
    - intros j b. unfold changea. destruct (N.eqb_spec j i) as [->|NE]; [|apply i_brk0]. intros X. apply (i_brk0 i). rewrite F1. apply in_app_or in X. apply in_or_app. cbn [In]. tauto.
    - intros j. unfold changea. destruct (N.eqb_spec j i) as [->|NE]; [|apply i_len0]. specialize (i_len0 i). rewrite F1, app_length in i_len0. cbn [length] in i_len0. rewrite app_length. lia.
    - exact NDA'.
    - intros j b. unfold changea. assert (O := i_own0 j b). rewrite AE, in_app_iff in O. cbn [In] in O. rewrite (in_app_iff A1 A2). destruct (N.eqb_spec j i) as [->|NE].
      + rewrite F1, in_app_iff in O. cbn [In] in O. rewrite in_app_iff. destruct (Pos.eq_dec a b) as [<-|NB]; [tauto|]. split; [intros X; assert (Y : (In b A1 \/ a = b \/ In b A2) /\ own b = i) by tauto; tauto|].
        intros [X Y]. assert (Z : In b l1 \/ a = b \/ In b l2) by tauto. tauto.
      + destruct (Pos.eq_dec a b) as [<-|NB]; [specialize (NAL j NE); tauto|]. tauto.
    - rewrite map_upd_ni by (intros X; apply in_app_or in X; tauto). rewrite !map_app, MP1, MP2. reflexivity.
    - intros q k r X. destruct (i_refs0 q k r X) as (R1 & R2). split; [|exact R2]. rewrite R1, PE, !count_occ_app. cbn [count_occ]. destruct (N.eq_dec p q); lia.
    - intros q X. apply i_live0. rewrite PE, in_app_iff. rewrite in_app_iff in X. cbn [In] in *. destruct X as [X|[X|[X|[]]]]; try tauto.
    - exact i_tnd0.
    - intros q q' X X'. rewrite PE in i_one0. apply i_one0; rewrite in_app_iff in *; cbn [In]; tauto.
    - intros j. assert (EKX : forall b, b <> a -> ekey (mkA (upd h' a None) (set_hd (hds s) i hd') (upd (pay s) a None) (brk s) (objs s) (onext s) (tbl s)) b = ekey s b).
      { intros b NB. unfold ekey. cbn [pay]. rewrite upd_neq by exact NB. reflexivity. }
      unfold changea, change. destruct (N.eqb_spec j i) as [->|NE].
      + rewrite !map_app, <- M1, <- M2. f_equal; apply map_ext_in; intros b B; apply EKX; congruence.
      + rewrite <- i_L0. apply map_ext_in. intros b B. apply EKX. intros ->. apply (NAL j NE B).
    - intros j. unfold change. destruct (N.eqb_spec j i) as [->|NE]; [|apply i_LND0]. apply NoDup_remove_1 in NDL. exact NDL.
    - exact i_T0. }
  destruct (ref_down _ _ _ _ _ _ _ _ _ I2) as (s3 & D3 & I3 & _). 
  assert (D1 : exists s1', drop_ref s1 p = Ret (OK, s1') /\ mkA (upd (links s1') a None) (hds s1') (upd (pay s1') a None) (brk s1') (objs s1') (onext s1') (tbl s1') = s3).
  { revert D3. unfold drop_ref. unfold s1, s2. cbn [objs]. destruct (objs s p) as [[k r]|]; cbn [ub_none bind]; [|discriminate]. destruct (r =? 0); [discriminate|].
    destruct (r =? 1); intros X; injection X as <-; eexists; (split; [reflexivity|]); reflexivity. }
  destruct D1 as (s1' & D1 & ES3). rewrite D1. cbn [bind]. rewrite ES3. exists OK, s3, (change L i (L1 ++ L2)). split; [reflexivity|]. split; [do 4 eexists; exact I3|].
  rewrite EL, take_out_split; [reflexivity|]. apply NoDup_remove_2 in NDL. intros X. apply NDL. apply in_or_app. left. exact X.
Qed.

Lemma register_ok s T L g mem : rep s T L -> careful L (Register g mem) ->
  exists e s' T', register s g mem = Ret (e, s') /\ rep s' T' L /\ expected false false T L (Register g mem) = (e, T', L).
Proof.
  intros (al & all & ps & own & I) CA. cbn [expected careful] in *. unfold register, well_formed.
  assert (SAME : forall e : err, exists (e0 : err) (s' : ast) (T' : list label), Ret (e, s) = Ret (e0, s') /\ rep s' T' L /\ (e, T, L) = (e0, T', L)).
  { intros e. exists e, s, T. repeat split. exists al, all, ps, own. exact I. }
  assert (G : exists (e : err) (s' : ast) (T' : list label), (if (32 <? length (lab g))%nat then Ret (STRING_ARG_TOO_LONG, s) else if negb mem then Ret (SYS_RESOURCE_FAILED, s) else
     match lab g with [] => Ret (INVALID_ARG, s) | _ => let* o := lookup s (tbl s) (lab g) in match o with Some _ => Ret (ITEM_ALREADY_PRESENT, s)
       | None => Ret (OK, mkA (links s) (hds s) (pay s) (brk s) (fun q => if q =? onext s then Some (lab g, 1) else objs s q) (onext s + 1) (onext s :: tbl s)) end end) = Ret (e, s') /\ rep s' T' L /\
     match (if (32 <? length (lab g))%nat then STRING_ARG_TOO_LONG else if negb mem then SYS_RESOURCE_FAILED else match lab g with [] => INVALID_ARG | _ => OK end) with
     | OK => if isin (lab g) T then (ITEM_ALREADY_PRESENT, T, L) else (OK, lab g :: T, L) | e => (e, T, L) end = (e, T', L)).
  { destruct (32 <? length (lab g))%nat; [apply SAME|]. destruct mem; cbn [negb]; [|apply SAME]. destruct (lab g) as [|c l0] eqn:LG; [apply SAME|]. rewrite <- LG in *. clear LG.
    destruct (lookup_ok s (lab g) (tbl s) T (i_T _ _ _ _ _ _ _ _ I)) as (o & LO & P). rewrite LO. cbn [bind]. destruct o as [p|].
    - destruct P as (P1 & P2 & P3). apply isin_spec in P3. rewrite P3. apply SAME.
    - assert (P' := P). apply isin_false in P'. rewrite P'. eexists OK, _, (lab g :: T). split; [reflexivity|]. split; [|reflexivity]. exists al, all, ps, own.
      assert (FRESH : objs s (onext s) = None). { destruct (objs s (onext s)) as [[k r]|] eqn:E; [|reflexivity]. destruct (i_refs _ _ _ _ _ _ _ _ I _ _ _ E) as (_ & _ & X). lia. }
      assert (NF : forall q, In q (tbl s) \/ In q ps \/ In q [] -> q <> onext s). { intros q X ->. apply (i_live _ _ _ _ _ _ _ _ I) in X. congruence. }
      destruct I. set (s' := mkA _ _ _ _ _ _ _).
      assert (K : forall q, q <> onext s -> key s' q = key s q). { intros q NE. unfold key, s'. cbn [objs]. destruct (N.eqb_spec q (onext s)); [congruence|reflexivity]. }
      assert (KN : key s' (onext s) = Some (lab g)). { unfold key, s'. cbn [objs]. rewrite N.eqb_refl. reflexivity. }
      assert (NEWKEY : forall q, In q (tbl s) \/ In q ps -> key s q <> Some (lab g)).
      { intros q [X|X] KQ.
        - apply P. apply (in_map (key s)) in X. rewrite i_T0, KQ in X. apply in_map_iff in X. destruct X as (x & X1 & X2). congruence.
        - assert (X' : In (Some q) (map (pay s) all)) by (rewrite i_ps0; apply in_map; exact X). apply in_map_iff in X'. destruct X' as (a & A1 & A2).
          apply (CA (own a)). assert (AI : In a (al (own a))) by (apply i_own0; split; [exact A2|reflexivity]).
          apply (in_map (ekey s)) in AI. rewrite i_L0 in AI. unfold ekey in AI. rewrite A1, KQ in AI. apply in_map_iff in AI. destruct AI as (x & X1 & X2). congruence. }
      constructor; try (unfold s'; cbn [links hds pay brk tbl onext objs]; assumption).
      + intros q k r. unfold s'. cbn [objs tbl onext count_occ]. destruct (N.eqb_spec q (onext s)) as [->|NE].
        * intros X. injection X as <- <-. destruct (N.eq_dec (onext s) (onext s)) as [_|]; [|congruence].
          assert (Z1 : occ (tbl s) (onext s) = 0%nat) by (apply count_occ_not_In; intros X; apply (NF (onext s)); [left; exact X|reflexivity]).
          assert (Z2 : occ ps (onext s) = 0%nat) by (apply count_occ_not_In; intros X; apply (NF (onext s)); [right; left; exact X|reflexivity]).
          rewrite Z1, Z2. split; [reflexivity|]. unfold u32_max. split; lia.
        * intros X. destruct (i_refs0 q k r X) as (R1 & R2 & R3). destruct (N.eq_dec (onext s) q); [congruence|]. split; [exact R1|]. split; [exact R2|]. lia.
      + intros q X. unfold s' in *. cbn [objs tbl] in *. destruct (N.eqb_spec q (onext s)) as [->|NE]; [discriminate|]. apply i_live0. cbn [In] in X. destruct X as [[X|X]|[X|[]]]; [congruence|tauto|tauto].
      + unfold s'. cbn [tbl]. constructor; [|exact i_tnd0]. intros X. apply (NF (onext s)); [left; exact X|reflexivity].
      + assert (NN : forall q, q <> onext s -> In q (tbl s') \/ In q ps -> In q (tbl s) \/ In q ps). { intros q NE X. unfold s' in X. cbn [tbl In] in X. destruct X as [[X|X]|X]; [congruence|tauto|tauto]. }
        intros q q' X X'. destruct (N.eq_dec q (onext s)) as [->|NE], (N.eq_dec q' (onext s)) as [->|NE']; [reflexivity| | |].
        * rewrite KN, (K q' NE'). intros Y. exfalso. apply (NEWKEY q' (NN q' NE' X')). congruence.
        * rewrite KN, (K q NE). intros Y. exfalso. apply (NEWKEY q (NN q NE X)). congruence.
        * rewrite !K by assumption. apply i_one0; apply NN; assumption.
      + intros i. rewrite <- (i_L0 i). apply map_ext_in. intros a A. unfold ekey. change (pay s' a) with (pay s a). destruct (pay s a) as [q|] eqn:PA; [|reflexivity]. apply K. apply NF. right. left.
        apply i_own0 in A. destruct A as [A _]. apply (in_map (pay s)) in A. rewrite i_ps0, PA in A. apply in_map_iff in A. destruct A as (x & X1 & X2). congruence.
      + change (tbl s') with (onext s :: tbl s). cbn [map]. rewrite KN, <- i_T0. f_equal. apply map_ext_in. intros q Q. apply K. apply NF. left. exact Q. }
  destruct g as [[|x s0]|s0]; [apply SAME|exact G|exact G].
Qed.

Lemma filter_tbl s p : forall t T, map (key s) t = map Some T -> NoDup t -> In p t -> key s p = Some (match key s p with Some k => k | None => [] end) ->
  (forall q, In q t -> key s q = key s p -> q = p) ->
  map (key s) (filter (fun q => negb (q =? p)) t) = map Some (take_out (match key s p with Some k => k | None => [] end) T) /\
  (forall q, occ (filter (fun q => negb (q =? p)) t) q = if N.eq_dec p q then 0%nat else occ t q).
Proof.
  set (k := match key s p with Some k => k | None => [] end).
  induction t as [|q t IH]; intros [|x T] M ND P K U; try discriminate M; [destruct P|]. cbn [map] in M. injection M as M1 M2. apply NoDup_cons_iff in ND. destruct ND as [N1 N2].
  cbn [filter take_out]. destruct (N.eqb_spec q p) as [->|NE]; cbn [negb].
  - assert (x = k) by (unfold k; rewrite M1; reflexivity). subst x. destruct (label_dec k k) as [_|]; [|congruence].
    assert (NIp : forall y, In y t -> negb (y =? p) = true) by (intros y Y; destruct (N.eqb_spec y p); [subst; contradiction|reflexivity]).
    assert (FT : filter (fun q => negb (q =? p)) t = t). { clear - NIp. induction t as [|y t IH]; [reflexivity|]. cbn [filter]. rewrite (NIp y) by (left; reflexivity). f_equal. apply IH. intros z Z. apply NIp. right. exact Z. }
    rewrite FT. split; [exact M2|]. intros q. cbn [count_occ]. destruct (N.eq_dec p q) as [<-|]; [apply count_occ_not_In; exact N1|reflexivity].
  - destruct P as [P|P]; [congruence|]. destruct (label_dec x k) as [->|NX]; [exfalso; apply NE; apply U; [left; reflexivity|congruence]|].
    destruct (IH T M2 N2 P K) as [A B]; [intros y Y; apply U; right; exact Y|]. split; [cbn [map]; rewrite A, M1; reflexivity|].
    intros y. cbn [count_occ]. rewrite B. destruct (N.eq_dec q y), (N.eq_dec p y); congruence.
Qed.
Lemma unregister_ok s T L g : rep s T L ->
  exists e s' T', unregister s g = Ret (e, s') /\ rep s' T' L /\ expected false false T L (Unregister g) = (e, T', L).
Proof.
  intros (al & all & ps & own & I). cbn [expected] in *. unfold unregister, well_formed. cbn [negb].
  assert (SAME : forall e : err, exists (e0 : err) (s' : ast) (T' : list label), Ret (e, s) = Ret (e0, s') /\ rep s' T' L /\ (e, T, L) = (e0, T', L)).
  { intros e. exists e, s, T. repeat split. exists al, all, ps, own. exact I. }
  assert (G : exists (e : err) (s' : ast) (T' : list label), (if (32 <? length (lab g))%nat then Ret (STRING_ARG_TOO_LONG, s) else
     match lab g with [] => Ret (INVALID_ARG, s) | _ => let* o := lookup s (tbl s) (lab g) in match o with None => Ret (ITEM_NOT_FOUND, s)
       | Some p => drop_ref (set_tbl s (filter (fun q => negb (q =? p)) (tbl s))) p end end) = Ret (e, s') /\ rep s' T' L /\
     match (if (32 <? length (lab g))%nat then STRING_ARG_TOO_LONG else match lab g with [] => INVALID_ARG | _ => OK end) with
     | OK => if isin (lab g) T then (OK, take_out (lab g) T, L) else (ITEM_NOT_FOUND, T, L) | e => (e, T, L) end = (e, T', L)).
  { destruct (32 <? length (lab g))%nat; [apply SAME|]. destruct (lab g) as [|c l0] eqn:LG; [apply SAME|]. rewrite <- LG in *. clear LG.
    destruct (lookup_ok s (lab g) (tbl s) T (i_T _ _ _ _ _ _ _ _ I)) as (o & LO & P). rewrite LO. cbn [bind]. destruct o as [p|].
    - destruct P as (P1 & P2 & P3). apply isin_spec in P3. rewrite P3.
      assert (FT := filter_tbl s p (tbl s) T (i_T _ _ _ _ _ _ _ _ I) (i_tnd _ _ _ _ _ _ _ _ I) P1). rewrite P2 in FT. destruct (FT eq_refl) as [FT1 FT2].
      { intros q Q KQ. apply (i_one _ _ _ _ _ _ _ _ I); [left; exact Q|left; exact P1|congruence]. }
      clear FT. set (s1 := set_tbl s _) in *.
      assert (I1 : inv s1 al all ps own [p] (take_out (lab g) T) L).
      { assert (SUB : forall q, In q (tbl s1) -> In q (tbl s)) by (intros q Q; unfold s1 in Q; cbn [tbl set_tbl] in Q; apply filter_In in Q; tauto).
        destruct I. constructor; try (unfold s1; cbn [links hds pay brk tbl onext objs set_tbl]; assumption).
        - intros q k r X. destruct (i_refs0 q k r X) as (R1 & R2 & R3). split; [|split; assumption]. rewrite R1. unfold s1. cbn [tbl set_tbl]. rewrite FT2. cbn [count_occ].
          destruct (N.eq_dec p q) as [<-|]; [|lia]. assert (B := i_tnd0). rewrite (NoDup_count_occ N.eq_dec) in B. specialize (B p). apply (count_occ_In N.eq_dec) in P1. lia.
        - intros q X. apply i_live0. cbn [In] in X. destruct X as [X|[X|[X|[]]]]; [left; apply SUB; exact X|tauto|subst; left; exact P1].
        - unfold s1. cbn [tbl set_tbl]. apply NoDup_filter. exact i_tnd0.
        - intros q q' X X'. apply i_one0; [destruct X as [X|X]; [left; apply SUB; exact X|right; exact X]|destruct X' as [X'|X']; [left; apply SUB; exact X'|right; exact X']]. }
      destruct (ref_down _ _ _ _ _ _ _ _ _ I1) as (s2 & D & I2 & _). rewrite D. exists OK, s2, (take_out (lab g) T). split; [reflexivity|]. split; [do 4 eexists; exact I2|reflexivity].
    - apply isin_false in P. rewrite P. apply SAME. }
  destruct g as [[|x s0]|s0]; [apply SAME|exact G|exact G].
Qed.

Lemma step_ok s T L o : rep s T L -> careful L o ->
  exists f f2 e s' T' L', step s o = Ret (e, s') /\ rep s' T' L' /\ expected f f2 T L o = (e, T', L') /\
    (f = true -> crowded L (fst (labels_of o))) /\ (f2 = true -> crowded L (snd (labels_of o))).
Proof.
  intros R CA. destruct o as [i g t m|i g t m|i g p t t2 m|i g|g m|g]; cbn [step labels_of fst snd].
  - destruct (add_ok s T L i g t m ll_append false R) as (f & e & s' & L' & A & C & R' & E); [intros; apply ll_append_spec; assumption|].
    exists f, false, e, s', T, L'. split; [exact A|]. split; [exact R'|]. split; [exact E|]. split; [exact C|discriminate].
  - destruct (add_ok s T L i g t m ll_prepend true R) as (f & e & s' & L' & A & C & R' & E); [intros; apply ll_prepend_spec; assumption|].
    exists f, false, e, s', T, L'. split; [exact A|]. split; [exact R'|]. split; [exact E|]. split; [exact C|discriminate].
  - destruct (insert_after_ok s T L i g p t t2 m R CA) as (f & f2 & e & s' & L' & A & C & C2 & R' & E). exists f, f2, e, s', T, L'. repeat split; assumption.
  - destruct (remove_ok s T L i g R) as (e & s' & L' & A & R' & E). exists false, false, e, s', T, L'. repeat split; try assumption; discriminate.
  - destruct (register_ok s T L g m R CA) as (e & s' & T' & A & R' & E). exists false, false, e, s', T', L. repeat split; try assumption; discriminate.
  - destruct (unregister_ok s T L g R) as (e & s' & T' & A & R' & E). exists false, false, e, s', T', L. repeat split; try assumption; discriminate.
Qed.
Lemma run_ok : forall os s T L, rep s T L -> careful_run T L os ->
  exists es s' T' L', run s os = Ret (es, s') /\ rep s' T' L' /\ follows T L os es T' L'.
Proof.
  induction os as [|o os IH]; intros s T L R C; cbn [run]; [exists [], s, T, L; repeat split; [exact R|constructor]|].
  inversion C as [|T0 L0 o0 os0 CA NX E1 E2]. subst. destruct (step_ok s T L o R CA) as (f & f2 & e & s' & T' & L' & A & R' & E & C1 & C2). rewrite A. cbn [bind].
  destruct (IH s' T' L' R' (NX _ _ _ _ _ E)) as (es & s2 & T2 & L2 & B & R2 & F). rewrite B. cbn [bind]. exists (e :: es), s2, T2, L2. repeat split; [exact R2|].
  eapply F_step; eassumption.
Qed.
