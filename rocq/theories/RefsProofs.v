(** Lemmas for C26. *)
From Verif Require Import Base Links Table Refs.
Open Scope N_scope.

Definition allkids (h : heap) : list addr := flat_map (fun p => kids (snd p)) h.
Definition cnt (l : list addr) (a : addr) : nat := count_occ Pos.eq_dec l a.
(** Every counter is the number of references there are, and every reference is to an allocated object. *)
Definition inv (h : heap) (rs : list addr) : Prop :=
  NoDup (map fst h) /\
  (forall a o, get h a = Some o -> refs o = N.of_nat (cnt (rs ++ allkids h) a)) /\
  (forall a, (0 < cnt (rs ++ allkids h) a)%nat -> get h a <> None).

Lemma cnt_app a b x : cnt (a ++ b) x = (cnt a x + cnt b x)%nat. Proof. apply count_occ_app. Qed.
Lemma cnt_cons y l x : cnt (y :: l) x = ((if Pos.eqb x y then 1 else 0) + cnt l x)%nat.
Proof. unfold cnt. cbn. destruct (Pos.eq_dec y x), (Pos.eqb_spec x y); subst; try congruence; reflexivity. Qed.
Lemma cnt_nil x : cnt [] x = 0%nat. Proof. reflexivity. Qed.
Lemma cnt_in l x : (0 < cnt l x)%nat <-> In x l.
Proof. unfold cnt. pose proof (count_occ_In Pos.eq_dec l x). tauto. Qed.

Lemma get_set h a b o : get (set h a o) b = if Pos.eqb b a then (match get h a with Some _ => Some o | None => None end) else get h b.
Proof.
  induction h as [|[c p] h IH]; cbn [set map get fst]; [destruct (Pos.eqb b a); reflexivity|]. fold (set h a o).
  destruct (Pos.eqb_spec c a) as [->|NE]; cbn [get fst].
  - rewrite (Pos.eqb_sym a b). rewrite IH. destruct (Pos.eqb b a); reflexivity.
  - destruct (Pos.eqb_spec c b) as [ECB|NB]; [destruct (Pos.eqb_spec b a); [congruence|reflexivity]|]. rewrite IH. destruct (Pos.eqb_spec b a) as [->|]; reflexivity.
Qed.
Lemma get_free h a b : get (free h a) b = if Pos.eqb b a then None else get h b.
Proof.
  induction h as [|[c p] h IH]; cbn [free filter get fst]; [destruct (Pos.eqb b a); reflexivity|]. fold (free h a).
  destruct (Pos.eqb_spec c a) as [->|NE]; cbn [negb get fst].
  - rewrite IH. rewrite (Pos.eqb_sym a b). destruct (Pos.eqb b a); reflexivity.
  - destruct (Pos.eqb_spec c b) as [ECB|NB]; [destruct (Pos.eqb_spec b a); [congruence|reflexivity]|exact IH].
Qed.
Lemma get_none h a : get h a = None <-> ~ In a (map fst h).
Proof.
  induction h as [|[c p] h IH]; cbn [get map fst In]; [tauto|]. destruct (Pos.eqb_spec c a) as [->|NE]; [split; [discriminate|tauto]|]. rewrite IH. tauto.
Qed.
Lemma set_dom h a o : map fst (set h a o) = map fst h.
Proof. induction h as [|[c p] h IH]; cbn [set map fst]; [reflexivity|]. fold (set h a o). rewrite IH. destruct (Pos.eqb_spec c a) as [->|]; reflexivity. Qed.
Lemma free_dom h a : NoDup (map fst h) -> NoDup (map fst (free h a)).
Proof.
  induction h as [|[c p] h IH]; cbn [free filter map fst]; intros H; [constructor|]. inversion H as [|? ? H1 H2]; subst. fold (free h a).
  destruct (Pos.eqb c a); cbn [negb map fst]; [auto|]. constructor; [|auto]. intros H3. apply H1. unfold free in H3.
  apply in_map_iff in H3. destruct H3 as (q & <- & Q). apply filter_In in Q. apply in_map. tauto.
Qed.
Lemma set_absent h a o : get h a = None -> set h a o = h.
Proof.
  intros H. apply get_none in H. induction h as [|[c p] h IH]; cbn [set map fst In] in *; [reflexivity|]. fold (set h a o). rewrite IH by tauto.
  destruct (Pos.eqb_spec c a) as [->|]; [tauto|reflexivity].
Qed.
Lemma free_absent h a : get h a = None -> free h a = h.
Proof.
  intros H. apply get_none in H. induction h as [|[c p] h IH]; cbn [free filter map fst In] in *; [reflexivity|]. fold (free h a). rewrite IH by tauto.
  destruct (Pos.eqb_spec c a) as [->|]; [tauto|reflexivity].
Qed.
Lemma kids_set h a o o' x : NoDup (map fst h) -> get h a = Some o -> (cnt (allkids (set h a o')) x + cnt (kids o) x = cnt (allkids h) x + cnt (kids o') x)%nat.
Proof.
  induction h as [|[c p] h IH]; intros ND G; cbn [get] in G; [discriminate|]. inversion ND as [|? ? N1 N2]; subst. cbn [set map fst]. fold (set h a o').
  destruct (Pos.eqb_spec c a) as [->|NE].
  - assert (p = o) by congruence. subst p. rewrite set_absent by (apply get_none; exact N1). unfold allkids in *; cbn [flat_map snd]. rewrite !cnt_app. lia.
  - unfold allkids in *; cbn [flat_map snd]. rewrite !cnt_app. specialize (IH N2 G). unfold allkids in IH. lia.
Qed.
Lemma kids_free h a o x : NoDup (map fst h) -> get h a = Some o -> (cnt (allkids (free h a)) x + cnt (kids o) x = cnt (allkids h) x)%nat.
Proof.
  induction h as [|[c p] h IH]; intros ND G; cbn [get] in G; [discriminate|]. inversion ND as [|? ? N1 N2]; subst. cbn [free filter fst]. fold (free h a).
  destruct (Pos.eqb_spec c a) as [->|NE]; cbn [negb].
  - assert (p = o) by congruence. subst p. rewrite free_absent by (apply get_none; exact N1). unfold allkids in *; cbn [flat_map snd]. rewrite !cnt_app. lia.
  - unfold allkids in *; cbn [flat_map snd]. rewrite !cnt_app. specialize (IH N2 G). unfold allkids in IH. lia.
Qed.
Lemma held_set h a o o' : NoDup (map fst h) -> get h a = Some o -> (held (set h a o') + length (kids o) = held h + length (kids o'))%nat.
Proof.
  unfold held. induction h as [|[c p] h IH]; intros ND G; cbn [get] in G; [discriminate|]. inversion ND as [|? ? N1 N2]; subst. cbn [set map fst]. fold (set h a o').
  destruct (Pos.eqb_spec c a) as [->|NE].
  - assert (p = o) by congruence. subst p. rewrite set_absent by (apply get_none; exact N1). cbn [flat_map snd]. rewrite !app_length. lia.
  - cbn [flat_map snd]. rewrite !app_length. specialize (IH N2 G). lia.
Qed.
Lemma held_free h a o : NoDup (map fst h) -> get h a = Some o -> (held (free h a) + length (kids o) = held h)%nat.
Proof.
  unfold held. induction h as [|[c p] h IH]; intros ND G; cbn [get] in G; [discriminate|]. inversion ND as [|? ? N1 N2]; subst. cbn [free filter fst]. fold (free h a).
  destruct (Pos.eqb_spec c a) as [->|NE]; cbn [negb].
  - assert (p = o) by congruence. subst p. rewrite free_absent by (apply get_none; exact N1). cbn [flat_map snd]. rewrite !app_length. lia.
  - cbn [flat_map snd]. rewrite !app_length. specialize (IH N2 G). lia.
Qed.

(** Replacing an object: the new counter is the new number of references. *)
Lemma inv_set h rs rs' a o o' :
  inv h rs -> get h a = Some o ->
  (forall x, x <> a -> (cnt rs' x + cnt (kids o') x = cnt rs x + cnt (kids o) x)%nat) ->
  (refs o' + N.of_nat (cnt rs a + cnt (kids o) a) = refs o + N.of_nat (cnt rs' a + cnt (kids o') a)) ->
  inv (set h a o') rs'.
Proof.
  intros (ND & RC & AL) G OTH SELF. split; [rewrite set_dom; exact ND|].
  assert (CA : forall x, (cnt (rs' ++ allkids (set h a o')) x + (cnt rs x + cnt (kids o) x) = cnt (rs ++ allkids h) x + (cnt rs' x + cnt (kids o') x))%nat).
  { intros x. rewrite !cnt_app. pose proof (kids_set h a o o' x ND G). lia. }
  split.
  - intros x ox. rewrite get_set, G. destruct (Pos.eqb_spec x a) as [->|NE].
    + intros E. assert (ox = o') by congruence. subst ox. specialize (RC a o G). specialize (CA a). lia.
    + intros E. rewrite (RC x ox E). specialize (CA x). specialize (OTH x NE). lia.
  - intros x Hx. rewrite get_set, G. destruct (Pos.eqb_spec x a) as [->|NE]; [discriminate|]. apply AL. specialize (CA x). specialize (OTH x NE). lia.
Qed.
Lemma inv_free h rs a o : inv h rs -> get h a = Some o -> refs o = 0 -> kids o = [] -> inv (free h a) rs.
Proof.
  intros (ND & RC & AL) G Z K. split; [apply free_dom; exact ND|].
  assert (CA : forall x, (cnt (rs ++ allkids (free h a)) x = cnt (rs ++ allkids h) x)%nat).
  { intros x. rewrite !cnt_app. pose proof (kids_free h a o x ND G) as Q. rewrite K, cnt_nil in Q. lia. }
  split.
  - intros x ox. rewrite get_free. destruct (Pos.eqb_spec x a); [discriminate|]. rewrite CA. apply RC.
  - intros x Hx. rewrite CA in Hx. rewrite get_free. destruct (Pos.eqb_spec x a) as [->|]; [|apply AL; exact Hx]. specialize (RC a o G). lia.
Qed.
Lemma inv_perm h rs rs' : (forall x, cnt rs x = cnt rs' x) -> inv h rs -> inv h rs'.
Proof.
  intros E (ND & RC & AL). split; [exact ND|]. split.
  - intros a o G. rewrite (RC a o G), !cnt_app, E. reflexivity.
  - intros a H. apply AL. rewrite cnt_app in *. rewrite E. exact H.
Qed.

(** Events with a configuration of their own are held from outside. *)
Definition pinned (h : heap) (rs : list addr) : Prop := forall e o, get h e = Some o -> okind o = KEvent true -> In e rs.
Definition within (h h' : heap) : Prop := forall a o', get h' a = Some o' -> exists o, get h a = Some o /\ okind o = okind o'.
Lemma within_refl h : within h h. Proof. intros a o H. eauto. Qed.
Lemma within_trans a b c : within a b -> within b c -> within a c.
Proof. intros H1 H2 x o G. destruct (H2 x o G) as (o1 & G1 & E1). destruct (H1 x o1 G1) as (o2 & G2 & E2). exists o2. split; [exact G2|congruence]. Qed.
Lemma within_set h a o o' : get h a = Some o -> okind o' = okind o -> within h (set h a o').
Proof. intros G K x ox. rewrite get_set, G. destruct (Pos.eqb_spec x a) as [->|]; intros E; [assert (ox = o') by congruence; subst; eauto|eauto]. Qed.
Lemma within_free h a : within h (free h a).
Proof. intros x ox. rewrite get_free. destruct (Pos.eqb x a); [discriminate|eauto]. Qed.
Lemma pinned_within h h' rs : within h h' -> pinned h rs -> pinned h' rs.
Proof. intros W P e o G K. destruct (W e o G) as (o1 & G1 & E). apply (P e o1 G1). congruence. Qed.

(** Objects other than [a] that are still there hold what they held. *)
Definition keeps (a : option addr) (h h' : heap) : Prop :=
  forall x o', Some x <> a -> get h' x = Some o' -> exists o, get h x = Some o /\ link o' = link o /\ acts o' = acts o.
Lemma keeps_trans a h1 h2 h3 : keeps a h1 h2 -> keeps a h2 h3 -> keeps a h1 h3.
Proof. intros A B x o3 NE G. destruct (B x o3 NE G) as (o2 & G2 & E2 & E3). destruct (A x o2 NE G2) as (o1 & G1 & E4 & E5). exists o1. split; [exact G1|split; congruence]. Qed.
Lemma keeps_set h a o : keeps (Some a) h (set h a o).
Proof. intros x ox NE. rewrite get_set. destruct (Pos.eqb_spec x a); [congruence|]. eauto. Qed.
Lemma keeps_weaken a h h' : keeps None h h' -> keeps a h h'.
Proof. intros K x o NE G. apply (K x o); [discriminate|exact G]. Qed.

(** What dropping the reference [a] (one of [a :: rs]) does. *)
Definition dropped (h : heap) (a : addr) (rs : list addr) (h' : heap) (freed : bool) : Prop :=
  inv h' rs /\ within h h' /\ (held h' <= held h)%nat /\
  (forall x, cnt (a :: rs ++ allkids h) x = 0%nat -> get h' x = get h x) /\
  (forall x o, get h' x = Some o -> refs o = 0 -> cnt (a :: rs ++ allkids h) x = 0%nat) /\
  (freed = true <-> cnt (a :: rs ++ allkids h) a = 1%nat) /\ (freed = true <-> get h' a = None) /\ keeps None h h'.

Lemma drop_spec : forall fuel h a rs, inv h (a :: rs) -> pinned h rs -> (held h < fuel)%nat ->
  exists h' freed, drop fuel h a = Ret (h', freed, OK) /\ dropped h a rs h' freed.
Proof.
  induction fuel as [|f IH]; intros h a rs I PIN FU; [lia|]. pose proof I as (ND & RC & AL).
  assert (GA : exists o, get h a = Some o).
  { destruct (get h a) eqn:G; [eauto|]. exfalso. apply (AL a); [|exact G]. cbn [app]. rewrite cnt_cons, Pos.eqb_refl. lia. }
  destruct GA as (o & G). cbn [drop]. rewrite G. cbn [ub_none bind].
  pose proof (RC a o G) as RA. cbn [app] in RA. rewrite cnt_cons, Pos.eqb_refl in RA.
  destruct (N.eqb_spec (refs o) 0); [lia|]. destruct (N.eqb_spec (refs o - 1) 0) as [LAST|MORE]; cbn [negb].
  2: { (* not the last *)
    exists (set h a (mko (refs o - 1) (link o) (acts o) (okind o))), false. split; [reflexivity|].
    split; [|split; [|split; [|split; [|split; [|split; [|split]]]]]].
    - apply (inv_set h (a :: rs) rs a o); [exact I|exact G| |].
      + intros x NE. rewrite cnt_cons. destruct (Pos.eqb_spec x a); [congruence|]. unfold kids. cbn [link acts]. lia.
      + rewrite cnt_cons, Pos.eqb_refl. unfold kids. cbn [refs link acts]. lia.
    - apply (within_set h a o); [exact G|reflexivity].
    - pose proof (held_set h a o (mko (refs o - 1) (link o) (acts o) (okind o)) ND G). unfold kids in *. cbn [link acts] in *. lia.
    - intros x C. rewrite get_set, G. destruct (Pos.eqb_spec x a) as [->|]; [|reflexivity]. rewrite cnt_cons, Pos.eqb_refl in C. lia.
    - intros x ox. rewrite get_set, G. destruct (Pos.eqb_spec x a) as [->|NE].
      + intros E Z. assert (ox = mko (refs o - 1) (link o) (acts o) (okind o)) by congruence. subst ox. cbn [refs] in Z. lia.
      + intros E Z. rewrite (RC x ox E) in Z. cbn [app] in Z. lia.
    - split; [discriminate|]. rewrite cnt_cons, Pos.eqb_refl. lia.
    - split; [discriminate|]. rewrite get_set, G, Pos.eqb_refl. discriminate.
    - intros x ox _. rewrite get_set, G. destruct (Pos.eqb_spec x a) as [->|]; intros E; [|eauto]. assert (ox = mko (refs o - 1) (link o) (acts o) (okind o)) by congruence. subst ox. exists o. auto. }
  (* the last reference *)
  assert (C0 : cnt (rs ++ allkids h) a = 0%nat) by lia.
  set (dying := fun r l => mko 0 r l (okind o)).
  assert (NB : forall x, x <> a -> cnt (a :: rs) x = cnt rs x) by (intros x NE; rewrite cnt_cons; destruct (Pos.eqb_spec x a); [congruence|reflexivity]).
  assert (CR : cnt rs a = 0%nat /\ cnt (allkids h) a = 0%nat) by (rewrite cnt_app in C0; lia). destruct CR as [CR CK].
  assert (CO : forall x, (cnt (kids o) x <= cnt (allkids h) x)%nat).
  { intros x. pose proof (kids_free h a o x ND G). lia. }
  assert (KA : cnt (kids o) a = 0%nat) by (specialize (CO a); lia).
  (* taking the link out *)
  set (h1 := set h a (dying None (acts o))).
  assert (G1 : get h1 a = Some (dying None (acts o))) by (unfold h1; rewrite get_set, G, Pos.eqb_refl; reflexivity).
  assert (I1 : inv h1 (olist (link o) ++ rs)).
  { apply (inv_set h (a :: rs) _ a o); [exact I|exact G| |].
    - intros x NE. rewrite NB by exact NE. unfold dying, kids. cbn [link acts olist app]. rewrite !cnt_app. lia.
    - rewrite cnt_cons, Pos.eqb_refl. unfold kids in *. unfold dying. cbn [refs link acts olist app]. rewrite !cnt_app in *. lia. }
  assert (H1 : (held h1 + length (olist (link o)) = held h)%nat).
  { unfold h1. pose proof (held_set h a o (dying None (acts o)) ND G) as Q. unfold dying, kids in Q. cbn [link acts olist app] in Q. rewrite app_length in Q. unfold dying. lia. }
  assert (W1 : within h h1) by (apply (within_set h a o); [exact G|reflexivity]).
  assert (P1 : pinned h1 rs) by (eapply pinned_within; eassumption).
  assert (CNT1 : forall x, cnt (olist (link o) ++ rs ++ allkids h1) x = cnt (rs ++ allkids h) x).
  { intros x. pose proof (kids_set h a o (dying None (acts o)) x ND G) as Q. fold h1 in Q. unfold dying, kids in Q. cbn [link acts olist app] in Q. rewrite !cnt_app in *. lia. }
  (* dropping the link *)
  assert (L : exists h2, (match link o with Some l => let* (h, _, e) := drop f h1 l in Ret (h, e) | None => Ret (h1, OK) end) = Ret (h2, OK) /\
     inv h2 rs /\ within h1 h2 /\ (held h2 <= held h1)%nat /\ (forall x, cnt (rs ++ allkids h) x = 0%nat -> get h2 x = get h1 x) /\
     (forall x ox, get h2 x = Some ox -> refs ox = 0 -> x <> a -> cnt (rs ++ allkids h) x = 0%nat) /\ keeps (Some a) h1 h2).
  { destruct (link o) as [l|] eqn:EL; cbn [olist app] in *.
    - destruct (IH h1 l rs I1 P1 ltac:(cbn [length] in H1; lia)) as (h2 & fr & D & I2 & W2 & H2 & Z2 & R2 & _ & _ & K2). rewrite D. cbn [bind].
      exists h2. split; [reflexivity|]. split; [exact I2|]. split; [exact W2|]. split; [exact H2|]. split.
      + intros x C. apply Z2. rewrite CNT1. exact C.
      + split; [|apply keeps_weaken; exact K2]. intros x ox GX ZX _. rewrite <- CNT1. apply (R2 x ox GX ZX).
    - exists h1. split; [reflexivity|]. split; [exact I1|]. split; [apply within_refl|]. split; [lia|]. split; [reflexivity|]. split; [|intros x ox _ GX; eauto].
      intros x ox GX ZX NE. unfold h1 in GX. rewrite get_set in GX. destruct (Pos.eqb_spec x a); [congruence|]. rewrite (RC x ox GX) in ZX. cbn [app] in ZX. rewrite cnt_cons in ZX. destruct (Pos.eqb_spec x a); [congruence|]. lia. }
  change (set h a {| refs := 0; link := None; acts := acts o; okind := okind o |}) with h1.
  destruct L as (h2 & -> & I2 & W2 & H2 & Z2 & R2 & K2). cbn [bind is_success negb]. rewrite andb_false_r.
  assert (G2 : get h2 a = Some (dying None (acts o))) by (rewrite Z2 by exact C0; exact G1).
  (* dropping the actions *)
  assert (ACTS : forall l h3, inv h3 rs -> within h1 h3 -> (held h3 <= held h1)%nat -> get h3 a = Some (dying None l) ->
     (forall x, cnt (rs ++ allkids h) x = 0%nat -> x <> a -> get h3 x = get h1 x) ->
     (forall x ox, get h3 x = Some ox -> refs ox = 0 -> x <> a -> cnt (rs ++ allkids h) x = 0%nat) ->
     (forall x, cnt (rs ++ allkids h) x = 0%nat -> cnt (rs ++ allkids h3) x = 0%nat) -> keeps (Some a) h1 h3 ->
     exists h4, (fix all (l : list addr) (h : heap) : out heap :=
                     match l with
                     | [] => Ret h
                     | x :: r => let* (h, _, _) := drop f (set h a (mko 0 None r (okind o))) x in all r h
                     end) l h3 = Ret h4 /\
       inv h4 rs /\ within h1 h4 /\ (held h4 <= held h1)%nat /\ (forall x, cnt (rs ++ allkids h) x = 0%nat -> x <> a -> get h4 x = get h1 x) /\
       (forall x ox, get h4 x = Some ox -> refs ox = 0 -> x <> a -> cnt (rs ++ allkids h) x = 0%nat) /\ get h4 a = Some (dying None []) /\ keeps (Some a) h1 h4).
  { induction l as [|y l IHl]; intros h3 I3 W3 H3 G3 Z3 R3 C3 K3; [exists h3; auto 10|].
    pose proof I3 as (ND3 & RC3 & AL3).
    assert (CA3 : cnt (rs ++ allkids h3) a = 0%nat) by (apply C3; exact C0).
    set (h3' := set h3 a (dying None l)).
    assert (YA : y <> a). { intros ->. pose proof (kids_free h3 a _ a ND3 G3) as Q. unfold dying, kids in Q. cbn [link acts olist app] in Q. rewrite cnt_cons, Pos.eqb_refl in Q. rewrite cnt_app in CA3. lia. }
    assert (I3' : inv h3' (y :: rs)).
    { apply (inv_set h3 rs _ a (dying None (y :: l))); [exact I3|exact G3| |].
      - intros x NE. unfold dying, kids. cbn [link acts olist app]. rewrite !cnt_cons. lia.
      - unfold dying, kids. cbn [refs link acts olist app]. rewrite !cnt_cons. destruct (Pos.eqb_spec a y); [congruence|]. lia. }
    assert (H3' : (S (held h3') = held h3)%nat).
    { pose proof (held_set h3 a _ (dying None l) ND3 G3) as Q. fold h3' in Q. unfold dying, kids in Q. cbn [link acts olist app length] in Q. lia. }
    assert (W3' : within h1 h3') by (eapply within_trans; [exact W3|]; apply (within_set h3 a (dying None (y :: l))); [exact G3|reflexivity]).
    destruct (IH h3' y rs I3' (pinned_within h1 h3' rs W3' P1) ltac:(lia)) as (h4 & fr & D & I4 & W4 & H4 & Z4 & R4 & _ & _ & K4).
    change (set h3 a {| refs := 0; link := None; acts := l; okind := okind o |}) with h3'. rewrite D. cbn [bind].
    assert (CN : forall x, cnt (y :: rs ++ allkids h3') x = cnt (rs ++ allkids h3) x).
    { intros x. pose proof (kids_set h3 a _ (dying None l) x ND3 G3) as Q. fold h3' in Q. unfold dying, kids in Q. cbn [link acts olist app] in Q. rewrite cnt_cons in *. rewrite !cnt_app in *. lia. }
    apply IHl.
    - exact I4.
    - eapply within_trans; eassumption.
    - lia.
    - rewrite Z4; [unfold h3'; rewrite get_set, G3, Pos.eqb_refl; reflexivity|]. rewrite CN. exact CA3.
    - intros x C NE. rewrite Z4 by (rewrite CN; apply C3; exact C). unfold h3'. rewrite get_set. destruct (Pos.eqb_spec x a); [congruence|]. apply Z3; assumption.
    - intros x ox GX ZX NE. pose proof (R4 x ox GX ZX) as Q. rewrite CN in Q. destruct (W4 x ox GX) as (o3 & GX3 & _). 
      assert (GX3' : get h3 x = Some o3) by (unfold h3' in GX3; rewrite get_set in GX3; destruct (Pos.eqb_spec x a); [congruence|exact GX3]).
      apply (R3 x o3 GX3'); [|exact NE]. rewrite (RC3 x o3 GX3'). lia.
    - intros x C. pose proof I4 as (ND4 & RC4 & AL4). destruct (cnt (rs ++ allkids h4) x) eqn:E; [reflexivity|exfalso].
      pose proof (C3 x C) as Q. destruct (get h4 x) as [o4|] eqn:G4; [|apply (AL4 x); [lia|exact G4]].
      destruct (Pos.eq_dec x a) as [->|NE].
      + rewrite Z4 in G4 by (rewrite CN; exact CA3). unfold h3' in G4. rewrite get_set, G3, Pos.eqb_refl in G4. assert (E4 : o4 = dying None l) by congruence.
        pose proof (RC4 a o4) as RR. rewrite E4 in RR. rewrite Z4 in RR by (rewrite CN; exact CA3). unfold h3' in RR. rewrite get_set, G3, Pos.eqb_refl in RR. specialize (RR eq_refl). unfold dying in RR. cbn [refs] in RR. lia.
      + assert (GE : get h4 x = get h3' x) by (apply Z4; rewrite CN; exact Q). unfold h3' in GE. rewrite get_set in GE. destruct (Pos.eqb_spec x a); [congruence|].
        rewrite G4 in GE. pose proof (RC4 x o4 G4). pose proof (RC3 x o4 (eq_sym GE)). lia.
    - eapply keeps_trans; [exact K3|]. eapply keeps_trans; [apply keeps_set|apply keeps_weaken; exact K4]. }
  assert (C2 : forall x, cnt (rs ++ allkids h) x = 0%nat -> cnt (rs ++ allkids h2) x = 0%nat).
  { intros x C. pose proof I2 as (ND2 & RC2 & AL2). destruct (cnt (rs ++ allkids h2) x) eqn:E; [reflexivity|exfalso].
    destruct (get h2 x) as [o2|] eqn:GX; [|apply (AL2 x); [lia|exact GX]]. pose proof (RC2 x o2 GX) as Q. rewrite Z2 in GX by exact C.
    pose proof I1 as (ND1 & RC1 & AL1). pose proof (RC1 x o2 GX) as Q1. pose proof (CNT1 x) as Q2. rewrite <- app_assoc in Q1. lia. }
  destruct (ACTS (acts o) h2 I2 W2 H2 G2 ltac:(intros x C _; apply Z2; exact C) R2 C2 K2) as (h4 & -> & I4 & W4 & H4 & Z4 & R4 & G4 & K4). cbn [bind].
  (* no use after free *)
  assert (SAFE : (match okind o with KRoute => true | _ => false end) && has_own_config h (link o) &&
     match link o with Some l => match get h4 l with None => true | Some _ => false end | None => false end = false).
  { destruct (link o) as [l|] eqn:EL; [|apply andb_false_r]. destruct (has_own_config h (Some l)) eqn:EC; [|rewrite andb_false_r; reflexivity].
    unfold has_own_config in EC. destruct (get h l) as [ol|] eqn:GL; [|discriminate]. destruct (okind ol) as [|[|]| | |] eqn:KL; try discriminate.
    pose proof (PIN l ol GL KL) as IN. pose proof I4 as (_ & _ & AL4). destruct (get h4 l) eqn:GL4; [apply andb_false_r|].
    exfalso. apply (AL4 l); [|exact GL4]. rewrite cnt_app. apply cnt_in in IN. lia. }
  rewrite SAFE. exists (free h4 a), true. split; [reflexivity|]. pose proof I4 as (ND4 & RC4 & AL4).
  split; [|split; [|split; [|split; [|split; [|split; [|split]]]]]].
  - apply (inv_free h4 rs a (dying None [])); [exact I4|exact G4|reflexivity|reflexivity].
  - eapply within_trans; [exact W1|]. eapply within_trans; [exact W4|]. apply within_free.
  - pose proof (held_free h4 a _ ND4 G4) as Q. unfold dying, kids in Q. cbn in Q. lia.
  - intros x C. rewrite cnt_cons in C. destruct (Pos.eqb_spec x a) as [EX|NE]; [lia|]. rewrite get_free. destruct (Pos.eqb_spec x a); [congruence|].
    rewrite Z4 by (lia || assumption). unfold h1. rewrite get_set. destruct (Pos.eqb_spec x a); [congruence|reflexivity].
  - intros x ox. rewrite get_free. destruct (Pos.eqb_spec x a) as [EX|NE]; [discriminate|]. intros GX ZX. rewrite cnt_cons. destruct (Pos.eqb_spec x a); [congruence|].
    rewrite (R4 x ox GX ZX NE). reflexivity.
  - split; [intros _|reflexivity]. rewrite cnt_cons, Pos.eqb_refl, C0. reflexivity.
  - split; [intros _|reflexivity]. rewrite get_free, Pos.eqb_refl. reflexivity.
  - intros x ox _. rewrite get_free. destruct (Pos.eqb_spec x a) as [EX|NE]; [discriminate|]. intros GX.
    assert (NS : Some x <> Some a) by congruence. destruct (K4 x ox NS GX) as (o1 & GX1 & E1 & E2). unfold h1 in GX1. rewrite get_set in GX1. destruct (Pos.eqb_spec x a); [congruence|]. eauto.
Qed.

Definition quiet (h : heap) : Prop := forall a o, get h a = Some o -> refs o <> 0.
Lemma drop_quiet h a rs : inv h (a :: rs) -> pinned h rs -> quiet h ->
  exists h' freed, drop_ h a = Ret (h', freed, OK) /\ inv h' rs /\ quiet h' /\ within h h' /\
    (freed = true <-> cnt (a :: rs ++ allkids h) a = 1%nat) /\ (freed = true <-> get h' a = None) /\ keeps None h h'.
Proof.
  intros I P Q. destruct (drop_spec (S (held h)) h a rs I P ltac:(lia)) as (h' & fr & D & I' & W & _ & Z & R & F1 & F2 & KK).
  exists h', fr. split; [exact D|]. split; [exact I'|]. split; [|split; [exact W|split; [exact F1|split; [exact F2|exact KK]]]].
  intros x o G E. pose proof (R x o G E) as C. rewrite (Z x C) in G. apply (Q x o G E).
Qed.
Lemma checkout_spec h a o rs : inv h rs -> quiet h -> get h a = Some o ->
  (checkout h a = Ret (h, OVERFLOW_AVERTED) /\ u32_max <= refs o) \/
  exists h', checkout h a = Ret (h', OK) /\ inv h' (a :: rs) /\ quiet h' /\ within h h' /\ (forall x ox, get h x = Some ox -> exists ox', get h' x = Some ox' /\ link ox' = link ox /\ acts ox' = acts ox).
Proof.
  intros I Q G. unfold checkout. rewrite G. cbn [ub_none bind]. destruct (N.ltb_spec (u32_max - refs o) 1); [left; split; [reflexivity|lia]|right].
  eexists. split; [reflexivity|]. split; [|split; [|split]].
  - apply (inv_set h rs (a :: rs) a o); [exact I|exact G| |].
    + intros x NE. rewrite cnt_cons. destruct (Pos.eqb_spec x a); [congruence|]. unfold kids. cbn [link acts]. lia.
    + rewrite cnt_cons, Pos.eqb_refl. unfold kids. cbn [refs link acts]. lia.
  - intros x ox. rewrite get_set, G. destruct (Pos.eqb_spec x a) as [->|]; intros E; [|eapply Q; exact E].
    assert (ox = mko (refs o + 1) (link o) (acts o) (okind o)) by congruence. subst ox. cbn [refs]. lia.
  - apply (within_set h a o); [exact G|reflexivity].
  - intros x ox GX. rewrite get_set, G. destruct (Pos.eqb_spec x a) as [->|]; [|eauto]. assert (ox = o) by congruence. subst ox. eexists. split; [reflexivity|]. split; reflexivity.
Qed.
Lemma root_allocated h rs a : inv h rs -> In a rs -> exists o, get h a = Some o.
Proof. intros (_ & _ & AL) H. destruct (get h a) eqn:G; [eauto|]. exfalso. apply (AL a); [|exact G]. rewrite cnt_app. apply cnt_in in H. lia. Qed.
Lemma cnt_remove1 l a x : In a l -> cnt (a :: remove1 a l) x = cnt l x.
Proof.
  induction l as [|y l IH]; intros H; [destruct H|]. cbn [remove1]. destruct (Pos.eqb_spec y a) as [->|NE]; [reflexivity|].
  destruct H as [H|H]; [congruence|]. specialize (IH H). rewrite !cnt_cons in *. lia.
Qed.
Lemma mem_in a l : mem a l = true <-> In a l.
Proof. unfold mem. rewrite existsb_exists. split; [intros (x & H & E); apply Pos.eqb_eq in E; subst; exact H|intros H; exists a; split; [exact H|apply Pos.eqb_refl]]. Qed.

(** A call as a careful user makes it: objects are named through references the user or a table holds, and an event with a
    configuration of its own keeps one of these. *)
Definition legal (s : st) (c : call) : Prop :=
  match c with
  | New k None => True
  | New k (Some p) => k = KRoute /\ In p (roots s)
  | Get a => In a (roots s)
  | Drop a => In a (roots s) /\ (forall o, get (hp s) a = Some o -> okind o = KEvent true -> In a (remove1 a (roots s)))
  | AddAction e a _ => In e (roots s) /\ In a (roots s)
  | RemoveAction e _ => In e (roots s)
  | SetAux e x => In e (roots s) /\ forall a, x = Some a -> In a (roots s)
  end.
Definition good (s : st) : Prop :=
  inv (hp s) (roots s) /\ pinned (hp s) (roots s) /\ quiet (hp s) /\ forall a, (next s <= a)%positive -> get (hp s) a = None.
Lemma in_remove1 x a l : In x (remove1 a l) -> In x l.
Proof. induction l as [|y l IH]; cbn [remove1]; [auto|]. destruct (Pos.eqb y a); [intros H; right; exact H|]. intros [->|H]; [left; reflexivity|right; auto]. Qed.
Lemma remove1_other x a l : x <> a -> In x l -> In x (remove1 a l).
Proof. intros NE. induction l as [|y l IH]; cbn [remove1]; [auto|]. intros [->|H]; destruct (Pos.eqb_spec y a) as [E|E] || destruct (Pos.eqb_spec x a) as [E|E]; try congruence; try (left; reflexivity); auto. right. auto. Qed.
Lemma fresh_within h h' (n : addr) : within h h' -> (forall a, (n <= a)%positive -> get h a = None) -> forall a, (n <= a)%positive -> get h' a = None.
Proof. intros W F a L. destruct (get h' a) as [o|] eqn:G; [|reflexivity]. destruct (W a o G) as (o1 & G1 & _). rewrite F in G1 by exact L. discriminate. Qed.

Lemma exec_good s c : good s -> legal s c -> exists s' freed e, exec s c = Ret (s', freed, e) /\ good s' /\
   (forall a, c = Drop a -> e = OK /\ (freed = true <-> cnt (roots s ++ allkids (hp s)) a = 1%nat) /\ (freed = true <-> get (hp s') a = None)).
Proof.
  intros (I & P & Q & F) L. destruct c as [k parent|a|a|ev a present|ev a|ev x]; cbn [exec legal] in *.
  - destruct parent as [p|].
    + destruct L as [-> L]. destruct (root_allocated _ _ _ I L) as (o & G). destruct (checkout_spec (hp s) p o (roots s) I Q G) as [[E O]|(h' & E & I' & Q' & W & KP)]; rewrite E; cbn [bind is_success].
      * do 3 eexists. split; [reflexivity|]. split; [split; [exact I|split; [exact P|split; [exact Q|exact F]]]|discriminate].
      * do 3 eexists. split; [reflexivity|]. split; [unfold good; cbn [hp roots next]|discriminate].
        pose proof (fresh_within _ _ _ W F) as F'. assert (FN : get h' (next s) = None) by (apply F'; lia).
        destruct I' as (ND & RC & AL).
        assert (NN : cnt (p :: roots s ++ allkids h') (next s) = 0%nat) by (destruct (cnt (p :: roots s ++ allkids h') (next s)) eqn:C; [reflexivity|exfalso; apply (AL (next s)); [change ((p :: roots s) ++ allkids h') with (p :: roots s ++ allkids h'); lia|exact FN]]).
        assert (CC : forall y, cnt ((next s :: roots s) ++ allkids ((next s, mko 1 (Some p) [] KRoute) :: h')) y = ((if Pos.eqb y (next s) then 1 else 0) + cnt ((p :: roots s) ++ allkids h') y)%nat).
        { intros y. cbn [app allkids flat_map snd kids link acts olist]. rewrite !cnt_cons, !cnt_app, ?cnt_cons. unfold allkids. lia. }
        split; [|split; [|split]].
        -- split; [cbn [map fst]; constructor; [apply get_none; exact FN|exact ND]|]. split.
           ++ intros y oy. rewrite CC. cbn [get]. rewrite (Pos.eqb_sym (next s) y). destruct (Pos.eqb_spec y (next s)) as [->|NE].
              ** intros EO. assert (oy = mko 1 (Some p) [] KRoute) by congruence. subst oy. cbn [refs]. change ((p :: roots s) ++ allkids h') with (p :: roots s ++ allkids h'). rewrite NN. reflexivity.
              ** intros EO. rewrite (RC y oy EO). lia.
           ++ intros y C. rewrite CC in C. cbn [get]. rewrite (Pos.eqb_sym (next s) y). destruct (Pos.eqb_spec y (next s)); [discriminate|]. apply AL. lia.
        -- intros e o1. cbn [get]. destruct (Pos.eqb_spec (next s) e) as [->|NE]; [left; reflexivity|]. intros GE KE. right. eapply (pinned_within _ _ _ W P); eassumption.
        -- intros y oy. cbn [get]. destruct (Pos.eqb (next s) y); [intros EO; assert (oy = mko 1 (Some p) [] KRoute) by congruence; subst oy; discriminate|apply Q'].
        -- intros y Hy. cbn [get]. destruct (Pos.eqb_spec (next s) y); [lia|]. apply F'. lia.
    + cbn [bind is_success]. do 3 eexists. split; [reflexivity|]. split; [unfold good; cbn [hp roots next]|discriminate].
      assert (FN : get (hp s) (next s) = None) by (apply F; lia). destruct I as (ND & RC & AL).
      assert (NN : cnt (roots s ++ allkids (hp s)) (next s) = 0%nat) by (destruct (cnt (roots s ++ allkids (hp s)) (next s)) eqn:C; [reflexivity|exfalso; apply (AL (next s)); [lia|exact FN]]).
      assert (CC : forall y, cnt ((next s :: roots s) ++ allkids ((next s, mko 1 None [] k) :: hp s)) y = ((if Pos.eqb y (next s) then 1 else 0) + cnt (roots s ++ allkids (hp s)) y)%nat).
      { intros y. cbn [app allkids flat_map snd kids link acts olist]. rewrite !cnt_cons, !cnt_app. unfold allkids. lia. }
      split; [|split; [|split]].
      -- split; [cbn [map fst]; constructor; [apply get_none; exact FN|exact ND]|]. split.
         ++ intros y oy. rewrite CC. cbn [get]. rewrite (Pos.eqb_sym (next s) y). destruct (Pos.eqb_spec y (next s)) as [->|NE].
            ** intros EO. assert (oy = mko 1 None [] k) by congruence. subst oy. cbn [refs]. rewrite NN. reflexivity.
            ** intros EO. rewrite (RC y oy EO). lia.
         ++ intros y C. rewrite CC in C. cbn [get]. rewrite (Pos.eqb_sym (next s) y). destruct (Pos.eqb_spec y (next s)); [discriminate|]. apply AL. lia.
      -- intros e o1. cbn [get]. destruct (Pos.eqb_spec (next s) e) as [->|NE]; [left; reflexivity|]. intros GE KE. right. eapply P; eassumption.
      -- intros y oy. cbn [get]. destruct (Pos.eqb (next s) y); [intros EO; assert (oy = mko 1 None [] k) by congruence; subst oy; discriminate|apply Q].
      -- intros y Hy. cbn [get]. destruct (Pos.eqb_spec (next s) y); [lia|]. apply F. lia.
  - destruct (root_allocated _ _ _ I L) as (o & G). destruct (checkout_spec (hp s) a o (roots s) I Q G) as [[E O]|(h' & E & I' & Q' & W & KP)]; rewrite E; cbn [bind is_success].
    + do 3 eexists. split; [reflexivity|]. split; [split; [exact I|split; [exact P|split; [exact Q|exact F]]]|discriminate].
    + do 3 eexists. split; [reflexivity|]. split; [|discriminate]. split; [exact I'|]. split; [|split; [exact Q'|exact (fresh_within _ _ _ W F)]].
      intros e o1 GE KE. right. exact (pinned_within _ _ _ W P e o1 GE KE).
  - destruct L as [L CK]. 
    assert (I1 : inv (hp s) (a :: remove1 a (roots s))) by (apply (inv_perm _ (roots s)); [intros y; symmetry; apply cnt_remove1; exact L|exact I]).
    assert (P1 : pinned (hp s) (remove1 a (roots s))).
    { intros e o G K. destruct (Pos.eq_dec e a) as [->|NE]; [exact (CK o G K)|]. apply remove1_other; [exact NE|]. exact (P e o G K). }
    destruct (drop_quiet (hp s) a _ I1 P1 Q) as (h' & fr & D & I' & Q' & W & F1 & F2 & _). rewrite D. cbn [bind]. do 3 eexists. split; [reflexivity|]. split.
    + split; [exact I'|]. split; [exact (pinned_within _ _ _ W P1)|]. split; [exact Q'|exact (fresh_within _ _ _ W F)].
    + intros b Eb. assert (b = a) by congruence. subst b. split; [reflexivity|]. split; [|exact F2]. rewrite F1.
      change (a :: remove1 a (roots s) ++ allkids (hp s)) with ((a :: remove1 a (roots s)) ++ allkids (hp s)). rewrite !cnt_app, cnt_remove1 by exact L. reflexivity.
  - destruct L as [LE LA]. destruct (root_allocated _ _ _ I LA) as (o & G). destruct (checkout_spec (hp s) a o (roots s) I Q G) as [[E O]|(h' & E & I' & Q' & W & KP)]; rewrite E; cbn [bind is_success negb].
    + do 3 eexists. split; [reflexivity|]. split; [split; [exact I|split; [exact P|split; [exact Q|exact F]]]|discriminate].
    + destruct (root_allocated h' (a :: roots s) ev I' (or_intror LE)) as (oe & GE). rewrite GE. cbn [ub_none bind].
      pose proof (pinned_within _ _ _ W P) as P'. destruct present.
      * destruct (drop_quiet h' a (roots s) I' P' Q') as (h2 & fr & D & I2 & Q2 & W2 & _). rewrite D. cbn [bind is_success]. do 3 eexists. split; [reflexivity|]. split; [|discriminate].
        split; [exact I2|]. split; [exact (pinned_within _ _ _ W2 P')|]. split; [exact Q2|]. exact (fresh_within _ _ _ W2 (fresh_within _ _ _ W F)).
      * unfold set_acts. rewrite GE. cbn [ub_none bind]. do 3 eexists. split; [reflexivity|]. split; [|discriminate].
        assert (W2 : within h' (set h' ev (mko (refs oe) (link oe) (a :: acts oe) (okind oe)))) by (apply (within_set h' ev oe); [exact GE|reflexivity]).
        split; [|split; [exact (pinned_within _ _ _ W2 P')|split; [|exact (fresh_within _ _ _ W2 (fresh_within _ _ _ W F))]]].
        -- apply (inv_set h' (a :: roots s) _ ev oe); [exact I'|exact GE| |].
           ++ intros y NE. unfold kids. cbn [link acts roots hp]. rewrite !cnt_app, !cnt_cons. lia.
           ++ unfold kids. cbn [link acts refs roots hp]. rewrite !cnt_app, !cnt_cons. lia.
        -- intros y oy. cbn [hp]. rewrite get_set, GE. destruct (Pos.eqb_spec y ev) as [->|]; intros EY; [|eapply Q'; exact EY].
           assert (oy = mko (refs oe) (link oe) (a :: acts oe) (okind oe)) by congruence. subst oy. cbn [refs]. eapply Q'. exact GE.
  - destruct (root_allocated _ _ _ I L) as (oe & GE). rewrite GE. cbn [ub_none bind]. destruct (mem a (acts oe)) eqn:M.
    + apply mem_in in M. unfold set_acts. rewrite GE. cbn [ub_none bind].
      set (h' := set (hp s) ev (mko (refs oe) (link oe) (remove1 a (acts oe)) (okind oe))).
      assert (W2 : within (hp s) h') by (apply (within_set (hp s) ev oe); [exact GE|reflexivity]).
      assert (I' : inv h' (a :: roots s)).
      { apply (inv_set (hp s) (roots s) _ ev oe); [exact I|exact GE| |].
        - intros y NE. unfold kids. cbn [link acts]. rewrite !cnt_app. pose proof (cnt_remove1 _ _ y M) as C. rewrite !cnt_cons in C |- *. lia.
        - unfold kids. cbn [link acts refs]. rewrite !cnt_app. pose proof (cnt_remove1 _ _ ev M) as C. rewrite !cnt_cons in C |- *. lia. }
      assert (Q' : quiet h').
      { intros y oy. unfold h'. rewrite get_set, GE. destruct (Pos.eqb_spec y ev) as [->|]; intros EY; [|eapply Q; exact EY].
        assert (oy = mko (refs oe) (link oe) (remove1 a (acts oe)) (okind oe)) by congruence. subst oy. cbn [refs]. eapply Q. exact GE. }
      destruct (drop_quiet h' a (roots s) I' (pinned_within _ _ _ W2 P) Q') as (h2 & fr & D & I2 & Q2 & W3 & _). rewrite D. cbn [bind]. do 3 eexists. split; [reflexivity|]. split; [|discriminate].
      split; [exact I2|]. split; [exact (pinned_within _ _ _ W3 (pinned_within _ _ _ W2 P))|]. split; [exact Q2|]. exact (fresh_within _ _ _ W3 (fresh_within _ _ _ W2 F)).
    + do 3 eexists. split; [reflexivity|]. split; [split; [exact I|split; [exact P|split; [exact Q|exact F]]]|discriminate].
  - destruct L as [LE LX]. destruct (root_allocated _ _ _ I LE) as (o & G). destruct (checkout_spec (hp s) ev o (roots s) I Q G) as [[E O]|(h1 & E & I1 & Q1 & W1 & KP1)]; rewrite E; cbn [bind is_success negb].
    { do 3 eexists. split; [reflexivity|]. split; [split; [exact I|split; [exact P|split; [exact Q|exact F]]]|discriminate]. }
    assert (X : (exists x', x = Some x' /\ checkout h1 x' = Ret (h1, OVERFLOW_AVERTED)) \/
        exists h2, (match x with Some x => checkout h1 x | None => Ret (h1, OK) end) = Ret (h2, OK) /\ inv h2 (ev :: olist x ++ roots s) /\ quiet h2 /\ within h1 h2).
    { destruct x as [x|].
      - destruct (root_allocated h1 (ev :: roots s) x I1 (or_intror (LX x eq_refl))) as (ox & GX).
        destruct (checkout_spec h1 x ox _ I1 Q1 GX) as [[EX _]|(h2 & EX & I2 & Q2 & W2 & _)]; [left; eauto|right].
        exists h2. split; [exact EX|]. split; [|auto]. apply (inv_perm _ (x :: ev :: roots s)); [|exact I2]. intros y. cbn [olist app]. rewrite !cnt_cons. lia.
      - right. exists h1. split; [reflexivity|]. split; [exact I1|]. split; [exact Q1|apply within_refl]. }
    pose proof (pinned_within _ _ _ W1 P) as P1.
    destruct X as [(x' & -> & EX)|(h2 & EX & I2 & Q2 & W2)]; rewrite EX; cbn [bind is_success negb].
    { destruct (drop_quiet h1 ev (roots s) I1 P1 Q1) as (h2 & fr & D & I2 & Q2 & W3 & _). rewrite D. cbn [bind]. do 3 eexists. split; [reflexivity|]. split; [|discriminate].
      split; [exact I2|]. split; [exact (pinned_within _ _ _ W3 P1)|]. split; [exact Q2|]. exact (fresh_within _ _ _ W3 (fresh_within _ _ _ W1 F)). }
    destruct (root_allocated h2 _ ev I2 (or_introl eq_refl)) as (oe & GE). rewrite GE. cbn [ub_none bind]. unfold set_link at 1. rewrite GE. cbn [ub_none bind].
    set (h3 := set h2 ev (mko (refs oe) None (acts oe) (okind oe))).
    assert (G3 : get h3 ev = Some (mko (refs oe) None (acts oe) (okind oe))) by (unfold h3; rewrite get_set, GE, Pos.eqb_refl; reflexivity).
    assert (W3 : within h2 h3) by (apply (within_set h2 ev oe); [exact GE|reflexivity]).
    assert (I3 : inv h3 (olist (link oe) ++ ev :: olist x ++ roots s)).
    { apply (inv_set h2 (ev :: olist x ++ roots s) _ ev oe); [exact I2|exact GE| |].
      - intros y NE. unfold kids. cbn [link acts olist app]. rewrite !cnt_app. lia.
      - unfold kids. cbn [link acts refs olist app]. rewrite !cnt_app. lia. }
    assert (Q3 : quiet h3).
    { intros y oy. unfold h3. rewrite get_set, GE. destruct (Pos.eqb_spec y ev) as [->|]; intros EY; [|eapply Q2; exact EY].
      assert (oy = mko (refs oe) None (acts oe) (okind oe)) by congruence. subst oy. cbn [refs]. eapply Q2. exact GE. }
    assert (MON : forall r, pinned h3 (roots s) -> incl (roots s) r -> pinned h3 r) by (intros r PP IN e oo Ge Ke; apply IN; exact (PP e oo Ge Ke)).
    pose proof (pinned_within _ _ _ W3 (pinned_within _ _ _ W2 P1)) as P3.
    assert (D3 : exists h4, (match link oe with Some l => let* (h, _, _) := drop_ h3 l in Ret h | None => Ret h3 end) = Ret h4 /\ inv h4 (ev :: olist x ++ roots s) /\ quiet h4 /\ within h3 h4 /\
        (exists o4, get h4 ev = Some o4 /\ link o4 = None)).
    { destruct (link oe) as [l|] eqn:EL; cbn [olist app] in I3.
      - destruct (drop_quiet h3 l _ I3) as (h4 & fr & D & I4 & Q4 & W4 & _ & _ & K4); [apply MON; [exact P3|intros y Hy; right; apply in_or_app; right; exact Hy]|exact Q3|].
        rewrite D. cbn [bind]. exists h4. split; [reflexivity|]. split; [exact I4|]. split; [exact Q4|]. split; [exact W4|].
        destruct (root_allocated _ _ ev I4 (or_introl eq_refl)) as (o4 & G4). exists o4. split; [exact G4|]. destruct (K4 ev o4 ltac:(discriminate) G4) as (o3 & G3' & L3 & _).
        rewrite G3 in G3'. assert (o3 = mko (refs oe) None (acts oe) (okind oe)) by congruence. subst o3. exact L3.
      - exists h3. split; [reflexivity|]. split; [exact I3|]. split; [exact Q3|]. split; [apply within_refl|]. eexists. split; [exact G3|reflexivity]. }
    destruct D3 as (h4 & -> & I4 & Q4 & W4 & o4 & G4 & L4). cbn [bind]. unfold set_link. rewrite G4. cbn [ub_none bind].
    set (h5 := set h4 ev (mko (refs o4) x (acts o4) (okind o4))).
    assert (W5 : within h4 h5) by (apply (within_set h4 ev o4); [exact G4|reflexivity]).
    assert (I5 : inv h5 (ev :: roots s)).
    { apply (inv_set h4 (ev :: olist x ++ roots s) _ ev o4); [exact I4|exact G4| |].
      - intros y NE. unfold kids. rewrite L4. cbn [link acts olist app]. rewrite !cnt_cons, !cnt_app. lia.
      - unfold kids. rewrite L4. cbn [link acts refs olist app]. rewrite !cnt_cons, !cnt_app. lia. }
    assert (Q5 : quiet h5).
    { intros y oy. unfold h5. rewrite get_set, G4. destruct (Pos.eqb_spec y ev) as [->|]; intros EY; [|eapply Q4; exact EY].
      assert (oy = mko (refs o4) x (acts o4) (okind o4)) by congruence. subst oy. cbn [refs]. eapply Q4. exact G4. }
    pose proof (pinned_within _ _ _ W5 (pinned_within _ _ _ W4 P3)) as P5.
    destruct (drop_quiet h5 ev (roots s) I5 P5 Q5) as (h6 & fr & D & I6 & Q6 & W6 & _). rewrite D. cbn [bind]. do 3 eexists. split; [reflexivity|]. split; [|discriminate].
    split; [exact I6|]. split; [exact (pinned_within _ _ _ W6 P5)|]. split; [exact Q6|].
    exact (fresh_within _ _ _ W6 (fresh_within _ _ _ W5 (fresh_within _ _ _ W4 (fresh_within _ _ _ W3 (fresh_within _ _ _ W2 (fresh_within _ _ _ W1 F)))))).
Qed.
