(** The step-by-step meaning of a tree is what the specification says. *)
Require Import ZArith List Bool Lia.
From Verif Require Import Table Json JsonSpec JsonGrammar JsonDump JsonDumpSpec JsonDumpProofs Dict DictProps Dom DomSpec DomProofs.
Import ListNotations.
Open Scope Z_scope.
Local Set Warnings "-notation-overridden".

Lemma filter_all : forall (A : Type) (f : A -> bool) l, (forall x, In x l -> f x = true) -> filter f l = l.
Proof. intros A f. induction l as [|a l IH]; intros H; cbn [filter]; [reflexivity|]. rewrite (H a (or_introl eq_refl)), IH; [reflexivity|]. intros x I. apply H. right. exact I. Qed.
Lemma in_distinct : forall l k, In k (distinct l) <-> In k l.
Proof.
  induction l as [|a l IH]; intros k; cbn [distinct In]; [tauto|]. rewrite filter_In, IH. split.
  - intros [H|[H _]]; auto.
  - intros [H|H]; [auto|]. destruct (keq a k) eqn:E; [left; apply keq_spec; exact E|right; auto].
Qed.
Lemma distinct_snoc_new : forall l k, ~ In k l -> distinct (l ++ [k]) = distinct l ++ [k].
Proof.
  induction l as [|a l IH]; intros k NI; cbn [distinct app]; [reflexivity|]. rewrite IH by (intros X; apply NI; right; exact X). rewrite filter_app. cbn [filter].
  replace (keq a k) with false; [reflexivity|]. symmetry. destruct (keq a k) eqn:E; [|reflexivity]. apply keq_spec in E. exfalso. apply NI. left. exact E.
Qed.
Lemma distinct_snoc_old : forall l k, In k l -> distinct (l ++ [k]) = distinct l.
Proof.
  induction l as [|a l IH]; intros k NI; [destruct NI|]. cbn [distinct app]. f_equal. destruct (in_dec (list_eq_dec Z.eq_dec) k l) as [Y|NY].
  - rewrite IH by exact Y. reflexivity.
  - destruct NI as [-> |X]; [|contradiction]. rewrite distinct_snoc_new by exact NY. rewrite filter_app. cbn [filter]. rewrite keq_refl. cbn [negb]. apply app_nil_r.
Qed.
Lemma assoc_app : forall (A : Type) (a b : list (list Z * A)) k, assoc k (a ++ b) = match assoc k a with Some x => Some x | None => assoc k b end.
Proof. intros A. induction a as [|[k' x] a IH]; intros b k; cbn [assoc app]; [reflexivity|]. destruct (keq k k'); [reflexivity|apply IH]. Qed.
Lemma assoc_none : forall (A : Type) (a : list (list Z * A)) k, assoc k a = None <-> ~ In k (map fst a).
Proof.
  intros A. induction a as [|[k' x] a IH]; intros k; cbn [assoc map In fst]; [tauto|]. destruct (keq k k') eqn:E.
  - apply keq_spec in E. subst. split; [discriminate|]. intros H. exfalso. apply H. left. reflexivity.
  - rewrite IH. split; [intros H [X|X]; [subst; rewrite keq_refl in E; discriminate|contradiction]|tauto].
Qed.
Lemma assoc_set : forall m k x j, assoc j (set_item k x m) = if keq j k then (match assoc k m with Some _ => Some x | None => None end) else assoc j m.
Proof.
  induction m as [|[k' y] m IH]; intros k x j; cbn [set_item assoc]; [destruct (keq j k); reflexivity|]. rewrite cmp_eq. destruct (keq k k') eqn:E; cbn [assoc].
  - apply keq_spec in E. subst. destruct (keq j k'); reflexivity.
  - rewrite IH. destruct (keq j k') eqn:E2; [|reflexivity]. apply keq_spec in E2. subst. destruct (keq k' k) eqn:E3; [|reflexivity]. apply keq_spec in E3. subst. rewrite keq_refl in E. discriminate.
Qed.
Lemma keys_set : forall m k x, map fst (set_item k x m) = map fst m.
Proof. induction m as [|[k' y] m IH]; intros k x; cbn [set_item map fst]; [reflexivity|]. destruct (default_cmp k k' =? 0); cbn [map fst]; [reflexivity|]. rewrite IH. reflexivity. Qed.

(** ** Items one after the other *)
Lemma merged_nil : forall pol, merged pol [] [].
Proof. intros pol. split; [reflexivity|]. split; [|constructor]. intros k. destruct pol; reflexivity. Qed.
Lemma merged_keys : forall pol l m k, merged pol l m -> (assoc k m = None <-> ~ In k (map fst l)).
Proof. intros pol l m k (K & _). rewrite assoc_none, K, in_distinct. reflexivity. Qed.
Lemma assoc_rev_none : forall (l : list (list Z * dv)) k, assoc k l = None -> assoc k (rev l) = None.
Proof. intros l k H. apply assoc_none. rewrite map_rev, <- in_rev. apply assoc_none. exact H. Qed.
Lemma merged_new : forall pol l m k x, merged pol l m -> item_of k m = None -> merged pol (l ++ [(k, x)]) (m ++ [(k, x)]).
Proof.
  intros pol l m k x M I. rewrite item_assoc in I. pose proof (proj1 (merged_keys _ _ _ k M) I) as NI. destruct M as (K & A & D). split; [|split].
  - rewrite !map_app. cbn [map fst]. rewrite K, distinct_snoc_new by exact NI. reflexivity.
  - intros j. rewrite assoc_app. cbn [assoc]. destruct pol.
    + rewrite assoc_app. cbn [assoc]. rewrite (A j). reflexivity.
    + rewrite assoc_app. cbn [assoc]. rewrite (A j). reflexivity.
    + rewrite rev_app_distr. cbn [rev app assoc]. rewrite (A j). destruct (keq j k) eqn:E.
      * apply keq_spec in E. subst j. rewrite <- (A k), I. reflexivity.
      * destruct (assoc j (rev l)); reflexivity.
  - intros P. rewrite map_app. cbn [map fst]. specialize (D P). apply NoDup_rev in D. rewrite <- (rev_involutive (map fst l ++ [k])). apply NoDup_rev. rewrite rev_app_distr. cbn [rev app]. constructor; [|exact D]. rewrite <- in_rev. exact NI.
Qed.
Lemma merged_again : forall pol l m k x y, merged pol l m -> item_of k m = Some y -> pol <> PAbort ->
  merged pol (l ++ [(k, x)]) (match pol with PLast => set_item k x m | _ => m end).
Proof.
  intros pol l m k x y M I NP. rewrite item_assoc in I.
  assert (IN : In k (map fst l)).
  { destruct (in_dec (list_eq_dec Z.eq_dec) k (map fst l)) as [Y|Y]; [exact Y|]. apply (merged_keys _ _ _ k M) in Y. congruence. }
  destruct M as (K & A & D). split; [|split; [|intros X; contradiction]].
  - rewrite map_app. cbn [map fst]. rewrite distinct_snoc_old by exact IN. destruct pol; [exact K|exact K|]. rewrite keys_set. exact K.
  - intros j. destruct pol; [contradiction| |].
    + rewrite assoc_app, <- (A j). cbn [assoc]. destruct (assoc j m) eqn:E; [reflexivity|]. destruct (keq j k) eqn:E2; [|reflexivity]. apply keq_spec in E2. congruence.
    + rewrite assoc_set, rev_app_distr. cbn [rev app assoc]. rewrite I, (A j). reflexivity.
Qed.
Lemma merged_exists : forall pol l, pol <> PAbort -> exists m, merged pol l m.
Proof.
  intros pol l NP. induction l as [|[k x] l (m & M)] using rev_ind; [exists []; apply merged_nil|].
  destruct (item_of k m) as [y|] eqn:E; [eexists; exact (merged_again pol l m k x y M E NP)|eexists; exact (merged_new pol l m k x M E)].
Qed.

Lemma Forall2_snoc : forall (A B : Type) (R : A -> B -> Prop) a b x y, Forall2 R a b -> R x y -> Forall2 R (a ++ [x]) (b ++ [y]).
Proof. intros A B R a b x y F H. induction F; cbn [app]; constructor; auto. Qed.
Lemma combine_snoc : forall (A B : Type) (a : list A) (b : list B) x y, length a = length b -> combine (a ++ [x]) (b ++ [y]) = combine a b ++ [(x, y)].
Proof. intros A B. induction a as [|a0 a IH]; intros [|b0 b] x y L; try discriminate L; cbn [app combine]; [reflexivity|]. rewrite IH by (cbn in L; congruence). reflexivity. Qed.
Lemma F2_len : forall (A B : Type) (R : A -> B -> Prop) a b, Forall2 R a b -> length a = length b.
Proof. intros A B R a b F. induction F; cbn [length]; congruence. Qed.
Lemma map_fst_combine : forall (A B : Type) (a : list A) (b : list B), length a = length b -> map fst (combine a b) = a.
Proof. intros A B. induction a as [|x a IH]; intros [|y b] L; try discriminate L; cbn [combine map fst]; [reflexivity|]. rewrite IH by (cbn in L; congruence). reflexivity. Qed.

Definition explained (pol : policy) (order : bool) (v : jvalue) (r : Z + dv) : Prop :=
  match r with
  | inr x => content pol order v x
  | inl e => (e = DOM_ERR_DUPKEY /\ pol = PAbort /\ repeats v) \/ (e = ERR_OUTOFMEMORY /\ ~ numbers holdable v)
  end.

Section Meaning.
Variable pol : policy.
Variable order : bool.

Lemma content_exists : forall v, pol <> PAbort -> numbers number v -> exists x, content pol order v x.
Proof.
  intros v NP. induction v as [| | |l|r d|vs H|ms H] using jvalue_ind'; intros NV; try (eexists; constructor; fail).
  - inversion NV as [| | |? NL| | |]; subst. destruct (number_cases l NL) as [(z & T)|Q].
    + destruct (Z_le_dec (- 2 ^ 31) z) as [A1|A1]; destruct (Z_le_dec z (2 ^ 31 - 1)) as [A2|A2];
        [eexists; constructor; apply (nv_int32 l z T); unfold int32; lia| | |].
      * destruct (Z_le_dec z (2 ^ 32 - 1)) as [A3|A3]; [eexists; constructor; apply (nv_uint32 l z T); unfold int32, uint32; lia|].
        destruct (Z_le_dec z (2 ^ 63 - 1)) as [A4|A4]; [eexists; constructor; apply (nv_int64 l z T); unfold int32, uint32, int64; lia|].
        destruct (Z_le_dec z (2 ^ 64 - 1)) as [A5|A5]; [eexists; constructor; apply (nv_uint64 l z T); unfold uint64, int64; lia|].
        eexists. constructor. apply nv_double. intros z' T'. rewrite (text_value l z' z T' T). unfold int64, uint64. lia.
      * destruct (Z_le_dec (- 2 ^ 63) z) as [A4|A4]; [eexists; constructor; apply (nv_int64 l z T); unfold int32, uint32, int64; lia|].
        eexists. constructor. apply nv_double. intros z' T'. rewrite (text_value l z' z T' T). unfold int64, uint64. lia.
      * exfalso. lia.
    + eexists. constructor. apply nv_double. intros z T. exfalso. rewrite !(text_chr l z _ T) in Q by auto. discriminate.
  - inversion NV as [| | | | |? NF|]; subst. assert (X : exists xs, Forall2 (content pol order) vs xs).
    { clear NV. induction H as [|v vs HV F IH]; [exists []; constructor|]. inversion NF; subst. destruct (HV ltac:(assumption)) as (x & CX). destruct (IH ltac:(assumption)) as (xs & CXS). exists (x :: xs). constructor; assumption. }
    destruct X as (xs & X). exists (DArray xs). constructor. exact X.
  - inversion NV as [| | | | | |? NF]; subst. assert (X : exists xs, Forall2 (fun mem x => content pol order (snd mem) x) ms xs).
    { clear NV. induction H as [|v vs HV F IH]; [exists []; constructor|]. inversion NF; subst. destruct (HV ltac:(assumption)) as (x & CX). destruct (IH ltac:(assumption)) as (xs & CXS). exists (x :: xs). constructor; assumption. }
    destruct X as (xs & X). destruct (merged_exists pol (combine (map key_of ms) xs) NP) as (m & M). exists (DDict order m). econstructor; eassumption.
Qed.

Lemma elements_explained : forall vs, Forall (fun v => explained pol order v (meaning pol order v)) vs ->
  forall done acc, Forall2 (content pol order) done acc ->
  explained pol order (VArr (done ++ vs)) (match mean_all pol order acc vs with inl e => inl e | inr l => inr (DArray l) end).
Proof.
  induction 1 as [|v vs E F IH]; intros done acc D; cbn [mean_all].
  - cbn [explained]. rewrite app_nil_r. constructor. exact D.
  - destruct (meaning pol order v) as [e|x]; cbn [explained] in E |- *.
    + destruct E as [(-> & P & R)|(-> & R)]; [left|right].
      * split; [reflexivity|]. split; [exact P|]. apply rep_arr. apply Exists_exists. exists v. split; [apply in_or_app; right; left; reflexivity|exact R].
      * split; [reflexivity|]. intros X. inversion X as [| | | | |? NF|]; subst. apply R. rewrite Forall_forall in NF. apply NF. apply in_or_app. right. left. reflexivity.
    + specialize (IH (done ++ [v]) (acc ++ [x]) (Forall2_snoc _ _ _ _ _ _ _ D E)). rewrite <- app_assoc in IH. exact IH.
Qed.

Lemma members_explained : forall ms, Forall (fun mem => numbers number (snd mem) /\ explained pol order (snd mem) (meaning pol order (snd mem))) ms ->
  forall done xs acc, Forall2 (fun mem x => content pol order (snd mem) x) done xs -> merged pol (combine (map key_of done) xs) acc ->
  explained pol order (VObj (done ++ ms)) (match mean_items pol order acc ms with inl e => inl e | inr l => inr (DDict order l) end).
Proof.
  induction 1 as [|mem ms [NM E] F IH]; intros done xs acc D M; cbn [mean_items].
  - cbn [explained]. rewrite app_nil_r. econstructor; eassumption.
  - assert (LEN : length (map key_of done) = length xs) by (rewrite map_length; exact (F2_len _ _ _ _ _ D)).
    assert (NEXT : forall x acc', content pol order (snd mem) x -> merged pol (combine (map key_of done) xs ++ [(key_of mem, x)]) acc' ->
      explained pol order (VObj (done ++ mem :: ms)) (match mean_items pol order acc' ms with inl e => inl e | inr l => inr (DDict order l) end)).
    { intros x acc' C M'. specialize (IH (done ++ [mem]) (xs ++ [x]) acc' (Forall2_snoc _ _ _ _ _ _ _ D C)). rewrite map_app in IH. cbn [map] in IH. rewrite (combine_snoc _ _ _ _ _ _ LEN) in IH. rewrite <- app_assoc in IH. exact (IH M'). }
    assert (BAD : forall e, meaning pol order (snd mem) = inl e -> explained pol order (VObj (done ++ mem :: ms)) (inl e)).
    { intros e EQ. rewrite EQ in E. cbn [explained] in *. destruct E as [(-> & P & R)|(-> & R)]; [left|right].
      - split; [reflexivity|]. split; [exact P|]. apply rep_obj. apply Exists_exists. exists mem. split; [apply in_or_app; right; left; reflexivity|exact R].
      - split; [reflexivity|]. intros X. inversion X as [| | | | | |? NF]; subst. apply R. rewrite Forall_forall in NF. apply (NF mem). apply in_or_app. right. left. reflexivity. }
    destruct (item_of (key_of mem) acc) as [y|] eqn:IK.
    + assert (AGAIN : pol <> PAbort -> forall x, merged pol (combine (map key_of done) xs ++ [(key_of mem, x)]) (match pol with PLast => set_item (key_of mem) x acc | _ => acc end)) by (intros NP x; exact (merged_again pol _ acc _ x y M IK NP)).
      destruct pol eqn:EP.
      * cbn [explained]. left. split; [reflexivity|]. split; [reflexivity|]. apply rep_here. rewrite map_app. cbn [map]. intros ND. apply NoDup_remove_2 in ND. apply ND. apply in_or_app. left.
        destruct (in_dec (list_eq_dec Z.eq_dec) (key_of mem) (map key_of done)) as [Y|Y]; [exact Y|]. rewrite <- (map_fst_combine _ _ _ _ LEN) in Y. apply (merged_keys _ _ _ _ M) in Y. rewrite item_assoc in IK. congruence.
      * destruct (content_exists (snd mem)) as (x & C); [congruence|exact NM|]. rewrite <- EP in *. apply (NEXT x acc C). specialize (AGAIN ltac:(congruence) x). rewrite EP in AGAIN |- *. exact AGAIN.
      * destruct (meaning PLast order (snd mem)) as [e|x] eqn:EM; [apply BAD; reflexivity|]. cbn [explained] in E. apply (NEXT x _ E). apply (AGAIN ltac:(discriminate) x).
    + destruct (meaning pol order (snd mem)) as [e|x] eqn:EM; [apply BAD; reflexivity|]. cbn [explained] in E. apply (NEXT x _ E). apply merged_new; assumption.
Qed.

Lemma meaning_explained : forall v, numbers number v -> explained pol order v (meaning pol order v).
Proof.
  induction v as [| | |l|r d|vs H|ms H] using jvalue_ind'; intros NV; try (constructor; fail).
  - cbn [meaning]. inversion NV as [| | |? NL| | |]; subst. destruct (number_dv_cases l NL) as [(x & _ & -> & V)|(_ & -> & HO)]; cbn [explained].
    + constructor. exact V.
    + right. split; [reflexivity|]. intros X. inversion X; subst. contradiction.
  - rewrite meaning_arr. apply (elements_explained vs) with (done := []); [|constructor]. inversion NV as [| | | | |? NF|]; subst. rewrite Forall_forall in *. intros v I. apply H; [exact I|apply NF; exact I].
  - rewrite meaning_obj. apply (members_explained ms) with (done := []) (xs := []); [|constructor|apply merged_nil]. inversion NV as [| | | | | |? NF]; subst. rewrite Forall_forall in *. intros v I. split; [apply NF; exact I|]. apply H; [exact I|apply NF; exact I].
Qed.
End Meaning.

(** the numbers of a text are numbers *)
Lemma grammar_numbers : (forall l v, value l v -> numbers number v) /\ (forall l vs, elements l vs -> Forall (numbers number) vs) /\
  (forall l ms, members l ms -> Forall (fun mem => numbers number (snd mem)) ms).
Proof.
  apply grammar_mut; intros; try (constructor; auto; fail).
Qed.
Lemma document_numbers : forall doc v, document doc v -> numbers number v.
Proof. intros doc v D. inversion D; subst. eapply (proj1 grammar_numbers). eassumption. Qed.

(** a value without repeated keys, and only such, has a content when repeated keys are an error *)
Lemma content_no_repeat : forall order v x, content PAbort order v x -> ~ repeats v.
Proof.
  intros order. induction v as [| | |l|r d|vs H|ms H] using jvalue_ind'; intros x C R; inversion R as [? ND|? EX|? EX]; subst; inversion C as [| | | | |? xs F|? xs m F M]; subst.
  - apply Exists_exists in EX. destruct EX as (v & I & RV). rewrite Forall_forall in H. revert I. clear - H F RV. intros I.
    assert (exists x, content PAbort order v x) as (x & CX). { clear - F I. induction F; [destruct I|]. destruct I as [-> |I]; eauto. }
    exact (H v I x CX RV).
  - destruct M as (_ & _ & M). specialize (M eq_refl). rewrite map_fst_combine in M by (rewrite map_length; exact (F2_len _ _ _ _ _ F)). contradiction.
  - apply Exists_exists in EX. destruct EX as (v & I & RV). rewrite Forall_forall in H.
    assert (exists x, content PAbort order (snd v) x) as (x & CX). { clear - F I. induction F; [destruct I|]. destruct I as [-> |I]; eauto. }
    exact (H v I x CX RV).
Qed.

(** the flags *)
Lemma asks_dupkey : forall flags pol, asks flags pol <-> dupkey flags = pol.
Proof.
  intros flags pol. unfold dupkey. assert (R : 0 <= Z.land flags 3 < 4).
  { change 3 with (Z.ones 2). rewrite Z.land_ones by lia. apply Z.mod_pos_bound. reflexivity. }
  destruct (Z.eqb_spec (Z.land flags 3) 1) as [E|E].
  - destruct pol; cbn [asks]; rewrite ?E; split; intros; try discriminate; try reflexivity; lia.
  - destruct (Z.eqb_spec (Z.land flags 3) 2) as [E2|E2]; destruct pol; cbn [asks]; split; intros; try discriminate; try reflexivity; try lia.
Qed.
