(** Reading back what was written. *)
Require Import ZArith List Bool Lia.
From Coq Require Import Sorting.Permutation Sorting.Sorted.
From Verif Require Import Table Json JsonSpec JsonProofs JsonChunks JsonGrammar JsonDump JsonDumpSpec JsonDumpProofs JsonDumpStrings JsonDumpProps JsonProps JsonGrammarProps Dict DictSpec DictProps Dom DomSpec DomProofs DomMeaning DomDump.
Import ListNotations.
Open Scope Z_scope.
Local Set Warnings "-notation-overridden".

(** ** Reading a document *)
Lemma parse_document : forall cfg flags doc v pol, config_ok cfg -> not_too_long cfg doc -> document doc v -> JsonSpec.within cfg v ->
  dupkey flags = pol -> (pol = PFirst -> mild v) ->
  exists pos, dom_parse cfg flags doc = Ret (match meaning pol (keep_order flags) v with inr x => (0, pos, x) | inl e => (e, pos, DNull) end) /\
    (forall e, meaning pol (keep_order flags) v = inl e -> e < 0).
Proof.
  intros cfg flags doc v pol Hc Hl Hd Hw PF MI.
  destruct (C53_wellformed_accepted _ cfg dom_cb (Some (dom_init flags)) doc v Hc Hl Hd Hw) as (pos & E).
  exists pos. unfold dom_parse. rewrite E. clear E.
  assert (FL : flags_ok pol (keep_order flags) (dom_init flags)) by (split; [exact PF|reflexivity]).
  pose proof (builds_all pol (keep_order flags) v MI (document_numbers doc v Hd) (dom_init flags) [] (dom_init flags) FL FL (Z.le_refl 0) eq_refl (ex_intro _ DNull eq_refl)) as B.
  destruct (meaning pol (keep_order flags) v) as [e|x].
  - destruct B as (NE & s' & ->). cbn [fst snd]. destruct (Z.leb_spec 0 e); [lia|]. split; [reflexivity|]. intros e' X. injection X as <-. exact NE.
  - destruct B as (s' & -> & P & _). cbn [fst snd]. cbn in P. injection P as <-. split; [reflexivity|]. discriminate.
Qed.

Lemma meaning_holdable : forall pol order v x, pol <> PFirst -> numbers number v -> meaning pol order v = inr x -> numbers holdable v.
Proof.
  intros pol order v. induction v as [| | |l|r d|vs H|ms H] using jvalue_ind'; intros x NP NV M; try (constructor; fail).
  - constructor. cbn [meaning] in M. inversion NV as [| | |? NL| | |]; subst. destruct (number_dv_cases l NL) as [(y & _ & _ & V)|(_ & E & _)]; [|congruence].
    inversion V as [z T R|z T _ R|z T _ _ R|z T _ R|D]; subst; unfold holdable, integral; try (left; exists z; split; [exact T|unfold int32, uint32, int64, uint64 in *; lia]).
    destruct (number_init l NL) as [(y & E & V')|(E & NH)].
    + unfold init_number in E. destruct (analyze l) as [c|] eqn:A; [|discriminate]. destruct (C58_numbers_classified l NL) as (c' & A' & I32 & U32 & I64 & U64). assert (c' = c) by congruence. subst c'.
      assert (F1 : c_i32 c = false). { destruct (c_i32 c); [|reflexivity]. destruct (proj1 I32 eq_refl) as (z & T & R). destruct (D z T). unfold int32, int64 in *. lia. }
      assert (F2 : c_u32 c = false). { destruct (c_u32 c); [|reflexivity]. destruct (proj1 U32 eq_refl) as (z & T & R). destruct (D z T). unfold uint32, uint64 in *. lia. }
      assert (F3 : c_i64 c = false). { destruct (c_i64 c); [|reflexivity]. destruct (proj1 I64 eq_refl) as (z & T & R). destruct (D z T). contradiction. }
      assert (F4 : c_u64 c = false). { destruct (c_u64 c); [|reflexivity]. destruct (proj1 U64 eq_refl) as (z & T & R). destruct (D z T). contradiction. }
      rewrite F1, F2, F3, F4 in E. unfold double_fits in E. destruct (Z.ltb_spec (Z.of_nat (length l) + 1) 64) as [L|L]; [|discriminate]. right. lia.
    + unfold number_dv in M. rewrite E in M. discriminate.
  - inversion NV as [| | | | |? NF|]; subst. constructor. rewrite meaning_arr in M. destruct (mean_all pol order [] vs) as [|l] eqn:E; [discriminate|]. clear M NV x.
    revert E. generalize (@nil dv). induction H as [|v vs HV F IH]; intros acc E; [constructor|]. inversion NF; subst. cbn [mean_all] in E. destruct (meaning pol order v) as [|y] eqn:EV; [discriminate|]. constructor; [eapply HV; eauto|]. eapply IH; eauto.
  - inversion NV as [| | | | | |? NF]; subst. constructor. rewrite meaning_obj in M. destruct (mean_items pol order [] ms) as [|l] eqn:E; [discriminate|]. clear M NV x.
    revert E. generalize (@nil (list Z * dv)). induction H as [|v vs HV F IH]; intros acc E; [constructor|]. inversion NF; subst. cbn [mean_items] in E.
    destruct (item_of (key_of v) acc).
    + destruct pol; [discriminate|congruence|]. destruct (meaning PLast order (snd v)) as [|y] eqn:EV; [discriminate|]. constructor; [eapply HV; eauto|]. eapply IH; eauto.
    + destruct (meaning pol order (snd v)) as [|y] eqn:EV; [discriminate|]. constructor; [eapply HV; eauto|]. eapply IH; eauto.
Qed.

(** ** Items without repetition *)
Lemma distinct_nodup : forall l, NoDup (distinct l).
Proof. induction l as [|k l IH]; cbn [distinct]; constructor; [|apply NoDup_filter; exact IH]. rewrite filter_In, keq_refl. intros [_ X]. discriminate X. Qed.
Lemma distinct_id : forall l, NoDup l -> distinct l = l.
Proof.
  induction 1 as [|k l NI ND IH]; cbn [distinct]; [reflexivity|]. rewrite IH, filter_all; [reflexivity|]. intros x I. destruct (keq k x) eqn:E; [|reflexivity]. apply keq_spec in E. subst. contradiction.
Qed.
Lemma assoc_in : forall (A : Type) (l : list (list Z * A)) k x, assoc k l = Some x -> In (k, x) l.
Proof. intros A. induction l as [|[k' y] l IH]; intros k x H; cbn [assoc] in H; [discriminate|]. destruct (keq k k') eqn:E; [apply keq_spec in E; injection H as ->; subst; left; reflexivity|right; apply IH; exact H]. Qed.
Lemma in_assoc : forall (A : Type) (l : list (list Z * A)) k x, NoDup (map fst l) -> In (k, x) l -> assoc k l = Some x.
Proof.
  intros A. induction l as [|[k' y] l IH]; intros k x ND I; [destruct I|]. cbn [map fst] in ND. inversion ND as [|? ? NI ND']; subst. cbn [assoc]. destruct I as [E|I].
  - injection E as -> ->. rewrite keq_refl. reflexivity.
  - destruct (keq k k') eqn:E; [|apply IH; assumption]. apply keq_spec in E. subst. exfalso. apply NI. apply in_map_iff. exists (k', x). split; [reflexivity|exact I].
Qed.
Lemma assoc_rev : forall (l : list (list Z * dv)) k, NoDup (map fst l) -> assoc k (rev l) = assoc k l.
Proof.
  intros l k ND. destruct (assoc k l) as [x|] eqn:E; [|apply assoc_rev_none; exact E]. apply in_assoc; [rewrite map_rev; apply NoDup_rev; exact ND|]. rewrite <- in_rev. apply assoc_in. exact E.
Qed.
Lemma same_items : forall (l m : list (list Z * dv)), map fst m = map fst l -> NoDup (map fst l) -> (forall k, assoc k m = assoc k l) -> m = l.
Proof.
  induction l as [|[k x] l IH]; intros [|[k' y] m] K ND A; try discriminate K; [reflexivity|]. cbn [map fst] in *. injection K as -> K. inversion ND as [|? ? NI ND']; subst.
  pose proof (A k) as AK. cbn [assoc] in AK. rewrite keq_refl in AK. injection AK as ->. f_equal. apply IH; [exact K|exact ND'|]. intros j. specialize (A j). cbn [assoc] in A. destruct (keq j k) eqn:E; [|exact A].
  apply keq_spec in E. subst j. transitivity (@None dv); [apply assoc_none; rewrite K; exact NI|symmetry; apply assoc_none; exact NI].
Qed.
Lemma merged_same : forall pol l m, merged pol l m -> NoDup (map fst l) -> m = l.
Proof.
  intros pol l m (K & A & _) ND. apply same_items; [rewrite K; apply distinct_id; exact ND|exact ND|]. intros k. rewrite A. destruct pol; try reflexivity. apply assoc_rev. exact ND.
Qed.

Lemma writes_keys : forall io m' (ms : list ((list Z * list Z) * jvalue)), Forall2 (fun kx mem => key_of mem = fst kx /\ writes io (snd kx) (snd mem)) m' ms -> map key_of ms = map fst m'.
Proof. intros io m' ms F. induction F as [|a b m' ms [K _] F IH]; cbn [map]; [reflexivity|]. congruence. Qed.

(** ** What is read is like what was written *)
Lemma int_back : forall l z x, integer_text l z -> int64 z \/ uint64 z -> number_value l x -> (x = DInt32 z \/ x = DUint32 z \/ x = DInt64 z \/ x = DUint64 z).
Proof.
  intros l z x T R V. inversion V as [z' T' _|z' T' _ _|z' T' _ _ _|z' T' _ _|D]; subst; try (rewrite (text_value l z' z T' T); tauto). exfalso. destruct (D z T). tauto.
Qed.
Lemma combine_F2 : forall (R : dv -> dv -> Prop) pol order io m' (ms : list ((list Z * list Z) * jvalue)) xs,
  Forall2 (fun kx mem => key_of mem = fst kx /\ writes io (snd kx) (snd mem)) m' ms ->
  Forall2 (fun mem x => content pol order (snd mem) x) ms xs ->
  Forall (fun kx => forall t x, writes io (snd kx) t -> content pol order t x -> R (snd kx) x) m' ->
  Forall2 (fun a b => fst a = fst b /\ R (snd a) (snd b)) m' (combine (map key_of ms) xs).
Proof.
  intros R pol order io m' ms xs F. revert xs. induction F as [|a b m' ms [K W] F IH]; intros xs C H; inversion C; subst; cbn [map combine]; constructor.
  - inversion H; subst. split; [cbn [fst]; symmetry; exact K|cbn [snd]; eauto].
  - inversion H; subst. apply IH; assumption.
Qed.
Lemma alike_content : forall pol order io v, writable v -> forall t x, writes io v t -> content pol order t x -> alike v x.
Proof.
  intros pol order io. induction v as [| |b|z|z|z|z|l|s|l H|o m H] using dv_ind'; intros WV t x WT C.
  - inversion WT; subst. inversion C; subst. constructor; tauto.
  - inversion WT; subst. inversion C; subst. constructor; tauto.
  - inversion WT; subst. destruct b; inversion C; subst; apply al_bool.
  - inversion WT; subst. inversion C; subst. inversion WV; subst. eapply (al_int _ _ z); [tauto|]. eapply int_back; [eassumption|unfold int32, int64 in *; lia|assumption].
  - inversion WT; subst. inversion C; subst. inversion WV; subst. eapply (al_int _ _ z); [tauto|]. eapply int_back; [eassumption|unfold uint32, uint64 in *; lia|assumption].
  - inversion WT; subst. inversion C; subst. inversion WV; subst. eapply (al_int _ _ z); [tauto|]. eapply int_back; [eassumption|tauto|assumption].
  - inversion WT; subst. inversion C; subst. inversion WV; subst. eapply (al_int _ _ z); [tauto|]. eapply int_back; [eassumption|tauto|assumption].
  - inversion WV.
  - inversion WT; subst. inversion C; subst. apply al_string.
  - inversion WT as [| | | | | | | |? vs FW|]; subst. inversion C as [| | | | |? xs FC|]; subst. apply al_array. inversion WV as [| | | | | | | |? WL|]; subst. clear WV WT C.
    revert xs FC. induction FW as [|a b l vs W FW IH]; intros xs FC; inversion FC; subst; constructor; inversion H; subst; inversion WL; subst; [eauto|]. apply IH; assumption.
  - inversion WT as [| | | | | | | | |? ? m' ms PM OR FW]; subst. inversion C as [| | | | | |? xs mm FC MG]; subst. inversion WV as [| | | | | | | | |? ? ND WM]; subst.
    assert (ND' : NoDup (map fst m')) by (eapply Permutation_NoDup; [apply Permutation_map; exact PM|exact ND]).
    assert (MM : mm = combine (map key_of ms) xs).
    { apply (merged_same pol _ _ MG). rewrite map_fst_combine by (rewrite map_length; exact (F2_len _ _ _ _ _ FC)). rewrite (writes_keys _ _ _ FW). exact ND'. }
    subst mm. apply (al_dict _ _ _ m'); [exact PM|]. apply (combine_F2 _ pol order io _ _ _ FW FC).
    apply Forall_forall. intros kx I t y W CY. apply (Permutation_in _ (Permutation_sym PM)) in I. rewrite Forall_forall in H, WM. destruct (WM kx I). eapply H; eauto.
Qed.

(** ** and the same if it was read before *)
Inductive canon : dv -> Prop :=
| cn_null : canon DNull | cn_bool : forall b, canon (DBool b) | cn_num : forall l x, number_value l x -> canon x | cn_str : forall s, canon (DString s)
| cn_arr : forall l, Forall canon l -> canon (DArray l)
| cn_dict : forall m, Forall (fun kx => canon (snd kx)) m -> canon (DDict true m).
Lemma content_canon : forall pol t x, content pol true t x -> canon x.
Proof.
  intros pol t. induction t as [| | |l|r d|vs H|ms H] using jvalue_ind'; intros x C; inversion C as [| | |? ? V| |? xs F|? xs m F M]; subst; try (econstructor; eauto; fail).
  - constructor. clear C. induction F; inversion H; subst; constructor; auto.
  - constructor. apply Forall_forall. intros [k y] I. cbn [snd]. destruct M as (K & A & _).
    assert (ND : NoDup (map fst m)) by (rewrite K; apply distinct_nodup).
    pose proof (in_assoc _ _ _ _ ND I) as E. rewrite A in E. apply assoc_in in E.
    assert (IX : In y xs). { assert (E' : In (k, y) (combine (map key_of ms) xs)) by (destruct pol; [exact E|exact E|apply in_rev; exact E]). apply in_combine_r in E'. exact E'. }
    clear - F H IX. induction F as [|a b ms xs CX F IH]; [destruct IX|]. inversion H; subst. destruct IX as [-> |IX]; [auto|]. apply IH; assumption.
Qed.
Lemma num_same : forall l l' z x y, integer_text l z -> integer_text l' z -> number_value l x -> number_value l' y -> int64 z \/ uint64 z -> x = y.
Proof.
  intros l l' z x y T T' V V' R.
  assert (EX : forall l z, integer_text l z -> forall z', integer_text l z' -> z' = z) by (intros l0 z0 T0 z0' T0'; exact (text_value l0 z0' z0 T0' T0)).
  unfold int64, uint64 in R.
  inversion V as [a A ?|a A ? ?|a A ? ? ?|a A ? ?|D]; inversion V' as [b B ?|b B ? ?|b B ? ? ?|b B ? ?|D']; subst;
    try (apply (EX l z T) in A); try (apply (EX l' z T') in B); try (destruct (D z T)); try (destruct (D' z T')); subst; try reflexivity; unfold int32, uint32, int64, uint64 in *; exfalso; lia.
Qed.
Lemma canon_int : forall x, canon x -> forall z, (x = DInt32 z \/ x = DUint32 z \/ x = DInt64 z \/ x = DUint64 z) -> exists l, number_value l x /\ integer_text l z /\ (int64 z \/ uint64 z).
Proof.
  intros x C z E. inversion C as [|b|l y V|s|l F|m F]; subst; try (exfalso; destruct E as [E|[E|[E|E]]]; discriminate E).
  exists l. split; [exact V|]. inversion V as [a A ?|a A ? ?|a A ? ? ?|a A ? ?|D]; subst; destruct E as [E|[E|[E|E]]]; try discriminate E; injection E as ->; (split; [assumption|]); unfold int32, uint32, int64, uint64 in *; lia.
Qed.
Lemma same_content : forall pol v, writable v -> canon v -> forall t x, writes true v t -> content pol true t x -> x = v.
Proof.
  intros pol. induction v as [| |b|z|z|z|z|l|s|l H|o m H] using dv_ind'; intros WV CV t x WT C.
  - inversion CV as [|b|l y V|s|l F|m F]; subst. inversion V.
  - inversion WT; subst. inversion C; subst. reflexivity.
  - inversion WT; subst. destruct b; inversion C; subst; reflexivity.
  - destruct (canon_int _ CV z) as (l' & V' & T' & R); [tauto|]. inversion WT; subst. inversion C; subst. match goal with V : number_value ?l x, T : integer_text ?l z |- _ => exact (num_same l l' z x _ T T' V V' R) end.
  - destruct (canon_int _ CV z) as (l' & V' & T' & R); [tauto|]. inversion WT; subst. inversion C; subst. match goal with V : number_value ?l x, T : integer_text ?l z |- _ => exact (num_same l l' z x _ T T' V V' R) end.
  - destruct (canon_int _ CV z) as (l' & V' & T' & R); [tauto|]. inversion WT; subst. inversion C; subst. match goal with V : number_value ?l x, T : integer_text ?l z |- _ => exact (num_same l l' z x _ T T' V V' R) end.
  - destruct (canon_int _ CV z) as (l' & V' & T' & R); [tauto|]. inversion WT; subst. inversion C; subst. match goal with V : number_value ?l x, T : integer_text ?l z |- _ => exact (num_same l l' z x _ T T' V V' R) end.
  - inversion WV.
  - inversion WT; subst. inversion C; subst. reflexivity.
  - inversion WT as [| | | | | | | |? vs FW|]; subst. inversion C as [| | | | |? xs FC|]; subst. f_equal. inversion WV as [| | | | | | | |? WL|]; subst.
    assert (CL : Forall canon l). { inversion CV as [|b|l' y V|s|l' F|m F]; subst; [inversion V|exact F]. } clear WV WT C CV.
    revert xs FC. induction FW as [|a b l vs W FW IH]; intros xs FC; inversion FC; subst; [reflexivity|]. inversion H; subst; inversion WL; subst; inversion CL; subst. f_equal; [eauto|]. apply IH; assumption.
  - inversion WT as [| | | | | | | | |? ? m' ms PM OR FW]; subst. inversion C as [| | | | | |? xs mm FC MG]; subst. inversion WV as [| | | | | | | | |? ? ND WM]; subst.
    assert (CL : o = true /\ Forall (fun kx => canon (snd kx)) m). { inversion CV as [|b|l' y V|s|l' F|m0 F]; subst; [inversion V|split; [reflexivity|exact F]]. } destruct CL as (-> & CL). cbn [andb] in OR. subst m'.
    f_equal. assert (MM : mm = combine (map key_of ms) xs).
    { apply (merged_same pol _ _ MG). rewrite map_fst_combine by (rewrite map_length; exact (F2_len _ _ _ _ _ FC)). rewrite (writes_keys _ _ _ FW). exact ND. }
    subst mm. assert (F2 : Forall2 (fun a b : list Z * dv => fst a = fst b /\ snd b = snd a) m (combine (map key_of ms) xs)).
    { apply (combine_F2 (fun a b => b = a) pol true true _ _ _ FW FC). apply Forall_forall. intros kx I t y W CY. rewrite Forall_forall in H, WM, CL. destruct (WM kx I). pose proof (CL kx I). eapply H; eauto. }
    clear - F2. induction F2 as [|[a1 a2] [b1 b2] m l [E1 E2] F2 IH]; [reflexivity|]. cbn [fst snd] in *. subst. congruence.
Qed.

(** ** The tree of what is written has no repeated keys and only integers *)
Lemma not_repeats_mild : forall v, ~ repeats v -> mild v.
Proof.
  induction v as [| | |l|r d|vs H|ms H] using jvalue_ind'; intros NR; try (apply mild_simple; exact Logic.I).
  - apply mild_arr. apply Forall_forall. intros v I. rewrite Forall_forall in H. apply (H v I). intros R. apply NR. apply rep_arr. apply Exists_exists. exists v. auto.
  - apply mild_obj.
    + apply Forall_forall. intros v I. rewrite Forall_forall in H. apply (H v I). intros R. apply NR. apply rep_obj. apply Exists_exists. exists v. auto.
    + intros b mem a E I. exfalso. apply NR. apply rep_here. subst ms. rewrite map_app. cbn [map]. intros ND. apply NoDup_remove_2 in ND. apply ND. apply in_or_app. left. exact I.
Qed.
Lemma writes_tree : forall io v, writable v -> forall t, writes io v t -> ~ repeats t /\ numbers integral t.
Proof.
  intros io. induction v as [| |b|z|z|z|z|l|s|l H|o m H] using dv_ind'; intros WV t WT; inversion WT as [| |?|? l' T|? l' T|? l' T|? l' T|? raw|? vs FW|? ? m' ms PM OR FW]; subst;
    try (split; [intros R; inversion R|constructor]; fail).
  - destruct b; (split; [intros R; inversion R|constructor]).
  - split; [intros R; inversion R|]. constructor. exists z. split; [exact T|]. inversion WV; subst. unfold int32, int64 in *. lia.
  - split; [intros R; inversion R|]. constructor. exists z. split; [exact T|]. inversion WV; subst. unfold uint32, uint64 in *. lia.
  - split; [intros R; inversion R|]. constructor. exists z. split; [exact T|]. inversion WV; subst. auto.
  - split; [intros R; inversion R|]. constructor. exists z. split; [exact T|]. inversion WV; subst. auto.
  - inversion WV as [| | | | | | | |? WL|]; subst. assert (Q : Forall (fun t => ~ repeats t /\ numbers integral t) vs).
    { clear WT WV. induction FW; constructor; inversion H; subst; inversion WL; subst; auto. }
    split.
    + intros R. inversion R as [|? EX|]; subst. apply Exists_exists in EX. destruct EX as (v & I & RV). rewrite Forall_forall in Q. exact (proj1 (Q v I) RV).
    + constructor. eapply Forall_impl; [|exact Q]. cbn beta. tauto.
  - inversion WV as [| | | | | | | | |? ? ND WM]; subst. assert (Q : Forall (fun mem => ~ repeats (snd mem) /\ numbers integral (snd mem)) ms).
    { assert (HM : Forall (fun kx => forall t, writes io (snd kx) t -> ~ repeats t /\ numbers integral t) m').
      { apply Forall_forall. intros kx I. apply (Permutation_in _ (Permutation_sym PM)) in I. rewrite Forall_forall in H, WM. apply (H kx I). apply (WM kx I). }
      clear - FW HM. induction FW as [|a b m' ms [K W] FW IH]; constructor; inversion HM; subst; auto. }
    split.
    + intros R. inversion R as [? NN| |? EX]; subst.
      * apply NN. rewrite (writes_keys _ _ _ FW). eapply Permutation_NoDup; [apply Permutation_map; exact PM|exact ND].
      * apply Exists_exists in EX. destruct EX as (v & I & RV). rewrite Forall_forall in Q. exact (proj1 (Q v I) RV).
    + constructor. eapply Forall_impl; [|exact Q]. cbn beta. tauto.
Qed.
Lemma integral_holdable : forall v, numbers integral v -> numbers holdable v.
Proof.
  induction v as [| | |l|r d|vs H|ms H] using jvalue_ind'; intros NV; inversion NV as [| | |? NL| |? NF|? NF]; subst; constructor.
  - left. exact NL.
  - clear NV. induction H; inversion NF; subst; constructor; auto.
  - clear NV. induction H; inversion NF; subst; constructor; auto.
Qed.
(** what is read from integers and well-formed strings can be written *)
Inductive texts_ok : jvalue -> Prop :=
| tx_null : texts_ok VNull | tx_false : texts_ok VFalse | tx_true : texts_ok VTrue | tx_num : forall l, texts_ok (VNum l)
| tx_str : forall r s, utf8_text s -> texts_ok (VStr r s)
| tx_arr : forall vs, Forall texts_ok vs -> texts_ok (VArr vs)
| tx_obj : forall ms, Forall (fun mem => utf8_text (key_of mem) /\ texts_ok (snd mem)) ms -> texts_ok (VObj ms).
Lemma grammar_texts : (forall l v, value l v -> texts_ok v) /\ (forall l vs, elements l vs -> Forall texts_ok vs) /\
  (forall l ms, members l ms -> Forall (fun mem => utf8_text (key_of mem) /\ texts_ok (snd mem)) ms).
Proof.
  apply grammar_mut; intros; constructor; auto.
  all: try (eapply chars_text; eassumption).
  all: split; [unfold key_of; cbn [fst snd]; eapply chars_text; eassumption|cbn [snd]; assumption].
Qed.
Lemma document_texts : forall doc v, document doc v -> texts_ok v.
Proof. intros doc v D. inversion D; subst. eapply (proj1 grammar_texts). eassumption. Qed.
Lemma content_writable : forall pol order t x, texts_ok t -> numbers integral t -> content pol order t x -> writable x.
Proof.
  intros pol order t. induction t as [| | |l|r d|vs H|ms H] using jvalue_ind'; intros x TX NV C; inversion C as [| | |? ? V| |? xs F|? xs m F M]; subst; try (constructor; fail).
  - inversion NV as [| | |? (z & T & R)| | |]; subst. inversion V as [a A ?|a A ? ?|a A ? ? ?|a A ? ?|D]; subst; try (constructor; assumption). exfalso. destruct (D z T). tauto.
  - inversion TX; subst. constructor. assumption.
  - inversion TX as [| | | | |? TF|]; subst. inversion NV as [| | | | |? NF|]; subst. constructor. clear C TX NV. induction F; inversion H; subst; inversion TF; subst; inversion NF; subst; constructor; auto.
  - inversion TX as [| | | | | |? TF]; subst. inversion NV as [| | | | | |? NF]; subst. destruct M as (K & A & _).
    assert (ND : NoDup (map fst m)) by (rewrite K; apply distinct_nodup). constructor; [exact ND|].
    apply Forall_forall. intros [k y] I. cbn [fst snd].
    pose proof (in_assoc _ _ _ _ ND I) as E. rewrite A in E. apply assoc_in in E.
    assert (IX : In (k, y) (combine (map key_of ms) xs)). { destruct pol; [exact E|exact E|apply in_rev; exact E]. }
    clear - F H IX TF NF. induction F as [|a b ms xs CX F IH]; [destruct IX|]. inversion H; subst. inversion TF as [|? ? [U1 U2] ?]; subst. inversion NF; subst. cbn [map combine] in IX. destruct IX as [EQ|IX]; [injection EQ as <- <-; auto|]. apply IH; assumption.
Qed.
Lemma content_fun : forall pol order t, forall x y, content pol order t x -> content pol order t y -> x = y.
Proof.
  intros pol order t. induction t as [| | |l|r d|vs H|ms H] using jvalue_ind'; intros x y C D; inversion C as [| | |? ? V| |? xs F|? xs m F M]; subst; inversion D as [| | |? ? V'| |? ys F'|? ys m' F' M']; subst; try reflexivity.
  - inversion V as [a A ?|a A ? ?|a A ? ? ?|a A ? ?|D1]; inversion V' as [b B ?|b B ? ?|b B ? ? ?|b B ? ?|D2]; subst; try reflexivity;
      try (rewrite (text_value l b a B A) in *); try reflexivity; try (destruct (D1 b B)); try (destruct (D2 a A)); unfold int32, uint32, int64, uint64 in *; try (exfalso; lia).
  - f_equal. clear C D. revert ys F'. induction F; intros ys F'; inversion F'; subst; inversion H; subst; [reflexivity|]. f_equal; auto.
  - f_equal. assert (xs = ys). { clear C D M M'. revert ys F'. induction F; intros ys F'; inversion F'; subst; inversion H; subst; [reflexivity|]. f_equal; auto. } subst ys.
    destruct M as (K & A & _), M' as (K' & A' & _). apply same_items; [congruence|rewrite K'; apply distinct_nodup|]. intros k. rewrite A, A'. reflexivity.
Qed.
