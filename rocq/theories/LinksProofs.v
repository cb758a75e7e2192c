From Verif Require Import Base Links.

(** Representation: the links of the nodes of [l], entered from [p], left to [n]. *)
Definition hdor (l : list addr) (n : option addr) : option addr := match l with [] => n | a :: _ => Some a end.
Fixpoint lastor (p : option addr) (l : list addr) : option addr :=
  match l with [] => p | a :: r => lastor (Some a) r end.
Fixpoint seg (h : lheap) (p : option addr) (l : list addr) (n : option addr) : Prop :=
  match l with
  | [] => True
  | a :: r => h a = Some (mklnk p (hdor r n)) /\ seg h (Some a) r n
  end.
Definition dll (h : lheap) (hd : lhdr) (l : list addr) : Prop :=
  NoDup l /\ lhead hd = hdor l None /\ ltail hd = lastor None l /\ seg h None l None.

Lemma upd_eq {A} (h : addr -> option A) a v : upd h a v a = v.
Proof. unfold upd. rewrite Pos.eqb_refl. reflexivity. Qed.
Lemma upd_neq {A} (h : addr -> option A) a v x : x <> a -> upd h a v x = h x.
Proof. intros H. unfold upd. destruct (Pos.eqb_spec x a); [contradiction|reflexivity]. Qed.

Lemma lastor_app p l a : lastor p (l ++ [a]) = Some a.
Proof. revert p. induction l as [|b l IH]; intros p; [reflexivity|apply IH]. Qed.
Lemma lastor_app2 p l1 l2 : lastor p (l1 ++ l2) = lastor (lastor p l1) l2.
Proof. revert p. induction l1 as [|b l IH]; intros p; [reflexivity|apply IH]. Qed.
Lemma hdor_app l1 l2 n : hdor (l1 ++ l2) n = hdor l1 (hdor l2 n).
Proof. destruct l1; reflexivity. Qed.

Lemma seg_app h p l1 l2 n : seg h p (l1 ++ l2) n <-> seg h p l1 (hdor l2 n) /\ seg h (lastor p l1) l2 n.
Proof.
  revert p. induction l1 as [|a l1 IH]; intros p; cbn [app seg lastor].
  - tauto.
  - rewrite IH, hdor_app. tauto.
Qed.
Lemma seg_frame h h' p l n : (forall a, In a l -> h' a = h a) -> seg h p l n -> seg h' p l n.
Proof.
  revert p. induction l as [|a l IH]; intros p Hf Hs; cbn [seg] in *; [exact I|].
  destruct Hs as [H1 H2]. split; [rewrite Hf by (left; reflexivity); exact H1|].
  apply IH; [|exact H2]. intros b Hb. apply Hf. right. exact Hb.
Qed.
Lemma seg_alloc h p l n a : seg h p l n -> In a l -> h a <> None.
Proof.
  revert p. induction l as [|b l IH]; intros p Hs Hin; [contradiction|].
  destruct Hs as [H1 H2]. destruct Hin as [->|Hin]; [congruence|eapply IH; eauto].
Qed.

Lemma snoc_case (l : list addr) : l = [] \/ exists l' a, l = l' ++ [a].
Proof.
  destruct l as [|b l]; [left; reflexivity|right]. 
  destruct (exists_last (l := b :: l)) as (l' & a & E); [discriminate|]. exists l', a. exact E.
Qed.

Lemma NoDup_mid (l1 l2 : list addr) a : NoDup (l1 ++ a :: l2) -> NoDup (l1 ++ l2) /\ ~ In a l1 /\ ~ In a l2.
Proof.
  intros H. split; [eapply NoDup_remove_1; exact H|]. apply NoDup_remove_2 in H.
  rewrite in_app_iff in H. tauto.
Qed.
Lemma NoDup_insert (l1 l2 : list addr) a : NoDup (l1 ++ l2) -> ~ In a (l1 ++ l2) -> NoDup (l1 ++ a :: l2).
Proof. intros H1 H2. apply NoDup_Add with (a := a) (l := l1 ++ l2); [apply Add_app|split; assumption]. Qed.
Lemma NoDup_disj (l1 l2 : list addr) a : NoDup (l1 ++ l2) -> In a l1 -> In a l2 -> False.
Proof.
  induction l1 as [|b l1 IH]; intros H Hi1 Hi2; [contradiction|].
  cbn in H. inversion H as [|? ? Hn Hd]; subst. destruct Hi1 as [->|Hi1]; [|eauto].
  apply Hn, in_or_app; right; assumption.
Qed.

Ltac usimp := repeat first
  [ rewrite upd_eq
  | rewrite upd_neq by (first [assumption | congruence | (apply not_eq_sym; assumption) ]) ].

(** link_before at any position. *)
Lemma link_before_spec h hd l1 l2 ent :
  dll h hd (l1 ++ l2) -> ~ In ent (l1 ++ l2) -> h ent <> None ->
  exists h' hd', link_before h hd (hdor l2 None) ent = Some (h', hd') /\ dll h' hd' (l1 ++ ent :: l2) /\
    (forall a, ~ In a (ent :: l1 ++ l2) -> h' a = h a) /\ (forall a, h' a = None <-> h a = None).
Proof.
  intros (Hnd & Hhd & Htl & Hseg) Hni Hal.
  destruct (h ent) as [le|] eqn:Ee; [clear Hal|congruence].
  apply seg_app in Hseg. destruct Hseg as [Hs1 Hs2].
  assert (Hnd' := NoDup_insert _ _ _ Hnd Hni).
  rewrite in_app_iff in Hni.
  destruct l2 as [|i l2].
  - (* at the end *)
    rewrite app_nil_r in *. cbn [hdor] in *. unfold link_before.
    destruct (snoc_case l1) as [->|(l1' & p & ->)].
    + cbn [lastor] in Htl. rewrite Htl. unfold set_nxt, set_prv. rewrite Ee. usimp. cbn [prv nxt].
      eexists; eexists; split; [reflexivity|].
      split; [|split].
      * split; [exact Hnd'|]. cbn [app hdor lastor lhead ltail seg]. repeat split; auto. usimp. reflexivity.
      * intros a Ha. cbn in Ha. assert (a <> ent) by intuition congruence. usimp. reflexivity.
      * intros a. unfold upd. destruct (Pos.eqb_spec a ent) as [->|]; [rewrite Ee; split; discriminate|tauto].
    + rewrite lastor_app in Htl. rewrite Htl.
      apply seg_app in Hs1. destruct Hs1 as [Hsa Hsb]. cbn [seg hdor] in Hsb. destruct Hsb as [Hp _].
      assert (Hpe : p <> ent) by (intros ->; apply Hni; left; apply in_or_app; right; left; reflexivity).
      unfold set_nxt, set_prv. rewrite Hp. usimp. rewrite Ee. usimp. cbn [prv nxt].
      eexists; eexists; split; [reflexivity|].
      assert (Hpl : ~ In p l1') by (intros X; eapply NoDup_disj; [exact Hnd|exact X|left; reflexivity]).
      split; [|split].
      * split; [exact Hnd'|]. cbn [lhead ltail]. rewrite lastor_app. split; [|split].
        -- rewrite Hhd, !hdor_app. destruct l1'; reflexivity.
        -- reflexivity.
        -- rewrite seg_app. cbn [hdor seg]. rewrite lastor_app. split.
           ++ rewrite seg_app. cbn [hdor seg]. split; [|usimp; split; [reflexivity|exact I]].
              eapply seg_frame; [|exact Hsa]. intros a Ha.
              assert (a <> p) by congruence. assert (a <> ent) by (intros ->; apply Hni; left; apply in_or_app; left; assumption).
              usimp. reflexivity.
           ++ usimp. split; [reflexivity|exact I].
      * intros a Ha. cbn in Ha. rewrite in_app_iff in Ha. cbn in Ha.
        assert (a <> ent) by intuition congruence. assert (a <> p) by intuition congruence. usimp. reflexivity.
      * intros a. unfold upd. destruct (Pos.eqb_spec a ent) as [->|]; [rewrite Ee; split; discriminate|].
        destruct (Pos.eqb_spec a p) as [->|]; [rewrite Hp; split; discriminate|tauto].
  - (* before i *)
    cbn [hdor] in *. cbn [seg] in Hs2. destruct Hs2 as [Hi Hs2].
    assert (Hie : i <> ent) by (intros ->; apply Hni; right; left; reflexivity).
    assert (Hnil : ~ In i l1) by (intros X; eapply NoDup_disj; [exact Hnd|exact X|left; reflexivity]).
    assert (Hnil2 : ~ In i l2) by (apply NoDup_mid in Hnd; tauto).
    assert (Hel1 : ~ In ent l1) by tauto. assert (Hel2 : ~ In ent l2) by (intros X; apply Hni; right; right; exact X).
    unfold link_before, get_prv, set_prv, set_nxt. rewrite Hi. cbn [option_map prv nxt]. rewrite Ee. usimp.
    rewrite Hi. cbn [option_map prv nxt].
    destruct (snoc_case l1) as [->|(l1' & p & ->)].
    + cbn [lastor]. usimp. rewrite Hi. cbn [prv nxt].
      eexists; eexists; split; [reflexivity|]. split; [|split].
      * split; [exact Hnd'|]. cbn [app hdor lhead ltail lastor seg].
        split; [reflexivity|]. split; [exact Htl|]. usimp. split; [reflexivity|]. split; [reflexivity|].
        eapply seg_frame; [|exact Hs2]. intros a Ha.
        assert (a <> i) by congruence. assert (a <> ent) by congruence. usimp. reflexivity.
      * intros a Ha. cbn in Ha. assert (a <> i) by intuition congruence. assert (a <> ent) by intuition congruence. usimp. reflexivity.
      * intros a. unfold upd. destruct (Pos.eqb_spec a i) as [->|]; [rewrite Hi; split; discriminate|].
        destruct (Pos.eqb_spec a ent) as [->|]; [rewrite Ee; split; discriminate|tauto].
    + rewrite lastor_app in *. 
      apply seg_app in Hs1. destruct Hs1 as [Hsa Hsb]. cbn [seg hdor] in Hsb. destruct Hsb as [Hp _].
      assert (Hpe : p <> ent) by (intros ->; apply Hel1, in_or_app; right; left; reflexivity).
      assert (Hpi : p <> i) by (intros ->; apply Hnil, in_or_app; right; left; reflexivity).
      assert (Hpl : ~ In p l1' /\ ~ In p l2).
      { rewrite <- app_assoc in Hnd. cbn [app] in Hnd. apply NoDup_mid in Hnd. cbn in Hnd. tauto. }
      destruct Hpl as [Hpl Hpl2].
      usimp. rewrite Hp. usimp. rewrite Hi. cbn [prv nxt].
      eexists; eexists; split; [reflexivity|].
      split; [|split].
      * split; [exact Hnd'|]. cbn [lhead ltail]. split; [|split].
        -- rewrite Hhd, !hdor_app. destruct l1'; reflexivity.
        -- rewrite Htl, !lastor_app2. reflexivity.
        -- rewrite seg_app. cbn [hdor seg]. rewrite lastor_app. split.
           ++ rewrite seg_app. cbn [hdor seg]. split; [|usimp; split; [reflexivity|exact I]].
              eapply seg_frame; [|exact Hsa]. intros a Ha.
              assert (a <> p) by congruence.
              assert (a <> ent) by (intros ->; apply Hel1, in_or_app; left; assumption).
              assert (a <> i) by (intros ->; apply Hnil, in_or_app; left; assumption). usimp. reflexivity.
           ++ usimp. split; [reflexivity|]. split; [reflexivity|].
              eapply seg_frame; [|exact Hs2]. intros a Ha.
              assert (a <> i) by congruence. assert (a <> ent) by congruence. assert (a <> p) by congruence.
              usimp. reflexivity.
      * intros a Ha. cbn in Ha. rewrite !in_app_iff in Ha. cbn in Ha.
        assert (a <> ent) by intuition congruence. assert (a <> p) by intuition congruence. assert (a <> i) by intuition congruence. usimp. reflexivity.
      * intros a. unfold upd. destruct (Pos.eqb_spec a i) as [->|]; [rewrite Hi; split; discriminate|].
        destruct (Pos.eqb_spec a p) as [->|]; [rewrite Hp; split; discriminate|].
        destruct (Pos.eqb_spec a ent) as [->|]; [rewrite Ee; split; discriminate|tauto].
Qed.

(** unlink at any position. *)
Lemma unlink_spec h hd l1 l2 ent :
  dll h hd (l1 ++ ent :: l2) ->
  exists h' hd', unlink h hd ent = Some (h', hd') /\ dll h' hd' (l1 ++ l2) /\
    h' ent = Some (mklnk None None) /\
    (forall a, ~ In a (ent :: l1 ++ l2) -> h' a = h a) /\ (forall a, h' a = None <-> h a = None).
Proof.
  intros (Hnd & Hhd & Htl & Hseg).
  destruct (NoDup_mid _ _ _ Hnd) as (Hnd' & He1 & He2).
  apply seg_app in Hseg. destruct Hseg as [Hs1 Hs2]. cbn [hdor seg] in *. destruct Hs2 as [He Hs2].
  unfold unlink, get_prv, get_nxt, set_prv, set_nxt. rewrite He. cbn [option_map prv nxt].
  destruct (snoc_case l1) as [->|(l1' & p & ->)].
  - cbn [lastor] in *. rewrite He. cbn [option_map prv nxt].
    destruct l2 as [|n l2]; cbn [hdor] in *.
    + rewrite He. usimp. cbn [prv nxt]. eexists; eexists; split; [reflexivity|]. split; [|split; [|split]].
      * split; [exact Hnd'|]. cbn. auto.
      * usimp. reflexivity.
      * intros a Ha. cbn in Ha. assert (a <> ent) by intuition congruence. usimp. reflexivity.
      * intros a. unfold upd. destruct (Pos.eqb_spec a ent) as [->|]; [rewrite He; split; discriminate|tauto].
    + cbn [seg] in Hs2. destruct Hs2 as [Hn Hs2]. rewrite Hn. 
      assert (Hne : n <> ent) by (intros ->; apply He2; left; reflexivity).
      usimp. rewrite He. usimp. cbn [prv nxt]. eexists; eexists; split; [reflexivity|].
      assert (Hnl : ~ In n l2) by (cbn in Hnd'; inversion Hnd'; assumption).
      split; [|split; [|split]].
      * split; [exact Hnd'|]. cbn [app lhead ltail hdor lastor] in *. split; [reflexivity|]. split; [exact Htl|].
        cbn [seg]. usimp. split; [reflexivity|]. eapply seg_frame; [|exact Hs2]. intros a Ha.
        assert (a <> n) by congruence. assert (a <> ent) by (intros ->; apply He2; right; assumption). usimp. reflexivity.
      * usimp. reflexivity.
      * intros a Ha. cbn in Ha. assert (a <> ent) by intuition congruence. assert (a <> n) by intuition congruence. usimp. reflexivity.
      * intros a. unfold upd. destruct (Pos.eqb_spec a ent) as [->|]; [rewrite He; split; discriminate|].
        destruct (Pos.eqb_spec a n) as [->|]; [rewrite Hn; split; discriminate|tauto].
  - rewrite lastor_app in *.
    apply seg_app in Hs1. destruct Hs1 as [Hsa Hsb]. cbn [seg hdor] in Hsb. destruct Hsb as [Hp _].
    assert (Hpe : p <> ent) by (intros ->; apply He1, in_or_app; right; left; reflexivity).
    assert (Hpl : ~ In p l1' /\ ~ In p l2).
    { rewrite <- app_assoc in Hnd'. cbn [app] in Hnd'. apply NoDup_mid in Hnd'. tauto. }
    destruct Hpl as [Hpl Hpl2].
    rewrite Hp. usimp. rewrite He. cbn [option_map prv nxt].
    assert (Hpel : ~ In ent l1') by (intros X; apply He1, in_or_app; left; exact X).
    destruct l2 as [|n l2]; cbn [hdor] in *.
    + usimp. rewrite He. usimp. cbn [prv nxt]. eexists; eexists; split; [reflexivity|]. split; [|split; [|split]].
      * rewrite app_nil_r in *. split; [exact Hnd'|]. cbn [lhead ltail]. rewrite lastor_app.
        split; [rewrite Hhd, !hdor_app; destruct l1'; reflexivity|]. split; [reflexivity|].
        rewrite seg_app. cbn [seg hdor]. usimp. split; [|split; [reflexivity|exact I]].
        eapply seg_frame; [|exact Hsa]. intros a Ha. assert (a <> p) by congruence. assert (a <> ent) by congruence. usimp. reflexivity.
      * usimp. reflexivity.
      * intros a Ha. cbn in Ha. rewrite !in_app_iff in Ha. cbn in Ha.
        assert (a <> ent) by intuition congruence. assert (a <> p) by intuition congruence. usimp. reflexivity.
      * intros a. unfold upd. destruct (Pos.eqb_spec a ent) as [->|]; [rewrite He; split; discriminate|].
        destruct (Pos.eqb_spec a p) as [->|]; [rewrite Hp; split; discriminate|tauto].
    + cbn [seg] in Hs2. destruct Hs2 as [Hn Hs2].
      assert (Hne : n <> ent) by (intros ->; apply He2; left; reflexivity).
      assert (Hnp : n <> p) by (intros ->; apply Hpl2; left; reflexivity).
      assert (Hnl : ~ In n l1' /\ ~ In n l2).
      { assert (X := Hnd'). apply NoDup_mid in X. rewrite in_app_iff in X. tauto. }
      destruct Hnl as [Hnl1 Hnl2].
      usimp. rewrite Hn. usimp. rewrite He. usimp. cbn [prv nxt]. eexists; eexists; split; [reflexivity|].
      split; [|split; [|split]].
      * split; [exact Hnd'|]. cbn [lhead ltail].
        split; [rewrite Hhd, !hdor_app; destruct l1'; reflexivity|]. split; [rewrite Htl, !lastor_app2; reflexivity|].
        rewrite seg_app. cbn [seg hdor]. rewrite lastor_app. usimp. split.
        -- rewrite seg_app. cbn [seg hdor]. usimp. split; [|split; [reflexivity|exact I]].
           eapply seg_frame; [|exact Hsa]. intros a Ha.
           assert (a <> p) by congruence. assert (a <> ent) by congruence. assert (a <> n) by congruence. usimp. reflexivity.
        -- split; [reflexivity|]. eapply seg_frame; [|exact Hs2]. intros a Ha.
           assert (a <> p) by (intros ->; apply Hpl2; right; assumption).
           assert (a <> ent) by (intros ->; apply He2; right; assumption). assert (a <> n) by congruence. usimp. reflexivity.
      * usimp. reflexivity.
      * intros a Ha. cbn in Ha. rewrite !in_app_iff in Ha. cbn in Ha.
        assert (a <> ent) by intuition congruence. assert (a <> p) by intuition congruence. assert (a <> n) by intuition congruence. usimp. reflexivity.
      * intros a. unfold upd. destruct (Pos.eqb_spec a ent) as [->|]; [rewrite He; split; discriminate|].
        destruct (Pos.eqb_spec a n) as [->|]; [rewrite Hn; split; discriminate|].
        destruct (Pos.eqb_spec a p) as [->|]; [rewrite Hp; split; discriminate|tauto].
Qed.

(** Walking a represented list. *)
Lemma walk_next_seg h : forall l p fuel, seg h p l None -> (length l <= fuel)%nat ->
  walk_next fuel h (hdor l None) = Some l.
Proof.
  induction l as [|a l IH]; intros p fuel Hs Hf.
  - destruct fuel; reflexivity.
  - cbn [length] in Hf. destruct fuel as [|f]; [lia|]. cbn [hdor walk_next].
    cbn [seg] in Hs. destruct Hs as [Ha Hs]. unfold get_nxt. rewrite Ha. cbn [option_map nxt].
    rewrite (IH (Some a) f Hs ltac:(lia)). reflexivity.
Qed.
Lemma walk_prev_seg h : forall l n fuel, seg h None l n -> (length l <= fuel)%nat ->
  walk_prev fuel h (lastor None l) = Some (rev l).
Proof.
  intros l. induction l as [|a l IH] using rev_ind; intros n fuel Hs Hf.
  - destruct fuel; reflexivity.
  - rewrite app_length in Hf. cbn [length] in Hf. destruct fuel as [|f]; [lia|].
    rewrite lastor_app. cbn [walk_prev]. apply seg_app in Hs. cbn [seg hdor] in Hs. destruct Hs as [Hs [Ha _]].
    unfold get_prv. rewrite Ha. cbn [option_map prv]. rewrite (IH (Some a) f Hs ltac:(lia)).
    rewrite rev_app_distr. reflexivity.
Qed.
