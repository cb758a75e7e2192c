(** wolfsentry_ll.h operations: proofs. *)
From Verif Require Import Base Links LinksProofs.

(** A correct list operation: [l'] is represented afterwards, other nodes are untouched and no node is
    allocated or freed. *)
Definition op_ok (h : lheap) (r : option (lheap * lhdr)) (touched l' : list addr) : Prop :=
  exists h' hd', r = Some (h', hd') /\ dll h' hd' l' /\
    (forall a, ~ In a touched -> h' a = h a) /\ (forall a, h' a = None <-> h a = None).

Ltac domtac := intros a; unfold upd;
  repeat match goal with |- context [Pos.eqb a ?x] => destruct (Pos.eqb_spec a x) as [->|] end;
  try (split; congruence); try tauto.

Lemma ll_append_spec h hd l ent : dll h hd l -> ~ In ent l -> h ent <> None ->
  op_ok h (ll_append h hd ent) (ent :: l) (l ++ [ent]).
Proof.
  intros Hd Hni Hal. assert (Hd0 := Hd). destruct Hd as (Hnd & Hhd & Htl & Hseg).
  destruct (h ent) as [le|] eqn:Ee; [clear Hal|congruence].
  assert (Hnd' : NoDup (l ++ [ent])) by (apply NoDup_insert; rewrite app_nil_r; assumption).
  unfold ll_append, op_ok, set_nxt, set_prv. rewrite Ee.
  destruct (snoc_case l) as [->|(l' & p & ->)].
  - cbn [lastor] in Htl. rewrite Htl. usimp. cbn [prv nxt]. eexists; eexists; split; [reflexivity|].
    split; [|split].
    + split; [exact Hnd'|]. cbn. usimp. auto.
    + intros a Ha. cbn in Ha. assert (a <> ent) by intuition congruence. usimp. reflexivity.
    + domtac.
  - rewrite lastor_app in Htl. rewrite Htl.
    apply seg_app in Hseg. destruct Hseg as [Hsa Hsb]. cbn [seg hdor] in Hsb. destruct Hsb as [Hp _].
    assert (Hpe : p <> ent) by (intros ->; apply Hni, in_or_app; right; left; reflexivity).
    assert (Hpl : ~ In p l') by (apply NoDup_mid in Hnd; tauto).
    usimp. rewrite Hp. usimp. cbn [prv nxt]. eexists; eexists; split; [reflexivity|]. split; [|split].
    + split; [exact Hnd'|]. cbn [lhead ltail]. rewrite lastor_app.
      split; [rewrite Hhd, !hdor_app; destruct l'; reflexivity|]. split; [reflexivity|].
      rewrite !seg_app. cbn [seg hdor]. rewrite lastor_app. usimp.
      split; [split; [|split; [reflexivity|exact I]]|split; [reflexivity|exact I]].
      eapply seg_frame; [|exact Hsa]. intros a Ha. assert (a <> p) by congruence.
      assert (a <> ent) by (intros ->; apply Hni, in_or_app; left; assumption). usimp. reflexivity.
    + intros a Ha. cbn in Ha. rewrite in_app_iff in Ha. cbn in Ha.
      assert (a <> ent) by intuition congruence. assert (a <> p) by intuition congruence. usimp. reflexivity.
    + domtac.
Qed.

Lemma ll_prepend_spec h hd l ent : dll h hd l -> ~ In ent l -> h ent <> None ->
  op_ok h (ll_prepend h hd ent) (ent :: l) (ent :: l).
Proof.
  intros (Hnd & Hhd & Htl & Hseg) Hni Hal.
  destruct (h ent) as [le|] eqn:Ee; [clear Hal|congruence].
  unfold ll_prepend, op_ok, set_nxt, set_prv. rewrite Ee. rewrite Hhd.
  destruct l as [|f l]; cbn [hdor].
  - usimp. cbn [prv nxt]. eexists; eexists; split; [reflexivity|]. split; [|split].
    + split; [constructor; [exact Hni|exact Hnd]|]. cbn. usimp. auto.
    + intros a Ha. cbn in Ha. assert (a <> ent) by intuition congruence. usimp. reflexivity.
    + domtac.
  - cbn [seg] in Hseg. destruct Hseg as [Hf Hs].
    assert (Hfe : f <> ent) by (intros ->; apply Hni; left; reflexivity).
    assert (Hfl : ~ In f l) by (inversion Hnd; assumption).
    usimp. rewrite Hf. usimp. cbn [prv nxt]. eexists; eexists; split; [reflexivity|]. split; [|split].
    + split; [constructor; [exact Hni|exact Hnd]|]. cbn [lhead ltail hdor lastor seg]. usimp.
      split; [reflexivity|]. split; [exact Htl|]. split; [reflexivity|]. split; [reflexivity|].
      eapply seg_frame; [|exact Hs]. intros a Ha. assert (a <> f) by congruence.
      assert (a <> ent) by (intros ->; apply Hni; right; assumption). usimp. reflexivity.
    + intros a Ha. cbn in Ha. assert (a <> ent) by intuition congruence. assert (a <> f) by intuition congruence. usimp. reflexivity.
    + domtac.
Qed.

(** insert_before: correct unless the point is the head and the new entry's stale prev is not NULL. *)
Lemma ll_insert_before_spec h hd l1 l2 ent le : dll h hd (l1 ++ l2) -> ~ In ent (l1 ++ l2) -> h ent = Some le ->
  (l2 = [] \/ l1 <> [] \/ prv le = None) ->
  op_ok h (ll_insert_before h hd (hdor l2 None) ent) (ent :: l1 ++ l2) (l1 ++ ent :: l2).
Proof.
  intros Hd Hni Ee Hc. destruct l2 as [|pt l2].
  { rewrite app_nil_r in *. cbn [hdor ll_insert_before]. apply ll_append_spec; try assumption. congruence. }
  destruct Hd as (Hnd & Hhd & Htl & Hseg). destruct Hc as [Hc|Hc]; [discriminate|].
  cbn [hdor ll_insert_before]. unfold op_ok, set_nxt, set_prv, get_prv. rewrite Ee.
  assert (Hnd' := NoDup_insert _ _ _ Hnd Hni).
  apply seg_app in Hseg. destruct Hseg as [Hs1 Hs2]. cbn [hdor seg] in *. destruct Hs2 as [Hpt Hs2].
  rewrite in_app_iff in Hni.
  assert (Hpe : pt <> ent) by (intros ->; apply Hni; right; left; reflexivity).
  assert (Hptl : ~ In pt l1 /\ ~ In pt l2) by (apply NoDup_mid in Hnd; tauto). destruct Hptl as [Hp1 Hp2].
  assert (He2 : ~ In ent l2) by (intros X; apply Hni; right; right; exact X).
  usimp. rewrite Hpt. cbn [option_map prv nxt].
  destruct (snoc_case l1) as [->|(l1' & p & ->)].
  - destruct Hc as [Hc|Hc]; [congruence|]. cbn [lastor]. usimp. rewrite Hpt. cbn [prv nxt].
    eexists; eexists; split; [reflexivity|]. split; [|split].
    + split; [exact Hnd'|]. cbn [app lhead ltail hdor lastor seg]. usimp. rewrite Hc.
      split; [reflexivity|]. split; [exact Htl|]. split; [reflexivity|]. split; [reflexivity|].
      eapply seg_frame; [|exact Hs2]. intros a Ha. assert (a <> pt) by congruence. assert (a <> ent) by congruence. usimp. reflexivity.
    + intros a Ha. cbn in Ha. assert (a <> ent) by intuition congruence. assert (a <> pt) by intuition congruence. usimp. reflexivity.
    + domtac.
  - rewrite lastor_app in *. apply seg_app in Hs1. destruct Hs1 as [Hsa Hsb]. cbn [seg hdor] in Hsb. destruct Hsb as [Hp _].
    assert (Hpe' : p <> ent) by (intros ->; apply Hni; left; apply in_or_app; right; left; reflexivity).
    assert (Hppt : p <> pt) by (intros ->; apply Hp1, in_or_app; right; left; reflexivity).
    assert (Hpl : ~ In p l1' /\ ~ In p l2).
    { rewrite <- app_assoc in Hnd. cbn [app] in Hnd. apply NoDup_mid in Hnd. cbn in Hnd. tauto. }
    destruct Hpl as [Hpl Hpl2].
    usimp. rewrite Hp. usimp. rewrite Hpt. cbn [prv nxt]. eexists; eexists; split; [reflexivity|]. split; [|split].
    + split; [exact Hnd'|]. cbn [lhead ltail].
      split; [rewrite Hhd, !hdor_app; destruct l1'; reflexivity|]. split; [rewrite Htl, !lastor_app2; reflexivity|].
      rewrite !seg_app. cbn [seg hdor]. rewrite lastor_app. usimp.
      split; [split; [|split; [reflexivity|exact I]]|].
      * eapply seg_frame; [|exact Hsa]. intros a Ha. assert (a <> p) by congruence.
        assert (a <> ent) by (intros ->; apply Hni; left; apply in_or_app; left; assumption).
        assert (a <> pt) by (intros ->; apply Hp1, in_or_app; left; assumption). usimp. reflexivity.
      * split; [reflexivity|]. split; [reflexivity|]. eapply seg_frame; [|exact Hs2]. intros a Ha.
        assert (a <> p) by congruence. assert (a <> ent) by congruence. assert (a <> pt) by congruence. usimp. reflexivity.
    + intros a Ha. cbn in Ha. rewrite !in_app_iff in Ha. cbn in Ha.
      assert (a <> ent) by intuition congruence. assert (a <> p) by intuition congruence. assert (a <> pt) by intuition congruence. usimp. reflexivity.
    + domtac.
Qed.

(** insert_after [p]: correct unless p is the tail and the new entry's stale next is not NULL. *)
Lemma ll_insert_after_spec h hd l1 p l2 ent le : dll h hd (l1 ++ p :: l2) -> ~ In ent (l1 ++ p :: l2) -> h ent = Some le ->
  (l2 <> [] \/ nxt le = None) ->
  op_ok h (ll_insert_after h hd (Some p) ent) (ent :: l1 ++ p :: l2) (l1 ++ p :: ent :: l2).
Proof.
  intros (Hnd & Hhd & Htl & Hseg) Hni Ee Hc.
  assert (Hnd' : NoDup (l1 ++ p :: ent :: l2)).
  { change (p :: ent :: l2) with ([p] ++ ent :: l2). rewrite app_assoc.
    apply NoDup_insert; rewrite <- app_assoc; assumption. }
  cbn [ll_insert_after]. unfold op_ok, set_nxt, set_prv, get_nxt. rewrite Ee.
  apply seg_app in Hseg. destruct Hseg as [Hs1 Hs2]. cbn [hdor seg] in *. destruct Hs2 as [Hp Hs2].
  rewrite in_app_iff in Hni.
  assert (Hpe : p <> ent) by (intros ->; apply Hni; right; left; reflexivity).
  assert (Hpl : ~ In p l1 /\ ~ In p l2) by (apply NoDup_mid in Hnd; tauto). destruct Hpl as [Hp1 Hp2].
  assert (He1 : ~ In ent l1) by tauto.
  assert (He2 : ~ In ent l2) by (intros X; apply Hni; right; right; exact X).
  usimp. rewrite Hp. cbn [option_map prv nxt].
  destruct l2 as [|n l2]; cbn [hdor] in *.
  - destruct Hc as [Hc|Hc]; [congruence|]. usimp. rewrite Hp. cbn [prv nxt].
    eexists; eexists; split; [reflexivity|]. split; [|split].
    + split; [exact Hnd'|]. cbn [lhead ltail]. rewrite lastor_app2. cbn [lastor].
      split; [rewrite Hhd, !hdor_app; reflexivity|]. split; [reflexivity|].
      rewrite seg_app. cbn [seg hdor]. usimp. rewrite Hc. split; [|auto].
      eapply seg_frame; [|exact Hs1]. intros a Ha. assert (a <> p) by congruence. assert (a <> ent) by congruence. usimp. reflexivity.
    + intros a Ha. cbn in Ha. rewrite !in_app_iff in Ha. cbn in Ha.
      assert (a <> ent) by intuition congruence. assert (a <> p) by intuition congruence. usimp. reflexivity.
    + domtac.
  - cbn [seg] in Hs2. destruct Hs2 as [Hn Hs2].
    assert (Hne : n <> ent) by (intros ->; apply He2; left; reflexivity).
    assert (Hnp : n <> p) by (intros ->; apply Hp2; left; reflexivity).
    assert (Hnl : ~ In n l1 /\ ~ In n l2).
    { change (p :: n :: l2) with ([p] ++ n :: l2) in Hnd. rewrite app_assoc in Hnd. apply NoDup_mid in Hnd.
      rewrite in_app_iff in Hnd. tauto. }
    destruct Hnl as [Hn1 Hn2].
    usimp. cbn [prv nxt]. rewrite Hn. cbn [prv nxt]. usimp. rewrite Hp. cbn [prv nxt].
    eexists; eexists; split; [reflexivity|]. split; [|split].
    + split; [exact Hnd'|]. cbn [lhead ltail].
      split; [rewrite Hhd, !hdor_app; reflexivity|]. split; [rewrite Htl, !lastor_app2; reflexivity|].
      rewrite seg_app. cbn [seg hdor]. usimp. split; [|split; [reflexivity|split; [reflexivity|split; [reflexivity|]]]].
      * eapply seg_frame; [|exact Hs1]. intros a Ha. assert (a <> p) by congruence. assert (a <> ent) by congruence.
        assert (a <> n) by congruence. usimp. reflexivity.
      * eapply seg_frame; [|exact Hs2]. intros a Ha. assert (a <> p) by (intros ->; apply Hp2; right; assumption).
        assert (a <> ent) by (intros ->; apply He2; right; assumption). assert (a <> n) by congruence. usimp. reflexivity.
    + intros a Ha. cbn in Ha. rewrite !in_app_iff in Ha. cbn in Ha.
      assert (a <> ent) by intuition congruence. assert (a <> p) by intuition congruence. assert (a <> n) by intuition congruence. usimp. reflexivity.
    + domtac.
Qed.

Lemma ll_delete_spec h hd l1 l2 ent : dll h hd (l1 ++ ent :: l2) ->
  op_ok h (ll_delete h hd ent) (l1 ++ l2) (l1 ++ l2).
Proof.
  intros (Hnd & Hhd & Htl & Hseg).
  destruct (NoDup_mid _ _ _ Hnd) as (Hnd' & He1 & He2).
  apply seg_app in Hseg. destruct Hseg as [Hs1 Hs2]. cbn [hdor seg] in *. destruct Hs2 as [He Hs2].
  unfold ll_delete, op_ok, get_prv, get_nxt, set_prv, set_nxt.
  destruct (snoc_case l1) as [->|(l1' & p & ->)].
  - cbn [app hdor lastor] in *. rewrite Hhd. cbn [eqo]. rewrite Pos.eqb_refl, He. cbn [option_map nxt].
    destruct l2 as [|n l2]; cbn [hdor] in *.
    + eexists; eexists; split; [reflexivity|]. split; [|split; [auto|tauto]]. split; [exact Hnd'|]. cbn. auto.
    + cbn [seg] in Hs2. destruct Hs2 as [Hn Hs2]. rewrite Hn. cbn [prv nxt].
      assert (Hnl : ~ In n l2) by (inversion Hnd'; assumption).
      eexists; eexists; split; [reflexivity|]. split; [|split].
      * split; [exact Hnd'|]. cbn [lhead ltail hdor lastor seg] in *. usimp. split; [reflexivity|]. split; [exact Htl|].
        split; [reflexivity|]. eapply seg_frame; [|exact Hs2]. intros a Ha. assert (a <> n) by congruence. usimp. reflexivity.
      * intros a Ha. cbn in Ha. assert (a <> n) by intuition congruence. usimp. reflexivity.
      * domtac.
  - rewrite lastor_app in *.
    assert (Hh : eqo ent (lhead hd) = false).
    { rewrite Hhd. rewrite <- app_assoc. destruct l1' as [|f l1']; cbn [app hdor eqo];
      (match goal with |- Pos.eqb _ ?x = _ => destruct (Pos.eqb_spec ent x) as [->|]; [|reflexivity] end);
      exfalso; apply He1; left; reflexivity. }
    rewrite Hh.
    assert (Hpe : p <> ent) by (intros ->; apply He1, in_or_app; right; left; reflexivity).
    assert (Hpl : ~ In p l1' /\ ~ In p l2).
    { rewrite <- app_assoc in Hnd'. cbn [app] in Hnd'. apply NoDup_mid in Hnd'. tauto. }
    destruct Hpl as [Hpl Hpl2].
    apply seg_app in Hs1. destruct Hs1 as [Hsa Hsb]. cbn [seg hdor] in Hsb. destruct Hsb as [Hp _].
    destruct l2 as [|n l2].
    + rewrite Htl. rewrite lastor_app2. cbn [lastor eqo]. rewrite Pos.eqb_refl.
      rewrite He. cbn [option_map prv]. rewrite Hp. cbn [prv nxt].
      eexists; eexists; split; [reflexivity|]. rewrite app_nil_r in *. split; [|split].
      * split; [exact Hnd'|]. cbn [lhead ltail]. rewrite lastor_app.
        split; [rewrite Hhd, !hdor_app; destruct l1'; reflexivity|]. split; [reflexivity|].
        rewrite seg_app. cbn [seg hdor]. usimp. split; [|auto].
        eapply seg_frame; [|exact Hsa]. intros a Ha. assert (a <> p) by congruence. usimp. reflexivity.
      * intros a Ha. rewrite in_app_iff in Ha. cbn in Ha. assert (a <> p) by intuition congruence. usimp. reflexivity.
      * domtac.
    + assert (Ht : eqo ent (ltail hd) = false).
      { rewrite Htl, lastor_app2. cbn [lastor].
        destruct (snoc_case (n :: l2)) as [|(z & w & Ez)]; [discriminate|].
        change (lastor (Some n) l2) with (lastor (Some ent) (n :: l2)). rewrite Ez, lastor_app. cbn [eqo].
        destruct (Pos.eqb_spec ent w) as [->|]; [|reflexivity].
        exfalso. apply He2. rewrite Ez. apply in_or_app. right. left. reflexivity. }
      rewrite Ht. rewrite He. cbn [option_map prv nxt hdor].
      cbn [seg] in Hs2. destruct Hs2 as [Hn Hs2].
      assert (Hne : n <> ent) by (intros ->; apply He2; left; reflexivity).
      assert (Hnp : n <> p) by (intros ->; apply Hpl2; left; reflexivity).
      assert (Hnl : ~ In n l1' /\ ~ In n l2).
      { assert (X := Hnd'). apply NoDup_mid in X. rewrite in_app_iff in X. tauto. }
      destruct Hnl as [Hnl1 Hnl2].
      rewrite Hn. usimp. rewrite He. cbn [option_map prv nxt hdor]. usimp. rewrite Hp. cbn [prv nxt].
      eexists; eexists; split; [reflexivity|]. split; [|split].
      * split; [exact Hnd'|].
        split; [rewrite Hhd, !hdor_app; destruct l1'; reflexivity|]. split; [rewrite Htl, !lastor_app2; reflexivity|].
        rewrite !seg_app. cbn [seg hdor]. rewrite lastor_app. usimp. split; [split; [|auto]|].
        -- eapply seg_frame; [|exact Hsa]. intros a Ha. assert (a <> p) by congruence. assert (a <> n) by congruence. usimp. reflexivity.
        -- split; [reflexivity|]. eapply seg_frame; [|exact Hs2]. intros a Ha. assert (a <> n) by congruence.
           assert (a <> p) by (intros ->; apply Hpl2; right; assumption). usimp. reflexivity.
      * intros a Ha. rewrite !in_app_iff in Ha. cbn in Ha.
        assert (a <> p) by intuition congruence. assert (a <> n) by intuition congruence. usimp. reflexivity.
      * domtac.
Qed.
