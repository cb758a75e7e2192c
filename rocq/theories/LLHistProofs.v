From Verif Require Import Base Links LinksProofs LLProofs LLSpec.

Lemma split_at (p : addr) l : In p l -> NoDup l -> exists l1 l2, l = l1 ++ p :: l2 /\ ~ In p l1.
Proof.
  intros Hin Hnd. apply in_split in Hin. destruct Hin as (l1 & l2 & ->).
  exists l1, l2. split; [reflexivity|]. apply NoDup_mid in Hnd. tauto.
Qed.
Lemma ins_before_eq p a l1 l2 : ~ In p l1 -> ins_before p a (l1 ++ p :: l2) = l1 ++ a :: p :: l2.
Proof.
  induction l1 as [|x l1 IH]; intros H; cbn [app ins_before].
  - rewrite Pos.eqb_refl. reflexivity.
  - destruct (Pos.eqb_spec x p) as [->|]; [exfalso; apply H; left; reflexivity|].
    rewrite IH; [reflexivity|]. intros X; apply H; right; exact X.
Qed.
Lemma ins_after_eq p a l1 l2 : ~ In p l1 -> ins_after p a (l1 ++ p :: l2) = l1 ++ p :: a :: l2.
Proof.
  induction l1 as [|x l1 IH]; intros H; cbn [app ins_after].
  - rewrite Pos.eqb_refl. reflexivity.
  - destruct (Pos.eqb_spec x p) as [->|]; [exfalso; apply H; left; reflexivity|].
    rewrite IH; [reflexivity|]. intros X; apply H; right; exact X.
Qed.
Lemma del_eq a l1 l2 : ~ In a l1 -> del a (l1 ++ a :: l2) = l1 ++ l2.
Proof.
  induction l1 as [|x l1 IH]; intros H; cbn [app del].
  - rewrite Pos.eqb_refl. reflexivity.
  - destruct (Pos.eqb_spec x a) as [->|]; [exfalso; apply H; left; reflexivity|].
    rewrite IH; [reflexivity|]. intros X; apply H; right; exact X.
Qed.

Definition linv (used l : list addr) (s : lheap * lhdr) : Prop :=
  dll (fst s) (snd s) l /\ (forall a, In a l -> In a used) /\ (forall a, fst s a <> None) /\
  (forall a, ~ In a used -> fst s a = Some (mklnk None None)).

Lemma linv_of_ok used l l' s r touched new :
  linv used l s -> op_ok (fst s) r touched l' ->
  (forall a, In a touched -> In a (new ++ used)) -> (forall a, In a l' -> In a (new ++ used)) ->
  exists s', r = Some s' /\ linv (new ++ used) l' s'.
Proof.
  intros (Hd & Hl & Hal & Hfr) (h' & hd' & -> & Hd' & Hframe & Hdom) Ht Hl'.
  exists (h', hd'). split; [reflexivity|]. split; [exact Hd'|]. cbn [fst snd]. split; [exact Hl'|].
  split; [intros a Ha; apply Hdom in Ha; exact (Hal a Ha)|].
  intros a Ha. rewrite Hframe; [apply Hfr; intros X; apply Ha, in_or_app; right; exact X|].
  intros X. apply Ha, Ht, X.
Qed.

Lemma lstep_spec used l s o : linv used l s -> lvalid true used l o ->
  exists s', lstep s o = Some s' /\ linv (lused used o) (lspec l o) s'.
Proof.
  intros Hi Hv. assert (Hi0 := Hi). destruct s as [h hd]. destruct Hi as (Hd & Hl & Hal & Hfr). cbn [fst snd] in *.
  assert (Happ : forall a, ~ In a l -> exists s', ll_append h hd a = Some s' /\ linv (a :: used) (l ++ [a]) s').
  { intros a Ha. apply (linv_of_ok used l (l ++ [a]) (h, hd) (ll_append h hd a) (a :: l) [a] Hi0).
    - apply ll_append_spec; auto.
    - cbn. intros x [->|Hx]; [left; reflexivity|right; apply Hl, Hx].
    - cbn. intros x Hx. rewrite in_app_iff in Hx. cbn in Hx. intuition auto. }
  assert (Hnd : NoDup l) by apply Hd.
  destruct o as [a|a|[p|] a|[p|] a|a]; cbn [lvalid lspec lused lstep ll_insert_before ll_insert_after] in *; auto.
  - apply (linv_of_ok used l (a :: l) (h, hd) (ll_prepend h hd a) (a :: l) [a] Hi0).
    + apply ll_prepend_spec; auto.
    + cbn. intros x [->|Hx]; [left; reflexivity|right; apply Hl, Hx].
    + cbn. intros x [->|Hx]; [left; reflexivity|right; apply Hl, Hx].
  - destruct Hv as (Ha & Hp & Hu). specialize (Hu eq_refl).
    destruct (split_at p l Hp Hnd) as (l1 & l2 & -> & Hp1). rewrite ins_before_eq by exact Hp1.
    pose proof (ll_insert_before_spec h hd l1 (p :: l2) a (mklnk None None) Hd Ha (Hfr a Hu)) as S.
    cbn [hdor] in S. specialize (S (or_intror (or_intror eq_refl))).
    apply (linv_of_ok used _ _ (h, hd) _ _ [a] Hi0 S).
    + cbn. intros x [->|Hx]; [left; reflexivity|right; apply Hl, Hx].
    + cbn. intros x Hx. rewrite in_app_iff in Hx. cbn in Hx.
      destruct Hx as [Hx|[->|Hx]]; [right; apply Hl, in_or_app; left; exact Hx|left; reflexivity|].
      right. apply Hl, in_or_app. right. exact Hx.
  - destruct Hv as (Ha & Hp & Hu). specialize (Hu eq_refl).
    destruct (split_at p l Hp Hnd) as (l1 & l2 & -> & Hp1). rewrite ins_after_eq by exact Hp1.
    pose proof (ll_insert_after_spec h hd l1 p l2 a (mklnk None None) Hd Ha (Hfr a Hu) (or_intror eq_refl)) as S.
    apply (linv_of_ok used _ _ (h, hd) _ _ [a] Hi0 S).
    + cbn. intros x [->|Hx]; [left; reflexivity|right; apply Hl, Hx].
    + cbn. intros x Hx. rewrite in_app_iff in Hx. cbn in Hx.
      destruct Hx as [Hx|[->|[->|Hx]]]; [right; apply Hl, in_or_app; left; exact Hx| |left; reflexivity|].
      * right. apply Hl, in_or_app. right. left. reflexivity.
      * right. apply Hl, in_or_app. right. right. exact Hx.
  - destruct (split_at a l Hv Hnd) as (l1 & l2 & -> & Hp1). rewrite del_eq by exact Hp1.
    pose proof (ll_delete_spec h hd l1 l2 a Hd) as S.
    assert (Hin : forall x, In x (l1 ++ l2) -> In x used).
    { intros x Hx. apply Hl. rewrite in_app_iff in *. cbn. tauto. }
    apply (linv_of_ok used _ _ (h, hd) _ _ [] Hi0 S); cbn; exact Hin.
Qed.

Lemma linv_init : linv [] [] linit.
Proof. unfold linv, linit, dll. cbn. repeat split; auto; try constructor; try congruence; contradiction. Qed.

Lemma lrun_spec : forall ops used l s, linv used l s -> lhistory true used l ops ->
  exists s', lrun s ops = Some s' /\ linv (fold_left lused ops used) (fold_left lspec ops l) s'.
Proof.
  induction ops as [|o ops IH]; intros used l s Hi Hh; cbn [lrun fold_left].
  - exists s. auto.
  - destruct Hh as [Hv Hh]. destruct (lstep_spec _ _ _ _ Hi Hv) as (s1 & E & Hi1). rewrite E. eauto.
Qed.

Lemma ll_history_lemma ops : lhistory true [] [] ops ->
  let l := fold_left lspec ops [] in
  exists h hd, lrun linit ops = Some (h, hd) /\
    forall fuel, (length l <= fuel)%nat ->
      walk_next fuel h (lhead hd) = Some l /\ walk_prev fuel h (ltail hd) = Some (rev l).
Proof.
  intros Hh l. destruct (lrun_spec ops _ _ _ linv_init Hh) as ([h hd] & E & Hi).
  exists h, hd. split; [exact E|]. destruct Hi as ((Hnd & Hhd & Htl & Hs) & _). cbn [fst snd] in *.
  intros fuel Hf. rewrite Hhd, Htl. split; [eapply walk_next_seg; eauto|eapply walk_prev_seg; eauto].
Qed.

Lemma walk_prev_cycle h (S : addr -> Prop) :
  (forall a, S a -> exists b, get_prv h a = Some (Some b) /\ S b) ->
  forall fuel a, S a -> walk_prev fuel h (Some a) = None.
Proof.
  intros HS. induction fuel as [|f IH]; intros a Ha; [reflexivity|].
  destruct (HS a Ha) as (b & E & Hb). cbn [walk_prev]. rewrite E, (IH b Hb). reflexivity.
Qed.
Lemma walk_next_cycle h (S : addr -> Prop) :
  (forall a, S a -> exists b, get_nxt h a = Some (Some b) /\ S b) ->
  forall fuel a, S a -> walk_next fuel h (Some a) = None.
Proof.
  intros HS. induction fuel as [|f IH]; intros a Ha; [reflexivity|].
  destruct (HS a Ha) as (b & E & Hb). cbn [walk_next]. rewrite E, (IH b Hb). reflexivity.
Qed.
