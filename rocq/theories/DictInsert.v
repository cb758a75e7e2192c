(** Red-black trees and the repair after an insertion. *)
From Verif Require Import Base Links LinksProofs Table Dict DictSpec DictTree.
Open Scope Z_scope.

Fixpoint rb (t : tree) (n : nat) : Prop :=
  match t with
  | E => n = O
  | T red l _ r => if red then rb l n /\ rb r n /\ tred l = false /\ tred r = false else exists m, n = S m /\ rb l m /\ rb r m
  end.
Definition top_black (c : list frame) : Prop := match c with [] => False | f :: _ => fred f = false end.
Fixpoint rbc (c : list frame) (n : nat) : Prop :=
  match c with
  | [] => True
  | f :: c => rb (fsib f) n /\ (if fred f then tred (fsib f) = false /\ top_black c /\ rbc c n else rbc c (S n))
  end.
Definition redblack (t : tree) : Prop := tred t = false /\ exists n, rb t n.
Lemma rb_plug : forall c t n, rb t n -> rbc c n -> (tred t = true -> top_black c) -> redblack (plug c t).
Proof.
  induction c as [|f c IH]; intros t n R C B; cbn [plug rbc] in *.
  - split; [|exists n; exact R]. destruct (tred t); [destruct (B eq_refl)|reflexivity].
  - destruct C as [S0 C]. destruct f as [[] i r|[] l i]; cbn [fred fsib fill] in *.
    + destruct C as (S1 & TB & C). apply (IH _ n); [|exact C|intros _; exact TB]. cbn [rb]. split; [exact R|]. split; [exact S0|]. split; [|exact S1]. destruct (tred t); [discriminate (B eq_refl)|reflexivity].
    + apply (IH _ (S n)); [|exact C|discriminate]. cbn [rb]. exists n. auto.
    + destruct C as (S1 & TB & C). apply (IH _ n); [|exact C|intros _; exact TB]. cbn [rb]. split; [exact S0|]. split; [exact R|]. split; [exact S1|]. destruct (tred t); [discriminate (B eq_refl)|reflexivity].
    + apply (IH _ (S n)); [|exact C|discriminate]. cbn [rb]. exists n. auto.
Qed.
Lemma rb_unplug : forall c t, redblack (plug c t) -> exists n, rb t n /\ rbc c n /\ (tred t = true -> top_black c).
Proof.
  induction c as [|f c IH]; intros t R; cbn [plug rbc] in *.
  - destruct R as (B & n & R). exists n. split; [exact R|]. split; [exact Logic.I|congruence].
  - destruct (IH _ R) as (n & R' & C & TB). destruct f as [[] i r|[] l i]; cbn [fred fsib fill rb tred top_black] in *.
    + destruct R' as (A & B & C1 & C2). exists n. split; [exact A|]. split; [|congruence]. split; [exact B|]. auto.
    + destruct R' as (m & -> & A & B). exists m. auto.
    + destruct R' as (A & B & C1 & C2). exists n. split; [exact B|]. split; [|congruence]. split; [exact A|]. auto.
    + destruct R' as (m & -> & A & B). exists m. auto.
Qed.

Lemma holds_ext : forall d d' c t, (forall x, nodes d' x = nodes d x) -> root d' = root d -> holds d c t -> holds d' c t.
Proof. intros d d' c t N0 R (A & B & C). split; [apply (rep_same t d); auto|]. split; [apply (repc_same c d); auto|exact C]. Qed.
Lemma rep_red : forall d t, rep d t -> red_and_there d (troot t) = Ret (tred t).
Proof. intros d [|b l i r] R; [reflexivity|]. destruct R as (N0 & _). cbn [troot red_and_there is_red]. unfold is_red, get_node. rewrite N0. reflexivity. Qed.
Lemma sib_rep : forall d f c t, holds d (f :: c) t -> rep d (fsib f).
Proof. intros d [b i r|b l i] c t (_ & R & _); cbn in *; tauto. Qed.
Lemma sib_red : forall d f c t, holds d (f :: c) t -> red_and_there d (troot (fsib f)) = Ret (tred (fsib f)).
Proof. intros. apply rep_red. eapply sib_rep. eassumption. Qed.
(** Changing the colour of a frame or of its sibling. *)
Definition frecol (f : frame) (b : bool) : frame := match f with FL _ i r => FL b i r | FR _ l i => FR b l i end.
Definition fresib (f : frame) (t : tree) : frame := match f with FL b i _ => FL b i t | FR b _ i => FR b t i end.
Definition recol (t : tree) (b : bool) : tree := match t with E => E | T _ l i r => T b l i r end.
Lemma holds_fred : forall d f c t b, holds d (f :: c) t -> exists d', set_red d (Some (iaddr (fitem f))) b = Ret d' /\ holds d' (frecol f b :: c) t.
Proof.
  intros d f c t b H. apply holds_fill in H. destruct f as [b0 i r|b0 l i]; destruct (holds_red _ _ _ _ _ _ b H) as (d' & E1 & H1); exists d'; (split; [exact E1|]); apply holds_fill; exact H1.
Qed.
Lemma holds_sred : forall d f c t b, fsib f <> E -> holds d (f :: c) t -> exists d', set_red d (troot (fsib f)) b = Ret d' /\ holds d' (fresib f (recol (fsib f) b) :: c) t.
Proof.
  intros d f c t b NE H. apply holds_fill in H. destruct f as [b0 i [|b1 sl si sr]|b0 [|b1 sl si sr] i]; cbn [fsib] in *; try congruence; cbn [fill] in H.
  - apply holds_right in H. destruct (holds_red _ _ _ _ _ _ b H) as (d' & E1 & H1). exists d'. split; [exact E1|]. apply holds_right in H1. apply holds_left in H1. exact H1.
  - apply holds_left in H. destruct (holds_red _ _ _ _ _ _ b H) as (d' & E1 & H1). exists d'. split; [exact E1|]. apply holds_left in H1. apply holds_right in H1. exact H1.
Qed.
(** Pointers are told apart. *)
Lemma hole_not_sib : forall d f c b l i r, holds d (f :: c) (T b l i r) -> eqp (troot (fsib f)) (Some (iaddr i)) = false.
Proof. intros d f c b l i r H. destruct (holds_own _ _ _ _ _ _ H) as (_ & _ & A). apply troot_ne. rewrite cnt_frame in A. pose proof (cnt_pos (iaddr i) (inorder (fsib f))). pose proof (cnt_pos (iaddr i) (citems c)). destruct (Pos.eqb _ _); lia. Qed.
Lemma hole_not_cousin : forall d f g c b l i r, holds d (f :: g :: c) (T b l i r) -> forall b' l' i' r', fsib g = T b' l' i' r' -> eqp (troot l') (Some (iaddr i)) = false /\ eqp (troot r') (Some (iaddr i)) = false.
Proof.
  intros d f g c b l i r H b' l' i' r' S0. destruct (holds_own _ _ _ _ _ _ H) as (_ & _ & A). rewrite !cnt_frame, S0, cnt_node in A. pose proof (cnt_pos (iaddr i) (inorder (fsib f))). pose proof (cnt_pos (iaddr i) (citems c)).
  pose proof (cnt_pos (iaddr i) (inorder l')). pose proof (cnt_pos (iaddr i) (inorder r')). split; apply troot_ne; repeat destruct (Pos.eqb _ _); lia.
Qed.
Lemma inorder_eq : forall c t t', inorder t = inorder t' -> inorder (plug c t) = inorder (plug c t').
Proof. intros c t t' H. rewrite !inorder_plug, H. reflexivity. Qed.

Lemma get_sib : forall d f c t b l i r, holds d (f :: c) t -> fsib f = T b l i r -> get_node d (Some (iaddr i)) = Ret (mkn (troot l) (troot r) b (ikey i) (ival i)).
Proof. intros d f c t b l i r H S0. pose proof (sib_rep _ _ _ _ H) as R. rewrite S0 in R. destruct R as (N0 & _). unfold get_node. rewrite N0. reflexivity. Qed.

Definition repaired (d' : dict) (l : list item) : Prop := exists t', holds d' [] t' /\ inorder t' = l /\ redblack t'.
Lemma repaired_at : forall d c t l n, holds d c t -> inorder (plug c t) = l -> rb t n -> rbc c n -> (tred t = true -> top_black c) -> repaired d l.
Proof. intros d c t l n H I R C B. exists (plug c t). split; [apply (holds_whole d c t); exact H|]. split; [exact I|]. eapply rb_plug; eassumption. Qed.
Ltac io := rewrite ?inorder_plug; cbn [plug inorder fill]; rewrite <- ?app_assoc; cbn [app]; rewrite <- ?app_assoc; reflexivity.

Ltac rframe H := let X := fresh in pose proof (holds_frame _ _ _ _ H) as X; cbn [fitem troot] in X; rewrite X; clear X.
Ltac rsib H := let X := fresh in pose proof (hole_not_sib _ _ _ _ _ _ _ H) as X; cbn [fsib] in X; rewrite X; clear X.
Lemma fix_after_insert_spec : forall N c, (length c <= N)%nat -> forall d l i r n, holds d c (T true l i r) ->
  rb l n -> rb r n -> tred l = false -> tred r = false -> rbc c n ->
  exists d', fix_after_insert d (Some (iaddr i) :: path_of c) = Ret d' /\ repaired d' (inorder (plug c (T true l i r))).
Proof.
  induction N as [|N IH]; intros c L d l i r n H RL RR BL BR C.
  - destruct c; [|cbn in L; lia]. cbn [path_of map fix_after_insert]. destruct (holds_red _ _ _ _ _ _ false H) as (d' & E1 & H1). rewrite E1. cbn [bind]. eexists. split; [reflexivity|].
    apply (repaired_at _ [] (T false l i r) _ (S n)); [|reflexivity|cbn; eauto|exact Logic.I|discriminate]. destruct H1 as (A & B & O). cbn [repc troot] in B. apply (holds_ext d'); [reflexivity|cbn; congruence|]. split; [exact A|]. split; [exact B|exact O].
  - destruct c as [|f c]; [apply (IH [] ltac:(cbn; lia) d l i r n); assumption|]. cbn [path_of map]. cbn [fix_after_insert].
    assert (PR : is_red d (Some (iaddr (fitem f))) = Ret (fred f)). { unfold is_red. rewrite (holds_frame _ _ _ _ H). destruct f; reflexivity. }
    rewrite PR. cbn [bind]. destruct (fred f) eqn:FR0; cbn [negb].
    2:{ exists d. split; [reflexivity|]. eapply (repaired_at _ (f :: c) _ _ n); [exact H|reflexivity|cbn; auto|exact C|intros _; exact FR0]. }
    cbn [rbc] in C. rewrite FR0 in C. destruct C as (FS & FB & TB & C). destruct c as [|g c]; [destruct TB|]. cbn [top_black] in TB. cbn [map rbc] in *. rewrite TB in C. destruct C as (GS & C).
    assert (HP := H). apply holds_fill in HP. rewrite (holds_frame _ _ _ _ HP). cbn [bind].
    pose proof (sib_red _ _ _ _ HP) as UR.
    assert (UNC : (if eqp (n_left match g with FL b j r0 => mkn (troot (fill f (T true l i r))) (troot r0) b (ikey j) (ival j) | FR b l0 j => mkn (troot l0) (troot (fill f (T true l i r))) b (ikey j) (ival j) end) (Some (iaddr (fitem f)))
                   then n_right match g with FL b j r0 => mkn (troot (fill f (T true l i r))) (troot r0) b (ikey j) (ival j) | FR b l0 j => mkn (troot l0) (troot (fill f (T true l i r))) b (ikey j) (ival j) end
                   else n_left match g with FL b j r0 => mkn (troot (fill f (T true l i r))) (troot r0) b (ikey j) (ival j) | FR b l0 j => mkn (troot l0) (troot (fill f (T true l i r))) b (ikey j) (ival j) end) = troot (fsib g)).
    { assert (X : troot (fill f (T true l i r)) = Some (iaddr (fitem f))) by (destruct f; reflexivity). rewrite X. destruct g as [b j r0|b l0 j]; cbn [n_left n_right fsib].
      - rewrite eqp_refl. reflexivity.
      - destruct f as [b1 j1 r1|b1 l1 j1]; cbn [fill fitem] in *; pose proof (hole_not_sib _ _ _ _ _ _ _ HP) as Y; cbn [fsib] in Y; rewrite Y; reflexivity. }
    rewrite UNC. clear UNC. rewrite UR. cbn [bind]. destruct (tred (fsib g)) eqn:UC; cbn [negb].
    + (* red uncle *)
      destruct (holds_fred _ _ _ _ false H) as (d1 & E1 & H1). rewrite E1. cbn [bind]. apply holds_fill in H1.
      destruct (holds_sred _ _ _ _ false ltac:(intros X; rewrite X in UC; discriminate) H1) as (d2 & E2 & H2). rewrite E2. cbn [bind].
      destruct (holds_fred _ _ _ _ true H2) as (d3 & E3 & H3). assert (GA : fitem (fresib g (recol (fsib g) false)) = fitem g) by (destruct g; reflexivity). rewrite GA in E3. rewrite E3. cbn [bind].
      apply holds_fill in H3.
      assert (US : rb (recol (fsib g) false) (S n)). { destruct (fsib g) as [|b sl si sr]; [discriminate UC|]. cbn in UC. subst b. cbn in GS. cbn. exists n. tauto. }
      assert (PS : rb (fill (frecol f false) (T true l i r)) (S n)). { destruct f as [b j r0|b l0 j]; cbn [fsib frecol fill rb] in *; exists n; tauto. }
      destruct g as [b j r0|b l0 j]; cbn [fresib frecol fsib fill fitem] in *.
      * destruct (IH c ltac:(cbn in L; lia) d3 _ _ _ (S n) H3) as (d4 & E4 & F4); [exact PS|exact US|destruct f; reflexivity|destruct r0; reflexivity|exact C|].
        exists d4. split; [exact E4|]. replace (inorder (plug (f :: FL b j r0 :: c) (T true l i r))) with (inorder (plug c (T true (fill (frecol f false) (T true l i r)) j (recol r0 false)))); [exact F4|].
        cbn [plug]. apply inorder_eq. destruct f; destruct r0; cbn [fill frecol inorder recol]; reflexivity.
      * destruct (IH c ltac:(cbn in L; lia) d3 _ _ _ (S n) H3) as (d4 & E4 & F4); [exact US|exact PS|destruct l0; reflexivity|destruct f; reflexivity|exact C|].
        exists d4. split; [exact E4|]. replace (inorder (plug (f :: FR b l0 j :: c) (T true l i r))) with (inorder (plug c (T true (recol l0 false) j (fill (frecol f false) (T true l i r))))); [exact F4|].
        cbn [plug]. apply inorder_eq. destruct f; destruct l0; cbn [fill frecol inorder recol]; reflexivity.
    + (* black uncle *)
      assert (GG : top (map (fun f0 => Some (iaddr (fitem f0))) c) = parent c) by (destruct c; reflexivity). rewrite GG. clear GG.
      destruct g as [gb gi u|gb u gi]; cbn [fred fsib fitem] in *; subst gb; destruct f as [fb pi s|fb s pi]; cbn [fred fsib fitem fill troot n_left n_right] in *; subst fb.
      * (* left left *)
        rframe H. cbn [bind n_right]. rsib H.
        assert (IR : match troot u with None => Ret false | Some _ => let* x := get_node d (troot u) in Ret (eqp (n_left x) (Some (iaddr i))) end = Ret false).
        { destruct u as [|ub ul ui ur]; [reflexivity|]. cbn [troot]. rewrite (get_sib _ _ _ _ ub ul ui ur HP eq_refl). cbn [bind n_left]. destruct (hole_not_cousin _ _ _ _ _ _ _ _ H ub ul ui ur eq_refl) as [X _]. rewrite X. reflexivity. }
        rewrite IR. cbn [bind]. rframe H. cbn [bind n_left troot]. rewrite eqp_refl.
        apply holds_left in HP. destruct (holds_rr _ _ _ _ _ _ _ _ _ HP) as (d1 & E1 & H1). rewrite E1. cbn [bind].
        destruct (holds_red _ _ _ _ _ _ false H1) as (d2 & E2 & H2). rewrite E2. cbn [bind]. apply holds_right in H2. destruct (holds_red _ _ _ _ _ _ true H2) as (d3 & E3 & H3). rewrite E3. apply holds_right in H3. exists d3. split; [reflexivity|].
        eapply (repaired_at _ c _ _ (S n) H3); [cbn [plug fill]; apply inorder_eq; io|cbn; exists n; tauto|exact C|discriminate].
      * (* left right *)
        rframe H. cbn [bind n_right troot]. rewrite eqp_refl.
        destruct (holds_rl _ _ _ _ _ _ _ _ _ HP) as (d1 & E1 & H1). cbn [parent fitem] in E1. rewrite E1. cbn [bind]. rewrite (holds_node _ _ _ _ _ _ H1). cbn [bind n_left troot]. rewrite (holds_node _ _ _ _ _ _ H1). cbn [bind n_left troot]. rewrite eqp_refl.
        apply holds_left in H1. destruct (holds_rr _ _ _ _ _ _ _ _ _ H1) as (d2 & E2 & H2). rewrite E2. cbn [bind].
        destruct (holds_red _ _ _ _ _ _ false H2) as (d3 & E3 & H3). rewrite E3. cbn [bind]. apply holds_right in H3. destruct (holds_red _ _ _ _ _ _ true H3) as (d4 & E4 & H4). rewrite E4. apply holds_right in H4. exists d4. split; [reflexivity|].
        eapply (repaired_at _ c _ _ (S n) H4); [cbn [plug fill]; apply inorder_eq; io|cbn; exists n; tauto|exact C|discriminate].
      * (* right left *)
        assert (IL : match troot u with None => Ret false | Some _ => let* x := get_node d (troot u) in Ret (eqp (n_right x) (Some (iaddr i))) end = Ret false).
        { destruct u as [|ub ul ui ur]; [reflexivity|]. cbn [troot]. rewrite (get_sib _ _ _ _ ub ul ui ur HP eq_refl). cbn [bind n_right]. destruct (hole_not_cousin _ _ _ _ _ _ _ _ H ub ul ui ur eq_refl) as [_ X]. rewrite X. reflexivity. }
        rewrite IL. cbn [bind]. rframe H. cbn [bind n_left troot]. rewrite eqp_refl. cbn [bind].
        destruct (holds_rr _ _ _ _ _ _ _ _ _ HP) as (d1 & E1 & H1). cbn [parent fitem] in E1. rewrite E1. cbn [bind]. rewrite (holds_node _ _ _ _ _ _ H1). cbn [bind n_right troot]. rewrite (holds_node _ _ _ _ _ _ H1). cbn [bind n_left troot].
        assert (NEQ : eqp (troot l) (Some (iaddr pi)) = false). { apply troot_ne. destruct (holds_own _ _ _ _ _ _ (down_r _ _ _ _ _ _ H1)) as (_ & _ & A). rewrite cnt_frame in A. cbn [fitem fsib] in A. pose proof (cnt_pos (iaddr pi) (inorder l)). pose proof (cnt_pos (iaddr pi) (citems (FR false u gi :: c))). destruct (Pos.eqb _ _); lia. }
        rewrite NEQ. apply holds_right in H1. destruct (holds_rl _ _ _ _ _ _ _ _ _ H1) as (d2 & E2 & H2). rewrite E2. cbn [bind].
        destruct (holds_red _ _ _ _ _ _ false H2) as (d3 & E3 & H3). rewrite E3. cbn [bind]. apply holds_left in H3. destruct (holds_red _ _ _ _ _ _ true H3) as (d4 & E4 & H4). rewrite E4. apply holds_left in H4. exists d4. split; [reflexivity|].
        eapply (repaired_at _ c _ _ (S n) H4); [cbn [plug fill]; apply inorder_eq; io|cbn; exists n; tauto|exact C|discriminate].
      * (* right right *)
        assert (IL : match troot u with None => Ret false | Some _ => let* x := get_node d (troot u) in Ret (eqp (n_right x) (Some (iaddr i))) end = Ret false).
        { destruct u as [|ub ul ui ur]; [reflexivity|]. cbn [troot]. rewrite (get_sib _ _ _ _ ub ul ui ur HP eq_refl). cbn [bind n_right]. destruct (hole_not_cousin _ _ _ _ _ _ _ _ H ub ul ui ur eq_refl) as [_ X]. rewrite X. reflexivity. }
        rewrite IL. cbn [bind]. rframe H. cbn [bind n_left]. rsib H. cbn [bind]. rframe H. cbn [bind n_left]. rsib H.
        apply holds_right in HP. destruct (holds_rl _ _ _ _ _ _ _ _ _ HP) as (d1 & E1 & H1). rewrite E1. cbn [bind].
        destruct (holds_red _ _ _ _ _ _ false H1) as (d2 & E2 & H2). rewrite E2. cbn [bind]. apply holds_left in H2. destruct (holds_red _ _ _ _ _ _ true H2) as (d3 & E3 & H3). rewrite E3. apply holds_left in H3. exists d3. split; [reflexivity|].
        eapply (repaired_at _ c _ _ (S n) H3); [cbn [plug fill]; apply inorder_eq; io|cbn; exists n; tauto|exact C|discriminate].
Qed.
