(** The repair after a removal. *)
From Verif Require Import Base Links LinksProofs Table Dict DictSpec DictTree DictInsert.
Open Scope Z_scope.

Fixpoint height (t : tree) : nat := match t with E => O | T _ l _ r => S (Nat.max (height l) (height r)) end.
Fixpoint hfits (c : list frame) (cap : nat) : Prop :=
  match c with [] => True | f :: c => (length c + 1 + height (fsib f) <= cap)%nat /\ hfits c cap end.

Lemma holds_toggle : forall d c b l i r, holds d c (T b l i r) -> exists d', toggle d (Some (iaddr i)) = Ret d' /\ holds d' c (T (negb b) l i r).
Proof.
  intros d c b l i r H. destruct (holds_red _ _ _ _ _ _ (negb b) H) as (d' & E1 & H1). exists d'. split; [|exact H1]. rewrite <- E1. destruct H as ((N0 & _) & _). unfold toggle, set_red, set_node. rewrite N0. reflexivity.
Qed.
Lemma get_red : forall d c b l i r, holds d c (T b l i r) -> is_red d (Some (iaddr i)) = Ret b.
Proof. intros d c b l i r H. unfold is_red. rewrite (holds_node _ _ _ _ _ _ H). reflexivity. Qed.
Lemma eqp_sym : forall p q, eqp p q = eqp q p. Proof. intros [a|] [b|]; cbn; try reflexivity. apply Pos.eqb_sym. Qed.
Lemma hole_sib : forall d f c t b l i r, holds d (f :: c) t -> fsib f = T b l i r -> eqp (Some (iaddr i)) (troot t) = false.
Proof.
  intros d f c t b l i r H S0. destruct t as [|tb tl ti tr]; [reflexivity|]. cbn [troot]. pose proof (hole_not_sib _ _ _ _ _ _ _ H) as X. rewrite S0 in X. exact X.
Qed.
Lemma top_path : forall c, top (path_of c) = parent c. Proof. intros [|f c]; reflexivity. Qed.
Lemma rb_red_nil : forall t n, rb t n -> tred t = true -> exists l i r, t = T true l i r /\ rb l n /\ rb r n /\ tred l = false /\ tred r = false.
Proof. intros [|b l i r] n R C; [discriminate|]. cbn in C. subst b. exists l, i, r. cbn in R. tauto. Qed.

(** The colour of the parent after the whole, and what the context expects. *)
Definition ctx_below (pb : bool) (c : list frame) (n : nat) : Prop := if pb then top_black c /\ rbc c n else rbc c (S n).

Lemma finish_left : forall d c pb pi x si y t n, holds d (FL pb pi (T false x si y) :: c) t -> rb t n -> rb x n -> rb y n -> tred y = true -> ctx_below pb c (S n) ->
  exists d', finish_remove d (troot t) (Some (iaddr pi)) (parent c) (Some (iaddr si)) = Ret d' /\ repaired d' (inorder (plug c (T pb t pi (T false x si y)))).
Proof.
  intros d c pb pi x si y t n H RT RX RY YR C. apply up_l in H. unfold finish_remove.
  rewrite (get_red _ _ _ _ _ _ (down_r _ _ _ _ _ _ H)), (get_red _ _ _ _ _ _ H). cbn [bind].
  assert (S1 : exists d1, (if Bool.eqb false pb then Ret d else toggle d (Some (iaddr si))) = Ret d1 /\ holds d1 c (T pb t pi (T pb x si y))).
  { destruct pb; cbn [Bool.eqb]; [|exists d; auto]. destruct (holds_toggle _ _ _ _ _ _ (down_r _ _ _ _ _ _ H)) as (d1 & E1 & H1). exists d1. split; [exact E1|]. exact (up_r _ _ _ _ _ _ H1). }
  destruct S1 as (d1 & E1 & H1). rewrite E1. cbn [bind]. destruct (holds_red _ _ _ _ _ _ false H1) as (d2 & E2 & H2). rewrite E2. cbn [bind]. rewrite (holds_node _ _ _ _ _ _ H2). cbn [bind n_left]. rewrite (holds_node _ _ _ _ _ _ (down_r _ _ _ _ _ _ H2)). cbn [bind n_right]. rewrite eqp_refl.
  destruct (rb_red_nil y n RY YR) as (yl & yi & yr & -> & R1 & R2 & B1 & B2). cbn [troot].
  destruct (holds_red _ _ _ _ _ _ false (down_r _ _ _ _ _ _ (down_r _ _ _ _ _ _ H2))) as (d3 & E3 & H3). rewrite E3. cbn [bind]. apply up_r, up_r in H3.
  destruct (holds_rl _ _ _ _ _ _ _ _ _ H3) as (d4 & E4 & H4). rewrite E4. exists d4. split; [reflexivity|].
  assert (I : inorder (plug c (T pb (T false t pi x) si (T false yl yi yr))) = inorder (plug c (T pb t pi (T false x si (T true yl yi yr))))) by (apply inorder_eq; io).
  destruct pb; cbn [ctx_below] in C.
  - apply (repaired_at _ c _ _ (S n) H4 I); [cbn; repeat split; eauto|tauto|tauto].
  - apply (repaired_at _ c _ _ (S (S n)) H4 I); [|exact C|discriminate]. cbn. exists (S n). repeat split; eauto.
Qed.
Lemma finish_right : forall d c pb pi x si y t n, holds d (FR pb (T false y si x) pi :: c) t -> rb t n -> rb x n -> rb y n -> tred y = true -> ctx_below pb c (S n) ->
  exists d', finish_remove d (troot t) (Some (iaddr pi)) (parent c) (Some (iaddr si)) = Ret d' /\ repaired d' (inorder (plug c (T pb (T false y si x) pi t))).
Proof.
  intros d c pb pi x si y t n H RT RX RY YR C. pose proof (hole_sib _ _ _ _ _ _ _ _ H eq_refl) as NE. rewrite eqp_sym in NE. apply up_r in H. unfold finish_remove.
  rewrite (get_red _ _ _ _ _ _ (down_l _ _ _ _ _ _ H)), (get_red _ _ _ _ _ _ H). cbn [bind].
  assert (S1 : exists d1, (if Bool.eqb false pb then Ret d else toggle d (Some (iaddr si))) = Ret d1 /\ holds d1 c (T pb (T pb y si x) pi t)).
  { destruct pb; cbn [Bool.eqb]; [|exists d; auto]. destruct (holds_toggle _ _ _ _ _ _ (down_l _ _ _ _ _ _ H)) as (d1 & E1 & H1). exists d1. split; [exact E1|]. exact (up_l _ _ _ _ _ _ H1). }
  destruct S1 as (d1 & E1 & H1). rewrite E1. cbn [bind]. destruct (holds_red _ _ _ _ _ _ false H1) as (d2 & E2 & H2). rewrite E2. cbn [bind]. rewrite (holds_node _ _ _ _ _ _ H2). cbn [bind n_left]. rewrite (holds_node _ _ _ _ _ _ (down_l _ _ _ _ _ _ H2)). cbn [bind n_left troot]. rewrite NE.
  destruct (rb_red_nil y n RY YR) as (yl & yi & yr & -> & R1 & R2 & B1 & B2). cbn [troot].
  destruct (holds_red _ _ _ _ _ _ false (down_l _ _ _ _ _ _ (down_l _ _ _ _ _ _ H2))) as (d3 & E3 & H3). rewrite E3. cbn [bind]. apply up_l, up_l in H3.
  destruct (holds_rr _ _ _ _ _ _ _ _ _ H3) as (d4 & E4 & H4). rewrite E4. exists d4. split; [reflexivity|].
  assert (I : inorder (plug c (T pb (T false yl yi yr) si (T false x pi t))) = inorder (plug c (T pb (T false (T true yl yi yr) si x) pi t))) by (apply inorder_eq; io).
  destruct pb; cbn [ctx_below] in C.
  - apply (repaired_at _ c _ _ (S n) H4 I); [cbn; repeat split; eauto|tauto|tauto].
  - apply (repaired_at _ c _ _ (S (S n)) H4 I); [|exact C|discriminate]. cbn. exists (S n). repeat split; eauto.
Qed.

Definition enough (fuel : nat) (c : list frame) : Prop :=
  match c with f :: _ => if fred f then (1 <= fuel)%nat else (length c + 2 <= fuel)%nat | [] => (1 <= fuel)%nat end.
Lemma fix_after_remove_spec : forall fuel cap c d t n, enough fuel c -> hfits c cap -> holds d c t -> rb t n -> rbc c (S n) ->
  exists d', fix_after_remove cap fuel d (troot t :: path_of c) = Ret d' /\ repaired d' (inorder (plug c t)).
Proof.
  induction fuel as [|fuel IH]; intros cap c d t n EN HF H RT C; [destruct c as [|f c]; cbn in EN; [lia|destruct (fred f); lia]|].
  cbn [fix_after_remove]. rewrite (rep_red d t) by apply H. cbn [bind]. destruct (tred t) eqn:TR.
  { destruct (rb_red_nil t n RT TR) as (l & i & r & -> & R1 & R2 & B1 & B2). cbn [troot]. destruct (holds_red _ _ _ _ _ _ false H) as (d' & E1 & H1). exists d'. split; [exact E1|].
    apply (repaired_at _ c _ _ (S n) H1); [apply inorder_eq; reflexivity|cbn; eauto|exact C|discriminate]. }
  destruct c as [|f c]; cbn [path_of map].
  { exists d. split; [reflexivity|]. apply (repaired_at _ [] t _ n H); [reflexivity|exact RT|exact Logic.I|congruence]. }
  rewrite (holds_frame _ _ _ _ H). cbn [bind]. fold (path_of c). rewrite top_path.
  cbn [rbc hfits] in C, HF. destruct C as (RS & C). destruct HF as (HB & HF).
  assert (CB : ctx_below (fred f) c (S n)). { unfold ctx_below. destruct (fred f); tauto. }
  destruct f as [pb pi s|pb s pi]; cbn [fsib fred fitem n_left n_right] in *.
  - (* the node is the left child *)
    rewrite eqp_refl. destruct s as [|sb sl si sr]; [discriminate RS|]. cbn [troot].
    assert (HS := up_l _ _ _ _ _ _ H). assert (HS' := down_r _ _ _ _ _ _ HS). rewrite (get_red _ _ _ _ _ _ HS'). cbn [bind]. destruct sb.
    + (* red sibling *)
      cbn [rb] in RS. destruct RS as (R1 & R2 & B1 & B2). destruct pb; [destruct C as (X & _); discriminate X|].
      destruct (holds_rl _ _ _ _ _ _ _ _ _ HS) as (d1 & E1 & H1). rewrite E1. cbn [bind]. destruct (holds_red _ _ _ _ _ _ false H1) as (d2 & E2 & H2). rewrite E2. cbn [bind].
      apply down_l in H2. destruct (holds_red _ _ _ _ _ _ true H2) as (d3 & E3 & H3). rewrite E3. cbn [bind]. apply down_l in H3.
      assert (HSL : (1 <= height sl)%nat) by (destruct sl; [discriminate R1|cbn; lia]). cbn [height] in HB.
      assert (LE : (length (troot t :: Some (iaddr pi) :: path_of c) <? cap)%nat = true). { apply Nat.ltb_lt. cbn [length]. unfold path_of. rewrite map_length. cbn in EN. lia. }
      rewrite LE. destruct (IH cap (FL true pi sl :: FL false si sr :: c) _ _ n ltac:(cbn in EN |- *; lia) ltac:(cbn [hfits fsib length]; split; [lia|split; [lia|exact HF]]) H3 RT) as (d4 & E4 & F4).
      { cbn [rbc fsib fred]. split; [exact R1|]. split; [exact B1|]. split; [reflexivity|]. split; [exact R2|]. exact C. }
      exists d4. split; [exact E4|]. replace (inorder (plug (FL false pi (T true sl si sr) :: c) t)) with (inorder (plug (FL true pi sl :: FL false si sr :: c) t)); [exact F4|]. cbn [plug fill]. apply inorder_eq. io.
    + (* black sibling *)
      cbn [rb] in RS. destruct RS as (m & EM & R1 & R2). injection EM as <-. rewrite (holds_node _ _ _ _ _ _ HS'). cbn [bind n_left n_right].
      assert (RPS : rep d sl /\ rep d sr) by (destruct HS' as (X & _); cbn in X; tauto). destruct RPS as (P1 & P2). rewrite (rep_red d sl P1), (rep_red d sr P2). cbn [bind]. rewrite ?eqp_refl. cbn [andb].
      destruct (tred sr) eqn:SR.
      * rewrite Bool.orb_true_r. cbn [negb]. pose proof (hole_sib _ _ _ _ _ _ _ _ H eq_refl) as NE. rewrite eqp_sym in NE. rewrite NE. cbn [andb bind].
        destruct (finish_left _ _ _ _ _ _ _ _ n H RT R1 R2 SR CB) as (d' & E1 & F1). exists d'. split; [exact E1|exact F1].
      * rewrite Bool.orb_false_r. cbn [negb]. destruct (tred sl) eqn:SL.
        -- destruct (rb_red_nil sl n R1 SL) as (a & ai & b & -> & Q1 & Q2 & Q3 & Q4). cbn [troot].
           destruct (holds_red _ _ _ _ _ _ true HS') as (d1 & E1 & H1). rewrite E1. cbn [bind]. destruct (holds_red _ _ _ _ _ _ false (down_l _ _ _ _ _ _ H1)) as (d2 & E2 & H2). rewrite E2. cbn [bind]. apply up_l in H2.
           destruct (holds_rr _ _ _ _ _ _ _ _ _ H2) as (d3 & E3 & H3). cbn [parent fitem] in E3. rewrite E3. cbn [bind]. apply up_r in H3. rewrite (holds_node _ _ _ _ _ _ H3). cbn [bind n_right troot].
           apply down_l in H3. destruct (finish_left _ _ _ _ _ _ _ _ n H3 RT Q1 ltac:(cbn; auto) eq_refl CB) as (d' & E4 & F4). exists d'. split; [exact E4|].
           replace (inorder (plug (FL pb pi (T false (T true a ai b) si sr) :: c) t)) with (inorder (plug c (T pb t pi (T false a ai (T true b si sr))))); [exact F4|]. cbn [plug fill]. apply inorder_eq. io.
        -- rewrite (get_red _ _ _ _ _ _ HS). cbn [bind]. destruct (holds_red _ _ _ _ _ _ true HS') as (d1 & E1 & H1). rewrite E1. cbn [bind]. apply up_r in H1. destruct pb.
           ++ destruct (holds_red _ _ _ _ _ _ false H1) as (d2 & E2 & H2). exists d2. split; [exact E2|]. apply (repaired_at _ c _ _ (S n) H2); [cbn [plug fill]; apply inorder_eq; io|cbn; exists n; repeat split; auto|apply CB|discriminate].
           ++ destruct (IH cap c d1 _ (S n) ltac:(destruct c as [|g c]; [cbn in *; lia|cbn [enough length fred] in EN |- *; destruct (fred g); lia]) HF H1) as (d2 & E2 & F2); [cbn; exists n; repeat split; auto|exact C|].
              exists d2. split; [exact E2|]. replace (inorder (plug (FL false pi (T false sl si sr) :: c) t)) with (inorder (plug c (T false t pi (T true sl si sr)))); [exact F2|]. cbn [plug fill]. apply inorder_eq. io.
  - (* the node is the right child *)
    destruct s as [|sb sl si sr]; [discriminate RS|]. cbn [troot]. pose proof (hole_sib _ _ _ _ _ _ _ _ H eq_refl) as NE. rewrite NE.
    assert (HS := up_r _ _ _ _ _ _ H). assert (HS' := down_l _ _ _ _ _ _ HS). rewrite (get_red _ _ _ _ _ _ HS'). cbn [bind]. destruct sb.
    + (* red sibling *)
      cbn [rb] in RS. destruct RS as (R1 & R2 & B1 & B2). destruct pb; [destruct C as (X & _); discriminate X|].
      destruct (holds_rr _ _ _ _ _ _ _ _ _ HS) as (d1 & E1 & H1). rewrite E1. cbn [bind]. destruct (holds_red _ _ _ _ _ _ false H1) as (d2 & E2 & H2). rewrite E2. cbn [bind].
      apply down_r in H2. destruct (holds_red _ _ _ _ _ _ true H2) as (d3 & E3 & H3). rewrite E3. cbn [bind]. apply down_r in H3.
      assert (HSL : (1 <= height sr)%nat) by (destruct sr; [discriminate R2|cbn; lia]). cbn [height] in HB.
      assert (LE : (length (troot t :: Some (iaddr pi) :: path_of c) <? cap)%nat = true). { apply Nat.ltb_lt. cbn [length]. unfold path_of. rewrite map_length. cbn in EN. lia. }
      rewrite LE. destruct (IH cap (FR true sr pi :: FR false sl si :: c) _ _ n ltac:(cbn in EN |- *; lia) ltac:(cbn [hfits fsib length]; split; [lia|split; [lia|exact HF]]) H3 RT) as (d4 & E4 & F4).
      { cbn [rbc fsib fred]. split; [exact R2|]. split; [exact B2|]. split; [reflexivity|]. split; [exact R1|]. exact C. }
      exists d4. split; [exact E4|]. replace (inorder (plug (FR false (T true sl si sr) pi :: c) t)) with (inorder (plug (FR true sr pi :: FR false sl si :: c) t)); [exact F4|]. cbn [plug fill]. apply inorder_eq. io.
    + (* black sibling *)
      cbn [rb] in RS. destruct RS as (m & EM & R1 & R2). injection EM as <-. rewrite (holds_node _ _ _ _ _ _ HS'). cbn [bind n_left n_right].
      assert (RPS : rep d sl /\ rep d sr) by (destruct HS' as (X & _); cbn in X; tauto). destruct RPS as (P1 & P2). rewrite (rep_red d sl P1), (rep_red d sr P2). cbn [bind]. rewrite (eqp_sym (troot t)), NE. cbn [andb]. rewrite eqp_refl. cbn [andb].
      destruct (tred sl) eqn:SL.
      * cbn [orb negb bind].
        destruct (finish_right _ _ _ _ _ _ _ _ n H RT R2 R1 SL CB) as (d' & E1 & F1). exists d'. split; [exact E1|exact F1].
      * cbn [orb negb]. destruct (tred sr) eqn:SR.
        -- destruct (rb_red_nil sr n R2 SR) as (a & ai & b & -> & Q1 & Q2 & Q3 & Q4). cbn [troot].
           destruct (holds_red _ _ _ _ _ _ true HS') as (d1 & E1 & H1). rewrite E1. cbn [bind]. destruct (holds_red _ _ _ _ _ _ false (down_r _ _ _ _ _ _ H1)) as (d2 & E2 & H2). rewrite E2. cbn [bind]. apply up_r in H2.
           destruct (holds_rl _ _ _ _ _ _ _ _ _ H2) as (d3 & E3 & H3). cbn [parent fitem] in E3. rewrite E3. cbn [bind]. apply up_l in H3. rewrite (holds_node _ _ _ _ _ _ H3). cbn [bind n_left troot].
           apply down_r in H3. destruct (finish_right _ _ _ _ _ _ _ _ n H3 RT Q2 ltac:(cbn; auto) eq_refl CB) as (d' & E4 & F4). exists d'. split; [exact E4|].
           replace (inorder (plug (FR pb (T false sl si (T true a ai b)) pi :: c) t)) with (inorder (plug c (T pb (T false (T true sl si a) ai b) pi t))); [exact F4|]. cbn [plug fill]. apply inorder_eq. io.
        -- rewrite (get_red _ _ _ _ _ _ HS). cbn [bind]. destruct (holds_red _ _ _ _ _ _ true HS') as (d1 & E1 & H1). rewrite E1. cbn [bind]. apply up_l in H1. destruct pb.
           ++ destruct (holds_red _ _ _ _ _ _ false H1) as (d2 & E2 & H2). exists d2. split; [exact E2|]. apply (repaired_at _ c _ _ (S n) H2); [cbn [plug fill]; apply inorder_eq; io|cbn; exists n; repeat split; auto|apply CB|discriminate].
           ++ destruct (IH cap c d1 _ (S n) ltac:(destruct c as [|g c]; [cbn in *; lia|cbn [enough length fred] in EN |- *; destruct (fred g); lia]) HF H1) as (d2 & E2 & F2); [cbn; exists n; repeat split; auto|exact C|].
              exists d2. split; [exact E2|]. replace (inorder (plug (FR false (T false sl si sr) pi :: c) t)) with (inorder (plug c (T false (T true sl si sr) pi t))); [exact F2|]. cbn [plug fill]. apply inorder_eq. io.
Qed.
