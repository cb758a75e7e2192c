(** Exchanging a node with its successor. *)
From Verif Require Import Base Links LinksProofs Table Dict DictSpec DictTree DictInsert DictRemove.
Open Scope Z_scope.

Fixpoint segr (d : dict) (c : list frame) (p : ptr) : Prop :=
  match c with [] => True | f :: c => fnode d f p /\ segr d c (Some (iaddr (fitem f))) end.
Fixpoint outer (c : list frame) (p : ptr) : ptr := match c with [] => p | f :: c => outer c (Some (iaddr (fitem f))) end.
Lemma repc_app : forall c1 c2 d p, repc d (c1 ++ c2) p <-> segr d c1 p /\ repc d c2 (outer c1 p).
Proof. induction c1 as [|f c1 IH]; intros c2 d p; cbn [app repc segr outer]; [tauto|]. rewrite IH. tauto. Qed.
Lemma segr_same : forall c d d' p, (forall x, 0 < cnt x (citems c) -> nodes d' x = nodes d x) -> segr d c p -> segr d' c p.
Proof.
  induction c as [|f c IH]; intros d d' p S0 R; cbn [segr] in *; [exact Logic.I|]. destruct R as [F R]. split.
  - apply (fnode_same f d); [| |exact F].
    + apply S0. rewrite cnt_frame, Pos.eqb_refl. pose proof (cnt_pos (iaddr (fitem f)) (inorder (fsib f))). pose proof (cnt_pos (iaddr (fitem f)) (citems c)). lia.
    + intros x H. apply S0. rewrite cnt_frame. pose proof (cnt_pos x (citems c)). destruct (Pos.eqb _ _); lia.
  - apply (IH d); [|exact R]. intros x H. apply S0. rewrite cnt_frame. pose proof (cnt_pos x (inorder (fsib f))). destruct (Pos.eqb _ _); lia.
Qed.
Lemma cnt_citems_app : forall c1 c2 x, cnt x (citems (c1 ++ c2)) = cnt x (citems c1) + cnt x (citems c2).
Proof. induction c1 as [|f c1 IH]; intros c2 x; [reflexivity|]. cbn [app]. rewrite !cnt_frame, IH. lia. Qed.
Lemma troot_plug : forall c t p, c <> [] -> troot (plug c t) = outer c p.
Proof.
  induction c as [|f c IH]; intros t p NE; [congruence|]. cbn [plug outer]. destruct c as [|g c]; [destruct f; reflexivity|]. apply IH. discriminate.
Qed.
Lemma rep_plug_segr : forall c d t, rep d (plug c t) <-> rep d t /\ segr d c (troot t).
Proof. induction c as [|f c IH]; intros d t; cbn [plug segr]; [tauto|]. rewrite IH. destruct f as [b i r|b l i]; cbn [fill rep fnode troot fitem]; tauto. Qed.

Definition is_left (f : frame) : Prop := match f with FL _ _ _ => True | FR _ _ _ => False end.
Lemma leftmost_spec : forall t d room path, rep d t -> t <> E -> (height t <= room)%nat ->
  exists c b j r, t = plug c (T b E j r) /\ Forall is_left c /\ leftmost_path d room path (troot t) = Ret (Some (iaddr j) :: path_of c ++ path).
Proof.
  induction t as [|b l IHl i r IHr]; intros d room path R NE H; [congruence|]. cbn [height] in H. destruct room as [|room]; [lia|]. cbn [troot leftmost_path]. cbn [rep] in R. destruct R as (N0 & RL & RR).
  unfold get_node. rewrite N0. cbn [ub_none bind n_left]. destruct l as [|b1 l1 i1 r1].
  - exists [], b, i, r. split; [reflexivity|]. split; [constructor|]. cbn [troot]. destruct room; reflexivity.
  - destruct (IHl d room (Some (iaddr i) :: path) RL ltac:(discriminate) ltac:(lia)) as (c & b' & j & r' & E1 & F & P). exists (c ++ [FL b i r]), b', j, r'. split; [rewrite plug_app, <- E1; reflexivity|]. split; [apply Forall_app; split; [exact F|repeat constructor]|].
    change (Some (iaddr i1)) with (troot (T b1 l1 i1 r1)). refine (eq_trans P _). unfold path_of. rewrite map_app, <- app_assoc. reflexivity.
Qed.
Lemma set_nth_app : forall {A} (l : list A) x y r, set_nth (l ++ x :: r) (length l) y = l ++ y :: r.
Proof. induction l as [|a l IH]; intros x y r; [reflexivity|]. cbn. rewrite IH. reflexivity. Qed.
Lemma nth_app_here : forall {A} (l : list A) x r, nth_error (l ++ x :: r) (length l) = Some x.
Proof. induction l as [|a l IH]; intros x r; [reflexivity|]. cbn. apply IH. Qed.
Lemma path_len : forall c, length (path_of c) = length c. Proof. intros. apply map_length. Qed.
(** The entries of the path around the node's place. *)
Lemma path_place_set : forall up x down y, path_set (up ++ x :: down) (length down) y = up ++ y :: down.
Proof. intros. unfold path_set. rewrite app_length. cbn [length]. replace (length up + S (length down) - 1 - length down)%nat with (length up) by lia. apply set_nth_app. Qed.
Lemma path_place_get : forall up x down, path_get (up ++ x :: down) (length down) = Ret x.
Proof. intros. unfold path_get. rewrite app_length. cbn [length]. replace (length up + S (length down) - 1 - length down)%nat with (length up) by lia. rewrite nth_app_here. reflexivity. Qed.

Definition mknode (i : item) (l r : ptr) (b : bool) : node := mkn l r b (ikey i) (ival i).
Ltac ups := repeat match goal with d := mkd _ _ _ _ _ |- _ => subst d end; cbn [nodes root links size olist]; unfold upd; repeat match goal with |- context [Pos.eqb ?a ?b] => destruct (Pos.eqb_spec a b); try congruence end; try reflexivity.

Lemma relink_spec : forall d c up i j lp tp rp b bs,
  nodes d (iaddr i) = Some (mknode i lp tp b) -> nodes d (iaddr j) = Some (mknode j None rp bs) -> iaddr i <> iaddr j ->
  cnt (iaddr i) (citems c) = 0 -> cnt (iaddr j) (citems c) = 0 -> (forall x, cnt x (citems c) <= 1) -> repc d c (Some (iaddr i)) ->
  exists d', relink_successor d (up ++ Some (iaddr j) :: path_of c) (length (path_of c)) (Some (iaddr i)) (Some (iaddr j)) = Ret d' /\
    nodes d' (iaddr i) = Some (mknode i None tp bs) /\ nodes d' (iaddr j) = Some (mknode j lp rp b) /\ repc d' c (Some (iaddr j)) /\
    (forall x, cnt x (citems c) = 0 -> x <> iaddr i -> x <> iaddr j -> nodes d' x = nodes d x).
Proof.
  intros d c up i j lp tp rp b bs NI NJ NE CI CJ O C. unfold relink_successor. unfold get_node at 1. rewrite NI. cbn [ub_none bind]. unfold set_left at 1. rewrite (set_at _ _ _ _ NJ). cbn [bind].
  set (d1 := mkd (upd (nodes d) (iaddr j) _) _ _ _ _). assert (N1 : nodes d1 (iaddr i) = Some (mknode i lp tp b)) by (rewrite <- NI; ups).
  unfold set_left at 1. rewrite (set_at _ _ _ _ N1). cbn [bind]. set (d2 := mkd (upd (nodes d1) (iaddr i) _) _ _ _ _).
  assert (I2 : nodes d2 (iaddr i) = Some (mknode i None tp b)) by (unfold d2; cbn [nodes]; rewrite upd_at; reflexivity). assert (J2 : nodes d2 (iaddr j) = Some (mknode j lp rp bs)) by (unfold d2, d1; cbn [nodes]; rewrite upd_ne by congruence; rewrite upd_at; reflexivity).
  assert (S2 : forall x, x <> iaddr i -> x <> iaddr j -> nodes d2 x = nodes d x) by (intros x X Y; ups).
  assert (C2 : repc d2 c (Some (iaddr i))). { apply (repc_same c d); [|reflexivity|exact C]. intros x P. apply S2; intros ->; lia. }
  destruct (put_else_spec d2 c (Some (iaddr i)) (Some (iaddr j)) C2 (own_sib _ _ CI)) as (d3 & E3 & P3).
  assert (X3 : (if (0 <? length (path_of c))%nat then let* above := path_get (up ++ Some (iaddr j) :: path_of c) (length (path_of c) - 1) in swap_child d2 above (Some (iaddr i)) (Some (iaddr j)) else Ret (set_root d2 (Some (iaddr j)))) = Ret d3).
  { destruct c as [|f c]; [exact E3|]. cbn [path_of map length Nat.ltb Nat.leb]. fold (path_of c).
    replace (up ++ Some (iaddr j) :: Some (iaddr (fitem f)) :: path_of c) with ((up ++ [Some (iaddr j)]) ++ Some (iaddr (fitem f)) :: path_of c) by (rewrite <- app_assoc; reflexivity).
    replace (S (length (path_of c)) - 1)%nat with (length (path_of c)) by lia. rewrite path_place_get. cbn [bind]. exact E3. }
  rewrite X3. cbn [bind]. assert (I3 : nodes d3 (iaddr i) = Some (mknode i None tp b)) by (rewrite (pointed_nodes _ _ _ _ _ CI P3); exact I2). assert (J3 : nodes d3 (iaddr j) = Some (mknode j lp rp bs)) by (rewrite (pointed_nodes _ _ _ _ _ CJ P3); exact J2).
  assert (C3 : repc d3 c (Some (iaddr j))) by (eapply repc_pointed; eassumption).
  unfold is_red, get_node. rewrite I3, J3. cbn [ub_none bind mknode n_red]. destruct (Bool.eqb bs b) eqn:EB.
  - apply Bool.eqb_prop in EB. subst bs. exists d3. split; [reflexivity|]. split; [exact I3|]. split; [exact J3|]. split; [exact C3|]. intros x X Y Z. rewrite (pointed_nodes _ _ _ _ _ X P3). apply S2; assumption.
  - unfold toggle at 1. rewrite (set_at _ _ _ _ J3). cbn [bind]. set (d4 := mkd (upd (nodes d3) (iaddr j) _) _ _ _ _). assert (I4 : nodes d4 (iaddr i) = Some (mknode i None tp b)) by (rewrite <- I3; ups).
    unfold toggle. rewrite (set_at _ _ _ _ I4). eexists. split; [reflexivity|].
    assert (NB : negb b = bs /\ negb bs = b) by (destruct b, bs; cbn in EB; try discriminate; auto). destruct NB as [NB1 NB2].
    split; [cbn [nodes]; rewrite upd_at; unfold mknode; cbn [n_left n_right n_red n_key n_val]; rewrite NB1; reflexivity|].
    split; [cbn [nodes]; rewrite upd_ne by congruence; cbn [d4 nodes]; rewrite upd_at; unfold mknode; cbn [n_left n_right n_red n_key n_val]; rewrite NB2; reflexivity|].
    split; [apply (repc_same c d3); [|reflexivity|exact C3]; intros x P; cbn [nodes]; rewrite upd_ne by (intros ->; lia); cbn [d4 nodes]; apply upd_ne; intros ->; lia|].
    intros x X Y Z. cbn [nodes]. rewrite upd_ne by assumption. cbn [d4 nodes]. rewrite upd_ne by assumption. rewrite (pointed_nodes _ _ _ _ _ X P3). apply S2; assumption.
Qed.

(** Putting the pieces together. *)
Definition inner_set (d : dict) (c : list frame) (p : ptr) (d' : dict) : Prop :=
  match c with
  | [] => True
  | f :: c => nodes d' (iaddr (fitem f)) = Some (match f with FL b i r => mkn p (troot r) b (ikey i) (ival i) | FR b l i => mkn (troot l) p b (ikey i) (ival i) end) /\
     (forall x, 0 < cnt x (inorder (fsib f)) + cnt x (citems c) -> nodes d' x = nodes d x)
  end.
Lemma segr_inner : forall d c p q d', segr d c p -> inner_set d c q d' -> segr d' c q.
Proof.
  intros d [|f c] p q d' H S0; [exact Logic.I|]. cbn [segr inner_set] in *. destruct H as [F R]. destruct S0 as [A S0]. split.
  - destruct f as [b i r|b l i]; cbn [fnode fitem fsib] in *; destruct F as [_ F]; (split; [exact A|]); apply (rep_same _ d); auto; intros x P; apply S0; pose proof (cnt_pos x (citems c)); lia.
  - apply (segr_same c d); [|exact R]. intros x P. apply S0. pose proof (cnt_pos x (inorder (fsib f))). lia.
Qed.
Lemma assemble : forall d d' c b l i c2 bs j rs,
  holds d c (T b l i (plug c2 (T bs E j rs))) ->
  nodes d' (iaddr i) = Some (mknode i None (troot rs) bs) ->
  nodes d' (iaddr j) = Some (mknode j (troot l) (outer c2 (Some (iaddr i))) b) ->
  repc d' c (Some (iaddr j)) -> inner_set d c2 (Some (iaddr i)) d' ->
  (forall x, 0 < cnt x (inorder l) + cnt x (inorder rs) -> nodes d' x = nodes d x) ->
  holds d' (c2 ++ FR b l j :: c) (T bs E i rs).
Proof.
  intros d d' c b l i c2 bs j rs (R & C & O) NI NJ C' IS SM. cbn [rep] in R. destruct R as (_ & RL & RR).
  assert (RS : rep d rs /\ segr d c2 (Some (iaddr j))).
  { apply rep_plug_segr in RR. destruct RR as [X Y]. cbn [rep troot] in X, Y. tauto. }
  destruct RS as [RS SG]. split; [|split].
  - cbn [rep troot]. split; [exact NI|]. split; [exact Logic.I|]. apply (rep_same rs d); [|exact RS]. intros x P. apply SM. pose proof (cnt_pos x (inorder l)). lia.
  - apply repc_app. split; [eapply segr_inner; eassumption|]. cbn [repc fnode fitem troot]. split; [split; [exact NJ|]|exact C']. apply (rep_same l d); [|exact RL]. intros x P. apply SM. pose proof (cnt_pos x (inorder rs)). lia.
  - apply once_plug. intros x. rewrite once_plug in O. specialize (O x). rewrite !cnt_node, cnt_plug, cnt_node in O. rewrite cnt_node, cnt_citems_app, cnt_frame. cbn [fitem fsib inorder cnt] in *. lia.
Qed.

Lemma rb_left_spine : forall c t n, rb (plug c t) n -> exists m, rb t m.
Proof.
  induction c as [|f c IH]; intros t n R; [eauto|]. cbn [plug] in R. destruct (IH _ _ R) as (m & R'). destruct f as [[] i r|[] l i]; cbn in R'; [|destruct R' as (k & _ & ? & ?)| |destruct R' as (k & _ & ? & ?)]; eauto; exists m; tauto.
Qed.

(** What the swap achieves: the node is where it has at most one child, in a tree of the same shape and colours, whose other items are in the same order. *)
Definition swapped (d : dict) (c : list frame) (b : bool) (l : tree) (i : item) (r : tree) (d' : dict) (c' : list frame) (b' : bool) (l' r' : tree) : Prop :=
  holds d' c' (T b' l' i r') /\ (l' = E \/ r' = E) /\
  cleft c' ++ inorder l' ++ inorder r' ++ cright c' = cleft c ++ inorder l ++ inorder r ++ cright c /\
  (redblack (plug c (T b l i r)) -> redblack (plug c' (T b' l' i r'))) /\
  height (plug c' (T b' l' i r')) = height (plug c (T b l i r)).
(** Same shape: items do not matter. *)
Inductive same_shape : tree -> tree -> Prop :=
| ss_E : same_shape E E
| ss_T : forall b l l' i i' r r', same_shape l l' -> same_shape r r' -> same_shape (T b l i r) (T b l' i' r').
Lemma shape_refl : forall t, same_shape t t. Proof. induction t; constructor; assumption. Qed.
Lemma shape_plug : forall c t t', same_shape t t' -> same_shape (plug c t) (plug c t').
Proof. induction c as [|f c IH]; intros t t' H; [exact H|]. cbn [plug]. apply IH. destruct f; constructor; auto using shape_refl. Qed.
Lemma shape_height : forall t t', same_shape t t' -> height t = height t'.
Proof. induction 1; cbn; congruence. Qed.
Lemma shape_red : forall t t', same_shape t t' -> tred t = tred t'. Proof. destruct 1; reflexivity. Qed.
Lemma shape_rb : forall t t', same_shape t t' -> forall n, rb t n -> rb t' n.
Proof.
  induction 1 as [|b l l' i i' r r' S1 IH1 S2 IH2]; intros n R; [exact R|]. cbn [rb] in *. rewrite <- (shape_red _ _ S1), <- (shape_red _ _ S2). destruct b; [|destruct R as (m & -> & A & B); exists m]; firstorder.
Qed.
Lemma shape_redblack : forall t t', same_shape t t' -> redblack t -> redblack t'.
Proof. intros t t' S0 (A & n & B). split; [rewrite <- (shape_red _ _ S0); exact A|]. exists n. eapply shape_rb; eassumption. Qed.

Lemma cleft_app : forall c c', cleft (c ++ c') = cleft c' ++ cleft c.
Proof. induction c as [|f c IH]; intros c'; cbn [app cleft]; [rewrite app_nil_r; reflexivity|]. destruct f; rewrite IH, <- ?app_assoc; reflexivity. Qed.
Lemma cright_app : forall c c', cright (c ++ c') = cright c ++ cright c'.
Proof. induction c as [|f c IH]; intros c'; cbn [app cright]; [reflexivity|]. destruct f; rewrite IH; cbn; rewrite <- ?app_assoc; reflexivity. Qed.
Lemma cleft_spine : forall c, Forall is_left c -> cleft c = [].
Proof. induction 1 as [|f c F _ IH]; [reflexivity|]. destruct f; [exact IH|destruct F]. Qed.

Ltac rwp P := match type of P with ?L = _ => match goal with |- context [path_set (?a :: ?b) ?n ?x] => change (path_set (a :: b) n x) with L end end; rewrite P.
Lemma swap_successor_spec : forall cap d c b l i r, holds d c (T b l i r) -> (height (plug c (T b l i r)) <= cap)%nat -> (length c + height (T b l i r) <= cap)%nat ->
  exists d' c' b' l' r', swap_successor cap d (Some (iaddr i)) (Some (iaddr i) :: path_of c) = Ret (d', Some (iaddr i) :: path_of c') /\ swapped d c b l i r d' c' b' l' r'.
Proof.
  intros cap d c b l i r H HC HL. unfold swap_successor. rewrite (holds_node _ _ _ _ _ _ H). cbn [bind n_right n_left]. destruct r as [|br rl ri rr].
  { cbn [troot]. exists d, c, b, l, E. split; [reflexivity|]. split; [exact H|]. split; [auto|]. auto. }
  set (r := T br rl ri rr) in *. cbn [troot r]. rewrite (holds_node _ _ _ _ _ _ (down_r _ _ _ _ _ _ H)). cbn [bind n_right n_left length].
  destruct (holds_own _ _ _ _ _ _ H) as (I1 & I2 & I3). assert (H0 := H). destruct H0 as (R0 & C0 & O0). cbn [rep] in R0. destruct R0 as (NI & RL & RR).
  replace (S (length (path_of c)) - 1)%nat with (length (path_of c)) by lia.
  destruct rl as [|brl rll rli rlr].
  - cbn [troot]. destruct l as [|lb ll li lr]; cbn [troot].
    { cbn [bind]. exists d, c, b, E, r. split; [reflexivity|]. split; [exact H|]. split; [auto|]. auto. }
    (* the right child is the successor *)
    set (l := T lb ll li lr) in *. assert (NR : nodes d (iaddr ri) = Some (mknode ri None (troot rr) br)) by (destruct RR as (X & _); exact X).
    destruct (holds_own _ _ _ _ _ _ (down_r _ _ _ _ _ _ H)) as (J1 & J2 & J3). rewrite cnt_frame in J3. cbn [fitem fsib] in J3. pose proof (cnt_pos (iaddr ri) (inorder l)). pose proof (cnt_pos (iaddr ri) (citems c)).
    destruct (Pos.eqb_spec (iaddr ri) (iaddr i)) as [|NE]; [lia|].
    unfold set_right at 1. unfold node_at in NI. rewrite (set_at _ _ _ _ NI). cbn [bind]. set (d1 := mkd (upd (nodes d) (iaddr i) _) _ _ _ _). assert (NR1 : nodes d1 (iaddr ri) = Some (mknode ri None (troot rr) br)) by (rewrite <- NR; ups).
    unfold set_right at 1. rewrite (set_at _ _ _ _ NR1). cbn [bind]. set (d2 := mkd (upd (nodes d1) (iaddr ri) _) _ _ _ _).
    assert (LT : (S (length (path_of c)) <? cap)%nat = true). { apply Nat.ltb_lt. rewrite path_len. cbn [height] in HL. unfold r, l in HL. cbn [height] in HL. lia. }
    rewrite LT. cbn [bind]. assert (PS : path_set (Some (iaddr i) :: path_of c) (length (path_of c)) (Some (iaddr ri)) = Some (iaddr ri) :: path_of c) by exact (path_place_set [] (Some (iaddr i)) (path_of c) (Some (iaddr ri))). rewrite PS.
    assert (CC : forall x, cnt x (citems c) <= 1). { intros x. rewrite once_plug in O0. specialize (O0 x). pose proof (cnt_pos x (inorder (T b l i r))). lia. }
    assert (S2 : forall x, x <> iaddr i -> x <> iaddr ri -> nodes d2 x = nodes d x) by (intros x X Y; ups).
    destruct (relink_spec d2 c [Some (iaddr i)] i ri (troot l) (troot rr) (Some (iaddr i)) b br) as (d3 & E3 & K1 & K2 & K3 & K4).
    + cbn [d2 d1 nodes]. rewrite upd_ne by congruence. rewrite upd_at. reflexivity.
    + cbn [d2 nodes]. rewrite upd_at. reflexivity.
    + congruence.
    + exact I3.
    + lia.
    + exact CC.
    + apply (repc_same c d); [|reflexivity|exact C0]. intros x P. apply S2; intros ->; lia.
    + cbn [app] in E3. match goal with |- context [relink_successor ?a ?b ?c ?d ?e] => replace (relink_successor a b c d e) with (Ret d3) by (symmetry; exact E3) end. cbn [bind]. exists d3, (FR b l ri :: c), br, E, rr. split; [reflexivity|]. split; [|split; [auto|split; [|split]]].
      * change (FR b l ri :: c) with ([] ++ FR b l ri :: c). apply (assemble d); try assumption; [exact Logic.I|]. intros x P. rewrite once_plug in O0. specialize (O0 x). unfold r in O0. rewrite !cnt_node in O0. cbn [inorder cnt] in O0.
        pose proof (cnt_pos x (inorder l)). pose proof (cnt_pos x (inorder rr)). pose proof (cnt_pos x (citems c)). destruct (Pos.eqb_spec x (iaddr i)); destruct (Pos.eqb_spec x (iaddr ri)); try lia. rewrite K4 by (assumption || lia). apply S2; assumption.
      * unfold r. cbn [cleft cright inorder]. rewrite <- ?app_assoc. cbn [app]. rewrite <- ?app_assoc. reflexivity.
      * apply shape_redblack. unfold r. cbn [plug fill]. apply shape_plug. repeat constructor; apply shape_refl.
      * apply shape_height. unfold r. cbn [plug fill]. apply shape_plug. repeat constructor; apply shape_refl.
  - (* the successor is deeper *)
    cbn [troot].
    assert (HR : (height r <= cap - S (length (path_of c)))%nat). { rewrite path_len. cbn [height] in HL. change (height (T br (T brl rll rli rlr) ri rr)) with (height r) in HL. lia. }
    destruct (leftmost_spec r d (cap - S (length (path_of c))) (Some (iaddr i) :: path_of c) RR ltac:(discriminate) HR) as (c2 & bs & j & rs & ER & SP & EP). change (Some (iaddr ri)) with (troot r). rewrite EP. cbn [bind].
    destruct c2 as [|g c2]; [unfold r in ER; cbn [plug] in ER; discriminate ER|]. destruct g as [gb gi gr|gb gl gi]; [|inversion SP as [|? ? X _]; destruct X]. cbn [path_of map app fitem]. fold (path_of c2).
    assert (HJ : holds d (FL gb gi gr :: c2 ++ FR b l i :: c) (T bs E j rs)).
    { apply holds_whole. apply holds_whole in H. rewrite ER in H. change (FL gb gi gr :: c2 ++ FR b l i :: c) with ((FL gb gi gr :: c2) ++ FR b l i :: c). rewrite plug_app. exact H. }
    destruct (holds_own _ _ _ _ _ _ HJ) as (J1 & J2 & J3). rewrite cnt_frame, cnt_citems_app, cnt_frame in J3. cbn [fitem fsib] in J3.
    pose proof (cnt_pos (iaddr j) (inorder gr)). pose proof (cnt_pos (iaddr j) (citems c2)). pose proof (cnt_pos (iaddr j) (inorder l)). pose proof (cnt_pos (iaddr j) (citems c)).
    destruct (Pos.eqb_spec (iaddr j) (iaddr gi)) as [|NJG]; [destruct (Pos.eqb (iaddr j) (iaddr i)); lia|]. destruct (Pos.eqb_spec (iaddr j) (iaddr i)) as [|NJI]; [lia|].
    assert (HG := HJ). apply up_l in HG. destruct (holds_own _ _ _ _ _ _ HG) as (G1 & G2 & G3). rewrite cnt_citems_app, cnt_frame in G3. cbn [fitem fsib] in G3.
    pose proof (cnt_pos (iaddr gi) (citems c2)). pose proof (cnt_pos (iaddr gi) (inorder l)). pose proof (cnt_pos (iaddr gi) (citems c)). destruct (Pos.eqb_spec (iaddr gi) (iaddr i)) as [|NGI]; [lia|].
    assert (NJ : nodes d (iaddr j) = Some (mknode j None (troot rs) bs)) by (destruct HJ as ((X & _) & _); exact X).
    assert (NG : nodes d (iaddr gi) = Some (mknode gi (Some (iaddr j)) (troot gr) gb)) by (destruct HG as ((X & _) & _); exact X).
    unfold get_node at 1. rewrite NJ. cbn [ub_none bind mknode n_right]. unfold set_right at 1. rewrite (set_at _ _ _ _ NJ). cbn [bind]. set (d1 := mkd (upd (nodes d) (iaddr j) _) _ _ _ _).
    assert (NI1 : nodes d1 (iaddr i) = Some (mknode i (troot l) (troot r) b)) by (rewrite <- NI; ups).
    unfold set_right at 1. rewrite (set_at _ _ _ _ NI1). cbn [bind]. set (d2 := mkd (upd (nodes d1) (iaddr i) _) _ _ _ _).
    assert (NG2 : nodes d2 (iaddr gi) = Some (mknode gi (Some (iaddr j)) (troot gr) gb)) by (rewrite <- NG; ups).
    unfold swap_child at 1. unfold get_node at 1. rewrite NG2. cbn [ub_none bind mknode n_left]. rewrite eqp_refl. unfold set_left at 1. rewrite (set_at _ _ _ _ NG2). cbn [bind]. set (d3 := mkd (upd (nodes d2) (iaddr gi) _) _ _ _ _).
    assert (P1 : path_set (Some (iaddr j) :: Some (iaddr gi) :: path_of c2 ++ Some (iaddr i) :: path_of c) (length (path_of c)) (Some (iaddr j)) = Some (iaddr j) :: Some (iaddr gi) :: path_of c2 ++ Some (iaddr j) :: path_of c).
    { exact (path_place_set (Some (iaddr j) :: Some (iaddr gi) :: path_of c2) (Some (iaddr i)) (path_of c) (Some (iaddr j))). }
    rwp P1.
    assert (P2 : path_set (Some (iaddr j) :: Some (iaddr gi) :: path_of c2 ++ Some (iaddr j) :: path_of c) (length (Some (iaddr j) :: Some (iaddr gi) :: path_of c2 ++ Some (iaddr j) :: path_of c) - 1) (Some (iaddr i)) = Some (iaddr i) :: Some (iaddr gi) :: path_of c2 ++ Some (iaddr j) :: path_of c).
    { pose proof (path_place_set [] (Some (iaddr j)) (Some (iaddr gi) :: path_of c2 ++ Some (iaddr j) :: path_of c) (Some (iaddr i))) as X. cbn [app] in X. refine (eq_trans _ X). apply (f_equal (fun n => path_set _ n _)). reflexivity. }
    rwp P2.
    assert (CC : forall x, cnt x (citems c) <= 1). { intros x. rewrite once_plug in O0. specialize (O0 x). pose proof (cnt_pos x (inorder (T b l i r))). lia. }
    assert (S3 : forall x, x <> iaddr i -> x <> iaddr j -> x <> iaddr gi -> nodes d3 x = nodes d x) by (intros x X Y Z; ups).
    destruct (relink_spec d3 c (Some (iaddr i) :: Some (iaddr gi) :: path_of c2) i j (troot l) (troot rs) (troot r) b bs) as (d4 & E4 & K1 & K2 & K3 & K4).
    + cbn [d3 d2 nodes]. rewrite upd_ne by congruence. rewrite upd_at. reflexivity.
    + cbn [d3 d2 d1 nodes]. rewrite !upd_ne by congruence. rewrite upd_at. reflexivity.
    + congruence.
    + exact I3.
    + lia.
    + exact CC.
    + apply (repc_same c d); [|reflexivity|exact C0]. intros x P. apply S3; intros ->; lia.
    + cbn [app] in E4. match goal with |- context [relink_successor ?a ?b ?c ?d ?e] => replace (relink_successor a b c d e) with (Ret d4) by (symmetry; exact E4) end. cbn [bind]. exists d4, ((FL gb gi gr :: c2) ++ FR b l j :: c), bs, E, rs.
      split; [unfold path_of; cbn [app map fitem]; rewrite map_app; reflexivity|]. split; [|split; [auto|split; [|split]]].
      * rewrite once_plug in O0. assert (OX : forall x, cnt x (inorder l) + (if (x =? iaddr i)%positive then 1 else 0) + ((if (x =? iaddr j)%positive then 1 else 0) + cnt x (inorder rs) + ((if (x =? iaddr gi)%positive then 1 else 0) + cnt x (inorder gr) + cnt x (citems c2))) + cnt x (citems c) <= 1).
        { intros x. specialize (O0 x). rewrite cnt_node, ER, cnt_plug, cnt_node, cnt_frame in O0. cbn [inorder cnt fitem fsib] in O0. lia. }
        assert (K5 : forall x, 0 < cnt x (inorder l) + cnt x (inorder rs) + cnt x (inorder gr) + cnt x (citems c2) -> nodes d4 x = nodes d x).
        { intros x P. specialize (OX x). pose proof (cnt_pos x (inorder l)). pose proof (cnt_pos x (inorder rs)). pose proof (cnt_pos x (inorder gr)). pose proof (cnt_pos x (citems c2)). pose proof (cnt_pos x (citems c)).
          destruct (Pos.eqb_spec x (iaddr i)); destruct (Pos.eqb_spec x (iaddr j)); destruct (Pos.eqb_spec x (iaddr gi)); try lia. rewrite K4 by (assumption || lia). apply S3; assumption. }
        apply (assemble d); try assumption.
        -- rewrite <- ER. exact H.
        -- rewrite ER in K2. rewrite (troot_plug (FL gb gi gr :: c2) _ (Some (iaddr i)) ltac:(discriminate)) in K2. exact K2.
        -- cbn [inner_set fitem fsib]. split; [|intros x P; apply K5; pose proof (cnt_pos x (inorder l)); pose proof (cnt_pos x (inorder rs)); lia].
           rewrite K4 by (congruence || lia). cbn [d3 nodes]. rewrite upd_at. reflexivity.
        -- intros x P. apply K5. pose proof (cnt_pos x (inorder gr)). pose proof (cnt_pos x (citems c2)). lia.
      * rewrite cleft_app, cright_app, ER, inorder_plug, (cleft_spine _ SP). cbn [cleft cright inorder app]. rewrite <- ?app_assoc. cbn [app]. rewrite <- ?app_assoc. reflexivity.
      * apply shape_redblack. rewrite ER, plug_app. cbn [plug fill]. apply shape_plug. constructor; [apply shape_refl|]. apply shape_plug. constructor; [|apply shape_refl]. constructor; apply shape_refl.
      * apply shape_height. rewrite ER, plug_app. cbn [plug fill]. apply shape_plug. constructor; [apply shape_refl|]. apply shape_plug. constructor; [|apply shape_refl]. constructor; apply shape_refl.
Qed.
