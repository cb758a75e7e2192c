(** Trees with addresses, their zippers, and what the memory of a dictionary says about them. *)
From Verif Require Import Base Links LinksProofs Table Dict DictSpec.
Open Scope Z_scope.

Inductive tree := E | T (red : bool) (l : tree) (i : item) (r : tree).
Fixpoint inorder (t : tree) : list item := match t with E => [] | T _ l i r => inorder l ++ i :: inorder r end.
Definition troot (t : tree) : ptr := match t with E => None | T _ _ i _ => Some (iaddr i) end.
Definition tred (t : tree) : bool := match t with E => false | T r _ _ _ => r end.

(** The tree is in memory. *)
Definition node_at (d : dict) (i : item) (l r : ptr) (red : bool) : Prop :=
  nodes d (iaddr i) = Some (mkn l r red (ikey i) (ival i)).
Fixpoint rep (d : dict) (t : tree) : Prop :=
  match t with E => True | T red l i r => node_at d i (troot l) (troot r) red /\ rep d l /\ rep d r end.

(** Zippers: the frames from the hole up. *)
Inductive frame := FL (red : bool) (i : item) (r : tree) | FR (red : bool) (l : tree) (i : item).
Definition fitem (f : frame) : item := match f with FL _ i _ => i | FR _ _ i => i end.
Definition fred (f : frame) : bool := match f with FL b _ _ => b | FR b _ _ => b end.
Definition fsib (f : frame) : tree := match f with FL _ _ r => r | FR _ l _ => l end.
Definition fill (f : frame) (t : tree) : tree := match f with FL b i r => T b t i r | FR b l i => T b l i t end.
Fixpoint plug (c : list frame) (t : tree) : tree := match c with [] => t | f :: c => plug c (fill f t) end.
Definition fnode (d : dict) (f : frame) (p : ptr) : Prop :=
  match f with FL b i r => node_at d i p (troot r) b /\ rep d r | FR b l i => node_at d i (troot l) p b /\ rep d l end.
(** The frames are in memory, the hole holding the pointer [p]. *)
Fixpoint repc (d : dict) (c : list frame) (p : ptr) : Prop :=
  match c with [] => root d = p | f :: c => fnode d f p /\ repc d c (Some (iaddr (fitem f))) end.
Definition path_of (c : list frame) : list ptr := map (fun f => Some (iaddr (fitem f))) c.

Lemma rep_plug : forall c d t, (rep d (plug c t) /\ root d = troot (plug c t)) <-> (rep d t /\ repc d c (troot t)).
Proof.
  induction c as [|f c IH]; intros d t; cbn [plug repc]; [tauto|]. rewrite IH. destruct f as [b i r|b l i]; cbn [fill rep fnode troot fitem]; tauto.
Qed.

(** Ownership: how often an address occurs. *)
Fixpoint cnt (x : addr) (l : list item) : Z := match l with [] => 0 | i :: l => (if Pos.eqb x (iaddr i) then 1 else 0) + cnt x l end.
Lemma cnt_app : forall x l l', cnt x (l ++ l') = cnt x l + cnt x l'.
Proof. induction l as [|i l IH]; intros l'; cbn [app cnt]; [lia|]. rewrite IH. lia. Qed.
Lemma cnt_pos : forall x l, 0 <= cnt x l.
Proof. induction l as [|i l IH]; cbn [cnt]; [lia|]. destruct (Pos.eqb _ _); lia. Qed.
Lemma cnt_in : forall x l, 0 < cnt x l <-> In x (map iaddr l).
Proof.
  induction l as [|i l IH]; cbn [cnt map In]; [lia|]. pose proof (cnt_pos x l). destruct (Pos.eqb_spec x (iaddr i)) as [->|N]; [split; [auto|lia]|]. rewrite <- IH. split; [intros H0; right; lia|intros [H0|H0]; [congruence|lia]].
Qed.
Definition once (l : list item) : Prop := forall x, cnt x l <= 1.
Lemma once_nodup : forall l, once l <-> NoDup (map iaddr l).
Proof.
  induction l as [|i l IH]; cbn [map]; [split; [constructor|intros _ x; cbn; lia]|]. split.
  - intros O. constructor; [|apply IH; intros x; specialize (O x); cbn [cnt] in O; destruct (Pos.eqb _ _); lia].
    intros H. apply cnt_in in H. specialize (O (iaddr i)). cbn [cnt] in O. rewrite Pos.eqb_refl in O. lia.
  - intros N x. inversion N as [|? ? H1 H2]; subst. apply IH in H2. cbn [cnt]. specialize (H2 x). destruct (Pos.eqb_spec x (iaddr i)) as [->|]; [|lia].
    pose proof (cnt_in (iaddr i) l). pose proof (cnt_pos (iaddr i) l). destruct (Z.eq_dec (cnt (iaddr i) l) 0); [lia|]. exfalso. apply H1, H. lia.
Qed.
Fixpoint citems (c : list frame) : list item := match c with [] => [] | f :: c => fitem f :: inorder (fsib f) ++ citems c end.
Lemma cnt_plug : forall c x t, cnt x (inorder (plug c t)) = cnt x (inorder t) + cnt x (citems c).
Proof.
  induction c as [|f c IH]; intros x t; cbn [plug citems cnt]; [lia|]. rewrite IH. rewrite cnt_app. destruct f as [b i r|b l i]; cbn [fill inorder fitem fsib]; rewrite cnt_app; cbn [cnt]; lia.
Qed.
(** Before and after the hole. *)
Fixpoint cleft (c : list frame) : list item := match c with [] => [] | FL _ _ _ :: c => cleft c | FR _ l i :: c => cleft c ++ inorder l ++ [i] end.
Fixpoint cright (c : list frame) : list item := match c with [] => [] | FL _ i r :: c => i :: inorder r ++ cright c | FR _ _ _ :: c => cright c end.
Lemma inorder_plug : forall c t, inorder (plug c t) = cleft c ++ inorder t ++ cright c.
Proof.
  induction c as [|f c IH]; intros t; cbn [plug cleft cright]; [rewrite app_nil_r; reflexivity|]. rewrite IH. destruct f as [b i r|b l i]; cbn [fill inorder]; rewrite <- !app_assoc; reflexivity.
Qed.
Lemma plug_app : forall c c' t, plug (c ++ c') t = plug c' (plug c t).
Proof. induction c as [|f c IH]; intros c' t; [reflexivity|]. cbn [app plug]. apply IH. Qed.

(** Frame rules. *)
Definition same_at (d d' : dict) (x : addr) : Prop := nodes d' x = nodes d x.
Lemma rep_same : forall t d d', (forall x, 0 < cnt x (inorder t) -> nodes d' x = nodes d x) -> rep d t -> rep d' t.
Proof.
  induction t as [|b l IHl i r IHr]; intros d d' S0 R; [exact Logic.I|]. cbn [rep inorder] in *. destruct R as (N0 & RL & RR).
  assert (K : forall x, cnt x (inorder l ++ i :: inorder r) = cnt x (inorder l) + (if Pos.eqb x (iaddr i) then 1 else 0) + cnt x (inorder r)) by (intros x; rewrite cnt_app; cbn [cnt]; lia).
  split; [|split].
  - unfold node_at in *. rewrite S0; [exact N0|]. rewrite K, Pos.eqb_refl. pose proof (cnt_pos (iaddr i) (inorder l)). pose proof (cnt_pos (iaddr i) (inorder r)). lia.
  - apply (IHl d); [|exact RL]. intros x H. apply S0. rewrite K. pose proof (cnt_pos x (inorder r)). destruct (Pos.eqb _ _); lia.
  - apply (IHr d); [|exact RR]. intros x H. apply S0. rewrite K. pose proof (cnt_pos x (inorder l)). destruct (Pos.eqb _ _); lia.
Qed.
Lemma cnt_frame : forall f c x, cnt x (citems (f :: c)) = (if Pos.eqb x (iaddr (fitem f)) then 1 else 0) + cnt x (inorder (fsib f)) + cnt x (citems c).
Proof. intros. cbn [citems cnt]. rewrite cnt_app. lia. Qed.
Lemma cnt_node : forall b l i r x, cnt x (inorder (T b l i r)) = cnt x (inorder l) + (if Pos.eqb x (iaddr i) then 1 else 0) + cnt x (inorder r).
Proof. intros. cbn [inorder]. rewrite cnt_app. cbn [cnt]. lia. Qed.
Lemma fnode_same : forall f d d' p, nodes d' (iaddr (fitem f)) = nodes d (iaddr (fitem f)) -> (forall x, 0 < cnt x (inorder (fsib f)) -> nodes d' x = nodes d x) -> fnode d f p -> fnode d' f p.
Proof.
  intros f d d' p A B F. destruct f as [b i r|b l i]; cbn [fnode fitem fsib] in *; destruct F as [N0 R]; (split; [unfold node_at in *; rewrite A; exact N0|exact (rep_same _ d d' B R)]).
Qed.
Lemma repc_same : forall c d d' p, (forall x, 0 < cnt x (citems c) -> nodes d' x = nodes d x) -> root d' = root d -> repc d c p -> repc d' c p.
Proof.
  induction c as [|f c IH]; intros d d' p S0 RT R; cbn [repc] in *; [congruence|]. destruct R as [F R]. split.
  - apply (fnode_same f d); [| |exact F].
    + apply S0. rewrite cnt_frame, Pos.eqb_refl. pose proof (cnt_pos (iaddr (fitem f)) (inorder (fsib f))). pose proof (cnt_pos (iaddr (fitem f)) (citems c)). lia.
    + intros x H. apply S0. rewrite cnt_frame. pose proof (cnt_pos x (citems c)). destruct (Pos.eqb _ _); lia.
  - apply (IH d); [|exact RT|exact R]. intros x H. apply S0. rewrite cnt_frame. pose proof (cnt_pos x (inorder (fsib f))). destruct (Pos.eqb _ _); lia.
Qed.

(** The dictionary's tree is [plug c t], seen with the hole at [t]. *)
Definition holds (d : dict) (c : list frame) (t : tree) : Prop := rep d t /\ repc d c (troot t) /\ once (inorder (plug c t)).
Lemma once_plug : forall c t, once (inorder (plug c t)) <-> forall x, cnt x (inorder t) + cnt x (citems c) <= 1.
Proof. intros c t. unfold once. split; intros H x; specialize (H x); rewrite cnt_plug in *; exact H. Qed.
Lemma holds_left : forall d c b l i r, holds d c (T b l i r) <-> holds d (FL b i r :: c) l.
Proof. intros. unfold holds. cbn [rep repc fnode fitem troot plug fill]. tauto. Qed.
Lemma holds_right : forall d c b l i r, holds d c (T b l i r) <-> holds d (FR b l i :: c) r.
Proof. intros. unfold holds. cbn [rep repc fnode fitem troot plug fill]. tauto. Qed.
Lemma holds_fill : forall d c f t, holds d c (fill f t) <-> holds d (f :: c) t.
Proof. intros d c [b i r|b l i] t; [apply holds_left|apply holds_right]. Qed.
Lemma down_l : forall d c b l i r, holds d c (T b l i r) -> holds d (FL b i r :: c) l. Proof. intros. apply holds_left. assumption. Qed.
Lemma down_r : forall d c b l i r, holds d c (T b l i r) -> holds d (FR b l i :: c) r. Proof. intros. apply holds_right. assumption. Qed.
Lemma up_l : forall d c b l i r, holds d (FL b i r :: c) l -> holds d c (T b l i r). Proof. intros. apply holds_left. assumption. Qed.
Lemma up_r : forall d c b l i r, holds d (FR b l i :: c) r -> holds d c (T b l i r). Proof. intros. apply holds_right. assumption. Qed.
Lemma holds_whole : forall d c t, holds d c t <-> holds d [] (plug c t).
Proof.
  intros d c t. unfold holds. cbn [repc plug]. pose proof (rep_plug c d t). tauto.
Qed.
Lemma holds_node : forall d c b l i r, holds d c (T b l i r) -> get_node d (Some (iaddr i)) = Ret (mkn (troot l) (troot r) b (ikey i) (ival i)).
Proof. intros d c b l i r (R & _). cbn in R. destruct R as (N0 & _). unfold get_node. rewrite N0. reflexivity. Qed.
Lemma holds_frame : forall d c f t, holds d (f :: c) t -> get_node d (Some (iaddr (fitem f))) = Ret (match f with FL b i r => mkn (troot t) (troot r) b (ikey i) (ival i) | FR b l i => mkn (troot l) (troot t) b (ikey i) (ival i) end).
Proof. intros d c f t H. apply holds_fill in H. destruct f as [b i r|b l i]; exact (holds_node _ _ _ _ _ _ H). Qed.

(** What the operations leave alone. *)
Definition keep (d d' : dict) : Prop :=
  links d' = links d /\ size d' = size d /\ olist d' = olist d /\ (forall x, nodes d' x = None <-> nodes d x = None).
Lemma keep_refl : forall d, keep d d. Proof. intros. repeat split; auto. Qed.
Lemma keep_trans : forall a b c, keep a b -> keep b c -> keep a c.
Proof. intros a b c (A & B & C & D) (A' & B' & C' & D'). split; [congruence|]. split; [congruence|]. split; [congruence|]. intros x. rewrite D'. apply D. Qed.
Lemma keep_set : forall d p f d', set_node d p f = Ret d' -> keep d d'.
Proof.
  intros d [a|] f d' H; [|discriminate]. cbn in H. destruct (nodes d a) as [n|] eqn:N0; [|discriminate]. injection H as <-. split; [reflexivity|]. split; [reflexivity|]. split; [reflexivity|]. intros x. cbn. unfold upd. destruct (Pos.eqb_spec x a) as [->|]; [|tauto]. rewrite N0. split; discriminate.
Qed.
Lemma keep_root : forall d p, keep d (set_root d p).
Proof. intros. repeat split; auto. Qed.
Lemma keep_left : forall d p q d', set_left d p q = Ret d' -> keep d d'. Proof. intros d p q d' H. unfold set_left in H. exact (keep_set _ _ _ _ H). Qed.
Lemma keep_right : forall d p q d', set_right d p q = Ret d' -> keep d d'. Proof. intros d p q d' H. unfold set_right in H. exact (keep_set _ _ _ _ H). Qed.
Lemma keep_red : forall d p q d', set_red d p q = Ret d' -> keep d d'. Proof. intros d p q d' H. unfold set_red in H. exact (keep_set _ _ _ _ H). Qed.
Lemma keep_toggle : forall d p d', toggle d p = Ret d' -> keep d d'. Proof. intros d p d' H. unfold toggle in H. exact (keep_set _ _ _ _ H). Qed.
Ltac keeps := repeat match goal with
  | H : bind ?m _ = Ret _ |- _ => let e := fresh "X" in destruct m eqn:e; cbn [bind] in H; [|discriminate H|discriminate H]
  | H : set_left _ _ _ = Ret _ |- _ => apply keep_left in H
  | H : set_right _ _ _ = Ret _ |- _ => apply keep_right in H
  | H : set_red _ _ _ = Ret _ |- _ => apply keep_red in H
  | H : toggle _ _ = Ret _ |- _ => apply keep_toggle in H
  | H : Ret _ = Ret _ |- _ => injection H as <-
  | H : (if ?b then _ else _) = Ret _ |- _ => destruct b
  | H : (match ?b with Some _ => _ | None => _ end) = Ret _ |- _ => destruct b
  | H : (let (_, _) := ?b in _) = Ret _ |- _ => destruct b
  end.
Ltac kt := repeat match goal with
  | |- keep ?a ?a => apply keep_refl
  | H : keep ?a ?b |- keep ?a ?b => exact H
  | |- keep ?a (set_root ?b _) => apply (keep_trans _ b); [|apply keep_root]
  | H : keep ?b ?c |- keep ?a ?c => apply (keep_trans _ b); [|exact H]; clear H
  end.
Lemma keep_rl : forall d p n d', rotate_left d p n = Ret d' -> keep d d'.
Proof. intros d p n d' H. unfold rotate_left in H. keeps; kt. Qed.
Lemma keep_rr : forall d p n d', rotate_right d p n = Ret d' -> keep d d'.
Proof. intros d p n d' H. unfold rotate_right in H. keeps; kt. Qed.

(** ** The primitive steps *)
Definition parent (c : list frame) : ptr := match c with [] => None | f :: _ => Some (iaddr (fitem f)) end.
Lemma upd_at : forall {A} (h : addr -> option A) a v, upd h a v a = v. Proof. intros. unfold upd. rewrite Pos.eqb_refl. reflexivity. Qed.
Lemma upd_ne : forall {A} (h : addr -> option A) a v x, x <> a -> upd h a v x = h x. Proof. intros. unfold upd. destruct (Pos.eqb_spec x a); congruence. Qed.
Lemma set_at : forall d a n f, nodes d a = Some n -> set_node d (Some a) f = Ret (mkd (upd (nodes d) a (Some (f n))) (links d) (root d) (size d) (olist d)).
Proof. intros d a n f H. cbn. rewrite H. reflexivity. Qed.
Lemma holds_red : forall d c b l i r b', holds d c (T b l i r) -> exists d', set_red d (Some (iaddr i)) b' = Ret d' /\ holds d' c (T b' l i r).
Proof.
  intros d c b l i r b' (R & C & O). cbn [rep] in R. destruct R as (N0 & RL & RR). unfold set_red. rewrite (set_at _ _ _ _ N0). eexists. split; [reflexivity|].
  assert (O' := O). rewrite once_plug in O'. assert (O1 := O' (iaddr i)). rewrite cnt_node, Pos.eqb_refl in O1.
  pose proof (cnt_pos (iaddr i) (inorder l)). pose proof (cnt_pos (iaddr i) (inorder r)). pose proof (cnt_pos (iaddr i) (citems c)).
  assert (S0 : forall l0, cnt (iaddr i) l0 = 0 -> forall x, 0 < cnt x l0 -> x <> iaddr i) by (intros l0 Z0 x P ->; lia).
  split; [|split].
  - cbn [rep]. split; [unfold node_at; cbn; apply upd_at|]. split; (eapply rep_same; [|eassumption]); intros x P; cbn; apply upd_ne; [apply (S0 (inorder l)); [lia|exact P]|apply (S0 (inorder r)); [lia|exact P]].
  - cbn [troot] in *. apply (repc_same c d); [|reflexivity|exact C]. intros x P. cbn. apply upd_ne. apply (S0 (citems c)); [lia|exact P].
  - apply once_plug. intros x. specialize (O' x). rewrite cnt_node in *. exact O'.
Qed.
Lemma eqp_refl : forall p, eqp p p = true. Proof. intros [a|]; cbn; [apply Pos.eqb_refl|reflexivity]. Qed.
Lemma eqp_spec : forall p q, eqp p q = true <-> p = q.
Proof. intros [a|] [b|]; cbn; try (split; congruence). rewrite Pos.eqb_eq. split; congruence. Qed.
Lemma eqp_false : forall p q, p <> q -> eqp p q = false.
Proof. intros p q H. destruct (eqp p q) eqn:X; [|reflexivity]. apply eqp_spec in X. congruence. Qed.
Lemma troot_cnt : forall t a, troot t = Some a -> 0 < cnt a (inorder t).
Proof. intros [|b l i r] a H; [discriminate|]. injection H as <-. rewrite cnt_node, Pos.eqb_refl. pose proof (cnt_pos (iaddr i) (inorder l)). pose proof (cnt_pos (iaddr i) (inorder r)). lia. Qed.
Lemma troot_ne : forall t a, cnt a (inorder t) = 0 -> eqp (troot t) (Some a) = false.
Proof. intros t a H. apply eqp_false. intros X. apply troot_cnt in X. lia. Qed.

(** Replacing the pointer in the hole. *)
Definition pointed (d : dict) (c : list frame) (p : ptr) (d' : dict) : Prop :=
  match c with
  | [] => root d' = p /\ forall x, nodes d' x = nodes d x
  | f :: _ => root d' = root d /\ (forall x, x <> iaddr (fitem f) -> nodes d' x = nodes d x) /\
      nodes d' (iaddr (fitem f)) = Some (match f with FL b i r => mkn p (troot r) b (ikey i) (ival i) | FR b l i => mkn (troot l) p b (ikey i) (ival i) end)
  end.
Lemma repc_pointed : forall c d p q d', (forall x, cnt x (citems c) <= 1) -> repc d c p -> pointed d c q d' -> repc d' c q.
Proof.
  intros [|f c] d p q d' O R P; cbn [repc pointed] in *; [tauto|]. destruct R as [F R]. destruct P as (RT & OT & AT).
  assert (O1 := O (iaddr (fitem f))). rewrite cnt_frame, Pos.eqb_refl in O1. pose proof (cnt_pos (iaddr (fitem f)) (inorder (fsib f))). pose proof (cnt_pos (iaddr (fitem f)) (citems c)).
  split.
  - destruct f as [b i r|b l i]; cbn [fnode fitem fsib] in *; destruct F as [N0 F]; (split; [exact AT|]); (eapply rep_same; [|exact F]); intros x P; apply OT; intros ->; lia.
  - apply (repc_same c d); [|exact RT|exact R]. intros x P. apply OT. intros ->. lia.
Qed.
Lemma pointed_nodes : forall d c p d' x, cnt x (citems c) = 0 -> pointed d c p d' -> nodes d' x = nodes d x.
Proof.
  intros d [|f c] p d' x C P; cbn [pointed] in P; [apply P|]. apply P. intros ->. rewrite cnt_frame, Pos.eqb_refl in C. pose proof (cnt_pos (iaddr (fitem f)) (inorder (fsib f))). pose proof (cnt_pos (iaddr (fitem f)) (citems c)). lia.
Qed.
(** The three ways the code does it. *)
Definition put_left_first (d : dict) (par old new : ptr) : out dict :=
  match par with
  | Some _ => let* p := get_node d par in
    if eqp (n_left p) old then set_left d par new else if eqp (n_right p) old then set_right d par new else Ret d
  | None => Ret (set_root d new)
  end.
Definition put_right_first (d : dict) (par old new : ptr) : out dict :=
  match par with
  | Some _ => let* p := get_node d par in
    if eqp (n_right p) old then set_right d par new else if eqp (n_left p) old then set_left d par new else Ret d
  | None => Ret (set_root d new)
  end.
Definition put_else (d : dict) (par old new : ptr) : out dict :=
  match par with Some _ => swap_child d par old new | None => Ret (set_root d new) end.
Definition sib_differs (c : list frame) (p : ptr) : Prop := match c with [] => True | f :: _ => troot (fsib f) <> p end.
Lemma fnode_at : forall d f p, fnode d f p -> nodes d (iaddr (fitem f)) = Some (match f with FL b i r => mkn p (troot r) b (ikey i) (ival i) | FR b l i => mkn (troot l) p b (ikey i) (ival i) end).
Proof. intros d [b i r|b l i] p [H _]; exact H. Qed.
Ltac putt := eexists; split; [reflexivity|]; cbn [pointed set_node root nodes fitem]; (split; [reflexivity|]; split; [intros x X; apply upd_ne; exact X|apply upd_at]).
Lemma put_left_spec : forall d c p q, repc d c p -> sib_differs c p -> exists d', put_left_first d (parent c) p q = Ret d' /\ pointed d c q d'.
Proof.
  intros d [|f c] p q R S0; cbn [parent put_left_first]; [eexists; split; [reflexivity|]; cbn; auto|]. destruct R as [F R]. pose proof (fnode_at _ _ _ F) as A. unfold get_node. rewrite A. cbn [ub_none bind]. unfold set_left, set_right. rewrite !(set_at _ _ _ _ A).
  destruct f as [b i r|b l i]; cbn [n_left n_right sib_differs fsib] in *; [rewrite eqp_refl; putt|]. rewrite (eqp_false _ _ S0), eqp_refl. putt.
Qed.
Lemma put_right_spec : forall d c p q, repc d c p -> sib_differs c p -> exists d', put_right_first d (parent c) p q = Ret d' /\ pointed d c q d'.
Proof.
  intros d [|f c] p q R S0; cbn [parent put_right_first]; [eexists; split; [reflexivity|]; cbn; auto|]. destruct R as [F R]. pose proof (fnode_at _ _ _ F) as A. unfold get_node. rewrite A. cbn [ub_none bind]. unfold set_left, set_right. rewrite !(set_at _ _ _ _ A).
  destruct f as [b i r|b l i]; cbn [n_left n_right sib_differs fsib] in *; [rewrite (eqp_false _ _ S0), eqp_refl; putt|]. rewrite eqp_refl. putt.
Qed.
Lemma put_else_spec : forall d c p q, repc d c p -> sib_differs c p -> exists d', put_else d (parent c) p q = Ret d' /\ pointed d c q d'.
Proof.
  intros d [|f c] p q R S0; cbn [parent put_else]; [eexists; split; [reflexivity|]; cbn; auto|]. destruct R as [F R]. pose proof (fnode_at _ _ _ F) as A. unfold swap_child, get_node. rewrite A. cbn [ub_none bind]. unfold set_left, set_right. rewrite !(set_at _ _ _ _ A).
  destruct f as [b i r|b l i]; cbn [n_left n_right sib_differs fsib] in *; [rewrite eqp_refl; putt|]. rewrite (eqp_false _ _ S0). putt.
Qed.
Lemma holds_own : forall d c b l i r, holds d c (T b l i r) -> cnt (iaddr i) (inorder l) = 0 /\ cnt (iaddr i) (inorder r) = 0 /\ cnt (iaddr i) (citems c) = 0.
Proof.
  intros d c b l i r (_ & _ & O). rewrite once_plug in O. specialize (O (iaddr i)). rewrite cnt_node, Pos.eqb_refl in O. pose proof (cnt_pos (iaddr i) (inorder l)). pose proof (cnt_pos (iaddr i) (inorder r)). pose proof (cnt_pos (iaddr i) (citems c)). lia.
Qed.
Lemma own_sib : forall c a, cnt a (citems c) = 0 -> sib_differs c (Some a).
Proof. intros [|f c] a H; [exact Logic.I|]. cbn. intros X. apply troot_cnt in X. rewrite cnt_frame in H. pose proof (cnt_pos a (citems c)). destruct (Pos.eqb _ _); lia. Qed.
Lemma cnt_ne : forall a b l, cnt a l = 0 -> 0 < cnt b l -> b <> a. Proof. intros a b l H P ->. lia. Qed.

Lemma holds_rl : forall d c b l i b2 l2 i2 r2, holds d c (T b l i (T b2 l2 i2 r2)) ->
  exists d', rotate_left d (parent c) (Some (iaddr i)) = Ret d' /\ holds d' c (T b2 (T b l i l2) i2 r2).
Proof.
  intros d c b l i b2 l2 i2 r2 H. destruct (holds_own _ _ _ _ _ _ H) as (A1 & A2 & A3). assert (H2 := H). apply holds_right in H2. destruct (holds_own _ _ _ _ _ _ H2) as (B1 & B2 & B3).
  rewrite cnt_frame in B3. cbn [fitem fsib] in B3. rewrite cnt_node in A2.
  assert (NE : iaddr i <> iaddr i2). { intros X. rewrite X, Pos.eqb_refl in A2. pose proof (cnt_pos (iaddr i2) (inorder l2)). pose proof (cnt_pos (iaddr i2) (inorder r2)). lia. }
  pose proof (cnt_pos (iaddr i) (inorder l2)). pose proof (cnt_pos (iaddr i) (inorder r2)). pose proof (cnt_pos (iaddr i2) (inorder l)). pose proof (cnt_pos (iaddr i2) (citems c)).
  destruct (Pos.eqb_spec (iaddr i) (iaddr i2)); [congruence|]. destruct (Pos.eqb_spec (iaddr i2) (iaddr i)); [congruence|].
  destruct H as (R & C & O). cbn [rep troot] in R, C. destruct R as (N1 & RL & N2 & RL2 & RR2). unfold rotate_left. unfold get_node at 1. rewrite N1. cbn [ub_none bind n_right]. unfold get_node at 1. rewrite N2. cbn [ub_none bind n_left].
  unfold set_right at 1. rewrite (set_at _ _ _ _ N1). cbn [bind]. unfold set_left at 1.
  set (d1 := mkd (upd (nodes d) (iaddr i) _) _ _ _ _). assert (N2' : nodes d1 (iaddr i2) = nodes d (iaddr i2)) by (cbn; apply upd_ne; congruence). rewrite N2 in N2'. rewrite (set_at _ _ _ _ N2'). cbn [bind].
  set (d2 := mkd (upd (nodes d1) (iaddr i2) _) _ _ _ _).
  assert (S2 : forall x, x <> iaddr i -> x <> iaddr i2 -> nodes d2 x = nodes d x) by (intros x X Y; cbn; rewrite !upd_ne by assumption; reflexivity).
  assert (C2 : repc d2 c (Some (iaddr i))). { apply (repc_same c d); [|reflexivity|exact C]. intros x P. apply S2; (apply (cnt_ne _ _ (citems c)); [lia|exact P]). }
  destruct (put_left_spec d2 c (Some (iaddr i)) (Some (iaddr i2)) C2 (own_sib _ _ A3)) as (d3 & E3 & P3).
  exists d3. split; [exact E3|]. rewrite once_plug in O.
  assert (S3 : forall x, cnt x (citems c) = 0 -> x <> iaddr i -> x <> iaddr i2 -> nodes d3 x = nodes d x) by (intros x Z0 X Y; rewrite (pointed_nodes _ _ _ _ _ Z0 P3); apply S2; assumption).
  assert (OC : forall x, 0 < cnt x (inorder l) + cnt x (inorder l2) + cnt x (inorder r2) -> cnt x (citems c) = 0).
  { intros x P. specialize (O x). rewrite !cnt_node in O. pose proof (cnt_pos x (citems c)). repeat destruct (Pos.eqb _ _); lia. }
  split; [|split].
  - cbn [rep troot]. assert (K1 : node_at d3 i2 (Some (iaddr i)) (troot r2) b2).
    { unfold node_at. assert (Z2 : cnt (iaddr i2) (citems c) = 0) by lia. rewrite (pointed_nodes _ _ _ _ _ Z2 P3). cbn. rewrite upd_at. reflexivity. }
    assert (K2 : node_at d3 i (troot l) (troot l2) b). { unfold node_at. rewrite (pointed_nodes _ _ _ _ _ A3 P3). cbn. rewrite upd_ne by congruence. rewrite upd_at. reflexivity. }
    split; [exact K1|]. split; [split; [exact K2|split]|].
    + apply (rep_same l d); [|exact RL]. intros x P. pose proof (cnt_pos x (inorder l2)). pose proof (cnt_pos x (inorder r2)). apply S3; [apply OC; lia| |]; (apply (cnt_ne _ _ (inorder l)); [lia|exact P]).
    + apply (rep_same l2 d); [|exact RL2]. intros x P. pose proof (cnt_pos x (inorder l)). pose proof (cnt_pos x (inorder r2)). apply S3; [apply OC; lia| |]; (apply (cnt_ne _ _ (inorder l2)); [lia|exact P]).
    + apply (rep_same r2 d); [|exact RR2]. intros x P. pose proof (cnt_pos x (inorder l)). pose proof (cnt_pos x (inorder l2)). apply S3; [apply OC; lia| |]; (apply (cnt_ne _ _ (inorder r2)); [lia|exact P]).
  - cbn [troot]. apply (repc_pointed c d2 (Some (iaddr i))); [|exact C2|exact P3]. intros x. specialize (O x). pose proof (cnt_pos x (inorder (T b l i (T b2 l2 i2 r2)))). lia.
  - apply once_plug. intros x. specialize (O x). rewrite !cnt_node in *. lia.
Qed.
Lemma holds_rr : forall d c b r i b2 l2 i2 r2, holds d c (T b (T b2 l2 i2 r2) i r) ->
  exists d', rotate_right d (parent c) (Some (iaddr i)) = Ret d' /\ holds d' c (T b2 l2 i2 (T b r2 i r)).
Proof.
  intros d c b l i b2 r2 i2 l2 H. destruct (holds_own _ _ _ _ _ _ H) as (A2 & A1 & A3). assert (H2 := H). apply holds_left in H2. destruct (holds_own _ _ _ _ _ _ H2) as (B2 & B1 & B3).
  rewrite cnt_frame in B3. cbn [fitem fsib] in B3. rewrite cnt_node in A2.
  assert (NE : iaddr i <> iaddr i2). { intros X. rewrite X, Pos.eqb_refl in A2. pose proof (cnt_pos (iaddr i2) (inorder l2)). pose proof (cnt_pos (iaddr i2) (inorder r2)). lia. }
  pose proof (cnt_pos (iaddr i) (inorder l2)). pose proof (cnt_pos (iaddr i) (inorder r2)). pose proof (cnt_pos (iaddr i2) (inorder l)). pose proof (cnt_pos (iaddr i2) (citems c)).
  destruct (Pos.eqb_spec (iaddr i) (iaddr i2)); [congruence|]. destruct (Pos.eqb_spec (iaddr i2) (iaddr i)); [congruence|].
  destruct H as (R & C & O). cbn [rep troot] in R, C. destruct R as (N1 & (N2 & RR2 & RL2) & RL). unfold rotate_right. unfold get_node at 1. rewrite N1. cbn [ub_none bind n_left]. unfold get_node at 1. rewrite N2. cbn [ub_none bind n_right].
  unfold set_left at 1. rewrite (set_at _ _ _ _ N1). cbn [bind]. unfold set_right at 1.
  set (d1 := mkd (upd (nodes d) (iaddr i) _) _ _ _ _). assert (N2' : nodes d1 (iaddr i2) = nodes d (iaddr i2)) by (cbn; apply upd_ne; congruence). rewrite N2 in N2'. rewrite (set_at _ _ _ _ N2'). cbn [bind].
  set (d2 := mkd (upd (nodes d1) (iaddr i2) _) _ _ _ _).
  assert (S2 : forall x, x <> iaddr i -> x <> iaddr i2 -> nodes d2 x = nodes d x) by (intros x X Y; cbn; rewrite !upd_ne by assumption; reflexivity).
  assert (C2 : repc d2 c (Some (iaddr i))). { apply (repc_same c d); [|reflexivity|exact C]. intros x P. apply S2; (apply (cnt_ne _ _ (citems c)); [lia|exact P]). }
  destruct (put_right_spec d2 c (Some (iaddr i)) (Some (iaddr i2)) C2 (own_sib _ _ A3)) as (d3 & E3 & P3).
  exists d3. split; [exact E3|]. rewrite once_plug in O.
  assert (S3 : forall x, cnt x (citems c) = 0 -> x <> iaddr i -> x <> iaddr i2 -> nodes d3 x = nodes d x) by (intros x Z0 X Y; rewrite (pointed_nodes _ _ _ _ _ Z0 P3); apply S2; assumption).
  assert (OC : forall x, 0 < cnt x (inorder l) + cnt x (inorder l2) + cnt x (inorder r2) -> cnt x (citems c) = 0).
  { intros x P. specialize (O x). rewrite !cnt_node in O. pose proof (cnt_pos x (citems c)). repeat destruct (Pos.eqb _ _); lia. }
  split; [|split].
  - cbn [rep troot]. assert (K1 : node_at d3 i2 (troot r2) (Some (iaddr i)) b2).
    { unfold node_at. assert (Z2 : cnt (iaddr i2) (citems c) = 0) by lia. rewrite (pointed_nodes _ _ _ _ _ Z2 P3). cbn. rewrite upd_at. reflexivity. }
    assert (K2 : node_at d3 i (troot l2) (troot l) b). { unfold node_at. rewrite (pointed_nodes _ _ _ _ _ A3 P3). cbn. rewrite upd_ne by congruence. rewrite upd_at. reflexivity. }
    split; [exact K1|]. split; [|split; [exact K2|split]].
    + apply (rep_same r2 d); [|exact RR2]. intros x P. pose proof (cnt_pos x (inorder l)). pose proof (cnt_pos x (inorder l2)). apply S3; [apply OC; lia| |]; (apply (cnt_ne _ _ (inorder r2)); [lia|exact P]).
    + apply (rep_same l2 d); [|exact RL2]. intros x P. pose proof (cnt_pos x (inorder l)). pose proof (cnt_pos x (inorder r2)). apply S3; [apply OC; lia| |]; (apply (cnt_ne _ _ (inorder l2)); [lia|exact P]).
    + apply (rep_same l d); [|exact RL]. intros x P. pose proof (cnt_pos x (inorder l2)). pose proof (cnt_pos x (inorder r2)). apply S3; [apply OC; lia| |]; (apply (cnt_ne _ _ (inorder l)); [lia|exact P]).
  - cbn [troot]. apply (repc_pointed c d2 (Some (iaddr i))); [|exact C2|exact P3]. intros x. specialize (O x). pose proof (cnt_pos x (inorder (T b (T b2 r2 i2 l2) i l))). lia.
  - apply once_plug. intros x. specialize (O x). rewrite !cnt_node in *. lia.
Qed.
