(** The invariant of a dictionary, and that every operation keeps it and answers as the association list does. *)
From Coq Require Import Sorting.Permutation Sorting.Sorted.
From Verif Require Import Base Links LinksProofs Table Dict DictSpec DictTree DictInsert DictRemove DictSwap DictOps.
Open Scope Z_scope.

Definition inv (cf : dcfg) (d : dict) (l : list item) : Prop :=
  (exists t, holds d [] t /\ redblack t /\ isorted (dcmp cf) (inorder t) /\ Permutation (inorder t) l) /\
  size d = Z.of_nat (length l) /\ (forall x, nodes d x <> None <-> In x (map iaddr l)) /\
  (ordered cf = true -> dll (links d) (olist d) (map iaddr l)).

Lemma inv_new : forall cf, inv cf new_dict [].
Proof.
  intros cf. split; [|split; [reflexivity|split]].
  - exists E. split; [split; [exact Logic.I|split; [reflexivity|intros x; cbn; lia]]|]. split; [split; [reflexivity|exists O; reflexivity]|]. split; [constructor|constructor].
  - intros x. cbn. tauto.
  - intros _. split; [constructor|]. cbn. auto.
Qed.

(** ** Keys *)
Section Keys.
Context (cmp : key -> key -> Z) (G : good_cmp cmp).
Definition distinct (l : list item) : Prop := forall i j, In i l -> In j l -> cmp (ikey i) (ikey j) = 0 -> i = j.
Lemma sorted_distinct : forall l, isorted cmp l -> distinct l.
Proof.
  induction 1 as [|x l S0 IH F]; intros i j I1 J1 C; [destruct I1|]. rewrite Forall_forall in F. unfold ilt in F. destruct I1 as [<-|I1], J1 as [<-|J1]; [reflexivity| | |apply IH; assumption].
  - specialize (F j J1). lia.
  - specialize (F i I1). apply (cmp_flip _ G) in C. lia.
Qed.
Lemma distinct_perm : forall l l', Permutation l l' -> distinct l -> distinct l'.
Proof. intros l l' P D i j I1 J1. apply D; (apply (Permutation_in _ (Permutation_sym P)); assumption). Qed.
Lemma same_key : forall k a b, cmp k a = 0 -> cmp k b = 0 -> cmp a b = 0.
Proof. intros k a b A B. pose proof (cmp_eq_l _ G k a b A). lia. Qed.
Lemma lookup_found : forall l i k, distinct l -> In i l -> cmp k (ikey i) = 0 -> lookup cmp k l = Some i.
Proof.
  induction l as [|x l IH]; intros i k D I1 C; [destruct I1|]. cbn [lookup]. destruct (cmp k (ikey x) =? 0) eqn:X.
  - apply Z.eqb_eq in X. f_equal. apply D; [left; reflexivity|exact I1|apply (same_key k); assumption].
  - destruct I1 as [->|I1]; [apply Z.eqb_neq in X; lia|]. apply IH; [|exact I1|exact C]. intros a b A B. apply D; right; assumption.
Qed.
Lemma lookup_none : forall l k, (forall i, In i l -> cmp k (ikey i) <> 0) -> lookup cmp k l = None.
Proof. induction l as [|x l IH]; intros k H; [reflexivity|]. cbn [lookup]. destruct (Z.eqb_spec (cmp k (ikey x)) 0) as [X|X]; [destruct (H x (or_introl eq_refl) X)|]. apply IH. intros i I1. apply H. right. exact I1. Qed.
Lemma lookup_in : forall l k i, lookup cmp k l = Some i -> In i l /\ cmp k (ikey i) = 0.
Proof. induction l as [|x l IH]; intros k i H; [discriminate|]. cbn [lookup] in H. destruct (Z.eqb_spec (cmp k (ikey x)) 0) as [X|X]; [injection H as <-; split; [left; reflexivity|exact X]|]. apply IH in H. destruct H. split; [right|]; assumption. Qed.
Lemma filter_all : forall (f : item -> bool) l, (forall x, In x l -> f x = true) -> filter f l = l.
Proof. induction l as [|x l IH]; intros H; [reflexivity|]. cbn [filter]. rewrite (H x (or_introl eq_refl)). f_equal. apply IH. intros y Y. apply H. right. exact Y. Qed.
Lemma without_one : forall l1 i l2 k, distinct (l1 ++ i :: l2) -> NoDup (map iaddr (l1 ++ i :: l2)) -> cmp k (ikey i) = 0 -> without cmp k (l1 ++ i :: l2) = l1 ++ l2.
Proof.
  intros l1 i l2 k D ND C. unfold without. rewrite filter_app. cbn [filter]. rewrite C. cbn [Z.eqb negb]. rewrite map_app in ND. cbn [map] in ND. apply NoDup_mid in ND. destruct ND as (_ & N1 & N2).
  assert (H : forall x, In x (l1 ++ l2) -> negb (cmp k (ikey x) =? 0) = true).
  { intros x X. destruct (Z.eqb_spec (cmp k (ikey x)) 0) as [Y|Y]; [|reflexivity]. exfalso. assert (x = i). { apply D; [| |apply (same_key k); assumption]; rewrite !in_app_iff in *; cbn [In]; tauto. }
    subst x. apply in_app_or in X. destruct X as [X|X]; apply (in_map iaddr) in X; contradiction. }
  f_equal; apply filter_all; intros x X; apply H; apply in_or_app; auto.
Qed.
End Keys.
Lemma stored_one : forall l1 i l2 v, NoDup (map iaddr (l1 ++ i :: l2)) -> stored (iaddr i) v (l1 ++ i :: l2) = l1 ++ (iaddr i, ikey i, Some v) :: l2.
Proof.
  intros l1 i l2 v ND. unfold stored. rewrite map_app. cbn [map]. rewrite Pos.eqb_refl. rewrite map_app in ND. cbn [map] in ND. apply NoDup_mid in ND. destruct ND as (_ & N1 & N2).
  assert (H : forall l, ~ In (iaddr i) (map iaddr l) -> map (fun j => if (iaddr j =? iaddr i)%positive then (iaddr j, ikey j, Some v) else j) l = l).
  { intros l X. rewrite <- (map_id l) at 2. apply map_ext_in. intros j J. destruct (Pos.eqb_spec (iaddr j) (iaddr i)) as [Y|Y]; [|reflexivity]. exfalso. apply X. rewrite <- Y. apply in_map. exact J. }
  rewrite !H by assumption. reflexivity.
Qed.
Lemma place : forall t i, In i (inorder t) -> exists c b l r, plug c (T b l i r) = t.
Proof.
  induction t as [|b l IHl j r IHr]; intros i H; [destruct H|]. cbn [inorder] in H. apply in_app_or in H. destruct H as [H|[->|H]].
  - destruct (IHl i H) as (c & b' & l' & r' & X). exists (c ++ [FL b j r]), b', l', r'. rewrite plug_app, X. reflexivity.
  - exists [], b, l, r. reflexivity.
  - destruct (IHr i H) as (c & b' & l' & r' & X). exists (c ++ [FR b l j]), b', l', r'. rewrite plug_app, X. reflexivity.
Qed.

(** ** The order list *)
Definition order_append (d : dict) (a : addr) : out dict :=
  let l := upd (links d) a (Some (mklnk (ltail (olist d)) None)) in
  match ltail (olist d) with
  | Some t => let* l := ub_none (set_nxt l t (Some a)) in Ret (mkd (nodes d) l (root d) (size d) (mklhdr (lhead (olist d)) (Some a)))
  | None => Ret (mkd (nodes d) l (root d) (size d) (mklhdr (Some a) (Some a)))
  end.
Lemma order_append_spec : forall d a l, dll (links d) (olist d) l -> ~ In a l ->
  exists d', order_append d a = Ret d' /\ dll (links d') (olist d') (l ++ [a]) /\ nodes d' = nodes d /\ root d' = root d /\ size d' = size d.
Proof.
  intros d a l (ND & HD & TL & SG) NI. unfold order_append. destruct (snoc_case l) as [->|(l' & t & ->)].
  - cbn [lastor hdor] in *. rewrite TL. eexists. split; [reflexivity|]. cbn [links olist nodes root size]. split; [|auto]. split; [repeat constructor; intros []|]. cbn. split; [reflexivity|]. split; [reflexivity|]. split; [apply upd_at|exact Logic.I].
  - rewrite lastor_app in TL. rewrite TL. apply seg_app in SG. destruct SG as [S1 S2]. cbn [seg hdor] in S1, S2. destruct S2 as [S2 _].
    assert (NE : t <> a) by (intros ->; apply NI; apply in_or_app; right; left; reflexivity).
    unfold set_nxt. rewrite upd_ne by exact NE. rewrite S2. cbn [ub_none bind prv]. eexists. split; [reflexivity|]. cbn [links olist nodes root size]. split; [|auto].
    apply NoDup_mid in ND. destruct ND as (ND1 & ND2 & _). rewrite app_nil_r in ND1.
    split; [|split; [|split]].
    + apply NoDup_insert; rewrite app_nil_r; [|exact NI]. apply NoDup_insert; rewrite app_nil_r; assumption.
    + cbn [lhead]. rewrite HD. rewrite !hdor_app. destruct l'; reflexivity.
    + cbn [ltail]. rewrite lastor_app. reflexivity.
    + rewrite <- app_assoc. apply seg_app. split.
      * cbn [app hdor]. apply (seg_frame (links d)); [|exact S1]. intros x X. rewrite !upd_ne; [reflexivity| |]; intros ->; [apply NI; apply in_or_app; auto|contradiction].
      * cbn [app seg hdor]. split; [rewrite upd_at; reflexivity|]. split; [|exact Logic.I]. rewrite upd_ne by congruence. apply upd_at.
Qed.
Lemma order_unlink_spec : forall d a l1 l2, dll (links d) (olist d) (l1 ++ a :: l2) ->
  exists d', order_unlink d a = Ret d' /\ dll (links d') (olist d') (l1 ++ l2) /\ nodes d' = nodes d /\ root d' = root d /\ size d' = size d.
Proof.
  intros d a l1 l2 (ND & HD & TL & SG). apply seg_app in SG. destruct SG as [S1 S2]. cbn [seg hdor] in S1, S2. destruct S2 as [SA S2]. assert (ND0 := ND). apply NoDup_mid in ND. destruct ND as (ND & N1 & N2).
  unfold order_unlink. unfold get_prv at 1, get_nxt at 1. rewrite SA. cbn [option_map prv nxt ub_none bind].
  destruct (snoc_case l1) as [->|(l1' & p & ->)].
  - cbn [lastor app] in *. cbn [links bind]. unfold get_prv, get_nxt. rewrite SA. cbn [option_map prv nxt ub_none bind]. destruct l2 as [|n l2]; cbn [hdor].
    + eexists. split; [reflexivity|]. cbn [links olist nodes root size]. split; [|auto]. split; [constructor|]. cbn. auto.
    + cbn [seg] in S2. destruct S2 as [SN S2]. unfold set_prv. rewrite SN. cbn [ub_none bind nxt olist]. eexists. split; [reflexivity|]. cbn [links olist nodes root size]. split; [|auto]. split; [exact ND|]. cbn [lhead ltail hdor]. split; [reflexivity|]. split; [rewrite TL; reflexivity|].
      cbn [seg]. split; [apply upd_at|]. apply (seg_frame (links d)); [|exact S2]. intros x X. apply upd_ne. intros ->. inversion ND; contradiction.
  - rewrite lastor_app in SA. rewrite lastor_app. apply seg_app in S1. cbn [seg hdor] in S1. destruct S1 as [S1 [SP _]].
    assert (NE : p <> a) by (intros ->; apply N1; apply in_or_app; right; left; reflexivity).
    unfold set_nxt. rewrite SP. cbn [ub_none bind prv links]. unfold get_prv, get_nxt. rewrite upd_ne by congruence. rewrite SA. cbn [option_map prv nxt ub_none bind olist].
    destruct l2 as [|n l2]; cbn [hdor].
    + eexists. split; [reflexivity|]. cbn [links olist nodes root size]. split; [|auto]. rewrite app_nil_r in *. split; [exact ND|]. cbn [lhead ltail].
      split; [rewrite HD, !hdor_app; destruct l1'; reflexivity|]. split; [rewrite lastor_app; reflexivity|]. apply NoDup_mid in ND. destruct ND as (_ & P1 & _).
      apply seg_app. split; [apply (seg_frame (links d)); [|exact S1]; intros x X; apply upd_ne; intros ->; contradiction|]. cbn [seg hdor]. split; [apply upd_at|exact Logic.I].
    + cbn [seg] in S2. destruct S2 as [SN S2]. assert (NP : n <> p). { intros ->. apply (NoDup_disj (l1' ++ [p]) (p :: l2) p ND); [apply in_or_app; right; left|left]; reflexivity. }
      unfold set_prv. rewrite upd_ne by exact NP. rewrite SN. cbn [ub_none bind nxt]. eexists. split; [reflexivity|]. cbn [links olist nodes root size]. split; [|auto]. split; [exact ND|]. cbn [lhead ltail].
      split; [rewrite HD, !hdor_app; destruct l1'; reflexivity|]. split; [rewrite TL, !(lastor_app2 None (l1' ++ [p])); reflexivity|].
      rewrite <- app_assoc in *. cbn [app] in *. assert (ND1 := ND). apply NoDup_mid in ND1. destruct ND1 as (ND1 & P1 & P2). apply NoDup_mid in ND1. destruct ND1 as (_ & Q1 & Q2).
      apply seg_app. split; [|cbn [seg hdor]; split; [|split]].
      * apply (seg_frame (links d)); [|exact S1]. intros x X. rewrite !upd_ne; [reflexivity| |]; intros ->; contradiction.
      * rewrite upd_ne by congruence. apply upd_at.
      * apply upd_at.
      * apply (seg_frame (links d)); [|exact S2]. intros x X. rewrite !upd_ne; [reflexivity| |]; intros ->; [apply P2; right; exact X|contradiction].
Qed.
Lemma dll_free : forall h hd l a, dll h hd l -> ~ In a l -> dll (upd h a None) hd l.
Proof. intros h hd l a (ND & A & B & C) NI. split; [exact ND|]. split; [exact A|]. split; [exact B|]. apply (seg_frame h); [|exact C]. intros x X. apply upd_ne. intros ->. contradiction. Qed.

(** ** Adding *)
Lemma set_at_hole : forall d c p, (forall x, cnt x (citems c) <= 1) -> repc d c None ->
  match c with [] => True | FL _ _ _ :: _ => exists d', set_left d (parent c) p = Ret d' /\ pointed d c p d' | FR _ _ _ :: _ => exists d', set_right d (parent c) p = Ret d' /\ pointed d c p d' end.
Proof.
  intros d [|f c] p O R; [exact Logic.I|]. destruct R as [F R]. pose proof (fnode_at _ _ _ F) as A. destruct f as [b i r|b l i]; cbn [parent fitem] in *; unfold set_left, set_right; rewrite (set_at _ _ _ _ A); eexists; (split; [reflexivity|]); cbn [pointed root nodes fitem]; (split; [reflexivity|]); (split; [intros x X; apply upd_ne; exact X|apply upd_at]).
Qed.
Lemma keep_pointed_l : forall d p q d', set_left d p q = Ret d' -> keep d d'. Proof. exact keep_left. Qed.

Ltac by_descend DE := match type of DE with _ = ?r => match goal with |- context [descend ?a ?b ?c ?d ?e ?f ?g] => replace (descend a b c d e f g) with r by (symmetry; exact DE) end end.
Lemma get_or_add_spec : forall cf d l k m, good_cmp (dcmp cf) -> inv cf d l -> size d < limit (has_log2 cf) -> (match m with Some a => ~ In a (map iaddr l) | None => True end) ->
  exists d', get_or_add cf d k m = Ret (d', snd (got_or_added (dcmp cf) l k m)) /\ inv cf d' (fst (got_or_added (dcmp cf) l k m)).
Proof.
  intros cf d l k m G IV LT FR. assert (IV0 := IV). destruct IV as ((t & H & RB & SO & PM) & SZ & LV & OR).
  assert (SZ' : size d = Z.of_nat (length (inorder t))) by (rewrite (Permutation_length PM); exact SZ).
  destruct (room_ok cf d t 1 RB SZ' LT ltac:(lia)) as (room & RM & HR). unfold get_or_add. rewrite RM. cbn [bind].
  destruct (descend_spec cf k G t d [] room 0) as (path & found & z & DE & LA); [apply H|lia|exact Logic.I|exact SO|constructor|constructor|].
  assert (RT : root d = troot t) by (destruct H as (_ & X & _); exact X). rewrite RT. cbn [path_of map] in DE. by_descend DE. cbn [bind].
  assert (DI : distinct (dcmp cf) l) by (apply (distinct_perm _ _ _ PM); apply sorted_distinct; assumption).
  destruct LA as [(c & b & tl & i & tr & PL & CM & -> & ->)|(c & PL & -> & -> & SD & AB & BE)]; cbn [plug] in PL.
  { exists d. assert (LK : lookup (dcmp cf) k l = Some i). { apply lookup_found; try assumption. apply (Permutation_in _ PM). rewrite <- PL, inorder_plug. cbn [inorder]. rewrite !in_app_iff. cbn [In]. tauto. }
    unfold got_or_added. rewrite LK. split; [reflexivity|exact IV0]. }
  assert (IO : inorder t = cleft c ++ cright c) by (rewrite <- PL, inorder_plug; reflexivity).
  assert (LK : lookup (dcmp cf) k l = None).
  { apply lookup_none. intros i I1. apply (Permutation_in _ (Permutation_sym PM)) in I1. rewrite IO in I1. unfold above, below in AB, BE. rewrite Forall_forall in AB, BE. apply in_app_or in I1. destruct I1 as [I1|I1]; [specialize (AB i I1)|specialize (BE i I1)]; lia. }
  unfold got_or_added. rewrite LK. destruct m as [a|]; [|exists d; split; [reflexivity|exact IV0]]. cbn [fst snd].
  set (i := (a, k, None) : item). set (d1 := mkd (upd (nodes d) a _) (links d) (troot t) (size d) (olist d)).
  assert (HC : holds d c E) by (apply holds_whole; rewrite PL; exact H).
  assert (NA : nodes d a = None). { destruct (nodes d a) eqn:X; [|reflexivity]. exfalso. apply FR, LV. congruence. }
  assert (CA : forall x, 0 < cnt x (inorder t) -> x <> a). { intros x X ->. apply cnt_in in X. apply FR. apply (Permutation_in _ (Permutation_map iaddr PM)). exact X. }
  assert (CP : forall x, cnt x (inorder t) = cnt x (citems c)) by (intros x; rewrite <- PL, cnt_plug; reflexivity).
  assert (ON : forall x, cnt x (citems c) <= 1) by (intros x; rewrite <- CP; apply H).
  assert (CA0 : cnt a (citems c) = 0). { pose proof (cnt_pos a (citems c)). destruct (Z.eq_dec (cnt a (citems c)) 0); [assumption|]. exfalso. apply (CA a); [rewrite CP; lia|reflexivity]. }
  (* the order list *)
  assert (X2 : exists d2, (if ordered cf then order_append d1 a else Ret d1) = Ret d2 /\ nodes d2 = nodes d1 /\ root d2 = root d /\ size d2 = size d /\ (ordered cf = true -> dll (links d2) (olist d2) (map iaddr l ++ [a]))).
  { destruct (ordered cf) eqn:O1.
    - destruct (order_append_spec d1 a (map iaddr l) (OR eq_refl) FR) as (d2 & E2 & D2 & N2 & R2 & S2). exists d2. split; [exact E2|]. split; [exact N2|]. split; [rewrite R2, RT; reflexivity|]. split; [rewrite S2; reflexivity|]. intros _. exact D2.
    - exists d1. split; [reflexivity|]. split; [reflexivity|]. split; [cbn; congruence|]. split; [reflexivity|discriminate]. }
  destruct X2 as (d2 & E2 & N2 & R2 & S2 & D2). unfold order_append in E2. cbn [nodes links root size olist d1] in E2. cbn [nodes links root size olist d1]. rewrite E2. cbn [bind].
  assert (RC2 : repc d2 c None). { apply (repc_same c d); [|exact R2|apply HC]. intros x X. rewrite N2. cbn. apply upd_ne. intros ->. lia. }
  assert (X3 : exists d3, match path_of c with parent :: _ => if z <? 0 then set_left d2 parent (Some a) else set_right d2 parent (Some a) | [] => Ret (set_root d2 (Some a)) end = Ret d3 /\ pointed d2 c (Some a) d3 /\ keep d2 d3).
  { pose proof (set_at_hole d2 c (Some a) ON RC2) as X. destruct c as [|f c]; [eexists; split; [reflexivity|]; split; [cbn; auto|apply keep_root]|]. cbn [path_of map fitem side] in *. destruct f as [b0 i0 r0|b0 l0 i0]; destruct X as (d3 & E3 & P3); exists d3; cbn [parent fitem] in *.
    - destruct (Z.ltb_spec z 0); [|lia]. split; [exact E3|]. split; [exact P3|exact (keep_left _ _ _ _ E3)].
    - destruct (Z.ltb_spec z 0); [lia|]. split; [exact E3|]. split; [exact P3|exact (keep_right _ _ _ _ E3)]. }
  destruct X3 as (d3 & E3 & P3 & K3). rewrite E3. cbn [bind].
  assert (LC : (length (path_of c) < room)%nat). { rewrite path_len. pose proof (height_plug c E). rewrite PL in *. cbn [height] in *. lia. }
  apply Nat.ltb_lt in LC. rewrite LC.
  assert (H3 : holds d3 c (T true E i E)).
  { split; [|split].
    - cbn [rep troot]. split; [|auto]. unfold node_at, i, iaddr, ikey, ival. cbn [fst snd]. rewrite (pointed_nodes _ _ _ _ _ CA0 P3), N2. cbn. apply upd_at.
    - cbn [troot]. apply (repc_pointed c d2 None); [exact ON|exact RC2|exact P3].
    - apply once_plug. intros x. rewrite cnt_node. cbn [inorder cnt]. change (iaddr i) with a. destruct (Pos.eqb_spec x a) as [->|NE]; [rewrite CA0; lia|]. specialize (ON x). lia. }
  destruct (rb_unplug c E) as (n & RE & RCx & _); [rewrite PL; exact RB|]. cbn [rb] in RE.
  destruct (fix_after_insert_spec (length c) c (Nat.le_refl _) d3 E i E n H3) as (d4 & E4 & (t' & H4 & IO4 & RB4)); try assumption; try reflexivity; try (subst n; reflexivity).
  change (iaddr i) with a in E4. pose proof (keep_fai _ _ (Nat.le_refl _) _ _ E4) as K4.
  match goal with |- context [fix_after_insert ?x ?y] => replace (fix_after_insert x y) with (Ret d4) by (symmetry; exact E4) end. cbn [bind]. eexists. split; [reflexivity|].
  assert (K := keep_trans _ _ _ K3 K4). destruct K as (KL & KS & KO & KN).
  split; [|split; [|split]].
  - exists t'. split; [apply (holds_ext d4); [reflexivity|reflexivity|exact H4]|]. split; [exact RB4|]. rewrite IO4, inorder_plug. cbn [inorder app]. split.
    + apply sorted_insert; try assumption. rewrite <- IO. exact SO.
    + rewrite <- PM, IO. rewrite <- Permutation_middle. rewrite (Permutation_app_comm _ [i]). reflexivity.
  - cbn [size]. rewrite KS, S2, SZ, app_length. cbn [length]. lia.
  - intros x. cbn [nodes]. rewrite map_app, in_app_iff. cbn [map In]. change (iaddr i) with a. rewrite <- LV. rewrite KN, N2. cbn [d1 nodes]. destruct (Pos.eqb_spec x a) as [->|NE]; [rewrite upd_at; split; [auto|discriminate]|]. rewrite upd_ne by exact NE. split; [tauto|]. intros [X|[X|[]]]; congruence.
  - intros O1. cbn [links olist]. rewrite KL, KO, map_app. exact (D2 O1).
Qed.
