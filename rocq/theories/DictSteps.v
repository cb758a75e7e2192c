(** Storing, removing, walking and destroying. *)
From Coq Require Import Sorting.Permutation Sorting.Sorted.
From Verif Require Import Base Links LinksProofs Table Dict DictSpec DictTree DictInsert DictRemove DictSwap DictOps DictHold.
Open Scope Z_scope.

Lemma rep_in : forall t d i, rep d t -> In i (inorder t) -> exists lp rp b, nodes d (iaddr i) = Some (mkn lp rp b (ikey i) (ival i)).
Proof.
  induction t as [|b l IHl j r IHr]; intros d i R H; [destruct H|]. cbn [rep inorder] in *. destruct R as (N0 & RL & RR). apply in_app_or in H. destruct H as [H|[<-|H]]; [eauto| |eauto]. unfold node_at in N0. eauto.
Qed.
Lemma inv_node : forall cf d l i, inv cf d l -> In i l -> exists lp rp b, nodes d (iaddr i) = Some (mkn lp rp b (ikey i) (ival i)).
Proof.
  intros cf d l i ((t & H & _ & _ & PM) & _) I1. apply (rep_in t d i); [apply H|]. apply (Permutation_in _ (Permutation_sym PM)). exact I1.
Qed.
Lemma inv_nodup : forall cf d l, inv cf d l -> NoDup (map iaddr l).
Proof. intros cf d l ((t & H & _ & _ & PM) & _). apply (Permutation_NoDup (Permutation_map iaddr PM)). apply once_nodup. apply H. Qed.
Lemma inv_distinct : forall cf d l, good_cmp (dcmp cf) -> inv cf d l -> distinct (dcmp cf) l.
Proof. intros cf d l G ((t & _ & _ & SO & PM) & _). apply (distinct_perm _ _ _ PM). apply sorted_distinct; assumption. Qed.

Lemma dict_add_spec : forall cf d l k m, good_cmp (dcmp cf) -> inv cf d l -> size d < limit (has_log2 cf) -> (match m with Some a => ~ In a (map iaddr l) | None => True end) ->
  exists d' p, dict_add cf d k m = Ret (d', p) /\ inv cf d' (fst (got_or_added (dcmp cf) l k m)) /\
    p = match lookup (dcmp cf) k l with Some i => match ival i with Some _ => None | None => Some (iaddr i) end | None => m end.
Proof.
  intros cf d l k m G IV LT FR. destruct (get_or_add_spec cf d l k m G IV LT FR) as (d' & E1 & IV'). unfold dict_add. rewrite E1. cbn [bind]. unfold got_or_added in *. destruct (lookup (dcmp cf) k l) as [i|] eqn:LK; cbn [fst snd] in *.
  - apply lookup_in in LK. destruct (inv_node cf d' l i IV' (proj1 LK)) as (lp & rp & b & N0). unfold get_node. rewrite N0. cbn [ub_none bind n_val]. destruct (ival i); eauto.
  - destruct m as [a|]; cbn [fst snd] in *; [|eauto]. destruct (inv_node cf d' _ (a, k, None) IV') as (lp & rp & b & N0); [apply in_or_app; right; left; reflexivity|]. unfold get_node. unfold iaddr in N0. cbn [fst snd] in N0. rewrite N0. cbn. eauto.
Qed.

Lemma holds_store : forall d c b l i r v, holds d c (T b l i r) -> exists d', dict_store d (Some (iaddr i)) v = Ret d' /\ holds d' c (T b l (iaddr i, ikey i, Some v) r) /\ keep d d'.
Proof.
  intros d c b l i r v H. destruct (holds_own _ _ _ _ _ _ H) as (A1 & A2 & A3). destruct H as (R & C & O). cbn [rep] in R. destruct R as (N0 & RL & RR). unfold dict_store. destruct (set_node d (Some (iaddr i)) _) as [d'| |] eqn:E1; rewrite (set_at _ _ _ _ N0) in E1; try discriminate E1.
  exists d'. split; [reflexivity|]. injection E1 as <-. split.
  - split; [|split].
    + cbn [rep]. split; [unfold node_at; cbn; apply upd_at|]. split; (eapply rep_same; [|eassumption]); intros x P; cbn; apply upd_ne; intros ->; lia.
    + apply (repc_same c d); [|reflexivity|exact C]. intros x P. cbn [nodes]. apply upd_ne. intros ->. lia.
    + apply once_plug. intros x. rewrite once_plug in O. specialize (O x). rewrite cnt_node in *. exact O.
  - split; [reflexivity|]. split; [reflexivity|]. split; [reflexivity|]. intros x. cbn. unfold upd. destruct (Pos.eqb_spec x (iaddr i)) as [->|]; [|tauto]. rewrite N0. split; discriminate.
Qed.
Lemma dict_store_spec : forall cf d l a v, inv cf d l -> In a (map iaddr l) -> exists d', dict_store d (Some a) v = Ret d' /\ inv cf d' (stored a v l).
Proof.
  intros cf d l a v IV IA. pose proof (inv_nodup _ _ _ IV) as ND. destruct IV as ((t & H & RB & SO & PM) & SZ & LV & OR). apply in_map_iff in IA. destruct IA as (i & <- & I1).
  destruct (place t i) as (c & b & tl & tr & PL). { apply (Permutation_in _ (Permutation_sym PM)). exact I1. }
  assert (HC : holds d c (T b tl i tr)) by (apply holds_whole; rewrite PL; exact H). destruct (holds_store _ _ _ _ _ _ v HC) as (d' & E1 & H1 & (KL & KS & KO & KN)). exists d'. split; [exact E1|].
  destruct (in_split _ _ I1) as (l1 & l2 & ->). rewrite stored_one by exact ND. set (i' := (iaddr i, ikey i, Some v)) in *.
  assert (MA : map iaddr (l1 ++ i' :: l2) = map iaddr (l1 ++ i :: l2)) by (rewrite !map_app; reflexivity).
  split; [|split; [|split]].
  - exists (plug c (T b tl i' tr)). split; [exact (proj1 (holds_whole d' c _) H1)|].
    assert (SH : same_shape t (plug c (T b tl i' tr))). { rewrite <- PL. apply shape_plug. constructor; apply shape_refl. }
    split; [apply (shape_redblack _ _ SH RB)|]. rewrite <- PL, inorder_plug in SO, PM. rewrite inorder_plug. cbn [inorder] in *. rewrite <- !app_assoc in *. cbn [app] in *. split.
    + clear - SO. change (isorted (dcmp cf) (cleft c ++ inorder tl ++ i' :: inorder tr ++ cright c)). rewrite app_assoc in *. apply sorted_app in SO. destruct SO as (S1 & S2 & S3). apply sorted_app. split; [exact S1|]. split.
      * inversion S2 as [|? ? S4 S5]; subst. constructor; [exact S4|exact S5].
      * intros x y X [<-|Y]; [exact (S3 x i X (or_introl eq_refl))|apply S3; [exact X|right; exact Y]].
    + rewrite app_assoc in *. apply Permutation_app_inv in PM. rewrite <- Permutation_middle. rewrite <- Permutation_middle. constructor. exact PM.
  - rewrite KS, SZ, !app_length. reflexivity.
  - intros x. rewrite MA, <- LV, KN. reflexivity.
  - intros O1. rewrite MA, KL, KO. exact (OR O1).
Qed.

(** ** Removing *)
Lemma dict_remove_spec : forall cf d l k, good_cmp (dcmp cf) -> inv cf d l -> size d < limit (has_log2 cf) ->
  exists d', match lookup (dcmp cf) k l with
  | Some _ => dict_remove cf d k = Ret (d', 0) /\ inv cf d' (without (dcmp cf) k l)
  | None => dict_remove cf d k = Ret (d', -1) /\ inv cf d' l
  end.
Proof.
  intros cf d l k G IV LT. pose proof (inv_nodup _ _ _ IV) as ND. pose proof (inv_distinct _ _ _ G IV) as DI. assert (IV0 := IV). destruct IV as ((t & H & RB & SO & PM) & SZ & LV & OR).
  assert (SZ' : size d = Z.of_nat (length (inorder t))) by (rewrite (Permutation_length PM); exact SZ).
  assert (RT : root d = troot t) by (destruct H as (_ & X & _); exact X). unfold dict_remove. rewrite RT. destruct t as [|tb tl0 ti tr0].
  { cbn [troot]. exists d. cbn [inorder] in PM. apply Permutation_nil in PM. subst l. cbn [lookup]. auto. }
  set (t := T tb tl0 ti tr0) in *. change (troot t) with (Some (iaddr ti)) at 1. cbv beta iota.
  destruct (room_ok cf d t 0 RB SZ' LT ltac:(lia)) as (room & RM & HR). rewrite RM. cbn [bind].
  destruct (descend_spec cf k G t d [] room 0) as (path & found & z & DE & LA); [apply H|lia|exact Logic.I|exact SO|constructor|constructor|].
  cbn [path_of map] in DE. by_descend DE. cbn [bind].
  destruct LA as [(c & b & tl & i & tr & PL & CM & -> & ->)|(c & PL & -> & -> & SD & AB & BE)]; cbn [plug] in PL.
  2:{ exists d. assert (IO : inorder t = cleft c ++ cright c) by (rewrite <- PL, inorder_plug; reflexivity).
    rewrite lookup_none; [auto|]. intros i I1. apply (Permutation_in _ (Permutation_sym PM)) in I1. rewrite IO in I1. unfold above, below in AB, BE. rewrite Forall_forall in AB, BE. apply in_app_or in I1. destruct I1 as [I1|I1]; [specialize (AB i I1)|specialize (BE i I1)]; lia. }
  assert (I1 : In i l). { apply (Permutation_in _ PM). rewrite <- PL, inorder_plug. cbn [inorder]. rewrite !in_app_iff. cbn [In]. tauto. }
  rewrite (lookup_found _ G l i k DI I1 CM). assert (HC : holds d c (T b tl i tr)) by (apply holds_whole; rewrite PL; exact H).
  destruct (swap_successor_spec room d c b tl i tr HC) as (d1 & c1 & b1 & l1 & r1 & E1 & (H1 & CH & IO1 & RB1 & HE1)); [rewrite PL; lia|pose proof (height_plug c (T b tl i tr)); rewrite PL in *; lia|].
  match goal with |- context [swap_successor ?a1 ?a2 ?a3 ?a4] => replace (swap_successor a1 a2 a3 a4) with (Ret (d1, Some (iaddr i) :: path_of c1)) by (symmetry; exact E1) end. cbn [bind].
  pose proof (keep_swap _ _ _ _ _ _ E1) as K1. rewrite (holds_node _ _ _ _ _ _ H1). cbn [bind n_left n_right n_red].
  destruct (holds_own _ _ _ _ _ _ H1) as (A1 & A2 & A3). assert (H1' := H1). destruct H1' as (R1 & C1 & O1). cbn [rep] in R1. destruct R1 as (N1 & RL1 & RR1). cbn [troot] in C1.
  rewrite PL in RB1. specialize (RB1 RB). rewrite once_plug in O1.
  set (s := match l1 with E => r1 | _ => l1 end).
  assert (S1 : match troot l1 with Some _ => troot l1 | None => troot r1 end = troot s) by (unfold s; destruct l1; reflexivity). rewrite S1.
  assert (S2 : rep d1 s) by (unfold s; destruct l1; assumption).
  assert (S3 : inorder l1 ++ inorder r1 = inorder s) by (unfold s; destruct CH as [-> | ->]; [reflexivity|]; destruct l1; [reflexivity|apply app_nil_r]).
  assert (S4 : forall x, cnt x (inorder s) = cnt x (inorder l1) + cnt x (inorder r1)) by (intros x; rewrite <- S3; apply cnt_app).
  assert (ON : forall x, cnt x (citems c1) <= 1). { intros x. specialize (O1 x). pose proof (cnt_pos x (inorder (T b1 l1 i r1))). lia. }
  destruct (put_else_spec d1 c1 (Some (iaddr i)) (troot s) C1 (own_sib _ _ A3)) as (d2 & E2 & P2).
  assert (X2 : (match Some (iaddr i) :: path_of c1 with _ :: above :: _ => swap_child d1 above (Some (iaddr i)) (troot s) | _ => Ret (set_root d1 (troot s)) end) = Ret d2) by (destruct c1 as [|f1 c1]; exact E2).
  match goal with |- context [bind ?m _] => replace m with (Ret d2) by (symmetry; exact X2) end. cbn [bind].
  assert (K2 : keep d1 d2). { clear - E2. unfold put_else, swap_child in E2. keeps; kt. }
  assert (H2 : holds d2 c1 s).
  { split; [|split].
    - apply (rep_same s d1); [|exact S2]. intros x P. rewrite S4 in P. apply (pointed_nodes _ c1 (troot s)); [|exact P2]. specialize (O1 x). rewrite cnt_node in O1. pose proof (cnt_pos x (citems c1)). destruct (Pos.eqb _ _); lia.
    - apply (repc_pointed c1 d1 (Some (iaddr i))); assumption.
    - apply once_plug. intros x. specialize (O1 x). rewrite cnt_node in O1. rewrite S4. destruct (Pos.eqb _ _); lia. }
  assert (IO2 : inorder (plug c1 s) = cleft c ++ inorder tl ++ inorder tr ++ cright c) by (rewrite inorder_plug, <- S3, <- app_assoc; exact IO1).
  destruct (rb_unplug _ _ RB1) as (n & RBN & RBC & TB). cbn [rb tred] in RBN, TB.
  assert (X3 : exists d3, (if b1 then Ret d2 else fix_after_remove room (2 * length (troot s :: path_of c1) + 2) d2 (troot s :: path_of c1)) = Ret d3 /\ repaired d3 (inorder (plug c1 s)) /\ keep d2 d3).
  { destruct b1.
    - exists d2. split; [reflexivity|]. split; [|apply keep_refl]. destruct RBN as (Q1 & Q2 & Q3 & Q4). assert (RS : rb s n) by (unfold s; destruct l1; assumption). assert (BS : tred s = false) by (unfold s; destruct l1; assumption).
      apply (repaired_at _ c1 s _ n H2 eq_refl RS RBC). congruence.
    - destruct RBN as (n0 & -> & Q1 & Q2). assert (RS : rb s n0) by (unfold s; destruct l1; assumption).
      destruct (fix_after_remove_spec (2 * length (troot s :: path_of c1) + 2) room c1 d2 s n0) as (d3 & E3 & R3); try assumption.
      + cbn [length]. rewrite path_len. unfold enough. destruct c1 as [|f1 c1]; [lia|]. destruct (fred f1); cbn [length]; lia.
      + apply (hfits_plug c1 (T false l1 i r1)). rewrite HE1, PL. lia.
      + exists d3. split; [exact E3|]. split; [exact R3|]. exact (keep_far _ _ _ _ _ E3). }
  destruct X3 as (d3 & E3 & (t' & H3 & IO3 & RB3) & K3). match goal with |- context [bind ?m _] => replace m with (Ret d3) by (symmetry; exact E3) end. cbn [bind].
  assert (K := keep_trans _ _ _ (keep_trans _ _ _ K1 K2) K3). destruct K as (KL & KS & KO & KN).
  destruct (in_split _ _ I1) as (la & lb & LE). assert (WO : without (dcmp cf) k l = la ++ lb) by (subst l; apply without_one; assumption).
  assert (ND' := ND). rewrite LE, map_app in ND'. cbn [map] in ND'. apply NoDup_mid in ND'. destruct ND' as (ND1 & ND2 & ND3).
  assert (X4 : exists d4, (if ordered cf then order_unlink d3 (iaddr i) else Ret d3) = Ret d4 /\ nodes d4 = nodes d3 /\ root d4 = root d3 /\ size d4 = size d3 /\ (ordered cf = true -> dll (links d4) (olist d4) (map iaddr (la ++ lb)))).
  { destruct (ordered cf) eqn:OC.
    - specialize (OR eq_refl). rewrite <- KL, <- KO, LE, map_app in OR. cbn [map] in OR. destruct (order_unlink_spec d3 (iaddr i) _ _ OR) as (d4 & E4 & D4 & N4 & R4 & Z4). exists d4. rewrite map_app. auto 10.
    - exists d3. split; [reflexivity|]. split; [reflexivity|]. split; [reflexivity|]. split; [reflexivity|discriminate]. }
  destruct X4 as (d4 & E4 & N4 & R4 & Z4 & D4). rewrite E4. cbn [bind]. unfold free_node.
  assert (NL : nodes d4 (iaddr i) <> None). { rewrite N4, KN. apply LV. apply in_map. exact I1. }
  destruct (nodes d4 (iaddr i)) as [nd|] eqn:ND4; [|congruence]. cbn [ub_none bind]. eexists. split; [reflexivity|]. rewrite WO.
  assert (PM2 : Permutation (inorder t') (la ++ lb)).
  { rewrite IO3, IO2. rewrite app_assoc. rewrite <- PL, inorder_plug, LE in PM. cbn [inorder] in PM. rewrite <- app_assoc in PM. cbn [app] in PM. rewrite app_assoc in PM. apply Permutation_app_inv in PM. exact PM. }
  split; [|split; [|split]].
  - exists t'. split; [|split; [exact RB3|split]].
    + destruct H3 as (Q1 & Q2 & Q3). split; [|split].
      * apply (rep_same t' d3); [|exact Q1]. intros x P. cbn [nodes]. rewrite upd_ne; [rewrite N4; reflexivity|]. intros ->. apply cnt_in in P. apply (Permutation_in _ (Permutation_map iaddr PM2)) in P. rewrite map_app in P. apply in_app_or in P. tauto.
      * cbn [repc root] in *. congruence.
      * exact Q3.
    + rewrite IO3, IO2. rewrite <- PL, inorder_plug in SO. cbn [inorder] in SO. rewrite <- app_assoc in SO. cbn [app] in SO. rewrite app_assoc in SO |- *. eapply sorted_drop; eassumption.
    + exact PM2.
  - cbn [size]. rewrite Z4, KS, SZ, LE, !app_length. cbn [length]. lia.
  - intros x. cbn [nodes]. rewrite N4. destruct (Pos.eqb_spec x (iaddr i)) as [->|NE].
    + rewrite upd_at. rewrite map_app, in_app_iff. split; [congruence|tauto].
    + rewrite upd_ne by exact NE. rewrite KN, LV, LE, !map_app, !in_app_iff. cbn [map In]. split; [intros [X|[X|X]]; auto; congruence|tauto].
  - intros OC. cbn [links olist]. apply dll_free; [exact (D4 OC)|]. rewrite map_app, in_app_iff. tauto.
Qed.
