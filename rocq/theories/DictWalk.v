(** Walking over a dictionary and destroying it. *)
From Coq Require Import Sorting.Permutation Sorting.Sorted.
From Verif Require Import Base Links LinksProofs Table Dict DictSpec DictTree DictInsert DictRemove DictSwap DictOps DictHold DictSteps.
Open Scope Z_scope.

Definition entry : Type := item * tree.
Definition srep (d : dict) (st : list entry) : Prop :=
  Forall (fun e => (exists lp b, nodes d (iaddr (fst e)) = Some (mkn lp (troot (snd e)) b (ikey (fst e)) (ival (fst e)))) /\ rep d (snd e)) st.
Fixpoint sitems (st : list entry) : list item := match st with [] => [] | e :: st => fst e :: inorder (snd e) ++ sitems st end.
Fixpoint sfits (cap : nat) (st : list entry) : Prop := match st with [] => True | e :: st => (length st + height (snd e) <= cap)%nat /\ sfits cap st end.
Definition sptrs (st : list entry) : list ptr := map (fun e => Some (iaddr (fst e))) st.
Definition iptrs (l : list item) : list ptr := map (fun i => Some (iaddr i)) l.

Lemma leftmost_push : forall t d room cap st, rep d t -> srep d st -> sfits cap st -> (length st + height t <= cap)%nat -> room = (cap - length st)%nat ->
  exists st', leftmost_path d room (sptrs st) (troot t) = Ret (sptrs st') /\ srep d st' /\ sfits cap st' /\ sitems st' = inorder t ++ sitems st.
Proof.
  induction t as [|b l IHl i r _]; intros d room cap st R SR SF H RM.
  - exists st. split; [destruct room; reflexivity|]. auto.
  - cbn [rep height] in *. destruct R as (N0 & RL & RR). destruct room as [|room]; [lia|]. cbn [troot leftmost_path]. unfold get_node. rewrite N0. cbn [ub_none bind n_left].
    destruct (IHl d room cap ((i, r) :: st)) as (st' & E1 & SR' & SF' & IO); [exact RL|constructor; [cbn [fst snd]; split; [unfold node_at in N0; eauto|exact RR]|exact SR]|cbn [sfits snd]; split; [lia|exact SF]|cbn [length]; lia|cbn [length]; lia|].
    exists st'. split; [exact E1|]. split; [exact SR'|]. split; [exact SF'|]. rewrite IO. cbn [sitems inorder fst snd]. rewrite <- app_assoc. reflexivity.
Qed.
Lemma sptrs_len : forall st, length (sptrs st) = length st. Proof. intros. apply map_length. Qed.
Lemma sorted_loop_spec : forall n d cap st, srep d st -> sfits cap st -> sorted_loop d cap n (sptrs st) = Ret (iptrs (firstn n (sitems st))).
Proof.
  induction n as [|n IH]; intros d cap st SR SF; [reflexivity|]. destruct st as [|[i r] st]; [reflexivity|]. inversion SR as [|? ? ((lp & b & N0) & RR) SR']; subst. cbn [fst snd] in *. cbn [sfits snd] in SF. destruct SF as [F1 SF].
  cbn [sptrs map sorted_loop fst]. fold (sptrs st). unfold get_node. rewrite N0. cbn [ub_none bind n_right].
  destruct (leftmost_push r d (cap - length (sptrs st)) cap st RR SR' SF F1) as (st' & E1 & SR2 & SF2 & IO); [rewrite sptrs_len; reflexivity|]. rewrite E1. cbn [bind]. rewrite IH by assumption. rewrite IO. reflexivity.
Qed.
Lemma walk_sorted_loop_spec : forall U (f : U -> key -> option Z -> U * Z) d cap fuel st u, srep d st -> sfits cap st -> (length (sitems st) <= fuel)%nat ->
  walk_sorted_loop f d cap fuel (sptrs st) u = Ret (visit f u (sitems st)).
Proof.
  intros U f d cap. induction fuel as [|fuel IH]; intros st u SR SF H; destruct st as [|[i r] st]; try reflexivity; cbn [sitems length] in H; [lia|]. inversion SR as [|? ? ((lp & b & N0) & RR) SR']; subst. cbn [fst snd] in *. cbn [sfits snd] in SF. destruct SF as [F1 SF].
  cbn [sptrs map walk_sorted_loop fst sitems visit snd]. fold (sptrs st). unfold get_node. rewrite N0. cbn [ub_none bind n_right n_key n_val]. destruct (f u (ikey i) (ival i)) as [u' z]. destruct (z <? 0); [reflexivity|].
  destruct (leftmost_push r d (cap - length (sptrs st)) cap st RR SR' SF F1) as (st' & E1 & SR2 & SF2 & IO); [rewrite sptrs_len; reflexivity|]. rewrite E1. cbn [bind]. rewrite <- IO. apply IH; try assumption. rewrite IO. lia.
Qed.
Lemma srep_same : forall st d d', (forall x, 0 < cnt x (sitems st) -> nodes d' x = nodes d x) -> srep d st -> srep d' st.
Proof.
  induction st as [|[i r] st IH]; intros d d' S0 SR; [constructor|]. inversion SR as [|? ? ((lp & b & N0) & RR) SR']; subst. cbn [fst snd sitems cnt] in *. constructor; cbn [fst snd].
  - split; [exists lp, b; rewrite S0; [exact N0|]; rewrite Pos.eqb_refl; pose proof (cnt_pos (iaddr i) (inorder r ++ sitems st)); lia|]. apply (rep_same r d); [|exact RR]. intros x X. apply S0. rewrite cnt_app. pose proof (cnt_pos x (sitems st)). destruct (Pos.eqb _ _); lia.
  - apply (IH d); [|exact SR']. intros x X. apply S0. rewrite cnt_app. pose proof (cnt_pos x (inorder r)). destruct (Pos.eqb _ _); lia.
Qed.
Lemma clean_loop_spec : forall cap fuel d st, srep d st -> sfits cap st -> once (sitems st) -> (length (sitems st) <= fuel)%nat ->
  exists d', clean_loop d cap fuel (sptrs st) = Ret d' /\ (forall x, nodes d' x <> None -> nodes d x <> None /\ ~ In x (map iaddr (sitems st))).
Proof.
  intros cap. induction fuel as [|fuel IH]; intros d st SR SF O H; destruct st as [|[i r] st]; try (exists d; split; [reflexivity|]; cbn; tauto); cbn [sitems length] in H; [lia|]. inversion SR as [|? ? ((lp & b & N0) & RR) SR']; subst. cbn [fst snd] in *. cbn [sfits snd] in SF. destruct SF as [F1 SF].
  cbn [sptrs map clean_loop fst]. fold (sptrs st). unfold get_node. rewrite N0. cbn [ub_none bind n_right]. unfold free_node. rewrite N0. cbn [ub_none bind]. set (d1 := mkd (upd (nodes d) (iaddr i) None) _ _ _ _).
  cbn [sitems fst snd] in O. assert (CI : cnt (iaddr i) (inorder r ++ sitems st) = 0). { specialize (O (iaddr i)). cbn [cnt] in O. rewrite Pos.eqb_refl in O. pose proof (cnt_pos (iaddr i) (inorder r ++ sitems st)). lia. }
  assert (O1 : once (inorder r ++ sitems st)). { intros x. specialize (O x). cbn [cnt] in O. destruct (Pos.eqb _ _); lia. }
  assert (S1 : forall x, 0 < cnt x (inorder r ++ sitems st) -> nodes d1 x = nodes d x) by (intros x X; cbn; apply upd_ne; intros ->; lia).
  destruct (leftmost_push r d1 (cap - length (sptrs st)) cap st) as (st' & E1 & SR2 & SF2 & IO).
  - apply (rep_same r d); [|exact RR]. intros x X. apply S1. rewrite cnt_app. pose proof (cnt_pos x (sitems st)). lia.
  - apply (srep_same st d); [|exact SR']. intros x X. apply S1. rewrite cnt_app. pose proof (cnt_pos x (inorder r)). lia.
  - exact SF.
  - exact F1.
  - rewrite sptrs_len. reflexivity.
  - rewrite E1. cbn [bind]. destruct (IH d1 st' SR2 SF2) as (d' & E2 & L2); [rewrite IO; exact O1|rewrite IO; lia|]. exists d'. split; [exact E2|]. intros x X. destruct (L2 x X) as [L3 L4]. cbn [d1 nodes] in L3. destruct (Pos.eqb_spec x (iaddr i)) as [->|NE]; [rewrite upd_at in L3; congruence|].
    rewrite upd_ne in L3 by exact NE. split; [exact L3|]. rewrite IO in L4. cbn [sitems map In fst snd]. intros [X1|X1]; [congruence|contradiction].
Qed.

Lemma inv_stack : forall cf d l, inv cf d l -> size d < limit (has_log2 cf) -> exists t, holds d [] t /\ redblack t /\ isorted (dcmp cf) (inorder t) /\ Permutation (inorder t) l /\ root d = troot t /\ size d = Z.of_nat (length (inorder t)).
Proof.
  intros cf d l ((t & H & RB & SO & PM) & SZ & _) LT. exists t. split; [exact H|]. split; [exact RB|]. split; [exact SO|]. split; [exact PM|]. split; [destruct H as (_ & X & _); exact X|]. rewrite (Permutation_length PM). exact SZ.
Qed.
Ltac by_leftmost E1 := match type of E1 with _ = ?r => match goal with |- context [leftmost_path ?a ?b ?c ?d] => replace (leftmost_path a b c d) with r by (symmetry; exact E1) end end.
Lemma keys_sorted_spec : forall cf d l n, inv cf d l -> size d < limit (has_log2 cf) -> exists s, in_key_order (dcmp cf) l s /\ keys_sorted cf d n = Ret (iptrs (firstn n s)).
Proof.
  intros cf d l n IV LT. destruct (inv_stack _ _ _ IV LT) as (t & H & RB & SO & PM & RT & SZ). exists (inorder t). split; [split; assumption|].
  destruct (room_ok cf d t 0 RB SZ LT ltac:(lia)) as (room & RM & HR). unfold keys_sorted. rewrite RM. cbn [bind]. rewrite RT.
  destruct (leftmost_push t d room room []) as (st & E1 & SR & SF & IO); [apply H|constructor|exact Logic.I|cbn; lia|cbn; lia|]. by_leftmost E1. cbn [bind]. rewrite sorted_loop_spec by assumption. rewrite IO. cbn [sitems]. rewrite app_nil_r. reflexivity.
Qed.
Lemma walk_sorted_spec : forall cf d l U (f : U -> key -> option Z -> U * Z) u, inv cf d l -> size d < limit (has_log2 cf) -> exists s, in_key_order (dcmp cf) l s /\ walk_sorted cf d f u = Ret (visit f u s).
Proof.
  intros cf d l U f u IV LT. destruct (inv_stack _ _ _ IV LT) as (t & H & RB & SO & PM & RT & SZ). exists (inorder t). split; [split; assumption|].
  destruct (room_ok cf d t 0 RB SZ LT ltac:(lia)) as (room & RM & HR). unfold walk_sorted. rewrite RM. cbn [bind]. rewrite RT.
  destruct (leftmost_push t d room room []) as (st & E1 & SR & SF & IO); [apply H|constructor|exact Logic.I|cbn; lia|cbn; lia|]. by_leftmost E1. cbn [bind]. cbn [sitems] in IO. rewrite app_nil_r in IO. rewrite walk_sorted_loop_spec by (try assumption; rewrite IO; lia). rewrite IO. reflexivity.
Qed.
Lemma dict_clean_spec : forall cf d l, inv cf d l -> size d < limit (has_log2 cf) -> exists d', dict_clean cf d true = Ret (d', 0) /\ inv cf d' [].
Proof.
  intros cf d l IV LT. destruct (inv_stack _ _ _ IV LT) as (t & H & RB & SO & PM & RT & SZ). destruct (stack_ok cf d t RB SZ LT) as (room & RM & HR). unfold dict_clean. rewrite RM. cbn [bind]. rewrite RT.
  destruct (leftmost_push t d room room []) as (st & E1 & SR & SF & IO); [apply H|constructor|exact Logic.I|cbn; lia|cbn; lia|]. by_leftmost E1. cbn [bind]. cbn [sitems] in IO. rewrite app_nil_r in IO.
  destruct (clean_loop_spec room (Z.to_nat (size d)) d st SR SF) as (d' & E2 & L2); [rewrite IO; apply H|rewrite IO; lia|]. rewrite E2. cbn [bind]. eexists. split; [reflexivity|].
  assert (NN : forall x, nodes d' x = None). { intros x. destruct (nodes d' x) eqn:X; [|reflexivity]. exfalso. destruct (L2 x ltac:(congruence)) as [A B]. destruct IV as (_ & _ & LV & _). apply LV in A. apply B. rewrite IO. apply (Permutation_in _ (Permutation_sym (Permutation_map iaddr PM))). exact A. }
  split; [|split; [reflexivity|split]].
  - exists E. split; [split; [exact Logic.I|split; [reflexivity|intros x; cbn; lia]]|]. split; [split; [reflexivity|exists O; reflexivity]|]. split; [constructor|constructor].
  - intros x. cbn [nodes]. rewrite NN. cbn. split; [congruence|tauto].
  - intros _. split; [constructor|]. cbn. auto.
Qed.

(** In the order of addition *)
Lemma ordered_loop_spec : forall n d l p, seg (links d) p (map iaddr l) None -> ordered_loop d n (hdor (map iaddr l) None) = Ret (iptrs (firstn n l)).
Proof.
  induction n as [|n IH]; intros d l p S0; [reflexivity|]. destruct l as [|i l]; [reflexivity|]. cbn [map seg hdor] in *. destruct S0 as [A S0]. cbn [ordered_loop firstn]. unfold get_nxt. rewrite A. cbn [option_map nxt ub_none bind]. rewrite (IH d l _ S0). reflexivity.
Qed.
Lemma keys_ordered_spec : forall cf d l n, inv cf d l -> keys_ordered cf d n = Ret (if ordered cf then iptrs (firstn n l) else []).
Proof.
  intros cf d l n (_ & _ & _ & OR). unfold keys_ordered. destruct (ordered cf); [|reflexivity]. destruct (OR eq_refl) as (_ & HD & _ & SG). rewrite HD. apply (ordered_loop_spec n d l None SG).
Qed.
Lemma walk_ordered_loop_spec : forall U (f : U -> key -> option Z -> U * Z) d l fuel p u, seg (links d) p (map iaddr l) None -> (forall i, In i l -> exists lp rp b, nodes d (iaddr i) = Some (mkn lp rp b (ikey i) (ival i))) -> (length l <= fuel)%nat ->
  walk_ordered_loop f d fuel (hdor (map iaddr l) None) u = Ret (visit f u l).
Proof.
  intros U f d. induction l as [|i l IH]; intros fuel p u S0 N0 H; [destruct fuel; reflexivity|]. cbn [length] in H. destruct fuel as [|fuel]; [lia|]. cbn [map seg hdor] in *. destruct S0 as [A S0]. cbn [walk_ordered_loop visit]. destruct (N0 i (or_introl eq_refl)) as (lp & rp & b & N1). unfold get_node. rewrite N1. cbn [ub_none bind n_key n_val].
  destruct (f u (ikey i) (ival i)) as [u' z]. destruct (z <? 0); [reflexivity|]. unfold get_nxt. rewrite A. cbn [option_map nxt ub_none bind]. apply (IH fuel (Some (iaddr i))); [exact S0| |lia]. intros j J. apply N0. right. exact J.
Qed.
Lemma walk_ordered_spec : forall cf d l U (f : U -> key -> option Z -> U * Z) u, inv cf d l -> walk_ordered cf d f u = Ret (if ordered cf then visit f u l else (u, -1)).
Proof.
  intros cf d l U f u IV. assert (IV0 := IV). destruct IV as (_ & SZ & _ & OR). unfold walk_ordered. destruct (ordered cf); [|reflexivity]. destruct (OR eq_refl) as (_ & HD & _ & SG). rewrite HD. apply (walk_ordered_loop_spec U f d l _ None u SG); [|rewrite SZ; lia]. intros i I1. exact (inv_node cf d l i IV0 I1).
Qed.

(** ** One step, and many *)
Lemma dict_get_spec : forall cf d l k, good_cmp (dcmp cf) -> inv cf d l -> dict_get cf d k = Ret (option_map iaddr (lookup (dcmp cf) k l)).
Proof.
  intros cf d l k G IV. pose proof (inv_distinct _ _ _ G IV) as DI. destruct IV as ((t & H & RB & SO & PM) & SZ & _). unfold dict_get. assert (RT : root d = troot t) by (destruct H as (_ & X & _); exact X). rewrite RT.
  destruct (find_spec cf k G t d [] (Z.to_nat (size d))) as [(i & I1 & C & ->)|[N0 ->]]; try constructor; try apply H; try exact SO.
  - rewrite SZ, <- (Permutation_length PM). pose proof (height_size t). lia.
  - cbn [plug] in I1. rewrite (lookup_found _ G l i k DI); [reflexivity|apply (Permutation_in _ PM); exact I1|exact C].
  - cbn [plug] in N0. rewrite lookup_none; [reflexivity|]. intros i I1. apply N0. apply (Permutation_in _ (Permutation_sym PM)). exact I1.
Qed.
Lemma step_spec : forall cf d l o, good_cmp (dcmp cf) -> inv cf d l -> allowed cf l o -> exists d' r l', step cf d o = Ret (d', r) /\ answer cf l o r l' /\ inv cf d' l'.
Proof.
  intros cf d l o G IV (LT & AL). assert (LT' : size d < limit (has_log2 cf)) by (destruct IV as (_ & -> & _); exact LT). destruct o as [k|k m|k m|a v|k|mem|n|n|]; cbn [step answer].
  - rewrite (dict_get_spec cf d l k G IV). cbn [bind]. eauto 10.
  - destruct (get_or_add_spec cf d l k m G IV LT' AL) as (d' & E1 & IV'). rewrite E1. cbn [bind]. eexists _, _, _. split; [reflexivity|]. split; [split; reflexivity|exact IV'].
  - destruct (dict_add_spec cf d l k m G IV LT' AL) as (d' & p & E1 & IV' & EP). rewrite E1. cbn [bind]. eexists _, _, _. split; [reflexivity|]. split; [split; [reflexivity|rewrite <- EP; reflexivity]|exact IV'].
  - destruct (dict_store_spec cf d l a v IV AL) as (d' & E1 & IV'). rewrite E1. cbn [bind]. eauto 10.
  - destruct (dict_remove_spec cf d l k G IV LT') as (d' & X). destruct (lookup (dcmp cf) k l); destruct X as [E1 IV']; rewrite E1; cbn [bind]; eauto 10.
  - destruct mem; [destruct (dict_clean_spec cf d l IV LT') as (d' & E1 & IV'); rewrite E1; cbn [bind]; eauto 10|].
    destruct (inv_stack _ _ _ IV LT') as (t & H & RB & SO & PM & RT & SZ). destruct (stack_ok cf d t RB SZ LT') as (room & RM & HR). unfold dict_clean. rewrite RM. cbn [bind]. eauto 10.
  - destruct (keys_sorted_spec cf d l n IV LT') as (s & SK & E1). rewrite E1. cbn [bind]. eexists _, _, _. split; [reflexivity|]. split; [split; [exists s; split; [exact SK|reflexivity]|reflexivity]|exact IV].
  - rewrite (keys_ordered_spec cf d l n IV). cbn [bind]. eexists _, _, _. split; [reflexivity|]. split; [split; [destruct (ordered cf); reflexivity|reflexivity]|exact IV].
  - eexists _, _, _. split; [reflexivity|]. split; [split; [destruct IV as (_ & -> & _); reflexivity|reflexivity]|exact IV].
Qed.
Lemma run_spec : forall cf ops d l, good_cmp (dcmp cf) -> inv cf d l -> all_allowed cf l ops -> exists d' rs l', run cf d ops = Ret (d', rs) /\ answers cf l ops rs l' /\ inv cf d' l'.
Proof.
  intros cf. induction ops as [|o ops IH]; intros d l G IV AL.
  - exists d, [], l. split; [reflexivity|]. split; [constructor|exact IV].
  - inversion AL as [|? ? ? A1 A2]; subst. destruct (step_spec cf d l o G IV A1) as (d1 & r & l1 & E1 & AN & IV1). destruct (IH d1 l1 G IV1 (A2 r l1 AN)) as (d2 & rs & l2 & E2 & AS & IV2).
    exists d2, (r :: rs), l2. cbn [run]. rewrite E1. cbn [bind]. rewrite E2. cbn [bind]. split; [reflexivity|]. split; [econstructor; eassumption|exact IV2].
Qed.
