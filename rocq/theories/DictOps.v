(** The dictionary's operations over trees in memory. *)
From Coq Require Import Sorting.Permutation Sorting.Sorted.
From Verif Require Import Base Links LinksProofs Table Dict DictSpec DictTree DictInsert DictRemove DictSwap.
Open Scope Z_scope.

(** ** Comparisons *)
Section Cmp.
Context (cmp : key -> key -> Z) (G : good_cmp cmp).
Lemma cmp_flip : forall a b, (cmp a b < 0 <-> cmp b a > 0) /\ (cmp a b = 0 <-> cmp b a = 0) /\ (cmp a b > 0 <-> cmp b a < 0).
Proof. intros a b. pose proof (cmp_anti _ G a b) as H. destruct (cmp a b), (cmp b a); cbn in H; lia. Qed.
Lemma cmp_self : forall a, cmp a a = 0.
Proof. intros a. pose proof (cmp_anti _ G a a) as H. destruct (cmp a a); cbn in H; lia. Qed.
Lemma cmp_lt_le : forall a b c, cmp a b < 0 -> cmp b c <= 0 -> cmp a c < 0.
Proof.
  intros a b c H1 H2. assert (H3 : cmp a c <= 0) by (apply (cmp_trans _ G a b c); lia). destruct (Z.eq_dec (cmp a c) 0) as [X|X]; [|lia].
  pose proof (cmp_flip a c). assert (H4 : cmp b a <= 0) by (apply (cmp_trans _ G b c a); lia). pose proof (cmp_flip a b). lia.
Qed.
Lemma cmp_le_lt : forall a b c, cmp a b <= 0 -> cmp b c < 0 -> cmp a c < 0.
Proof.
  intros a b c H1 H2. assert (H3 : cmp a c <= 0) by (apply (cmp_trans _ G a b c); lia). destruct (Z.eq_dec (cmp a c) 0) as [X|X]; [|lia].
  pose proof (cmp_flip a c). assert (H4 : cmp c b <= 0) by (apply (cmp_trans _ G c a b); lia). pose proof (cmp_flip b c). lia.
Qed.
Lemma cmp_gt : forall a b c, cmp a b > 0 -> cmp b c > 0 -> cmp a c > 0.
Proof. intros a b c H1 H2. apply cmp_flip. apply (cmp_lt_le c b a); [|apply Z.lt_le_incl]; apply cmp_flip; assumption. Qed.
Lemma cmp_eq_l : forall a b c, cmp a b = 0 -> (cmp a c < 0 <-> cmp b c < 0) /\ (cmp a c > 0 <-> cmp b c > 0).
Proof.
  intros a b c H. assert (H' : cmp b a = 0) by (apply cmp_flip; exact H). split; split; intros X.
  - apply (cmp_le_lt b a c); lia.
  - apply (cmp_le_lt a b c); lia.
  - apply cmp_flip. apply cmp_flip in X. apply (cmp_lt_le c a b); lia.
  - apply cmp_flip. apply cmp_flip in X. apply (cmp_lt_le c b a); lia.
Qed.
Definition ilt (i j : item) : Prop := cmp (ikey i) (ikey j) < 0.
Lemma ilt_trans : forall i j k, ilt i j -> ilt j k -> ilt i k.
Proof. unfold ilt. intros i j k A B. apply (cmp_lt_le _ (ikey j)); lia. Qed.
Definition isorted (l : list item) : Prop := StronglySorted ilt l.
Lemma sorted_app : forall l l', isorted (l ++ l') <-> isorted l /\ isorted l' /\ (forall i j, In i l -> In j l' -> ilt i j).
Proof.
  induction l as [|x l IH]; intros l'; cbn [app].
  - split; [intros H; split; [constructor|]; split; [exact H|intros i j []]|intros (_ & H & _); exact H].
  - split.
    + intros H. inversion H as [|? ? H1 H2]; subst. apply IH in H1. destruct H1 as (A & B & C). rewrite Forall_app in H2. destruct H2 as [H2 H3]. split; [constructor; assumption|]. split; [exact B|]. intros i j [<-|I1] J; [rewrite Forall_forall in H3; apply H3; exact J|apply C; assumption].
    + intros (A & B & C). inversion A as [|? ? A1 A2]; subst. constructor.
      * apply IH. split; [exact A1|]. split; [exact B|]. intros i j I1 J. apply C; [right; exact I1|exact J].
      * apply Forall_app. split; [exact A2|]. apply Forall_forall. intros j J. apply C; [left; reflexivity|exact J].
Qed.
Definition above (k : key) (l : list item) : Prop := Forall (fun i => cmp k (ikey i) > 0) l.   (* the key is above all these *)
Definition below (k : key) (l : list item) : Prop := Forall (fun i => cmp k (ikey i) < 0) l.
Lemma sorted_insert : forall k a v l r, isorted (l ++ r) -> above k l -> below k r -> isorted (l ++ (a, k, v) :: r).
Proof.
  intros k a v l r S0 A B. apply sorted_app in S0. destruct S0 as (S1 & S2 & S3). apply sorted_app. split; [exact S1|]. split; [constructor; [exact S2|exact B]|].
  intros i j I1 [<-|J]; [|apply S3; assumption]. unfold ilt, ikey at 2. cbn [fst snd]. unfold above in A. rewrite Forall_forall in A. specialize (A i I1). apply cmp_flip. lia.
Qed.
Lemma sorted_drop : forall l x r, isorted (l ++ x :: r) -> isorted (l ++ r).
Proof.
  intros l x r H. apply sorted_app in H. destruct H as (A & B & C). inversion B as [|? ? B1 B2]; subst. apply sorted_app. split; [exact A|]. split; [exact B1|]. intros i j I1 J. apply C; [exact I1|right; exact J].
Qed.
End Cmp.

(** ** Sizes and heights *)
Lemma rb_size : forall t n, rb t n -> (2 ^ n <= length (inorder t) + 1)%nat.
Proof.
  induction t as [|b l IHl i r IHr]; intros n R; cbn [rb inorder] in *; [subst n; cbn; lia|]. rewrite app_length. cbn [length]. destruct b.
  - destruct R as (A & B & _). specialize (IHl _ A). lia.
  - destruct R as (m & -> & A & B). specialize (IHl _ A). specialize (IHr _ B). cbn [Nat.pow]. lia.
Qed.
Lemma rb_height : forall t n, rb t n -> (height t <= 2 * n + (if tred t then 1 else 0))%nat.
Proof.
  induction t as [|b l IHl i r IHr]; intros n R; cbn [rb height tred] in *; [lia|]. destruct b.
  - destruct R as (A & B & C & D). specialize (IHl _ A). specialize (IHr _ B). rewrite C in IHl. rewrite D in IHr. lia.
  - destruct R as (m & -> & A & B). specialize (IHl _ A). specialize (IHr _ B). destruct (tred l), (tred r); lia.
Qed.
Lemma height_size : forall t, (height t <= length (inorder t))%nat.
Proof. induction t as [|b l IHl i r IHr]; cbn [height inorder]; [lia|]. rewrite app_length. cbn [length]. lia. Qed.
Lemma redblack_height : forall t, redblack t -> (height t <= 2 * Z.to_nat (Z.log2 (Z.of_nat (length (inorder t)) + 1)))%nat.
Proof.
  intros t (B & n & R). pose proof (rb_size _ _ R) as S0. pose proof (rb_height _ _ R) as H. rewrite B in H.
  assert (Z.of_nat n <= Z.log2 (Z.of_nat (length (inorder t)) + 1)).
  { apply Z.log2_le_pow2; [lia|]. apply inj_le in S0. rewrite Nat2Z.inj_pow, Nat2Z.inj_add in S0. exact S0. }
  lia.
Qed.
Lemma height_fill : forall f t, (height t < height (fill f t))%nat /\ (height (fsib f) < height (fill f t))%nat.
Proof. intros [b i r|b l i] t; cbn [fill height fsib]; lia. Qed.
Lemma height_plug : forall c t, (length c + height t <= height (plug c t))%nat.
Proof. induction c as [|f c IH]; intros t; cbn [plug length]; [lia|]. specialize (IH (fill f t)). pose proof (height_fill f t). lia. Qed.
Lemma hfits_plug : forall c t cap, (height (plug c t) <= cap)%nat -> hfits c cap.
Proof.
  induction c as [|f c IH]; intros t cap H; cbn [hfits plug] in *; [exact Logic.I|]. split; [|apply (IH _ _ H)]. pose proof (height_plug c (fill f t)). pose proof (height_fill f t). lia.
Qed.

(** ** Room *)
Lemma room_ok : forall cf d t extra, redblack t -> size d = Z.of_nat (length (inorder t)) -> size d < limit (has_log2 cf) -> (extra <= 2)%nat ->
  exists room, path_room cf d extra = Ret room /\ (height t + extra <= room)%nat.
Proof.
  intros cf d t extra RB SZ LT EX. pose proof (redblack_height t RB) as H. rewrite <- SZ in H. assert (H63 : size d < 2 ^ 63). { unfold limit in LT. destruct (has_log2 cf); [|exact LT]. assert (2 ^ 32 - 1 < 2 ^ 63) by reflexivity. lia. }
  assert (HM : (height t <= 126)%nat).
  { assert (Z.log2 (size d + 1) <= 63); [|lia]. change 63 with (Z.log2 (2 ^ 63)). apply Z.log2_le_mono. lia. }
  unfold path_room. destruct (no_alloca cf). { exists MAX_HEIGHT. split; [reflexivity|]. unfold MAX_HEIGHT. lia. }
  unfold stack_needed. destruct (has_log2 cf).
  - unfold limit in LT. rewrite Z.mod_small by (change (2^32) with 4294967296 in *; lia). destruct (size d + 1 =? 0) eqn:Z0; [apply Z.eqb_eq in Z0; lia|]. cbn [bind]. eexists. split; [reflexivity|lia].
  - cbn [bind]. eexists. split; [reflexivity|]. pose proof (height_size t). unfold MAX_HEIGHT. lia.
Qed.
Lemma stack_ok : forall cf d t, redblack t -> size d = Z.of_nat (length (inorder t)) -> size d < limit (has_log2 cf) ->
  exists room, stack_needed cf d = Ret room /\ (height t <= room)%nat.
Proof.
  intros cf d t RB SZ LT. destruct (room_ok (mkcfg (ordered cf) (dcmp cf) (has_log2 cf) false) d t 0 RB SZ LT ltac:(lia)) as (room & E1 & H). unfold path_room in E1. cbn [no_alloca] in E1. unfold stack_needed in *. cbn [has_log2] in E1.
  destruct (if has_log2 cf then _ else _) as [n| |] in *; cbn [bind] in E1; try discriminate. injection E1 as <-. exists n. split; [reflexivity|lia].
Qed.

(** ** Going down *)
Definition side (c : list frame) (z : Z) : Prop := match c with [] => True | FL _ _ _ :: _ => z < 0 | FR _ _ _ :: _ => z > 0 end.
Definition lands (cmp : key -> key -> Z) (k : key) (c0 : list frame) (t0 : tree) (path : list ptr) (found : ptr) (z : Z) : Prop :=
  (exists c b l i r, plug c (T b l i r) = plug c0 t0 /\ cmp k (ikey i) = 0 /\ path = Some (iaddr i) :: path_of c /\ found = Some (iaddr i)) \/
  (exists c, plug c E = plug c0 t0 /\ path = path_of c /\ found = None /\ side c z /\ above cmp k (cleft c) /\ below cmp k (cright c)).
Lemma descend_spec : forall cf k, good_cmp (dcmp cf) -> forall t d c room z, rep d t -> (height t <= room)%nat -> side c z ->
  isorted (dcmp cf) (inorder (plug c t)) -> above (dcmp cf) k (cleft c) -> below (dcmp cf) k (cright c) ->
  exists path found z', descend cf d k room (path_of c) (troot t) z = Ret (path, found, z') /\ lands (dcmp cf) k c t path found z'.
Proof.
  intros cf k G. induction t as [|b l IHl i r IHr]; intros d c room z R H SD SO AB BE.
  { exists (path_of c), None, z. split; [destruct room; reflexivity|]. right. exists c. auto 10. }
  cbn [height] in H. destruct room as [|room]; [lia|]. cbn [rep] in R. destruct R as (NI & RL & RR). cbn [troot descend]. unfold get_node. rewrite NI. cbn [ub_none bind n_key n_left n_right].
  assert (SO' := SO). rewrite inorder_plug in SO'. apply sorted_app in SO'. destruct SO' as (_ & SO' & _). cbn [inorder] in SO'. rewrite <- app_assoc in SO'. cbn [app] in SO'. apply sorted_app in SO'. destruct SO' as (_ & S2 & S3). inversion S2 as [|? ? S4 S5]; subst.
  destruct (dcmp cf k (ikey i) <? 0) eqn:C1; [apply Z.ltb_lt in C1|apply Z.ltb_ge in C1; destruct (dcmp cf k (ikey i) >? 0) eqn:C2; [apply Z.gtb_lt in C2|rewrite Z.gtb_ltb in C2; apply Z.ltb_ge in C2]].
  - destruct (IHl d (FL b i r :: c) room (dcmp cf k (ikey i)) RL ltac:(lia) C1 SO AB) as (path & found & z' & E1 & L); [|exists path, found, z'; split; [exact E1|exact L]].
    cbn [cright]. constructor; [exact C1|]. apply Forall_forall. intros j J. rewrite Forall_forall in S5. specialize (S5 j J). unfold ilt in S5. apply (cmp_lt_le _ G _ (ikey i)); lia.
  - destruct (IHr d (FR b l i :: c) room (dcmp cf k (ikey i)) RR ltac:(lia) ltac:(cbn; lia) SO) as (path & found & z' & E1 & L); [|exact BE|exists path, found, z'; split; [exact E1|exact L]].
    cbn [cleft]. apply Forall_app. split; [exact AB|]. apply Forall_app. split; [|constructor; [lia|constructor]]. apply Forall_forall. intros j J. specialize (S3 j i J (or_introl eq_refl)). unfold ilt in S3. apply (cmp_gt _ G _ (ikey i)); [lia|]. apply (cmp_flip _ G). exact S3.
  - exists (Some (iaddr i) :: path_of c), (Some (iaddr i)), (dcmp cf k (ikey i)). split; [reflexivity|]. left. exists c, b, l, i, r. repeat split. lia.
Qed.
Lemma find_spec : forall cf k, good_cmp (dcmp cf) -> forall t d c fuel, rep d t -> (height t <= fuel)%nat ->
  isorted (dcmp cf) (inorder (plug c t)) -> above (dcmp cf) k (cleft c) -> below (dcmp cf) k (cright c) ->
  (exists i, In i (inorder (plug c t)) /\ dcmp cf k (ikey i) = 0 /\ find cf d k fuel (troot t) = Ret (Some (iaddr i))) \/
  ((forall i, In i (inorder (plug c t)) -> dcmp cf k (ikey i) <> 0) /\ find cf d k fuel (troot t) = Ret None).
Proof.
  intros cf k G. induction t as [|b l IHl i r IHr]; intros d c fuel R H SO AB BE.
  { right. split; [|destruct fuel; reflexivity]. intros j J. rewrite inorder_plug in J. cbn [inorder app] in J. apply in_app_or in J. unfold above, below in *. rewrite Forall_forall in AB, BE. destruct J as [J|J]; [specialize (AB j J)|specialize (BE j J)]; lia. }
  cbn [height] in H. destruct fuel as [|fuel]; [lia|]. cbn [rep] in R. destruct R as (NI & RL & RR).
  assert (F : find cf d k (S fuel) (troot (T b l i r)) = (if dcmp cf k (ikey i) <? 0 then find cf d k fuel (troot l) else if dcmp cf k (ikey i) >? 0 then find cf d k fuel (troot r) else Ret (Some (iaddr i)))) by (cbn [troot find]; unfold get_node; rewrite NI; reflexivity).
  rewrite F. clear F.
  assert (SO' := SO). rewrite inorder_plug in SO'. apply sorted_app in SO'. destruct SO' as (_ & SO' & _). cbn [inorder] in SO'. rewrite <- app_assoc in SO'. cbn [app] in SO'. apply sorted_app in SO'. destruct SO' as (_ & S2 & S3). inversion S2 as [|? ? S4 S5]; subst.
  destruct (dcmp cf k (ikey i) <? 0) eqn:C1; [apply Z.ltb_lt in C1|apply Z.ltb_ge in C1; destruct (dcmp cf k (ikey i) >? 0) eqn:C2; [apply Z.gtb_lt in C2|rewrite Z.gtb_ltb in C2; apply Z.ltb_ge in C2]].
  - refine (IHl d (FL b i r :: c) fuel RL _ SO AB _); [lia|].
    cbn [cright]. constructor; [exact C1|]. apply Forall_forall. intros j J. rewrite Forall_forall in S5. specialize (S5 j J). unfold ilt in S5. apply (cmp_lt_le _ G _ (ikey i)); lia.
  - refine (IHr d (FR b l i :: c) fuel RR _ SO _ BE); [lia|].
    cbn [cleft]. apply Forall_app. split; [exact AB|]. apply Forall_app. split; [|constructor; [lia|constructor]]. apply Forall_forall. intros j J. specialize (S3 j i J (or_introl eq_refl)). unfold ilt in S3. apply (cmp_gt _ G _ (ikey i)); [lia|]. apply (cmp_flip _ G). exact S3.
  - left. exists i. split; [|split; [lia|reflexivity]]. rewrite inorder_plug. cbn [inorder]. rewrite !in_app_iff. cbn [In]. tauto.
Qed.

(** ** What is left alone *)
Lemma keep_fai : forall n path, (length path <= n)%nat -> forall d d', fix_after_insert d path = Ret d' -> keep d d'.
Proof.
  induction n as [|n IH]; intros path L d d' H; [destruct path; [discriminate|cbn in L; lia]|].
  destruct path as [|nd [|[p|] up2]]; cbn [fix_after_insert] in H; try discriminate;
    repeat match goal with
    | X : (match ?b with [] => _ | _ :: _ => _ end) = Ret _ |- _ => destruct b; try discriminate
    | X : fix_after_insert _ _ = Ret _ |- _ => apply IH in X; [|cbn [length] in L |- *; lia]
    | X : rotate_left _ _ _ = Ret _ |- _ => apply keep_rl in X
    | X : rotate_right _ _ _ = Ret _ |- _ => apply keep_rr in X
    | _ => progress keeps
    end; try discriminate; kt.
Qed.
Lemma keep_far : forall cap fuel d path d', fix_after_remove cap fuel d path = Ret d' -> keep d d'.
Proof.
  intros cap. induction fuel as [|fuel IH]; intros d path d' H; [discriminate|].
  destruct path as [|nd [|[p|] up2]]; cbn [fix_after_remove] in H; unfold finish_remove in H; try discriminate;
    repeat match goal with
    | X : fix_after_remove _ _ _ _ = Ret _ |- _ => apply IH in X
    | X : rotate_left _ _ _ = Ret _ |- _ => apply keep_rl in X
    | X : rotate_right _ _ _ = Ret _ |- _ => apply keep_rr in X
    | _ => progress keeps
    end; try discriminate; kt.
Qed.
Lemma keep_swap : forall cap d node path d' path', swap_successor cap d node path = Ret (d', path') -> keep d d'.
Proof.
  intros cap d node path d' path' H. unfold swap_successor, relink_successor, swap_child in H.
  repeat match goal with
    | X : Ret (_, _) = Ret (_, _) |- _ => injection X as <- ?; subst
    | X : (match ?b with [] => _ | _ :: _ => _ end) = Ret _ |- _ => destruct b; try discriminate
    | _ => progress keeps
    end; try discriminate; kt.
Qed.
