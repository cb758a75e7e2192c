(** C78, for contexts whose events may refer to objects that have left the tables: what a successful clone still guarantees. *)
Require Import ZArith List Bool Sorted Lia PeanoNat.
From Verif Require Import EventClone EventCloneSpec EventCloneProofs.
Import ListNotations.
Open Scope Z_scope.

Lemma key_cmp_eq : forall l r, key_cmp l r = 0 -> l = r.
Proof. induction l as [|x l IH]; intros [|y r]; cbn [key_cmp]; try discriminate; [reflexivity|]. destruct (Z.ltb_spec x y), (Z.ltb_spec y x); intros E; try discriminate. f_equal; [lia|apply IH; exact E]. Qed.
Lemma table_get_some label t key x : table_get label t key = Some x -> In x t /\ label x = key.
Proof.
  induction t as [|i t IH]; cbn [table_get]; [discriminate|]. destruct (0 <=? key_cmp (label i) key).
  - destruct (Z.eqb_spec (key_cmp (label i) key) 0) as [E|]; [|discriminate]. intros [= <-]. split; [left; reflexivity|apply key_cmp_eq; exact E].
  - intros H. destruct (IH H). split; [right|]; assumption.
Qed.
Definition same_label (s : store) (dest : list nat) (a b : nat) : Prop := In b dest /\ a_label (acts s b) = a_label (acts s a).
Lemma list_ok dest : forall l s done s' r, action_list_clone s dest l done = (s', Some r) ->
  (exists l', r = done ++ l' /\ Forall2 (same_label s dest) l l') /\ acts s' = acts s /\ evs s' = evs s /\ next s' = next s.
Proof.
  induction l as [|a l IH]; intros s done s' r; cbn [action_list_clone].
  - intros [= <- <-]. split; [exists []; split; [rewrite app_nil_r; reflexivity|constructor]|]. repeat split.
  - destruct (table_get _ dest _) as [b|] eqn:G; [|discriminate]. apply table_get_some in G. intros H. destruct (IH _ _ _ _ H) as ((l' & -> & F) & A & V & N).
    split; [exists (b :: l'); split; [rewrite <- app_assoc; reflexivity|constructor; [exact G|exact F]]|]. split; [exact A|]. split; [exact V|exact N].
Qed.
Lemma lists_code dest new : forall ls s done, snd (action_lists_clone s dest new ls done) = 0 \/ snd (action_lists_clone s dest new ls done) = ITEM_NOT_FOUND.
Proof. induction ls as [|l ls IH]; intros s done; cbn [action_lists_clone]; [left; reflexivity|]. destruct (action_list_clone s dest l []) as [s1 [l'|]]; [apply IH|right; reflexivity]. Qed.
Lemma lists_ok dest new : forall ls s done s', action_lists_clone s dest new ls done = (s', 0) -> e_lists (evs s new) = done ++ map (fun _ => []) ls ->
  exists ls', Forall2 (Forall2 (same_label s dest)) ls ls' /\ acts s' = acts s /\ next s' = next s /\
    forall x, evs s' x = if Nat.eqb x new then Event (e_label (evs s new)) (done ++ ls') (e_aux (evs s new)) else evs s x.
Proof.
  induction ls as [|l ls IH]; intros s done s'; cbn [action_lists_clone].
  - intros [= <-] L. exists []. split; [constructor|]. split; [reflexivity|]. split; [reflexivity|]. intros x. destruct (Nat.eqb_spec x new) as [->|]; [|reflexivity]. cbn [map] in L. rewrite <- L. destruct (evs s new); reflexivity.
  - destruct (action_list_clone s dest l []) as [s1 [l'|]] eqn:R; [|discriminate]. intros H _. destruct (list_ok _ _ _ _ _ _ R) as ((l'' & E & F) & A & V & N). cbn [app] in E. subst l''.
    destruct (IH _ _ _ H) as (ls' & F' & A' & N' & V').
    { cbn [evs]. unfold upd. rewrite Nat.eqb_refl. cbn [e_lists]. rewrite <- app_assoc. reflexivity. }
    cbn [acts next evs] in *. exists (l' :: ls'). split; [constructor; [exact F|]|].
    + clear - F' A. unfold same_label in *. cbn [acts] in F'. rewrite A in F'. exact F'.
    + split; [congruence|]. split; [congruence|]. intros x. rewrite V'. unfold upd. rewrite Nat.eqb_refl. cbn [e_label e_aux]. rewrite V, <- app_assoc. destruct (Nat.eqb x new); reflexivity.
Qed.
(** the references of one event, in the store after the clone *)
Definition led (s s' : store) (dest : context) (src new : nat) : Prop :=
  e_label (evs s' new) = e_label (evs s new) /\
  Forall2 (Forall2 (same_label s (actions dest))) (e_lists (evs s src)) (e_lists (evs s' new)) /\
  match e_aux (evs s src), e_aux (evs s' new) with
  | None, None => True
  | Some x, Some y => In y (events dest) /\ e_label (evs s y) = e_label (evs s x)
  | _, _ => False end.
Lemma resolve_code s dest src new : snd (event_clone_resolve s dest src new) = 0 \/ snd (event_clone_resolve s dest src new) = ITEM_NOT_FOUND.
Proof.
  unfold event_clone_resolve. destruct (lists_code (actions dest) new (e_lists (evs s src)) s []) as [E|E]; destruct (action_lists_clone _ _ _ _ _) as [s1 r]; cbn [snd] in E; subst r; cbn; [|right; reflexivity].
  destruct (e_aux (evs s1 src)); [|left; reflexivity]. destruct (table_get _ _ _); [left|right]; reflexivity.
Qed.
Lemma resolve_ok s dest src new s' : event_clone_resolve s dest src new = (s', 0) -> src <> new -> e_lists (evs s new) = map (fun _ => []) (e_lists (evs s src)) -> e_aux (evs s new) = None ->
  led s s' dest src new /\ acts s' = acts s /\ next s' = next s /\ forall x, x <> new -> evs s' x = evs s x.
Proof.
  unfold event_clone_resolve. intros H NE L AX. destruct (action_lists_clone s (actions dest) new (e_lists (evs s src)) []) as [s1 r] eqn:R.
  assert (C := lists_code (actions dest) new (e_lists (evs s src)) s []). rewrite R in C. cbn [snd] in C. destruct C as [->| ->]; [|cbn in H; discriminate]. cbn [Z.ltb Z.compare] in H.
  destruct (lists_ok _ _ _ _ _ _ R L) as (ls' & F & A & N & V). cbn [app] in V.
  assert (Vn : evs s1 new = Event (e_label (evs s new)) ls' None) by (rewrite V, Nat.eqb_refl, AX; reflexivity).
  assert (Vo : forall x, x <> new -> evs s1 x = evs s x) by (intros x Hx; rewrite V; destruct (Nat.eqb_spec x new); [contradiction|reflexivity]).
  assert (Lb : forall x, e_label (evs s1 x) = e_label (evs s x)) by (intros x; destruct (Nat.eq_dec x new) as [->|Q]; [rewrite Vn; reflexivity|rewrite Vo by exact Q; reflexivity]).
  rewrite (Vo src NE) in H. destruct (e_aux (evs s src)) as [x|] eqn:X.
  - destruct (table_get _ _ _) as [y|] eqn:G; [|discriminate]. injection H as <-. apply table_get_some in G. destruct G as [G1 G2]. rewrite !Lb in G2. unfold led, add_ref. cbn [acts evs next]. unfold upd. rewrite X, Nat.eqb_refl. cbn [e_label e_lists e_aux].
    split; [split; [rewrite Vn; reflexivity|split; [rewrite Vn; exact F|split; assumption]]|]. split; [exact A|]. split; [exact N|]. intros z Hz. destruct (Nat.eqb_spec z new); [contradiction|]. apply Vo. exact Hz.
  - injection H as <-. unfold led. rewrite X, Vn. cbn [e_label e_lists e_aux]. split; [split; [reflexivity|split; [exact F|exact I]]|]. split; [exact A|]. split; [exact N|exact Vo].
Qed.
Lemma map_ok dest : forall srcs news s s', table_clone_map s dest srcs news = (s', 0) -> NoDup news -> (forall x, In x srcs -> ~ In x news) ->
  Forall2 (fun e n => e_lists (evs s n) = map (fun _ => []) (e_lists (evs s e)) /\ e_aux (evs s n) = None) srcs news ->
  Forall2 (led s s' dest) srcs news /\ acts s' = acts s /\ next s' = next s /\ (forall x, ~ In x news -> evs s' x = evs s x) /\ (forall x, e_label (evs s' x) = e_label (evs s x)).
Proof.
  induction srcs as [|e srcs IH]; intros [|n news] s s' H ND D B; cbn [table_clone_map] in H; try discriminate.
  - injection H as <-. split; [constructor|]. repeat split.
  - destruct (event_clone_resolve s dest e n) as [s1 r] eqn:R. assert (C := resolve_code s dest e n). rewrite R in C. cbn [snd] in C. destruct C as [->| ->]; [|cbn in H; discriminate]. cbn [Z.ltb Z.compare] in H.
    inversion B as [|? ? ? ? [B1 B2] B']; subst. inversion ND as [|? ? NI ND']; subst.
    assert (NE : e <> n) by (intros ->; apply (D n); left; reflexivity).
    destruct (resolve_ok _ _ _ _ _ R NE B1 B2) as ((L1 & L2 & L3) & A & N & V).
    assert (Lb : forall x, e_label (evs s1 x) = e_label (evs s x)) by (intros x; destruct (Nat.eq_dec x n) as [->|Q]; [exact L1|rewrite V by exact Q; reflexivity]).
    destruct (IH news s1 s' H ND') as (F & A' & N' & V' & Lb').
    { intros x Hx Hn. apply (D x); [right|right]; assumption. }
    { assert (Q1 : forall x, In x srcs -> x <> n) by (intros x Hx ->; apply (D n); [right; exact Hx|left; reflexivity]).
      assert (Q2 : forall x, In x news -> x <> n) by (intros x Hx ->; contradiction).
      clear - B' V Q1 Q2. induction B' as [|x y lx ly q B' IHB]; [constructor|]. constructor.
      - rewrite (V x) by (apply Q1; left; reflexivity). rewrite (V y) by (apply Q2; left; reflexivity). exact q.
      - apply IHB; intros z Hz; [apply Q1|apply Q2]; right; exact Hz. }
    split; [constructor|].
    + assert (E : evs s' n = evs s1 n) by (apply V'; exact NI). unfold led. rewrite E. split; [exact L1|]. split; [exact L2|exact L3].
    + assert (Q : forall x, In x srcs -> x <> n) by (intros x Hx ->; apply (D n); [right; exact Hx|left; reflexivity]).
      clear - F Q A V Lb. induction F as [|x y lx ly q F IHF]; [constructor|]. constructor; [|apply IHF; intros z Hz; apply Q; right; exact Hz].
      destruct q as (q1 & q2 & q3). unfold led, same_label in *. rewrite A in q2. rewrite (V x) in q2, q3 by (apply Q; left; reflexivity). split; [rewrite q1; apply Lb|]. split; [exact q2|].
      destruct (e_aux (evs s x)), (e_aux (evs s' y)); try assumption. rewrite !Lb in q3. exact q3.
    + split; [congruence|]. split; [congruence|]. split; [|intros x; rewrite Lb', Lb; reflexivity].
      intros x Hx. rewrite V' by (intros Q; apply Hx; right; exact Q). apply V. intros ->. apply Hx. left. reflexivity.
Qed.
