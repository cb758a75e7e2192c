(** Lemmas for C78. *)
Require Import ZArith List Bool Sorted Lia PeanoNat.
From Verif Require Import EventClone EventCloneSpec.
Import ListNotations.
Open Scope Z_scope.

Lemma key_cmp_refl l : key_cmp l l = 0.
Proof. induction l as [|x l IH]; [reflexivity|]. cbn [key_cmp]. rewrite Z.ltb_irrefl. exact IH. Qed.
Lemma table_get_in label t x : StronglySorted (fun x y => key_cmp (label x) (label y) < 0) t -> In x t -> table_get label t (label x) = Some x.
Proof.
  induction 1 as [|i t S IH F]; [intros []|]. intros [->|H]; cbn [table_get].
  - rewrite key_cmp_refl. reflexivity.
  - rewrite Forall_forall in F. specialize (F x H). destruct (Z.leb_spec 0 (key_cmp (label i) (label x))); [lia|]. exact (IH H).
Qed.
Lemma table_get_ext label label' t k : (forall x, label x = label' x) -> table_get label t k = table_get label' t k.
Proof. intros E. induction t as [|i t IH]; [reflexivity|]. cbn [table_get]. rewrite E, IH. reflexivity. Qed.

Notation cnt := (count_occ Nat.eq_dec).
Definition Zc (l : list nat) (x : nat) : Z := Z.of_nat (cnt l x).
Lemma Zc_cons b l x : Zc (b :: l) x = (if Nat.eqb x b then 1 else 0) + Zc l x.
Proof. unfold Zc. cbn [count_occ]. destruct (Nat.eq_dec b x), (Nat.eqb_spec x b); subst; try lia; try contradiction; congruence. Qed.
Lemma Zc_app l l' x : Zc (l ++ l') x = Zc l x + Zc l' x.
Proof. unfold Zc. rewrite count_occ_app. lia. Qed.

(** One list. *)
Lemma list_clone_spec dest : forall l s done,
  (forall a, In a l -> exists b, In b dest /\ table_get (fun x => a_label (acts s x)) dest (a_label (acts s a)) = Some b /\ acts s b = acts s a) ->
  exists l' s', action_list_clone s dest l done = (s', Some (done ++ l')) /\ Forall2 (fun a b => In b dest /\ acts s b = acts s a) l l' /\
    acts s' = acts s /\ evs s' = evs s /\ next s' = next s /\ forall x, refs s' x = refs s x + Zc l' x.
Proof.
  induction l as [|a l IH]; intros s done H.
  - exists [], s. cbn. rewrite app_nil_r. repeat split; try constructor. intros x. unfold Zc; cbn. lia.
  - destruct (H a (or_introl eq_refl)) as (b & Ib & G & E). cbn [action_list_clone]. rewrite G.
    destruct (IH (add_ref s b 1) (done ++ [b])) as (l' & s' & R & F & A & V & N & C).
    { intros a' Ha'. apply (H a' (or_intror Ha')). }
    exists (b :: l'), s'. rewrite <- app_assoc in R. split; [exact R|]. split; [constructor; [split; assumption|exact F]|]. split; [exact A|]. split; [exact V|]. split; [exact N|].
    intros x. rewrite C, Zc_cons. unfold add_ref, upd. cbn [refs]. destruct (Nat.eqb_spec x b) as [->|]; lia.
Qed.
(** All lists of an event. *)
Lemma lists_clone_spec dest new : forall ls s done,
  (forall l a, In l ls -> In a l -> exists b, In b dest /\ table_get (fun x => a_label (acts s x)) dest (a_label (acts s a)) = Some b /\ acts s b = acts s a) ->
  e_lists (evs s new) = done ++ map (fun _ => []) ls ->
  exists ls' s', action_lists_clone s dest new ls done = (s', 0) /\ Forall2 (Forall2 (fun a b => In b dest /\ acts s b = acts s a)) ls ls' /\
    acts s' = acts s /\ (forall x, evs s' x = if Nat.eqb x new then Event (e_label (evs s new)) (done ++ ls') (e_aux (evs s new)) else evs s x) /\ next s' = next s /\
    forall x, refs s' x = refs s x + Zc (concat ls') x.
Proof.
  induction ls as [|l ls IH]; intros s done H L.
  - exists [], s. cbn [action_lists_clone map] in *. split; [reflexivity|]. split; [constructor|]. split; [reflexivity|]. split; [|split; [reflexivity|intros x; unfold Zc; cbn; lia]].
    intros x. destruct (Nat.eqb_spec x new) as [->|]; [|reflexivity]. rewrite <- L. destruct (evs s new); reflexivity.
  - cbn [action_lists_clone]. destruct (list_clone_spec dest l s [] (fun a Ha => H l a (or_introl eq_refl) Ha)) as (l' & s1 & R & F & A & V & N & C). rewrite R. cbn [app] in *.
    set (s2 := Store (acts s1) _ (refs s1) (next s1)).
    destruct (IH s2 (done ++ [l'])) as (ls' & s3 & R3 & F3 & A3 & V3 & N3 & C3).
    { intros l0 a Hl Ha. unfold s2; cbn [acts]. rewrite A. apply (H l0 a (or_intror Hl) Ha). }
    { unfold s2, upd; cbn [evs]. rewrite Nat.eqb_refl. cbn [e_lists]. rewrite <- app_assoc. reflexivity. }
    exists (l' :: ls'), s3. split; [exact R3|]. unfold s2 in F3, A3, N3, C3. cbn [acts refs next] in *. rewrite A in F3, A3.
    split; [constructor; assumption|]. split; [exact A3|]. split; [|split; [congruence|]].
    + intros x. rewrite V3. unfold s2, upd; cbn [evs]. rewrite Nat.eqb_refl. cbn [e_label e_aux]. rewrite V, <- app_assoc. destruct (Nat.eqb x new); reflexivity.
    + intros x. rewrite C3, C. cbn [concat]. rewrite Zc_app. lia.
Qed.

(** The first and the second event correspond, in the store before and the one after. *)
Record resolved (s s' : store) (dest : context) (src new : nat) : Prop := {
  r_lists : Forall2 (Forall2 (fun a b => In b (actions dest) /\ acts s b = acts s a)) (e_lists (evs s src)) (e_lists (evs s' new));
  r_aux : match e_aux (evs s src), e_aux (evs s' new) with
          | None, None => True
          | Some x, Some y => In y (events dest) /\ e_label (evs s y) = e_label (evs s x)
          | _, _ => False end }.
Definition use (s : store) (e x : nat) : Z :=
  Zc (concat (e_lists (evs s e))) x + match e_aux (evs s e) with Some y => if Nat.eqb x y then 1 else 0 | None => 0 end.
Definition findable (s : store) (dest : context) (src : nat) : Prop :=
  (forall l a, In l (e_lists (evs s src)) -> In a l -> exists b, In b (actions dest) /\ table_get (fun x => a_label (acts s x)) (actions dest) (a_label (acts s a)) = Some b /\ acts s b = acts s a) /\
  (forall x, e_aux (evs s src) = Some x -> exists y, In y (events dest) /\ table_get (fun y => e_label (evs s y)) (events dest) (e_label (evs s x)) = Some y /\ e_label (evs s y) = e_label (evs s x)).
Lemma resolve_spec s dest src new : findable s dest src -> src <> new -> e_lists (evs s new) = map (fun _ => []) (e_lists (evs s src)) -> e_aux (evs s new) = None ->
  exists s', event_clone_resolve s dest src new = (s', 0) /\ resolved s s' dest src new /\ acts s' = acts s /\ next s' = next s /\
    (forall x, x <> new -> evs s' x = evs s x) /\ e_label (evs s' new) = e_label (evs s new) /\ forall x, refs s' x = refs s x + use s' new x.
Proof.
  intros [H1 H2] N L X. unfold event_clone_resolve.
  destruct (lists_clone_spec (actions dest) new (e_lists (evs s src)) s [] H1 L) as (ls' & s1 & R & F & A & V & Nx & C). rewrite R. cbn [Z.ltb Z.compare app] in *.
  assert (Vs : evs s1 src = evs s src) by (rewrite V; destruct (Nat.eqb_spec src new); [contradiction|reflexivity]).
  assert (Vn : evs s1 new = Event (e_label (evs s new)) ls' None) by (rewrite V, Nat.eqb_refl, X; reflexivity).
  assert (Lb : forall x, e_label (evs s1 x) = e_label (evs s x)) by (intros x; rewrite V; destruct (Nat.eqb_spec x new) as [->|]; reflexivity).
  rewrite Vs. destruct (e_aux (evs s src)) as [x|] eqn:Ex.
  - destruct (H2 x eq_refl) as (y & Iy & G & Ey). rewrite (table_get_ext _ (fun y => e_label (evs s y))) by exact Lb. rewrite (Lb x), G.
    eexists. split; [reflexivity|]. split; [constructor|].
    + unfold add_ref, upd; cbn [evs acts]. rewrite Nat.eqb_refl. cbn [e_lists]. rewrite Vn. exact F.
    + rewrite Ex. unfold add_ref, upd; cbn [evs]. rewrite Nat.eqb_refl. cbn [e_aux]. split; assumption.
    + cbn [add_ref acts next evs]. split; [exact A|]. split; [exact Nx|]. split; [|split].
      * intros z Hz. unfold upd. destruct (Nat.eqb_spec z new); [contradiction|]. rewrite V. destruct (Nat.eqb_spec z new); [contradiction|reflexivity].
      * unfold upd. rewrite Nat.eqb_refl. cbn [e_label]. apply Lb.
      * intros z. unfold use, upd; cbn [evs add_ref refs]. rewrite Nat.eqb_refl. cbn [e_lists e_aux]. rewrite Vn. cbn [e_lists]. unfold upd. destruct (Nat.eqb_spec z y) as [->|]; rewrite C; lia.
  - exists s1. split; [reflexivity|]. split; [constructor|].
    + rewrite Vn. exact F.
    + rewrite Ex, Vn. exact I.
    + split; [exact A|]. split; [exact Nx|]. split; [|split].
      * intros z Hz. rewrite V. destruct (Nat.eqb_spec z new); [contradiction|reflexivity].
      * apply Lb.
      * intros z. unfold use. rewrite Vn. cbn [e_lists e_aux]. rewrite C. lia.
Qed.

Lemma map_spec dest : forall srcs news s, length srcs = length news -> NoDup news -> (forall x, In x srcs -> ~ In x news) ->
  (forall e, In e srcs -> findable s dest e) -> Forall2 (fun e n => e_lists (evs s n) = map (fun _ => []) (e_lists (evs s e)) /\ e_aux (evs s n) = None) srcs news ->
  exists s', table_clone_map s dest srcs news = (s', 0) /\ Forall2 (resolved s s' dest) srcs news /\ acts s' = acts s /\ next s' = next s /\
    (forall x, ~ In x news -> evs s' x = evs s x) /\ (forall x, e_label (evs s' x) = e_label (evs s x)) /\
    forall x, refs s' x = refs s x + fold_right Z.add 0 (map (fun n => use s' n x) news).
Proof.
  induction srcs as [|e srcs IH]; intros [|n news] s Len ND Dj Fd Bare; try discriminate.
  - exists s. cbn. repeat split; try constructor. intros x. lia.
  - cbn [table_clone_map]. inversion ND as [|? ? Nn ND']; subst. inversion Bare as [|? ? ? ? [B1 B2] Bare']; subst.
    destruct (resolve_spec s dest e n (Fd e (or_introl eq_refl)) ltac:(intros ->; apply (Dj n); [left; reflexivity|left; reflexivity]) B1 B2) as (s1 & R & Rs & A & Nx & V & Lb & C).
    rewrite R. cbn [Z.ltb Z.compare].
    assert (Lb1 : forall x, e_label (evs s1 x) = e_label (evs s x)) by (intros x; destruct (Nat.eq_dec x n) as [->|]; [exact Lb|rewrite V by assumption; reflexivity]).
    assert (Ns : forall x, In x srcs -> x <> n) by (intros x Hx ->; apply (Dj n); [right; exact Hx|left; reflexivity]).
    destruct (IH news s1) as (s2 & R2 & Rs2 & A2 & Nx2 & V2 & Lb2 & C2).
    + cbn in Len. lia.
    + exact ND'.
    + intros x Hx Hx'. apply (Dj x); right; assumption.
    + intros x Hx. destruct (Fd x (or_intror Hx)) as [F1 F2]. split.
      * rewrite V by (apply Ns; exact Hx). rewrite A. exact F1.
      * rewrite V by (apply Ns; exact Hx). intros y Hy. destruct (F2 y Hy) as (z & Iz & G & Ez). exists z. rewrite (table_get_ext _ (fun y => e_label (evs s y))) by exact Lb1. rewrite !Lb1. repeat split; assumption.
    + assert (Q : Forall2 (fun e n => e_lists (evs s n) = map (fun _ => []) (e_lists (evs s e)) /\ e_aux (evs s n) = None) srcs news) by exact Bare'.
      clear - Q V Ns Nn. induction Q as [|a b la lb [q1 q2] Q IHQ]; [constructor|]. constructor.
      * rewrite !V; [split; assumption|apply Ns; left; reflexivity|intros ->; apply Nn; left; reflexivity].
      * apply IHQ; first [intros Hx; apply Nn; right; exact Hx|intros x Hx; apply Ns; right; exact Hx].
    + exists s2. split; [exact R2|].
      assert (Vn : evs s2 n = evs s1 n) by (apply V2; exact Nn).
      split; [constructor|].
      * destruct Rs as [L1 L2]. constructor; rewrite Vn; assumption.
      * clear - Rs2 A V Ns Lb1 . induction Rs2 as [|a b la lb [q1 q2] Q IHQ]; [constructor|]. constructor.
        -- assert (Na : a <> n) by (apply Ns; left; reflexivity). rewrite (V a Na) in q1, q2. rewrite A in q1. constructor; [exact q1|].
           destruct (e_aux (evs s a)), (e_aux (evs s2 b)); try assumption. rewrite !Lb1 in q2. exact q2.
        -- apply IHQ; intros; apply Ns; right; assumption.
      * split; [congruence|]. split; [congruence|]. split; [|split].
        -- intros x Hx. rewrite V2, V; [reflexivity| |]; intros Hx'; apply Hx; [subst; left; reflexivity|right; exact Hx'].
        -- intros x. rewrite Lb2, Lb1. reflexivity.
        -- intros x. rewrite C2, C. cbn [map fold_right]. unfold use at 1 3. rewrite Vn. unfold use. lia.
Qed.

(** Copying the tables. *)
Lemma actions_clone_spec : forall t s, (forall a, In a t -> (a < next s)%nat) ->
  exists s', table_clone action_clone s t = (s', seq (next s) (length t)) /\ next s' = (next s + length t)%nat /\ evs s' = evs s /\
    Forall2 (fun a b => acts s' b = acts s a) t (seq (next s) (length t)) /\
    (forall x, (x < next s)%nat -> acts s' x = acts s x /\ refs s' x = refs s x) /\ (forall x, (next s <= x < next s + length t)%nat -> refs s' x = 1) /\
    (forall x, (next s + length t <= x)%nat -> acts s' x = acts s x /\ refs s' x = refs s x).
Proof.
  induction t as [|a t IH]; intros s H.
  - exists s. cbn. repeat split; try constructor; try lia.
  - cbn [table_clone action_clone]. set (s1 := Store _ (evs s) _ _). destruct (IH s1) as (s' & R & N & V & F & Old & New & Rest).
    { intros b Hb. cbn. apply H in Hb as Hb'; [lia| right; exact Hb] || (specialize (H b (or_intror Hb)); lia). }
    rewrite R. cbn [next s1] in *. exists s'. cbn [length seq]. split; [reflexivity|]. split; [rewrite N; lia|]. split; [exact V|].
    assert (A1 : acts s' (next s) = acts s a).
    { destruct (Old (next s) ltac:(cbn; lia)) as [-> _]. unfold s1, upd; cbn [acts]. rewrite Nat.eqb_refl. reflexivity. }
    split; [constructor; [exact A1|]|].
    + assert (Q : forall b, In b t -> acts s1 b = acts s b) by (intros b Hb; unfold s1, upd; cbn [acts]; specialize (H b (or_intror Hb)); destruct (Nat.eqb_spec b (next s)); [lia|reflexivity]).
      clear - F Q. induction F as [|x y lx ly q F IHF]; [constructor|]. constructor; [rewrite q; apply Q; left; reflexivity|]. apply IHF. intros b Hb. apply Q. right. exact Hb.
    + split; [|split].
      * intros x Hx. destruct (Old x ltac:(cbn; lia)) as [-> ->]. unfold s1, upd; cbn [acts refs]. destruct (Nat.eqb_spec x (next s)); [lia|]. split; reflexivity.
      * intros x Hx. destruct (Nat.eq_dec x (next s)) as [->|]; [destruct (Old (next s) ltac:(cbn; lia)) as [_ ->]; unfold s1, upd; cbn [refs]; rewrite Nat.eqb_refl; reflexivity|]. apply New. lia.
      * intros x Hx. destruct (Rest x ltac:(lia)) as [-> ->]. unfold s1, upd; cbn [acts refs]. destruct (Nat.eqb_spec x (next s)); [lia|]. split; reflexivity.
Qed.
Definition bare (s : store) (e : nat) : event := Event (e_label (evs s e)) (map (fun _ => []) (e_lists (evs s e))) None.
Lemma events_clone_spec : forall t s, (forall a, In a t -> (a < next s)%nat) ->
  exists s', table_clone event_clone_bare s t = (s', seq (next s) (length t)) /\ next s' = (next s + length t)%nat /\ acts s' = acts s /\
    Forall2 (fun a b => evs s' b = bare s a) t (seq (next s) (length t)) /\
    (forall x, (x < next s)%nat -> evs s' x = evs s x /\ refs s' x = refs s x) /\ (forall x, (next s <= x < next s + length t)%nat -> refs s' x = 1).
Proof.
  induction t as [|a t IH]; intros s H.
  - exists s. cbn. repeat split; try constructor; try lia.
  - cbn [table_clone event_clone_bare]. set (s1 := Store (acts s) _ _ _). destruct (IH s1) as (s' & R & N & V & F & Old & New).
    { intros b Hb. specialize (H b (or_intror Hb)). cbn. lia. }
    rewrite R. cbn [next s1] in *. exists s'. cbn [length seq]. split; [reflexivity|]. split; [rewrite N; lia|]. split; [exact V|].
    assert (A1 : evs s' (next s) = bare s a).
    { destruct (Old (next s) ltac:(cbn; lia)) as [-> _]. unfold s1, upd; cbn [evs]. rewrite Nat.eqb_refl. reflexivity. }
    split; [constructor; [exact A1|]|].
    + assert (Q : forall b, In b t -> bare s1 b = bare s b) by (intros b Hb; unfold bare, s1, upd; cbn [evs]; specialize (H b (or_intror Hb)); destruct (Nat.eqb_spec b (next s)); [lia|reflexivity]).
      clear - F Q. induction F as [|x y lx ly q F IHF]; [constructor|]. constructor; [rewrite q; apply Q; left; reflexivity|]. apply IHF. intros b Hb. apply Q. right. exact Hb.
    + split.
      * intros x Hx. destruct (Old x ltac:(cbn; lia)) as [-> ->]. unfold s1, upd; cbn [evs refs]. destruct (Nat.eqb_spec x (next s)); [lia|]. split; reflexivity.
      * intros x Hx. destruct (Nat.eq_dec x (next s)) as [->|]; [destruct (Old (next s) ltac:(cbn; lia)) as [_ ->]; unfold s1, upd; cbn [refs]; rewrite Nat.eqb_refl; reflexivity|]. apply New. lia.
Qed.
