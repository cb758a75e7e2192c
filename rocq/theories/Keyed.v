(** Tables at the level of sequences: the loops of wolfsentry_table_ent_get / _insert / _delete (src/wolfsentry_internal.c 27-73,
    463-510) over the sequence of entries that the pointers represent (Table.v and C01-C03 justify this view for every history). *)
From Verif Require Import Base TableSpec.
From Coq Require Import Sorted.
Open Scope Z_scope.

Section Keyed.
  Context {K V : Type}.
  Variable key : V -> K.
  Variable cmp : K -> K -> Z.
  (** internal.c 463-482 *)
  Fixpoint kfind (l : list V) (k : K) : option V :=
    match l with
    | [] => None
    | x :: r => let c := cmp (key x) k in if c >=? 0 then (if c =? 0 then Some x else None) else kfind r k
    end.
  (** internal.c 27-73, unique_p = 1; None: ITEM_ALREADY_PRESENT *)
  Fixpoint kinsert (l : list V) (x : V) : option (list V) :=
    match l with
    | [] => Some [x]
    | y :: r => let c := cmp (key y) (key x) in
                if c >=? 0 then (if c =? 0 then None else Some (x :: l)) else option_map (cons y) (kinsert r x)
    end.
  (** internal.c 484-510: unlink the entry with the given key *)
  Fixpoint kremove (l : list V) (k : K) : list V :=
    match l with [] => [] | x :: r => if cmp (key x) k =? 0 then r else x :: kremove r k end.
  (** write to the entry with the given key, in place *)
  Fixpoint kmodify (l : list V) (k : K) (f : V -> V) : list V :=
    match l with [] => [] | x :: r => if cmp (key x) k =? 0 then f x :: r else x :: kmodify r k f end.

  Definition ksorted (l : list V) : Prop := StronglySorted (fun a b => cmp (key a) (key b) < 0) l.

  Hypothesis TO : total_order cmp.
  Hypothesis EQ : forall a b, cmp a b = 0 <-> a = b.

  Lemma cmp_flip a b : cmp a b < 0 <-> cmp b a > 0.
  Proof. pose proof (to_anti _ TO a b). split; intros; [destruct (cmp a b), (cmp b a); cbn in *; lia|destruct (cmp a b), (cmp b a); cbn in *; lia]. Qed.
  Lemma cmp_trans a b d : cmp a b < 0 -> cmp b d < 0 -> cmp a d < 0.
  Proof.
    intros A B. pose proof (to_trans _ TO a b d ltac:(lia) ltac:(lia)) as H. destruct (Z.eq_dec (cmp a d) 0) as [E|E]; [|lia]. apply EQ in E. subst d. apply cmp_flip in A. lia.
  Qed.
  Lemma kfind_in l k x : ksorted l -> (kfind l k = Some x <-> In x l /\ key x = k).
  Proof.
    induction 1 as [|y l S0 IH F]; cbn [kfind In]; [split; [discriminate|tauto]|]. rewrite Forall_forall in F.
    destruct (Z.geb_spec (cmp (key y) k) 0) as [G|G].
    - destruct (Z.eqb_spec (cmp (key y) k) 0) as [E|E].
      + split; [intros X; injection X as <-; split; [left; reflexivity|apply EQ; exact E]|]. intros ([-> |I] & KX); [reflexivity|]. apply EQ in E. specialize (F x I). rewrite KX, E in F. assert (cmp k k = 0) by (apply EQ; reflexivity). lia.
      + split; [discriminate|]. intros ([-> |I] & KX); [apply EQ in KX; lia|]. specialize (F x I). rewrite KX in F. lia.
    - rewrite IH. split; [tauto|]. intros ([-> |I] & KX); [apply EQ in KX; lia|tauto].
  Qed.
  Lemma kfind_none l k : ksorted l -> (kfind l k = None <-> forall x, In x l -> key x <> k).
  Proof.
    intros S0. split.
    - intros N x I KX. assert (kfind l k = Some x) by (apply kfind_in; auto). congruence.
    - intros H. destruct (kfind l k) as [x|] eqn:E; [|reflexivity]. apply kfind_in in E; [|exact S0]. destruct E as [I KX]. destruct (H x I KX).
  Qed.
  Lemma kinsert_spec l x : ksorted l -> match kinsert l x with
    | None => exists y, kfind l (key x) = Some y
    | Some l' => kfind l (key x) = None /\ ksorted l' /\ (forall y, In y l' <-> y = x \/ In y l)
    end.
  Proof.
    induction 1 as [|y l S0 IH F]; cbn [kinsert kfind].
    - split; [reflexivity|]. split; [repeat constructor|]. intros y. cbn. intuition.
    - destruct (Z.geb_spec (cmp (key y) (key x)) 0) as [G|G].
      + destruct (Z.eqb_spec (cmp (key y) (key x)) 0) as [E|E]; [eauto|]. split; [reflexivity|]. split; [|intros z; cbn; intuition].
        assert (L : cmp (key x) (key y) < 0) by (apply cmp_flip; lia).
        constructor; [constructor; assumption|]. constructor; [exact L|]. rewrite Forall_forall in *. intros z I. exact (cmp_trans _ _ _ L (F z I)).
      + destruct (kinsert l x) as [l'|] eqn:E; cbn [option_map]; [|exact IH]. destruct IH as (N & S' & I'). split; [exact N|]. split; [|intros z; cbn; rewrite I'; intuition].
        constructor; [exact S'|]. rewrite Forall_forall in *. intros z I. apply I' in I. destruct I as [-> |I]; [lia|auto].
  Qed.
  Lemma kfind_insert l l' x k : ksorted l -> kinsert l x = Some l' -> (key x = k -> kfind l' k = Some x) /\ (key x <> k -> kfind l' k = kfind l k).
  Proof.
    intros S0 E. pose proof (kinsert_spec l x S0) as H. rewrite E in H. destruct H as (N & S' & I'). split.
    - intros KX. apply kfind_in; [exact S'|]. rewrite I'. auto.
    - intros KX. destruct (kfind l k) as [y|] eqn:F; [apply kfind_in; [exact S'|]; apply kfind_in in F; [|exact S0]; rewrite I'; tauto|].
      apply kfind_none; [exact S'|]. intros y I. apply I' in I. destruct I as [-> |I]; [exact KX|]. exact (proj1 (kfind_none _ _ S0) F y I).
  Qed.
  Lemma kremove_sub l k : forall x, In x (kremove l k) -> In x l.
  Proof. induction l as [|y l IH]; cbn; [tauto|]. intros x. destruct (cmp (key y) k =? 0); [auto|]. intros [<- |I]; auto. Qed.
  Lemma kremove_spec l k : ksorted l -> ksorted (kremove l k) /\ forall x, In x (kremove l k) <-> In x l /\ key x <> k.
  Proof.
    induction 1 as [|y l S0 IH F]; cbn [kremove]; [split; [constructor|cbn; tauto]|]. rewrite Forall_forall in F. destruct IH as [IS II]. destruct (Z.eqb_spec (cmp (key y) k) 0) as [E|E].
    - split; [exact S0|]. intros x. cbn. assert (KY : key y = k) by (apply EQ; exact E). split; [|intros ([-> |I] & X); tauto]. intros I. split; [auto|]. intros KX. specialize (F x I). rewrite KX, KY in F. assert (cmp k k = 0) by (apply EQ; reflexivity). lia.
    - split; [constructor; [exact IS|]; rewrite Forall_forall; intros x I; apply F; apply kremove_sub in I; exact I|]. intros x. cbn. rewrite II. split; [intros [<- |I]; [split; [auto|]; intros X; apply EQ in X; lia|tauto]|tauto].
  Qed.
  Lemma kfind_remove l k k' : ksorted l -> kfind (kremove l k) k = None /\ (k <> k' -> kfind (kremove l k) k' = kfind l k').
  Proof.
    intros S0. destruct (kremove_spec l k S0) as [S' I']. split.
    - apply kfind_none; [exact S'|]. intros x I. apply I' in I. tauto.
    - intros N. destruct (kfind l k') as [y|] eqn:F; [apply kfind_in; [exact S'|]; apply kfind_in in F; [|exact S0]; rewrite I'; intuition congruence|].
      apply kfind_none; [exact S'|]. intros y I. apply I' in I. exact (proj1 (kfind_none _ _ S0) F y (proj1 I)).
  Qed.
  Lemma kmodify_keys l k f : (forall x, key (f x) = key x) -> map key (kmodify l k f) = map key l.
  Proof. intros H. induction l as [|y l IH]; cbn; [reflexivity|]. destruct (cmp (key y) k =? 0); cbn; [rewrite H; reflexivity|rewrite IH; reflexivity]. Qed.
  Lemma ksorted_keys l l' : map key l = map key l' -> ksorted l -> ksorted l'.
  Proof.
    revert l'. induction l as [|x l IH]; intros [|y l'] E S0; try discriminate; [constructor|]. cbn in E. injection E as E1 E2. inversion S0 as [|a b S1 F]; subst. constructor; [exact (IH l' E2 S1)|].
    rewrite Forall_forall in *. intros z I. apply (in_map key) in I. rewrite <- E2 in I. apply in_map_iff in I. destruct I as (w & Ew & Iw). rewrite <- E1, <- Ew. exact (F w Iw).
  Qed.
  Lemma kmodify_sorted l k f : (forall x, key (f x) = key x) -> ksorted l -> ksorted (kmodify l k f).
  Proof. intros H S0. eapply ksorted_keys; [|exact S0]. symmetry. apply kmodify_keys. exact H. Qed.
  Lemma kfind_modify l k k' f : (forall x, key (f x) = key x) -> kfind (kmodify l k f) k' = if cmp k k' =? 0 then option_map f (kfind l k') else kfind l k'.
  Proof.
    intros H. induction l as [|y l IH]; cbn [kmodify kfind]; [destruct (cmp k k' =? 0); reflexivity|]. destruct (Z.eqb_spec (cmp (key y) k) 0) as [E|E]; cbn [kfind].
    - rewrite H. destruct (Z.eqb_spec (cmp k k') 0) as [E'|E'].
      + apply EQ in E, E'. assert (X : cmp (key y) k' = 0) by (apply EQ; congruence). rewrite X. reflexivity.
      + destruct (Z.geb_spec (cmp (key y) k') 0); [|reflexivity]. destruct (Z.eqb_spec (cmp (key y) k') 0) as [X|X]; [|reflexivity]. apply EQ in X, E. exfalso. apply E'. apply EQ. congruence.
    - rewrite IH. destruct (Z.geb_spec (cmp (key y) k') 0); [|reflexivity]. destruct (Z.eqb_spec (cmp (key y) k') 0) as [X|X]; [|destruct (cmp k k' =? 0); reflexivity].
      destruct (Z.eqb_spec (cmp k k') 0) as [Y|Y]; [|reflexivity]. apply EQ in X, Y. exfalso. apply E. apply EQ. congruence.
  Qed.
End Keyed.
