(** * A verified analysis of lock balance (claim C46) *)

From Coq Require Import List Bool Arith String Lia.
From Verif Require Import LockBalance LockBalanceSpec.
Import ListNotations.

(** The analysis computes, for a statement started with [d] more holds than
    its caller had, every outcome it can have together with the surplus it
    leaves; it gives up ([None]) when a release might touch the caller's own
    hold.  [fresh] names the contexts whose lock the caller does not hold
    at all, so that the surplus is the exact number of holds. *)

Definition outcome_eqb (a b : outcome) : bool :=
  match a, b with
  | Falls, Falls => true
  | Breaks, Breaks => true
  | Returns x, Returns y => Bool.eqb x y
  | _, _ => false
  end.

Definition surplus := (nat * nat)%type.
Definition end_ := (outcome * surplus)%type.

Definition end_eqb (a b : end_) : bool :=
  outcome_eqb (fst a) (fst b) && Nat.eqb (fst (snd a)) (fst (snd b))
  && Nat.eqb (snd (snd a)) (snd (snd b)).

Definition mem (e : end_) (l : list end_) : bool := existsb (end_eqb e) l.
Fixpoint union (a b : list end_) : list end_ :=
  match a with
  | [] => b
  | e :: a' => if mem e b then union a' b else e :: union a' b
  end.

Definition join (a b : option (list end_)) : option (list end_) :=
  match a, b with Some x, Some y => Some (union x y) | _, _ => None end.

(* run [k] on every outcome of the list and gather the results *)
Fixpoint gather (k : end_ -> option (list end_)) (l : list end_) : option (list end_) :=
  match l with
  | [] => Some []
  | e :: l' => join (k e) (gather k l')
  end.

Definition sget (c : ctx) (d : surplus) : nat :=
  match c with Here => fst d | There => snd d end.
Definition sset (c : ctx) (n : nat) (d : surplus) : surplus :=
  match c with Here => (n, snd d) | There => (fst d, n) end.

Definition is_bad (bad : list (string * bool)) (n : string) (b : bool) : bool :=
  existsb (fun e => String.eqb (fst e) n && Bool.eqb (snd e) b) bad.

Definition unless (b : bool) (r : option (list end_)) : option (list end_) :=
  if b then Some [] else r.

(* a loop body may only fall through with the surplus it started with *)
Definition steady (d : surplus) (e : end_) : bool :=
  match fst e with Falls => end_eqb e (Falls, d) | _ => true end.
(* what leaving the body means for the loop *)
Definition leave (e : end_) : end_ :=
  match fst e with Breaks => (Falls, snd e) | _ => e end.

Section An.
  Variable bad : list (string * bool).
  Variable fresh : ctx -> bool.

  Fixpoint an (p : stmt) (d : surplus) : option (list end_) :=
    match p with
    | Skip => Some [(Falls, d)]
    | Break => Some [(Breaks, d)]
    | Return r => Some [(Returns r, d)]
    | Then a b =>
        match an a d with
        | None => None
        | Some l => gather (fun e => match fst e with
                                     | Falls => an b (snd e)
                                     | _ => Some [e]
                                     end) l
        end
    | If c a b =>
        join (unless (is_bad bad c true) (an a d)) (unless (is_bad bad c false) (an b d))
    | Lock c q =>
        join (unless (is_bad bad "lock" true) (Some [(Falls, sset c (S (sget c d)) d)]))
             (unless (is_bad bad "lock" false) (an q d))
    | Unlock c q =>
        match sget c d with
        | S n => Some [(Falls, sset c n d)]
        | O => if (fresh c) then an q d else None
        end
    | Have c a b =>
        join (if (fresh c) && Nat.eqb (sget c d) 0
              then Some [] else an a d)
             (unless (is_bad bad "have lock" false) (an b d))
    | HeldOnce c a b =>
        if (fresh c)
        then if Nat.eqb (sget c d) 1 then an a d else an b d
        else join (an a d) (an b d)
    | Call f q a b =>
        match an q d with
        | None => None
        | Some l => gather (fun e => match fst e with
                                     | Returns true => unless (is_bad bad f true) (an a (snd e))
                                     | Returns false => unless (is_bad bad f false) (an b (snd e))
                                     | _ => Some []
                                     end) l
        end
    | Loop q =>
        match an q d with
        | None => None
        | Some l =>
            if forallb (steady d) l then Some (union [(Falls, d)] (map leave l))
            else None
        end
    end.
End An.

Lemma outcome_eqb_eq : forall a b, outcome_eqb a b = true <-> a = b.
Proof.
  intros [| |x] [| |y]; cbn; split; intro H; try reflexivity; try discriminate.
  - apply Bool.eqb_prop in H; subst; reflexivity.
  - injection H as <-; destruct x; reflexivity.
Qed.

Lemma end_eqb_eq : forall a b, end_eqb a b = true <-> a = b.
Proof.
  intros [o [x y]] [o' [x' y']]; unfold end_eqb; cbn.
  rewrite !andb_true_iff, outcome_eqb_eq, !Nat.eqb_eq. split.
  - intros [[-> ->] ->]; reflexivity.
  - intro H; injection H as -> -> ->; auto.
Qed.

Lemma mem_In : forall e l, mem e l = true <-> In e l.
Proof.
  intros e l; unfold mem; rewrite existsb_exists; split.
  - intros (x & Hx & Hq); apply end_eqb_eq in Hq; subst; exact Hx.
  - intro H; exists e; split; [exact H|apply end_eqb_eq; reflexivity].
Qed.

Lemma union_In : forall a b e, In e (union a b) <-> In e a \/ In e b.
Proof.
  induction a as [|x a IH]; intros b e; cbn; [tauto|].
  destruct (mem x b) eqn:E.
  - rewrite IH. apply mem_In in E. split; [tauto|]. intros [[<-|H]|H]; tauto.
  - cbn; rewrite IH; tauto.
Qed.

Lemma join_some : forall a b l, join a b = Some l ->
  exists x y, a = Some x /\ b = Some y /\ forall e, In e l <-> In e x \/ In e y.
Proof.
  intros [x|] [y|] l H; cbn in H; try discriminate. injection H as <-.
  exists x, y; split; [reflexivity|split; [reflexivity|]]. intro e; apply union_In.
Qed.

Lemma gather_some : forall k l r, gather k l = Some r ->
  forall e, In e l -> exists x, k e = Some x /\ incl x r.
Proof.
  intros k l; induction l as [|y l IH]; intros r H e He; cbn in *; [tauto|].
  apply join_some in H; destruct H as (x & z & Hx & Hz & Hu).
  destruct He as [<-|He].
  - exists x; split; [exact Hx|]. intros w Hw; apply Hu; tauto.
  - destruct (IH _ Hz _ He) as (w & Hw & Hi). exists w; split; [exact Hw|].
    intros v Hv; apply Hu; right; exact (Hi v Hv).
Qed.

Lemma is_bad_In : forall bad n b, is_bad bad n b = true -> In (n, b) bad.
Proof.
  intros bad n b H; unfold is_bad in H; apply existsb_exists in H.
  destruct H as ([x y] & Hi & Hq); cbn in Hq; apply andb_true_iff in Hq; destruct Hq as [Q1 Q2].
  apply String.eqb_eq in Q1; apply Bool.eqb_prop in Q2; subst; exact Hi.
Qed.

Definition plus (base : holds) (d : surplus) : holds :=
  {| here := here base + fst d; there := there base + snd d |}.

Lemma get_plus : forall c b d, get c (plus b d) = get c b + sget c d.
Proof. intros [] b d; reflexivity. Qed.

Lemma plus_sset : forall c b d n,
  set c (get c b + n) (plus b d) = plus b (sset c n d).
Proof. intros [] b [x y] n; reflexivity. Qed.

Definition avoids (bad : list (string * bool)) (t : trace) : Prop :=
  forall e, In e bad -> ~ In e t.

Lemma avoids_app : forall bad a b, avoids bad (a ++ b)%list -> avoids bad a /\ avoids bad b.
Proof.
  intros bad a b H; split; intros e He Hi; apply (H e He), in_app_iff; tauto.
Qed.
Lemma avoids_cons : forall bad x b, avoids bad (x :: b) -> ~ In x bad /\ avoids bad b.
Proof.
  intros bad a b H; split; [intros Hi; apply (H _ Hi); left; reflexivity|].
  intros e He Hi; apply (H e He); right; exact Hi.
Qed.

Lemma unless_some : forall bad n b r l, ~ In (n, b) bad ->
  unless (is_bad bad n b) r = Some l -> r = Some l.
Proof.
  intros bad n b r l Hn H; unfold unless in H.
  destruct (is_bad bad n b) eqn:E; [|exact H].
  exfalso; exact (Hn (is_bad_In _ _ _ E)).
Qed.

Theorem an_sound : forall bad fresh p s t o s',
  runs p s t o s' -> avoids bad t ->
  forall base d l, (forall c, fresh c = true -> get c base = 0) ->
    s = plus base d -> an bad fresh p d = Some l ->
    exists d', In (o, d') l /\ s' = plus base d'.
Proof.
  intros bad fresh p s t o s' R.
  induction R; intros Av base d l Fr Es An; subst; cbn [an] in An.
  - injection An as <-; exists d; split; [left; reflexivity|reflexivity].
  - injection An as <-; exists d; split; [left; reflexivity|reflexivity].
  - injection An as <-; exists d; split; [left; reflexivity|reflexivity].
  - (* Then *)
    apply avoids_app in Av; destruct Av as [A1 A2].
    destruct (an bad fresh a d) as [la|] eqn:Ea; [|discriminate].
    destruct (IHR1 A1 base d la Fr eq_refl Ea) as (d1 & I1 & E1).
    destruct (gather_some _ _ _ An _ I1) as (x & Hx & Hi). cbn in Hx.
    destruct (IHR2 A2 base d1 x Fr E1 Hx) as (d2 & I2 & E2).
    exists d2; split; [exact (Hi _ I2)|exact E2].
  - destruct (an bad fresh a d) as [la|] eqn:Ea; [|discriminate].
    destruct (IHR Av base d la Fr eq_refl Ea) as (d1 & I1 & E1).
    destruct (gather_some _ _ _ An _ I1) as (x & Hx & Hi). cbn in Hx.
    exists d1; split; [|exact E1]. apply Hi.
    destruct o; [congruence| |]; injection Hx as <-; left; reflexivity.
  - apply avoids_cons in Av; destruct Av as [An1 A2].
    apply join_some in An; destruct An as (x & y & Hx & Hy & Hu).
    apply (unless_some _ _ _ _ _ An1) in Hx.
    destruct (IHR A2 base d x Fr eq_refl Hx) as (d1 & I1 & E1).
    exists d1; split; [apply Hu; left; exact I1|exact E1].
  - apply avoids_cons in Av; destruct Av as [An1 A2].
    apply join_some in An; destruct An as (x & y & Hx & Hy & Hu).
    apply (unless_some _ _ _ _ _ An1) in Hy.
    destruct (IHR A2 base d y Fr eq_refl Hy) as (d1 & I1 & E1).
    exists d1; split; [apply Hu; right; exact I1|exact E1].
  - (* Lock *)
    apply avoids_cons in Av; destruct Av as [An1 A2].
    apply join_some in An; destruct An as (x & y & Hx & Hy & Hu).
    apply (unless_some _ _ _ _ _ An1) in Hx. injection Hx as <-.
    exists (sset c (S (sget c d)) d); split; [apply Hu; left; left; reflexivity|].
    rewrite get_plus, <- plus_sset. f_equal. lia.
  - apply avoids_cons in Av; destruct Av as [An1 A2].
    apply join_some in An; destruct An as (x & y & Hx & Hy & Hu).
    apply (unless_some _ _ _ _ _ An1) in Hy.
    destruct (IHR A2 base d y Fr eq_refl Hy) as (d1 & I1 & E1).
    exists d1; split; [apply Hu; right; exact I1|exact E1].
  - (* Unlock *)
    rewrite get_plus in H.
    destruct (sget c d) as [|m] eqn:Es.
    + exfalso. destruct (fresh c) eqn:Q; [|discriminate An].
      specialize (Fr c Q). lia.
    + injection An as <-. exists (sset c m d); split; [left; reflexivity|].
      assert (n = get c base + m) by lia. subst n. apply plus_sset.
  - rewrite get_plus in H.
    destruct (sget c d) as [|m] eqn:Es; [|exfalso; lia].
    destruct (fresh c) eqn:Q; [|discriminate An].
    exact (IHR Av base d l Fr eq_refl An).
  - (* Have *)
    apply avoids_cons in Av; destruct Av as [_ A2].
    apply join_some in An; destruct An as (x & y & Hx & Hy & Hu).
    rewrite get_plus in H.
    assert (Ha : an bad fresh a d = Some x).
    { destruct (fresh c) eqn:Q; [|exact Hx].
      specialize (Fr c Q).
      destruct (Nat.eqb_spec (sget c d) 0) as [E|E]; cbn [andb] in Hx; [|exact Hx].
      exfalso; lia. }
    destruct (IHR A2 base d x Fr eq_refl Ha) as (d1 & I1 & E1).
    exists d1; split; [apply Hu; left; exact I1|exact E1].
  - apply avoids_cons in Av; destruct Av as [An1 A2].
    apply join_some in An; destruct An as (x & y & Hx & Hy & Hu).
    apply (unless_some _ _ _ _ _ An1) in Hy.
    destruct (IHR A2 base d y Fr eq_refl Hy) as (d1 & I1 & E1).
    exists d1; split; [apply Hu; right; exact I1|exact E1].
  - (* HeldOnce *)
    rewrite get_plus in H.
    destruct (fresh c) eqn:Q.
    + pose proof (Fr c Q) as F0.
      destruct (Nat.eqb_spec (sget c d) 1) as [E|E]; [|exfalso; lia].
      exact (IHR Av base d l Fr eq_refl An).
    + apply join_some in An; destruct An as (x & y & Hx & Hy & Hu).
      destruct (IHR Av base d x Fr eq_refl Hx) as (d1 & I1 & E1).
      exists d1; split; [apply Hu; left; exact I1|exact E1].
  - rewrite get_plus in H.
    destruct (fresh c) eqn:Q.
    + pose proof (Fr c Q) as F0.
      destruct (Nat.eqb_spec (sget c d) 1) as [E|E]; [exfalso; lia|].
      exact (IHR Av base d l Fr eq_refl An).
    + apply join_some in An; destruct An as (x & y & Hx & Hy & Hu).
      destruct (IHR Av base d y Fr eq_refl Hy) as (d1 & I1 & E1).
      exists d1; split; [apply Hu; right; exact I1|exact E1].
  - (* Call *)
    apply avoids_app in Av; destruct Av as [A1 A2].
    apply avoids_cons in A2; destruct A2 as [An1 A2].
    destruct (an bad fresh p d) as [la|] eqn:Ea; [|discriminate].
    destruct (IHR1 A1 base d la Fr eq_refl Ea) as (d1 & I1 & E1).
    destruct (gather_some _ _ _ An _ I1) as (x & Hx & Hi). cbn in Hx.
    destruct r; apply (unless_some _ _ _ _ _ An1) in Hx;
      destruct (IHR2 A2 base d1 x Fr E1 Hx) as (d2 & I2 & E2);
      exists d2; (split; [exact (Hi _ I2)|exact E2]).
  - (* Loop *)
    destruct (an bad fresh p d) as [la|] eqn:Ea; [|discriminate].
    destruct (forallb (steady d) la) eqn:Fb; [|discriminate].
    assert (El : union [(Falls, d)] (map leave la) = l) by congruence; subst l.
    exists d; split; [apply union_In; left; left; reflexivity|reflexivity].
  - apply avoids_app in Av; destruct Av as [A1 A2].
    destruct (an bad fresh p d) as [la|] eqn:Ea; [|discriminate].
    destruct (forallb (steady d) la) eqn:Fb; [|discriminate].
    destruct (IHR1 A1 base d la Fr eq_refl Ea) as (d1 & I1 & E1).
    rewrite forallb_forall in Fb. pose proof Fb as Fb0. specialize (Fb _ I1). unfold steady in Fb; cbn in Fb.
    apply end_eqb_eq in Fb. injection Fb as ->.
    apply (IHR2 A2 base d l Fr E1). cbn [an]. rewrite Ea.
    replace (forallb (steady d) la) with true; [exact An|].
    symmetry; rewrite forallb_forall; exact Fb0.
  - destruct (an bad fresh p d) as [la|] eqn:Ea; [|discriminate].
    destruct (forallb (steady d) la) eqn:Fb; [|discriminate].
    assert (El : union [(Falls, d)] (map leave la) = l) by congruence; subst l.
    destruct (IHR Av base d la Fr eq_refl Ea) as (d1 & I1 & E1).
    exists d1; split; [|exact E1]. apply union_In; right.
    apply in_map_iff; exists (Breaks, d1); split; [reflexivity|exact I1].
  - destruct (an bad fresh p d) as [la|] eqn:Ea; [|discriminate].
    destruct (forallb (steady d) la) eqn:Fb; [|discriminate].
    assert (El : union [(Falls, d)] (map leave la) = l) by congruence; subst l.
    destruct (IHR Av base d la Fr eq_refl Ea) as (d1 & I1 & E1).
    exists d1; split; [|exact E1]. apply union_In; right.
    apply in_map_iff; exists (Returns r, d1); split; [reflexivity|exact I1].
Qed.

(** ** From the analysis to the properties *)

Definition all_ends (f : end_ -> bool) (r : option (list end_)) : bool :=
  match r with Some l => forallb f l | None => false end.

Definition even (e : end_) : bool :=
  match fst e with
  | Returns _ => Nat.eqb (fst (snd e)) 0 && Nat.eqb (snd (snd e)) 0
  | _ => true
  end.

Lemma plus_0 : forall s, plus s (0, 0) = s.
Proof. intros [x y]; unfold plus; cbn; rewrite !Nat.add_0_r; reflexivity. Qed.

Lemma even_sound : forall bad p, all_ends even (an bad (fun _ => false) p (0, 0)) = true ->
  balanced_unless bad p.
Proof.
  intros bad p H s t r s' R Av.
  destruct (an bad (fun _ => false) p (0, 0)) as [l|] eqn:E; [|discriminate]. cbn in H.
  destruct (an_sound bad (fun _ => false) p s t _ s' R Av s (0, 0) l) as (d & Hi & ->);
    [intros c Hc; discriminate Hc|symmetry; apply plus_0|exact E|].
  rewrite forallb_forall in H. specialize (H _ Hi). unfold even in H; cbn in H.
  apply andb_true_iff in H; destruct H as [H1 H2].
  apply Nat.eqb_eq in H1, H2. destruct d as [x y]; cbn in *; subst. apply plus_0.
Qed.

(* the general form, for functions that change the number on purpose *)
Lemma ends_sound : forall bad fresh f p d,
  all_ends f (an bad fresh p d) = true ->
  forall base t o s', (forall c, fresh c = true -> get c base = 0) ->
    runs p (plus base d) t o s' -> avoids bad t ->
    exists d', f (o, d') = true /\ s' = plus base d'.
Proof.
  intros bad fresh f p d H base t o s' Fr R Av.
  destruct (an bad fresh p d) as [l|] eqn:E; [|discriminate]. cbn in H.
  destruct (an_sound bad fresh p _ t o s' R Av base d l Fr eq_refl E) as (d' & Hi & ->).
  exists d'; split; [|reflexivity]. rewrite forallb_forall in H. exact (H _ Hi).
Qed.

(** ** Executing a path

    [walk] follows a list of decisions (one per condition, per acquisition and
    per loop round) and reports the trace; used to exhibit runs. *)
Fixpoint walk (fuel : nat) (p : stmt) (s : holds) (q : list bool)
  : option (outcome * holds * trace * list bool) :=
  match fuel with
  | O => None
  | S n =>
    match p with
    | Skip => Some (Falls, s, [], q)
    | Break => Some (Breaks, s, [], q)
    | Return r => Some (Returns r, s, [], q)
    | Then a b =>
        match walk n a s q with
        | Some (Falls, s1, t1, q1) =>
            match walk n b s1 q1 with
            | Some (o, s2, t2, q2) => Some (o, s2, (t1 ++ t2)%list, q2)
            | None => None
            end
        | r => r
        end
    | If c a b =>
        match q with
        | x :: q' =>
            match walk n (if x then a else b) s q' with
            | Some (o, s1, t1, q1) => Some (o, s1, (c, x) :: t1, q1)
            | None => None
            end
        | [] => None
        end
    | Lock c k =>
        match q with
        | true :: q' => Some (Falls, set c (S (get c s)) s, [("lock"%string, true)], q')
        | false :: q' =>
            match walk n k s q' with
            | Some (o, s1, t1, q1) => Some (o, s1, ("lock"%string, false) :: t1, q1)
            | None => None
            end
        | [] => None
        end
    | Unlock c k =>
        match get c s with
        | S m => Some (Falls, set c m s, [], q)
        | O => walk n k s q
        end
    | Have c a b =>
        match q with
        | x :: q' =>
            if x && Nat.eqb (get c s) 0 then None else
            match walk n (if x then a else b) s q' with
            | Some (o, s1, t1, q1) => Some (o, s1, ("have lock"%string, x) :: t1, q1)
            | None => None
            end
        | [] => None
        end
    | HeldOnce c a b => walk n (if Nat.eqb (get c s) 1 then a else b) s q
    | Call f k a b =>
        match walk n k s q with
        | Some (Returns r, s1, t1, q1) =>
            match walk n (if r then a else b) s1 q1 with
            | Some (o, s2, t2, q2) => Some (o, s2, (t1 ++ (f, r) :: t2)%list, q2)
            | None => None
            end
        | _ => None
        end
    | Loop k =>
        match q with
        | false :: q' => Some (Falls, s, [], q')
        | true :: q' =>
            match walk n k s q' with
            | Some (Falls, s1, t1, q1) =>
                match walk n (Loop k) s1 q1 with
                | Some (o, s2, t2, q2) => Some (o, s2, (t1 ++ t2)%list, q2)
                | None => None
                end
            | Some (Breaks, s1, t1, q1) => Some (Falls, s1, t1, q1)
            | r => r
            end
        | [] => None
        end
    end
  end.

Lemma walk_sound : forall fuel p s q o s' t q',
  walk fuel p s q = Some (o, s', t, q') -> runs p s t o s'.
Proof.
  induction fuel as [|n IH]; intros p s q o s' t q' H; [discriminate|].
  destruct p; cbn [walk] in H.
  - injection H as <- <- <- <-; constructor.
  - destruct (walk n p1 s q) as [[[[o1 s1] t1] q1]|] eqn:E1; [|discriminate].
    destruct o1.
    + destruct (walk n p2 s1 q1) as [[[[o2 s2] t2] q2]|] eqn:E2; [|discriminate].
      injection H as <- <- <- <-. eapply r_then; eauto.
    + injection H as <- <- <- <-. apply r_then_out; [eauto|discriminate].
    + injection H as <- <- <- <-. apply r_then_out; [eauto|discriminate].
  - destruct q as [|[] q]; [discriminate| |].
    + destruct (walk n p1 s q) as [[[[o1 s1] t1] q1]|] eqn:E1; [|discriminate].
      injection H as <- <- <- <-. apply r_if_yes; eauto.
    + destruct (walk n p2 s q) as [[[[o1 s1] t1] q1]|] eqn:E1; [|discriminate].
      injection H as <- <- <- <-. apply r_if_no; eauto.
  - destruct q as [|[] q]; [discriminate| |].
    + injection H as <- <- <- <-. apply r_lock.
    + destruct (walk n p s q) as [[[[o1 s1] t1] q1]|] eqn:E1; [|discriminate].
      injection H as <- <- <- <-. apply r_lock_failed; eauto.
  - destruct (get c s) as [|m] eqn:E.
    + apply r_unlock_failed; eauto.
    + injection H as <- <- <- <-. apply r_unlock; exact E.
  - destruct q as [|x q]; [discriminate|].
    destruct (x && Nat.eqb (get c s) 0) eqn:E; [discriminate|].
    destruct x.
    + destruct (walk n p1 s q) as [[[[o1 s1] t1] q1]|] eqn:E1; [|discriminate].
      injection H as <- <- <- <-. apply r_have; [|eauto].
      cbn in E. apply Nat.eqb_neq; exact E.
    + destruct (walk n p2 s q) as [[[[o1 s1] t1] q1]|] eqn:E1; [|discriminate].
      injection H as <- <- <- <-. apply r_have_not; eauto.
  - destruct (Nat.eqb_spec (get c s) 1) as [E|E].
    + apply r_once; eauto.
    + apply r_once_not; eauto.
  - destruct (walk n p1 s q) as [[[[o1 s1] t1] q1]|] eqn:E1; [|discriminate].
    destruct o1 as [| |r]; try discriminate.
    destruct (walk n (if r then p2 else p3) s1 q1) as [[[[o2 s2] t2] q2]|] eqn:E2; [|discriminate].
    injection H as <- <- <- <-. eapply r_call; eauto.
  - destruct q as [|[] q]; [discriminate| |].
    + destruct (walk n p s q) as [[[[o1 s1] t1] q1]|] eqn:E1; [|discriminate].
      destruct o1 as [| |r].
      * destruct (walk n (Loop p) s1 q1) as [[[[o2 s2] t2] q2]|] eqn:E2; [|discriminate].
        injection H as <- <- <- <-. eapply r_loop_again; eauto.
      * injection H as <- <- <- <-. apply r_loop_break; eauto.
      * injection H as <- <- <- <-. apply r_loop_return; eauto.
    + injection H as <- <- <- <-. apply r_loop_end.
  - injection H as <- <- <- <-; constructor.
  - injection H as <- <- <- <-; constructor.
Qed.
