(** Lemmas for C27-C30. *)
From Verif Require Import Base RwLock RwLockSpec.
Open Scope Z_scope.

Definition sum (f : thr * client -> Z) (l : list (thr * client)) : Z := fold_right (fun x a => f x + a) 0 l.
Lemma nth_upd_same {A} (l : list A) i x y : nth_error l i = Some x -> nth_error (upd l i y) i = Some y.
Proof. revert i. induction l as [|z l IH]; destruct i; cbn; try discriminate; auto. Qed.
Lemma nth_upd_other {A} (l : list A) i j y : i <> j -> nth_error (upd l i y) j = nth_error l j.
Proof. revert i j. induction l as [|z l IH]; destruct i, j; cbn; try congruence; auto. Qed.
Lemma sum_upd f l i x y : nth_error l i = Some x -> sum f (upd l i y) = sum f l - f x + f y.
Proof.
  revert i. induction l as [|z l IH]; destruct i; cbn; try discriminate; intros H.
  - assert (z = x) by congruence. subst. lia.
  - fold (sum f (upd l i y)). fold (sum f l). rewrite (IH i H). lia.
Qed.
Lemma sum_nonneg f l : (forall x, In x l -> 0 <= f x) -> 0 <= sum f l.
Proof. induction l as [|z l IH]; cbn; intros H; [lia|]. fold (sum f l). specialize (H z (or_introl eq_refl)) as Hz. assert (0 <= sum f l) by (apply IH; auto). lia. Qed.
Lemma sum_ge f l i x : (forall x, In x l -> 0 <= f x) -> nth_error l i = Some x -> f x <= sum f l.
Proof.
  revert i. induction l as [|z l IH]; destruct i; cbn; try discriminate; intros P H; fold (sum f l).
  - assert (z = x) by congruence. subst. assert (0 <= sum f l) by (apply sum_nonneg; auto). lia.
  - pose proof (P z (or_introl eq_refl)). specialize (IH i (fun x Hx => P x (or_intror Hx)) H). lia.
Qed.
Lemma sum_ge2 f l i j x y : (forall x, In x l -> 0 <= f x) -> i <> j -> nth_error l i = Some x -> nth_error l j = Some y -> f x + f y <= sum f l.
Proof.
  revert i j. induction l as [|z l IH]; destruct i, j; cbn; try discriminate; try congruence; intros P N H1 H2; fold (sum f l).
  - assert (z = x) by congruence. subst. pose proof (sum_ge f l j y (fun x Hx => P x (or_intror Hx)) H2). lia.
  - assert (z = y) by congruence. subst. pose proof (sum_ge f l i x (fun x Hx => P x (or_intror Hx)) H1). lia.
  - pose proof (P z (or_introl eq_refl)). specialize (IH i j (fun x Hx => P x (or_intror Hx)) ltac:(congruence) H1 H2). lia.
Qed.
Lemma sum_single f l i x : nth_error l i = Some x -> (forall j y, j <> i -> nth_error l j = Some y -> f y = 0) -> sum f l = f x.
Proof.
  revert i. induction l as [|z l IH]; destruct i; cbn; try discriminate; intros H P; fold (sum f l).
  - assert (z = x) by congruence. subst. assert (sum f l = 0); [|lia]. clear IH H.
    assert (Q : forall y, In y l -> f y = 0) by (intros y Hy; apply In_nth_error in Hy; destruct Hy as (j & Hj); apply (P (S j) y); [discriminate|exact Hj]).
    clear P. induction l as [|w l IHl]; [reflexivity|]. cbn. fold (sum f l). rewrite (Q w (or_introl eq_refl)), IHl; [reflexivity|]. intros y Hy. apply Q. right. exact Hy.
  - rewrite (P 0%nat z ltac:(discriminate) eq_refl). rewrite (IH i H); [lia|]. intros j y N Hj. apply (P (S j) y); [congruence|exact Hj].
Qed.
Lemma sum_zero f l : (forall j y, nth_error l j = Some y -> f y = 0) -> sum f l = 0.
Proof.
  induction l as [|z l IH]; intros P; [reflexivity|]. cbn. fold (sum f l). rewrite (P 0%nat z eq_refl), IH; [reflexivity|]. intros j y Hj. apply (P (S j) y Hj).
Qed.
Lemma sum_pos_ex f l : 0 < sum f l -> exists j y, nth_error l j = Some y /\ 0 < f y.
Proof.
  induction l as [|z l IH]; cbn; [lia|]. fold (sum f l). intros H. destruct (Z_lt_dec 0 (f z)) as [P|P]; [exists 0%nat, z; split; [reflexivity|exact P]|].
  destruct IH as (j & y & A & B); [lia|]. exists (S j), y. split; assumption.
Qed.

(** Features of a thread. *)
Definition b2z (b : bool) : Z := if b then 1 else 0.
Definition frec (x : thr * client) : Z := rec (fst x).
Definition fR (x : thr * client) : Z := match at_ (fst x) with WaitR _ _ => 1 | _ => 0 end.
Definition fW (x : thr * client) : Z := match at_ (fst x) with WaitW _ => 1 | _ => 0 end.
Definition fGW (x : thr * client) : Z := match at_ (fst x) with GotW => 1 | _ => 0 end.
Definition fP (x : thr * client) : Z := match at_ (fst x) with WaitP _ _ _ => 1 | _ => 0 end.
Definition fGP (x : thr * client) : Z := match at_ (fst x) with GotP _ _ => 1 | _ => 0 end.

(** The thread's own view; [o] and [r]: it is recorded as writer, as reservation holder. *)
Definition base (o r : bool) (t : thr) (cl : client) : Prop :=
  match holds cl with
  | HNone => rec t = 0 /\ mrc t = 0 /\ o = false /\ r = false /\ resv cl = false
  | HShared n => 1 <= n /\ rec t = n /\ mrc t = b2z (resv cl) /\ o = false /\ r = resv cl
  | HMutex n => 1 <= n /\ rec t = 0 /\ mrc t = n /\ o = true /\ r = false /\ resv cl = false
  end.
Definition fresh (o r : bool) (t : thr) (cl : client) : Prop :=
  holds cl = HNone /\ resv cl = false /\ rec t = 1 /\ mrc t = 0 /\ o = false /\ r = false.
Definition promoting (r : bool) (t : thr) (cl : client) (p : promo) (k : cont) : Prop :=
  (exists n, holds cl = HShared n /\ 1 <= n /\ rec t = n) /\ mrc t = 1 /\ r = true /\
  match p, k with
  | PRedeem, KRet => resv cl = true /\ exists w, calling cl = Some (Redeem w) \/ calling cl = Some (Shared2Mutex w)
  | PRedeem, KIncr => resv cl = true /\ exists w f, calling cl = Some (LockMutex w f)
  | PS2M, KRet => resv cl = false /\ exists w, calling cl = Some (Shared2Mutex w)
  | PS2M, KIncr => resv cl = false /\ exists w f, calling cl = Some (LockMutex w f)
  | _, _ => False
  end.
Definition unt (w : wmode) : Prop := w <> Timed.
Definition place (o r : bool) (t : thr) (cl : client) : Prop :=
  match at_ t with
  | Idle => base o r t cl /\ calling cl = None
  | Pre c => base o r t cl /\ calling cl = Some c /\ proper cl c /\ timeless c
  | Crit s k =>
    match s, k with
    | SShared w f, KRet => base o r t cl /\ o = false /\ calling cl = Some (LockShared w f) /\ unt w
    | SMutex w, KRet => base o r t cl /\ holds cl = HNone /\ (exists f, calling cl = Some (LockMutex w f)) /\ unt w
    | SM2S f, KRet => base o r t cl /\ rec t = 0 /\ calling cl = Some (Mutex2Shared f)
    | SReserve, KRet => base o r t cl /\ (exists n, holds cl = HShared n) /\ calling cl = Some Reserve
    | SReserve, KResv f => fresh o r t cl /\ (exists w, calling cl = Some (LockShared w f)) /\ want_resv f = true
    | SRedeem w, KRet => base o r t cl /\ o = false /\ (calling cl = Some (Redeem w) \/ (calling cl = Some (Shared2Mutex w) /\ r = true)) /\ unt w
    | SRedeem w, KIncr => base o r t cl /\ r = true /\ (exists f, calling cl = Some (LockMutex w f)) /\ unt w
    | SAbandon, KRet => base o r t cl /\ r = true /\ calling cl = Some Abandon
    | SS2M w, KRet => base o r t cl /\ (exists n, holds cl = HShared n) /\ r = false /\ calling cl = Some (Shared2Mutex w) /\ unt w
    | SS2M w, KIncr => base o r t cl /\ (exists n, holds cl = HShared n) /\ r = false /\ (exists f, calling cl = Some (LockMutex w f)) /\ unt w
    | SUnlock f, KRet => base o r t cl /\ proper cl (Unlock f) /\ calling cl = Some (Unlock f) /\ (forall n, holds cl = HMutex n -> n = 1)
    | SUnlock f, KBusy => fresh o r t cl /\ (exists w f, calling cl = Some (LockShared w f))
    | _, _ => False
    end
  | WaitR w f => base o r t cl /\ holds cl = HNone /\ calling cl = Some (LockShared w f) /\ unt w
  | GotR f => fresh o r t cl /\ (exists w, calling cl = Some (LockShared w f))
  | WaitW w => base o r t cl /\ holds cl = HNone /\ (exists f, calling cl = Some (LockMutex w f)) /\ unt w
  | GotW => base o r t cl /\ holds cl = HNone /\ (exists w f, calling cl = Some (LockMutex w f))
  | WaitP p w k => promoting r t cl p k /\ unt w
  | GotP p k => promoting r t cl p k
  | OutR _ | OutW _ | OutP _ _ _ => False
  end.
(** ... and how it fits the lock. *)
Definition linv (L : lock) (i : nat) (x : thr * client) : Prop :=
  let t := fst x in let cl := snd x in
  let o := is (wh L) i in let r := is (rh L) i in
  0 <= rec t /\ trk t = (0 <? rec t) /\ sc t = rec t /\ place o r t cl /\
  (r = true -> ls L = SHARED -> rec t = r2wc L) /\
  (o = true -> r = false -> mrc t = hc L) /\
  (o = true -> r = true -> rec t = hc L).

Definition ginv (L : lock) (l : list (thr * client)) : Prop :=
  0 <= rwc L /\ 0 <= wwc L /\ 0 <= sr L /\ 0 <= sw L /\ 0 <= sp L /\
  sum fR l = rwc L + sr L /\
  wwc L + sw L + sp L = sum fW l + sum fP l /\
  (forall i, wh L = Some i -> exists x, nth_error l i = Some x) /\
  (forall i, rh L = Some i -> exists x, nth_error l i = Some x) /\
  match ls L with
  | UNLOCKED => hc L = 0 /\ wh L = None /\ rh L = None /\ sum frec l = 0 /\ rwc L = 0 /\ wwc L = 0 /\ sr L = 0 /\ sw L = 0 /\ sp L = 0 /\
                sum fGW l = 0 /\ sum fGP l = 0 /\ r2wc L = 0 /\ pac L = 0
  | SHARED => wh L = None /\ sw L = 0 /\ sp L = 0 /\ sum fGW l = 0 /\ sum fGP l = 0 /\ pac L = 0 /\
              (wwc L = 0 -> rwc L = 0) /\ 1 <= sum frec l + sr L /\
              match rh L with
              | None => hc L = sum frec l + sr L /\ sum fP l = 0 /\ r2wc L = 0
              | Some _ => hc L = sum frec l + sr L + 1 - sum fP l /\ (sum fP l = 1 -> r2wc L < hc L)
              end
  | EXCLUSIVE => sr L = 0 /\ 1 <= hc L /\
                 match wh L, rh L with
                 | None, None => sw L + sum fGW l = 1 /\ sum fGP l = 0 /\ hc L = 1 /\ sum frec l = 0 /\ sp L = 0 /\ pac L = 0 /\ r2wc L = 0
                 | Some _, None => sum frec l = 0 /\ sw L = 0 /\ sum fGW l = 0 /\ sp L = 0 /\ sum fGP l = 0 /\ r2wc L = 0
                 | Some a, Some b => a = b /\ sp L + sum fGP l = 1 /\ sp L = sum fP l /\ hc L = sum frec l /\ sw L = 0 /\ sum fGW l = 0 /\ r2wc L = 0
                 | None, Some _ => False
                 end
  end.
Definition inv (s : sys) : Prop := ginv (fst s) (snd s) /\ forall i x, nth_error (snd s) i = Some x -> linv (fst s) i x.

Lemma f_bounds x : 0 <= fR x <= 1 /\ 0 <= fW x <= 1 /\ 0 <= fGW x <= 1 /\ 0 <= fP x <= 1 /\ 0 <= fGP x <= 1.
Proof. unfold fR, fW, fGW, fP, fGP. destruct (at_ (fst x)); lia. Qed.
Lemma is_true o i : is o i = true <-> o = Some i.
Proof. unfold is. destruct o as [j|]; [|split; discriminate]. destruct (Nat.eqb_spec j i); split; intros H; try congruence; try reflexivity. Qed.
Lemma is_false o i : is o i = false <-> o <> Some i.
Proof. rewrite <- is_true. destruct (is o i); split; congruence. Qed.

Lemma ex_upd {A} (l : list A) i y j : (exists x, nth_error l j = Some x) -> exists x, nth_error (upd l i y) j = Some x.
Proof. intros (x & H). destruct (Nat.eq_dec i j) as [->|N]; [exists y; eapply nth_upd_same; exact H|exists x; rewrite nth_upd_other by exact N; exact H]. Qed.

Lemma linv_same L L' j x :
  is (wh L') j = is (wh L) j -> is (rh L') j = is (rh L) j ->
  (is (rh L) j = true -> ls L' = SHARED -> ls L = SHARED /\ r2wc L' = r2wc L) ->
  (is (wh L) j = true -> hc L' = hc L) -> linv L j x -> linv L' j x.
Proof.
  unfold linv. intros Ew Er Hr Hw (A & B & C & D & E & F & G). rewrite Ew, Er. repeat (split; [assumption|]). split; [|split].
  - intros H1 H2. destruct (Hr H1 H2) as [H3 ->]. auto.
  - intros H1 H2. rewrite (Hw H1). auto.
  - intros H1 H2. rewrite (Hw H1). auto.
Qed.

(** What is known about the thread that moves, and about the reservation holder. *)
Lemma own_P L l i x : inv (L, l) -> nth_error l i = Some x ->
  (rh L = None -> sum fP l = 0 /\ sum fGP l = 0) /\
  (rh L = Some i -> sum fP l = fP x /\ sum fGP l = fGP x) /\
  (rh L <> Some i -> fP x = 0 /\ fGP x = 0).
Proof.
  intros [_ I] H. assert (Z : forall j y, rh L <> Some j -> nth_error l j = Some y -> fP y = 0 /\ fGP y = 0).
  { intros j y N Hj. destruct (I j y Hj) as (_ & _ & _ & P & _). cbn [fst] in P. apply is_false in N. rewrite N in P. unfold place in P. unfold fP, fGP.
    destruct (at_ (fst y)); try (split; reflexivity); destruct P as (_ & _ & P) || (destruct P as [(_ & _ & P & _) _]); try discriminate; destruct P; discriminate. }
  split; [|split].
  - intros E. split; apply sum_zero; intros j y Hj; apply (Z j y); congruence.
  - intros E. split; apply (sum_single _ _ i); try exact H; intros j y N Hj; apply (Z j y); congruence.
  - intros N. apply (Z i x N H).
Qed.
Lemma rec_nonneg L l : inv (L, l) -> forall x, In x l -> 0 <= frec x.
Proof. intros [_ I] x H. apply In_nth_error in H. destruct H as (j & Hj). destruct (I j x Hj) as (A & _). exact A. Qed.
Lemma rec_bound L l i x : inv (L, l) -> nth_error l i = Some x -> 0 <= frec x <= sum frec l.
Proof. intros H Hx. split; [eapply rec_nonneg; [exact H|eapply nth_error_In; exact Hx]|]. apply (sum_ge _ _ i); [apply (rec_nonneg L l H)|exact Hx]. Qed.
Lemma sum_bound f l i x : (forall x, 0 <= f x) -> nth_error l i = Some x -> f x <= sum f l /\ 0 <= sum f l.
Proof. intros P H. split; [apply (sum_ge _ _ i); auto|apply sum_nonneg; auto]. Qed.
(** The reservation holder, when it is another thread. *)
Lemma holder_other L l i x R : inv (L, l) -> nth_error l i = Some x -> rh L = Some R -> R <> i ->
  exists y, nth_error l R = Some y /\ linv L R y /\ sum fP l = fP y /\ sum fGP l = fGP y /\ frec x + frec y <= sum frec l /\ 1 <= frec y.
Proof.
  intros Iv Hx E N. pose proof Iv as [G I]. destruct G as (_ & _ & _ & _ & _ & _ & _ & _ & X & _). destruct (X R E) as (y & Hy). exists y. split; [exact Hy|]. split; [apply I; exact Hy|].
  destruct (own_P L l R y Iv Hy) as (_ & P & _). destruct (P E) as [P1 P2]. split; [exact P1|]. split; [exact P2|]. split.
  - apply (sum_ge2 _ _ i R); [apply (rec_nonneg L l Iv)|congruence|exact Hx|exact Hy].
  - destruct (I R y Hy) as (A & B & C & D & _). cbn [fst snd] in *. rewrite E in D. assert (T : is (Some R) R = true) by (apply is_true; reflexivity). rewrite T in D. unfold frec.
    unfold place in D. unfold base, fresh, promoting in D. destruct (at_ (fst y)) as [|c|s k|w f|f|w| |p w k|p k|e|e|p e k]; try contradiction;
    repeat match goal with
    | H : _ /\ _ |- _ => destruct H
    | H : exists _, _ |- _ => destruct H
    | H : match holds ?c with _ => _ end |- _ => destruct (holds c)
    | H : match ?s with _ => _ end |- _ => destruct s
    | H : False |- _ => destruct H
    end; try discriminate; try congruence; try lia.
Qed.
