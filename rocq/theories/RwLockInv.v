(** The invariant is kept by every step (calls without time limit). *)
From Verif Require Import Base RwLock RwLockSpec RwLockProofs.
Open Scope Z_scope.

Definition Gs (L : lock) (E : nat -> Prop) (sF sR sW sGW sP sGP : Z) : Prop :=
  0 <= rwc L /\ 0 <= wwc L /\ 0 <= sr L /\ 0 <= sw L /\ 0 <= sp L /\
  sR = rwc L + sr L /\
  wwc L + sw L + sp L = sW + sP /\
  (forall i, wh L = Some i -> E i) /\
  (forall i, rh L = Some i -> E i) /\
  match ls L with
  | UNLOCKED => hc L = 0 /\ wh L = None /\ rh L = None /\ sF = 0 /\ rwc L = 0 /\ wwc L = 0 /\ sr L = 0 /\ sw L = 0 /\ sp L = 0 /\
                sGW = 0 /\ sGP = 0 /\ r2wc L = 0 /\ pac L = 0
  | SHARED => wh L = None /\ sw L = 0 /\ sp L = 0 /\ sGW = 0 /\ sGP = 0 /\ pac L = 0 /\
              (wwc L = 0 -> rwc L = 0) /\ 1 <= sF + sr L /\
              match rh L with
              | None => hc L = sF + sr L /\ sP = 0 /\ r2wc L = 0
              | Some _ => hc L = sF + sr L + 1 - sP /\ (sP = 1 -> r2wc L < hc L)
              end
  | EXCLUSIVE => sr L = 0 /\ 1 <= hc L /\
                 match wh L, rh L with
                 | None, None => sw L + sGW = 1 /\ sGP = 0 /\ hc L = 1 /\ sF = 0 /\ sp L = 0 /\ pac L = 0 /\ r2wc L = 0
                 | Some _, None => sF = 0 /\ sw L = 0 /\ sGW = 0 /\ sp L = 0 /\ sGP = 0 /\ r2wc L = 0
                 | Some a, Some b => a = b /\ sp L + sGP = 1 /\ sp L = sP /\ hc L = sF /\ sw L = 0 /\ sGW = 0 /\ r2wc L = 0
                 | None, Some _ => False
                 end
  end.
Definition has {A} (l : list A) (j : nat) : Prop := exists x, nth_error l j = Some x.
Lemma ginv_Gs L l : ginv L l <-> Gs L (has l) (sum frec l) (sum fR l) (sum fW l) (sum fGW l) (sum fP l) (sum fGP l).
Proof. unfold ginv, Gs, has. tauto. Qed.

Lemma Gs_weaken L (E E' : nat -> Prop) a b c d e f : (forall i, E i -> E' i) -> Gs L E a b c d e f -> Gs L E' a b c d e f.
Proof. unfold Gs. intros W (H1 & H2 & H3 & H4 & H5 & H6 & H7 & H8 & H9 & H). repeat (split; [assumption|]). split; [intros i Hi; apply W; auto|]. split; [intros i Hi; apply W; auto|]. exact H. Qed.
Lemma move L l i x L' y :
  inv (L, l) -> nth_error l i = Some x ->
  Gs L' (has l) (sum frec l - frec x + frec y) (sum fR l - fR x + fR y) (sum fW l - fW x + fW y) (sum fGW l - fGW x + fGW y) (sum fP l - fP x + fP y) (sum fGP l - fGP x + fGP y) ->
  (forall j z, j <> i -> nth_error l j = Some z -> linv L j z -> linv L' j z) -> linv L' i y -> inv (L', upd l i y).
Proof.
  intros [G I] H HG HO HI. split; cbn [fst snd].
  - apply ginv_Gs. rewrite !(sum_upd _ l i x y H). eapply Gs_weaken; [|exact HG]. intros j Hj. apply ex_upd. exact Hj.
  - intros j z. destruct (Nat.eq_dec i j) as [<-|N]; [rewrite (nth_upd_same l i x y H); intros E; assert (z = y) by congruence; subst; exact HI|].
    rewrite nth_upd_other by exact N. intros E. apply (HO j z); [congruence|exact E|apply I; exact E].
Qed.

Lemma is_refl i : is (Some i) i = true. Proof. apply is_true. reflexivity. Qed.
Lemma is_ne i j : i <> j -> is (Some i) j = false. Proof. intros N. apply is_false. congruence. Qed.
Lemma is_none j : is None j = false. Proof. reflexivity. Qed.

(** Everything known when thread [i] = [x] moves. *)
Record known (L : lock) (l : list (thr * client)) (i : nat) (x : thr * client) : Prop := {
  k_inv : inv (L, l);
  k_at : nth_error l i = Some x;
  k_g : Gs L (has l) (sum frec l) (sum fR l) (sum fW l) (sum fGW l) (sum fP l) (sum fGP l);
  k_l : linv L i x;
  k_P : (rh L = None -> sum fP l = 0 /\ sum fGP l = 0) /\ (rh L = Some i -> sum fP l = fP x /\ sum fGP l = fGP x) /\ (rh L <> Some i -> fP x = 0 /\ fGP x = 0);
  k_F : 0 <= frec x <= sum frec l;
  k_B : fR x <= sum fR l /\ fW x <= sum fW l /\ fGW x <= sum fGW l /\ 0 <= sum fR l /\ 0 <= sum fW l /\ 0 <= sum fGW l;
  k_R : forall R, rh L = Some R -> R <> i -> exists y, nth_error l R = Some y /\ linv L R y /\ sum fP l = fP y /\ sum fGP l = fGP y /\ frec x + frec y <= sum frec l /\ 1 <= frec y
}.
Lemma known_intro L l i x : inv (L, l) -> nth_error l i = Some x -> known L l i x.
Proof.
  intros Iv H. constructor; try assumption.
  - apply ginv_Gs. apply Iv.
  - apply Iv. exact H.
  - apply (own_P L l i x Iv H).
  - apply (rec_bound L l i x Iv H).
  - destruct (sum_bound fR l i x (fun x => proj1 (proj1 (f_bounds x))) H), (sum_bound fW l i x (fun x => proj1 (proj1 (proj2 (f_bounds x)))) H), (sum_bound fGW l i x (fun x => proj1 (proj1 (proj2 (proj2 (f_bounds x))))) H). repeat split; assumption.
  - intros R E N. apply (holder_other L l i x R Iv H E N).
Qed.
