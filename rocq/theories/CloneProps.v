(** C36: cloning a context. *)
From Verif Require Import Base Links Table TableSpec TableProofs TableHist TableProps Clone CloneProofs CloneSim.
From Coq Require Import Permutation Sorted.
Open Scope N_scope.

(** For every history of calls on a context, cloning it (when no object's own clone function fails) succeeds; the clone has
    in every table the same keys and IDs in the same order; and every later sequence of calls gives on the clone the results it
    gives on the original - including the IDs handed out - and leaves the same tables. *)
Theorem C36_clone_behaves_as_original : forall (K : Type) (cmp : N -> K -> K -> Z), (forall k, total_order (cmp k)) ->
  forall cb ops rs s, run cmp (tinit cb) ops = Ret (rs, s) ->
  forall ks cf, NoDup ks -> (forall k key a, In (Create k key a) ops -> In k ks) -> (forall k a, is_success (cf k a) = true) ->
  exists d, context_clone cf s ks = Ret (OK, d) /\
    (forall k, iter_fwd d k = iter_fwd s k /\ iter_bwd d k = iter_bwd s k /\ n_ents (th d k) = n_ents (th s k)) /\
    forall later rs' s', run cmp s later = Ret (rs', s') ->
      exists d', run cmp d later = Ret (rs', d') /\ forall k, iter_fwd d' k = iter_fwd s' k /\ iter_bwd d' k = iter_bwd s' k.
Proof.
  intros K cmp TO cb ops rs s E ks cf Hnd Hks Hcf.
  destruct (run_ok cmp TO ops (tinit cb) [] 0 (init_ok cmp cb)) as (rs0 & s0 & live & E' & Sp & (n & HT) & _).
  assert (s0 = s) by congruence. subst s0.
  assert (HL : forall e, In e live -> In (e_kind e) ks) by (eapply spec_run_kinds; [exact Sp|exact Hks|intros e []]).
  destruct (clone_ok cmp TO s live n cf ks HT Hcf Hnd HL) as (d & Ed & HTd & Hu & Hc).
  assert (TW : twin cmp s d) by (split; [exists live, live, n, n; auto|split; congruence]).
  exists d. split; [exact Ed|]. split.
  - intros k. destruct (twin_iter cmp TO s d k TW) as (A & B & C). repeat split; congruence.
  - intros later rs' s' El. destruct (twin_run cmp TO later s d rs' s' TW El) as (d' & Ed' & TW'). exists d'. split; [exact Ed'|].
    intros k. destruct (twin_iter cmp TO s' d' k TW') as (A & B & _). split; congruence.
Qed.
Print Assumptions C36_clone_behaves_as_original.

(** When an object's clone function fails, so does the cloning of the context, with that error. *)
Theorem C36_clone_error_reported : forall (K : Type) (s : tst K) ks cf er d,
  context_clone cf s ks = Ret (er, d) -> er <> OK -> is_success er = false.
Proof.
  intros K s ks cf er d. unfold context_clone. generalize (set_ctr (tinit (usecb s)) (ctr s) : tst K). induction ks as [|k ks IH]; intros d0 H Hne; cbn [clone_tables] in H.
  - congruence.
  - inv_bind H. destruct v as [e1 d1]. destruct (is_success e1) eqn:Es; [eapply IH; eauto|congruence].
Qed.
Print Assumptions C36_clone_error_reported.

(** Whatever the clone functions answer: if cloning the context succeeds, nothing is missing in the clone. *)
Lemma loop_no_failure : forall (K : Type) fuel (cf : addr -> err) (s d : tst K) k i prev er d' last,
  clone_loop fuel cf s d k i prev = Ret (er, d', last) -> is_success er = true -> clone_loop fuel (fun _ => OK) s d k i prev = Ret (er, d', last).
Proof.
  induction fuel as [|f IH]; intros cf s d k [a|] prev er d' last E H; cbn [clone_loop] in *; try exact E; try discriminate E.
  destruct (ob s a) as [o|]; cbn [ub_none bind] in *; [|exact E].
  destruct (is_success (cf a)) eqn:CF; cbn [negb] in E; [|assert (er = cf a) by congruence; congruence]. cbn [is_success negb].
  destruct (clone_object d k (oid o) (okey o)) as [e d1].
  destruct (clone_link d1 k prev e) as [d2| |]; [|exact E|exact E]. cbn [bind] in *.
  destruct (insert_by_id d2 e) as [[er1 d3]| |]; [|exact E|exact E]. cbn [bind] in *.
  destruct (negb (is_success er1)); [exact E|]. destruct (ub_none (get_nxt (tl s) a)) as [n| |]; [|exact E|exact E]. cbn [bind] in *.
  eapply IH; eassumption.
Qed.
Lemma tables_no_failure : forall (K : Type) cf (s : tst K) ks d er d',
  clone_tables cf s d ks = Ret (er, d') -> is_success er = true -> clone_tables (fun _ _ => OK) s d ks = Ret (er, d').
Proof.
  intros K cf s ks. induction ks as [|k ks IH]; intros d er d' E H; cbn [clone_tables] in *; [exact E|].
  unfold table_clone in *. destruct (lhead (tlh (th d k))); [exact E|].
  destruct (clone_loop (fuel_of s) (cf k) s d k (lhead (tlh (th s k))) None) as [[[er1 d1] last]| |] eqn:L; cbn [bind] in E; try discriminate E.
  destruct (is_success er1) eqn:S1.
  - rewrite (loop_no_failure _ _ _ _ _ _ _ _ _ _ _ L S1). cbn [bind]. rewrite S1. cbn [bind is_success] in *. eapply IH; eassumption.
  - cbn [bind] in E. rewrite S1 in E. congruence.
Qed.
Theorem C36_success_is_complete : forall (K : Type) (cmp : N -> K -> K -> Z), (forall k, total_order (cmp k)) ->
  forall cb ops rs s, run cmp (tinit cb) ops = Ret (rs, s) ->
  forall ks cf er d, NoDup ks -> (forall k key a, In (Create k key a) ops -> In k ks) ->
  context_clone cf s ks = Ret (er, d) -> is_success er = true ->
  er = OK /\ forall k, iter_fwd d k = iter_fwd s k /\ iter_bwd d k = iter_bwd s k /\ n_ents (th d k) = n_ents (th s k).
Proof.
  intros K cmp TO cb ops rs s E ks cf er d ND HK C H. apply tables_no_failure in C; [|exact H].
  destruct (C36_clone_behaves_as_original K cmp TO cb ops rs s E ks (fun _ _ => OK) ND HK (fun _ _ => eq_refl)) as (d0 & C0 & I & _).
  unfold context_clone in C0. assert (er = OK) by congruence. assert (d = d0) by congruence. subst. split; [reflexivity|exact I].
Qed.
Print Assumptions C36_success_is_complete.

(** Two tables, a duplicate, reclaimed and deleted IDs; the clone hands out the same next IDs. *)
Example clone_history :
  match run zcmp (tinit false) [Create 0 5 []; Create 0 3 []; Create 1 5 []; Create 0 3 []; DeleteId 2; Create 0 9 []]%Z with
  | Ret (_, s) =>
    match context_clone (fun _ _ => OK) s [0; 1] with
    | Ret (OK, d) => iter_fwd d 0 = Some [(5%Z, 1); (9%Z, 5)] /\ iter_bwd d 1 = Some [(5%Z, 3)] /\
        match run zcmp d [Create 0 4 []; DeleteKey 0 9; Create 1 4 []]%Z with
        | Ret (rs, d') => rs = [(OK, Some (0, 4%Z, 6)); (OK, Some (0, 9%Z, 5)); (OK, Some (1, 4%Z, 7))] /\ iter_fwd d' 0 = Some [(4%Z, 6); (5%Z, 1)]
        | _ => False end
    | _ => False end
  | _ => False end.
Proof. vm_compute. repeat split. Qed.

(** The coupled clone of the address families does not behave as the original: its backward links are missing.  With three
    families, deleting the second by number removes it from the original, but from the clone it removes the first as well. *)
Definition fam_history : list (op Z) := [Create 0 2 []; Create 1 102 []; Create 0 3 []; Create 1 103 []; Create 0 4 []; Create 1 104 []]%Z.
Theorem C36_family_clone_refuted : exists s d s' d' r,
  run zcmp (tinit false) fam_history = Ret (r, s) /\
  coupled_clone zcmp Pos.succ s (set_ctr (tinit false) (ctr s)) 0 1 = Ret (OK, d) /\
  iter_fwd d 0 = iter_fwd s 0 /\ iter_fwd d 1 = iter_fwd s 1 /\
  step zcmp s (DeleteKey 0 3%Z) = Ret ((OK, Some (0, 3%Z, 3)), s') /\ iter_fwd s' 0 = Some [(2%Z, 1); (4%Z, 5)] /\
  step zcmp d (DeleteKey 0 3%Z) = Ret ((OK, Some (0, 3%Z, 3)), d') /\ iter_fwd d' 0 = Some [(4%Z, 5)] /\
  step zcmp d' (Get 0 2%Z) = Ret ((ITEM_NOT_FOUND, None), d').
Proof.
  assert (H : exists s r, run zcmp (tinit false) fam_history = Ret (r, s)).
  { destruct (run_ok zcmp (fun _ => zsub_order) fam_history (tinit false) [] 0 (init_ok zcmp false)) as (rs & s & _ & E & _). exists s, rs. exact E. }
  destruct H as (s & r & E). exists s.
  vm_compute in E. injection E as <- <-.
  eexists. eexists. eexists. eexists. split; [vm_compute; reflexivity|]. split; [vm_compute; reflexivity|]. repeat split; vm_compute; reflexivity.
Qed.
Print Assumptions C36_family_clone_refuted.
