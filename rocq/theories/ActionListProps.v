(** C32: action lists behave as ordered sets of labels. *)
From Verif Require Import Base Links Table ActionList ActionListSpec ActionListProofs.
Open Scope N_scope.

(** C32 (partial): for every history of registering and unregistering actions and of changing any number of lists, every call gives the
    result expected and changes the list named, and no other, exactly as expected; at the end the lists read as expected and have no
    repetition.  Missing: putting an action after the last one, when malloc's block has a stale "next", and registering an action under a
    label still on a list ([careful_run]); both go wrong, see the refutations. *)
Theorem C32_lists_partial : forall os, careful_run [] (fun _ => []) os ->
  exists es s T L, run ainit os = Ret (es, s) /\ follows [] (fun _ => []) os es T L /\
    (forall i, read_list s i = Ret (L i)) /\ (forall i, NoDup (L i)).
Proof.
  intros os C. destruct (run_ok os ainit [] (fun _ => [])) as (es & s & T & L & R & (al & all & ps & own & I) & F); [do 4 eexists; apply init_inv|exact C|].
  exists es, s, T, L. split; [exact R|]. split; [exact F|]. split; [intros i; eapply inv_read; exact I|apply (i_LND _ _ _ _ _ _ _ _ I)].
Qed.
(** The effect of a removal: the label is gone and the others are as before, in the same order. *)
Theorem C32_removed : forall os i g, careful_run [] (fun _ => []) (os ++ [Remove i g]) ->
  exists es s e s', run ainit os = Ret (es, s) /\ run ainit (os ++ [Remove i g]) = Ret (es ++ [e], s') /\
    exists l l', read_list s i = Ret l /\ read_list s' i = Ret l' /\
      ((e = OK /\ exists l1 l2, l = l1 ++ lab g :: l2 /\ l' = l1 ++ l2 /\ ~ In (lab g) l') \/ (e = ITEM_NOT_FOUND /\ ~ In (lab g) l /\ l' = l)) /\
      forall j, j <> i -> read_list s' j = read_list s j.
Proof.
  intros os i g C.
  assert (C1 : careful_run [] (fun _ => []) os).
  { revert C. generalize (@nil label) at 1 3. generalize (fun _ : list_id => @nil label). induction os as [|o os IH]; intros L T C; [constructor|].
    inversion C as [|T0 L0 o0 os0 CA NX E1 E2]. subst. constructor; [exact CA|]. intros f f2 e T1 L1 E. apply IH. eapply NX. exact E. }
  destruct (run_ok os ainit [] (fun _ => [])) as (es & s & T & L & R & RP & F); [do 4 eexists; apply init_inv|exact C1|].
  destruct (remove_ok s T L i g RP) as (e & s' & L' & RM & RP' & E). cbn [expected] in E.
  assert (RUN : run ainit (os ++ [Remove i g]) = Ret (es ++ [e], s')).
  { clear C C1 F. revert es R. generalize ainit. induction os as [|o os IH]; intros s0 es R; cbn [run app] in *.
    - injection R as <- ->. cbn [step]. rewrite RM. reflexivity.
    - destruct (step s0 o) as [[e0 s1]| |]; cbn [bind] in *; try discriminate R. destruct (run s1 os) as [[es1 s2]| |] eqn:R1; cbn [bind] in *; try discriminate R.
      injection R as <- ->. rewrite (IH s1 es1 R1). reflexivity. }
  exists es, s, e, s'. split; [exact R|]. split; [exact RUN|]. exists (L i), (L' i).
  assert (RD := RP). destruct RD as (al & all & ps & own & I). destruct RP' as (al' & all' & ps' & own' & I').
  split; [eapply inv_read; exact I|]. split; [eapply inv_read; exact I'|]. destruct (isin (lab g) (L i)) eqn:IS.
  - injection E as <- <-. split.
    + left. split; [reflexivity|]. apply isin_spec in IS. apply in_split in IS. destruct IS as (l1 & l2 & EL). exists l1, l2. split; [exact EL|].
      assert (ND := i_LND _ _ _ _ _ _ _ _ I i). rewrite EL in ND. apply NoDup_remove_2 in ND. unfold change. rewrite N.eqb_refl, EL.
      rewrite take_out_split by (intros X; apply ND; apply in_or_app; left; exact X). split; [reflexivity|exact ND].
    + intros j NE. rewrite (inv_read _ _ _ _ _ _ _ _ j I), (inv_read _ _ _ _ _ _ _ _ j I'). unfold change. destruct (N.eqb_spec j i); [congruence|reflexivity].
  - injection E as <- <-. split; [right; split; [reflexivity|]; split; [apply isin_false; exact IS|reflexivity]|].
    intros j NE. rewrite (inv_read _ _ _ _ _ _ _ _ j I), (inv_read _ _ _ _ _ _ _ _ j I'). reflexivity.
Qed.

Definition la : label := [97]. Definition lb : label := [98]. Definition lc : label := [99].
Definition clean : lnk := mklnk None None.
Definition dirty : lnk := mklnk None (Some 77%positive).
(** A careful history: the two lists end as [c; a; b] and [b]. *)
Definition ex_history : list op :=
  [Register (CStr la) true; Register (Lit lb) true; Register (CStr lc) true; Append 0 (CStr la) true (Some dirty); Append 0 (CStr la) true (Some dirty);
   Prepend 0 (CStr lc) true (Some dirty); InsertAfter 0 (CStr lb) (Lit la) true true (Some clean); Append 1 (Lit lb) true (Some dirty); Append 1 (Lit la) true (Some dirty);
   Remove 1 (CStr la); Remove 1 (CStr la); Unregister (CStr la); Append 1 (CStr la) true (Some dirty)].
Definition calm (o : op) : Prop := match o with Register _ _ => False | InsertAfter _ _ _ _ _ (Some g) => nxt g = None | _ => True end.
Lemma calm_careful os : Forall calm os -> forall T L, careful_run T L os.
Proof.
  induction 1 as [|o os C F IH]; intros T L; [constructor|]. constructor; [|intros; apply IH].
  destruct o as [i g t m|i g t m|i g p t t2 [m|]|i g|g m|g]; cbn [calm careful] in *; try exact I; [intros _; exact C|destruct C].
Qed.
Example C32_ex_history : careful_run [] (fun _ => []) ex_history /\
  exists s, run ainit ex_history = Ret ([OK; OK; OK; OK; ITEM_ALREADY_PRESENT; OK; OK; OK; OK; OK; ITEM_NOT_FOUND; OK; ITEM_NOT_FOUND], s) /\
    read_list s 0 = Ret [lc; la; lb] /\ read_list s 1 = Ret [lb].
Proof.
  split; [|eexists; split; [vm_compute; reflexivity|split; vm_compute; reflexivity]].
  unfold ex_history.
  do 3 (constructor; [cbn [careful lab]; let i := fresh in let HH := fresh in intros i HH; exact HH|let f := fresh in let f2 := fresh in let e := fresh in let T1 := fresh in let L1 := fresh in let E := fresh in intros f f2 e T1 L1 E; vm_compute in E; injection E as <- <- <-]).
  apply calm_careful. repeat constructor.
Qed.

(** C32 (refuted part 1): putting an action after the last one leaves the new entry's "next" as malloc gave it (wolfsentry_ll.h 80-96,
    actions.c 407-410): reading the list runs into garbage. *)
Theorem C32_insert_after_last_refuted : exists es s, run ainit
   [Register (CStr la) true; Register (CStr lb) true; Append 0 (CStr la) true (Some clean); InsertAfter 0 (CStr lb) (CStr la) true true (Some dirty)] = Ret (es, s) /\
   es = [OK; OK; OK; OK] /\ read_list s 0 = UB.
Proof. do 2 eexists. split; [vm_compute; reflexivity|]. split; vm_compute; reflexivity. Qed.
(** C32 (refuted part 2): actions are told apart by address, so an action registered again under its old label can be put on a list that
    still has the old one: the list has the label twice, and one removal leaves the other. *)
Theorem C32_label_twice_refuted : exists es s, run ainit
   [Register (CStr la) true; Append 0 (CStr la) true (Some clean); Unregister (CStr la); Register (CStr la) true; Append 0 (CStr la) true (Some clean)] = Ret (es, s) /\
   es = [OK; OK; OK; OK; OK] /\ read_list s 0 = Ret [la; la].
Proof. do 2 eexists. split; [vm_compute; reflexivity|]. split; vm_compute; reflexivity. Qed.
Print Assumptions C32_lists_partial.
Print Assumptions C32_removed.
Print Assumptions C32_insert_after_last_refuted.
Print Assumptions C32_label_twice_refuted.
