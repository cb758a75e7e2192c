(** * C61: a JSON array is a list

    [step] (the calls of the interface, with the memory) is in Arrays.v; [answers] (lists), [allowed] and [reach] in ArraysSpec.v. *)
From Coq Require Import Lia.
From Verif Require Import Base Links LinksProofs Table Arrays ArraysSpec ArraysProofs.
Open Scope Z_scope.
Local Set Warnings "-notation-overridden".

(** Every call on an array made by any sequence of calls ends without undefined behaviour and answers and changes the array as
    if it were a list.  Missing for the full claim: calls with an overflowing sum of index and count, and those that remove the
    last item (see below), and arrays of 2^58 items. *)
Theorem C61_list_partial :
  forall a l o, reach a l -> allowed l o ->
    exists r a' l', step a o = Ret (r, a') /\ answers l o r l' /\ reach a' l' /\
      (forall r2 a2, step a o = Ret (r2, a2) -> forall l2, answers l o r2 l2 -> l2 = l').
Proof.
  intros a l o R AL. destruct (step_inv a l o (reach_inv a l R) AL) as (r & a' & l' & E & A & _). exists r, a', l'.
  split; [exact E|]. split; [exact A|]. split; [exact (reach_call a l o r a' l' R AL E A)|].
  intros r2 a2 E2 l2 A2. rewrite E in E2. injection E2 as <- <-. exact (answers_fun _ _ _ _ _ A2 A).
Qed.
Print Assumptions C61_list_partial.

(** At most one block of memory is in use, none after cleaning; it begins with the items. *)
Theorem C61_memory_partial :
  forall a l, reach a l ->
    (forall p q, heap a p <> None -> heap a q <> None -> p = q) /\
    (forall r a', step a AClean = Ret (r, a') -> forall p, heap a' p = None) /\
    (l <> [] -> exists p b, heap a p = Some b /\ firstn (length l) b = map Val l).
Proof.
  intros a l R. pose proof (reach_inv a l R) as IV. split; [|split].
  - intros p q P Q. destruct IV as (_ & _ & [(_ & _ & _ & E)|(x & rest & _ & _ & _ & _ & U)]); [rewrite E in P; congruence|]. rewrite (U p P), (U q Q). reflexivity.
  - intros r a' E. cbn [step] in E. destruct (clean_inv a l IV) as (a2 & E2 & _ & H). rewrite E2 in E. cbn [bind] in E. injection E as <- <-. exact H.
  - intros NE. destruct IV as (_ & _ & [(_ & _ & L & _)|(x & rest & _ & H & _)]); [contradiction|]. exists x, (map Val l ++ rest). split; [exact H|].
    rewrite firstn_app, map_length, Nat.sub_diag, firstn_O, app_nil_r. apply firstn_all2. rewrite map_length. lia.
Qed.
Print Assumptions C61_memory_partial.

Fixpoint calls (a : arr) (os : list aop) : out (list ares * arr) :=
  match os with [] => Ret ([], a) | o :: os => let* (r, a) := step a o in let* (rs, a) := calls a os in Ret (r :: rs, a) end.
Definition replies (os : list aop) : option (list ares) := match calls new_array os with Ret (rs, _) => Some rs | _ => None end.
(** Removing the only item frees the memory of the array and keeps using it: the next addition writes, and the destruction of
    the array frees, memory that is not the array's any more.  Removing nothing from an array that was emptied does it too. *)
Theorem C61_remove_only_refuted :
  replies [AAppend true; ARemove 0 true] = Some [RItem None; RNum 0] /\
  calls new_array [AAppend true; ARemove 0 true; AAppend true] = UB /\
  calls new_array [AAppend true; ARemove 0 true; AClean] = UB /\
  replies [AAppend true; AAppend true; ARemoveRange 0 2 true; ARemoveRange 0 0 true] = Some [RItem None; RItem None; RNum 0; RNum 0] /\
  calls new_array [AAppend true; AAppend true; ARemoveRange 0 2 true; ARemoveRange 0 0 true; AAppend true] = UB.
Proof. repeat split; vm_compute; reflexivity. Qed.
Print Assumptions C61_remove_only_refuted.

(** The sum of index and count wraps: a removal that reaches far beyond the end is not refused, and makes the array longer (its
    last item is there twice), or writes behind its memory. *)
Theorem C61_remove_range_refuted :
  replies [AAppend true; AStore 0 (Some 10); AAppend true; AStore 1 (Some 11); AAppend true; AStore 2 (Some 12); ARemoveRange 2 (2 ^ 64 - 1) true; ASize; AGet 2; AGet 3] =
    Some [RItem None; RItem (Some 10); RItem None; RItem (Some 11); RItem None; RItem (Some 12); RNum 0; RNum 4; RItem (Some 11); RItem (Some 12)] /\
  calls new_array [AAppend true; AAppend true; ARemoveRange 2 (2 ^ 64 - 1) true] = UB.
Proof. split; vm_compute; reflexivity. Qed.
Print Assumptions C61_remove_range_refuted.

(** ** A case that meets the hypotheses *)
Fixpoint like (l : list (option Z)) (os : list aop) (rs : list ares) (l' : list (option Z)) : Prop :=
  match os, rs with [], [] => l' = l | o :: os, r :: rs => allowed l o /\ exists l1, answers l o r l1 /\ like l1 os rs l' | _, _ => False end.
Lemma calls_reach : forall os a l rs b l', calls a os = Ret (rs, b) -> reach a l -> like l os rs l' -> reach b l'.
Proof.
  induction os as [|o os IH]; intros a l rs b l' C R OK; cbn [calls] in C; [injection C as <- <-; cbn in OK; subst; exact R|].
  destruct (step a o) as [[r a1]| |] eqn:E; cbn [bind] in C; try discriminate C. destruct (calls a1 os) as [[rs1 a2]| |] eqn:E2; cbn [bind] in C; try discriminate C. injection C as <- <-.
  destruct OK as (AL & l1 & AN & OK). exact (IH a1 l1 rs1 a2 l' E2 (reach_call a l o r a1 l1 R AL E AN) OK).
Qed.
Example C61_example :
  let os := [AAppend true; AStore 0 (Some 1); AInsert 0 true; AStore 0 (Some 7); AAppend false; AAppend true; AStore 2 (Some 3); ARemove 1 true; AGet 1; AGet 2; ASize] in
  let rs := [RItem None; RItem (Some 1); RItem None; RItem (Some 7); RNull; RItem None; RItem (Some 3); RNum 0; RItem (Some 3); RNull; RNum 2] in
  replies os = Some rs /\ exists a, calls new_array os = Ret (rs, a) /\ reach a [Some 7; Some 3].
Proof.
  intros os rs. assert (E : replies os = Some rs) by (vm_compute; reflexivity). split; [exact E|]. unfold replies in E.
  destruct (calls new_array os) as [[rs' a]| |] eqn:C; try discriminate E. injection E as ->. exists a. split; [reflexivity|].
  apply (calls_reach os new_array [] rs a _ C reach_new). unfold os, rs. cbn [like].
  assert (T : forall z, 0 <= z < 10 -> size_t z) by (intros z R; unfold size_t; lia).
  split; [unfold allowed, len; cbn; lia|]. exists [None]. split; [left; split; reflexivity|].
  split; [apply T; lia|]. exists [Some 1]. split; [split; reflexivity|].
  split; [split; [apply T; lia|unfold len; cbn; lia]|]. exists [None; Some 1]. split; [left; split; reflexivity|].
  split; [apply T; lia|]. exists [Some 7; Some 1]. split; [split; reflexivity|].
  split; [unfold allowed, len; cbn; lia|]. exists [Some 7; Some 1]. split; [right; repeat split; reflexivity|].
  split; [unfold allowed, len; cbn; lia|]. exists [Some 7; Some 1; None]. split; [left; split; reflexivity|].
  split; [apply T; lia|]. exists [Some 7; Some 1; Some 3]. split; [split; reflexivity|].
  split; [split; [lia|split; [apply T; lia|unfold len; cbn; lia]]|]. exists [Some 7; Some 3]. split; [split; reflexivity|].
  split; [apply T; lia|]. exists [Some 7; Some 3]. split; [split; reflexivity|].
  split; [apply T; lia|]. exists [Some 7; Some 3]. split; [split; reflexivity|].
  split; [exact Logic.I|]. exists [Some 7; Some 3]. split; [split; reflexivity|]. reflexivity.
Qed.
