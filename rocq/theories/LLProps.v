(** C05: generic list operations preserve list structure. *)
From Verif Require Import Base Links LinksProofs LLProofs LLSpec LLHistProofs.

(** Full statement, false: for every history of calls on valid arguments ([lhistory false]) the list read
    forwards is the expected sequence and read backwards its reverse.
    Witness: append 1, 2, 3; delete 3; insert 3 before 1.  wolfsentry_list_ent_insert_before leaves the
    stale prev of 3 in place when inserting at the head, so the reverse walk 2,1,3,2,1,3... never ends. *)
Theorem C05_list_history_refuted :
  exists ops, lhistory false [] [] ops /\
    exists h hd, lrun linit ops = Some (h, hd) /\
      forall fuel, walk_prev fuel h (ltail hd) = None.
Proof.
  exists [LAppend 1; LAppend 2; LAppend 3; LDelete 3; LBefore (Some 1) 3]%positive.
  split; [cbn; intuition (try discriminate; auto)|].
  eexists; eexists; split; [vm_compute; reflexivity|]. cbn [ltail]. intros fuel.
  apply walk_prev_cycle with (S := (fun a => a = 1 \/ a = 2 \/ a = 3)%positive); [|auto].
  intros a [->|[->| ->]]; [exists 3%positive|exists 1%positive|exists 2%positive]; split; auto.
Qed.
Print Assumptions C05_list_history_refuted.

(** Same defect at the other end: inserting a previously unlinked entry after the tail keeps its stale
    next, and the forward walk never ends. *)
Theorem C05_insert_after_tail_refuted :
  exists ops, lhistory false [] [] ops /\
    exists h hd, lrun linit ops = Some (h, hd) /\
      forall fuel, walk_next fuel h (lhead hd) = None.
Proof.
  exists [LAppend 1; LAppend 2; LDelete 1; LAfter (Some 2) 1]%positive.
  split; [cbn; intuition (try discriminate; auto)|].
  eexists; eexists; split; [vm_compute; reflexivity|]. cbn [lhead]. intros fuel.
  apply walk_next_cycle with (S := (fun a => a = 1 \/ a = 2)%positive); [|auto].
  intros a [->| ->]; [exists 2%positive|exists 1%positive]; split; auto.
Qed.
Print Assumptions C05_insert_after_tail_refuted.

(** What holds: every history in which insert-before/after are only given entries that were never in a
    list before (their links still cleared); no call touches unallocated memory.  Missing: re-inserted
    entries (see the refutations). *)
Theorem C05_list_history_partial : forall ops, lhistory true [] [] ops ->
  let l := fold_left lspec ops [] in
  exists h hd, lrun linit ops = Some (h, hd) /\
    forall fuel, (length l <= fuel)%nat ->
      walk_next fuel h (lhead hd) = Some l /\ walk_prev fuel h (ltail hd) = Some (rev l).
Proof. exact ll_history_lemma. Qed.
Print Assumptions C05_list_history_partial.

Example C05_history_ex :
  lhistory true [] [] [LAppend 1; LPrepend 2; LBefore (Some 1) 3; LAfter (Some 1) 4; LDelete 1; LAppend 1]%positive
  /\ fold_left lspec [LAppend 1; LPrepend 2; LBefore (Some 1) 3; LAfter (Some 1) 4; LDelete 1; LAppend 1]%positive []
     = [2; 3; 4; 1]%positive.
Proof. split; [cbn; intuition (try discriminate; auto)|reflexivity]. Qed.

(** The single operations, on any well-formed list and with any stale links in the new entry: prepend,
    append and delete are always right; insert-before is right unless it inserts at the head an entry
    whose prev is not NULL; insert-after unless it inserts at the tail an entry whose next is not NULL. *)
Theorem C05_prepend : forall h hd l ent, dll h hd l -> ~ In ent l -> h ent <> None ->
  op_ok h (ll_prepend h hd ent) (ent :: l) (ent :: l).
Proof. exact ll_prepend_spec. Qed.
Print Assumptions C05_prepend.
Theorem C05_append : forall h hd l ent, dll h hd l -> ~ In ent l -> h ent <> None ->
  op_ok h (ll_append h hd ent) (ent :: l) (l ++ [ent]).
Proof. exact ll_append_spec. Qed.
Print Assumptions C05_append.
Theorem C05_delete : forall h hd l1 l2 ent, dll h hd (l1 ++ ent :: l2) ->
  op_ok h (ll_delete h hd ent) (l1 ++ l2) (l1 ++ l2).
Proof. exact ll_delete_spec. Qed.
Print Assumptions C05_delete.
Theorem C05_insert_before_partial : forall h hd l1 l2 ent le, dll h hd (l1 ++ l2) -> ~ In ent (l1 ++ l2) ->
  h ent = Some le -> (l2 = [] \/ l1 <> [] \/ prv le = None) ->
  op_ok h (ll_insert_before h hd (hdor l2 None) ent) (ent :: l1 ++ l2) (l1 ++ ent :: l2).
Proof. exact ll_insert_before_spec. Qed.
Print Assumptions C05_insert_before_partial.
Theorem C05_insert_after_partial : forall h hd l1 p l2 ent le, dll h hd (l1 ++ p :: l2) ->
  ~ In ent (l1 ++ p :: l2) -> h ent = Some le -> (l2 <> [] \/ nxt le = None) ->
  op_ok h (ll_insert_after h hd (Some p) ent) (ent :: l1 ++ p :: l2) (l1 ++ p :: ent :: l2).
Proof. exact ll_insert_after_spec. Qed.
Print Assumptions C05_insert_after_partial.
