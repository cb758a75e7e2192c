(** C06: the comparison of labels, user-value keys and family names is dictionary order. *)
From Verif Require Import Base Labels LabelsSpec LabelsProofs Table TableSpec TableProps.
Open Scope Z_scope.

Theorem C06_dictionary_order : forall l r,
  key_cmp_1 l (length l) r (length r) <> None /\
  (label_cmp l r < 0 <-> lex_lt l r) /\ (label_cmp l r = 0 <-> l = r) /\ (label_cmp l r > 0 <-> lex_lt r l).
Proof. exact (fun l r => conj (label_cmp_safe l r) (label_cmp_spec l r)). Qed.
Theorem C06_strict_total_order :
  (forall l, ~ lex_lt l l) /\ (forall l m r, lex_lt l m -> lex_lt m r -> lex_lt l r) /\ (forall l r, lex_lt l r \/ l = r \/ lex_lt r l).
Proof. exact (conj lex_irrefl (conj lex_trans lex_total)). Qed.
(** Hence both satisfy the hypothesis of the table theorems C01-C04. *)
Theorem C06_table_orders : total_order label_cmp /\ total_order number_cmp.
Proof. exact (conj label_total_order number_total_order). Qed.
Print Assumptions C06_dictionary_order.
Print Assumptions C06_strict_total_order.
Print Assumptions C06_table_orders.

Example label_ex : label_cmp [97; 98]%N [97; 98; 99]%N = -1 /\ label_cmp [97; 200]%N [97; 98; 99]%N > 0 /\ lex_lt [97; 98]%N [97; 98; 99]%N.
Proof. split; [reflexivity|]. split; [reflexivity|]. apply (C06_dictionary_order [97; 98]%N [97; 98; 99]%N). reflexivity. Qed.
