(** C59: JSON dictionaries. *)
From Coq Require Import Sorting.Permutation Sorting.Sorted.
From Verif Require Import Base Links LinksProofs Table Dict DictSpec DictTree DictInsert DictRemove DictSwap DictOps DictHold DictSteps DictWalk.
Open Scope Z_scope.

(** Whatever calls are made, none of them goes wrong, each answers what the association list answers, and exactly the items'
    memory is in use afterwards. *)
Theorem C59_map : forall cf ops, good_cmp (dcmp cf) -> all_allowed cf [] ops ->
  exists d rs l, run cf new_dict ops = Ret (d, rs) /\ answers cf [] ops rs l /\ (forall x, nodes d x <> None <-> In x (map iaddr l)).
Proof.
  intros cf ops G AL. destruct (run_spec cf ops new_dict [] G (inv_new cf) AL) as (d & rs & l & E1 & AS & IV). exists d, rs, l. split; [exact E1|]. split; [exact AS|]. apply IV.
Qed.

(** Walks call the function for each item, in the order of the keys or in the order of addition, until it gives a negative
    number, and return its last answer. *)
Theorem C59_walks : forall cf ops, good_cmp (dcmp cf) -> all_allowed cf [] ops ->
  exists d rs l, run cf new_dict ops = Ret (d, rs) /\ answers cf [] ops rs l /\
    forall U (f : U -> key -> option Z -> U * Z) u,
      (Z.of_nat (length l) < limit (has_log2 cf) -> exists s, in_key_order (dcmp cf) l s /\ walk_sorted cf d f u = Ret (visit f u s)) /\
      walk_ordered cf d f u = Ret (if ordered cf then visit f u l else (u, -1)).
Proof.
  intros cf ops G AL. destruct (run_spec cf ops new_dict [] G (inv_new cf) AL) as (d & rs & l & E1 & AS & IV). exists d, rs, l. split; [exact E1|]. split; [exact AS|]. intros U f u. split.
  - intros LT. apply walk_sorted_spec; [exact IV|]. destruct IV as (_ & -> & _). exact LT.
  - apply walk_ordered_spec. exact IV.
Qed.

(** The default comparison is a total order, in which exactly equal keys are equal. *)
Lemma memcmp_flip : forall a b, Z.sgn (memcmp b a) = - Z.sgn (memcmp a b).
Proof. induction a as [|x a IH]; intros [|y b]; try reflexivity. cbn [memcmp]. destruct (Z.ltb_spec x y), (Z.ltb_spec y x); try lia; try reflexivity. apply IH. Qed.
(** The dictionary order, said separately. *)
Inductive key_lt : key -> key -> Prop :=
| kl_end : forall y b, key_lt [] (y :: b)
| kl_byte : forall x y a b, x < y -> key_lt (x :: a) (y :: b)
| kl_next : forall x a b, key_lt a b -> key_lt (x :: a) (x :: b).
Lemma default_cons : forall x y a b, default_cmp (x :: a) (y :: b) = if x <? y then -1 else if y <? x then 1 else default_cmp a b.
Proof.
  intros x y a b. unfold default_cmp. cbn [memcmp length]. destruct (Z.ltb_spec x y) as [H|H]; [reflexivity|]. destruct (Z.ltb_spec y x) as [H'|H']; [reflexivity|]. rewrite !Nat2Z.inj_succ. replace (Z.succ (Z.of_nat (length a)) =? Z.succ (Z.of_nat (length b))) with (Z.of_nat (length a) =? Z.of_nat (length b)).
  2:{ destruct (Z.eqb_spec (Z.of_nat (length a)) (Z.of_nat (length b))), (Z.eqb_spec (Z.succ (Z.of_nat (length a))) (Z.succ (Z.of_nat (length b)))); lia. }
  replace (Z.succ (Z.of_nat (length a)) <? Z.succ (Z.of_nat (length b))) with (Z.of_nat (length a) <? Z.of_nat (length b)); [reflexivity|].
  destruct (Z.ltb_spec (Z.of_nat (length a)) (Z.of_nat (length b))), (Z.ltb_spec (Z.succ (Z.of_nat (length a))) (Z.succ (Z.of_nat (length b)))); lia.
Qed.
Lemma default_nil_l : forall b, default_cmp [] b = match b with [] => 0 | _ => -1 end.
Proof. intros [|y b]; [reflexivity|]. unfold default_cmp. cbn [memcmp length]. rewrite Nat2Z.inj_succ. change (Z.of_nat 0) with 0. destruct (Z.eqb_spec 0 (Z.succ (Z.of_nat (length b)))); [lia|]. destruct (Z.ltb_spec 0 (Z.succ (Z.of_nat (length b)))); [reflexivity|lia]. Qed.
Lemma default_nil_r : forall a, default_cmp a [] = match a with [] => 0 | _ => 1 end.
Proof. intros [|x a]; [reflexivity|]. unfold default_cmp. cbn [memcmp length]. rewrite Nat2Z.inj_succ. change (Z.of_nat 0) with 0. destruct (Z.eqb_spec (Z.succ (Z.of_nat (length a))) 0); [lia|]. destruct (Z.ltb_spec (Z.succ (Z.of_nat (length a))) 0); [lia|reflexivity]. Qed.
Lemma default_values : forall a b, (default_cmp a b = -1 /\ key_lt a b) \/ (default_cmp a b = 0 /\ a = b) \/ (default_cmp a b = 1 /\ key_lt b a).
Proof.
  induction a as [|x a IH]; intros [|y b]; rewrite ?default_nil_l, ?default_nil_r, ?default_cons; [right; left; auto|left; split; [reflexivity|constructor]|right; right; split; [reflexivity|constructor]|].
  destruct (Z.ltb_spec x y) as [H|H]; [left; split; [reflexivity|constructor; exact H]|]. destruct (Z.ltb_spec y x) as [H'|H']; [right; right; split; [reflexivity|constructor; exact H']|].
  assert (x = y) by lia. subst y. destruct (IH b) as [[-> K]|[[-> ->]|[-> K]]]; [left|right; left|right; right]; (split; [reflexivity|]); [constructor; exact K|reflexivity|constructor; exact K].
Qed.
Lemma key_lt_irrefl : forall a, ~ key_lt a a. Proof. induction a as [|x a IH]; intros H; inversion H; subst; [lia|]. apply IH. assumption. Qed.
Lemma key_lt_trans : forall a b c, key_lt a b -> key_lt b c -> key_lt a c.
Proof.
  intros a b c H. revert c. induction H; intros c K; inversion K; subst.
  - constructor.
  - constructor.
  - apply kl_byte. lia.
  - apply kl_byte. assumption.
  - apply kl_byte. assumption.
  - apply kl_next. apply IHkey_lt. assumption.
Qed.
Theorem C59_default_order : good_cmp default_cmp /\ forall a b, (default_cmp a b < 0 <-> key_lt a b) /\ (default_cmp a b = 0 <-> a = b) /\ (default_cmp a b > 0 <-> key_lt b a).
Proof.
  assert (V : forall a b, (default_cmp a b < 0 <-> key_lt a b) /\ (default_cmp a b = 0 <-> a = b) /\ (default_cmp a b > 0 <-> key_lt b a)).
  { intros a b. destruct (default_values a b) as [[X K]|[[X K]|[X K]]]; rewrite X.
    - split; [split; [auto|lia]|]. split; split; intros Y; try lia; [subst; destruct (key_lt_irrefl _ K)|destruct (key_lt_irrefl a); eapply key_lt_trans; eassumption].
    - subst b. split; [split; [lia|intros Y; destruct (key_lt_irrefl _ Y)]|]. split; [tauto|]. split; [lia|intros Y; destruct (key_lt_irrefl _ Y)].
    - split; [split; [lia|intros Y; destruct (key_lt_irrefl a); eapply key_lt_trans; eassumption]|]. split; split; intros Y; try lia; [subst; destruct (key_lt_irrefl _ K)|exact K]. }
  split; [|exact V]. constructor.
  - intros a b. destruct (default_values a b) as [[X K]|[[X K]|[X K]]]; rewrite X.
    + apply (proj2 (proj2 (V b a))) in K. rewrite Z.sgn_pos by lia. reflexivity.
    + subst b. rewrite X. reflexivity.
    + apply (proj1 (V b a)) in K. rewrite Z.sgn_neg by lia. reflexivity.
  - intros a b c A B. assert (Y : default_cmp a b < 0 \/ default_cmp a b = 0) by lia. assert (Z0 : default_cmp b c < 0 \/ default_cmp b c = 0) by lia.
    destruct Y as [Y|Y]; [apply V in Y|apply V in Y; subst b; exact B]. destruct Z0 as [Z0|Z0]; [apply V in Z0|apply V in Z0; subst c; exact A]. assert (W := key_lt_trans _ _ _ Y Z0). apply (proj1 (V a c)) in W. lia.
Qed.

(** ** An example that meets the hypotheses *)
Definition ex_cfg : dcfg := mkcfg true default_cmp true false.
Definition ex_ops : list op := [OGetOrAdd [98] (Some 1%positive); OStore 1%positive 10; OGetOrAdd [97] (Some 2%positive); OGetOrAdd [99] (Some 3%positive); OAdd [98] (Some 4%positive); OSorted 9; OOrdered 2; ORemove [98]; OGet [98]; OGet [97]; ORemove [120]; OSize].
Ltac ok1 := apply al_cons; [split; [reflexivity|cbn; try tauto; intuition discriminate]|let r := fresh in let l' := fresh in let A := fresh in intros r l' A; cbn in A; repeat match goal with H : _ /\ _ |- _ => destruct H end; subst].
Example C59_example_allowed : all_allowed ex_cfg [] ex_ops.
Proof. unfold ex_ops. repeat ok1. constructor. Qed.
Example C59_example_run : match run ex_cfg new_dict ex_ops with
  | Ret (d, rs) => rs = [RPtr (Some 1%positive); RUnit; RPtr (Some 2%positive); RPtr (Some 3%positive); RPtr None; RPtrs [Some 2%positive; Some 1%positive; Some 3%positive]; RPtrs [Some 1%positive; Some 2%positive]; RInt 0; RPtr None; RPtr (Some 2%positive); RInt (-1); RInt 2]
  | _ => False end.
Proof. vm_compute. reflexivity. Qed.

(** ** What the header says and the code does not do *)
(** json_value_dict_add "returns NULL if the key is already used" (centijson_value.h 467-470): not if the value has not been
    initialised yet. *)
Theorem C59_add_used_refuted : exists cf ops k m d rs l d' a, good_cmp (dcmp cf) /\ all_allowed cf [] ops /\ run cf new_dict ops = Ret (d, rs) /\ answers cf [] ops rs l /\
  lookup (dcmp cf) k l <> None /\ allowed cf l (OAdd k m) /\ dict_add cf d k m = Ret (d', Some a).
Proof.
  exists ex_cfg, [OGetOrAdd [98] (Some 1%positive)], [98], (Some 2%positive). eexists _, _, [(1%positive, [98], None)], _, 1%positive. split; [apply C59_default_order|]. split; [repeat ok1; constructor|]. split; [reflexivity|].
  split; [econstructor; [cbn; split; reflexivity|constructor]|]. split; [discriminate|]. split; [split; [reflexivity|cbn; intros [X|[]]; discriminate X]|]. reflexivity.
Qed.
(** Walks: "if the callback returns non-zero, the function aborts immediately" (centijson_value.h 514-518): only if it is
    negative. *)
Theorem C59_walk_nonzero_refuted : exists cf ops d rs, good_cmp (dcmp cf) /\ all_allowed cf [] ops /\ run cf new_dict ops = Ret (d, rs) /\
  walk_sorted cf d (fun (u : Z) _ _ => (u + 1, 1)) 0 = Ret (3, 0) /\ walk_ordered cf d (fun (u : Z) _ _ => (u + 1, 1)) 0 = Ret (3, 0).
Proof.
  set (ops := [OGetOrAdd [98] (Some 1%positive); OGetOrAdd [97] (Some 2%positive); OGetOrAdd [99] (Some 3%positive)]).
  assert (X : match run ex_cfg new_dict ops with
              | Ret (d, rs) => walk_sorted ex_cfg d (fun (u : Z) _ _ => (u + 1, 1)) 0 = Ret (3, 0) /\ walk_ordered ex_cfg d (fun (u : Z) _ _ => (u + 1, 1)) 0 = Ret (3, 0)
              | _ => False end) by (vm_compute; split; reflexivity).
  destruct (run ex_cfg new_dict ops) as [[d rs]| |] eqn:E1; try contradiction. exists ex_cfg, ops, d, rs. split; [apply C59_default_order|]. split; [subst ops; repeat ok1; constructor|]. split; [exact E1|exact X].
Qed.
(** The limit is real: with 2^32 - 1 items the next addition has undefined behaviour (LOG2_32 of 2^32, which is LOG2_32(0)). *)
Definition many (s n : nat) : list op := map (fun j => OGetOrAdd [Z.of_nat j] (Some (Pos.of_succ_nat j))) (seq s n).
Definition numbered (s : nat) : list item := map (fun j => (Pos.of_succ_nat j, [Z.of_nat j], None)) (seq 0 s).
Lemma numbered_S : forall s, numbered (S s) = numbered s ++ [(Pos.of_succ_nat s, [Z.of_nat s], None)].
Proof. intros s. unfold numbered. rewrite seq_S, map_app. reflexivity. Qed.
Lemma numbered_len : forall s, length (numbered s) = s. Proof. intros s. unfold numbered. rewrite map_length, seq_length. reflexivity. Qed.
Lemma numbered_addr : forall s j, In (Pos.of_succ_nat j) (map iaddr (numbered s)) -> (j < s)%nat.
Proof. intros s j H. unfold numbered in H. rewrite map_map in H. apply in_map_iff in H. destruct H as (x & X & I1). apply in_seq in I1. unfold iaddr in X. cbn [fst] in X. lia. Qed.
Lemma numbered_lookup : forall s, lookup default_cmp [Z.of_nat s] (numbered s) = None.
Proof. intros s. apply lookup_none. intros i I1. unfold numbered in I1. apply in_map_iff in I1. destruct I1 as (x & <- & I1). apply in_seq in I1. unfold ikey. cbn [fst snd]. intros C. apply C59_default_order in C. injection C as C. lia. Qed.
Lemma many_ok : forall n s, Z.of_nat s + Z.of_nat n <= 2 ^ 32 - 1 -> all_allowed ex_cfg (numbered s) (many s n) /\ forall rs l, answers ex_cfg (numbered s) (many s n) rs l -> l = numbered (s + n).
Proof.
  induction n as [|n IH]; intros s H.
  - split; [constructor|]. intros rs l A. inversion A; subst. rewrite Nat.add_0_r. reflexivity.
  - assert (IH' := IH (S s)). assert (H1 : Z.of_nat (S s) + Z.of_nat n <= 2 ^ 32 - 1) by lia. specialize (IH' H1). destruct IH' as [I1 I2]. unfold many. cbn [seq map]. fold (many (S s) n).
    assert (AN : forall r l', answer ex_cfg (numbered s) (OGetOrAdd [Z.of_nat s] (Some (Pos.of_succ_nat s))) r l' -> l' = numbered (S s)).
    { intros r l' [_ A]. unfold got_or_added in A. cbn [dcmp ex_cfg] in A. rewrite numbered_lookup in A. cbn [fst] in A. rewrite numbered_S. exact A. }
    split.
    + constructor; [|intros r l' A; rewrite (AN r l' A); exact I1]. split; [|intros X; apply numbered_addr in X; lia]. rewrite numbered_len. unfold limit, ex_cfg. cbn [has_log2]. lia.
    + intros rs l A. inversion A as [|? ? r l' ? rs' ? A1 A2]; subst. apply AN in A1. subst l'. apply I2 in A2. rewrite A2. f_equal. lia.
Qed.
Theorem C59_too_many_refuted : exists cf ops d rs l, good_cmp (dcmp cf) /\ all_allowed cf [] ops /\ run cf new_dict ops = Ret (d, rs) /\ answers cf [] ops rs l /\
  Z.of_nat (length l) = 2 ^ 32 - 1 /\ forall k m, get_or_add cf d k m = UB.
Proof.
  set (n := Z.to_nat (2 ^ 32 - 1)). assert (NN : Z.of_nat n = 2 ^ 32 - 1) by (apply Z2Nat.id; discriminate). clearbody n.
  destruct (many_ok n 0) as [A1 A2]; [rewrite NN; reflexivity|]. assert (G : good_cmp (dcmp ex_cfg)) by apply C59_default_order.
  destruct (run_spec ex_cfg (many 0 n) new_dict [] G (inv_new ex_cfg) A1) as (d & rs & l & E1 & AS & IV). exists ex_cfg, (many 0 n), d, rs, l. split; [exact G|]. split; [exact A1|]. split; [exact E1|]. split; [exact AS|].
  apply A2 in AS. subst l. cbn [Nat.add] in IV. rewrite numbered_len. split; [exact NN|]. intros k m. unfold get_or_add, path_room, stack_needed. cbn [ex_cfg no_alloca has_log2]. destruct IV as (_ & -> & _). rewrite numbered_len, NN. reflexivity.
Qed.

Print Assumptions C59_map.
Print Assumptions C59_walks.
Print Assumptions C59_default_order.
Print Assumptions C59_add_used_refuted.
Print Assumptions C59_walk_nonzero_refuted.
Print Assumptions C59_too_many_refuted.
