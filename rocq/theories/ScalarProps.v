(** C74: JSON strings, integers and booleans are read back as they were stored. *)
Require Import ZArith List Bool Lia.
From Verif Require Import Scalar ScalarSpec ScalarProofs.
Import ListNotations.
Open Scope Z_scope.

(** Storing a string of any length and content (zero bytes too), over whatever was in the variable and whatever is in fresh memory,
    has no undefined behaviour; and either the getters give the string, ended by a zero byte, also when the value is marked red or
    black as a key of a dictionary; or memory was asked for and refused, and the variable is null.  A stored string is never taken
    for a new value, though the red mark is the same bit. *)
Theorem C74_string heap v s : variable v -> allocator heap -> Z.of_nat (length s) < 2 ^ 63 ->
  exists v' ok, init_string heap v s = Some (v', ok) /\ variable v' /\
    (ok = true -> holds_string v' s /\ has_type v' TString /\ holds_string (make_red v') s /\ holds_string (make_black (make_red v')) s /\
      is_new v' = false /\ is_new (make_red v') = false) /\
    (ok = false -> has_type v' TNull /\ malloced v' = false /\ exists n, heap n = None).
Proof.
  intros V A L. destruct (string_stored heap v s V A L) as (n & v' & ok & E & V' & _ & C). exists v', ok. split; [exact E|]. split; [exact V'|].
  destruct ok; [split; [intros _|intros X; discriminate X]|split; [intros X; discriminate X|intros _]].
  - destruct C as (rest & P & T).
    assert (TT : v_tag v' = code TString \/ v_tag v' = Z.lor (code TString) IS_MALLOCED) by (destruct (Nat.leb n 15); tauto).
    assert (HT : has_type v' TString).
    { destruct TT as [T'|T']; [exact (tag_type v' TString T')|]. intros u. unfold type_is. rewrite T', Z.eqb_eq. destruct u; cbn; split; intros H; try discriminate H; reflexivity. }
    assert (X : forall w, payload w = payload v' -> type_is w TString = true -> holds_string w s).
    { intros w Q U. apply (holds_of_payload w s rest U L). rewrite Q. exact P. }
    assert (MR : payload (make_red v') = payload v') by (unfold payload, malloced, make_red; cbn [v_tag v_in v_block]; destruct TT as [-> | ->]; reflexivity).
    assert (MB : payload (make_black (make_red v')) = payload v') by (unfold payload, malloced, make_black, make_red; cbn [v_tag v_in v_block]; destruct TT as [-> | ->]; reflexivity).
    split; [apply X; [reflexivity|apply HT; reflexivity]|]. split; [exact HT|].
    split; [|split; [|split]]; [apply X; [assumption|]; unfold type_is, make_red; cbn [v_tag]; destruct TT as [-> | ->]; reflexivity|
      apply X; [assumption|]; unfold type_is, make_black, make_red; cbn [v_tag]; destruct TT as [-> | ->]; reflexivity| |];
    unfold is_new, type_is, make_red; cbn [v_tag]; destruct TT as [-> | ->]; reflexivity.
  - destruct C as (T & H & _). split; [exact (tag_type v' TNull T)|]. split; [unfold malloced; rewrite T; reflexivity|]. exists n; exact H.
Qed.
Print Assumptions C74_string.

(** Strings of up to 13 bytes are kept in the variable itself and need no memory; longer ones need one block of at most 11 bytes
    more than the string (no overflow is possible in it: every access is checked); destroying the value frees the block, if there is one. *)
Theorem C74_string_memory heap v s : variable v -> allocator heap -> Z.of_nat (length s) < 2 ^ 63 ->
  exists v' ok, init_string heap v s = Some (v', ok) /\
    ((length s <= 13)%nat -> ok = true /\ malloced v' = false /\ fini v' = (mkV (code TNull) (v_in v') (v_block v'), false)) /\
    ((13 < length s)%nat -> exists n, (length s + 1 < n <= length s + 11)%nat /\ (ok = true <-> heap n <> None) /\
       (ok = true -> malloced v' = true /\ length (v_block v') = n /\ snd (fini v') = true)) /\
    has_type (fst (fini v')) TNull /\ malloced (fst (fini v')) = false.
Proof.
  intros V A L. destruct (string_stored heap v s V A L) as (n & v' & ok & E & V' & N & C). exists v', ok. split; [exact E|].
  assert (SZ : (length s <= 13 -> n <= 15)%nat).
  { intros S13. destruct (head_venc 10 (Z.of_nat (length s))) as [HS _]; [split; [split; [lia|]; eapply Z.lt_trans; [exact L|]; vm_compute; reflexivity|discriminate]|].
    cbn [head_size] in HS. destruct (Z.leb_spec 128 (Z.of_nat (length s))) as [|G]; [lia|].
    destruct (Nat.le_gt_cases n 15) as [|G2]; [assumption|]. exfalso. unfold init_string in E. cbn [head_size] in E.
    destruct (Z.leb_spec 128 (Z.of_nat (length s))) as [|_]; [lia|]. unfold init in E. destruct (Nat.leb_spec (1 + length s + 1 + 1) 16) as [_|]; [|lia].
    cbn [negb] in E. assert (MM : forall a b, malloced (mkV (code TString) a b) = false) by reflexivity.
    destruct ok.
    - destruct C as (rest & _ & T). destruct (Nat.leb_spec n 15); [lia|]. destruct T as (T & _).
      destruct (put_head 10 _ _ 0) as [[p1 o]|]; [|discriminate E]. destruct (wrs p1 o s) as [p2|]; [|discriminate E]. destruct (wr p2 _ 0) as [p3|]; [|discriminate E].
      injection E as <-. unfold with_payload in T. rewrite MM in T. discriminate T.
    - destruct (put_head 10 _ _ 0) as [[p1 o]|]; [|discriminate E]. destruct (wrs p1 o s) as [p2|]; [|discriminate E]. destruct (wr p2 _ 0) as [p3|]; discriminate E. }
  split; [|split; [|split; [apply tag_type; reflexivity|reflexivity]]].
  - intros S13. specialize (SZ S13). destruct ok; [|lia]. destruct C as (rest & _ & T). destruct (Nat.leb_spec n 15); [|lia].
    assert (M : malloced v' = false) by (unfold malloced; rewrite T; reflexivity). repeat split; [exact M|]. unfold fini. rewrite M. reflexivity.
  - intros S14. exists n. split; [exact N|]. destruct ok.
    + destruct C as (rest & _ & T). destruct (Nat.leb_spec n 15); [lia|]. destruct T as (T & LB & HN).
      assert (M : malloced v' = true) by (unfold malloced; rewrite T; reflexivity). split; [tauto|]. intros _. split; [exact M|]. split; [exact LB|]. exact M.
    + destruct C as (_ & H & _). split; [rewrite H; split; [discriminate|congruence]|discriminate].
Qed.
Print Assumptions C74_string_memory.

(** Storing an integer of any of the four types never fails (no memory is needed).  Read back as its own type it is the same; read
    as another type it is the one number of that type that differs by a multiple of 2^32 or 2^64. json_value_is_compatible says yes
    exactly if the number is one of the other type, and then it is read as the same number. *)
Theorem C74_integer heap v t z : variable v -> in_range t z ->
  exists v', init_int heap v t z = Some (v', true) /\ variable v' /\ has_type v' t /\ malloced v' = false /\
    get_int t v' = Some z /\
    (forall u, is_int u = true -> exists x, get_int u v' = Some x /\ in_range u x /\ exists k, x = z + k * 2 ^ bits u) /\
    (forall u, is_int u = true -> exists b, compatible v' u = Some b /\ (b = true <-> in_range u z) /\ (b = true -> get_int u v' = Some z)).
Proof.
  intros V R. destruct (int_stored heap v t z V R) as (v' & E & V' & T & P & M). exists v'. split; [exact E|]. split; [exact V'|]. split; [exact (tag_type _ _ T)|]. split; [exact M|].
  pose proof (fun u => get_stored v' t u z T R P) as G. split; [rewrite G, (cast_id _ _ R); reflexivity|]. split.
  - intros u I. exists (cast u z). split; [apply G|]. split; [exact (cast_range u z I)|exact (cast_mod u z I)].
  - intros u I. destruct (compatible_stored v' t u z T R I P) as (b & C & B). exists b. split; [exact C|]. split; [exact B|]. intros Y. rewrite G. rewrite cast_id by (apply B; exact Y). reflexivity.
Qed.
Print Assumptions C74_integer.

(** Booleans and nulls; only a value that was added to an array or dictionary and not initialised since is "new". *)
Theorem C74_bool v b : variable v -> exists v', init_bool v b = Some v' /\ variable v' /\ has_type v' TBool /\
  get_bool v' = Some (if b =? 0 then 0 else 1) /\ malloced v' = false /\ is_new v' = false.
Proof.
  intros V. unfold init_bool. rewrite wr_ok by (unfold variable in V; lia). eexists; split; [reflexivity|]. split; [|split; [apply tag_type; reflexivity|split; [|split; reflexivity]]].
  - unfold variable in *. cbn [v_in firstn app]. destruct (v_in v) as [|x l]; [discriminate V|]. exact V.
  - unfold get_bool, type_is. cbn [v_tag v_in code firstn app]. reflexivity.
Qed.
Print Assumptions C74_bool.
Theorem C74_null v : has_type (init_null v) TNull /\ is_new (init_null v) = false /\ has_type (init_new v) TNull /\ is_new (init_new v) = true /\
  malloced (init_null v) = false /\ malloced (init_new v) = false.
Proof.
  split; [apply tag_type; reflexivity|]. split; [reflexivity|]. split; [|repeat split; reflexivity].
  intros u. unfold type_is, init_new. cbn [v_tag]. rewrite Z.eqb_eq. destruct u; cbn; split; intros H; try discriminate H; reflexivity.
Qed.
Print Assumptions C74_null.

(** Asked for something of another kind, the getters answer with the error value, whatever the bytes are. *)
Theorem C74_wrong_type v t : has_type v t ->
  (is_int t = false -> forall u, get_int u v = Some (other u)) /\
  (t <> TBool -> get_bool v = Some (-1)) /\ (t <> TString -> get_string v = Some None /\ string_length v = Some 0) /\
  (forall u, is_int t = false -> u <> t -> compatible v u = Some false).
Proof.
  intros H. assert (N : forall u, u <> t -> type_is v u = false) by (intros u D; destruct (type_is v u) eqn:E; [|reflexivity]; apply H in E; contradiction).
  split; [|split; [|split]].
  - intros I u. unfold get_int. rewrite !N by (intros <-; discriminate I). reflexivity.
  - intros D. unfold get_bool. rewrite N by congruence. reflexivity.
  - intros D. unfold get_string, string_length. rewrite N by congruence. split; reflexivity.
  - intros u I D. unfold compatible. rewrite (N u D), !N by (intros <-; discriminate I). reflexivity.
Qed.
Print Assumptions C74_wrong_type.

(** Concrete cases: a string of 200 bytes in junk memory, a short one, a negative number read as unsigned. *)
Definition junk_heap (n : nat) : option (list Z) := Some (repeat 170 n).
Definition junk_var : jv := mkV 255 (repeat 85 15) [].
Example C74_long_string :
  match init_string junk_heap junk_var (repeat 7 200) with
  | Some (v, ok) => (ok, malloced v, string_length v, get_string v, length (v_block v), firstn 3 (v_block v))
                    = (true, true, Some 200, Some (Some 2%nat), 203%nat, [200; 1; 7])
  | None => False
  end.
Proof. vm_compute. reflexivity. Qed.
Example C74_short_string : init_string (fun _ => None) junk_var [104; 105] = Some (mkV 8 [2; 104; 105; 0; 85; 85; 85; 85; 85; 85; 85; 85; 85; 85; 85] [], true) /\
  holds_string (mkV 8 [2; 104; 105; 0; 85; 85; 85; 85; 85; 85; 85; 85; 85; 85; 85] []) [104; 105].
Proof. split; [reflexivity|]. split; [reflexivity|]. split; [reflexivity|]. exists 1%nat. split; reflexivity. Qed.
Example C74_refused : option_map snd (init_string (fun _ => None) junk_var (repeat 7 14)) = Some false.
Proof. vm_compute. reflexivity. Qed.
Example C74_minus_one :
  match init_int junk_heap junk_var TInt32 (-1) with
  | Some (v, ok) => (ok, get_int TUint64 v, get_int TInt64 v, compatible v TUint64, compatible v TInt64)
                    = (true, Some (2 ^ 64 - 1), Some (-1), Some false, Some true)
  | None => False
  end.
Proof. vm_compute. reflexivity. Qed.
Example C74_hyps : variable junk_var /\ allocator junk_heap /\ in_range TInt32 (-1).
Proof. split; [reflexivity|]. split; [|cbn; lia]. intros n b E. injection E as <-. apply repeat_length. Qed.
