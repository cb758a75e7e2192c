From Verif Require Import Base Base64 Base64Spec Base64Proofs Table TableSpec Labels LabelsProofs Keyed Names Kv KvSpec.
Open Scope Z_scope.

Lemma label_EQ a b : label_cmp a b = 0 <-> a = b.
Proof. exact (proj1 (proj2 (label_cmp_spec a b))). Qed.
Notation TO := label_total_order.
Notation EQ := label_EQ.
Notation srt := (ksorted kv_key label_cmp).

Definition decode (x : kv) : value :=
  let t := KV_TYPE x in
  if (t =? KV_TRUE)%N then VBool true else if (t =? KV_FALSE)%N then VBool false
  else if (t =? KV_UINT)%N then VUint (word_of x) else if (t =? KV_SINT)%N then VSint (sint_of (word_of x))
  else if (t =? KV_FLOAT)%N then VFloat (word_of x) else if (t =? KV_STRING)%N then VString (kv_data x)
  else if (t =? KV_BYTES)%N then VBytes (kv_data x)
  else if (t =? KV_JSON)%N then VJson (match kv_a x with Json j => j | Word _ => [] end) else VNull.
Definition rep (x : kv) (v : value) : Prop :=
  KV_TYPE x = value_type v /\
  match v with
  | VNull | VBool _ => True
  | VUint n => kv_a x = Word n /\ (n < 2 ^ 64)%N
  | VSint z => kv_a x = Word (of_sint z) /\ - 2 ^ 63 <= z < 2 ^ 63
  | VFloat b => kv_a x = Word b /\ (b < 2 ^ 64)%N /\ b <> (2 ^ 63)%N
  | VString s | VBytes s => kv_a x = Word (N.of_nat (length s)) /\ kv_data x = s
  | VJson j => kv_a x = Json j
  end.
Lemma sint_rt z : - 2 ^ 63 <= z < 2 ^ 63 -> sint_of (of_sint z) = z.
Proof.
  intros R. unfold sint_of, of_sint. assert (0 <= z mod 2 ^ 64) by (apply Z.mod_pos_bound; lia). rewrite Z2N.id by lia.
  destruct (Z.ltb_spec z 0).
  - assert (E : z mod 2 ^ 64 = z + 2 ^ 64) by (rewrite <- (Z.mod_add z 1) by lia; rewrite Z.mul_1_l; apply Z.mod_small; lia). rewrite E. destruct (Z.ltb_spec (z + 2 ^ 64) (2 ^ 63)); lia.
  - rewrite Z.mod_small by lia. destruct (Z.ltb_spec z (2 ^ 63)); lia.
Qed.
Lemma rep_decode x v : rep x v -> decode x = v.
Proof.
  intros [T H]. unfold decode. rewrite T. destruct v as [|[]|n|z|b|s|s|j]; cbn [value_type]; try reflexivity; unfold word_of; cbn.
  - rewrite (proj1 H). reflexivity.
  - rewrite (proj1 H). f_equal. apply sint_rt. exact (proj2 H).
  - rewrite (proj1 H). reflexivity.
  - rewrite (proj2 H). reflexivity.
  - rewrite (proj2 H). reflexivity.
  - rewrite H. reflexivity.
Qed.
Lemma double_eq_same a b : (a < 2 ^ 64)%N -> (b < 2 ^ 64)%N -> a <> (2 ^ 63)%N -> b <> (2 ^ 63)%N -> double_eq a b = true -> a = b.
Proof.
  intros A B NA NB. unfold double_eq. destruct ((_ <? a mod _)%N || (_ <? b mod _)%N); [discriminate|].
  destruct ((a mod 2 ^ 63 =? 0)%N && (b mod 2 ^ 63 =? 0)%N) eqn:Z; [|apply N.eqb_eq].
  apply andb_prop in Z. destruct Z as [Z1 Z2]. apply N.eqb_eq in Z1, Z2. intros _.
  pose proof (N.div_mod a (2 ^ 63) ltac:(lia)). pose proof (N.div_mod b (2 ^ 63) ltac:(lia)).
  assert (a / 2 ^ 63 < 2)%N by (apply N.div_lt_upper_bound; lia). assert (b / 2 ^ 63 < 2)%N by (apply N.div_lt_upper_bound; lia).
  assert (a / 2 ^ 63 <> 1)%N by (intros X; rewrite X, Z1 in *; lia). assert (b / 2 ^ 63 <> 1)%N by (intros X; rewrite X, Z2 in *; lia). lia.
Qed.
Lemma memcmp_eq : forall a b, length a = length b -> memcmp (length a) a b = Some 0 -> a = b.
Proof.
  induction a as [|x a IH]; intros [|y b] L H; try discriminate; [reflexivity|]. cbn in H, L. destruct (N.eqb_spec x y) as [-> |N0]; [f_equal; apply IH; [lia|exact H]|]. injection H as H. lia.
Qed.
Lemma eq_decode x y v w : rep x v -> rep y w -> value_eq x y = true -> v = w.
Proof.
  intros [T H] [T' H'] E. unfold value_eq in E. rewrite T, T' in E.
  destruct v as [|[]|n|z|b|s|s|j], w as [|[]|n'|z'|b'|s'|s'|j']; cbn [value_type] in E; try (vm_compute in E; discriminate E); try reflexivity;
    change (negb (?a =? ?a)%N) with false in E; cbn in E; unfold word_of in E; destruct H as [A H]; destruct H' as [A' H']; rewrite A, A' in E.
  - apply N.eqb_eq in E. congruence.
  - apply N.eqb_eq in E. f_equal. rewrite <- (sint_rt z H), <- (sint_rt z' H'), E. reflexivity.
  - f_equal. apply double_eq_same; tauto.
  - destruct (N.eqb_spec (N.of_nat (length s)) (N.of_nat (length s'))) as [L|]; [|discriminate]. rewrite H, H', Nat2N.id in E.
    destruct (memcmp (length s) s s') as [z|] eqn:M; [|discriminate]. apply Z.eqb_eq in E. subst z. f_equal. apply memcmp_eq; [lia|exact M].
  - destruct (N.eqb_spec (N.of_nat (length s)) (N.of_nat (length s'))) as [L|]; [|discriminate]. rewrite H, H', Nat2N.id in E.
    destruct (memcmp (length s) s s') as [z|] eqn:M; [|discriminate]. apply Z.eqb_eq in E. subst z. f_equal. apply memcmp_eq; [lia|exact M].
Qed.

Definition wf (t : kvt) : Prop := srt (rows t) /\ forall x, In x (rows t) -> rep x (decode x).
Definition ent (x : kv) : value * bool := (decode x, readonly x).
Definition abs (t : kvt) : sstate := mkS (fun k => option_map ent (find t k)) (validating t).

(** memory *)
Lemma strlen_means mem s r : mem = s ++ 0%N :: r -> ~ In 0%N s -> strlen mem = Ret (length s).
Proof. intros -> N0. induction s as [|x s IH]; cbn; [reflexivity|]. destruct (N.eqb_spec x 0) as [-> |]; [destruct N0; left; reflexivity|]. rewrite IH by (intros I; apply N0; right; exact I). reflexivity. Qed.
Lemma firstn_pre {A} (s r : list A) : firstn (length s) (s ++ r) = s.
Proof. rewrite firstn_app, Nat.sub_diag, firstn_all, firstn_O. apply app_nil_r. Qed.
Lemma memcpy_pre s r : memcpy (length s) (s ++ r) = Ret s.
Proof. unfold memcpy. rewrite app_length. destruct (Nat.leb_spec (length s) (length s + length r)); [|lia]. rewrite firstn_pre. reflexivity. Qed.
Lemma means_len mem len s : means mem len s ->
  (if len <? 0 then strlen mem else Ret (Z.to_nat len)) = Ret (length s) /\ memcpy (length s) mem = Ret s.
Proof.
  intros [(L & r & -> & E)|(L & r & -> & N0)].
  - destruct (Z.ltb_spec len 0); [lia|]. subst len. rewrite Nat2Z.id. split; [reflexivity|apply memcpy_pre].
  - destruct (Z.ltb_spec len 0); [|lia]. split; [exact (strlen_means _ _ _ eq_refl N0)|apply memcpy_pre].
Qed.
Lemma kv_new_spec E key n d : readable key n ->
  (exists e, kv_new E key n d = Ret (inr e) /\ (bad_key E key n e \/ (n <> 0 /\ d < 0 /\ e = INVALID_ARG) \/ (n <> 0 /\ d > KV_MAX_VALUE_BYTES /\ e = NUMERIC_ARG_TOO_BIG)))
  \/ (exists k, kv_new E key n d = Ret (inl k) /\ n <> 0 /\ means key n k /\ Z.of_nat (length k) <= 32 /\ 0 <= d <= KV_MAX_VALUE_BYTES).
Proof.
  intros [k M]. unfold kv_new. destruct (Z.eqb_spec n 0) as [Z0|NZ]; [left; exists INVALID_ARG; split; [reflexivity|left; left; tauto]|].
  destruct (Z.ltb_spec d 0); [left; exists INVALID_ARG; split; [reflexivity|right; left; tauto]|].
  rewrite Z.gtb_ltb. destruct (Z.ltb_spec KV_MAX_VALUE_BYTES d); [left; exists NUMERIC_ARG_TOO_BIG; split; [reflexivity|right; right; split; [exact NZ|split; [lia|reflexivity]]]|].
  destruct (means_len _ _ _ M) as [L C]. rewrite L. cbn [bind]. rewrite Z.gtb_ltb. unfold MAX_LABEL_BYTES. destruct (Z.ltb_spec 32 (Z.of_nat (length k))).
  - left. exists STRING_ARG_TOO_LONG. split; [reflexivity|]. left. right. left. exists k. split; [exact M|split; [lia|reflexivity]].
  - destruct (mem_ok E) eqn:ME.
    + rewrite C. cbn [bind]. right. exists k. split; [reflexivity|]. split; [exact NZ|]. split; [exact M|]. split; lia.
    + left. exists SYS_RESOURCE_FAILED. split; [reflexivity|]. left. right. right. tauto.
Qed.
Lemma kv_new0 E key n : readable key n ->
  (exists e, kv_new E key n 0 = Ret (inr e) /\ bad_key E key n e)
  \/ (exists k, kv_new E key n 0 = Ret (inl k) /\ n <> 0 /\ means key n k /\ Z.of_nat (length k) <= 32).
Proof.
  intros R. destruct (kv_new_spec E key n 0 R) as [(e & K & [B|[(_ & B & _)|(_ & B & _)]])|(k & K & A & B & C & _)]; [left; exists e; tauto|lia|unfold KV_MAX_VALUE_BYTES in B; lia|right; exists k; tauto].
Qed.
Lemma means_fun mem len s s' : means mem len s -> means mem len s' -> s = s'.
Proof. intros A B. destruct (means_len _ _ _ A) as [L C]. destruct (means_len _ _ _ B) as [L' C']. assert (length s = length s') by congruence. rewrite H in C. congruence. Qed.

Lemma bad_key_fail E key n e : bad_key E key n e -> is_success e = false.
Proof. intros [(_ & ->)|[(k & _ & _ & ->)|(_ & ->)]]; reflexivity. Qed.

Lemma loop_err junk cap src : forall s e, dec_loop junk cap src s = BErr e -> e = INVALID_ARG.
Proof.
  induction src as [|c src IH]; intros s e; cbn [dec_loop]; [discriminate|]. cbn zeta.
  repeat match goal with
  | |- context [if ?b then _ else _] => destruct b
  | |- context [match ?x with [] => _ | _ :: _ => _ end] => destruct x
  | |- context [match put ?a ?b ?c with _ => _ end] => destruct (put a b c)
  end; intros H; try (eapply IH; exact H); congruence.
Qed.
Lemma decode_err_fail src spc junk e : base64_decode src spc junk = BErr e -> is_success e = false.
Proof.
  unfold base64_decode. destruct (_ >? _); [intros H; injection H as <-; reflexivity|]. destruct (dec_loop junk spc src (mkdst 0 0 0 [])) as [s|e'|] eqn:L; try discriminate.
  - unfold dec_finish. cbn zeta. repeat match goal with
    | |- context [if ?b then _ else _] => destruct b
    | |- context [match put ?a ?b ?c with _ => _ end] => destruct (put a b c)
    end; intros H; try discriminate; injection H as <-; reflexivity.
  - intros H. injection H as <-. rewrite (loop_err _ _ _ _ _ L). reflexivity.
Qed.

(** the record built *)
Lemma build_spec E key n v : readable key n -> proper_value v -> v <> SDouble (2 ^ 63) ->
  (exists e, build E key n v = Ret (inr e) /\ (bad_key E key n e \/ bad_value v e))
  \/ (exists x w, build E key n v = Ret (inl x) /\ n <> 0 /\ means key n (kv_key x) /\ Z.of_nat (length (kv_key x)) <= 32 /\ carries v w /\ rep x w /\ readonly x = false).
Proof.
  intros R P NZ.
  assert (SIMPLE : forall ty a w, KV_TYPE (mkKv [] ty a []) = value_type w -> readonly (mkKv [] ty a []) = false -> carries v w ->
            (forall k, rep (mkKv k ty a []) w) ->
            let b := (let+ k := kv_new E key n 0 in Ret (inl (mkKv k ty a []))) in
            (exists e, b = Ret (inr e) /\ (bad_key E key n e \/ bad_value v e))
            \/ (exists x w, b = Ret (inl x) /\ n <> 0 /\ means key n (kv_key x) /\ Z.of_nat (length (kv_key x)) <= 32 /\ carries v w /\ rep x w /\ readonly x = false)).
  { intros ty a w T RO C RP b. subst b. destruct (kv_new0 E key n R) as [(e & K & B)|(k & K & A & B & L)]; rewrite K; cbn [rbind bind].
    - left. exists e. tauto.
    - right. exists (mkKv k ty a []), w. split; [reflexivity|]. split; [exact A|]. split; [exact B|]. split; [exact L|]. split; [exact C|]. split; [apply RP|exact RO]. }
  destruct v as [|b|u|z|d|m len|m len|m len|j]; cbn [build].
  - apply (SIMPLE KV_NULL (Word 0) VNull); try reflexivity; [constructor|]. intros k. split; [reflexivity|exact I].
  - destruct (N.eqb_spec b KV_TRUE) as [-> |N1]; [|destruct (N.eqb_spec b KV_FALSE) as [-> |N2]].
    + cbn [negb andb]. apply (SIMPLE KV_TRUE (Word 0) (VBool true)); try reflexivity; [constructor|]. intros k. split; [reflexivity|exact I].
    + cbn [negb andb]. apply (SIMPLE KV_FALSE (Word 0) (VBool false)); try reflexivity; [constructor|]. intros k. split; [reflexivity|exact I].
    + cbn [negb andb]. left. exists WRONG_TYPE. split; [reflexivity|]. right. cbn. tauto.
  - apply (SIMPLE KV_UINT (Word u) (VUint u)); try reflexivity; [constructor|]. intros k. split; [reflexivity|]. cbn in *. tauto.
  - apply (SIMPLE KV_SINT (Word (of_sint z)) (VSint z)); try reflexivity; [constructor|]. intros k. split; [reflexivity|]. cbn [proper_value] in P. cbn [kv_a]. tauto.
  - apply (SIMPLE KV_FLOAT (Word d) (VFloat d)); try reflexivity; [constructor|]. intros k. split; [reflexivity|]. cbn [proper_value] in P. cbn [kv_a]. split; [reflexivity|]. split; [exact P|]. congruence.
  - destruct P as [s M]. destruct (means_len _ _ _ M) as [L C].
    assert (X : (if len <? 0 then let* n0 := strlen m in Ret (Z.of_nat n0) else Ret len) = Ret (Z.of_nat (length s))).
    { destruct (Z.ltb_spec len 0); [rewrite L; reflexivity|]. f_equal. assert (length s = Z.to_nat len) by congruence. lia. }
    rewrite X. cbn [bind]. rewrite Z.gtb_ltb. destruct (Z.ltb_spec KV_MAX_VALUE_BYTES (Z.of_nat (length s))) as [G|G].
    + left. exists STRING_ARG_TOO_LONG. split; [reflexivity|]. right. exists s. split; [exact M|]. unfold KV_MAX_VALUE_BYTES in G. split; [lia|tauto].
    + destruct (kv_new_spec E key n (Z.of_nat (length s) + 1) R) as [(e & K & B)|(k & K & A & B & D & F)]; rewrite K; unfold rbind; cbn [bind].
      * left. exists e. split; [reflexivity|]. destruct B as [B|[(_ & B & _)|(_ & B & ->)]]; [tauto|lia|]. right. exists s. unfold KV_MAX_VALUE_BYTES in B. split; [exact M|]. split; [lia|tauto].
      * rewrite Nat2Z.id, C. cbn [bind]. right. eexists _, (VString s). split; [reflexivity|]. cbn [kv_key]. split; [exact A|]. split; [exact B|]. split; [exact D|]. split; [constructor; exact M|]. split; [|reflexivity]. split; [reflexivity|]. cbn. split; [f_equal; lia|reflexivity].
  - destruct (Z.ltb_spec len 0) as [NEG|POS].
    + destruct (kv_new_spec E key n len R) as [(e & K & B)|(k & K & A & B & D & F)]; [|lia]. rewrite K. unfold rbind; cbn [bind]. left. exists e. split; [reflexivity|]. destruct B as [B|[(_ & B & ->)|(_ & B & ->)]]; [tauto| |unfold KV_MAX_VALUE_BYTES in B; lia]. right. left. tauto.
    + destruct (P POS) as [s M]. destruct (means_len _ _ _ M) as [L C]. destruct (Z.ltb_spec len 0); [lia|]. assert (LL : Z.to_nat len = length s) by congruence.
      destruct (kv_new_spec E key n len R) as [(e & K & B)|(k & K & A & B & D & F)]; rewrite K; unfold rbind; cbn [bind].
      * left. exists e. split; [reflexivity|]. destruct B as [B|[(_ & B & _)|(_ & B & ->)]]; [tauto|lia|]. right. right. unfold KV_MAX_VALUE_BYTES in B. tauto.
      * rewrite LL, C. cbn [bind]. right. eexists _, (VBytes s). split; [reflexivity|]. cbn [kv_key]. split; [exact A|]. split; [exact B|]. split; [exact D|]. split; [constructor; assumption|]. split; [|reflexivity]. split; [reflexivity|]. cbn. split; [f_equal; lia|reflexivity].
  - destruct P as [s M]. destruct (means_len _ _ _ M) as [L C]. rewrite L. cbn [bind]. rewrite C. cbn [bind]. unfold z_of. rewrite Z.gtb_ltb. destruct (Z.ltb_spec KV_MAX_VALUE_BYTES (bufspc (map Z.of_N s))) as [G|G].
    + left. exists STRING_ARG_TOO_LONG. split; [reflexivity|]. right. exists s. split; [exact M|]. left. split; [|reflexivity].
      pose proof (bufspc_le (map Z.of_N s)) as BL. rewrite map_length in BL. unfold KV_MAX_VALUE_BYTES in G. assert ((Z.of_nat (length s) + 3) / 4 * 4 <= Z.of_nat (length s) + 3) by (pose proof (Z.mul_div_le (Z.of_nat (length s) + 3) 4); lia). lia.
    + destruct (kv_new_spec E key n (bufspc (map Z.of_N s)) R) as [(e & K & B)|(k & K & A & B & D & F)]; rewrite K; unfold rbind; cbn [bind].
      * left. exists e. split; [reflexivity|]. destruct B as [B|[(_ & B & _)|(_ & B & ->)]]; [tauto| |lia]. exfalso.
        revert B. unfold bufspc. rewrite map_length. set (q := Z.of_nat (length s)). intros B. assert (0 <= q) by (subst q; lia).
        assert (q + 3 - 3 <= (q + 3) / 4 * 4 <= q + 3) by (pose proof (Z.div_mod (q + 3) 4 ltac:(lia)); pose proof (Z.mod_pos_bound (q + 3) 4 ltac:(lia)); lia).
        rewrite !Z.gtb_ltb in B. destruct (Z.ltb_spec 1 q), (Z.ltb_spec 2 q); repeat (match type of B with context [if ?x =? 61 then _ else _] => destruct (x =? 61) end); lia.
      * destruct (base64_decode (map Z.of_N s) (bufspc (map Z.of_N s)) true) as [d|e|] eqn:DE.
        -- right. eexists _, (VBytes (map Z.to_N d)). split; [reflexivity|]. cbn [kv_key]. split; [exact A|]. split; [exact B|]. split; [exact D|]. split; [econstructor; eassumption|]. split; [|reflexivity]. split; [reflexivity|]. cbn. rewrite map_length. split; reflexivity.
        -- left. exists e. split; [reflexivity|]. right. exists s. split; [exact M|right; exact DE].
        -- exfalso. revert DE. apply decode_safe_lemma.
  - apply (SIMPLE KV_JSON (Json j) (VJson j)); try reflexivity; [constructor|]. intros k. split; reflexivity.
Qed.

(** one call *)
Lemma find_wf t k x : wf t -> find t k = Some x -> In x (rows t) /\ kv_key x = k /\ rep x (decode x).
Proof. intros [S0 W] F. apply (proj1 (kfind_in kv_key label_cmp EQ _ _ _ S0)) in F. destruct F as [I K]. auto. Qed.
Lemma unchanged_refl s : unchanged s s.
Proof. split; [intros k|]; reflexivity. Qed.
Lemma insert_1_spec E t x w : wf t -> rep x w -> readonly x = false ->
  let (e, t') := kv_insert_1 E t x in
  (e = OK /\ find t (kv_key x) = None /\ wf t' /\ put_at (smap (abs t)) (kv_key x) (Some (w, false)) (smap (abs t')) /\ validating t' = validating t)
  \/ (is_success e = false /\ t' = t /\ (e = idr E \/ (is_success (idr E) = true /\ e = ITEM_ALREADY_PRESENT /\ find t (kv_key x) <> None))).
Proof.
  intros [S0 W] RP RO. unfold kv_insert_1. destruct (is_success (idr E)) eqn:ID; cbn [negb]; [|right; tauto].
  pose proof (kinsert_spec kv_key label_cmp TO EQ (rows t) x S0) as H. destruct (kinsert kv_key label_cmp (rows t) x) as [l|] eqn:KI.
  - left. destruct H as (N0 & S' & IN). split; [reflexivity|]. split; [exact N0|]. split.
    { split; [exact S'|]. intros y I. cbn [rows] in I. apply IN in I. destruct I as [-> |I]; [rewrite (rep_decode _ _ RP); exact RP|auto]. }
    split; [|reflexivity]. unfold put_at, abs, find. cbn [smap rows]. split.
    + rewrite (proj1 (kfind_insert kv_key label_cmp TO EQ _ _ _ (kv_key x) S0 KI) eq_refl). cbn. unfold ent. rewrite (rep_decode _ _ RP), RO. reflexivity.
    + intros k' NE. rewrite (proj2 (kfind_insert kv_key label_cmp TO EQ _ _ _ k' S0 KI)) by congruence. reflexivity.
  - right. split; [reflexivity|]. split; [reflexivity|]. right. split; [reflexivity|]. split; [reflexivity|]. destruct H as [y H]. unfold find. congruence.
Qed.
Lemma remove_wf t k : wf t -> wf (mkKvt (kremove kv_key label_cmp (rows t) k) (validating t))
  /\ put_at (smap (abs t)) k None (smap (abs (mkKvt (kremove kv_key label_cmp (rows t) k) (validating t)))).
Proof.
  intros [S0 W]. destruct (kremove_spec kv_key label_cmp EQ _ k S0) as [S' IN]. split; [split; [exact S'|]; intros x I; apply IN in I; apply W; tauto|].
  unfold put_at, abs, find. cbn [smap rows]. split.
  - rewrite (proj1 (kfind_remove kv_key label_cmp EQ _ k k S0)). reflexivity.
  - intros k' NE. rewrite (proj2 (kfind_remove kv_key label_cmp EQ _ k k' S0)) by congruence. reflexivity.
Qed.
Lemma store_spec E t key n v ow x w : wf t -> n <> 0 -> means key n (kv_key x) -> Z.of_nat (length (kv_key x)) <= 32 -> carries v w -> rep x w -> readonly x = false ->
  (ow <> 0 -> is_success (idr E) = true) ->
  let (e, t') := kv_store E t ow x in wf t' /\ store_ok E (abs t) key n v ow e (abs t').
Proof.
  intros W NZ M L C RP RO FINE. unfold kv_store, kv_insert, kv_set.
  assert (OKCASE : forall t', (validating t = true -> is_success (vans E) = true) -> (find t (kv_key x) = None \/ (ow <> 0 /\ exists old, smap (abs t) (kv_key x) = Some (old, false))) -> wf t' -> put_at (smap (abs t)) (kv_key x) (Some (w, false)) (smap (abs t')) -> validating t' = validating t -> wf t' /\ store_ok E (abs t) key n v ow OK (abs t')).
  { intros t' V F W' PA VA. split; [exact W'|]. left. exists (kv_key x), w. split; [exact NZ|]. split; [exact M|]. split; [exact L|]. split; [exact C|]. split; [reflexivity|]. split; [exact V|]. split; [|split; assumption]. destruct F as [F|F]; [left; unfold abs; cbn [smap]; rewrite F; reflexivity|right; exact F]. }
  assert (BADCASE : forall e, is_success e = false -> ((validating t = true /\ e = vans E) \/ e = idr E \/ (exists o ro, smap (abs t) (kv_key x) = Some (o, ro) /\ ((ow = 0 /\ e = ITEM_ALREADY_PRESENT) \/ (ow <> 0 /\ ro = true /\ e = NOT_PERMITTED)))) -> wf t /\ store_ok E (abs t) key n v ow e (abs t)).
  { intros e F D. split; [exact W|]. right. split; [exact F|]. split; [apply unchanged_refl|]. right. right. destruct D as [D|[D|(o & ro & D1 & D2)]]; [left; exact D|right; left; exact D|right; right; exists (kv_key x), o, ro; tauto]. }
  destruct (validating t && negb (is_success (vans E))) eqn:VB.
  { apply andb_prop in VB. destruct VB as [V1 V2]. apply negb_true_iff in V2. destruct (ow =? 0); apply BADCASE; [exact V2|left; split; [exact V1|reflexivity]|exact V2|left; split; [exact V1|reflexivity]]. }
  assert (VV : validating t = true -> is_success (vans E) = true) by (intros V1; rewrite V1 in VB; cbn in VB; apply negb_false_iff in VB; exact VB). clear VB.
  all: pose proof (insert_1_spec E t x w W RP RO) as I1.
  all: destruct (Z.eqb_spec ow 0) as [O|O].
  1: destruct (kv_insert_1 E t x) as [e t']; destruct I1 as [(-> & F & W' & PA & VA)|(F & -> & [D|(_ & -> & D)])]; [apply OKCASE; auto|apply BADCASE; auto|];
       apply BADCASE; auto; right; right; unfold abs; cbn [smap]; destruct (find t (kv_key x)) as [y|]; [|congruence]; exists (decode y), (readonly y); split; [reflexivity|tauto].
  all: destruct (find t (kv_key x)) as [old|] eqn:F.
  2: destruct (kv_insert_1 E t x) as [e t']; destruct I1 as [(-> & F' & W' & PA & VA)|(F' & -> & [D|(_ & -> & D)])]; [apply OKCASE; auto|apply BADCASE; auto|congruence].
  all: destruct (find_wf _ _ _ W F) as (IO & KO & RPO); destruct (readonly old) eqn:ROO; [apply BADCASE; [reflexivity|]; right; right; exists (decode old), true; split; [unfold abs; cbn [smap]; rewrite F; unfold option_map, ent; rewrite ROO; reflexivity|tauto]|].
  all: assert (SO : smap (abs t) (kv_key x) = Some (decode old, false)) by (unfold abs; cbn [smap]; rewrite F; unfold option_map, ent; rewrite ROO; reflexivity).
  all: destruct (value_eq x old) eqn:VE;
       [apply OKCASE; eauto; split; [rewrite SO; rewrite (eq_decode _ _ _ _ RP RPO VE); reflexivity|reflexivity]|].
  all: rewrite KO; destruct (remove_wf t (kv_key x) W) as [W1 P1]; set (t1 := mkKvt (kremove kv_key label_cmp (rows t) (kv_key x)) (validating t)) in *.
  all: pose proof (insert_1_spec E t1 x w W1 RP RO) as I2; destruct (kv_insert_1 E t1 x) as [e t'].
  all: destruct I2 as [(-> & F' & W' & PA & VA)|(F' & -> & [D|(_ & -> & D)])]; [| rewrite D, (FINE O) in F'; discriminate |
       destruct D; destruct P1 as [P1 _]; unfold abs in P1; cbn [smap] in P1; destruct (find t1 (kv_key x)); [discriminate|reflexivity]].
  all: apply OKCASE; eauto; destruct PA as [PA1 PA2]; split; [exact PA1|]; intros k' NE; rewrite PA2 by exact NE; apply P1; exact NE.
Qed.

(** getters *)
Lemma get_spec E t key n ty f g : wf t -> readable key n ->
  (forall x v, find t (kv_key x) = Some x -> rep x v ->
     match kv_get_1 t (kv_key x) ty with inr e => e = WRONG_TYPE /\ g v (readonly x) = None
     | inl y => match f y with inl a => g v (readonly x) = Some a | inr e => e = WRONG_TYPE /\ g v (readonly x) = None end end) ->
  exists r, ret_get (get_k E t key n ty f) t = Ret (r, t) /\ get_ok E (abs t) key n g r (abs t).
Proof.
  intros W R H. unfold ret_get, get_k, kv_get_2. destruct (kv_new0 E key n R) as [(e & K & B)|(k & K & A & B & L)]; rewrite K; unfold rbind; cbn [bind].
  - eexists. split; [reflexivity|]. split; [apply unchanged_refl|]. left. cbn. tauto.
  - destruct (find t k) as [x|] eqn:F.
    + destruct (find_wf _ _ _ W F) as (I & KX & RX). specialize (H x (decode x)). rewrite KX in H. specialize (H F RX).
      assert (S0 : smap (abs t) k = Some (decode x, readonly x)) by (unfold abs; cbn [smap]; rewrite F; reflexivity).
      destruct (kv_get_1 t k ty) as [y|e].
      * destruct (f y) as [a|e]; cbn [bind]; eexists; (split; [reflexivity|]); (split; [apply unchanged_refl|]); right; exists k; (split; [exact A|]); (split; [exact B|]); rewrite S0; [rewrite H; reflexivity|destruct H as [-> H]; rewrite H; reflexivity].
      * destruct H as [-> H]. cbn [bind]. eexists. split; [reflexivity|]. split; [apply unchanged_refl|]. right. exists k. split; [exact A|]. split; [exact B|]. rewrite S0, H. reflexivity.
    + assert (G : kv_get_1 t k ty = inr ITEM_NOT_FOUND) by (unfold kv_get_1; rewrite F; reflexivity). rewrite G. cbn [bind]. eexists. split; [reflexivity|]. split; [apply unchanged_refl|]. right. exists k. split; [exact A|]. split; [exact B|]. unfold abs. cbn [smap]. rewrite F. reflexivity.
Qed.
Lemma data_all x s : word_of x = N.of_nat (length s) -> kv_data x = s -> firstn (N.to_nat (word_of x)) (kv_data x) = s.
Proof. intros -> ->. rewrite Nat2N.id. apply firstn_all. Qed.

Definition fine (ec : kenv * call) : Prop :=
  match snd ec with
  | Store _ _ v ow => (ow <> 0 -> is_success (idr (fst ec)) = true) /\ v <> SDouble (2 ^ 63)
  | GetJson _ _ => False
  | _ => True
  end.
Lemma of_sint_ge z : - 2 ^ 63 <= z < 2 ^ 63 -> 0 <= z -> of_sint z = Z.to_N z.
Proof. intros R P. unfold of_sint. rewrite Z.mod_small by lia. reflexivity. Qed.
Lemma first_error_spec l ans : match first_error l ans with
  | Some e => exists x, In x l /\ e = ans (kv_key x) /\ is_success e = false
  | None => forall x, In x l -> is_success (ans (kv_key x)) = true end.
Proof.
  induction l as [|x l IH]; cbn; [tauto|]. destruct (is_success (ans (kv_key x))) eqn:S0.
  - destruct (first_error l ans) as [e|]; [destruct IH as (y & I & ?); exists y; tauto|]. intros y [<- |I]; auto.
  - exists x. auto.
Qed.
Lemma get_1_none t x : find t (kv_key x) = Some x -> kv_get_1 t (kv_key x) KV_NONE = inl x.
Proof. intros F. unfold kv_get_1. rewrite F. reflexivity. Qed.
Lemma get_1_ty t x ty : find t (kv_key x) = Some x -> N.clearbit ty RO_BIT = ty -> ty <> KV_NONE -> (ty = KV_UINT -> KV_TYPE x <> KV_SINT) ->
  kv_get_1 t (kv_key x) ty = if (ty =? KV_TYPE x)%N then inl x else inr WRONG_TYPE.
Proof.
  intros F C N0 U. unfold kv_get_1. rewrite F, C. destruct (N.eqb_spec ty KV_UINT) as [X|X]; cbn [andb].
  - destruct (N.eqb_spec (KV_TYPE x) KV_SINT) as [Y|Y]; [destruct (U X Y)|]. cbn [andb]. destruct (N.eqb_spec ty KV_NONE); [congruence|]. cbn [negb andb]. destruct (ty =? KV_TYPE x)%N; reflexivity.
  - destruct (N.eqb_spec ty KV_NONE); [congruence|]. cbn [negb andb]. destruct (ty =? KV_TYPE x)%N; reflexivity.
Qed.
Lemma modify_wf t x f : wf t -> find t (kv_key x) = Some x -> (forall y, kv_key (f y) = kv_key y) -> (forall y, rep y (decode y) -> rep (f y) (decode y)) ->
  let t' := mkKvt (kmodify kv_key label_cmp (rows t) (kv_key x) f) (validating t) in
  wf t' /\ put_at (smap (abs t)) (kv_key x) (Some (decode x, readonly (f x))) (smap (abs t')).
Proof.
  intros [S0 W] F KF RF t'. destruct (find_wf t (kv_key x) x (conj S0 W) F) as (I & _ & RX). split.
  - split; [apply kmodify_sorted; assumption|]. cbn [rows t']. clear -W RF. induction (rows t) as [|y l IH]; cbn [kmodify]; [intros z []|].
    destruct (label_cmp (kv_key y) (kv_key x) =? 0).
    + intros z [<- |I]; [|apply W; right; exact I]. specialize (RF y (W y (or_introl eq_refl))). rewrite (rep_decode _ _ RF). exact RF.
    + intros z [<- |I]; [apply W; left; reflexivity|]. apply IH; [|exact I]. intros u J. apply W. right. exact J.
  - unfold put_at, abs, find. cbn [smap rows t']. split.
    + rewrite (kfind_modify kv_key label_cmp EQ _ _ _ _ KF). assert (Z0 : label_cmp (kv_key x) (kv_key x) = 0) by (apply EQ; reflexivity). rewrite Z0. cbn [Z.eqb]. unfold find in F. rewrite F. cbn [option_map]. unfold ent. rewrite (rep_decode _ _ (RF x RX)). reflexivity.
    + intros k' NE. rewrite (kfind_modify kv_key label_cmp EQ _ _ _ _ KF). destruct (Z.eqb_spec (label_cmp (kv_key x) k') 0) as [Z0|]; [|reflexivity]. apply EQ in Z0. congruence.
Qed.
Lemma setbit_type y b (x : kv) : KV_TYPE x = b -> forall x', kv_type x' = N.setbit (kv_type x) RO_BIT \/ kv_type x' = N.clearbit (kv_type x) RO_BIT -> y = KV_TYPE x' -> y = b.
Proof.
  intros <- x' H ->. unfold KV_TYPE. destruct H as [-> | ->]; apply N.bits_inj; intros i; rewrite !N.clearbit_eqb, ?N.setbit_eqb, ?N.clearbit_eqb; destruct (N.eqb_spec RO_BIT i); cbn; rewrite ?andb_true_r, ?andb_false_r; reflexivity.
Qed.
Lemma step_spec E t c : wf t -> proper c -> fine (E, c) ->
  exists r t', step E t c = Ret (r, t') /\ wf t' /\ allowed E (abs t) c r (abs t').
Proof.
  intros W P FI.
  destruct c as [key n v ow|key n|key n|key n|key n|key n|key n|key n|key n|key n m|key n|key n|on ans]; cbn [step allowed proper] in *.
  - destruct P as [R PV]. destruct FI as [FID FZ]. cbn [fst snd] in FID. destruct (build_spec E key n v R PV FZ) as [(e & B & D)|(x & w & B & NZ & M & L & C & RP & RO)]; rewrite B; cbn [bind].
    + eexists _, t. split; [reflexivity|]. split; [exact W|]. cbn [fst snd]. split; [reflexivity|]. right. split.
      * destruct D as [D|D]; [exact (bad_key_fail _ _ _ _ D)|]. destruct v; cbn [bad_value] in D; try tauto.
        -- destruct D as (_ & _ & ->). reflexivity.
        -- destruct D as (s & _ & _ & [-> | ->]); reflexivity.
        -- destruct D as [(_ & ->)|(_ & ->)]; reflexivity.
        -- destruct D as (s & _ & [(_ & ->)|D]); [reflexivity|]. revert D. apply decode_err_fail.
      * split; [apply unchanged_refl|tauto].
    + pose proof (store_spec E t key n v ow x w W NZ M L C RP RO FID) as SS. destruct (kv_store E t ow x) as [e t']. exists (e, ANone), t'. split; [reflexivity|]. split; [tauto|]. cbn. tauto.
  - destruct (get_spec E t key n KV_NONE (fun x => inl (AType (KV_TYPE x))) (fun v _ => Some (AType (value_type v))) W P) as (r & S0 & G); [|exists r, t; auto].
    intros x v F RX. rewrite get_1_none by exact F. rewrite (proj1 RX). reflexivity.
  - destruct (get_spec E t key n KV_NONE (fun x => if (KV_TYPE x =? KV_TRUE)%N || (KV_TYPE x =? KV_FALSE)%N then inl (ABool (KV_TYPE x)) else inr WRONG_TYPE)
                (fun v _ => match v with VBool b => Some (ABool (if b then KV_TRUE else KV_FALSE)) | _ => None end) W P) as (r & S0 & G); [|exists r, t; auto].
    intros x v F RX. rewrite get_1_none by exact F. rewrite (proj1 RX). destruct v as [|[]|u|z|b|s|s|j]; cbn; auto.
  - destruct (get_spec E t key n KV_UINT (fun x => inl (AUint (word_of x)))
                (fun v _ => match v with VUint u => Some (AUint u) | VSint z => if 0 <=? z then Some (AUint (Z.to_N z)) else None | _ => None end) W P) as (r & S0 & G); [|exists r, t; auto].
    intros x v F [T RX]. destruct v as [|[]|u|z|b|s|s|j]; cbn [value_type] in T; try (rewrite (get_1_ty t x KV_UINT F eq_refl); [|discriminate|rewrite T; discriminate]; rewrite T; change (?a =? ?a)%N with true; cbn beta iota).
    all: try (split; reflexivity).
    + unfold word_of. cbn. rewrite (proj1 RX). reflexivity.
    + destruct RX as [A RZ]. unfold kv_get_1. rewrite F, T. unfold word_of. rewrite A, (sint_rt z RZ). change (N.clearbit KV_UINT RO_BIT) with KV_UINT. change (KV_UINT =? KV_UINT)%N with true. change (KV_SINT =? KV_SINT)%N with true. change (KV_UINT =? KV_NONE)%N with false. change (KV_UINT =? KV_SINT)%N with false. cbn [andb negb].
      destruct (Z.leb_spec 0 z); [unfold word_of; rewrite A, of_sint_ge by assumption; reflexivity|split; reflexivity].
  - destruct (get_spec E t key n KV_SINT (fun x => inl (ASint (sint_of (word_of x)))) (fun v _ => match v with VSint z => Some (ASint z) | _ => None end) W P) as (r & S0 & G); [|exists r, t; auto].
    intros x v F [T RX]. rewrite (get_1_ty t x KV_SINT F eq_refl); [|discriminate|discriminate]. rewrite T. destruct v as [|[]|u|z|b|s|s|j]; cbn [value_type]; try (split; reflexivity).
    destruct RX as [A RZ]. change (?a =? ?a)%N with true. cbn beta iota. unfold word_of. rewrite A, (sint_rt z RZ). reflexivity.
  - destruct (get_spec E t key n KV_FLOAT (fun x => inl (AFloat (word_of x))) (fun v _ => match v with VFloat b => Some (AFloat b) | _ => None end) W P) as (r & S0 & G); [|exists r, t; auto].
    intros x v F [T RX]. rewrite (get_1_ty t x KV_FLOAT F eq_refl); [|discriminate|discriminate]. rewrite T. destruct v as [|[]|u|z|b|s|s|j]; cbn [value_type]; try (split; reflexivity).
    cbn. unfold word_of. rewrite (proj1 RX). reflexivity.
  - destruct (get_spec E t key n KV_STRING (fun x => inl (AString (firstn (N.to_nat (word_of x)) (kv_data x)))) (fun v _ => match v with VString b => Some (AString b) | _ => None end) W P) as (r & S0 & G); [|exists r, t; auto].
    intros x v F [T RX]. rewrite (get_1_ty t x KV_STRING F eq_refl); [|discriminate|discriminate]. rewrite T. destruct v as [|[]|u|z|b|s|s|j]; cbn [value_type]; try (split; reflexivity).
    change (?a =? ?a)%N with true. cbn beta iota. rewrite (data_all x s); [reflexivity|unfold word_of; rewrite (proj1 RX); reflexivity|exact (proj2 RX)].
  - destruct (get_spec E t key n KV_BYTES (fun x => inl (ABytes (firstn (N.to_nat (word_of x)) (kv_data x)))) (fun v _ => match v with VBytes b => Some (ABytes b) | _ => None end) W P) as (r & S0 & G); [|exists r, t; auto].
    intros x v F [T RX]. rewrite (get_1_ty t x KV_BYTES F eq_refl); [|discriminate|discriminate]. rewrite T. destruct v as [|[]|u|z|b|s|s|j]; cbn [value_type]; try (split; reflexivity).
    change (?a =? ?a)%N with true. cbn beta iota. rewrite (data_all x s); [reflexivity|unfold word_of; rewrite (proj1 RX); reflexivity|exact (proj2 RX)].
  - destruct FI.
  - unfold kv_get_2. destruct (kv_new0 E key n P) as [(e & K & B)|(k & K & A & B & L)]; rewrite K; unfold rbind; cbn [bind].
    + exists (e, ANone), t. split; [reflexivity|]. split; [exact W|]. split; [reflexivity|]. left. split; [exact B|apply unchanged_refl].
    + destruct (find t k) as [x|] eqn:F.
      * destruct (find_wf _ _ _ W F) as (I & KX & RX). subst k. rewrite get_1_none by exact F.
        assert (S0 : smap (abs t) (kv_key x) = Some (decode x, readonly x)) by (unfold abs; cbn [smap]; rewrite F; reflexivity).
        destruct (m =? 0); [|destruct (m =? 1)].
        -- destruct (modify_wf t x (fun x => mkKv (kv_key x) (N.setbit (kv_type x) RO_BIT) (kv_a x) (kv_data x)) W F) as [W' PA]; [reflexivity| |].
           { intros y [T RY]. split; [|exact RY]. refine (setbit_type _ _ y T _ _ eq_refl); left; reflexivity. }
           eexists _, _. split; [reflexivity|]. split; [exact W'|]. split; [reflexivity|]. right. exists (kv_key x). split; [exact A|]. split; [exact B|]. rewrite S0. split; [reflexivity|]. split; [|reflexivity].
           unfold readonly in PA at 1. cbn [kv_type] in PA. rewrite N.setbit_eq in PA. exact PA.
        -- destruct (modify_wf t x (fun x => mkKv (kv_key x) (N.clearbit (kv_type x) RO_BIT) (kv_a x) (kv_data x)) W F) as [W' PA]; [reflexivity| |].
           { intros y [T RY]. split; [|exact RY]. refine (setbit_type _ _ y T _ _ eq_refl); right; reflexivity. }
           eexists _, _. split; [reflexivity|]. split; [exact W'|]. split; [reflexivity|]. right. exists (kv_key x). split; [exact A|]. split; [exact B|]. rewrite S0. split; [reflexivity|]. split; [|reflexivity].
           unfold readonly in PA at 1. cbn [kv_type] in PA. rewrite N.clearbit_eq in PA. exact PA.
        -- eexists _, t. split; [reflexivity|]. split; [exact W|]. split; [reflexivity|]. right. exists (kv_key x). split; [exact A|]. split; [exact B|]. rewrite S0. split; [reflexivity|apply unchanged_refl].
      * unfold kv_get_1. rewrite F. eexists _, t. split; [reflexivity|]. split; [exact W|]. split; [reflexivity|]. right. exists k. split; [exact A|]. split; [exact B|]. unfold abs at 1. cbn [smap]. rewrite F. split; [reflexivity|apply unchanged_refl].
  - destruct (get_spec E t key n KV_NONE (fun x => inl (AMut (if readonly x then 0 else 1))) (fun _ ro => Some (AMut (if ro then 0 else 1))) W P) as (r & S0 & G); [|exists r, t; auto].
    intros x v F RX. rewrite get_1_none by exact F. reflexivity.
  - unfold kv_get_2. destruct (kv_new0 E key n P) as [(e & K & B)|(k & K & A & B & L)]; rewrite K; unfold rbind; cbn [bind].
    + exists (e, ANone), t. split; [reflexivity|]. split; [exact W|]. split; [reflexivity|]. left. split; [exact B|apply unchanged_refl].
    + destruct (find t k) as [x|] eqn:F.
      * destruct (find_wf _ _ _ W F) as (I & KX & RX). subst k. rewrite get_1_none by exact F.
        assert (S0 : smap (abs t) (kv_key x) = Some (decode x, readonly x)) by (unfold abs; cbn [smap]; rewrite F; reflexivity).
        destruct (readonly x) eqn:RO.
        -- eexists _, t. split; [reflexivity|]. split; [exact W|]. split; [reflexivity|]. right. exists (kv_key x). split; [exact A|]. split; [exact B|]. rewrite S0. split; [reflexivity|apply unchanged_refl].
        -- destruct (remove_wf t (kv_key x) W) as [W1 P1]. eexists _, _. split; [reflexivity|]. split; [exact W1|]. split; [reflexivity|]. right. exists (kv_key x). split; [exact A|]. split; [exact B|]. rewrite S0. split; [reflexivity|]. split; [exact P1|reflexivity].
      * unfold kv_get_1. rewrite F. eexists _, t. split; [reflexivity|]. split; [exact W|]. split; [reflexivity|]. right. exists k. split; [exact A|]. split; [exact B|]. unfold abs at 1. cbn [smap]. rewrite F. split; [reflexivity|apply unchanged_refl].
  - destruct on.
    + pose proof (first_error_spec (rows t) ans) as FE. destruct (first_error (rows t) ans) as [e|].
      * destruct FE as (x & I & -> & S0). eexists _, t. split; [reflexivity|]. split; [exact W|]. split; [reflexivity|]. split; [intros k; reflexivity|]. right. split; [exact S0|]. split; [reflexivity|]. exists (kv_key x). split; [|reflexivity].
        unfold abs. cbn [smap]. unfold find. rewrite (proj2 (kfind_in kv_key label_cmp EQ _ (kv_key x) x (proj1 W)) (conj I eq_refl)). discriminate.
      * eexists _, _. split; [reflexivity|]. split; [exact W|]. split; [reflexivity|]. split; [intros k; reflexivity|]. left. split; [reflexivity|]. split; [reflexivity|]. intros k NE. unfold abs in NE. cbn [smap] in NE. destruct (find t k) as [x|] eqn:F; [|destruct NE; reflexivity]. destruct (find_wf _ _ _ W F) as (I & <- & _). auto.
    + eexists _, _. split; [reflexivity|]. split; [exact W|]. split; [reflexivity|]. split; [intros k; reflexivity|]. split; reflexivity.
Qed.
Lemma run_spec h : forall t, wf t -> Forall (fun ec => proper (snd ec)) h -> Forall fine h -> exists rs t', run t h = Ret (rs, t') /\ wf t' /\ history (abs t) h rs (abs t').
Proof.
  induction h as [|[E c] h IH]; intros t W P F; cbn [run]; [exists [], t; split; [reflexivity|]; split; [exact W|constructor]|].
  inversion P; inversion F; subst. destruct (step_spec E t c W) as (r & t1 & S0 & W1 & A); [assumption|assumption|]. rewrite S0. cbn [bind].
  destruct (IH t1 W1) as (rs & t2 & R2 & W2 & HH); [assumption|assumption|]. rewrite R2. cbn [bind]. exists (r :: rs), t2. split; [reflexivity|]. split; [exact W2|]. econstructor; eassumption.
Qed.
Lemma empty_wf : wf empty.
Proof. split; [constructor|intros x []]. Qed.
