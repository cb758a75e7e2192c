From Coq Require Import Lia.
From Verif Require Import Base Addr AddrSpec AddrProofs RouteFlags RouteKey EventConfig Table RouteMem RouteMemSpec.
Open Scope nat_scope.

Lemma rd_app p x q : rd (p ++ x ++ q)%list (length p) (length x) = Ret x.
Proof.
  unfold rd. rewrite !app_length. replace (length p + length x <=? length p + (length x + length q)) with true by (symmetry; apply Nat.leb_le; lia).
  rewrite skipn_app, skipn_all2, Nat.sub_diag by lia. cbn [app skipn]. rewrite firstn_app, Nat.sub_diag, firstn_all, firstn_O, app_nil_r. reflexivity.
Qed.
Lemma wr_app p x q y : length y = length x -> wr (p ++ x ++ q)%list (length p) y = Ret (p ++ y ++ q)%list.
Proof.
  intros E. unfold wr. rewrite !app_length. replace (length p + length y <=? length p + (length x + length q)) with true by (symmetry; apply Nat.leb_le; lia).
  rewrite firstn_app, firstn_all, Nat.sub_diag, firstn_O, app_nil_r, E.
  rewrite skipn_app, skipn_all2 by lia. replace (length p + length x - length p) with (length x) by lia.
  rewrite skipn_app, skipn_all, Nat.sub_diag. reflexivity.
Qed.
Lemma set_byte_app p x q i v : i < length x -> set_byte (p ++ x ++ q)%list (length p + i) v = (p ++ set_byte x i v ++ q)%list.
Proof.
  intros L. induction p as [|h p IH]; cbn [app length plus].
  - revert x L. induction i as [|i IH]; intros [|h x] L; cbn in L; try lia; cbn [set_byte app]; [reflexivity|]. rewrite IH by lia. reflexivity.
  - cbn [set_byte]. rewrite IH. reflexivity.
Qed.
Lemma rd1_app p x q i : i < length x -> rd1 (p ++ x ++ q)%list (length p + i) = Ret (nth i x 0%N).
Proof.
  intros L. unfold rd1. rewrite !app_length. replace (length p + i <? length p + (length x + length q)) with true by (symmetry; apply Nat.ltb_lt; lia).
  rewrite app_nth2 by lia. replace (length p + i - length p) with i by lia. rewrite app_nth1 by exact L. reflexivity.
Qed.
Lemma wr1_app p x q i v : i < length x -> wr1 (p ++ x ++ q)%list (length p + i) v = Ret (p ++ set_byte x i v ++ q)%list.
Proof.
  intros L. unfold wr1. rewrite !app_length. replace (length p + i <? length p + (length x + length q)) with true by (symmetry; apply Nat.ltb_lt; lia).
  rewrite set_byte_app by exact L. reflexivity.
Qed.
Lemma bytes_pos n : n mod 8 <> 0 -> 0 < bits_to_bytes n.
Proof. intros H. unfold bits_to_bytes. apply Nat.div_str_pos. destruct n; [exfalso; apply H; reflexivity|lia]. Qed.
Lemma mask_last_app p x q n : length x = bits_to_bytes n -> mask_last (p ++ x ++ q)%list (length p) n = Ret (p ++ init_prefix_addr x n ++ q)%list.
Proof.
  intros L. unfold mask_last, init_prefix_addr. destruct (Nat.eqb_spec (n mod 8) 0) as [E|E]; [reflexivity|]. pose proof (bytes_pos n E).
  replace (length p + bits_to_bytes n - 1) with (length p + (bits_to_bytes n - 1)) by lia. rewrite rd1_app by lia. cbn [bind].
  destruct (N.eqb _ 0); [reflexivity|]. apply wr1_app. lia.
Qed.
Lemma land_bytes_len a m : length a = length m -> length (land_bytes a m) = length a.
Proof. revert m. induction a as [|x a IH]; intros [|y m] E; cbn in *; try lia. rewrite IH by lia. reflexivity. Qed.
(* the loop turns the rest of the first half *)
Lemma mask_loop_app k p a m q : forall i sz done rest mdone mrest,
  a = (done ++ rest)%list -> m = (mdone ++ mrest)%list -> length done = i -> length mdone = i -> length rest = k -> length mrest = k -> sz = i + k ->
  mask_loop k i (p ++ a ++ m ++ q)%list (length p) sz = Ret (p ++ (done ++ land_bytes rest mrest) ++ m ++ q)%list.
Proof.
  revert a. induction k as [|k IH]; intros a i sz done rest mdone mrest Ha Hm Ld Lm Lr Lq S0.
  - destruct rest; [|discriminate]. destruct mrest; [|discriminate]. cbn [mask_loop land_bytes]. rewrite !app_nil_r in *. subst a. reflexivity.
  - destruct rest as [|x rest]; [discriminate|]. destruct mrest as [|y mrest]; [discriminate|]. cbn [length] in *.
    assert (La : length a = sz) by (subst a; rewrite app_length; cbn; lia).
    assert (Lmm : length m = sz) by (subst m; rewrite app_length; cbn; lia).
    cbn [mask_loop]. replace (p ++ a ++ m ++ q)%list with (p ++ a ++ (m ++ q))%list by reflexivity.
    rewrite rd1_app by lia. cbn [bind].
    replace (rd1 (p ++ a ++ m ++ q)%list (length p + i + sz)) with (Ret y).
    2:{ symmetry. rewrite (app_assoc p a). replace (length p + i + sz) with (length (p ++ a)%list + i) by (rewrite app_length; lia). rewrite rd1_app by lia.
        subst m. rewrite app_nth2 by lia. rewrite Lm, Nat.sub_diag. reflexivity. }
    cbn [bind]. assert (X : nth i a 0%N = x) by (subst a; rewrite app_nth2 by lia; rewrite Ld, Nat.sub_diag; reflexivity). rewrite X.
    rewrite wr1_app by lia. cbn [bind].
    assert (S1 : set_byte a i (N.land x y) = ((done ++ [N.land x y]) ++ rest)%list).
    { subst a. pose proof (set_byte_app done (x :: rest) [] 0 (N.land x y)) as Q. rewrite !app_nil_r, Nat.add_0_r in Q. rewrite <- Ld, Q by (cbn; lia). cbn [set_byte]. rewrite <- app_assoc. reflexivity. }
    rewrite S1. rewrite (IH _ (S i) sz (done ++ [N.land x y])%list rest (mdone ++ [y])%list mrest).
    + cbn [land_bytes]. rewrite <- !app_assoc. reflexivity.
    + reflexivity.
    + rewrite Hm, <- app_assoc. reflexivity.
    + rewrite app_length. cbn. lia.
    + rewrite app_length. cbn. lia.
    + lia.
    + lia.
    + lia.
Qed.
Lemma mod16_bytes n : n mod 16 = 0 -> bits_to_bytes n = 2 * (bits_to_bytes n / 2).
Proof.
  intros H. unfold bits_to_bytes. apply Nat.mod_divides in H; [|lia]. destruct H as [c H]. subst n.
  replace (16 * c + 7) with (7 + (2 * c) * 8) by lia. rewrite Nat.div_add by lia. change (7 / 8) with 0. cbn [plus].
  replace (2 * c) with (c * 2) by lia. rewrite Nat.div_mul by lia. lia.
Qed.
Lemma mask_addr_app bm p x q n : length x = bits_to_bytes n -> (bm = true -> n mod 16 = 0) ->
  mask_addr bm (p ++ x ++ q)%list (length p) n = Ret (p ++ init_addr bm x n ++ q)%list.
Proof.
  intros L M. unfold mask_addr, init_addr. destruct bm; [|apply mask_last_app; exact L].
  specialize (mod16_bytes n (M eq_refl)) as E. unfold init_bitmask_addr. set (sz := bits_to_bytes n / 2) in *.
  rewrite <- (firstn_skipn sz x) at 1. rewrite <- app_assoc.
  assert (L1 : length (firstn sz x) = sz) by (rewrite firstn_length; lia). assert (L2 : length (skipn sz x) = sz) by (rewrite skipn_length; lia).
  rewrite (mask_loop_app sz p (firstn sz x) (skipn sz x) q 0 sz [] (firstn sz x) [] (skipn sz x)); auto. cbn [app]. rewrite <- app_assoc. reflexivity.
Qed.
Lemma init_addr_len bm x n : length x = bits_to_bytes n -> (bm = true -> n mod 16 = 0) -> length (init_addr bm x n) = length x.
Proof.
  intros L M. unfold init_addr. destruct bm.
  - specialize (mod16_bytes n (M eq_refl)) as E. unfold init_bitmask_addr. set (sz := bits_to_bytes n / 2) in *. rewrite app_length, land_bytes_len; rewrite ?firstn_length, ?skipn_length; lia.
  - unfold init_prefix_addr. destruct (n mod 8 =? 0); [reflexivity|]. destruct (N.eqb _ 0); [reflexivity|]. apply set_byte_len.
Qed.
Lemma bytes_zero n : bits_to_bytes n = 0 -> n = 0.
Proof. intros H. destruct n; [reflexivity|]. exfalso. unfold bits_to_bytes in H. assert (0 < (S n + 7) / 8) by (apply Nat.div_str_pos; lia). lia. Qed.
Lemma split_at {A} (d : list A) n : n <= length d -> exists a b, d = (a ++ b)%list /\ length a = n.
Proof. intros L. exists (firstn n d), (skipn n d). rewrite firstn_skipn, firstn_length. split; [reflexivity|lia]. Qed.

Lemma fill_ok d priv ra rn la ln flags :
  length priv + bits_to_bytes rn + bits_to_bytes ln <= length d -> length ra = bits_to_bytes rn -> length la = bits_to_bytes ln ->
  (has flags RF_RADDR_BITMASK = true -> rn mod 16 = 0) -> (has flags RF_LADDR_BITMASK = true -> ln mod 16 = 0) ->
  exists slack, fill d priv ra rn la ln flags = Ret (priv ++ init_addr (has flags RF_RADDR_BITMASK) ra rn ++ init_addr (has flags RF_LADDR_BITMASK) la ln ++ slack)%list /\
    length (priv ++ init_addr (has flags RF_RADDR_BITMASK) ra rn ++ init_addr (has flags RF_LADDR_BITMASK) la ln ++ slack)%list = length d.
Proof.
  intros L Lr Ll Mr Ml. destruct (split_at d (length priv)) as (p0 & d1 & D & P0); [lia|]. subst d. rewrite app_length in L.
  destruct (split_at d1 (bits_to_bytes rn)) as (r0 & d2 & D & R0); [lia|]. subst d1. rewrite app_length in L.
  destruct (split_at d2 (bits_to_bytes ln)) as (l0 & slack & D & L0); [lia|]. subst d2. exists slack. unfold fill.
  assert (F1 : (if length priv =? 0 then Ret (p0 ++ r0 ++ l0 ++ slack)%list else wr (p0 ++ r0 ++ l0 ++ slack)%list 0 priv) = Ret (priv ++ r0 ++ l0 ++ slack)%list).
  { destruct (Nat.eqb_spec (length priv) 0) as [E|E].
    - destruct priv; [|discriminate]. destruct p0; [reflexivity|discriminate].
    - exact (wr_app [] p0 (r0 ++ l0 ++ slack)%list priv (eq_sym P0)). }
  rewrite F1. cbn [bind].
  assert (F2 : (if rn =? 0 then Ret (priv ++ r0 ++ l0 ++ slack)%list else let* bs := rd ra 0 (bits_to_bytes rn) in wr (priv ++ r0 ++ l0 ++ slack)%list (length priv) bs) = Ret (priv ++ ra ++ l0 ++ slack)%list).
  { destruct (Nat.eqb_spec rn 0) as [E|E].
    - subst rn. change (bits_to_bytes 0) with 0 in *. destruct ra; [|discriminate]. destruct r0; [reflexivity|discriminate].
    - pose proof (rd_app [] ra []) as Q. rewrite app_nil_r in Q. cbn [app length] in Q. rewrite <- Lr, Q. cbn [bind]. apply wr_app. lia. }
  rewrite F2. cbn [bind].
  assert (F3 : (if ln =? 0 then Ret (priv ++ ra ++ l0 ++ slack)%list else let* bs := rd la 0 (bits_to_bytes ln) in wr (priv ++ ra ++ l0 ++ slack)%list (length priv + bits_to_bytes rn) bs) = Ret (priv ++ ra ++ la ++ slack)%list).
  { destruct (Nat.eqb_spec ln 0) as [E|E].
    - subst ln. change (bits_to_bytes 0) with 0 in *. destruct la; [|discriminate]. destruct l0; [reflexivity|discriminate].
    - pose proof (rd_app [] la []) as Q. rewrite app_nil_r in Q. cbn [app length] in Q. rewrite <- Ll, Q. cbn [bind].
      rewrite !(app_assoc priv ra). replace (length priv + bits_to_bytes rn) with (length (priv ++ ra)%list) by (rewrite app_length; lia). apply wr_app. lia. }
  rewrite F3. cbn [bind]. rewrite mask_addr_app by assumption. cbn [bind].
  assert (I := init_addr_len (has flags RF_RADDR_BITMASK) ra rn Lr Mr). assert (I' := init_addr_len (has flags RF_LADDR_BITMASK) la ln Ll Ml).
  rewrite !(app_assoc priv (init_addr _ ra rn)). replace (length priv + bits_to_bytes rn) with (length (priv ++ init_addr (has flags RF_RADDR_BITMASK) ra rn)%list) by (rewrite app_length; lia).
  rewrite mask_addr_app by assumption. split; [reflexivity|]. rewrite !app_length. lia.
Qed.

Lemma fresh_len junk n : length (fresh junk n) = n.
Proof. unfold fresh. rewrite map_length, seq_length. reflexivity. Qed.
Lemma block_len_le off n r l : n + bits_to_bytes r + bits_to_bytes l <= block_len off n r l.
Proof. unfold block_len. destruct (Nat.odd _); lia. Qed.
Lemma block_len_mono off n r l r' l' : r' <= r -> l' <= l -> block_len off n r' l' <= block_len off n r l.
Proof.
  intros R L. unfold block_len. assert (A : bits_to_bytes r' <= bits_to_bytes r) by (unfold bits_to_bytes; apply Nat.div_le_mono; lia).
  assert (B : bits_to_bytes l' <= bits_to_bytes l) by (unfold bits_to_bytes; apply Nat.div_le_mono; lia).
  set (s := bits_to_bytes r + bits_to_bytes l + off + n). set (s' := bits_to_bytes r' + bits_to_bytes l' + off + n). assert (s' <= s) by lia.
  destruct (Nat.odd s) eqn:O1, (Nat.odd s') eqn:O2; try lia. destruct (Nat.eq_dec s' s) as [E|E]; [congruence|lia].
Qed.

Lemma holds_rd b r priv : holds b r priv ->
  rd (b_data b) (remote_at b) (bits_to_bytes (b_rlen b)) = Ret (r_raddr r) /\ rd (b_data b) (local_at b) (bits_to_bytes (b_llen b)) = Ret (r_laddr r).
Proof.
  intros [? ? ? HR ? ? HL ? ? ? HO RB LB [slack D]]. unfold remote_at, local_at. rewrite D, HO, HR, HL. unfold bits_to_bytes. rewrite <- RB, <- LB. split.
  - apply rd_app.
  - rewrite (app_assoc priv). replace (length priv + length (r_raddr r)) with (length (priv ++ r_raddr r)%list) by apply app_length. apply rd_app.
Qed.
Lemma holds_route_of b r priv : holds b r priv -> route_of b = Ret r.
Proof.
  intros H. destruct (holds_rd b r priv H) as [A B]. unfold route_of. rewrite A. cbn [bind]. rewrite B. cbn [bind]. destruct H, r; cbn in *; subst. destruct b; cbn in *; subst. reflexivity.
Qed.
