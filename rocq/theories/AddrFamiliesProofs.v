From Coq Require Import String.
From Verif Require Import Base TableSpec Labels LabelsProofs Keyed Names Kv KvSpec KvProofs Table AddrFamilies AddrFamiliesSpec.
Open Scope Z_scope.

Lemma num_EQ a b : number_cmp a b = 0 <-> a = b.
Proof. unfold number_cmp. lia. Qed.
Notation NTO := number_total_order.
Notation nsrt := (ksorted f_num number_cmp).
Notation lsrt := (ksorted f_name label_cmp).

Definition has_addr (l : list fam) (a : positive) : bool := existsb (fun f => Pos.eqb (f_addr f) a) l.
Definition claims (s : fstate) (held : list positive) (a : positive) : nat :=
  (count_occ Pos.eq_dec held a + if has_addr (bynum s) a then 1 else 0)%nat.
Record inv (s : fstate) (held : list positive) : Prop := {
  i_num : nsrt (bynum s);
  i_name : lsrt (byname s);
  i_both : forall f, In f (bynum s) <-> In f (byname s);
  i_addr : forall f g, In f (bynum s) -> In g (bynum s) -> f_addr f = f_addr g -> f = g;
  i_refs : forall a, refs s a = if (claims s held a =? 0)%nat then None else Some (N.of_nat (claims s held a));
  i_next : forall a, refs s a <> None -> (a < next s)%positive;
  i_ok : forall f, In f (bynum s) -> 1 <= Z.of_nat (length (f_name f)) <= 32 /\ f_num f <> 0%N }.

Definition abook (s : fstate) : book := fun k => option_map (fun f => (f_name f, f_bits f)) (get_bynumber_1 s k).

Lemma has_addr_in l a : has_addr l a = true <-> exists f, In f l /\ f_addr f = a.
Proof. unfold has_addr. rewrite existsb_exists. split; intros (f & I & E); exists f; (split; [exact I|apply Pos.eqb_eq in E || apply Pos.eqb_eq]; exact E). Qed.
Lemma get_in s held k f : inv s held -> (get_bynumber_1 s k = Some f <-> In f (bynum s) /\ f_num f = k).
Proof. intros V. apply (kfind_in f_num number_cmp num_EQ). exact (i_num _ _ V). Qed.
Lemma getn_in s held n f : inv s held -> (kfind f_name label_cmp (byname s) n = Some f <-> In f (bynum s) /\ f_name f = n).
Proof. intros V. rewrite (kfind_in f_name label_cmp label_EQ _ _ _ (i_name _ _ V)), (i_both _ _ V). reflexivity. Qed.
Lemma num_inj s held f g : inv s held -> In f (bynum s) -> In g (bynum s) -> f_num f = f_num g -> f = g.
Proof. intros V F G E. assert (A : get_bynumber_1 s (f_num g) = Some f) by (apply (get_in s held); auto). assert (B : get_bynumber_1 s (f_num g) = Some g) by (apply (get_in s held); auto). congruence. Qed.
Lemma name_inj s held f g : inv s held -> In f (bynum s) -> In g (bynum s) -> f_name f = f_name g -> f = g.
Proof. intros V F G E. assert (A : kfind f_name label_cmp (byname s) (f_name g) = Some f) by (apply (getn_in s held); auto). assert (B : kfind f_name label_cmp (byname s) (f_name g) = Some g) by (apply (getn_in s held); auto). congruence. Qed.
Lemma used_in s held n : inv s held -> (used (abook s) n <-> exists f, In f (bynum s) /\ f_name f = n).
Proof.
  intros V. unfold used, abook. split.
  - intros (k & w & E). destruct (get_bynumber_1 s k) as [f|] eqn:G; [|discriminate]. cbn in E. injection E as E1 _. apply (get_in s held) in G; [|exact V]. exists f. tauto.
  - intros (f & I & <-). exists (f_num f), (f_bits f). rewrite (proj2 (get_in s held (f_num f) f V) (conj I eq_refl)). reflexivity.
Qed.

Lemma inv_empty : inv fempty [].
Proof. split; cbn; try constructor; try tauto; try discriminate. Qed.

Lemma name_len_means mem len nm : means mem len nm -> name_len mem len = Ret (length nm) /\ copy (length nm) mem = Ret nm.
Proof. intros M. destruct (means_len _ _ _ M) as [A B]. split; [exact A|exact B]. Qed.

Lemma same_refl b : same b b. Proof. intros k. reflexivity. Qed.
Lemma means_rel mem len nm : means mem len nm -> means mem (Z.of_nat (length nm)) nm.
Proof. intros [(L & r & -> & E)|(L & r & -> & N0)]; left; (split; [lia|]); eexists; split; reflexivity. Qed.

Lemma install_spec E s held num mem len p fm w : inv s held -> proper_call E (Install num mem len p fm w) ->
  exists e s', install E s num mem len p fm w = Ret (e, s') /\ inv s' held /\ effect E (abook s) (Install num mem len p fm w) e (abook s').
Proof.
  intros V P. unfold install.
  assert (FAIL : forall e, is_success e = false ->
    ((num = 0%N \/ p = false \/ fm = false \/ w < 1 \/ 128 < w \/ mem = None \/ (exists m, mem = Some m /\ means m len [])) /\ e = INVALID_ARG
            \/ (exists m nm, mem = Some m /\ means m len nm /\ 32 < Z.of_nat (length nm)) /\ e = STRING_ARG_TOO_LONG
            \/ mem_num E = false /\ e = SYS_RESOURCE_FAILED
            \/ e = lockr E \/ e = id_num E \/ e = id_name E
            \/ (abook s num <> None \/ exists m nm, mem = Some m /\ means m len nm /\ used (abook s) nm) /\ e = ITEM_ALREADY_PRESENT) ->
    exists e' s', Ret (e, s) = Ret (e', s') /\ inv s' held /\ effect E (abook s) (Install num mem len p fm w) e' (abook s')).
  { intros e SF R. exists e, s. split; [reflexivity|]. split; [exact V|]. right. split; [exact SF|]. split; [apply same_refl|exact R]. }
  destruct (N.eqb_spec num 0) as [N0|N0]; [apply FAIL; [reflexivity|left; tauto]|].
  destruct p; [|apply FAIL; [reflexivity|left; tauto]]. destruct fm; [|apply FAIL; [reflexivity|left; tauto]]. cbn [negb orb].
  destruct (Z.leb_spec w 0); [apply FAIL; [reflexivity|left; split; [do 3 right; left; lia|reflexivity]]|].
  rewrite Z.gtb_ltb. unfold MAX_ADDR_BITS. destruct (Z.ltb_spec 128 w); cbn [orb]; [apply FAIL; [reflexivity|left; tauto]|].
  destruct mem as [mem|]; [|apply FAIL; [reflexivity|left; tauto]]. cbn [proper_call] in P. destruct P as [[nm M] PM].
  destruct (name_len_means _ _ _ M) as [L C]. rewrite L. cbn [bind].
  destruct (Nat.eqb_spec (length nm) 0) as [L0|L0].
  { apply FAIL; [reflexivity|]. left. split; [|reflexivity]. do 6 right. exists mem. split; [reflexivity|]. destruct nm; [exact M|discriminate]. }
  rewrite Z.gtb_ltb. unfold MAX_LABEL. destruct (Z.ltb_spec 32 (Z.of_nat (length nm))) as [LB|LB].
  { apply FAIL; [reflexivity|]. right. left. split; [|reflexivity]. exists mem, nm. tauto. }
  destruct (mem_num E) eqn:MN; cbn [negb]; [|apply FAIL; [reflexivity|tauto]]. rewrite (PM eq_refl). cbn [negb].
  rewrite C. cbn [bind]. destruct (is_success (lockr E)) eqn:LR; cbn [negb]; [|apply FAIL; [exact LR|tauto]].
  destruct (is_success (id_num E)) eqn:IR; cbn [negb]; [|apply FAIL; [exact IR|tauto]].
  destruct (is_success (id_name E)) eqn:JR; cbn [negb]; [|apply FAIL; [exact JR|tauto]].
  set (f := mkFam (next s) num nm w).
  pose proof (kinsert_spec f_num number_cmp NTO num_EQ (bynum s) f (i_num _ _ V)) as K1.
  destruct (kinsert f_num number_cmp (bynum s) f) as [t1|] eqn:E1.
  2:{ apply FAIL; [reflexivity|]. do 6 right. split; [|reflexivity]. left. destruct K1 as (y & Y). unfold abook, get_bynumber_1. cbn [f f_num] in Y. rewrite Y. discriminate. }
  destruct K1 as (F1 & S1 & I1). cbn [f f_num] in F1.
  pose proof (kinsert_spec f_name label_cmp label_total_order label_EQ (byname s) f (i_name _ _ V)) as K2.
  destruct (kinsert f_name label_cmp (byname s) f) as [t2|] eqn:E2.
  - destruct K2 as (F2 & S2 & I2). cbn [f f_name] in F2.
    assert (FR : claims s held (next s) = 0%nat).
    { destruct (Nat.eq_dec (claims s held (next s)) 0) as [|NE]; [assumption|exfalso]. pose proof (i_refs _ _ V (next s)) as R. destruct (Nat.eqb_spec (claims s held (next s)) 0); [contradiction|]. assert (X : (next s < next s)%positive) by (apply (i_next _ _ V); congruence). lia. }
    exists OK. eexists. split; [reflexivity|]. split.
    + assert (HA : forall a, has_addr t1 a = if Pos.eqb a (next s) then true else has_addr (bynum s) a).
      { intros a. destruct (has_addr t1 a) eqn:HT.
        - apply has_addr_in in HT. destruct HT as (g & IG & GA). apply I1 in IG. destruct IG as [-> |IG]; [cbn in GA; subst a; rewrite Pos.eqb_refl; reflexivity|]. destruct (Pos.eqb_spec a (next s)); [reflexivity|]. symmetry. apply has_addr_in. eauto.
        - destruct (Pos.eqb_spec a (next s)) as [-> |NE]; [assert (has_addr t1 (next s) = true) by (apply has_addr_in; exists f; split; [apply I1; auto|reflexivity]); congruence|].
          destruct (has_addr (bynum s) a) eqn:HB; [|reflexivity]. apply has_addr_in in HB. destruct HB as (g & IG & GA). assert (has_addr t1 a = true) by (apply has_addr_in; exists g; split; [apply I1; auto|exact GA]). congruence. }
      assert (NB : forall g, In g (bynum s) -> f_addr g <> next s).
      { intros g IG GA. unfold claims in FR. assert (has_addr (bynum s) (next s) = true) by (apply has_addr_in; eauto). rewrite H1 in FR. lia. }
      split; cbn [bynum byname refs next].
      * exact S1.
      * exact S2.
      * intros g. rewrite I1, I2, (i_both _ _ V). reflexivity.
      * intros g g' G G'. apply I1 in G, G'. destruct G as [-> |G], G' as [-> |G']; intros X; [reflexivity|destruct (NB g' G'); symmetry; exact X|destruct (NB g G); exact X|exact (i_addr _ _ V g g' G G' X)].
      * intros a. unfold claims in *. cbn [bynum]. rewrite HA. destruct (Pos.eqb_spec a (next s)) as [-> |NE].
        -- destruct (count_occ Pos.eq_dec held (next s)) eqn:CO; [reflexivity|cbn in FR; lia].
        -- exact (i_refs _ _ V a).
      * intros a R. change (refs s a <> None) with (refs s a <> None) in R. destruct (Pos.eqb_spec a (next s)) as [X|NE]; [lia|]. apply (i_next _ _ V) in R. lia.
      * intros g G. apply I1 in G. destruct G as [-> |G]; [cbn; split; [lia|exact N0]|exact (i_ok _ _ V g G)].
    + left. exists mem, nm. repeat (split; [first [reflexivity|assumption|lia]|]). split.
      { unfold abook, get_bynumber_1. rewrite F1. reflexivity. }
      split.
      { rewrite (used_in s held) by exact V. intros (g & IG & GN). apply (kfind_none f_name label_cmp label_EQ _ _ (i_name _ _ V)) with (x := g) in F2; [|apply (i_both _ _ V); exact IG]. exact (F2 GN). }
      split; [reflexivity|]. split.
      * unfold abook, get_bynumber_1. cbn [bynum]. rewrite (proj1 (kfind_insert f_num number_cmp NTO num_EQ _ _ _ num (i_num _ _ V) E1) eq_refl). reflexivity.
      * intros j NJ. unfold abook, get_bynumber_1. cbn [bynum]. rewrite (proj2 (kfind_insert f_num number_cmp NTO num_EQ _ _ _ j (i_num _ _ V) E1)) by (cbn; congruence). reflexivity.
  - destruct K2 as (y & Y). cbn [f f_name] in Y. exists ITEM_ALREADY_PRESENT. eexists. split; [reflexivity|].
    destruct (kremove_spec f_num number_cmp num_EQ t1 num S1) as [S3 I3].
    assert (I4 : forall g, In g (kremove f_num number_cmp t1 num) <-> In g (bynum s)).
    { intros g. rewrite I3, I1. split; [intros ([-> |G] & X); [destruct X; reflexivity|exact G]|]. intros G. split; [auto|]. intros X. exact (proj1 (kfind_none f_num number_cmp num_EQ _ _ (i_num _ _ V)) F1 g G X). }
    assert (SM : forall j, kfind f_num number_cmp (kremove f_num number_cmp t1 num) j = kfind f_num number_cmp (bynum s) j).
    { intros j. destruct (kfind f_num number_cmp (bynum s) j) as [g|] eqn:G.
      - apply (kfind_in f_num number_cmp num_EQ _ _ _ S3). apply (kfind_in f_num number_cmp num_EQ _ _ _ (i_num _ _ V)) in G. rewrite I4. exact G.
      - apply (kfind_none f_num number_cmp num_EQ _ _ S3). intros g IG. apply I4 in IG. exact (proj1 (kfind_none f_num number_cmp num_EQ _ _ (i_num _ _ V)) G g IG). }
    assert (HA : forall a, has_addr (kremove f_num number_cmp t1 num) a = has_addr (bynum s) a).
    { intros a. destruct (has_addr (bynum s) a) eqn:HB; [apply has_addr_in; apply has_addr_in in HB; destruct HB as (g & G & GA); exists g; split; [apply I4; exact G|exact GA]|].
      destruct (has_addr (kremove f_num number_cmp t1 num) a) eqn:HC; [|reflexivity]. apply has_addr_in in HC. destruct HC as (g & G & GA). assert (has_addr (bynum s) a = true) by (apply has_addr_in; exists g; split; [apply I4; exact G|exact GA]). congruence. }
    split; [split; cbn [bynum byname refs next]|].
    + exact S3.
    + exact (i_name _ _ V).
    + intros g. rewrite I4. apply (i_both _ _ V).
    + intros g g' G G'. apply I4 in G, G'. exact (i_addr _ _ V g g' G G').
    + intros a. unfold claims. cbn [bynum]. rewrite HA. exact (i_refs _ _ V a).
    + exact (i_next _ _ V).
    + intros g G. apply I4 in G. exact (i_ok _ _ V g G).
    + right. split; [reflexivity|]. split.
      * intros j. unfold abook, get_bynumber_1. cbn [bynum]. rewrite SM. reflexivity.
      * do 6 right. split; [|reflexivity]. right. exists mem, nm. split; [reflexivity|]. split; [exact M|]. apply (used_in s held); [exact V|]. apply (getn_in s held) in Y; [|exact V]. exists y. exact Y.
Qed.

Lemma remove_1_spec s held f : inv s held -> In f (bynum s) ->
  exists b s', remove_1 s f = Ret (OK, b, s') /\ inv s' held /\ sets (abook s) (abook s') (f_num f) None.
Proof.
  intros V F. unfold remove_1, drop.
  set (s0 := mkFs (kremove f_num number_cmp (bynum s) (f_num f)) (kremove f_name label_cmp (byname s) (f_name f)) (refs s) (next s)).
  assert (HF : has_addr (bynum s) (f_addr f) = true) by (apply has_addr_in; eauto).
  destruct (kremove_spec f_num number_cmp num_EQ (bynum s) (f_num f) (i_num _ _ V)) as [S1 I1].
  destruct (kremove_spec f_name label_cmp label_EQ (byname s) (f_name f) (i_name _ _ V)) as [S2 I2].
  assert (I3 : forall g, In g (bynum s0) <-> In g (bynum s) /\ g <> f).
  { intros g. cbn [s0 bynum]. rewrite I1. split; intros (G & X); (split; [exact G|]); [congruence|]. intros Y. apply X. exact (num_inj s held g f V G F Y). }
  assert (I4 : forall g, In g (byname s0) <-> In g (bynum s) /\ g <> f).
  { intros g. cbn [s0 byname]. rewrite I2, <- (i_both _ _ V). split; intros (G & X); (split; [exact G|]); [congruence|]. intros Y. apply X. exact (name_inj s held g f V G F Y). }
  assert (HA : forall a, has_addr (bynum s0) a = if Pos.eqb a (f_addr f) then false else has_addr (bynum s) a).
  { intros a. destruct (Pos.eqb_spec a (f_addr f)) as [-> |NE].
    - destruct (has_addr (bynum s0) (f_addr f)) eqn:X; [|reflexivity]. apply has_addr_in in X. destruct X as (g & G & GA). apply I3 in G. destruct G as [G NG]. destruct NG. exact (i_addr _ _ V g f G F GA).
    - destruct (has_addr (bynum s) a) eqn:X.
      + apply has_addr_in in X. destruct X as (g & G & GA). apply has_addr_in. exists g. split; [apply I3; split; [exact G|congruence]|exact GA].
      + destruct (has_addr (bynum s0) a) eqn:Y; [|reflexivity]. apply has_addr_in in Y. destruct Y as (g & G & GA). apply I3 in G. assert (has_addr (bynum s) a = true) by (apply has_addr_in; exists g; tauto). congruence. }
  assert (RF : refs s (f_addr f) = Some (N.of_nat (S (count_occ Pos.eq_dec held (f_addr f))))).
  { rewrite (i_refs _ _ V). unfold claims. rewrite HF. rewrite Nat.add_1_r. reflexivity. }
  cbn [s0 refs]. rewrite RF. cbn [ub_none bind].
  assert (AB : forall j, abook s0 j = if N.eqb j (f_num f) then None else abook s j).
  { intros j. unfold abook, get_bynumber_1. cbn [s0 bynum]. destruct (N.eqb_spec j (f_num f)) as [-> |NE].
    - rewrite (proj1 (kfind_remove f_num number_cmp num_EQ _ (f_num f) 0%N (i_num _ _ V))). reflexivity.
    - rewrite (proj2 (kfind_remove f_num number_cmp num_EQ _ (f_num f) j (i_num _ _ V))) by congruence. reflexivity. }
  assert (SETS : forall r, sets (abook s) (abook (setref s0 (f_addr f) r)) (f_num f) None).
  { intros r. split; [change (abook (setref s0 (f_addr f) r) (f_num f)) with (abook s0 (f_num f)); rewrite AB, N.eqb_refl; reflexivity|]. intros j NJ. change (abook (setref s0 (f_addr f) r) j) with (abook s0 j). rewrite AB. destruct (N.eqb_spec j (f_num f)); [contradiction|reflexivity]. }
  assert (INV : forall r, r = (if (count_occ Pos.eq_dec held (f_addr f) =? 0)%nat then None else Some (N.of_nat (count_occ Pos.eq_dec held (f_addr f)))) -> inv (setref s0 (f_addr f) r) held).
  { intros r RE. split; cbn [setref bynum byname refs next].
    - exact S1.
    - exact S2.
    - intros g. change (bynum (setref s0 (f_addr f) r)) with (bynum s0). change (byname (setref s0 (f_addr f) r)) with (byname s0). rewrite I3, I4. reflexivity.
    - intros g g' G G'. apply I3 in G, G'. exact (i_addr _ _ V g g' (proj1 G) (proj1 G')).
    - intros a. unfold claims. cbn [setref bynum]. change (kremove f_num number_cmp (bynum s) (f_num f)) with (bynum s0). rewrite HA. destruct (Pos.eqb_spec a (f_addr f)) as [-> |NE]; [rewrite Nat.add_0_r; exact RE|]. cbn [s0 refs]. exact (i_refs _ _ V a).
    - intros a. destruct (Pos.eqb_spec a (f_addr f)) as [-> |NE]; cbn [s0 refs next]; [intros _; apply (i_next _ _ V); congruence|apply (i_next _ _ V)].
    - intros g G. apply I3 in G. exact (i_ok _ _ V g (proj1 G)). }
  destruct (N.eqb_spec (N.of_nat (S (count_occ Pos.eq_dec held (f_addr f)))) 0) as [X|_]; [lia|].
  destruct (N.ltb_spec 1 (N.of_nat (S (count_occ Pos.eq_dec held (f_addr f))))) as [G|G].
  - exists false. eexists. split; [reflexivity|]. split; [|apply SETS]. apply INV. destruct (Nat.eqb_spec (count_occ Pos.eq_dec held (f_addr f)) 0) as [X|X]; [lia|]. f_equal. lia.
  - exists true. eexists. split; [reflexivity|]. split; [|apply SETS]. apply INV. destruct (Nat.eqb_spec (count_occ Pos.eq_dec held (f_addr f)) 0) as [X|X]; [reflexivity|lia].
Qed.

Lemma get_byname_spec s held mem len nm : inv s held -> means mem len nm ->
  get_byname_1 s mem len = Ret (if (length nm =? 0)%nat then inr INVALID_ARG else if 32 <? Z.of_nat (length nm) then inr STRING_ARG_TOO_LONG
    else match kfind f_name label_cmp (byname s) nm with Some f => inl f | None => inr ITEM_NOT_FOUND end).
Proof.
  intros V M. unfold get_byname_1. destruct (name_len_means _ _ _ M) as [L C]. rewrite L. cbn [bind]. destruct (length nm =? 0)%nat; [reflexivity|]. rewrite Z.gtb_ltb. unfold MAX_LABEL. destruct (32 <? Z.of_nat (length nm)); [reflexivity|]. rewrite C. reflexivity.
Qed.

Lemma count_del a b held : In a held -> count_occ Pos.eq_dec (del a held) b = (count_occ Pos.eq_dec held b - if Pos.eqb b a then 1 else 0)%nat.
Proof.
  induction held as [|x held IH]; [intros []|]. intros I0. cbn [del count_occ]. destruct (Pos.eqb_spec a x) as [<- |NE].
  - destruct (Pos.eq_dec a b) as [<- |X]; [rewrite Pos.eqb_refl; lia|]. destruct (Pos.eqb_spec b a); [congruence|lia].
  - destruct I0 as [X|I0]; [congruence|]. cbn [count_occ]. rewrite (IH I0). destruct (Pos.eq_dec x b) as [<- |X]; [|reflexivity]. destruct (Pos.eqb_spec x a); [congruence|lia].
Qed.

Lemma fstep_spec E s held c : inv s held -> proper_call E c -> holds_it held c ->
  exists (e : err) (o : option fam) s', fstep E s c = Ret (e, o, s') /\ inv s' (hold held c o) /\ effect E (abook s) c e (abook s').
Proof.
  intros V P H. destruct c as [num mem len p fm w|k|mem len|k|a]; cbn [fstep].
  - destruct (install_spec E s held num mem len p fm w V P) as (e & s' & ST & V' & EF). rewrite ST. cbn [bind]. exists e, None, s'. auto.
  - unfold remove_bynumber. destruct (is_success (lockr E)) eqn:LR; cbn [negb bind].
    2:{ exists (lockr E), None, s. split; [reflexivity|]. split; [exact V|]. right. split; [apply same_refl|auto]. }
    destruct (get_bynumber_1 s k) as [f|] eqn:G.
    + apply (get_in s held) in G as G'; [|exact V]. destruct G' as [I <-]. destruct (remove_1_spec s held f V I) as (b & s' & R & V' & ST). rewrite R. cbn [bind]. exists OK, None, s'. split; [reflexivity|]. split; [exact V'|]. left. split; [unfold abook; rewrite G; discriminate|]. auto.
    + exists ITEM_NOT_FOUND, None, s. split; [reflexivity|]. split; [exact V|]. right. split; [apply same_refl|]. left. unfold abook. rewrite G. auto.
  - unfold remove_byname. destruct (is_success (lockr E)) eqn:LR; cbn [negb bind].
    2:{ exists (lockr E), None, s. split; [reflexivity|]. split; [exact V|]. right. split; [apply same_refl|auto]. }
    destruct P as [nm M]. rewrite (get_byname_spec s held mem len nm V M). cbn [bind].
    assert (NU : ~ (1 <= Z.of_nat (length nm) <= 32) -> ~ used (abook s) nm).
    { intros X U. apply (used_in s held) in U; [|exact V]. destruct U as (f & I & <-). apply X. exact (proj1 (i_ok _ _ V f I)). }
    destruct (Nat.eqb_spec (length nm) 0) as [L0|L0].
    { exists INVALID_ARG, None, s. split; [reflexivity|]. split; [exact V|]. right. split; [apply same_refl|]. left. exists nm. split; [exact M|]. split; [apply NU; lia|]. right. left. destruct nm; [auto|discriminate]. }
    destruct (Z.ltb_spec 32 (Z.of_nat (length nm))).
    { exists STRING_ARG_TOO_LONG, None, s. split; [reflexivity|]. split; [exact V|]. right. split; [apply same_refl|]. left. exists nm. split; [exact M|]. split; [apply NU; lia|]. right. right. auto. }
    destruct (kfind f_name label_cmp (byname s) nm) as [f|] eqn:G.
    + apply (getn_in s held) in G; [|exact V]. destruct G as [I NF]. destruct (remove_1_spec s held f V I) as (b & s' & R & V' & ST). rewrite R. cbn [bind]. exists OK, None, s'. split; [reflexivity|]. split; [exact V'|]. left. exists (f_num f), nm, (f_bits f). split; [exact M|]. split; [|auto]. unfold abook. rewrite (proj2 (get_in s held (f_num f) f V) (conj I eq_refl)). cbn. rewrite NF. reflexivity.
    + exists ITEM_NOT_FOUND, None, s. split; [reflexivity|]. split; [exact V|]. right. split; [apply same_refl|]. left. exists nm. split; [exact M|]. split; [|auto]. rewrite (used_in s held) by exact V. intros (f & I & NF). assert (X : kfind f_name label_cmp (byname s) nm = Some f) by (apply (getn_in s held); auto). congruence.
  - unfold ntop. destruct (get_bynumber_1 s k) as [f|] eqn:G.
    2:{ destruct (builtin_ntop k); eexists _, None, s; (split; [reflexivity|]); (split; [exact V|apply same_refl]). }
    apply (get_in s held) in G as G'; [|exact V]. destruct G' as [I KF]. assert (HF : has_addr (bynum s) (f_addr f) = true) by (apply has_addr_in; eauto).
    assert (RF : refs s (f_addr f) = Some (N.of_nat (S (count_occ Pos.eq_dec held (f_addr f))))).
    { rewrite (i_refs _ _ V). unfold claims. rewrite HF, Nat.add_1_r. reflexivity. }
    rewrite RF. destruct (N.eqb_spec (N.of_nat (S (count_occ Pos.eq_dec held (f_addr f)))) u32_max) as [X|X].
    { exists OVERFLOW_AVERTED, None, s. split; [reflexivity|]. split; [exact V|apply same_refl]. }
    exists OK, (Some f). eexists. split; [reflexivity|]. split; [|intros j; reflexivity]. cbn [hold].
    split; cbn [setref bynum byname refs next]; try apply V.
    + intros a. unfold claims. cbn [setref bynum]. cbn [count_occ]. destruct (Pos.eqb_spec a (f_addr f)) as [-> |NE].
      * destruct (Pos.eq_dec (f_addr f) (f_addr f)); [|congruence]. rewrite HF. cbn [Nat.add Nat.eqb]. f_equal. lia.
      * destruct (Pos.eq_dec (f_addr f) a); [congruence|]. exact (i_refs _ _ V a).
    + intros a. destruct (Pos.eqb_spec a (f_addr f)) as [-> |NE]; [intros _|]; apply (i_next _ _ V). congruence.
  - cbn [holds_it] in H. assert (C : (0 < count_occ Pos.eq_dec held a)%nat) by (apply count_occ_In; exact H).
    unfold drop. pose proof (i_refs _ _ V a) as R. destruct (Nat.eqb_spec (claims s held a) 0) as [Z0|NZ]; [unfold claims in Z0; lia|]. rewrite R. cbn [ub_none bind].
    destruct (N.eqb_spec (N.of_nat (claims s held a)) 0) as [X|_]; [lia|].
    assert (CL : forall r, claims (setref s a r) (del a held) a = (claims s held a - 1)%nat).
    { intros r. unfold claims. cbn [setref bynum]. rewrite (count_del a a held H), Pos.eqb_refl. lia. }
    assert (CL' : forall r b, b <> a -> claims (setref s a r) (del a held) b = claims s held b).
    { intros r b NE. unfold claims. cbn [setref bynum]. rewrite (count_del a b held H). destruct (Pos.eqb_spec b a); [contradiction|lia]. }
    assert (INV : forall r, r = (if (claims s held a - 1 =? 0)%nat then None else Some (N.of_nat (claims s held a - 1))) -> inv (setref s a r) (del a held)).
    { intros r RE. split; try apply V.
      - intros b. destruct (Pos.eq_dec b a) as [-> |NE]; [rewrite CL; cbn [setref refs]; rewrite Pos.eqb_refl; exact RE|]. rewrite (CL' r b NE). cbn [setref refs]. destruct (Pos.eqb_spec b a); [contradiction|]. exact (i_refs _ _ V b).
      - intros b. cbn [setref refs next]. destruct (Pos.eqb_spec b a) as [-> |NE]; [intros _|]; apply (i_next _ _ V). congruence. }
    destruct (N.ltb_spec 1 (N.of_nat (claims s held a))) as [G|G]; cbn [bind].
    + exists OK, None. eexists. split; [reflexivity|]. split; [|intros j; reflexivity]. cbn [hold]. apply INV. destruct (Nat.eqb_spec (claims s held a - 1) 0); [lia|]. f_equal. lia.
    + exists OK, None. eexists. split; [reflexivity|]. split; [|intros j; reflexivity]. cbn [hold]. apply INV. destruct (Nat.eqb_spec (claims s held a - 1) 0); [reflexivity|lia].
Qed.

Fixpoint held_after (held : list positive) (h : list (fenv * fcall)) (rs : list (err * option fam)) : list positive :=
  match h, rs with (_, c) :: h, (_, o) :: rs => held_after (hold held c o) h rs | _, _ => held end.

Lemma frun_spec h : forall s held, inv s held -> honest s held h ->
  exists rs s', frun s h = Ret (rs, s') /\ inv s' (held_after held h rs) /\ effects (abook s) h rs (abook s').
Proof.
  induction h as [|[E c] h IH]; intros s held V H; cbn [frun].
  - exists [], s. split; [reflexivity|]. split; [exact V|]. constructor. apply same_refl.
  - cbn [honest] in H. destruct H as (P & HI & H). destruct (fstep_spec E s held c V P HI) as (e & o & s1 & ST & V1 & EF). rewrite ST. cbn [bind].
    destruct (IH s1 (hold held c o) V1 (H e o s1 ST)) as (rs & s2 & R & V2 & EFS). rewrite R. cbn [bind]. exists ((e, o) :: rs), s2. split; [reflexivity|]. split; [exact V2|]. econstructor; eassumption.
Qed.
