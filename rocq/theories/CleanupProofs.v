From Verif Require Import Base Links LinksProofs LLProofs Table Cleanup CleanupSpec.

Lemma hook_eqb_spec x y : reflect (x = y) (hook_eqb x y).
Proof.
  destruct x as [a b], y as [c d]. unfold hook_eqb. cbn [fst snd]. destruct (N.eqb_spec a c), (N.eqb_spec b d); cbn; constructor; congruence.
Qed.
Definition inv (s : cst) (al : list addr) (st : list hook) : Prop :=
  dll (cl s) (chd s) al /\ map (ent s) al = map Some st /\ NoDup st /\ (forall a, In a al -> (a < cbrk s)%positive) /\ (length al < Pos.to_nat (cbrk s))%nat.

Lemma find_ok s h : forall al st p fuel, seg (cl s) p al None -> map (ent s) al = map Some st -> (length al < fuel)%nat ->
  find fuel s h (hdor al None) = Ret (existsb (hook_eqb h) st).
Proof.
  induction al as [|a al IH]; intros st p fuel Sg M L; destruct st as [|x st]; try discriminate M.
  - destruct fuel; reflexivity.
  - destruct fuel as [|f]; [cbn in L; lia|]. destruct Sg as [E Sg]. cbn [map] in M. injection M as Mx M. cbn [hdor find existsb]. rewrite Mx. cbn [ub_none bind].
    destruct (hook_eqb_spec x h) as [EX|NE]; [subst x; destruct (hook_eqb_spec h h); [reflexivity|congruence]|].
    destruct (hook_eqb_spec h x); [congruence|]. unfold get_nxt. rewrite E. cbn [option_map ub_none bind nxt orb]. apply (IH st (Some a)); [exact Sg|exact M|cbn in L; lia].
Qed.
Lemma map_upd_ni {A} (e : addr -> option A) a v al : ~ In a al -> map (upd e a v) al = map e al.
Proof. intros N. apply map_ext_in. intros x X. apply upd_neq. congruence. Qed.
Lemma dll_upd_ni h hd al a v : dll h hd al -> ~ In a al -> dll (upd h a v) hd al.
Proof.
  intros (ND & H1 & H2 & SG) N. repeat split; try assumption. clear ND H1 H2. revert SG N. generalize (@None addr) at 1 3. induction al as [|x al IH]; intros p SG N; [exact I|].
  destruct SG as [E SG]. split; [rewrite upd_neq; [exact E|intros ->; apply N; left; reflexivity]|]. apply IH; [exact SG|intros X; apply N; right; exact X].
Qed.
Lemma existsb_in h st : existsb (hook_eqb h) st = true <-> In h st.
Proof. rewrite existsb_exists. split; [intros (x & X & E); destruct (hook_eqb_spec h x); [subst; exact X|discriminate]|intros X; exists h; split; [exact X|destruct (hook_eqb_spec h h); congruence]]. Qed.

Lemma push_ok s al st h mem : inv s al st ->
  exists e s' al' st' ev, push s h mem = Ret (e, s') /\ spec st (Push h mem) = (e, st', ev) /\ tr s' = tr s ++ ev /\ inv s' al' st' /\
    (al' = al /\ st' = st \/ al' = cbrk s :: al /\ st' = h :: st).
Proof.
  intros (D & M & ND & B & L). assert (D0 := D). destruct D0 as (NDa & H1 & H2 & SG). unfold push. rewrite H1, (find_ok s h al st None _ SG M L). cbn [bind].
  cbn [spec]. destruct (existsb (hook_eqb h) st) eqn:EX; [exists S_ALREADY_OK, s, al, st, []; rewrite app_nil_r; repeat split; try assumption; left; split; reflexivity|].
  destruct mem as [g|]; [|exists SYS_RESOURCE_FAILED, s, al, st, []; rewrite app_nil_r; repeat split; try assumption; left; split; reflexivity].
  assert (NI : ~ In (cbrk s) al) by (intros X; apply B in X; lia).
  destruct (ll_prepend_spec (upd (cl s) (cbrk s) (Some g)) (chd s) al (cbrk s)) as (l' & hd' & E & D' & _ & _); [apply dll_upd_ni; assumption|exact NI|rewrite upd_eq; discriminate|].
  rewrite E. cbn [ub_none bind]. eexists OK, _, (cbrk s :: al), (h :: st), [Registered h]. split; [reflexivity|]. split; [reflexivity|]. split; [reflexivity|].
  split; [|right; split; reflexivity]. unfold inv, say. cbn [cl chd ent cbrk tr]. split; [exact D'|]. split; [cbn [map]; rewrite upd_eq, map_upd_ni, M by exact NI; reflexivity|].
  split; [constructor; [|exact ND]; intros X; apply existsb_in in X; congruence|]. split; [|cbn [length]; lia]. intros a [<-|X]; [lia|]. apply B in X. lia.
Qed.
Lemma drop_ok s l1 a l2 s1 x s2 : inv s (l1 ++ a :: l2) (s1 ++ x :: s2) -> length l1 = length s1 ->
  exists s', drop s a = Ret s' /\ tr s' = tr s /\ inv s' (l1 ++ l2) (s1 ++ s2).
Proof.
  intros (D & M & ND & B & L) LL. unfold drop. destruct (ll_delete_spec _ _ _ _ _ D) as (h' & hd' & E & D' & _ & _). rewrite E. cbn [ub_none bind].
  rewrite !map_app in M. cbn [map] in M. assert (LM : length (map (ent s) l1) = length (map Some s1)) by (rewrite !map_length; exact LL).
  assert (MM : map (ent s) l1 = map Some s1 /\ ent s a = Some x /\ map (ent s) l2 = map Some s2).
  { revert LM M. generalize (map (ent s) l1) (map (@Some hook) s1). induction l as [|y l IH]; intros [|z l0] LM M; try discriminate LM.
    - cbn in M. injection M as M1 M2. auto.
    - cbn in M. injection M as M1 M2. destruct (IH l0) as (A & C); [cbn in LM; lia|exact M2|]. split; [congruence|exact C]. }
  destruct MM as (M1 & Mx & M2). rewrite Mx. cbn [ub_none bind]. eexists. split; [reflexivity|]. split; [reflexivity|].
  assert (NDa := proj1 D). assert (NDa' := NoDup_mid _ _ _ NDa). assert (NDs' := NoDup_remove_1 _ _ _ ND). assert (NI : ~ In a (l1 ++ l2)) by (intros X; apply in_app_or in X; tauto).
  unfold inv. cbn [cl chd ent cbrk tr]. split; [apply dll_upd_ni; assumption|]. split; [rewrite map_upd_ni by exact NI; rewrite !map_app, M1, M2; reflexivity|]. split; [tauto|].
  split; [intros y Y; apply B; apply in_app_or in Y; apply in_or_app; destruct Y; [left|right; right]; assumption|]. rewrite app_length in *. cbn [length] in L. lia.
Qed.
Lemma inv_head s al st : inv s al st -> lhead (chd s) = hdor al None.
Proof. intros ((_ & H & _) & _). exact H. Qed.
Lemma inv_say s al st e : inv s al st -> inv (say s e) al st.
Proof. intros H. exact H. Qed.
Lemma inv_cons s a al st : inv s (a :: al) st -> exists x st', st = x :: st' /\ ent s a = Some x.
Proof. intros (_ & M & _). destruct st as [|x st]; [discriminate M|]. cbn [map] in M. injection M as M _. eauto. Qed.
Lemma stack_app t u : stack_of (t ++ u) = fold_left stack_step u (stack_of t).
Proof. apply fold_left_app. Qed.
Lemma lifo_snoc t e : lifo t -> match e with Registered h => ~ In h (stack_of t) | Ran h | Dropped h => exists r, stack_of t = h :: r end -> lifo (t ++ [e]).
Proof.
  intros H He t1 x t2 E. destruct (@exists_last _ (x :: t2)) as (m & z & Ez); [discriminate|]. rewrite Ez, app_assoc in E. apply app_inj_tail in E. destruct E as [E1 E2]. subst z.
  destruct m as [|y m]; [injection Ez as -> ->; rewrite app_nil_r in E1; subst t; exact He|]. injection Ez as -> ->. exact (H t1 y m E1).
Qed.
Lemma nil_lifo : lifo [].
Proof. intros t1 e t2 E. destruct t1; discriminate. Qed.

(** A quiet handler: pop is exact. *)
Section Beh.
  Variable beh : hook -> list call.
  Hypothesis pushes : forall h c, In c (beh h) -> is_push c = true.

  (** the pushes of a running handler put entries on top of it *)
  Lemma handler_ok f a x al st : forall cs s l1 s1, (forall c, In c cs -> is_push c = true) -> (cs = [] \/ f <> O) ->
    inv s (l1 ++ a :: al) (s1 ++ x :: st) -> length l1 = length s1 -> lifo (tr s) -> stack_of (tr s) = s1 ++ st ->
    exists s' l1' s1', fold_left (fun o c => let* s := o in let* (e, s) := exec beh f s c in Ret s) cs (Ret s) = Ret s' /\
      inv s' (l1' ++ a :: al) (s1' ++ x :: st) /\ length l1' = length s1' /\ lifo (tr s') /\ stack_of (tr s') = s1' ++ st /\ (cs = [] -> tr s' = tr s /\ s1' = s1).
  Proof.
    induction cs as [|c cs IH]; intros s l1 s1 P F I L T K; [exists s, l1, s1; cbn [fold_left]; auto 8|].
    destruct F as [F|F]; [discriminate F|]. destruct f as [|f]; [congruence|]. cbn [fold_left bind].
    destruct c as [h mem| |]; try (specialize (P _ (or_introl eq_refl)); discriminate P). cbn [exec].
    destruct (push_ok _ _ _ h mem I) as (e & s' & al' & st' & ev & E & SP & Tr & I' & C). rewrite E. cbn [bind].
    assert (NX : forall y, In y (s1 ++ st) -> In y (s1 ++ x :: st)) by (intros y Y; apply in_app_or in Y; apply in_or_app; destruct Y; [left|right; right]; assumption).
    assert (Q : exists l1' s1', inv s' (l1' ++ a :: al) (s1' ++ x :: st) /\ length l1' = length s1' /\ lifo (tr s') /\ stack_of (tr s') = s1' ++ st).
    { cbn [spec] in SP. destruct (existsb (hook_eqb h) (s1 ++ x :: st)) eqn:EX; [injection SP as <- <- <-|destruct mem as [g|]; injection SP as <- <- <-].
      - destruct C as [(-> & _)|(_ & X)]; [|exfalso; apply (f_equal (fun l => length l)) in X; cbn [length] in X; lia]. exists l1, s1. rewrite app_nil_r in Tr. rewrite Tr. auto.
      - destruct C as [(_ & X)|(-> & _)]; [exfalso; apply (f_equal (fun l => length l)) in X; cbn [length] in X; lia|]. exists (cbrk s :: l1), (h :: s1). cbn [app length]. split; [exact I'|]. split; [lia|].
        rewrite Tr. split; [apply lifo_snoc; [exact T|]; cbn; rewrite K; intros Y; apply NX in Y; apply existsb_in in Y; congruence|]. rewrite stack_app, K. reflexivity.
      - destruct C as [(-> & _)|(_ & X)]; [|exfalso; apply (f_equal (fun l => length l)) in X; cbn [length] in X; lia]. exists l1, s1. rewrite app_nil_r in Tr. rewrite Tr. auto. }
    destruct Q as (l1' & s1' & I2 & L2 & T2 & K2). destruct (IH s' l1' s1') as (s2 & l2 & s3 & A & B1 & B2 & B3 & B4 & _); try assumption; [intros c Y; apply P; right; exact Y|right; congruence|].
    exists s2, l2, s3. split; [exact A|]. split; [exact B1|]. split; [exact B2|]. split; [exact B3|]. split; [exact B4|discriminate].
  Qed.
  Definition good (s : cst) (st : list hook) : Prop := (exists al, inv s al st) /\ lifo (tr s) /\ stack_of (tr s) = st.

  (** every call keeps the hooks in good order *)
  Lemma exec_ok : forall f s st c, good s st -> exec beh f s c = Diverge \/ exists e s' st', exec beh f s c = Ret (e, s') /\ good s' st' /\
    (match c with Pop _ => (e = OK /\ st <> [] \/ e = ITEM_NOT_FOUND /\ st = [] /\ s' = s) | Push h mem => e = fst (fst (spec st (Push h mem))) /\ st' = snd (fst (spec st (Push h mem))) | All => e = OK /\ st' = [] end).
  Proof.
    induction f as [|f IH]; intros s st c G; [left; reflexivity|]. destruct G as ((al & I) & T & K). destruct c as [h mem|x|]; cbn [exec].
    - right. destruct (push_ok _ _ _ h mem I) as (e & s' & al' & st' & ev & E & SP & Tr & I' & C). exists e, s', st'. split; [exact E|]. rewrite SP. cbn [fst snd]. split; [|auto].
      split; [eauto|]. rewrite Tr. cbn [spec] in SP. destruct (existsb (hook_eqb h) st) eqn:EX; [|destruct mem as [g|]]; injection SP as <- <- <-; try (rewrite app_nil_r; auto).
      split; [apply lifo_snoc; [exact T|]; cbn; rewrite K; intros Y; apply existsb_in in Y; congruence|]. rewrite stack_app, K. reflexivity.
    - rewrite (inv_head _ _ _ I). destruct al as [|a al]; cbn [hdor].
      + right. destruct I as (I1 & I2 & I3). destruct st; [|discriminate I2]. exists ITEM_NOT_FOUND, s, []. split; [reflexivity|]. split; [split; [exists []; split; [exact I1|split; [exact I2|exact I3]]|auto]|right; auto].
      + destruct (inv_cons _ _ _ _ I) as (y & st' & -> & Ey). rewrite Ey. cbn [ub_none bind]. destruct x.
        * assert (T1 : lifo (tr (say s (Ran y)))) by (cbn [say tr]; apply lifo_snoc; [exact T|]; cbn; eauto).
          assert (K1 : stack_of (tr (say s (Ran y))) = [] ++ st') by (cbn [say tr]; rewrite stack_app, K; reflexivity).
          assert (F : (beh y = [] \/ f <> O) \/ f = O /\ beh y <> []) by (destruct (beh y); [auto|]; destruct f; [right; split; [reflexivity|discriminate]|left; right; discriminate]).
          destruct F as [F|(-> & F)].
          -- destruct (handler_ok f a y al st' (beh y) (say s (Ran y)) [] [] (pushes y) F (inv_say _ _ _ _ I) eq_refl T1 K1) as (s' & l1 & s1 & E & I' & L & T' & K' & _). rewrite E. cbn [bind].
             destruct (drop_ok _ _ _ _ _ _ _ I' L) as (s'' & E2 & Tr & I2). rewrite E2. cbn [bind]. right. exists OK, s'', (s1 ++ st'). split; [reflexivity|]. split; [|left; split; [reflexivity|discriminate]]. split; [eauto|]. rewrite Tr. auto.
          -- left. destruct (beh y) as [|c cs] eqn:B; [congruence|]. cbn [fold_left bind exec].
             assert (D : forall cs, fold_left (fun o c => let* s := o in let* (e, s) := exec beh O s c in Ret s) cs Diverge = Diverge) by (induction cs0; [reflexivity|cbn [fold_left bind]; assumption]). cbn [exec] in D. rewrite D. reflexivity.
        * destruct (drop_ok (say s (Dropped y)) [] a al [] y st' I eq_refl) as (s'' & E2 & Tr & I2). rewrite E2. cbn [bind]. right. exists OK, s'', st'. split; [reflexivity|]. split; [|left; split; [reflexivity|discriminate]].
          split; [eauto|]. rewrite Tr. cbn [say tr]. split; [apply lifo_snoc; [exact T|cbn; eauto]|rewrite stack_app, K; reflexivity].
    - destruct (IH s st (Pop true)) as [D|(e & s' & st' & E & G' & C)]; [split; eauto|left; rewrite D; reflexivity|]. rewrite E. cbn [bind]. destruct C as [(-> & _)|(-> & -> & ->)].
      + cbn [is_success]. destruct (IH s' st' All G') as [D|(e & s2 & st2 & E2 & G2 & C2)]; [left; exact D|]. right. exists e, s2, st2. auto.
      + right. exists OK, s, []. split; [reflexivity|]. split; [|auto]. split; [eauto|auto].
  Qed.
  Lemma run_ok f : forall cs s st, good s st -> run beh f s cs = Diverge \/ exists es s' st', run beh f s cs = Ret (es, s') /\ good s' st'.
  Proof.
    induction cs as [|c cs IH]; intros s st G; [right; exists [], s, st; auto|]. cbn [run]. destruct (exec_ok f s st c G) as [D|(e & s' & st' & E & G' & _)]; [left; rewrite D; reflexivity|].
    rewrite E. cbn [bind]. destruct (IH s' st' G') as [D|(es & s2 & st2 & E2 & G2)]; [left; rewrite D; reflexivity|]. rewrite E2. cbn [bind]. right. exists (e :: es), s2, st2. auto.
  Qed.
End Beh.
Lemma good_init : good cinit [].
Proof.
  split; [|split; [exact nil_lifo|reflexivity]]. exists []. unfold inv, cinit, dll. cbn. repeat split; try constructor; try lia; contradiction.
Qed.
Lemma good_listed s st : good s st -> listed s st.
Proof.
  intros ((al & (ND & H1 & H2 & SG) & M & _) & _). exists al. split; [|exact M]. exists (length al). rewrite H1. eapply walk_next_seg; [exact SG|lia].
Qed.
Lemma times_app e a b : times e (a ++ b) = (times e a + times e b)%nat.
Proof. unfold times. apply count_occ_app. Qed.
Lemma times_one e x : times e [x] = if ev_dec x e then 1%nat else 0%nat.
Proof. unfold times. cbn [count_occ]. destruct (ev_dec x e); reflexivity. Qed.
Lemma lifo_prefix t e : lifo (t ++ [e]) -> lifo t.
Proof. intros H t1 x t2 E. apply (H t1 x (t2 ++ [e])). rewrite E, <- app_assoc. reflexivity. Qed.
Lemma lifo_count h t : lifo t -> times (Registered h) t = (times (Ran h) t + times (Dropped h) t + count_occ hook_dec (stack_of t) h)%nat.
Proof.
  induction t as [|e t IH] using rev_ind; intros L; [reflexivity|]. specialize (IH (lifo_prefix _ _ L)). specialize (L t e [] eq_refl).
  rewrite !times_app, stack_app, IH. cbn [fold_left]. rewrite !times_one.
  destruct e as [x|x|x]; cbn [stack_step].
  - cbn [count_occ]. destruct (ev_dec (Registered x) (Registered h)) as [E|E]; destruct (hook_dec x h) as [E'|E']; try congruence;
    (destruct (ev_dec (Registered x) (Ran h)); [congruence|]; destruct (ev_dec (Registered x) (Dropped h)); [congruence|]); lia.
  - destruct L as (r & ->). cbn [List.tl count_occ]. destruct (ev_dec (Dropped x) (Registered h)); [congruence|]. destruct (ev_dec (Dropped x) (Ran h)); [congruence|].
    destruct (ev_dec (Dropped x) (Dropped h)) as [E|E]; destruct (hook_dec x h) as [E'|E']; try congruence; lia.
  - destruct L as (r & ->). cbn [List.tl count_occ]. destruct (ev_dec (Ran x) (Registered h)); [congruence|]. destruct (ev_dec (Ran x) (Dropped h)); [congruence|].
    destruct (ev_dec (Ran x) (Ran h)) as [E|E]; destruct (hook_dec x h) as [E'|E']; try congruence; lia.
Qed.
