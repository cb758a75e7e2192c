(** Invariants of the route table. *)
From Coq Require Import Sorting.Sorted.
From Verif Require Import Base Labels LabelsProofs Addr AddrSpec AddrProofs RouteFlags RouteKey RouteKeySpec RouteKeyProofs RouteTable TableSpec Lookup LookupSpec LookupMatch LookupProofs.
Open Scope Z_scope.

Lemma zeros_ok n k : addr_ok (repeat 0%N n) k <-> n = ((k + 7) / 8)%nat.
Proof.
  unfold addr_ok. rewrite repeat_length. split; [tauto|]. intros; split; [assumption|].
  apply Forall_forall. intros x Hx. apply repeat_spec in Hx. subst. reflexivity.
Qed.
Lemma clamp_ok r : route_ok r -> route_ok (clamp_wildcard_fields r).
Proof.
  intros [R L RM LM]. unfold clamp_wildcard_fields. cbv zeta. split; cbn [r_raddr r_rlen r_laddr r_llen r_flags]; try assumption.
  - destruct (has (r_flags r) RF_RADDR_WILD); [|exact R]. apply zeros_ok. destruct R as [R _]. exact R.
  - destruct (has (r_flags r) RF_LADDR_WILD); [|exact L]. apply zeros_ok. destruct L as [L _]. exact L.
Qed.
Lemma with_flags_ok r f : route_ok r -> has f RF_RADDR_BITMASK = has (r_flags r) RF_RADDR_BITMASK -> has f RF_LADDR_BITMASK = has (r_flags r) RF_LADDR_BITMASK ->
  route_ok (with_flags r f).
Proof. intros [R L RM LM] H1 H2. split; cbn [with_flags r_raddr r_rlen r_laddr r_llen r_flags]; try assumption; [rewrite H1|rewrite H2]; assumption. Qed.
(** The route as stored. *)
Definition stored (r : route) : route := with_flags (clamp_wildcard_fields r) (N.setbit (r_flags r) RF_IN_TABLE).
Lemma stored_ok r : route_ok r -> route_ok (stored r).
Proof. intros H. apply with_flags_ok; [apply clamp_ok; exact H| |]; unfold has; rewrite N.setbit_neq by discriminate; reflexivity. Qed.

(** Properties of the order. *)
Lemma rc_refl a : rcmp a a = 0.
Proof. apply (to_refl _ rcmp_total_order). Qed.
Lemma rc_anti a b : Z.sgn (rcmp a b) = - Z.sgn (rcmp b a).
Proof. apply (to_anti _ rcmp_total_order). Qed.
Lemma rc_trans a b c : rcmp a b <= 0 -> rcmp b c <= 0 -> rcmp a c <= 0.
Proof. apply (to_trans _ rcmp_total_order). Qed.
Lemma rc_lt_le a b c : rcmp a b < 0 -> rcmp b c <= 0 -> rcmp a c < 0.
Proof.
  intros H1 H2. pose proof (rc_trans a b c ltac:(lia) H2). destruct (Z.eq_dec (rcmp a c) 0) as [E|E]; [|lia].
  pose proof (rc_anti a c). pose proof (rc_trans b c a H2 ltac:(lia)). pose proof (rc_anti a b). lia.
Qed.
Lemma rc_le_lt a b c : rcmp a b <= 0 -> rcmp b c < 0 -> rcmp a c < 0.
Proof.
  intros H1 H2. pose proof (rc_trans a b c H1 ltac:(lia)). destruct (Z.eq_dec (rcmp a c) 0) as [E|E]; [|lia].
  pose proof (rc_anti a c). pose proof (rc_trans c a b ltac:(lia) H1). pose proof (rc_anti b c). lia.
Qed.
Lemma rc_family a b : rcmp a b <= 0 -> (r_family a <= r_family b)%N.
Proof.
  unfold rcmp, lexc. destruct (Z.eqb_spec (ncmp (r_family a) (r_family b)) 0) as [E|E].
  - apply ncmp_0 in E. lia.
  - unfold ncmp in *. destruct (N.eqb_spec (r_family a) (r_family b)); [lia|]. destruct (N.ltb_spec (r_family a) (r_family b)); lia.
Qed.

Definition rlt (a b : route) : Prop := rcmp a b < 0.
Definition sorted (l : list route) : Prop := StronglySorted rlt l.

Lemma sorted_nth l : sorted l -> forall i j a b, (i < j)%nat -> nth_error l i = Some a -> nth_error l j = Some b -> rcmp a b < 0.
Proof.
  induction 1 as [|x l S IH F]; intros i j a b Hij Ha Hb; [destruct i; discriminate|].
  destruct j as [|j]; [lia|]. destruct i as [|i].
  - assert (a = x) by (cbn in Ha; congruence). subst a. rewrite Forall_forall in F. apply F. eapply nth_error_In. exact Hb.
  - eapply (IH i j); [lia| |]; assumption.
Qed.
Lemma sorted_family l : sorted l -> family_sorted l.
Proof.
  intros S i j a b Hij Ha Hb. destruct (Nat.eq_dec i j) as [->|]; [assert (a = b) by congruence; subst; lia|].
  apply rc_family. pose proof (sorted_nth l S i j a b ltac:(lia) Ha Hb). lia.
Qed.

Lemma seek_spec l r : sorted l -> Forall route_ok l -> route_ok r ->
  let '(p, c) := seek l r in
  (p <= length l)%nat /\ Forall (fun x => rcmp x r < 0) (firstn p l) /\
  match nth_error l p with
  | None => p = length l /\ c = -1
  | Some x => c = rcmp x r /\ 0 <= c
  end.
Proof.
  intros S OK Hr. induction S as [|x l S IH F]; cbn [seek]; [cbn; repeat split; try constructor|].
  inversion OK as [|? ? Hx Hl]; subst. rewrite route_key_cmp_eq by assumption.
  destruct (Z.geb_spec (rcmp x r) 0) as [G|G].
  - cbn. repeat split; [lia|constructor|lia].
  - specialize (IH Hl). destruct (seek l r) as [i c]. destruct IH as (I1 & I2 & I3). cbn [length firstn nth_error]. split; [lia|]. split; [constructor; assumption|].
    destruct (nth_error l i); [exact I3|]. destruct I3 as [I3 I4]. split; [lia|exact I4].
Qed.

Lemma sorted_app l1 l2 : sorted l1 -> sorted l2 -> (forall a b, In a l1 -> In b l2 -> rlt a b) -> sorted (l1 ++ l2).
Proof.
  intros S1 S2 H. induction S1 as [|x l1 S1 IH F]; [exact S2|]. cbn. constructor.
  - apply IH. intros a b Ha Hb. apply H; [right; exact Ha|exact Hb].
  - apply Forall_app. split; [exact F|]. apply Forall_forall. intros b Hb. apply H; [left; reflexivity|exact Hb].
Qed.
Lemma sorted_split l1 l2 : sorted (l1 ++ l2) -> sorted l1 /\ sorted l2 /\ (forall a b, In a l1 -> In b l2 -> rlt a b).
Proof.
  intros S. induction l1 as [|x l1 IH]; [repeat split; [constructor|exact S|contradiction]|].
  cbn in S. inversion S as [|? ? S' F]; subst. destruct (IH S') as (A & B & C). apply Forall_app in F. destruct F as [F1 F2].
  repeat split; [constructor; assumption|assumption|]. intros a b [->|Ha] Hb; [|apply C; assumption].
  rewrite Forall_forall in F2. apply F2. exact Hb.
Qed.
Lemma sorted_insert l r p c : sorted l -> Forall route_ok l -> route_ok r -> seek l r = (p, c) -> c <> 0 ->
  sorted (firstn p l ++ r :: skipn p l).
Proof.
  intros S OK Hr E NZ. pose proof (seek_spec l r S OK Hr) as SP. rewrite E in SP. destruct SP as (P1 & P2 & P3).
  rewrite <- (firstn_skipn p l) in S. apply sorted_split in S. destruct S as (S1 & S2 & S3). rewrite Forall_forall in P2.
  assert (AFT : forall b, In b (skipn p l) -> rlt r b).
  { destruct (nth_error l p) as [x|] eqn:EX.
    - destruct P3 as [-> P3]. apply nth_error_split in EX. destruct EX as (l1 & l2 & -> & <-).
      rewrite skipn_app, skipn_all, Nat.sub_diag in *. cbn [app skipn] in *. inversion S2 as [|? ? S2' F2]; subst.
      assert (RX : rlt r x) by (unfold rlt; pose proof (rc_anti r x); lia).
      intros b [<-|Hb]; [exact RX|]. rewrite Forall_forall in F2. specialize (F2 b Hb). unfold rlt in *. eapply rc_lt_le; [exact RX|lia].
    - destruct P3 as [-> _]. rewrite skipn_all. contradiction. }
  apply sorted_app; [exact S1| |].
  - constructor; [exact S2|]. apply Forall_forall. exact AFT.
  - intros a b Ha [<-|Hb]; [apply P2; exact Ha|]. apply S3; assumption.
Qed.
Lemma sorted_delete l p : sorted l -> sorted (firstn p l ++ skipn (S p) l).
Proof.
  intros S. assert (SS := S). rewrite <- (firstn_skipn p l) in S. apply sorted_split in S. destruct S as (S1 & S2 & S3).
  assert (INC : forall x, In x (skipn (Datatypes.S p) l) -> In x (skipn p l)).
  { clear. revert l. induction p as [|p IH]; intros l x; [destruct l; cbn; auto|]. destruct l as [|y l]; [auto|]. apply IH. }
  apply sorted_app; [exact S1| |intros a b Ha Hb; apply S3; [exact Ha|apply INC; exact Hb]].
  rewrite <- (firstn_skipn (Datatypes.S p) l) in SS. apply sorted_split in SS. tauto.
Qed.

(** Highest priority: a lower bound of all priorities. *)
Definition highest_ok (t : rtable) : Prop := forall x, In x (t_routes t) -> (t_highest t <= eff_prio (r_event x))%N.
Lemma rescan_spec l : forall old new, (forall x, In x l -> (old <= eff_prio (r_event x))%N) ->
  (old <= rescan l old new \/ rescan l old new = new)%N /\ (rescan l old new <= new)%N /\ (forall x, In x l -> (rescan l old new <= eff_prio (r_event x))%N).
Proof.
  induction l as [|r l IH]; intros old new H; cbn [rescan]; [split; [right; reflexivity|split; [lia|contradiction]]|].
  cbv zeta. pose proof (H r (or_introl eq_refl)) as Hr. assert (Hl : forall x, In x l -> (old <= eff_prio (r_event x))%N) by (intros x Hx; apply H; right; exact Hx).
  destruct (N.ltb_spec (eff_prio (r_event r)) new) as [L|L].
  - destruct (N.leb_spec (eff_prio (r_event r)) old) as [L2|L2].
    + split; [left; exact Hr|]. split; [lia|]. intros x [<-|Hx]; [lia|]. specialize (Hl x Hx). lia.
    + destruct (IH old (eff_prio (r_event r)) Hl) as (A & B & C). split; [lia|]. split; [lia|]. intros x [<-|Hx]; [exact B|apply C; exact Hx].
  - destruct (IH old new Hl) as (A & B & C). split; [exact A|]. split; [exact B|]. intros x [<-|Hx]; [lia|apply C; exact Hx].
Qed.

Definition rop_ok (o : rop) : Prop := match o with RInsert r _ => route_ok r | RDelete r => route_ok r | RClone => True end.
Record rt_inv (t : rtable) : Prop := {
  ri_sorted : sorted (t_routes t);
  ri_ok : Forall route_ok (t_routes t);
  ri_highest : highest_ok t }.

Lemma inv_init : rt_inv t_init.
Proof. split; [constructor|constructor|intros x []]. Qed.
Lemma inv_delete_at t p : rt_inv t -> rt_inv (rt_delete_at t p).
Proof.
  intros [S OK HI]. unfold rt_delete_at. destruct (nth_error (t_routes t) p) as [r|] eqn:E; [|split; assumption]. cbv zeta.
  assert (IN : forall x, In x (firstn p (t_routes t) ++ skipn (Datatypes.S p) (t_routes t)) -> In x (t_routes t)).
  { intros x Hx. apply in_app_or in Hx. destruct Hx as [Hx|Hx].
    - rewrite <- (firstn_skipn p). apply in_or_app. left. exact Hx.
    - rewrite <- (firstn_skipn (Datatypes.S p)). apply in_or_app. right. exact Hx. }
  split; cbn [t_routes t_highest].
  - apply sorted_delete. exact S.
  - rewrite Forall_forall in *. auto.
  - intros x Hx. cbn [t_routes t_highest] in *. destruct (eff_prio (r_event r) =? t_highest t)%N; [|apply HI, IN; exact Hx].
    apply rescan_spec; [intros y Hy; apply HI, IN; exact Hy|exact Hx].
Qed.
Lemma insert_cases t r ok : 
  let '(e, t') := rt_insert t r ok in
  (t' = t) \/
  exists p c bm last, seek (t_routes t) (stored r) = (p, c) /\ c <> 0 /\
    bm = (if has_bitmask (stored r) then snd (bm_upref (t_bm t) (r_family (stored r))) else t_bm t) /\
    (has_bitmask (stored r) = true -> is_success (fst (bm_upref (t_bm t) (r_family (stored r)))) = true) /\
    flags_sensical (r_flags r) = true /\
    (ok = true /\ e = OK /\ t' = mkT (firstn p (t_routes t) ++ stored r :: skipn p (t_routes t)) last (N.min (eff_prio (r_event (stored r))) (t_highest t)) bm \/
     ok = false /\ t' = mkT (t_routes t) (ptr_shift_delete p last) (N.min (eff_prio (r_event (stored r))) (t_highest t)) bm) /\
    last = (let last0 := ptr_shift_insert p (t_last_af t) in
            if has (r_flags (stored r)) RF_FAMILY_WILD then
              match last0 with
              | PNull => PAt p
              | PAt i => match nth_error (firstn p (t_routes t) ++ stored r :: skipn p (t_routes t)) i with
                         | Some x => if (route_key_cmp (stored r) x <? 0) then PAt p else last0
                         | None => last0
                         end
              | PDangling => PDangling
              end
            else last0).
Proof.
  unfold rt_insert. fold (stored r). destruct (flags_sensical (r_flags r)) eqn:FS; cbn [negb]; [|left; reflexivity].
  destruct (has (r_flags r) RF_IN_TABLE); [left; reflexivity|]. cbv zeta.
  destruct (seek (t_routes t) (stored r)) as [p c] eqn:ES. destruct (Z.eqb_spec c 0) as [C|C]; [left; reflexivity|].
  destruct (has_bitmask (stored r)) eqn:HB.
  - destruct (bm_upref (t_bm t) (r_family (stored r))) as [e bm] eqn:EB. destruct (is_success e) eqn:IS; cbn [negb]; [|left; reflexivity].
    destruct ok; right; do 4 eexists; (split; [reflexivity|]); (split; [exact C|]); (split; [cbn [snd]; reflexivity|]); (split; [auto|]); (split; [reflexivity|]).
    + split; [left; split; [reflexivity|split; reflexivity]|reflexivity].
    + split; [right; split; [reflexivity|reflexivity]|reflexivity].
  - change (is_success OK) with true. cbn [negb].
    destruct ok; right; do 4 eexists; (split; [reflexivity|]); (split; [exact C|]); (split; [reflexivity|]); (split; [discriminate|]); (split; [reflexivity|]).
    + split; [left; split; [reflexivity|split; reflexivity]|reflexivity].
    + split; [right; split; [reflexivity|reflexivity]|reflexivity].
Qed.

Lemma in_insert {A} (l : list A) p x y : In y (firstn p l ++ x :: skipn p l) <-> y = x \/ In y l.
Proof.
  rewrite in_app_iff. cbn [In]. rewrite <- (firstn_skipn p l) at 3. rewrite in_app_iff. intuition auto.
Qed.

Lemma inv_step t o : rt_inv t -> rop_ok o -> rt_inv (snd (rt_step t o)).
Proof.
  intros HI HO. destruct o as [r ok|r|]; cbn [rt_step].
  - pose proof (insert_cases t r ok) as IC. destruct (rt_insert t r ok) as [e t']. cbn [snd].
    destruct IC as [->|(p & c & bm & last & ES & C & _ & _ & _ & ET & _)]; [exact HI|].
    destruct HI as [S F H]. pose proof (stored_ok r HO) as SO.
    destruct ET as [(_ & _ & ->)|(_ & ->)].
    + split; cbn [t_routes t_highest].
      * eapply sorted_insert; eassumption.
      * apply Forall_forall. intros y Hy. apply in_insert in Hy. destruct Hy as [->|Hy]; [exact SO|]. rewrite Forall_forall in F. auto.
      * intros y Hy. cbn [t_routes t_highest] in *. apply in_insert in Hy. destruct Hy as [->|Hy]; [lia|]. specialize (H y Hy). lia.
    + split; cbn [t_routes t_highest]; [assumption|assumption|]. intros y Hy. cbn [t_routes t_highest] in *. specialize (H y Hy). lia.
  - unfold rt_delete. destruct (seek _ _) as [p c]. destruct (c =? 0); cbn [snd]; [|exact HI]. apply inv_delete_at. exact HI.
  - destruct HI as [S F H]. split; assumption.
Qed.
Lemma inv_run ops : forall t, rt_inv t -> Forall rop_ok ops -> rt_inv (snd (rt_run t ops)).
Proof.
  induction ops as [|o ops IH]; intros t HI HO; [exact HI|]. inversion HO; subst. cbn [rt_run].
  pose proof (inv_step t o HI ltac:(assumption)) as HS. destruct (rt_step t o) as [e t1]. cbn [snd] in HS.
  specialize (IH t1 HS ltac:(assumption)). destruct (rt_run t1 ops) as [es t2]. exact IH.
Qed.
