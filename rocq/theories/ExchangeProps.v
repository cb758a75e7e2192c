(** C37: exchanging two contexts. *)
From Verif Require Import Base Addr AddrSpec RouteFlags RouteKey RouteKeySpec RouteTable TableSpec RouteTableProofs LookupFacts LookupProps Exchange ExchangeProofs.
From Coq Require Import Sorted.
Open Scope Z_scope.

(** The contents that change hands, the routes apart. *)
Definition contents {H C A L} (c : ctx H C A L) := (c_cb_state c, c_config c, c_config0 c, c_events c, c_actions c, c_values c, c_fams_bynumber c, c_fams_byname c, c_by_id c).
(** What stays with the context: platform interface, ID callback, lock and cleanup hooks. *)
Definition fixed {H C A L} (c : ctx H C A L) := (c_hpi c, c_cb c, c_lock c, c_hooks c).

(** An exchange that succeeds swaps the contents; the second context gets the routes of the first as they are. Lock, hooks, platform
    interface and callback stay, and the locks are held as often as before. *)
Theorem C37_exchange_swaps : forall (H C A L : Type) same_hpi same_cb l1 l2 (c1 c2 : ctx H C A L) e c1' c2',
  exchange same_hpi same_cb l1 l2 c1 c2 = (e, c1', c2') ->
  fixed c1' = fixed c1 /\ fixed c2' = fixed c2 /\
  ((e = OK /\ contents c1' = contents c2 /\ contents c2' = contents c1 /\ c_routes c2' = c_routes c1 /\
    map x_id (c_routes c1') = map x_id (c_routes c2)) \/
   (is_success e = false /\ c1' = c1 /\ c2' = c2)).
Proof.
  intros H C A L sh sc l1 l2 c1 c2 e c1' c2'. unfold exchange. destruct (_ || _). { intros E. injection E as <- <- <-. split; [reflexivity|]. split; [reflexivity|]. right. repeat split; (reflexivity || assumption). }
  destruct (is_success l1) eqn:E1; cbn [negb]. 2:{ intros E. injection E as <- <- <-. split; [reflexivity|]. split; [reflexivity|]. right. repeat split; (reflexivity || assumption). }
  destruct (is_success l2) eqn:E2; cbn [negb].
  - intros E. injection E as <- <- <-. unfold fixed, contents. cbn [set_lock take set_routes c_hpi c_cb c_lock c_hooks c_cb_state c_config c_config0 c_events c_actions c_values c_fams_bynumber c_fams_byname c_by_id c_routes]. rewrite !N.add_sub. split; [reflexivity|]. split; [reflexivity|]. left. repeat split. apply walk_hits.
  - intros E. injection E as <- <- <-. assert (X : set_lock (set_lock c1 (c_lock c1 + 1)) (c_lock c1 + 1 - 1) = c1) by (rewrite N.add_sub; destruct c1; reflexivity).
    cbn [set_lock c_lock] in *. rewrite X. split; [reflexivity|]. split; [reflexivity|]. right. repeat split; (reflexivity || assumption).
Qed.
Print Assumptions C37_exchange_swaps.

(** A table as the code keeps it: sorted by key, well-formed routes, distinct IDs (C01, C04, C07). *)
Definition table_ok (l : list xroute) : Prop :=
  StronglySorted (fun a b => route_key_cmp (x_route a) (x_route b) < 0) l /\ Forall (fun x => route_ok (x_route x)) l /\ NoDup (map x_id l).
(** The IDs of the two tables do not clash: one ID, one key. *)
Definition ids_agree (a b : list xroute) : Prop := forall x y, In x a -> In y b -> x_id x = x_id y -> same_key (x_route x) (x_route y).

(** Partial: when no ID stands for different keys in the two tables, a route present in both carries over flags, connection
    counts and times, in its new table; every other route is as it was. Missing: clashing IDs, and the hit count (below). *)
Theorem C37_metadata_carried_over_partial : forall (H C A L : Type) same_hpi same_cb l1 l2 (c1 c2 c1' c2' : ctx H C A L),
  exchange same_hpi same_cb l1 l2 c1 c2 = (OK, c1', c2') ->
  table_ok (c_routes c1) -> table_ok (c_routes c2) -> ids_agree (c_routes c1) (c_routes c2) ->
  Forall2 (fun t t' => x_id t' = x_id t /\ same_key (x_route t') (x_route t) /\
     match find (fun f => (x_id f =? x_id t)%N) (c_routes c1) with
     | Some f => x_meta t' = x_meta f /\ r_flags (x_route t') = r_flags (x_route f)
     | None => t' = t
     end) (c_routes c2) (c_routes c1').
Proof.
  intros H C A L sh sc l1 l2 c1 c2 c1' c2' E (S1 & O1 & N1) (S2 & O2 & N2) IA. unfold exchange in E. destruct (_ || _); [discriminate|].
  destruct (is_success l1) eqn:Q1; cbn [negb] in E; [|injection E as -> <- <-; discriminate]. destruct (is_success l2) eqn:Q2; cbn [negb] in E; [|injection E as -> <- <-; discriminate].
  injection E as <- <-. cbn. rewrite (copy_spec _ _ O1 O2 S1 S2 N2 IA).
  assert (X : forall l, incl l (c_routes c2) -> Forall2 (fun t t' => x_id t' = x_id t /\ same_key (x_route t') (x_route t) /\
     match find (fun f => (x_id f =? x_id t)%N) (c_routes c1) with Some f => x_meta t' = x_meta f /\ r_flags (x_route t') = r_flags (x_route f) | None => t' = t end) l (map (carried (c_routes c1)) l));
    [|apply X, incl_refl].
  induction l as [|t l IH]; intros HI; [constructor|]. cbn [map]. constructor; [|apply IH; intros z Hz; apply HI; right; exact Hz].
  destruct (carried_key _ _ IA t (HI t (or_introl eq_refl))) as [K1 K2]. split; [exact K2|]. split; [exact K1|].
  unfold carried. destruct (find _ (c_routes c1)); [split; reflexivity|reflexivity].
Qed.

(** Partial: exchanging twice gives the first context back exactly, and the second with the carried meta data. *)
Theorem C37_exchange_twice_partial : forall (H C A L : Type) same_hpi same_cb (c1 c2 c1' c2' c1'' c2'' : ctx H C A L),
  table_ok (c_routes c1) -> table_ok (c_routes c2) -> ids_agree (c_routes c1) (c_routes c2) ->
  exchange same_hpi same_cb OK OK c1 c2 = (OK, c1', c2') -> exchange same_hpi same_cb OK OK c1' c2' = (OK, c1'', c2'') ->
  c1'' = c1 /\ contents c2'' = contents c2 /\ fixed c2'' = fixed c2 /\ c_routes c2'' = c_routes c1' /\ map x_id (c_routes c2'') = map x_id (c_routes c2).
Proof.
  intros H C A L sh sc c1 c2 c1' c2' c1'' c2'' (S1 & O1 & N1) (S2 & O2 & N2) IA E1 E2.
  pose proof (C37_exchange_swaps _ _ _ _ _ _ _ _ _ _ _ _ _ E1) as (F1 & F2 & [(_ & X1 & X2 & X3 & X4)|(X & _)]); [|discriminate].
  pose proof (C37_exchange_swaps _ _ _ _ _ _ _ _ _ _ _ _ _ E2) as (F3 & F4 & [(_ & Y1 & Y2 & Y3 & Y4)|(X & _)]); [|discriminate].
  assert (R1 : c_routes c1' = map (carried (c_routes c1)) (c_routes c2)).
  { unfold exchange in E1. destruct (_ || _); [discriminate|]. injection E1 as <- <-. cbn. apply copy_spec; assumption. }
  assert (R2 : c_routes c1'' = c_routes c1).
  { unfold exchange in E2. destruct (_ || _); [discriminate|]. injection E2 as <- <-. cbn. rewrite X3, R1.
    rewrite copy_spec; try assumption.
    - apply carried_back; assumption.
    - apply carried_ok; assumption.
    - apply carried_sorted; assumption.
    - intros f t Hf Ht E. apply in_map_iff in Hf. destruct Hf as (y & <- & Hy). destruct (carried_key _ _ IA y Hy) as [K1 K2]. rewrite K2 in E.
      apply RouteKeyProofs.rcmp_0. apply RouteKeyProofs.rcmp_0 in K1. pose proof (proj2 (RouteKeyProofs.rcmp_0 _ _) (IA t y Ht Hy (eq_sym E))) as K3.
      pose proof (rc_anti (x_route t) (x_route y)). pose proof (rc_trans _ _ _ ltac:(rewrite K1; reflexivity) (ltac:(lia) : RouteKeyProofs.rcmp (x_route y) (x_route t) <= 0)).
      pose proof (rc_anti (x_route (carried (c_routes c1) y)) (x_route y)). pose proof (rc_trans (x_route t) (x_route y) (x_route (carried (c_routes c1) y)) ltac:(lia) ltac:(lia)).
      pose proof (rc_anti (x_route (carried (c_routes c1) y)) (x_route t)). lia. }
  split.
  - rewrite X2 in Y1. rewrite F1 in F3. unfold contents, fixed in *. destruct c1, c1''. cbn in *. congruence.
  - split; [congruence|]. split; [congruence|]. split; [exact Y3|]. rewrite Y3. exact X4.
Qed.
Print Assumptions C37_metadata_carried_over_partial.
Print Assumptions C37_exchange_twice_partial.

(** Concrete contexts: a route with ID 1 in both (one a clone of the other), then one route added to each. *)
Definition meta0 : rmeta := mkMeta 1 2 0 0 0 0 0.
Definition xctx (rs : list xroute) : ctx N N N N := mkC 7%N 0%N 0%N 2%N 1%N 1%N 1%N 1%N rs 1%N 1%N 1%N 1%N 5%N.
Definition xr (id hits : N) (r : route) (conn : N) : xroute := mkX id hits r (mkMeta 1 2 0 0 conn 0 0).
Definition shared : route := tcp [10; 0; 0; 1]%N 80 fIN.
Definition added_old : route := tcp [10; 0; 0; 2]%N 80 (fIN + 2)%N.      (* 2: wildcard remote address *)
Definition added_new : route := tcp [9; 0; 0; 3]%N 80 fIN.

(** In general false: contexts that come from one another by cloning hand out the same IDs to different routes afterwards. The exchange
    then gives the new route the flags and connection counts of an unrelated one - here its remote address becomes a wildcard. *)
Theorem C37_metadata_unrelated_refuted : exists (c1 c2 c1' c2' : ctx N N N N) t t',
  table_ok (c_routes c1) /\ table_ok (c_routes c2) /\
  exchange N.eqb N.eqb OK OK c1 c2 = (OK, c1', c2') /\
  In t (c_routes c2) /\ In t' (c_routes c1') /\ x_id t' = x_id t /\
  (forall f, In f (c_routes c1) -> ~ same_key (x_route f) (x_route t)) /\
  has (r_flags (x_route t)) RF_RADDR_WILD = false /\ has (r_flags (x_route t')) RF_RADDR_WILD = true /\ m_conn (x_meta t) = 0%N /\ m_conn (x_meta t') = 3%N.
Proof.
  exists (xctx [xr 2 0 (stored added_old) 3; xr 1 0 shared 0]), (xctx [xr 2 0 added_new 0; xr 1 0 shared 0]). eexists. eexists. exists (xr 2 0 added_new 0). eexists.
  assert (OKr : forall r, (r = shared \/ r = added_new) -> route_ok r) by (intros r [->| ->]; apply mk_ok; bytes).
  assert (OK2 : route_ok (stored added_old)) by (apply stored_ok; apply mk_ok; bytes).
  split; [split; [repeat constructor; vm_compute; reflexivity|split; [repeat constructor; auto|repeat constructor; cbn; intuition discriminate]]|].
  split; [split; [repeat constructor; vm_compute; reflexivity|split; [repeat constructor; auto|repeat constructor; cbn; intuition discriminate]]|].
  split; [vm_compute; reflexivity|]. split; [left; reflexivity|]. split; [left; reflexivity|]. split; [reflexivity|].
  split; [|repeat split].
  intros f [<-|[<-|[]]] (_ & _ & X & _); cbn in X; discriminate.
Qed.
Print Assumptions C37_metadata_unrelated_refuted.
(** Hit counts are never carried over: whatever the first context's routes had, those of the second stay. *)
Theorem C37_hit_counts_refuted : forall (H C A L : Type) same_hpi same_cb l1 l2 (c1 c2 c1' c2' : ctx H C A L),
  exchange same_hpi same_cb l1 l2 c1 c2 = (OK, c1', c2') -> map x_hits (c_routes c1') = map x_hits (c_routes c2).
Proof.
  intros H C A L sh sc l1 l2 c1 c2 c1' c2' E. unfold exchange in E. destruct (_ || _); [discriminate|].
  destruct (is_success l1) eqn:Q1; cbn [negb] in E; [|injection E as -> <- <-; discriminate]. destruct (is_success l2) eqn:Q2; cbn [negb] in E; [|injection E as -> <- <-; discriminate].
  injection E as <- <-. cbn. apply walk_hits.
Qed.
Print Assumptions C37_hit_counts_refuted.
Example C37_hits_lost : exists c1' c2', exchange N.eqb N.eqb OK OK (xctx [xr 1 100 shared 2]) (xctx [xr 9 0 added_new 0; xr 1 0 shared 0]) = (OK, c1', c2') /\
  map x_hits (c_routes c1') = [0; 0]%N /\ map (fun x => m_conn (x_meta x)) (c_routes c1') = [0; 2]%N.
Proof. eexists. eexists. split; [vm_compute; reflexivity|]. split; reflexivity. Qed.
Example C37_example : table_ok (c_routes (xctx [xr 1 100 shared 2])) /\ table_ok (c_routes (xctx [xr 9 0 added_new 0; xr 1 0 shared 0])) /\
  ids_agree [xr 1 100 shared 2] [xr 9 0 added_new 0; xr 1 0 shared 0].
Proof.
  assert (OKr : forall r, (r = shared \/ r = added_new) -> route_ok r) by (intros r [->| ->]; apply mk_ok; bytes).
  split; [split; [repeat constructor|split; [repeat constructor; auto|repeat constructor; cbn; intuition discriminate]]|].
  split; [split; [repeat constructor; vm_compute; reflexivity|split; [repeat constructor; auto|repeat constructor; cbn; intuition discriminate]]|].
  intros x y [<-|[]] [<-|[<-|[]]]; cbn; intros E; [discriminate|apply same_key_refl].
Qed.
