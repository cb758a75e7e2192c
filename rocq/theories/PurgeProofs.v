(** Route life cycle: proofs. *)
From Verif Require Import Base Links LinksProofs LLProofs Table TableSpec TableProofs Keyed Purge PurgeSpec.
From Coq Require Import Sorted.
Open Scope Z_scope.

Lemma kcmp_TO : total_order kcmp.
Proof. split; unfold kcmp; intros; [lia| |lia]. replace (Z.of_N b - Z.of_N a) with (- (Z.of_N a - Z.of_N b)) by lia. rewrite Z.sgn_opp. lia. Qed.
Lemma kcmp_EQ a b : kcmp a b = 0 <-> a = b.
Proof. unfold kcmp. lia. Qed.

Definition pt (s : pst) (a : addr) : Z := match ob s a with Some r => r_purge r | None => 0 end.
Definition srt (s : pst) (l : list addr) : Prop := StronglySorted (fun a b => pt s b <= pt s a) l.

(** ** The purge list *)
Lemma pl_seek_ok s t : forall l p fuel, seg (lk s) p l None -> (forall a, In a l -> ob s a <> None) -> (length l <= fuel)%nat ->
  exists l1 l2, l = l1 ++ l2 /\ pl_seek fuel s t (hdor l None) = Ret (hdor l2 None)
    /\ (forall a, In a l1 -> t <= pt s a) /\ match l2 with [] => True | b :: _ => pt s b < t end.
Proof.
  induction l as [|a l IH]; intros p fuel SG OB LE; cbn [seg hdor length] in *.
  - exists [], []. split; [reflexivity|]. split; [destruct fuel; reflexivity|]. split; [intros x []|exact I].
  - destruct SG as [LA SG]. destruct fuel as [|fuel]; [lia|]. cbn [pl_seek]. unfold deref.
    destruct (ob s a) as [r|] eqn:OA; [|exfalso; apply (OB a); [left; reflexivity|exact OA]]. cbn [ub_none bind].
    destruct (Z.ltb_spec (r_purge r) t) as [L|L].
    + exists [], (a :: l). split; [reflexivity|]. split; [reflexivity|]. split; [intros x []|]. unfold pt. rewrite OA. exact L.
    + unfold get_nxt. rewrite LA. cbn [option_map nxt ub_none bind].
      destruct (IH (Some a) fuel SG) as (l1 & l2 & -> & E & F1 & F2); [intros x I; apply OB; right; exact I|lia|].
      exists (a :: l1), l2. split; [reflexivity|]. split; [exact E|]. split; [|exact F2].
      intros x [<- |I]; [|auto]. unfold pt. rewrite OA. exact L.
Qed.

Record links (s : pst) (l : list addr) : Prop := {
  l_dll : dll (lk s) (hd s) l;
  l_len : len s = Z.of_nat (length l);
  l_dom : forall a, lk s a = None <-> ob s a = None;
  l_brk : forall a, (brk s <= a)%positive -> ob s a = None }.

Lemma links_alive s l a : links s l -> In a l -> ob s a <> None.
Proof. intros L I X. apply (l_dom _ _ L) in X. destruct (l_dll _ _ L) as (_ & _ & _ & SG). exact (seg_alloc _ _ _ _ _ SG I X). Qed.
Lemma links_len s l : links s l -> (length l < fuel_of s)%nat.
Proof.
  intros L. unfold fuel_of. apply nodup_bounded; [exact (proj1 (l_dll _ _ L))|]. intros a I.
  destruct (Pos.ltb_spec a (brk s)) as [H|H]; [exact H|]. exfalso. apply (links_alive _ _ _ L I). apply (l_brk _ _ L). exact H.
Qed.

(** where a route with purge time t goes *)
Definition at_place (s : pst) (t : Z) (l1 l2 : list addr) : Prop :=
  (forall a, In a l1 -> t <= pt s a) /\ match l2 with [] => True | b :: _ => pt s b < t end.

Lemma pl_insert_ok s l a r : links s l -> ~ In a l -> ob s a = Some r ->
  ((exists le, lk s a = Some le /\ prv le = None) \/ match l with [] => True | b :: _ => r_purge r <= pt s b end) ->
  exists s' l1 l2, pl_insert s a = Ret s' /\ l = l1 ++ l2 /\ at_place s (r_purge r) l1 l2 /\ links s' (l1 ++ a :: l2)
    /\ s' = set_list s (lk s') (hd s') (len s').
Proof.
  intros L NI OA C. pose proof (links_len _ _ L) as LEN. destruct (l_dll _ _ L) as (ND & HD & TL & SG).
  destruct (pl_seek_ok s (r_purge r) l None (fuel_of s) SG (fun x => links_alive _ _ x L) ltac:(lia)) as (l1 & l2 & El & E & F1 & F2).
  assert (LA : exists le, lk s a = Some le). { destruct (lk s a) eqn:X; [eauto|]. apply (l_dom _ _ L) in X. congruence. }
  destruct LA as [le LA].
  destruct (ll_insert_before_spec (lk s) (hd s) l1 l2 a le) as (h & hdr & I & D & _ & DM).
  { rewrite <- El. exact (l_dll _ _ L). } { rewrite <- El. exact NI. } { exact LA. }
  { destruct l2 as [|b l2]; [left; reflexivity|right]. destruct l1 as [|c l1]; [right|left; discriminate]. destruct C as [(le' & X & Y)|C]; [congruence|].
    rewrite El in C. cbn in C. cbn in F2. lia. }
  exists (set_list s h hdr (len s + 1)), l1, l2. unfold pl_insert, deref. rewrite OA. cbn [ub_none bind]. rewrite HD, E. cbn [bind]. rewrite I. cbn [ub_none bind].
  split; [reflexivity|]. split; [exact El|]. split; [split; assumption|]. split; [|reflexivity].
  constructor; cbn; [exact D| |intros x; rewrite DM; apply (l_dom _ _ L)|apply (l_brk _ _ L)].
  rewrite (l_len _ _ L), El, !app_length. cbn. lia.
Qed.

Lemma pl_delete_ok s l1 a l2 : links s (l1 ++ a :: l2) ->
  exists s', pl_delete s a = Ret s' /\ links s' (l1 ++ l2) /\ s' = set_list s (lk s') (hd s') (len s') /\ lk s' a = lk s a
    /\ (forall x, ~ In x (l1 ++ l2) -> lk s' x = lk s x).
Proof.
  intros L. destruct (ll_delete_spec (lk s) (hd s) l1 l2 a (l_dll _ _ L)) as (h & hdr & E & D & FR & DM).
  exists (set_list s h hdr (len s - 1)). unfold pl_delete. rewrite E. cbn [ub_none bind]. split; [reflexivity|]. split; [|split; [reflexivity|split; [|exact FR]]].
  - constructor; cbn; [exact D| |intros x; rewrite DM; apply (l_dom _ _ L)|apply (l_brk _ _ L)]. rewrite (l_len _ _ L), !app_length. cbn. lia.
  - cbn. apply FR. destruct (NoDup_mid _ _ _ (proj1 (l_dll _ _ L))) as (_ & A & B). rewrite in_app_iff. tauto.
Qed.

(** writing an existing object does not disturb the list *)
Lemma links_obj s l a r r' : links s l -> ob s a = Some r -> links (set_obj s a (Some r')) l.
Proof.
  intros L OA. constructor; cbn; [exact (l_dll _ _ L)|exact (l_len _ _ L)| |].
  - intros x. unfold upd. destruct (Pos.eqb_spec x a) as [->|NE]; [|apply (l_dom _ _ L)]. rewrite (l_dom _ _ L a), OA. split; discriminate.
  - intros x LE. rewrite upd_neq; [apply (l_brk _ _ L); exact LE|]. intros ->. rewrite (l_brk _ _ L a LE) in OA. discriminate.
Qed.
Lemma links_say s l h : links s l -> links (say s h) l.
Proof. intros []. constructor; assumption. Qed.
Lemma links_tb s l t : links s l -> links (set_tb s t) l.
Proof. intros []. constructor; assumption. Qed.

Lemma split_in (a : addr) l : In a l -> exists l1 l2, l = l1 ++ a :: l2.
Proof. apply in_split. Qed.

(** ** The table and the references *)
Record core (s : pst) (held : addr -> N) : Prop := {
  c_sorted : ksorted rkey kcmp (tb s);
  c_tb : forall k a, In (k, a) (tb s) <-> exists r, ob s a = Some r /\ r_in r = true /\ r_key r = k;
  c_brk : forall a, (brk s <= a)%positive -> ob s a = None;
  c_refs : forall a r, ob s a = Some r -> r_refs r = ((if r_in r then 1 else 0) + held a)%N;
  c_alive : forall a r, ob s a = Some r -> r_refs r <> 0%N;
  c_held : forall a, held a <> 0%N -> ob s a <> None }.

Definition listed (s : pst) (a : addr) : Prop := exists r, ob s a = Some r /\ r_in r = true /\ r_purge r <> 0.
Record inv (s : pst) (held : addr -> N) (l : list addr) : Prop := {
  i_core : core s held; i_links : links s l; i_listed : forall a, In a l <-> listed s a }.

Lemma core_list s held h hdr n : core s held -> core (set_list s h hdr n) held.
Proof. intros []. constructor; assumption. Qed.
Lemma core_say s held h : core s held -> core (say s h) held.
Proof. intros []. constructor; assumption. Qed.
Lemma core_obj s held a r r' : core s held -> ob s a = Some r -> r_in r' = r_in r -> r_key r' = r_key r -> r_refs r' = r_refs r ->
  core (set_obj s a (Some r')) held.
Proof.
  intros C OA EI EK ER. constructor; cbn.
  - exact (c_sorted _ _ C).
  - intros k x. rewrite (c_tb _ _ C). unfold upd. destruct (Pos.eqb_spec x a) as [->|NE]; [|reflexivity]. rewrite OA.
    split; intros (y & A & B & D); injection A as <-; eexists; (split; [reflexivity|]); (split; [congruence|rewrite <- D; congruence]).
  - intros x LE. rewrite upd_neq; [apply (c_brk _ _ C); exact LE|]. intros ->. rewrite (c_brk _ _ C a LE) in OA. discriminate.
  - intros x y. unfold upd. destruct (Pos.eqb_spec x a) as [->|NE]; [|apply (c_refs _ _ C)]. intros X. injection X as <-. rewrite ER, EI. apply (c_refs _ _ C). exact OA.
  - intros x y. unfold upd. destruct (Pos.eqb_spec x a) as [->|NE]; [|apply (c_alive _ _ C)]. intros X. injection X as <-. rewrite ER. apply (c_alive _ _ C a). exact OA.
  - intros x H. unfold upd. destruct (Pos.eqb_spec x a) as [->|NE]; [discriminate|apply (c_held _ _ C); exact H].
Qed.
Lemma core_in s held a r : core s held -> ob s a = Some r -> r_in r = true -> In (r_key r, a) (tb s).
Proof. intros C O I. apply (c_tb _ _ C). eauto. Qed.
Lemma core_fun s held k a : core s held -> In (k, a) (tb s) -> exists r, ob s a = Some r /\ r_in r = true /\ r_key r = k /\ route s a r.
Proof. intros C I. pose proof I as J. apply (c_tb _ _ C) in J. destruct J as (r & O & T & K). exists r. repeat split; try assumption. rewrite K. exact I. Qed.
Lemma core_find s held k : core s held -> match kfind rkey kcmp (tb s) k with
  | Some (k', a) => k' = k /\ exists r, ob s a = Some r /\ r_in r = true /\ r_key r = k /\ route s a r
  | None => forall a r, route s a r -> r_key r <> k end.
Proof.
  intros C. destruct (kfind rkey kcmp (tb s) k) as [[k' a]|] eqn:F.
  - apply (kfind_in rkey kcmp kcmp_EQ) in F; [|exact (c_sorted _ _ C)]. destruct F as [I K]. cbn in K. subst k'. split; [reflexivity|]. exact (core_fun _ _ _ _ C I).
  - intros a r [I O] K. pose proof (proj1 (kfind_none rkey kcmp kcmp_EQ _ _ (c_sorted _ _ C)) F _ I). cbn in H. congruence.
Qed.
Lemma untable_in t a x : In x (untable t a) <-> In x t /\ snd x <> a.
Proof. unfold untable. rewrite filter_In. change (@snd N addr x) with (@snd N positive x). destruct (Pos.eqb_spec (@snd N positive x) a) as [E|E]; cbn [negb].
  - split; intros [A B]; [discriminate B|destruct (B E)].
  - split; intros [A B]; (split; [exact A|]); [exact E|reflexivity].
Qed.
Lemma untable_sorted t a : ksorted rkey kcmp t -> ksorted rkey kcmp (untable t a).
Proof.
  induction 1 as [|x t S0 IH F]; cbn; [constructor|]. match goal with |- context [if ?b then _ else _] => destruct b end; [|exact IH]. constructor; [exact IH|].
  rewrite Forall_forall in *. intros y I. apply untable_in in I. apply F. tauto.
Qed.
Lemma hadd_eq held a : hadd held a a = (held a + 1)%N.
Proof. unfold hadd. rewrite Pos.eqb_refl. reflexivity. Qed.
Lemma hadd_neq held a x : x <> a -> hadd held a x = held x.
Proof. intros H. unfold hadd. destruct (Pos.eqb_spec x a); congruence. Qed.
(** taking a route out of the table leaves the table's reference with the caller *)
Lemma core_leave s held a r : core s held -> ob s a = Some r -> r_in r = true ->
  core (set_obj (set_tb s (untable (tb s) a)) a (Some (with_in r false))) (hadd held a).
Proof.
  intros C OA T. constructor; cbn.
  - apply untable_sorted. exact (c_sorted _ _ C).
  - intros k x. rewrite untable_in, (c_tb _ _ C). cbn. unfold upd. destruct (Pos.eqb_spec x a) as [->|NE].
    + split; [intros [_ X]; congruence|]. intros (y & A & B & _). injection A as <-. cbn in B. discriminate.
    + split; [intros [X _]; exact X|]. intros X. split; [exact X|exact NE].
  - intros x LE. rewrite upd_neq; [apply (c_brk _ _ C); exact LE|]. intros ->. rewrite (c_brk _ _ C a LE) in OA. discriminate.
  - intros x y. unfold upd. destruct (Pos.eqb_spec x a) as [->|NE]; [|rewrite hadd_neq by exact NE; apply (c_refs _ _ C)]. intros X. injection X as <-. rewrite hadd_eq. cbn.
    rewrite (c_refs _ _ C a r OA), T. lia.
  - intros x y. unfold upd. destruct (Pos.eqb_spec x a) as [->|NE]; [|apply (c_alive _ _ C)]. intros X. injection X as <-. cbn. exact (c_alive _ _ C a r OA).
  - intros x H. unfold upd. destruct (Pos.eqb_spec x a) as [->|NE]; [discriminate|]. rewrite hadd_neq in H by exact NE. apply (c_held _ _ C). exact H.
Qed.
Lemma core_drop s held a r : core s held -> held a <> 0%N -> ob s a = Some r ->
  exists s', drop_ref s a = Ret s' /\ core s' (hsub held a)
    /\ (s' = free s a /\ r_in r = false /\ r_refs r = 1%N \/ s' = set_obj s a (Some (with_refs r (r_refs r - 1)))).
Proof.
  intros C HA OA. pose proof (c_refs _ _ C a r OA) as RF. unfold drop_ref, deref. rewrite OA. cbn [ub_none bind].
  destruct (N.eqb_spec (r_refs r) 0) as [Z0|_]; [destruct (c_alive _ _ C a r OA Z0)|].
  assert (HS : forall x, hsub held a x = if Pos.eqb x a then (held x - 1)%N else held x) by reflexivity.
  destruct (N.eqb_spec (r_refs r) 1) as [E1|N1].
  - assert (T : r_in r = false) by (destruct (r_in r); [lia|reflexivity]). exists (free s a). split; [reflexivity|]. split; [|left; auto].
    constructor; cbn.
    + exact (c_sorted _ _ C).
    + intros k x. rewrite (c_tb _ _ C). unfold upd. destruct (Pos.eqb_spec x a) as [->|NE]; [|reflexivity]. split; [|intros (y & X & _); discriminate].
      intros (y & A & B & _). congruence.
    + intros x LE. unfold upd. destruct (Pos.eqb_spec x a); [reflexivity|]. apply (c_brk _ _ C). exact LE.
    + intros x y. rewrite HS. unfold upd. destruct (Pos.eqb_spec x a); [discriminate|apply (c_refs _ _ C)].
    + intros x y. unfold upd. destruct (Pos.eqb_spec x a); [discriminate|apply (c_alive _ _ C)].
    + intros x H. rewrite HS in H. unfold upd. destruct (Pos.eqb_spec x a) as [E|NE]; [|apply (c_held _ _ C); exact H].
      rewrite E in H. rewrite T in RF. lia.
  - exists (set_obj s a (Some (with_refs r (r_refs r - 1)))). split; [reflexivity|]. split; [|right; reflexivity].
    constructor; cbn.
    + exact (c_sorted _ _ C).
    + intros k x. rewrite (c_tb _ _ C). unfold upd. destruct (Pos.eqb_spec x a) as [->|NE]; [|reflexivity]. rewrite OA.
      split; intros (y & A & B & D); injection A as <-; eexists; (split; [reflexivity|]); split; assumption.
    + intros x LE. rewrite upd_neq; [apply (c_brk _ _ C); exact LE|]. intros ->. rewrite (c_brk _ _ C a LE) in OA. discriminate.
    + intros x y. rewrite HS. unfold upd. destruct (Pos.eqb_spec x a) as [->|NE]; [|apply (c_refs _ _ C)]. intros X. injection X as <-. cbn. destruct (r_in r); lia.
    + intros x y. unfold upd. destruct (Pos.eqb_spec x a) as [->|NE]; [|apply (c_alive _ _ C)]. intros X. injection X as <-. cbn. pose proof (c_alive _ _ C a r OA). lia.
    + intros x H. rewrite HS in H. unfold upd. destruct (Pos.eqb_spec x a) as [E|NE]; [discriminate|]. apply (c_held _ _ C). exact H.
Qed.

(** ** Moving a route in the purge list *)
Lemma srt_ext s s' l : (forall a, In a l -> pt s' a = pt s a) -> srt s l -> srt s' l.
Proof.
  unfold srt. intros H S0. induction S0 as [|a l S1 IH F]; [constructor|]. constructor; [apply IH; intros; apply H; right; assumption|].
  rewrite Forall_forall in *. intros b I. rewrite !H by (cbn; auto). apply F. exact I.
Qed.
Lemma srt_mid s l1 a l2 : srt s (l1 ++ a :: l2) -> srt s (l1 ++ l2).
Proof. unfold srt. rewrite !SS_app. intros (A & B & C). inversion B; subst. split; [exact A|]. split; [assumption|]. intros x y I J. apply C; cbn; auto. Qed.
Lemma srt_insert s l1 a l2 : at_place s (pt s a) l1 l2 -> srt s (l1 ++ l2) -> srt s (l1 ++ a :: l2).
Proof.
  unfold srt, at_place. rewrite !SS_app. intros (P1 & P2) (A & B & C). split; [exact A|]. split.
  - constructor; [exact B|]. rewrite Forall_forall. intros x I. destruct l2 as [|b l2]; [destruct I|]. inversion B as [|? ? B1 B2]; subst. destruct I as [<- |I]; [lia|].
    rewrite Forall_forall in B2. specialize (B2 x I). cbn in B2. lia.
  - intros x y I [<- |J]; [apply P1; exact I|apply C; assumption].
Qed.
Lemma pt_at s a r : ob s a = Some r -> pt s a = r_purge r.
Proof. intros H. unfold pt. rewrite H. reflexivity. Qed.

(** [s'] differs from [s] only in the purge list and the route objects *)
Definition quiet (s s' : pst) : Prop :=
  tb s' = tb s /\ maxp s' = maxp s /\ maxidle s' = maxidle s /\ evs s' = evs s /\ brk s' = brk s /\ log s' = log s.
Lemma quiet_refl s : quiet s s. Proof. repeat split. Qed.
Lemma quiet_trans a b c : quiet a b -> quiet b c -> quiet a c.
Proof. unfold quiet. intuition congruence. Qed.
Lemma quiet_list s s' : s' = set_list s (lk s') (hd s') (len s') -> quiet s s' /\ ob s' = ob s.
Proof. intros ->. repeat split. Qed.
Lemma quiet_obj s a r : quiet s (set_obj s a r).
Proof. repeat split. Qed.
Lemma core_quiet s s' held : quiet s s' -> ob s' = ob s -> core s held -> core s' held.
Proof. intros (A & _ & _ & _ & B & _) E []. constructor; rewrite ?A, ?B, ?E; assumption. Qed.

(** a route of the purge list leaves it *)
Lemma leave_ok s l a : links s l -> In a l -> exists s1 l1 l2, l = l1 ++ a :: l2 /\ pl_delete s a = Ret s1 /\ links s1 (l1 ++ l2) /\ quiet s s1 /\ ob s1 = ob s
  /\ lk s1 a = lk s a /\ (forall x, ~ In x (l1 ++ l2) -> lk s1 x = lk s x).
Proof.
  intros L I. apply in_split in I. destruct I as (l1 & l2 & ->). destruct (pl_delete_ok _ _ _ _ L) as (s1 & E & L1 & Q & K & FR). destruct (quiet_list _ _ Q) as [Q1 Q2].
  exists s1, l1, l2. auto 12.
Qed.
(** after leaving, a route that may move can be inserted anywhere *)
Lemma may_move_after s l1 a l2 s1 t : links s (l1 ++ a :: l2) -> ob s1 = ob s -> lk s1 a = lk s a -> may_move s a t ->
  (exists le, lk s1 a = Some le /\ prv le = None) \/ match l1 ++ l2 with [] => True | b :: _ => t <= pt s1 b end.
Proof.
  intros L EO EK M. destruct (l_dll _ _ L) as (ND & HD & TL & SG). apply seg_app in SG. destruct SG as [_ SG]. cbn [seg] in SG. destruct SG as [LA _].
  destruct l1 as [|b l1]; [left; rewrite EK, LA; eexists; split; reflexivity|]. cbn [app hdor] in *. destruct M as [M|[M|M]].
  - rewrite HD in M. injection M as ->. apply NoDup_cons_iff in ND. destruct ND as [ND _]. destruct ND. apply in_or_app. cbn. auto.
  - left. rewrite EK. exact M.
  - right. rewrite HD in M. destruct M as (r & O & LE). unfold pt. rewrite EO, O. exact LE.
Qed.
Lemma may_move_fresh s l a t : links s l -> ~ In a l -> may_move s a t ->
  (exists le, lk s a = Some le /\ prv le = None) \/ match l with [] => True | b :: _ => t <= pt s b end.
Proof.
  intros L NI M. destruct (l_dll _ _ L) as (ND & HD & TL & SG). destruct M as [M|[M|M]].
  - rewrite HD in M. destruct l as [|b l]; [discriminate|]. cbn in M. injection M as ->. destruct NI. left. reflexivity.
  - left. exact M.
  - right. rewrite HD in M. destruct l as [|b l]; [exact I|]. cbn in M. destruct M as (r & O & LE). unfold pt. rewrite O. exact LE.
Qed.

(** the common step: the object is rewritten (purge time t, other changes harmless) and listed again if t <> 0 *)
Definition rewritten (r r' : robj) : Prop := r_in r' = r_in r /\ r_key r' = r_key r /\ r_refs r' = r_refs r.
Lemma relist_ok s held l a r r' : inv s held l -> ob s a = Some r -> r_in r = true -> rewritten r r' ->
  (r_purge r' <> 0 -> may_move s a (r_purge r')) ->
  exists s' l', (let* s1 := if r_purge r =? 0 then Ret s else pl_delete s a in
                 let s2 := set_obj s1 a (Some r') in if r_purge r' =? 0 then Ret s2 else pl_insert s2 a) = Ret s'
    /\ inv s' held l' /\ (srt s l -> srt s' l') /\ quiet s s' /\ (forall x, ob s' x = if Pos.eqb x a then Some r' else ob s x).
Proof.
  intros [C L LS] OA T (RI & RK & RR) MM.
  assert (STEP1 : exists s1 l1, (if r_purge r =? 0 then Ret s else pl_delete s a) = Ret s1 /\ links s1 l1 /\ quiet s s1 /\ ob s1 = ob s /\ (srt s l -> srt s1 l1)
            /\ (forall x, In x l1 <-> In x l /\ x <> a)
            /\ (r_purge r' <> 0 -> (exists le, lk s1 a = Some le /\ prv le = None) \/ match l1 with [] => True | b :: _ => r_purge r' <= pt s1 b end)).
  { destruct (Z.eqb_spec (r_purge r) 0) as [Z0|NZ].
    - assert (NI : ~ In a l) by (intros X; apply LS in X; destruct X as (y & A & _ & B); congruence).
      exists s, l. split; [reflexivity|]. split; [exact L|]. split; [apply quiet_refl|]. split; [reflexivity|]. split; [auto|]. split.
      + intros x. split; [intros X; split; [exact X|intros ->; tauto]|tauto].
      + intros X. exact (may_move_fresh _ _ _ _ L NI (MM X)).
    - assert (IN : In a l) by (apply LS; exists r; auto). destruct (leave_ok _ _ _ L IN) as (s1 & l1 & l2 & -> & E & L1 & Q & EO & EK & FR).
      exists s1, (l1 ++ l2). split; [exact E|]. split; [exact L1|]. split; [exact Q|]. split; [exact EO|]. split.
      + intros S0. apply srt_mid in S0. eapply srt_ext; [|exact S0]. intros x _. unfold pt. rewrite EO. reflexivity.
      + split; [|intros X; exact (may_move_after _ _ _ _ _ _ L EO EK (MM X))]. intros x. destruct (NoDup_mid _ _ _ (proj1 (l_dll _ _ L))) as (_ & A & B). rewrite !in_app_iff. cbn.
        split; [intros [X|X]; (split; [tauto|congruence])|intros ([X|[X|X]] & Y); [auto|congruence|auto]]. }
  destruct STEP1 as (s1 & l1 & E1 & L1 & Q1 & EO & SR & IN1 & PL). rewrite E1. cbn [bind].
  assert (C1 : core s1 held) by exact (core_quiet _ _ _ Q1 EO C). rewrite <- EO in OA. pose proof (links_obj s1 l1 a r r' L1 OA) as L2. pose proof (core_obj s1 held a r r' C1 OA RI RK RR) as C2.
  assert (OB2 : forall x, ob (set_obj s1 a (Some r')) x = if Pos.eqb x a then Some r' else ob s x) by (intros x; cbn; unfold upd; rewrite EO; reflexivity).
  assert (PE : forall x, x <> a -> pt (set_obj s1 a (Some r')) x = pt s1 x) by (intros x NE; unfold pt; cbn; rewrite upd_neq by exact NE; reflexivity).
  assert (NA : ~ In a l1) by (intros X; apply IN1 in X; tauto).
  assert (SR2 : srt s l -> srt (set_obj s1 a (Some r')) l1) by (intros S0; apply (srt_ext s1); [intros x I; apply PE; intros ->; tauto|auto]).
  destruct (Z.eqb_spec (r_purge r') 0) as [Z0|NZ].
  - exists (set_obj s1 a (Some r')), l1. split; [reflexivity|]. split; [|split; [exact SR2|split; [exact (quiet_trans _ _ _ Q1 (quiet_obj _ _ _))|exact OB2]]]. constructor; [exact C2|exact L2|].
    intros x. rewrite IN1, LS. unfold listed. rewrite OB2. destruct (Pos.eqb_spec x a) as [->|NE].
    + split; [tauto|]. intros (y & A & _ & B). congruence.
    + tauto.
  - destruct (pl_insert_ok (set_obj s1 a (Some r')) l1 a r' L2 NA) as (s3 & m1 & m2 & E3 & EL & AT & L3 & Q3); [cbn; apply upd_eq| |].
    { destruct (PL NZ) as [X|X]; [left; exact X|right]. destruct l1 as [|b l1]; [exact I|]. rewrite PE; [exact X|]. intros ->. apply NA. left. reflexivity. }
    destruct (quiet_list _ _ Q3) as [Q4 EO3]. exists s3, (m1 ++ a :: m2). split; [exact E3|]. split; [|split; [|split]].
    + constructor; [exact (core_quiet _ _ _ Q4 EO3 C2)|exact L3|]. intros x. unfold listed. rewrite EO3, OB2, in_app_iff. cbn.
      assert (X : In x m1 \/ In x m2 <-> In x l /\ x <> a) by (rewrite <- in_app_iff, <- EL; apply IN1). destruct (Pos.eqb_spec x a) as [->|NE].
      * split; [|auto]. intros _. exists r'. rewrite RI. auto.
      * specialize (LS x). unfold listed in LS. rewrite <- LS. split; [intros [Y|[Y|Y]]; [tauto|congruence|tauto]|tauto].
    + intros S0. specialize (SR2 S0). rewrite EL in SR2. apply (srt_ext (set_obj s1 a (Some r'))); [intros x _; unfold pt; rewrite EO3; reflexivity|].
      apply srt_insert; [|exact SR2]. rewrite (pt_at _ _ r') by (cbn; apply upd_eq). exact AT.
    + exact (quiet_trans _ _ _ (quiet_trans _ _ _ Q1 (quiet_obj _ _ _)) Q4).
    + intros x. rewrite EO3. apply OB2.
Qed.

(** ** Removal *)
Lemma core_ext s held held' : (forall x, held' x = held x) -> core s held -> core s held'.
Proof. intros H []. constructor; try assumption. - intros a r O. rewrite H. auto. - intros a X. rewrite H in X. auto. Qed.
Lemma links_free s l a : links s l -> ~ In a l -> links (free s a) l.
Proof.
  intros L NI. destruct (l_dll _ _ L) as (ND & HD & TL & SG). constructor; cbn.
  - split; [exact ND|]. split; [exact HD|]. split; [exact TL|]. eapply seg_frame; [|exact SG]. intros x I. apply upd_neq. intros ->. tauto.
  - exact (l_len _ _ L).
  - intros x. unfold upd. destruct (Pos.eqb_spec x a); [tauto|apply (l_dom _ _ L)].
  - intros x LE. unfold upd. destruct (Pos.eqb_spec x a); [reflexivity|]. apply (l_brk _ _ L). exact LE.
Qed.
Definition sub_hadd held a x : hsub (hadd held a) a x = held x.
Proof. unfold hsub, hadd. destruct (Pos.eqb_spec x a); lia. Qed.

(** [s'] is [s] with the route [a] taken out of the table: nothing else changes *)
Record removed (s s' : pst) (a : addr) : Prop := {
  m_tb : tb s' = untable (tb s) a;
  m_max : maxp s' = maxp s; m_idle : maxidle s' = maxidle s; m_evs : evs s' = evs s; m_brk : brk s' = brk s;
  m_ob : forall x, x <> a -> ob s' x = ob s x;
  m_gone : forall r, ob s' a = Some r -> r_in r = false }.

Lemma pl_leave s l a r : links s l -> ob s a = Some r -> (r_purge r <> 0 -> In a l) -> (r_purge r = 0 -> ~ In a l) ->
  exists s1 l1, (if r_purge r =? 0 then Ret s else pl_delete s a) = Ret s1 /\ links s1 l1 /\ quiet s s1 /\ ob s1 = ob s /\ (srt s l -> srt s1 l1)
    /\ (forall x, In x l1 <-> In x l /\ x <> a) /\ (exists m1 m2, l = m1 ++ m2 /\ (l1 = m1 ++ List.tl m2 /\ hdor m2 None = Some a \/ r_purge r = 0 /\ l1 = l))
    /\ (forall x, ~ In x l -> lk s1 x = lk s x).
Proof.
  intros L OA I1 I2. destruct (Z.eqb_spec (r_purge r) 0) as [Z0|NZ].
  - exists s, l. split; [reflexivity|]. split; [exact L|]. split; [apply quiet_refl|]. split; [reflexivity|]. split; [auto|]. split.
    + intros x. split; [intros X; split; [exact X|intros ->; exact (I2 Z0 X)]|tauto].
    + split; [exists l, []; rewrite app_nil_r; auto|auto].
  - destruct (leave_ok _ _ _ L (I1 NZ)) as (s1 & l1 & l2 & -> & E & L1 & Q & EO & EK & FR).
    exists s1, (l1 ++ l2). split; [exact E|]. split; [exact L1|]. split; [exact Q|]. split; [exact EO|]. split; [|split; [|split]].
    + intros S0. apply srt_mid in S0. eapply srt_ext; [|exact S0]. intros x _. unfold pt. rewrite EO. reflexivity.
    + intros x. destruct (NoDup_mid _ _ _ (proj1 (l_dll _ _ L))) as (_ & A & B). rewrite !in_app_iff. cbn.
      split; [intros [X|X]; (split; [tauto|congruence])|intros ([X|[X|X]] & Y); [auto|congruence|auto]].
    + exists l1, (a :: l2). split; [reflexivity|]. left. split; reflexivity.
    + intros x N. apply FR. intros X. apply N. rewrite in_app_iff in *. cbn. tauto.
Qed.
Lemma delete_now_ok s held l a r d : inv s held l -> ob s a = Some r -> r_in r = true -> (d && (0 <? r_conns r)%N)%bool = false ->
  exists s' l', delete_0 s a d = Ret (OK, s') /\ inv s' held l' /\ (srt s l -> srt s' l') /\ removed s s' a
    /\ (forall x, In x l' <-> In x l /\ x <> a)
    /\ (exists m1 m2, l = m1 ++ m2 /\ (l' = m1 ++ List.tl m2 /\ hdor m2 None = Some a \/ r_purge r = 0 /\ l' = l))
    /\ (forall x, ~ In x l -> x <> a -> lk s' x = lk s x)
    /\ log s' = log s ++ Gone a :: (if e_del (evs s (r_ev r)) && negb (r_dc r) then [Deleted a] else []).
Proof.
  intros [C L LS] OA T D. unfold delete_0, deref. rewrite OA. cbn [ub_none bind]. rewrite D, T. cbn [negb].
  set (s0 := say (set_tb (set_obj s a (Some (with_in r false))) (untable (tb (set_obj s a (Some (with_in r false)))) a)) (Gone a)).
  assert (C0 : core s0 (hadd held a)) by exact (core_say _ _ (Gone a) (core_leave s held a r C OA T)).
  assert (L0 : links s0 l) by (apply links_say, links_tb, (links_obj s l a r _ L OA)).
  assert (O0 : ob s0 a = Some (with_in r false)) by (cbn; apply upd_eq).
  destruct (pl_leave s0 l a (with_in r false) L0 O0) as (s1 & l1 & E1 & L1 & Q1 & EO1 & SR1 & IN1 & SH1 & FR1).
  { intros NZ. apply LS. exists r. auto. } { cbn. intros Z0 X. apply LS in X. destruct X as (y & A & _ & B). congruence. }
  cbn [r_purge with_in] in E1. rewrite E1. cbn [bind].
  assert (C1 : core s1 (hadd held a)) by exact (core_quiet _ _ _ Q1 EO1 C0). assert (O1 : ob s1 a = Some (with_in r false)) by (rewrite EO1; exact O0).
  unfold run_delete_actions, deref. rewrite O1. cbn [ub_none bind]. destruct Q1 as (Q1a & Q1b & Q1c & Q1d & Q1e & Q1f).
  assert (EV : evs s1 = evs s) by (rewrite Q1d; reflexivity). rewrite EV. cbn [r_ev r_dc with_in].
  assert (G : exists s2 r2, (if e_del (evs s (r_ev r)) && negb (r_dc r) then Ret (say (set_obj s1 a (Some (with_dc (with_in r false) true))) (Deleted a)) else Ret s1) = Ret s2
            /\ core s2 (hadd held a) /\ links s2 l1 /\ lk s2 = lk s1 /\ ob s2 a = Some r2 /\ r_in r2 = false /\ r_purge r2 = r_purge r /\ (forall x, x <> a -> ob s2 x = ob s1 x) /\ tb s2 = tb s1 /\ maxp s2 = maxp s1
            /\ maxidle s2 = maxidle s1 /\ evs s2 = evs s1 /\ brk s2 = brk s1
            /\ log s2 = log s1 ++ (if e_del (evs s (r_ev r)) && negb (r_dc r) then [Deleted a] else [])).
  { destruct (e_del (evs s (r_ev r)) && negb (r_dc r)).
    - eexists; exists (with_dc (with_in r false) true). split; [reflexivity|]. split; [apply core_say; apply (core_obj _ _ _ (with_in r false) _ C1 O1); reflexivity|].
      split; [apply links_say; exact (links_obj _ _ _ _ _ L1 O1)|]. cbn. rewrite upd_eq. repeat split. intros x NE. apply upd_neq. exact NE.
    - exists s1, (with_in r false). rewrite app_nil_r. auto 20. }
  destruct G as (s2 & r2 & E2 & C2 & L2 & LK2 & O2 & T2 & P2 & F2 & TB2 & MX2 & MI2 & EV2 & BR2 & LG2). rewrite E2. cbn [bind].
  destruct (core_drop s2 (hadd held a) a r2 C2) as (s3 & E3 & C3 & SH); [rewrite hadd_eq; lia|exact O2|]. rewrite E3. cbn [bind].
  assert (NA1 : ~ In a l1) by (intros X; apply IN1 in X; tauto).
  exists s3, l1. split; [reflexivity|].
  assert (K3 : links s3 l1 /\ (forall x, x <> a -> ob s3 x = ob s2 x /\ lk s3 x = lk s2 x) /\ tb s3 = tb s2 /\ maxp s3 = maxp s2 /\ maxidle s3 = maxidle s2 /\ evs s3 = evs s2 /\ brk s3 = brk s2 /\ log s3 = log s2
             /\ (forall y, ob s3 a = Some y -> r_in y = false)).
  { destruct SH as [(-> & _ & _)| ->]; cbn; (split; [first [apply links_free; assumption|exact (links_obj _ _ _ _ _ L2 O2)]|]); (split; [intros x NE; rewrite ?upd_neq by exact NE; split; reflexivity|]); repeat (split; [reflexivity|]);
      intros y; rewrite upd_eq; [discriminate|]. intros X. injection X as <-. exact T2. }
  destruct K3 as (L3 & F3 & TB3 & MX3 & MI3 & EV3 & BR3 & LG3 & GN3).
  assert (OBX : forall x, x <> a -> ob s3 x = ob s x).
  { intros x NE. rewrite (proj1 (F3 x NE)), F2, EO1 by exact NE. cbn. apply upd_neq. exact NE. }
  split; [|split; [|split; [|split; [exact IN1|split; [|split]]]]].
  - constructor; [apply (core_ext _ _ _ (fun x => eq_sym (sub_hadd held a x)) C3)|exact L3|]. intros x. rewrite IN1, LS. unfold listed. split.
    + intros [(y & X) NE]. exists y. rewrite OBX by exact NE. exact X.
    + intros (y & A & B & P). assert (NE : x <> a) by (intros ->; rewrite (GN3 y A) in B; discriminate). split; [|exact NE]. exists y. rewrite OBX in A by exact NE. auto.
  - intros S0. apply (srt_ext s); [intros x I; apply IN1 in I; unfold pt; rewrite OBX by tauto; reflexivity|].
    destruct SH1 as (m1 & m2 & -> & [[-> HA]|[_ ->]]); [|exact S0]. destruct m2 as [|b m2]; [discriminate|]. cbn in HA. injection HA as ->. exact (srt_mid _ _ _ _ S0).
  - constructor; try congruence; [rewrite TB3, TB2, Q1a; reflexivity|rewrite MX3, MX2, Q1b; reflexivity|rewrite MI3, MI2, Q1c; reflexivity|rewrite BR3, BR2, Q1e; reflexivity|exact OBX|exact GN3].
  - exact SH1.
  - intros x N NE. rewrite (proj2 (F3 x NE)), LK2. exact (FR1 x N).
  - rewrite LG3, LG2, Q1f. cbn [log s0 say]. rewrite <- app_assoc. reflexivity.
Qed.

(** ** Purging *)
(** [s'] is [s] without the routes [g] *)
Record purged (s s' : pst) (g : list addr) : Prop := {
  g_tb : forall x, In x (tb s') <-> In x (tb s) /\ ~ In (snd x) g;
  g_max : maxp s' = maxp s; g_idle : maxidle s' = maxidle s; g_evs : evs s' = evs s; g_brk : brk s' = brk s;
  g_ob : forall x, ~ In x g -> ob s' x = ob s x;
  g_gone : forall x r, In x g -> ob s' x = Some r -> r_in r = false }.
Lemma purged_nil s : purged s s [].
Proof. constructor; try reflexivity; [intros x; cbn; tauto|intros x r []]. Qed.
Lemma purged_cons s s1 s2 a g : removed s s1 a -> purged s1 s2 g -> purged s s2 (a :: g).
Proof.
  intros [A1 A2 A3 A4 A5 A6 A7] [B1 B2 B3 B4 B5 B6 B7]. constructor; try congruence.
  - intros x. rewrite B1, A1, untable_in. cbn. split; [intros ((I & N) & J); split; [exact I|intros [X|X]; [congruence|tauto]]|]. intros (I & N). split; [split; [exact I|]|]; intros X; apply N; auto.
  - intros x N. cbn in N. rewrite B6 by tauto. apply A6. intros ->. tauto.
  - intros x r I O. destruct (in_dec Pos.eq_dec x g) as [J|J]; [exact (B7 x r J O)|]. destruct I as [<- |I]; [|contradiction]. rewrite B6 in O by exact J. exact (A7 r O).
Qed.
Lemma purged_one s s1 a : removed s s1 a -> purged s s1 [a].
Proof. intros H. exact (purged_cons _ _ _ _ _ H (purged_nil s1)). Qed.
Lemma last_split (l : list addr) a : lastor None l = Some a -> exists l0, l = l0 ++ [a].
Proof. destruct (snoc_case l) as [->|(l0 & b & ->)]; [discriminate|]. rewrite lastor_app. intros X. injection X as ->. eauto. Qed.
Lemma inv_tail s held l a : inv s held l -> ltail (hd s) = Some a -> exists l0 r, l = l0 ++ [a] /\ ob s a = Some r /\ r_in r = true /\ r_purge r <> 0 /\ route s a r.
Proof.
  intros I T. destruct (l_dll _ _ (i_links _ _ _ I)) as (_ & _ & TL & _). rewrite TL in T. apply last_split in T. destruct T as [l0 ->].
  assert (X : In a (l0 ++ [a])) by (apply in_or_app; cbn; auto). apply (i_listed _ _ _ I) in X. destruct X as (r & O & B & P). exists l0, r. repeat split; try assumption.
  exact (core_in _ _ _ _ (i_core _ _ _ I) O B).
Qed.
Lemma tail_cut (l0 l' m1 m2 : list addr) a (P : Prop) : NoDup (l0 ++ [a]) -> l0 ++ [a] = m1 ++ m2 -> (l' = m1 ++ List.tl m2 /\ hdor m2 None = Some a \/ P) -> ~ P -> l' = l0.
Proof.
  intros ND E [[-> HA]|X] NP; [|contradiction]. destruct m2 as [|b m2]; [discriminate|]. cbn in HA. injection HA as ->. cbn [List.tl].
  assert (m2 = []). { destruct (snoc_case m2) as [->|(m & c & ->)]; [reflexivity|]. rewrite app_comm_cons, app_assoc in E. apply app_inj_tail in E. destruct E as [E <-]. rewrite E in ND.
    rewrite <- app_assoc in ND. cbn in ND. apply NoDup_remove_2 in ND. destruct ND. rewrite in_app_iff. right. rewrite in_app_iff. cbn. auto. }
  subst m2. apply app_inj_tail in E. rewrite app_nil_r. symmetry. tauto.
Qed.

Lemma fin_ok n : (if n >? 0 then OK else ALREADY) = OK <-> n > 0 \/ @nil addr <> [].
Proof. destruct (Z.gtb_spec n 0) as [G|G]; split; [intros _; left; lia|reflexivity|discriminate|intros [X|X]; [lia|congruence]]. Qed.
Lemma purge_loop_ok mode now : (mode <> 3)%N -> forall l s held fuel n, inv s held l -> (length l < fuel)%nat -> unblocked s now None -> 0 <= n ->
  exists e s' l' g, purge_loop fuel s mode now n = Ret (e, s') /\ inv s' held l' /\ (srt s l -> srt s' l') /\ purged s s' g
    /\ (forall a, In a g -> exists r, route s a r /\ r_purge r <> 0 /\ r_purge r <= now /\ blocks s now r = false)
    /\ l = l' ++ rev g
    /\ (e = OK <-> (n > 0 \/ g <> [])) /\ (e = OK \/ e = ALREADY) 
    /\ (mode = 0%N -> match ltail (hd s') with None => True | Some b => now < pt s' b end)
    /\ (mode <> 0%N -> (length g <= 1)%nat).
Proof.
  intros M l. remember (length l) as k eqn:K. revert l K. induction k as [|k IH]; intros l K s held fuel n I LE UB N0; (destruct fuel as [|fuel]; [lia|]); cbn [purge_loop].
  - destruct l as [|]; [|discriminate]. destruct (l_dll _ _ (i_links _ _ _ I)) as (_ & _ & TL & _). rewrite TL. cbn [lastor].
    exists (if n >? 0 then OK else ALREADY), s, [], []. split; [reflexivity|]. split; [exact I|]. split; [auto|]. split; [apply purged_nil|]. split; [intros a []|]. split; [reflexivity|].
    split; [apply fin_ok|]. split; [destruct (n >? 0); auto|]. split; [intros _; rewrite TL; exact Logic.I|]. cbn. lia.
  - destruct (ltail (hd s)) as [a|] eqn:T.
    2: { destruct (l_dll _ _ (i_links _ _ _ I)) as (_ & _ & TL & _). rewrite TL in T. destruct (snoc_case l) as [->|(l0 & b & ->)]; [discriminate|]. rewrite lastor_app in T. discriminate. }
    destruct (inv_tail _ _ _ _ I T) as (l0 & r & -> & OA & TA & PA & RT). unfold deref. rewrite OA. cbn [ub_none bind].
    assert (MB : negb (mode =? 3)%N = true) by (apply negb_true_iff, N.eqb_neq; exact M). rewrite MB. cbn [andb].
    destruct (Z.gtb_spec (r_purge r) now) as [G|G].
    + exists (if n >? 0 then OK else ALREADY), s, (l0 ++ [a]), []. split; [reflexivity|]. split; [exact I|]. split; [auto|]. split; [apply purged_nil|]. split; [intros x []|]. split; [cbn; rewrite app_nil_r; reflexivity|].
      split; [apply fin_ok|]. split; [destruct (n >? 0); auto|]. split; [intros _; rewrite T; unfold pt; rewrite OA; lia|]. cbn. lia.
    + assert (BL : blocks s now r = false) by (apply (UB a r); [exact RT|exact PA|lia|reflexivity]).
      unfold blocks in BL. rewrite BL.
      destruct (delete_now_ok s held (l0 ++ [a]) a r false I OA TA eq_refl) as (s1 & l1 & E1 & I1 & SR1 & RM & _ & (m1 & m2 & SP & CUT) & _ & _). rewrite E1. cbn [bind is_success negb].
      assert (EL : l1 = l0). { refine (tail_cut l0 l1 m1 m2 a _ _ SP CUT _); [exact (proj1 (l_dll _ _ (i_links _ _ _ I)))|]. intros [X _]. contradiction. }
      subst l1. destruct (N.leb_spec 1 mode) as [G1|G1].
      * exists OK, s1, l0, [a]. split; [reflexivity|]. split; [exact I1|]. split; [exact SR1|]. split; [apply purged_one; exact RM|].
        split; [intros x [<- |[]]; exists r; repeat split; try assumption; try lia; exact (proj1 RT)|]. split; [reflexivity|]. split; [split; [intros _; right; discriminate|reflexivity]|]. split; [auto|]. split; [lia|]. cbn. lia.
      * rewrite app_length in K. cbn in K.
        assert (UB1 : unblocked s1 now None).
        { intros x y [IX OX] P1 P2 _. assert (NE : x <> a) by (intros ->; rewrite (m_tb _ _ _ RM) in IX; apply untable_in in IX; cbn in IX; tauto).
          rewrite (m_ob _ _ _ RM x NE) in OX. rewrite (m_tb _ _ _ RM) in IX. apply untable_in in IX. unfold blocks. rewrite (m_idle _ _ _ RM).
          apply (UB x y); [split; [tauto|exact OX]|exact P1|exact P2|reflexivity]. }
        destruct (IH l0 ltac:(lia) s1 held fuel (n + 1) I1 ltac:(lia) UB1 ltac:(lia)) as (e & s2 & l2 & g & E2 & I2 & SR2 & PG & GS & EL2 & EOK & EE & M0 & M1).
        exists e, s2, l2, (a :: g). split; [exact E2|]. split; [exact I2|]. split; [auto|]. split; [exact (purged_cons _ _ _ _ _ RM PG)|]. split.
        { intros x [<- |IX]; [exists r; repeat split; try assumption; try lia; exact (proj1 RT)|]. destruct (GS x IX) as (y & [IY OY] & Y2 & Y3 & Y4).
          assert (NE : x <> a) by (intros ->; rewrite (m_tb _ _ _ RM) in IY; apply untable_in in IY; cbn in IY; tauto). rewrite (m_ob _ _ _ RM x NE) in OY. rewrite (m_tb _ _ _ RM) in IY. apply untable_in in IY.
          exists y. split; [split; tauto|]. split; [exact Y2|]. split; [exact Y3|]. unfold blocks in *. rewrite <- (m_idle _ _ _ RM). exact Y4. }
        split; [rewrite EL2; cbn; rewrite app_assoc; reflexivity|].
        split; [|split; [exact EE|split; [exact M0|intros X; exfalso; apply X; lia]]]. split; [intros _; right; discriminate|]. intros _. apply EOK. left. lia.
Qed.

Lemma stale_purge_ok mode now clock s held l : (mode <> 3)%N -> inv s held l -> clock_ok s now clock None ->
  exists e s' l' g, stale_purge s mode now clock = Ret (e, s') /\ inv s' held l' /\ (srt s l -> srt s' l') /\ purged s s' g /\ l = l' ++ rev g
    /\ match (if now =? 0 then clock else Some now) with
       | None => e = SYS_OP_FAILED /\ s' = s
       | Some t => (forall a, In a g -> exists r, route s a r /\ r_purge r <> 0 /\ r_purge r <= t /\ blocks s t r = false)
                   /\ (e = OK /\ g <> [] \/ e = ALREADY /\ g = [])
                   /\ (mode = 0%N -> match ltail (hd s') with None => True | Some b => t < pt s' b end)
                   /\ (mode <> 0%N -> (length g <= 1)%nat)
       end.
Proof.
  intros M I CK. unfold stale_purge. assert (MB : negb (mode =? 3)%N = true) by (apply negb_true_iff, N.eqb_neq; exact M). rewrite MB. cbn [andb].
  destruct (if now =? 0 then clock else Some now) as [t|] eqn:ET.
  2: { exists SYS_OP_FAILED, s, l, []. cbn. rewrite app_nil_r. split; [reflexivity|]. split; [exact I|]. split; [auto|]. split; [apply purged_nil|]. split; [reflexivity|]. auto. }
  destruct (ltail (hd s)) as [a|] eqn:T.
  2: { exists ALREADY, s, l, []. cbn. rewrite app_nil_r. split; [reflexivity|]. split; [exact I|]. split; [auto|]. split; [apply purged_nil|]. split; [reflexivity|]. split; [intros x []|]. split; [auto|]. rewrite T. split; [auto|lia]. }
  destruct (inv_tail _ _ _ _ I T) as (l0 & r & EL & OA & TA & PA & RT). unfold deref. rewrite OA. cbn [ub_none bind].
  destruct (Z.gtb_spec (r_purge r) t) as [G|G].
  { exists ALREADY, s, l, []. cbn. rewrite app_nil_r. split; [reflexivity|]. split; [exact I|]. split; [auto|]. split; [apply purged_nil|]. split; [reflexivity|]. split; [intros x []|]. split; [auto|]. rewrite T. split; [intros _; rewrite (pt_at _ _ _ OA); lia|lia]. }
  destruct (purge_loop_ok mode t M l s held (S (fuel_of s)) 0 I) as (e & s' & l' & g & E & I' & SR & PG & GS & EL' & EOK & EE & M0 & M1).
  { pose proof (links_len _ _ (i_links _ _ _ I)). lia. } { exact (CK t ET). } { lia. }
  exists e, s', l', g. repeat (split; [assumption|]). split; [|split; assumption].
  destruct EE as [->| ->]; [left; split; [reflexivity|]; destruct (proj1 EOK eq_refl) as [X|X]; [lia|exact X]|right; split; [reflexivity|]].
  destruct g; [reflexivity|]. assert (X : ALREADY = OK) by (apply EOK; right; discriminate). discriminate.
Qed.
Lemma stale_purge3_ok s held l : inv s held l -> l <> [] ->
  exists s' l0 a, stale_purge s 3 0 None = Ret (OK, s') /\ l = l0 ++ [a] /\ inv s' held l0 /\ (srt s l -> srt s' l0) /\ removed s s' a
    /\ (forall x, ~ In x l -> lk s' x = lk s x).
Proof.
  intros I NE. unfold stale_purge. cbn [N.eqb Pos.eqb negb andb].
  destruct (ltail (hd s)) as [a|] eqn:T.
  2: { destruct (l_dll _ _ (i_links _ _ _ I)) as (_ & _ & TL & _). rewrite TL in T. destruct (snoc_case l) as [->|(l0 & b & ->)]; [congruence|]. rewrite lastor_app in T. discriminate. }
  destruct (inv_tail _ _ _ _ I T) as (l0 & r & -> & OA & TA & PA & RT). unfold deref. rewrite OA. cbn [ub_none bind purge_loop]. rewrite T. unfold deref. rewrite OA. cbn [ub_none bind N.eqb Pos.eqb negb andb].
  destruct (delete_now_ok s held (l0 ++ [a]) a r false I OA TA eq_refl) as (s1 & l1 & E1 & I1 & SR1 & RM & _ & (m1 & m2 & SP & CUT) & LK & _). rewrite E1. cbn [bind is_success negb N.leb N.compare Pos.compare Pos.compare_cont].
  assert (EL : l1 = l0). { refine (tail_cut l0 l1 m1 m2 a _ _ SP CUT _); [exact (proj1 (l_dll _ _ (i_links _ _ _ I)))|]. intros [X _]. contradiction. }
  subst l1. exists s1, l0, a. split; [reflexivity|]. split; [reflexivity|]. split; [exact I1|]. split; [exact SR1|]. split; [exact RM|].
  intros x N. apply LK; [exact N|]. intros ->. apply N. apply in_or_app. cbn. auto.
Qed.
Lemma unblocked_except s now a r : ob s a = Some r -> now < r_purge r -> unblocked s now (Some a) -> unblocked s now None.
Proof.
  intros O P U x y R P1 P2 _. apply (U x y R P1 P2). cbn. destruct (Pos.eqb_spec x a) as [->|]; [|reflexivity]. destruct R as [_ R]. assert (y = r) by congruence. subst. lia.
Qed.
