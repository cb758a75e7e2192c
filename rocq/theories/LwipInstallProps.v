(** * C68: installing the lwIP packet filters *)
From Verif Require Import Base RouteFlags Dispatch DispatchProofs DispatchEffect DispatchEffectProps Lwip LwipSpec.
Open Scope N_scope.

(** ** Installation *)
(** One layer, the mutex being held: either it is set, or the handler could not be registered and nothing is changed. *)
Lemma layer_cases : forall leaky mask set w, depth w <> 0 ->
  let '(e, w') := install_layer leaky mask set w in
  (e = OK /\ stk w' = set (stk w) /\ depth w' = depth w /\ pushed w' = pushed w + (if mask =? 0 then 0 else 1)) \/
  (is_success e = false /\ mask <> 0 /\ luck w <> [] /\ stk w' = stk w /\ depth w' = (if leaky then depth w + 1 else depth w) /\ pushed w' = pushed w).
Proof.
  intros leaky mask set w H. unfold install_layer, lock. replace (depth w =? 0) with false by (symmetry; apply N.eqb_neq; exact H). cbn [negb].
  destruct (N.eqb_spec mask 0) as [Z0|Z0].
  - cbn [negb]. left. unfold unlock, set_stk. cbn [stk depth pushed luck]. repeat split; lia.
  - unfold push, draw. cbn [luck]. destruct (luck w) as [|[] l] eqn:L; cbn [negb stk depth pushed luck].
    + left. unfold unlock, set_stk. cbn [stk depth pushed luck]. repeat split; lia.
    + left. unfold unlock, set_stk. cbn [stk depth pushed luck]. repeat split; lia.
    + right. split; [reflexivity|]. split; [exact Z0|]. split; [discriminate|]. destruct leaky; unfold unlock; cbn [stk depth pushed]; repeat split; lia.
Qed.
(** What a layer's function does, in these terms: [f] sets the stack, [leak] says whether a failure keeps the mutex. *)
Definition does (built : bool) (leak : bool) (mask : N) (f : stack -> stack) (w : world) (r : err * world) : Prop :=
  let '(e, w') := r in
  (e = OK /\ (mask <> 0 -> built = true) /\ stk w' = (if built then f (stk w) else stk w) /\ depth w' = depth w /\ pushed w <= pushed w' /\ (mask <> 0 -> pushed w < pushed w')) \/
  (is_success e = false /\ mask <> 0 /\ (built = false \/ luck w <> []) /\ stk w' = stk w /\ (depth w' = depth w \/ leak = true /\ depth w' = depth w + 1) /\ pushed w' = pushed w).
Lemma does_layer : forall leaky mask f w, depth w <> 0 -> does true leaky mask f w (install_layer leaky mask f w).
Proof.
  intros leaky mask f w H. pose proof (layer_cases leaky mask f w H) as L. unfold does. destruct (install_layer leaky mask f w) as [e w'].
  destruct L as [(E & S1 & D & P)|(E & M & LK & S1 & D & P)]; [left|right].
  - split; [exact E|]. split; [reflexivity|]. split; [exact S1|]. split; [exact D|]. destruct (N.eqb_spec mask 0); split; [lia|congruence|lia|lia].
  - split; [exact E|]. split; [exact M|]. split; [auto|]. split; [exact S1|]. split; [destruct leaky; auto|exact P].
Qed.
Lemma does_missing : forall leaky mask f w, does false leaky mask f w (missing mask w).
Proof.
  intros leaky mask f w. unfold does, missing. destruct (N.eqb_spec mask 0) as [Z0|Z0]; [left|right].
  - repeat split; try congruence; lia.
  - split; [reflexivity|]. split; [exact Z0|]. auto.
Qed.
(** What a build does not have is left alone. *)
Definition kept (bd : build) (s s' : stack) : Prop :=
  (b_eth bd = false -> st_eth s' = st_eth s) /\ (b_ip4 bd = false -> st_ip4 s' = st_ip4 s) /\ (b_ip6 bd = false -> st_ip6 s' = st_ip6 s) /\
  (b_icmp bd = false -> st_icmp s' = st_icmp s) /\ (b_icmp6 bd = false -> st_icmp6 s' = st_icmp6 s) /\ (b_tcp bd = false -> st_tcp s' = st_tcp s) /\
  (b_udp bd = false -> st_udp s' = st_udp s).
Lemma kept_refl : forall bd s s', s' = s -> kept bd s s'.
Proof. intros bd s s' ->. unfold kept. auto 10. Qed.
Lemma kept_trans : forall bd a b c, kept bd a b -> kept bd b c -> kept bd a c.
Proof.
  intros bd a b c (A1 & A2 & A3 & A4 & A5 & A6 & A7) (B1 & B2 & B3 & B4 & B5 & B6 & B7).
  repeat split; intros K; [rewrite B1, A1|rewrite B2, A2|rewrite B3, A3|rewrite B4, A4|rewrite B5, A5|rewrite B6, A6|rewrite B7, A7]; auto.
Qed.
Section Installing.
  Variable bd : build.
  Variable ctx : N.
  Definition f_eth mask s := set_eth s (slot_for ctx mask).
  Definition f_ip mask s := let s := if b_ip4 bd then set_ip4 s (slot_for ctx mask) else s in if b_ip6 bd then set_ip6 s (slot_for ctx mask) else s.
  Definition f_icmp mask s :=
    let s := if b_icmp bd then set_icmp s (if mask =? 0 then mkSlot false (sl_mask (st_icmp s)) (sl_arg (st_icmp s)) else slot_for ctx mask) else s in
    if b_icmp6 bd then set_icmp6 s (slot_for ctx mask) else s.
  Definition f_tcp mask s := set_tcp s (slot_for ctx (tcp_mask_of mask)).
  Definition f_udp mask s := set_udp s (slot_for ctx mask).
  Lemma do_eth : forall m w, depth w <> 0 -> does (b_eth bd) false m (f_eth m) w (install_eth bd ctx m w).
  Proof. intros m w H. unfold install_eth. destruct (b_eth bd); [apply does_layer; exact H|apply does_missing]. Qed.
  Lemma do_ip : forall m w, depth w <> 0 -> does (b_ip4 bd || b_ip6 bd) false m (f_ip m) w (install_ip bd ctx m w).
  Proof. intros m w H. unfold install_ip. destruct (b_ip4 bd || b_ip6 bd); [apply does_layer; exact H|apply does_missing]. Qed.
  Lemma do_icmp : forall m w, depth w <> 0 -> does (b_icmp bd || b_icmp6 bd) true m (f_icmp m) w (install_icmp bd ctx m w).
  Proof. intros m w H. unfold install_icmp. destruct (b_icmp bd || b_icmp6 bd); [apply does_layer; exact H|apply does_missing]. Qed.
  Lemma do_tcp : forall m w, depth w <> 0 -> does (b_tcp bd) true m (f_tcp m) w (install_tcp bd ctx m w).
  Proof. intros m w H. unfold install_tcp. destruct (b_tcp bd); [apply does_layer; exact H|apply does_missing]. Qed.
  Lemma do_udp : forall m w, depth w <> 0 -> does (b_udp bd) false m (f_udp m) w (install_udp bd ctx m w).
  Proof. intros m w H. unfold install_udp. destruct (b_udp bd); [apply does_layer; exact H|apply does_missing]. Qed.

  Ltac keeps := intros m s; unfold kept, f_eth, f_ip, f_icmp, f_tcp, f_udp; destruct (b_eth bd), (b_ip4 bd), (b_ip6 bd), (b_icmp bd), (b_icmp6 bd), (b_tcp bd), (b_udp bd); repeat split; intros K; discriminate K || reflexivity.
  Lemma kept_eth : forall m s, kept bd s (if b_eth bd then f_eth m s else s). Proof. keeps. Qed.
  Lemma kept_ip : forall m s, kept bd s (if b_ip4 bd || b_ip6 bd then f_ip m s else s). Proof. keeps. Qed.
  Lemma kept_icmp : forall m s, kept bd s (if b_icmp bd || b_icmp6 bd then f_icmp m s else s). Proof. keeps. Qed.
  Lemma kept_tcp : forall m s, kept bd s (if b_tcp bd then f_tcp m s else s). Proof. keeps. Qed.
  Lemma kept_udp : forall m s, kept bd s (if b_udp bd then f_udp m s else s). Proof. keeps. Qed.
  (** All five set, or the first failure. *)
  Definition F_all (m : masks) (s : stack) : stack :=
    let s := if b_eth bd then f_eth (m_eth m) s else s in
    let s := if b_ip4 bd || b_ip6 bd then f_ip (m_ip m) s else s in
    let s := if b_icmp bd || b_icmp6 bd then f_icmp (m_icmp m) s else s in
    let s := if b_tcp bd then f_tcp (m_tcp m) s else s in
    if b_udp bd then f_udp (m_udp m) s else s.
  Definition all_layers (m : masks) (w : world) : err * world :=
    then_ (install_udp bd ctx (m_udp m)) (then_ (install_tcp bd ctx (m_tcp m)) (then_ (install_icmp bd ctx (m_icmp m)) (then_ (install_ip bd ctx (m_ip m)) (install_eth bd ctx (m_eth m) w)))).
  Lemma luck_layer : forall leaky mask f w, luck w = [] -> luck (snd (install_layer leaky mask f w)) = [].
  Proof.
    intros leaky mask f w L. unfold install_layer, lock, push, draw. destruct (depth w =? 0); rewrite ?L; cbn [negb luck];
      (destruct (mask =? 0); [|cbn [luck]; rewrite ?L]; cbn [negb fst snd unlock set_stk luck]; assumption || reflexivity).
  Qed.
  Definition nonzero (m : masks) : Prop := ~ (m_eth m = 0 /\ m_ip m = 0 /\ m_icmp m = 0 /\ m_tcp m = 0 /\ m_udp m = 0).
  Ltac kps := repeat match goal with E : stk ?x = _ |- kept _ _ (stk ?x) =>
      eapply kept_trans; [|rewrite E; first [apply kept_eth|apply kept_ip|apply kept_icmp|apply kept_tcp|apply kept_udp|apply kept_refl; reflexivity]] end; apply kept_refl; reflexivity.
  Lemma all_cases : forall m w, depth w <> 0 ->
    let '(e, w') := all_layers m w in
    (e = OK /\ available bd m /\ stk w' = F_all m (stk w) /\ depth w' = depth w /\ pushed w <= pushed w' /\ (nonzero m -> pushed w < pushed w')) \/
    (is_success e = false /\ nonzero m /\ depth w' <> 0 /\ (depth w' = depth w \/ (m_icmp m <> 0 \/ m_tcp m <> 0) /\ depth w' = depth w + 1) /\ kept bd (stk w) (stk w')).
  Proof.
    intros m w H. unfold all_layers, available, F_all, nonzero.
    pose proof (do_eth (m_eth m) w H) as A. unfold then_. destruct (install_eth bd ctx (m_eth m) w) as [e1 w1]. destruct A as [(-> & A1 & A2 & A3 & A4 & A5)|(E & M & _ & S1 & D & P)];
      [cbn [is_success]|rewrite E; cbn beta iota; rewrite E; cbn beta iota; rewrite E; cbn beta iota; rewrite E; right; split; [exact E|]; split; [tauto|]; split; [|split]; [destruct D as [-> |[? _]]; [exact H|discriminate]|destruct D as [-> |[? _]]; [left; congruence|discriminate]|kps]].
    assert (H1 : depth w1 <> 0) by congruence. pose proof (do_ip (m_ip m) w1 H1) as B0. destruct (install_ip bd ctx (m_ip m) w1) as [e2 w2]. destruct B0 as [(-> & B1 & B2 & B3 & B4 & B5)|(E & M & _ & S1 & D & P)];
      [cbn [is_success]|rewrite E; cbn beta iota; rewrite E; cbn beta iota; rewrite E; right; split; [exact E|]; split; [tauto|]; split; [|split]; [destruct D as [-> |[? _]]; [exact H1|discriminate]|destruct D as [-> |[? _]]; [left; congruence|discriminate]|kps]].
    assert (H2 : depth w2 <> 0) by congruence. pose proof (do_icmp (m_icmp m) w2 H2) as C0. destruct (install_icmp bd ctx (m_icmp m) w2) as [e3 w3]. destruct C0 as [(-> & C1 & C2 & C3 & C4 & C5)|(E & M & _ & S1 & D & P)];
      [cbn [is_success]|rewrite E; cbn beta iota; rewrite E; right; split; [exact E|]; split; [tauto|]; split; [|split]; [destruct D as [-> |[_ ->]]; [exact H2|lia]|destruct D as [-> |[_ ->]]; [left; congruence|right; split; [left; exact M|congruence]]|kps]].
    assert (H3 : depth w3 <> 0) by congruence. pose proof (do_tcp (m_tcp m) w3 H3) as D0. destruct (install_tcp bd ctx (m_tcp m) w3) as [e4 w4]. destruct D0 as [(-> & D1 & D2 & D3 & D4 & D5)|(E & M & _ & S1 & D & P)];
      [cbn [is_success]|rewrite E; right; split; [exact E|]; split; [tauto|]; split; [|split]; [destruct D as [-> |[_ ->]]; [exact H3|lia]|destruct D as [-> |[_ ->]]; [left; congruence|right; split; [right; exact M|congruence]]|kps]].
    assert (H4 : depth w4 <> 0) by congruence. pose proof (do_udp (m_udp m) w4 H4) as E0. destruct (install_udp bd ctx (m_udp m) w4) as [e5 w5]. destruct E0 as [(-> & E1 & E2 & E3 & E4 & E5)|(E & M & _ & S1 & D & P)].
    - left. split; [reflexivity|]. split; [auto|]. split; [rewrite E2, D2, C2, B2, A2; reflexivity|]. split; [congruence|]. split; [clear - A4 B4 C4 D4 E4; lia|].
      intros NZ. clear - NZ A4 A5 B4 B5 C4 C5 D4 D5 E4 E5.
      destruct (N.eq_dec (m_eth m) 0) as [Z1|Z1]; [|specialize (A5 Z1); lia]. destruct (N.eq_dec (m_ip m) 0) as [Z2|Z2]; [|specialize (B5 Z2); lia].
      destruct (N.eq_dec (m_icmp m) 0) as [Z3|Z3]; [|specialize (C5 Z3); lia]. destruct (N.eq_dec (m_tcp m) 0) as [Z4|Z4]; [|specialize (D5 Z4); lia].
      destruct (N.eq_dec (m_udp m) 0) as [Z5|Z5]; [|specialize (E5 Z5); lia]. exfalso. apply NZ. auto.
    - right; split; [exact E|]; split; [tauto|]; split; [|split]; [destruct D as [-> |[? _]]; [exact H4|discriminate]|destruct D as [-> |[? _]]; [left; congruence|discriminate]|kps].
  Qed.
End Installing.
Lemma in_mask_tcp : forall m r, m <> 0 -> has (sl_mask (slot_for 0 (tcp_mask_of m))) (number r) = tcp_wanted m r /\ tcp_mask_of m <> 0.
Proof.
  intros m r NZ. unfold slot_for, tcp_mask_of. destruct (N.eqb_spec (N.land m CONNECTION_EVENTS) 0) as [E|E].
  - destruct (N.eqb_spec m 0); [congruence|]. cbn [sl_mask]. split; [|assumption]. unfold tcp_wanted, in_mask. unfold has.
    assert (K : forall k, N.testbit CONNECTION_EVENTS k = true -> N.testbit m k = false).
    { intros k T. assert (N.testbit (N.land m CONNECTION_EVENTS) k = false) by (rewrite E; apply N.bits_0). rewrite N.land_spec, T, andb_true_r in H. exact H. }
    cbn [existsb]. rewrite (K (number ACCEPTING)), (K (number CLOSED)), (K (number REMOTE_RESET)) by reflexivity. cbn [orb]. rewrite andb_false_r, orb_false_r. reflexivity.
  - assert (NZ2 : N.lor m CONNECTION_EVENTS <> 0) by (intros X; apply N.lor_eq_0_iff in X; destruct X; discriminate).
    destruct (N.eqb_spec (N.lor m CONNECTION_EVENTS) 0); [congruence|]. cbn [sl_mask]. split; [|assumption].
    assert (EX : existsb (in_mask m) [ACCEPTING; CLOSED; REMOTE_RESET] = true).
    { apply not_false_iff_true. intros X. cbn [existsb] in X. rewrite orb_false_r in X. apply orb_false_iff in X as [X1 X]. apply orb_false_iff in X as [X2 X3]. apply E.
      apply N.bits_inj_0. intros k. rewrite N.land_spec. change CONNECTION_EVENTS with (N.lor (bit 5) (N.lor (bit 6) (bit 7))).
      unfold in_mask, has, number in X1, X2, X3. rewrite !N.lor_spec. pose proof (has_bit) as HB. unfold has in HB. unfold bit. rewrite !HB.
      destruct (N.eqb_spec 5 k) as [<- |_]; [rewrite X1; reflexivity|]. destruct (N.eqb_spec 6 k) as [<- |_]; [rewrite X2; reflexivity|]. destruct (N.eqb_spec 7 k) as [<- |_]; [rewrite X3; reflexivity|]. apply andb_false_r. }
    unfold tcp_wanted. rewrite EX, andb_true_r. unfold in_mask, has. rewrite N.lor_spec. f_equal. destruct r; reflexivity.
Qed.
Lemma pass_eth : forall bd ctx m s, let s' := if b_eth bd then f_eth ctx m s else s in st_ip4 s' = st_ip4 s /\ st_ip6 s' = st_ip6 s /\ st_icmp s' = st_icmp s /\ st_icmp6 s' = st_icmp6 s /\ st_tcp s' = st_tcp s /\ st_udp s' = st_udp s.
Proof. intros bd ctx m s. cbv zeta. unfold f_eth. destruct (b_eth bd); repeat split. Qed.
Lemma pass_ip : forall bd ctx m s, let s' := if b_ip4 bd || b_ip6 bd then f_ip bd ctx m s else s in st_eth s' = st_eth s /\ st_icmp s' = st_icmp s /\ st_icmp6 s' = st_icmp6 s /\ st_tcp s' = st_tcp s /\ st_udp s' = st_udp s.
Proof. intros bd ctx m s. cbv zeta. unfold f_ip. destruct (b_eth bd), (b_ip4 bd), (b_ip6 bd), (b_icmp bd), (b_icmp6 bd), (b_tcp bd), (b_udp bd); repeat split. Qed.
Lemma pass_icmp : forall bd ctx m s, let s' := if b_icmp bd || b_icmp6 bd then f_icmp bd ctx m s else s in st_eth s' = st_eth s /\ st_ip4 s' = st_ip4 s /\ st_ip6 s' = st_ip6 s /\ st_tcp s' = st_tcp s /\ st_udp s' = st_udp s.
Proof. intros bd ctx m s. cbv zeta. unfold f_icmp. destruct (b_eth bd), (b_ip4 bd), (b_ip6 bd), (b_icmp bd), (b_icmp6 bd), (b_tcp bd), (b_udp bd); repeat split. Qed.
Lemma pass_tcp : forall bd ctx m s, let s' := if b_tcp bd then f_tcp ctx m s else s in st_eth s' = st_eth s /\ st_ip4 s' = st_ip4 s /\ st_ip6 s' = st_ip6 s /\ st_icmp s' = st_icmp s /\ st_icmp6 s' = st_icmp6 s /\ st_udp s' = st_udp s.
Proof. intros bd ctx m s. cbv zeta. unfold f_tcp. destruct (b_eth bd), (b_ip4 bd), (b_ip6 bd), (b_icmp bd), (b_icmp6 bd), (b_tcp bd), (b_udp bd); repeat split. Qed.
Lemma pass_udp : forall bd ctx m s, let s' := if b_udp bd then f_udp ctx m s else s in st_eth s' = st_eth s /\ st_ip4 s' = st_ip4 s /\ st_ip6 s' = st_ip6 s /\ st_icmp s' = st_icmp s /\ st_icmp6 s' = st_icmp6 s /\ st_tcp s' = st_tcp s.
Proof. intros bd ctx m s. cbv zeta. unfold f_udp. destruct (b_eth bd), (b_ip4 bd), (b_ip6 bd), (b_icmp bd), (b_icmp6 bd), (b_tcp bd), (b_udp bd); repeat split. Qed.
Lemma set_here_eth : forall bd ctx m s, st_eth (if b_eth bd then f_eth ctx m s else s) = if b_eth bd then slot_for ctx m else st_eth s.
Proof. intros bd ctx m s. unfold f_eth. destruct (b_eth bd); reflexivity. Qed.
Lemma set_here_ip4 : forall bd ctx m s, st_ip4 (if b_ip4 bd || b_ip6 bd then f_ip bd ctx m s else s) = if b_ip4 bd then slot_for ctx m else st_ip4 s.
Proof. intros bd ctx m s. unfold f_ip. destruct (b_eth bd), (b_ip4 bd), (b_ip6 bd), (b_icmp bd), (b_icmp6 bd), (b_tcp bd), (b_udp bd); reflexivity. Qed.
Lemma set_here_ip6 : forall bd ctx m s, st_ip6 (if b_ip4 bd || b_ip6 bd then f_ip bd ctx m s else s) = if b_ip6 bd then slot_for ctx m else st_ip6 s.
Proof. intros bd ctx m s. unfold f_ip. destruct (b_eth bd), (b_ip4 bd), (b_ip6 bd), (b_icmp bd), (b_icmp6 bd), (b_tcp bd), (b_udp bd); reflexivity. Qed.
Lemma set_here_icmp : forall bd ctx m s, st_icmp (if b_icmp bd || b_icmp6 bd then f_icmp bd ctx m s else s) = if b_icmp bd then (if m =? 0 then mkSlot false (sl_mask (st_icmp s)) (sl_arg (st_icmp s)) else slot_for ctx m) else st_icmp s.
Proof. intros bd ctx m s. unfold f_icmp. destruct (b_eth bd), (b_ip4 bd), (b_ip6 bd), (b_icmp bd), (b_icmp6 bd), (b_tcp bd), (b_udp bd); reflexivity. Qed.
Lemma set_here_icmp6 : forall bd ctx m s, st_icmp6 (if b_icmp bd || b_icmp6 bd then f_icmp bd ctx m s else s) = if b_icmp6 bd then slot_for ctx m else st_icmp6 s.
Proof. intros bd ctx m s. unfold f_icmp. destruct (b_eth bd), (b_ip4 bd), (b_ip6 bd), (b_icmp bd), (b_icmp6 bd), (b_tcp bd), (b_udp bd); reflexivity. Qed.
Lemma set_here_tcp : forall bd ctx m s, st_tcp (if b_tcp bd then f_tcp ctx m s else s) = if b_tcp bd then slot_for ctx (tcp_mask_of m) else st_tcp s.
Proof. intros bd ctx m s. unfold f_tcp. destruct (b_eth bd), (b_ip4 bd), (b_ip6 bd), (b_icmp bd), (b_icmp6 bd), (b_tcp bd), (b_udp bd); reflexivity. Qed.
Lemma set_here_udp : forall bd ctx m s, st_udp (if b_udp bd then f_udp ctx m s else s) = if b_udp bd then slot_for ctx m else st_udp s.
Proof. intros bd ctx m s. unfold f_udp. destruct (b_eth bd), (b_ip4 bd), (b_ip6 bd), (b_icmp bd), (b_icmp6 bd), (b_tcp bd), (b_udp bd); reflexivity. Qed.
Lemma F_all_installed : forall bd ctx m s, installed bd ctx m s (F_all bd ctx m s).
Proof.
  intros bd ctx m s.
  assert (P : forall mask, mask <> 0 -> watches ctx (in_mask mask) (slot_for ctx mask)) by (intros k K; unfold slot_for, watches; destruct (N.eqb_spec k 0); [congruence|]; auto).
  assert (Z : slot_for ctx 0 = off) by reflexivity.
  assert (T : forall mask, mask <> 0 -> watches ctx (tcp_wanted mask) (slot_for ctx (tcp_mask_of mask))).
  { intros k K. destruct (in_mask_tcp k BINDING K) as [_ NZ]. unfold watches, slot_for. destruct (N.eqb_spec (tcp_mask_of k) 0) as [X|X]; [congruence|]. cbn [sl_on sl_arg sl_mask]. split; [reflexivity|]. split; [reflexivity|].
    intros r. destruct (in_mask_tcp k r K) as [V _]. unfold slot_for in V. destruct (N.eqb_spec (tcp_mask_of k) 0); [congruence|]. exact V. }
  unfold F_all.
  set (s1 := if b_eth bd then _ else s). set (s2 := if b_ip4 bd || b_ip6 bd then _ else s1). set (s3 := if b_icmp bd || b_icmp6 bd then _ else s2). set (s4 := if b_tcp bd then _ else s3). set (s5 := if b_udp bd then _ else s4).
  pose proof (pass_eth bd ctx (m_eth m) s) as P1. cbv zeta in P1. fold s1 in P1. destruct P1 as (Q1ip4 & Q1ip6 & Q1icmp & Q1icmp6 & Q1tcp & Q1udp).
  pose proof (pass_ip bd ctx (m_ip m) s1) as P2. cbv zeta in P2. fold s2 in P2. destruct P2 as (Q2eth & Q2icmp & Q2icmp6 & Q2tcp & Q2udp).
  pose proof (pass_icmp bd ctx (m_icmp m) s2) as P3. cbv zeta in P3. fold s3 in P3. destruct P3 as (Q3eth & Q3ip4 & Q3ip6 & Q3tcp & Q3udp).
  pose proof (pass_tcp bd ctx (m_tcp m) s3) as P4. cbv zeta in P4. fold s4 in P4. destruct P4 as (Q4eth & Q4ip4 & Q4ip6 & Q4icmp & Q4icmp6 & Q4udp).
  pose proof (pass_udp bd ctx (m_udp m) s4) as P5. cbv zeta in P5. fold s5 in P5. destruct P5 as (Q5eth & Q5ip4 & Q5ip6 & Q5icmp & Q5icmp6 & Q5tcp).
  pose proof (set_here_eth bd ctx (m_eth m) s) as Heth. fold s1 in Heth.
  pose proof (set_here_ip4 bd ctx (m_ip m) s1) as Hip4. fold s2 in Hip4.
  pose proof (set_here_ip6 bd ctx (m_ip m) s1) as Hip6. fold s2 in Hip6.
  pose proof (set_here_icmp bd ctx (m_icmp m) s2) as Hicmp. fold s3 in Hicmp.
  pose proof (set_here_icmp6 bd ctx (m_icmp m) s2) as Hicmp6. fold s3 in Hicmp6.
  pose proof (set_here_tcp bd ctx (m_tcp m) s3) as Htcp. fold s4 in Htcp.
  pose proof (set_here_udp bd ctx (m_udp m) s4) as Hudp. fold s5 in Hudp.
  clearbody s1 s2 s3 s4 s5.
  split; unfold slot_as;
  [rewrite Q5eth, Q4eth, Q3eth, Q2eth, Heth; destruct (b_eth bd); [split; [intros ->; reflexivity|apply P]|reflexivity]|
   rewrite Q5ip4, Q4ip4, Q3ip4, Hip4, Q1ip4; destruct (b_ip4 bd); [split; [intros ->; reflexivity|apply P]|reflexivity]|
   rewrite Q5ip6, Q4ip6, Q3ip6, Hip6, Q1ip6; destruct (b_ip6 bd); [split; [intros ->; reflexivity|apply P]|reflexivity]|
   rewrite Q5icmp, Q4icmp, Hicmp; destruct (b_icmp bd); [split; [intros ->; reflexivity|intros K; destruct (N.eqb_spec (m_icmp m) 0); [congruence|apply P; exact K]]|congruence]|
   rewrite Q5icmp6, Q4icmp6, Hicmp6, Q2icmp6, Q1icmp6; destruct (b_icmp6 bd); [split; [intros ->; reflexivity|apply P]|reflexivity]|
   rewrite Q5tcp, Htcp, Q3tcp, Q2tcp, Q1tcp; destruct (b_tcp bd); [split; [intros ->; reflexivity|apply T]|reflexivity]|
   rewrite Hudp, Q4udp, Q3udp, Q2udp, Q1udp; destruct (b_udp bd); [split; [intros ->; reflexivity|apply P]|reflexivity]].
Qed.
(** Success: every layer that was built is watched for exactly the events asked for (and the TCP layer for all connection
    events if for one), on behalf of the context; a zero mask switches it off; everything asked for exists; the mutex is as
    before; and a cleanup is registered if anything was installed. *)
Theorem C68_install : forall bd ctx m w w', install bd ctx m w = (OK, w') ->
  installed bd ctx m (stk w) (stk w') /\ available bd m /\ depth w' = depth w /\ (nonzero m -> pushed w < pushed w').
Proof.
  intros bd ctx m w w' H. unfold install in H. destruct (lock w) as [ok w1] eqn:L. destruct ok; cbn [negb] in H; [|discriminate].
  assert (K : stk w1 = stk w /\ depth w1 = depth w + 1 /\ pushed w1 = pushed w).
  { unfold lock, draw in L. destruct (N.eqb_spec (depth w) 0) as [Z|Z]; [rewrite Z; destruct (luck w) as [|[] ?]|]; inversion L; subst; cbn; auto. }
  destruct K as (K1 & K2 & K3). assert (D : depth w1 <> 0) by lia. pose proof (all_cases bd ctx m w1 D) as A. unfold all_layers in A.
  destruct (then_ _ _) as [e w2]. destruct A as [(-> & A1 & A2 & A3 & A4 & A5)|(E & _)].
  - cbn [is_success] in H. assert (w' = unlock w2) by congruence. subst w'. cbn [unlock stk depth pushed]. rewrite A2, K1. split; [apply F_all_installed|]. split; [exact A1|]. split; [lia|]. intros NZ. specialize (A5 NZ). lia.
  - rewrite E in H. inversion H. subst e. discriminate E.
Qed.
(** Failure: everything is switched off, unless the mutex could not be had, and then nothing is changed. *)
Lemma zero_masks : ~ nonzero no_masks.
Proof. intros N1. apply N1. repeat split. Qed.
Lemma undo_off : forall bd ctx w, depth w <> 0 ->
  let w1 := snd (install_eth bd ctx 0 w) in let w2 := snd (install_ip bd ctx 0 w1) in let w3 := snd (install_icmp bd ctx 0 w2) in
  let w4 := snd (install_tcp bd ctx 0 w3) in let w5 := snd (install_udp bd ctx 0 w4) in
  stk w5 = F_all bd ctx no_masks (stk w) /\ depth w5 = depth w.
Proof.
  intros bd ctx w H. cbv zeta.
  pose proof (do_eth bd ctx 0 w H) as A. destruct (install_eth bd ctx 0 w) as [e1 w1]. destruct A as [(_ & _ & A2 & A3 & _)|(_ & M & _)]; [|congruence].
  assert (H1 : depth w1 <> 0) by congruence. cbn [snd]. pose proof (do_ip bd ctx 0 w1 H1) as B0. destruct (install_ip bd ctx 0 w1) as [e2 w2]. destruct B0 as [(_ & _ & B2 & B3 & _)|(_ & M & _)]; [|congruence].
  assert (H2 : depth w2 <> 0) by congruence. cbn [snd]. pose proof (do_icmp bd ctx 0 w2 H2) as C0. destruct (install_icmp bd ctx 0 w2) as [e3 w3]. destruct C0 as [(_ & _ & C2 & C3 & _)|(_ & M & _)]; [|congruence].
  assert (H3 : depth w3 <> 0) by congruence. cbn [snd]. pose proof (do_tcp bd ctx 0 w3 H3) as D0. destruct (install_tcp bd ctx 0 w3) as [e4 w4]. destruct D0 as [(_ & _ & D2 & D3 & _)|(_ & M & _)]; [|congruence].
  assert (H4 : depth w4 <> 0) by congruence. cbn [snd]. pose proof (do_udp bd ctx 0 w4 H4) as E0. destruct (install_udp bd ctx 0 w4) as [e5 w5]. destruct E0 as [(_ & _ & E2 & E3 & _)|(_ & M & _)]; [|congruence].
  cbn [snd]. split; [|congruence]. rewrite E2, D2, C2, B2, A2. reflexivity.
Qed.
Lemma off_kept : forall bd ctx s s2 s3, kept bd s s2 -> installed bd ctx no_masks s2 s3 -> installed bd ctx no_masks s s3.
Proof.
  intros bd ctx s s2 s3 (K1 & K2 & K3 & K4 & K5 & K6 & K7) [I1 I2 I3 I4 I5 I6 I7].
  split; unfold slot_as in *; [destruct (b_eth bd)|destruct (b_ip4 bd)|destruct (b_ip6 bd)|destruct (b_icmp bd)|destruct (b_icmp6 bd)|destruct (b_tcp bd)|destruct (b_udp bd)]; try assumption; try congruence;
    [rewrite I1; apply K1|rewrite I2; apply K2|rewrite I3; apply K3|rewrite I4; apply K4|rewrite I5; apply K5|rewrite I6; apply K6|rewrite I7; apply K7]; reflexivity.
Qed.
Lemma lock_cases : forall w ok w1, lock w = (ok, w1) ->
  if ok then stk w1 = stk w /\ depth w1 = depth w + 1 /\ pushed w1 = pushed w else stk w1 = stk w /\ depth w1 = depth w /\ depth w = 0 /\ luck w <> [].
Proof.
  intros w ok w1 L. unfold lock, draw in L. destruct (N.eqb_spec (depth w) 0) as [Z|Z]; [destruct (luck w) as [|[] ?] eqn:E|]; inversion L; subst; cbn; rewrite ?Z; repeat split; auto; discriminate.
Qed.
Theorem C68_install_failure : forall bd ctx m w e w', install bd ctx m w = (e, w') -> is_success e = false ->
  (depth w = 0 /\ stk w' = stk w /\ depth w' = 0) \/ installed bd ctx no_masks (stk w) (stk w').
Proof.
  intros bd ctx m w e w' H F. unfold install in H. destruct (lock w) as [ok w1] eqn:L. pose proof (lock_cases w ok w1 L) as K.
  destruct ok; cbn [negb] in H.
  2: { left. destruct K as (K1 & K2 & K3 & _). assert (w1 = w') by congruence. subst w1. repeat split; congruence. }
  right. destruct K as (K1 & K2 & K3). assert (D : depth w1 <> 0) by lia. pose proof (all_cases bd ctx m w1 D) as A. unfold all_layers in A.
  destruct (then_ _ _) as [e2 w2]. destruct A as [(-> & _)|(E & NZ & D2 & _ & KP)]; [cbn [is_success] in H; inversion H; subst; discriminate F|].
  rewrite E in H. destruct (undo_off bd ctx w2 D2) as [U1 _]. assert (W : w' = unlock (snd (install_udp bd ctx 0 (snd (install_tcp bd ctx 0 (snd (install_icmp bd ctx 0 (snd (install_ip bd ctx 0 (snd (install_eth bd ctx 0 w2))))))))))) by congruence.
  rewrite W. cbn [unlock stk]. rewrite U1. eapply off_kept; [rewrite <- K1; exact KP|]. apply F_all_installed.
Qed.
(** With no bad luck it succeeds if and only if everything asked for was built. *)
Lemma luck_all : forall bd ctx w, luck w = [] ->
  (forall m, luck (snd (install_eth bd ctx m w)) = []) /\ (forall m, luck (snd (install_ip bd ctx m w)) = []) /\ (forall m, luck (snd (install_icmp bd ctx m w)) = []) /\
  (forall m, luck (snd (install_tcp bd ctx m w)) = []) /\ (forall m, luck (snd (install_udp bd ctx m w)) = []).
Proof.
  intros bd ctx w L. repeat split; intros m; unfold install_eth, install_ip, install_icmp, install_tcp, install_udp;
    [destruct (b_eth bd)|destruct (b_ip4 bd || b_ip6 bd)|destruct (b_icmp bd || b_icmp6 bd)|destruct (b_tcp bd)|destruct (b_udp bd)]; try (apply luck_layer; exact L); unfold missing; exact L.
Qed.
Lemma lock_lucky : forall w, luck w = [] -> exists w1, lock w = (true, w1) /\ depth w1 <> 0 /\ luck w1 = [].
Proof.
  intros w L. unfold lock, draw. rewrite L. destruct (depth w =? 0); eexists; (split; [reflexivity|]); cbn [depth luck]; (split; [lia|]); assumption || reflexivity.
Qed.
Theorem C68_install_succeeds : forall bd ctx m w, luck w = [] -> (available bd m <-> exists w', install bd ctx m w = (OK, w')).
Proof.
  intros bd ctx m w L. split; [|intros (w' & H); destruct (C68_install bd ctx m w w' H) as (_ & A & _); exact A].
  intros (V1 & V2 & V3 & V4 & V5). unfold install. destruct (lock_lucky w L) as (w1 & -> & D & L1). cbn [negb]. unfold then_.
  (pose proof (do_eth bd ctx (m_eth m) w1 D) as A; destruct (luck_all bd ctx w1 L1) as (LA & _); specialize (LA (m_eth m)); destruct (install_eth bd ctx (m_eth m) w1) as [e1 v1]; cbn [snd] in LA;
   destruct A as [(-> & _ & _ & A3 & _)|(_ & M & [N1|N1] & _)]; [|specialize (V1 M); congruence|congruence]; cbn [is_success];
   assert (H1 : depth v1 <> 0) by congruence; pose proof (do_ip bd ctx (m_ip m) v1 H1) as B0; destruct (luck_all bd ctx v1 LA) as (_ & LB & _); specialize (LB (m_ip m)); destruct (install_ip bd ctx (m_ip m) v1) as [e2 v2]; cbn [snd] in LB;
   destruct B0 as [(-> & _ & _ & B3 & _)|(_ & M & [N1|N1] & _)]; [|specialize (V2 M); congruence|congruence]; cbn [is_success];
   assert (H2 : depth v2 <> 0) by congruence; pose proof (do_icmp bd ctx (m_icmp m) v2 H2) as C0; destruct (luck_all bd ctx v2 LB) as (_ & _ & LC & _); specialize (LC (m_icmp m)); destruct (install_icmp bd ctx (m_icmp m) v2) as [e3 v3]; cbn [snd] in LC;
   destruct C0 as [(-> & _ & _ & C3 & _)|(_ & M & [N1|N1] & _)]; [|specialize (V3 M); congruence|congruence]; cbn [is_success];
   assert (H3 : depth v3 <> 0) by congruence; pose proof (do_tcp bd ctx (m_tcp m) v3 H3) as D0; destruct (luck_all bd ctx v3 LC) as (_ & _ & _ & LD & _); specialize (LD (m_tcp m)); destruct (install_tcp bd ctx (m_tcp m) v3) as [e4 v4]; cbn [snd] in LD;
   destruct D0 as [(-> & _ & _ & D3 & _)|(_ & M & [N1|N1] & _)]; [|specialize (V4 M); congruence|congruence]; cbn [is_success];
   assert (H4 : depth v4 <> 0) by congruence; pose proof (do_udp bd ctx (m_udp m) v4 H4) as E0; destruct (install_udp bd ctx (m_udp m) v4) as [e5 v5];
   destruct E0 as [(-> & _ & _ & E3 & _)|(_ & M & [N1|N1] & _)]; [|specialize (V5 M); congruence|congruence]; cbn [is_success]; eexists; reflexivity).
Qed.
(** The mutex is given back, if neither ICMP nor TCP filters are asked for. *)
Theorem C68_mutex_partial : forall bd ctx m w e w', install bd ctx m w = (e, w') -> m_icmp m = 0 -> m_tcp m = 0 -> depth w' = depth w.
Proof.
  intros bd ctx m w e w' H MI MT. unfold install in H. destruct (lock w) as [ok w1] eqn:L. pose proof (lock_cases w ok w1 L) as K.
  destruct ok; cbn [negb] in H; [|destruct K as (_ & K2 & _); congruence].
  destruct K as (K1 & K2 & K3). assert (D : depth w1 <> 0) by lia. pose proof (all_cases bd ctx m w1 D) as A. unfold all_layers in A.
  destruct (then_ _ _) as [e2 w2]. destruct A as [(-> & _ & _ & A3 & _)|(E & NZ & D2 & D3 & _)].
  - cbn [is_success] in H. assert (w' = unlock w2) by congruence. subst w'. cbn [unlock depth]. lia.
  - rewrite E in H. destruct (undo_off bd ctx w2 D2) as [_ U2]. assert (W : w' = unlock (snd (install_udp bd ctx 0 (snd (install_tcp bd ctx 0 (snd (install_icmp bd ctx 0 (snd (install_ip bd ctx 0 (snd (install_eth bd ctx 0 w2))))))))))) by congruence.
    rewrite W. cbn [unlock depth]. rewrite U2. destruct D3 as [-> |[[X|X] _]]; [lia|congruence|congruence].
Qed.
(** The registered cleanup switches the filters off. *)
Theorem C68_cleanup : forall bd ctx w, luck w = [] -> installed bd ctx no_masks (stk w) (stk (cleanup bd ctx w)) /\ depth (cleanup bd ctx w) = depth w.
Proof.
  intros bd ctx w L. unfold cleanup. assert (A : available bd (mkMasks 0 0 0 0 0)) by (repeat split; intros K; cbn in K; congruence).
  destruct (proj1 (C68_install_succeeds bd ctx _ w L) A) as (w' & H). rewrite H. cbn [snd]. destruct (C68_install bd ctx _ w w' H) as (I1 & _ & I2 & _). auto.
Qed.
(** ** What does not hold *)
Definition full : build := mkBuild true true true true true true true.
Definition nothing : stack := mkStack off off off off off off off.
(** The mutex stays locked when the cleanup for the ICMP or TCP filters cannot be registered. *)
Theorem C68_mutex_refuted :
  (let w := mkWorld nothing 0 0 [true; false] in let '(e, w') := install full 7 (mkMasks 0 0 256 0 0) w in is_success e = false /\ depth w = 0 /\ depth w' = 1) /\
  (let w := mkWorld nothing 0 0 [true; false] in let '(e, w') := install_tcp full 7 32 w in is_success e = false /\ depth w' = 1).
Proof. vm_compute. repeat split. Qed.
(** The shutdown of one context switches off the filters of another. *)
Theorem C68_other_context_refuted :
  let w := mkWorld nothing 0 0 [] in
  let w1 := snd (install full 7 (mkMasks 0 256 0 0 0) w) in
  let w2 := snd (install full 8 (mkMasks 0 256 0 32 0) w1) in
  let w3 := cleanup full 7 w2 in
  watches 8 (in_mask 256) (st_ip4 (stk w2)) /\ silent (st_ip4 (stk w3)) /\ silent (st_tcp (stk w3)).
Proof. split; [split; [reflexivity|split; [reflexivity|]]|split; reflexivity]. intros r; reflexivity. Qed.
(** And a context that replaces its own filters leaves a cleanup for each time. *)
Example C68_install_example :
  let m := mkMasks 768 256 256 32 0 in let w := mkWorld nothing 0 0 [] in
  available full m /\ nonzero m /\ exists w', install full 7 m w = (OK, w') /\ pushed w' = 4 /\ has (sl_mask (st_tcp (stk w'))) (number CLOSED) = true /\ has (sl_mask (st_tcp (stk w'))) (number RECEIVING) = false.
Proof.
  split; [repeat split|]. split; [intros (K & _); discriminate K|]. eexists. split; [vm_compute; reflexivity|]. split; [reflexivity|]. split; reflexivity.
Qed.
Print Assumptions C68_install.
Print Assumptions C68_install_failure.
Print Assumptions C68_install_succeeds.
Print Assumptions C68_mutex_partial.
Print Assumptions C68_cleanup.
Print Assumptions C68_mutex_refuted.
Print Assumptions C68_other_context_refuted.
