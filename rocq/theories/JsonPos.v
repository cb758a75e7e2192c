(** * Positions: proofs *)
Require Import ZArith List Bool Lia.
From Verif Require Import Json JsonProofs JsonChunks JsonPosSpec.
Import ListNotations.
Open Scope Z_scope.

Definition LCL0 := 18446744073709551614.
Fixpoint last_cr (off lcl : Z) (l : list Z) : Z :=
  match l with
  | [] => lcl
  | c :: l' => last_cr (off + 1) (if c =? 13 then off + 1 else lcl) l'
  end.
Definition lcl_of (d : list Z) : Z := last_cr 0 LCL0 d.

Lemma last_cr_snoc : forall l off lcl c,
  last_cr off lcl (l ++ [c]) = if c =? 13 then off + Z.of_nat (length l) + 1 else last_cr off lcl l.
Proof.
  induction l as [|a l IH]; intros off lcl c; cbn [app last_cr length].
  - destruct (c =? 13); lia.
  - rewrite IH. destruct (c =? 13); [lia|reflexivity].
Qed.
Lemma lcl_snoc : forall d c, lcl_of (d ++ [c]) = if c =? 13 then Z.of_nat (length d) + 1 else lcl_of d.
Proof. intros. unfold lcl_of. rewrite last_cr_snoc. destruct (c =? 13); lia. Qed.

Lemma lcl_bound : forall d, lcl_of d <= Z.of_nat (length d) \/ lcl_of d = LCL0.
Proof.
  induction d as [|c d IH] using rev_ind; [right; reflexivity|].
  rewrite lcl_snoc, app_length. cbn [length]. destruct (c =? 13); [left; lia|]. destruct IH; [left; lia|right; assumption].
Qed.

Definition ends_cr (b : bool) (l : list Z) : bool := last l (if b then 13 else 0) =? 13.
Lemma line_ends_snoc : forall l b c,
  line_ends b (l ++ [c]) = line_ends b l + (if c =? 13 then 1 else if (c =? 10) && negb (ends_cr b l) then 1 else 0).
Proof.
  induction l as [|a l IH]; intros b c.
  - cbn [app line_ends]. unfold ends_cr. cbn [last]. destruct b; cbn [Z.eqb]; rewrite ?Z.add_0_r; reflexivity.
  - cbn [app line_ends]. rewrite IH.
    assert (E : ends_cr (a =? 13) l = ends_cr b (a :: l)).
    { unfold ends_cr. destruct l as [|x l]; cbn [last].
      - destruct (Z.eqb_spec a 13) as [->|N]; [reflexivity|]. cbn. destruct (Z.eqb_spec a 13); [contradiction|reflexivity].
      - f_equal. clear. revert x. induction l as [|y l IH]; intros x; [reflexivity|]. cbn [last] in *. apply IH. }
    rewrite E. lia.
Qed.
Lemma lcl_ends : forall d, Z.of_nat (length d) < LCL0 -> (lcl_of d =? Z.of_nat (length d)) = ends_cr false d.
Proof.
  induction d as [|c d _] using rev_ind; intros L.
  - reflexivity.
  - rewrite lcl_snoc. unfold ends_cr. rewrite last_last. rewrite app_length in L. cbn [length] in L. rewrite app_length. cbn [length].
    destruct (c =? 13); [apply Z.eqb_eq; lia|]. apply Z.eqb_neq. destruct (lcl_bound d); unfold LCL0 in *; lia.
Qed.

Lemma last_line_snoc : forall d c, last_line (d ++ [c]) = if newline c then [] else last_line d ++ [c].
Proof. intros. unfold last_line. rewrite fold_left_app. reflexivity. Qed.

Definition pos_of (d : list Z) : jpos := JPos (Z.of_nat (length d)) (u32w (line_at d)) (u32w (column_at d)).
Lemma pos_of_after : forall d, is_after d (pos_of d).
Proof. intros. split; [reflexivity|split; reflexivity]. Qed.

Lemma column_plain : forall d c, newline c = false -> column_at (d ++ [c]) = column_at d + 1.
Proof.
  intros d c H. unfold column_at. rewrite last_line_snoc, H, app_length, existsb_app. cbn [existsb length]. rewrite H, !orb_false_r. lia.
Qed.
Lemma line_plain : forall d c, newline c = false -> line_at (d ++ [c]) = line_at d.
Proof.
  intros d c H. unfold newline in H. apply orb_false_iff in H. destruct H as [H1 H2].
  unfold line_at. rewrite line_ends_snoc, H1, H2. cbn [andb]. lia.
Qed.
Lemma column_newline : forall d c, newline c = true -> column_at (d ++ [c]) = 0.
Proof.
  intros d c H. unfold column_at. rewrite last_line_snoc, H, existsb_app. cbn [existsb length]. rewrite H, orb_true_r. reflexivity.
Qed.

Lemma position_app : forall d e x, position_in d x -> position_in (d ++ e) x.
Proof. intros d e x (b & a & -> & H). exists b, (a ++ e). rewrite app_assoc. split; [reflexivity|exact H]. Qed.
Lemma position_end : forall d, position_in d (pos_of d).
Proof. intros. exists d, []. rewrite app_nil_r. split; [reflexivity|apply pos_of_after]. Qed.

Section P.
Context {U : Type}.
Variable cfg : jconfig.
Variable cb : jtype -> list Z -> U -> Z * U.
Implicit Types p q : parser U.
Hypothesis Hcfg : 0 <= max_number_len cfg /\ 0 <= max_string_len cfg /\ 0 <= max_key_len cfg.
Hypothesis Hval : 0 <= max_total_values cfg.

(** Failures for which no position is recorded: the callback's, and a root array or object that is not allowed. *)
Definition blame (e : Z) : Prop :=
  (exists t x w, fst (cb t x w) = e) \/
  (e = ERR_BADROOTTYPE /\ (root_refused cfg JSON_ARRAY_BEG = true \/ root_refused cfg JSON_OBJECT_BEG = true)).

Definition vok (d : list Z) p : Prop :=
  position_in d (p_vpos p) \/ (p_vpos p = JPos 0 0 0 /\ p_vcount p = 0 /\ p_auto p = A_MAIN).
(** [p] has consumed [d]; the value began within [dv]. *)
Definition Inv (dv d : list Z) p : Prop :=
  0 <= p_err p /\ p_epos p = JPos 0 0 0 /\ p_pos p = pos_of d /\ p_lcl p = lcl_of d /\ 0 <= p_vcount p /\ vok dv p.
Definition Bad (d : list Z) q : Prop :=
  p_err q < 0 /\ (position_in d (p_epos q) \/ (p_epos q = JPos 0 0 0 /\ blame (p_err q))).

Lemma Inv_init : forall u, Inv [] [] (json_init u).
Proof. intros. split; [cbn; lia|]. split; [reflexivity|]. split; [reflexivity|]. split; [reflexivity|]. split; [cbn; lia|]. right. split; [reflexivity|split; reflexivity]. Qed.

Lemma Inv_weaken : forall dv d e p, Inv dv d p -> Inv (dv ++ e) d p.
Proof.
  intros dv d e p (A & B & C & D & E & F). split; [exact A|]. split; [exact B|]. split; [exact C|]. split; [exact D|]. split; [exact E|].
  destruct F as [F|F]; [left; apply position_app; exact F|right; exact F].
Qed.

Lemma raise_bad : forall dv d p e x, Inv dv d p -> e < 0 -> position_in d x -> Bad d (raise_at p e x).
Proof.
  intros dv d p e x (A & _) He Hx. unfold raise_at. replace (0 <=? p_err p) with true by (symmetry; apply Z.leb_le; exact A).
  split; [exact He|]. left. exact Hx.
Qed.

(** [keep p q]: nothing that concerns positions changes, but the automaton. *)
Definition keep p q : Prop :=
  p_err q = p_err p /\ p_epos q = p_epos p /\ p_pos q = p_pos p /\ p_lcl q = p_lcl p /\ p_vcount q = p_vcount p /\
  p_vpos q = p_vpos p /\ p_auto q = p_auto p.
Lemma Inv_keep : forall dv d p q, keep p q -> Inv dv d p -> Inv dv d q.
Proof.
  intros dv d p q (A & B & C & D & E & F & G) (A' & B' & C' & D' & E' & F').
  unfold Inv, vok. rewrite A, B, C, D, E, F, G. tauto.
Qed.

Lemma switch_inv : forall dv d p a, Inv dv d p -> Inv d d (switch p a).
Proof.
  intros dv d p a (A & B & C & D & E & F). split; [exact A|]. split; [exact B|]. split; [exact C|]. split; [exact D|]. split; [exact E|].
  left. cbn [p_vpos switch]. rewrite C. apply position_end.
Qed.

(** A callback: the value began within [dv] if there is a value automaton. *)
Lemma process_pos : forall dv d p t x,
  Inv dv d p -> (p_auto p <> A_MAIN \/ t = JSON_ARRAY_BEG \/ t = JSON_OBJECT_BEG \/ is_closer_type t = true) ->
  Inv d d (process cfg cb p t x) \/ Bad dv (process cfg cb p t x).
Proof.
  intros dv d p t x HI HT.
  assert (CALL : forall q, 0 <= p_err q /\ p_epos q = JPos 0 0 0 /\ p_pos q = pos_of d /\ p_lcl q = lcl_of d /\ 0 <= p_vcount q -> Inv d d (process_call cb q t x) \/ Bad dv (process_call cb q t x)).
  { intros q HQ. unfold process_call. destruct (cb t x (p_user q)) as [e w] eqn:EC.
    destruct (Z_lt_le_dec e 0) as [Ln|Ln].
    - right. split; [exact Ln|]. right. destruct HQ as (_ & Q & _). split; [exact Q|]. left. exists t, x, (p_user q). rewrite EC. reflexivity.
    - left. destruct HQ as (A & B & C & D & E). split; [exact Ln|]. split; [exact B|]. split; [exact C|]. split; [exact D|]. split; [exact E|].
      left. cbn. rewrite C. apply position_end. }
  assert (HV : p_auto p <> A_MAIN -> position_in dv (p_vpos p)).
  { intros HA. destruct HI as (_ & _ & _ & _ & _ & [F|(_ & _ & F)]); [exact F|contradiction]. }
  unfold process. pose proof HI as (A & B & C & D & E & F).
  replace (p_err p <? 0) with false by (symmetry; apply Z.ltb_ge; exact A).
  destruct (is_closer_type t) eqn:EC; [apply CALL; tauto|].
  destruct ((p_vcount p =? 0) && root_refused cfg t) eqn:ER.
  { right. unfold raise_v, raise_at. replace (0 <=? p_err p) with true by (symmetry; apply Z.leb_le; exact A).
    split; [reflexivity|]. cbn [p_epos p_err with_error].
    destruct F as [F|(F1 & _ & F2)]; [left; exact F|]. right. split; [exact F1|]. right. split; [reflexivity|].
    apply andb_prop in ER. destruct ER as [_ ER]. destruct HT as [HT|[->|[->|HT]]]; [contradiction|left; exact ER|right; exact ER|congruence]. }
  destruct (negb (max_total_values cfg =? 0) && (max_total_values cfg <=? p_vcount p)) eqn:EM.
  { right. unfold raise_v, raise_at. replace (0 <=? p_err p) with true by (symmetry; apply Z.leb_le; exact A).
    split; [reflexivity|]. cbn [p_epos p_err with_error]. left.
    apply andb_prop in EM. destruct EM as [EM1 EM2]. apply Z.leb_le in EM2. apply negb_true_iff, Z.eqb_neq in EM1.
    destruct F as [F|(_ & F & _)]; [exact F|lia]. }
  apply CALL. split; [exact A|]. split; [exact B|]. split; [exact C|]. split; [exact D|]. cbn. lia.
Qed.

(** Consuming a byte that is not a line end. *)
Lemma advance_inv : forall dv d p c, Inv dv d p -> newline c = false -> Inv dv (d ++ [c]) (advance p 1).
Proof.
  intros dv d p c (A & B & C & D & E & F) H. split; [exact A|]. split; [exact B|]. split; [|split; [|split; [exact E|exact F]]].
  - cbn [p_pos advance with_pos]. rewrite C. unfold pos_of. cbn [p_off p_line p_col]. rewrite column_plain, line_plain, app_length by exact H.
    cbn [length]. unfold u32w. rewrite Zplus_mod_idemp_l. f_equal. lia.
  - cbn [p_lcl advance with_pos]. rewrite D, lcl_snoc. unfold newline in H. apply orb_false_iff in H. destruct H as [-> _]. reflexivity.
Qed.
(** ... and any byte, by the main automaton. *)
Lemma new_line_inv : forall dv d p c, Inv dv d p -> Z.of_nat (length d) < LCL0 -> Inv dv (d ++ [c]) (new_line (advance p 1) c).
Proof.
  intros dv d p c HI HL. destruct (newline c) eqn:EN.
  2:{ unfold new_line. unfold newline in EN. pose proof EN as EN2. apply orb_false_iff in EN2. destruct EN2 as [-> ->].
      apply advance_inv; assumption. }
  destruct HI as (A & B & C & D & E & F).
  assert (CN : column_at (d ++ [c]) = 0) by (apply column_newline; exact EN).
  unfold new_line. unfold newline in EN. destruct (c =? 13) eqn:E13.
  - split; [exact A|]. split; [exact B|]. split; [|split; [|split; [exact E|exact F]]].
    + cbn [p_pos advance with_pos with_line]. rewrite C. unfold pos_of. cbn [p_off p_line p_col]. rewrite CN, app_length. cbn [length].
      unfold line_at. rewrite line_ends_snoc, E13. unfold u32w. rewrite Zplus_mod_idemp_l. f_equal; [lia|f_equal; lia].
    + cbn [p_lcl with_line p_pos advance with_pos p_off]. rewrite C, lcl_snoc, E13. reflexivity.
  - cbn [orb] in EN. rewrite EN. split; [exact A|]. split; [exact B|]. split; [|split; [|split; [exact E|exact F]]].
    + cbn [p_pos p_lcl advance with_pos with_line]. rewrite C, D. unfold pos_of. cbn [p_off p_line p_col]. rewrite CN, app_length. cbn [length].
      unfold line_at. rewrite line_ends_snoc, E13, EN. cbn [andb].
      assert (EQ : (Z.of_nat (length d) + 1 =? lcl_of d + 1) = ends_cr false d).
      { rewrite <- lcl_ends by exact HL. destruct (Z.eqb_spec (lcl_of d) (Z.of_nat (length d))) as [->|N]; [apply Z.eqb_refl|apply Z.eqb_neq; lia]. }
      rewrite EQ. destruct (ends_cr false d); cbn [negb].
      * f_equal; [lia|]. f_equal. lia.
      * unfold u32w. rewrite Zplus_mod_idemp_l. f_equal; [lia|f_equal; lia].
    + cbn [p_lcl with_line advance with_pos]. rewrite D, lcl_snoc, E13. reflexivity.
Qed.

(** What a byte leads to. *)
Definition Res (d : list Z) (c : Z) q : Prop := Inv (d ++ [c]) (d ++ [c]) q \/ Bad d q.

(** ** Strings *)
Definition stops p p1 : Prop := p_err p1 < 0 /\ (p_epos p1 = p_pos p \/ p_epos p1 = p_vpos p).
Definition iter_ok p (c : Z) (r : iter) : Prop :=
  match r with
  | IStop p1 => stops p p1
  | INext p1 => keep p p1 /\ newline c = false
  | IReplay p1 => keep p p1
  end.
Lemma keep_refl : forall p, keep p p.
Proof. intros. unfold keep. tauto. Qed.
Lemma keep_trans : forall p q r, keep p q -> keep q r -> keep p r.
Proof. unfold keep. intros p q r. intuition congruence. Qed.
Lemma keep_stops : forall p q r, keep p q -> stops q r -> stops p r.
Proof. unfold keep, stops. intros p q r (_ & _ & A & _ & _ & B & _). rewrite A, B. tauto. Qed.
Lemma stops_raise : forall p e, 0 <= p_err p -> e < 0 -> stops p (raise p e).
Proof.
  intros p e A He. unfold raise, raise_at. replace (0 <=? p_err p) with true by (symmetry; apply Z.leb_le; exact A).
  split; [exact He|left; reflexivity].
Qed.
Lemma stops_raise_v : forall p e, 0 <= p_err p -> e < 0 -> stops p (raise_v p e).
Proof.
  intros p e A He. unfold raise_v, raise_at. replace (0 <=? p_err p) with true by (symmetry; apply Z.leb_le; exact A).
  split; [exact He|right; reflexivity].
Qed.
Lemma ill_pos : forall ign fx p c p1 ok, 0 <= p_err p -> ill_surrogate ign fx p c = (p1, ok) ->
  if ok then keep p p1 else stops p p1.
Proof.
  intros ign fx p c p1 ok A H. unfold ill_surrogate in H.
  destruct ign; [|destruct fx]; inversion H; subst; [unfold keep; cbn; tauto|unfold keep; cbn; tauto|].
  apply stops_raise; [exact A|reflexivity].
Qed.
Ltac kp := unfold keep; cbn; tauto.
Lemma keep_err : forall p q, keep p q -> p_err q = p_err p.
Proof. intros p q H. apply H. Qed.

Lemma escape_pos : forall ign fx p, 0 <= p_err p ->
  match escape_done ign fx p with
  | IStop p1 => stops p p1 | INext p1 => keep p p1 | IReplay _ => False end.
Proof.
  intros ign fx p A. unfold escape_done. set (c1 := p_cp1 p).
  assert (REST : forall q, keep p q ->
    match (if (p_cp0 q =? 0) && is_lo c1 then
             let '(p1, ok) := ill_surrogate ign fx q c1 in
             if ok then INext (with_cp (with_sub p1 0) (p_cp0 p1) 0) else IStop p1
           else if negb (p_cp0 q =? 0) && is_lo c1 then
             let c := 65536 + (p_cp0 q - 55296) * 1024 + (c1 - 56320) in
             INext (with_cp (with_sub (buf_append q (utf8_of c)) 0) 0 0)
           else if is_hi c1 then INext (with_cp (with_sub q (ABCD - 2)) c1 0)
           else INext (with_cp (with_sub (buf_append q (utf8_of c1)) 0) (p_cp0 q) 0)) with
    | IStop p1 => stops p p1 | INext p1 => keep p p1 | IReplay _ => False end).
  { intros q K. assert (Aq : 0 <= p_err q) by (rewrite (keep_err _ _ K); exact A).
    destruct (_ && _).
    - destruct (ill_surrogate ign fx q c1) as [p1 ok] eqn:EI. apply ill_pos in EI; [|exact Aq].
      destruct ok; [|eapply keep_stops; eassumption]. eapply keep_trans; [exact K|]. eapply keep_trans; [exact EI|]. kp.
    - destruct (_ && _); [eapply keep_trans; [exact K|kp]|]. destruct (is_hi c1); (eapply keep_trans; [exact K|kp]). }
  destruct (negb (p_cp0 p =? 0) && negb (is_lo c1)).
  - destruct (ill_surrogate ign fx p (p_cp0 p)) as [p1 ok] eqn:EI. apply ill_pos in EI; [|exact A]. destruct ok.
    + cbn [negb]. apply REST. eapply keep_trans; [exact EI|]. kp.
    + cbn [negb]. exact EI.
  - cbn [negb]. apply REST. apply keep_refl.
Qed.

Lemma newline_cases : forall c, newline c = true -> c = 13 \/ c = 10.
Proof. intros c H. unfold newline in H. apply orb_prop in H. destruct H as [H|H]; apply Z.eqb_eq in H; auto. Qed.

Lemma string_iter_pos : forall ign fx p c, 0 <= p_err p -> iter_ok p c (string_iter ign fx p c).
Proof.
  intros ign fx p c A.
  assert (NL : (forall q, string_iter ign fx p c = INext q -> keep p q) ->
               (newline c = true -> forall q, string_iter ign fx p c <> INext q) ->
               (forall q, string_iter ign fx p c = IStop q -> stops p q) ->
               (forall q, string_iter ign fx p c = IReplay q -> keep p q) -> iter_ok p c (string_iter ign fx p c)).
  { intros H1 H2 H3 H4. destruct (string_iter ign fx p c) as [q|q|q]; cbn.
    - apply H3; reflexivity.
    - apply H4; reflexivity.
    - split; [apply H1; reflexivity|]. destruct (newline c); [|reflexivity]. exfalso. apply (H2 eq_refl q). reflexivity. }
  assert (Hr : forall e, e < 0 -> stops p (raise p e)) by (intros; apply stops_raise; assumption).
  assert (Hrv : forall e, e < 0 -> stops p (raise_v p e)) by (intros; apply stops_raise_v; assumption).
  assert (BASE : match string_iter ign fx p c with
                 | IStop p1 => stops p p1 | INext p1 => keep p p1 | IReplay p1 => keep p p1 end).
  { unfold string_iter. destruct (p_sub p =? 0).
    { destruct (is_control c).
      - destruct (_ || _); [apply Hrv|apply Hr]; reflexivity.
      - destruct (c =? ch_bslash); [kp|]. destruct (utf8_lead c); [kp|]. destruct fx; [kp|apply Hr; reflexivity]. }
    destruct (p_sub p <=? 7).
    { destruct (utf8_trail (p_sub p) c); [kp|]. destruct fx; [kp|apply Hr; reflexivity]. }
    destruct (p_sub p =? ch_bslash).
    { destruct (c =? 117); [kp|]. destruct (simple_escape c); [kp|apply Hr; reflexivity]. }
    destruct (ABCD <? p_sub p).
    { destruct (negb (is_xdigit c)); [apply Hr; reflexivity|].
      match goal with |- context [escape_done ign fx ?q] => pose proof (escape_pos ign fx q) as Hd; assert (K : keep p q) by kp end.
      cbv zeta. destruct (p_sub _ =? ABCD); [|exact K].
      match type of Hd with _ -> match ?e with _ => _ end => destruct e as [q|q|q] end.
      - eapply keep_stops; [exact K|]. apply Hd. exact A.
      - exfalso. apply Hd. exact A.
      - eapply keep_trans; [exact K|]. apply Hd. exact A. }
    destruct (ABCD - 2 <=? p_sub p); [|apply Hr; reflexivity].
    destruct (_ && _); [kp|]. destruct (_ && _); [kp|].
    destruct (ill_surrogate ign fx p (p_cp0 p)) as [p1 ok] eqn:EI. apply ill_pos in EI; [|exact A].
    destruct ok; [|exact EI]. eapply keep_trans; [exact EI|kp]. }
  apply NL.
  - intros q E. rewrite E in BASE. exact BASE.
  - intros HN q. assert (C : is_control c = true /\ (c =? ch_bslash) = false /\ (forall s, utf8_trail s c = None) /\ (c =? 117) = false /\ simple_escape c = None /\ is_xdigit c = false).
    { apply newline_cases in HN. destruct HN as [-> | ->].
      - split; [reflexivity|]. split; [reflexivity|]. split; [|split; [reflexivity|split; reflexivity]].
        intros s. unfold utf8_trail. cbn [Z.land]. change (0 =? 128) with false. change (Z.land 13 192 =? 128) with false.
        change (is_in 13 160 191) with false. change (is_in 13 128 159) with false. change (is_in 13 144 191) with false. change (is_in 13 128 143) with false.
        rewrite !andb_false_r. reflexivity.
      - split; [reflexivity|]. split; [reflexivity|]. split; [|split; [reflexivity|split; reflexivity]].
        intros s. unfold utf8_trail. change (Z.land 10 192 =? 128) with false.
        change (is_in 10 160 191) with false. change (is_in 10 128 159) with false. change (is_in 10 144 191) with false. change (is_in 10 128 143) with false.
        rewrite !andb_false_r. reflexivity. }
    destruct C as (C1 & C2 & C3 & C4 & C5 & C6). unfold string_iter. rewrite C1, C2, C3, C4, C5, C6. cbn [negb]. rewrite !andb_false_r.
    destruct (p_sub p =? 0); [destruct (_ || _); discriminate|].
    destruct (p_sub p <=? 7); [destruct fx; discriminate|].
    destruct (p_sub p =? ch_bslash); [discriminate|].
    destruct (ABCD <? p_sub p); [discriminate|].
    destruct (ABCD - 2 <=? p_sub p); [|discriminate].
    destruct (ill_surrogate ign fx p (p_cp0 p)) as [p1 ok]. destruct ok; discriminate.
  - intros q E. rewrite E in BASE. exact BASE.
  - intros q E. rewrite E in BASE. exact BASE.
Qed.

Lemma stops_bad : forall d p p1, Inv d d p -> p_auto p <> A_MAIN -> stops p p1 -> Bad d p1.
Proof.
  intros d p p1 (_ & _ & C & _ & _ & F) HA (E & H). split; [exact E|]. left.
  destruct H as [H|H]; rewrite H.
  - rewrite C. apply position_end.
  - destruct F as [F|(_ & _ & F)]; [exact F|contradiction].
Qed.

Definition SRes (d : list Z) (c : Z) q : Prop :=
  Bad d q \/ (Inv (d ++ [c]) (d ++ [c]) q /\ consumed q = 0) \/ (Inv d (d ++ [c]) q /\ p_auto q <> A_MAIN).

Lemma s0_pos : forall t d p c, Inv d d p -> p_auto p <> A_MAIN ->
  match s0 cfg cb t p c with
  | (q, None) => SRes d c q
  | (_, Some q) => Inv d d q /\ p_auto q <> A_MAIN
  end.
Proof.
  intros t d p c HI HA. pose proof HI as (A & _). unfold s0.
  destruct ((p_sub p =? 0) && (c =? ch_quote)) eqn:E1.
  { apply andb_prop in E1. destruct E1 as [_ E1]. apply Z.eqb_eq in E1. subst c.
    assert (HI2 : Inv d (d ++ [ch_quote]) (advance p 1)) by (apply advance_inv; [exact HI|reflexivity]).
    destruct (process_pos d (d ++ [ch_quote]) (advance p 1) t (p_buf p) HI2 (or_introl HA)) as [H|H]; [|left; exact H].
    right. left. split; [exact H|]. destruct (process_main cfg cb (advance p 1) t (p_buf p)) as [K|[_ K]]; [|exact K].
    destruct H as (H & _). lia. }
  destruct ((p_sub p =? 0) && plainish (ign_of cfg t) c) eqn:E2.
  { right. right. split; [|exact HA]. apply advance_inv; [eapply Inv_keep; [|exact HI]; kp|].
    apply andb_prop in E2. destruct E2 as [_ E2]. unfold plainish in E2. apply andb_prop in E2. destruct E2 as [E2 _].
    apply andb_prop in E2. destruct E2 as [E2 _]. destruct (newline c) eqn:EN; [|reflexivity].
    apply newline_cases in EN. destruct EN as [-> | ->]; discriminate. }
  pose proof (string_iter_pos (ign_of cfg t) (fix_of cfg t) p c A) as HS.
  destruct (string_iter (ign_of cfg t) (fix_of cfg t) p c) as [q|q|q]; cbn [iter_ok] in HS.
  - left. eapply stops_bad; eassumption.
  - split; [eapply Inv_keep; eassumption|]. destruct HS as (_ & _ & _ & _ & _ & _ & HS). rewrite HS. exact HA.
  - destruct HS as [HS HN]. right. right. split; [apply advance_inv; [eapply Inv_keep; eassumption|exact HN]|].
    destruct HS as (_ & _ & _ & _ & _ & _ & HS). cbn [p_auto advance with_pos]. rewrite HS. exact HA.
Qed.

Lemma bad_chk : forall d m e q, Bad d q -> Bad d (chk m e q).
Proof. intros d m e q H. rewrite chk_err; [exact H|]. apply H. Qed.

Lemma chk_sres : forall d c m e q, 0 <= m -> e < 0 -> SRes d c q -> Res d c (chk m e q).
Proof.
  intros d c m e q Hm He [H|[[H K]|[H K]]].
  - right. apply bad_chk. exact H.
  - left. rewrite chk_within; [exact H|]. right. lia.
  - unfold chk. destruct (over_long m q).
    + right. destruct H as (A & _ & _ & _ & _ & [F|(_ & _ & F)]); [|contradiction].
      unfold raise_v, raise_at. replace (0 <=? p_err q) with true by (symmetry; apply Z.leb_le; exact A).
      split; [exact He|]. left. exact F.
    + left. apply Inv_weaken. exact H.
Qed.

Lemma limit_pos : forall t, 0 <= limit_of cfg t.
Proof.
  intros t. unfold limit_of. destruct Hcfg as (_ & A & B). destruct t; cbv zeta;
    match goal with |- 0 <= if 0 <? ?m then _ else _ => destruct (0 <? m) eqn:E; [apply Z.ltb_lt in E; lia|lia] end.
Qed.

Lemma string_pos : forall t d p c, Inv d d p -> p_auto p <> A_MAIN -> Res d c (string_byte cfg cb t p c).
Proof.
  intros t d p c HI HA. unfold string_byte. apply chk_sres; [apply limit_pos|destruct t; reflexivity|].
  unfold s1. pose proof (s0_pos t d p c HI HA) as H. destruct (s0 cfg cb t p c) as [q [r|]] eqn:ES; [|exact H].
  destruct H as [HI2 HA2]. pose proof (s0_pos t d r c HI2 HA2) as H. destruct (s0 cfg cb t r c) as [q2 [r2|]] eqn:ES2; [|exact H].
  exfalso.
  (* A replayed byte is not replayed again. *)
  unfold s0 in ES, ES2. destruct (_ && _) in ES; [discriminate|]. destruct (_ && _) in ES; [discriminate|].
  pose proof (string_iter_spec (ign_of cfg t) (fix_of cfg t) p c) as S1. destruct (string_iter _ _ p c); inversion ES; subst. destruct S1 as (_ & S1 & _ & _).
  destruct (_ && _) in ES2; [discriminate|]. destruct (_ && _) in ES2; [discriminate|].
  pose proof (string_iter_spec (ign_of cfg t) (fix_of cfg t) r c) as S2. destruct (string_iter _ _ r c); inversion ES2; subst. destruct S2 as (_ & _ & S2 & S3).
  destruct S1; contradiction.
Qed.

(** ** Literals and numbers *)
Definition SubRes (d : list Z) (c : Z) (r : parser U * bool) : Prop :=
  if snd r then Res d c (fst r) else (Inv d d (fst r) \/ Bad d (fst r)).

Lemma literal_pos : forall t lit d p c, forallb (fun x => negb (newline x)) lit = true -> (0 < length lit)%nat ->
  Inv d d p -> p_auto p <> A_MAIN -> SubRes d c (literal_byte cfg cb t lit p c).
Proof.
  intros t lit d p c HL HS HI HA. pose proof HI as (A & _ & C & _). unfold literal_byte.
  assert (HV : position_in d (p_vpos p)) by (destruct HI as (_ & _ & _ & _ & _ & [F|(_ & _ & F)]); [exact F|contradiction]).
  destruct (Z.of_nat (length lit) <=? p_sub p) eqn:E.
  - destruct (is_boundary c); unfold SubRes; cbn [fst snd].
    + apply process_pos; [exact HI|left; exact HA].
    + right. unfold raise, raise_at. cbn [p_err with_pos]. replace (0 <=? p_err p) with true by (symmetry; apply Z.leb_le; exact A).
      split; [reflexivity|]. left. exact HV.
  - apply Z.leb_gt in E. destruct (c =? nth (Z.to_nat (p_sub p)) lit 0) eqn:EC; unfold SubRes; cbn [fst snd negb].
    + left. apply Inv_weaken. eapply Inv_keep; [|apply advance_inv; [exact HI|]]; [kp|].
      apply Z.eqb_eq in EC. rewrite forallb_forall in HL. specialize (HL c). rewrite <- negb_true_iff. apply HL.
      rewrite EC. apply nth_In. lia.
    + right. eapply stops_bad; [exact HI|exact HA|]. apply stops_raise_v; [exact A|reflexivity].
Qed.

Lemma number_next_newline : forall s c, newline c = true -> number_next s c = None.
Proof.
  intros s c H. unfold number_next. apply newline_cases in H. destruct H as [-> | ->].
  - change (is_digit 13) with false. cbn [Z.eqb]. rewrite !andb_false_r. reflexivity.
  - change (is_digit 10) with false. cbn [Z.eqb]. rewrite !andb_false_r. reflexivity.
Qed.

Lemma number_pos : forall d p c, Inv d d p -> p_auto p <> A_MAIN -> SubRes d c (number_byte cfg cb p c).
Proof.
  intros d p c HI HA. unfold number_byte.
  assert (K : keep p (number_sub p)) by (unfold number_sub; destruct (p_sub p =? 0); kp).
  set (p1 := number_sub p) in *. assert (HI1 : Inv d d p1) by (eapply Inv_keep; eassumption).
  assert (HA1 : p_auto p1 <> A_MAIN) by (destruct K as (_ & _ & _ & _ & _ & _ & K); rewrite K; exact HA).
  pose proof HI1 as (A & _). cbv zeta.
  destruct (number_next (p_sub p1) c) as [s|] eqn:EN.
  - unfold SubRes. cbn [fst snd].
    assert (R : Res d c (chk (max_number_len cfg) ERR_MAXNUMBERLEN (advance (with_sub p1 s) 1))).
    { apply chk_sres; [lia|reflexivity|]. right. right. split; [|exact HA1]. apply advance_inv; [eapply Inv_keep; [|exact HI1]; kp|].
      destruct (newline c) eqn:EL; [|reflexivity]. rewrite number_next_newline in EN by exact EL. discriminate. }
    destruct (0 <=? p_err (chk (max_number_len cfg) ERR_MAXNUMBERLEN (advance (with_sub p1 s) 1))); [|exact R].
    destruct R as [R|R]; [left; eapply Inv_keep; [|exact R]; kp|right; exact R].
  - destruct (has (p_sub p1) N_END && is_boundary c); unfold SubRes; cbn [fst snd].
    + apply process_pos; [exact HI1|left; exact HA1].
    + right. eapply stops_bad; [exact HI1|exact HA1|]. apply stops_raise_v; [exact A|reflexivity].
Qed.

Lemma sub_pos : forall d p c, Inv d d p -> p_auto p <> A_MAIN -> SubRes d c (sub_byte cfg cb p c).
Proof.
  intros d p c HI HA. unfold sub_byte. destruct (p_auto p) eqn:EA; try contradiction; rewrite <- EA in HA.
  - apply literal_pos; [reflexivity|cbn; lia|assumption..].
  - apply literal_pos; [reflexivity|cbn; lia|assumption..].
  - apply literal_pos; [reflexivity|cbn; lia|assumption..].
  - apply number_pos; assumption.
  - unfold SubRes. cbn [fst snd]. apply string_pos; assumption.
  - unfold SubRes. cbn [fst snd]. apply string_pos; assumption.
Qed.

Lemma bad_advance : forall d q c, Bad d q -> Bad d (new_line (advance q 1) c).
Proof.
  intros d q c H. unfold Bad in *. unfold new_line. destruct (c =? 13); [exact H|]. destruct (c =? 10); exact H.
Qed.

(** ** The main automaton *)
Lemma main_pos : forall d p c, Z.of_nat (length d) < LCL0 -> Inv d d p -> Res d c (main_byte cfg cb p c).
Proof.
  intros d p c HL HI. pose proof HI as (A & _ & C & _). unfold main_byte.
  assert (Hn : forall q, Inv d d q -> Res d c (new_line (advance q 1) c)).
  { intros q Hq. left. apply new_line_inv; [|exact HL]. apply Inv_weaken. exact Hq. }
  assert (Hs : forall a, a <> A_MAIN -> Res d c (if p_err (switch p a) <? 0 then switch p a else fst (sub_byte cfg cb (switch p a) c))).
  { intros a Ha. assert (HS : Inv d d (switch p a)) by (eapply switch_inv; exact HI).
    destruct (p_err (switch p a) <? 0) eqn:E; [apply Z.ltb_lt in E; destruct HS; lia|].
    assert (SB : snd (sub_byte cfg cb (switch p a) c) = true).
    { unfold sub_byte. destruct a; cbn [p_auto switch]; try reflexivity.
      - unfold literal_byte. cbn. destruct (negb _); reflexivity.
      - unfold literal_byte. cbn. destruct (negb _); reflexivity.
      - unfold literal_byte. cbn. destruct (negb _); reflexivity.
      - unfold number_byte. cbv zeta. destruct (number_next (p_sub (number_sub (switch p A_NUMBER))) c); reflexivity. }
    pose proof (sub_pos d (switch p a) c HS Ha) as SP. unfold SubRes in SP. rewrite SB in SP. exact SP. }
  assert (Hr : forall e, e < 0 -> Bad d (raise p e)).
  { intros e He. eapply raise_bad; [exact HI|exact He|]. rewrite C. apply position_end. }
  assert (Hp : forall q t, keep p q -> (t = JSON_ARRAY_BEG \/ t = JSON_OBJECT_BEG \/ is_closer_type t = true) -> Res d c (new_line (advance (process cfg cb q t []) 1) c)).
  { intros q t K HT. destruct (process_pos d d q t []) as [H|H]; [eapply Inv_keep; eassumption|right; exact HT|apply Hn; exact H|].
    right. apply bad_advance. exact H. }
  unfold main_iter.
  destruct (_ && _).
  { destruct (_ && _); [right; apply Hr; reflexivity|]. apply Hp; [kp|]. destruct (c =? 91); tauto. }
  destruct (_ && _).
  { destruct (negb _); [right; apply Hr; reflexivity|]. apply Hp; [kp|]. right; right. destruct (c =? 93); reflexivity. }
  destruct (_ && _); [apply Hn; eapply Inv_keep; [|exact HI]; kp|].
  destruct (_ && _); [apply Hn; eapply Inv_keep; [|exact HI]; kp|].
  destruct (_ && _); [apply Hn; eapply switch_inv; exact HI|].
  destruct (_ && _); [apply Hn; eapply switch_inv; exact HI|].
  destruct (has (p_st p) CAN_SEE_VALUE && (is_in c 97 122 || is_in c 65 90)).
  { destruct (c =? 110); [apply Hs; discriminate|].
    destruct (c =? 102); [apply Hs; discriminate|].
    destruct (c =? 116); [apply Hs; discriminate|].
    pose proof (Hr ERR_SYNTAX eq_refl) as HB. destruct (p_err (raise p ERR_SYNTAX) <? 0) eqn:E; [right; exact HB|].
    apply Z.ltb_ge in E. destruct HB. lia. }
  destruct (_ && _); [apply Hs; discriminate|].
  destruct (negb _); [right|apply Hn; exact HI].
  unfold raise_unexpected. apply Hr.
  repeat match goal with |- context [if ?b then _ else _] => destruct b end; reflexivity.
Qed.

Lemma bstep_pos : forall d p c, Z.of_nat (length d) < LCL0 -> Inv d d p -> Res d c (bstep cfg cb p c).
Proof.
  intros d p c HL HI. pose proof HI as (A & _). unfold bstep.
  replace (p_err p <? 0) with false by (symmetry; apply Z.ltb_ge; exact A).
  assert (SUB : p_auto p <> A_MAIN -> Res d c (let '(p1, done) := sub_byte cfg cb p c in if done || (p_err p1 <? 0) then p1 else main_byte cfg cb p1 c)).
  { intros HA. pose proof (sub_pos d p c HI HA) as H. destruct (sub_byte cfg cb p c) as [p1 dn]. unfold SubRes in H. cbn [fst snd] in H.
    destruct dn; cbn [orb]; [exact H|]. destruct H as [H|H].
    - replace (p_err p1 <? 0) with false by (symmetry; apply Z.ltb_ge; apply H). apply main_pos; assumption.
    - replace (p_err p1 <? 0) with true by (symmetry; apply Z.ltb_lt; apply H). right. exact H. }
  destruct (p_auto p) eqn:EA; try (apply SUB; discriminate). apply main_pos; assumption.
Qed.

(** A failure is located within a beginning of the document that does not fail. *)
Definition BadIn (d : list Z) u q : Prop :=
  exists d0 c d1, d = d0 ++ c :: d1 /\ 0 <= p_err (bsteps cfg cb (json_init u) d0) /\
    p_err (bsteps cfg cb (json_init u) (d0 ++ [c])) < 0 /\ Bad d0 q.
Lemma bsteps_pos : forall d u, Z.of_nat (length d) < LCL0 ->
  Inv d d (bsteps cfg cb (json_init u) d) \/ BadIn d u (bsteps cfg cb (json_init u) d).
Proof.
  induction d as [|c d IH] using rev_ind; intros u HL.
  - left. apply Inv_init.
  - rewrite app_length in HL. cbn [length] in HL. destruct (IH u ltac:(lia)) as [H|(d0 & c0 & d1 & -> & H0 & H1 & H)].
    + rewrite bsteps_app. change (bsteps cfg cb (bsteps cfg cb (json_init u) d) [c]) with (bstep cfg cb (bsteps cfg cb (json_init u) d) c).
      destruct (bstep_pos d _ c ltac:(lia) H) as [R|R]; [left; exact R|]. right. exists d, c, []. split; [reflexivity|]. split; [apply H|]. split; [|exact R].
      rewrite bsteps_app. apply R.
    + right. rewrite bsteps_app. rewrite (bsteps_err cfg cb [c]); [|apply H]. exists d0, c0, (d1 ++ [c]).
      split; [rewrite <- app_assoc; reflexivity|]. split; [assumption|]. split; assumption.
Qed.

(** ** The end of the document *)
Lemma dispatch_eof_pos : forall d p, Inv d d p -> p_auto p <> A_MAIN ->
  exists q, dispatch cfg cb p None = Some (q, O) /\ (Inv d d q \/ Bad d q).
Proof.
  intros d p HI HA. pose proof HI as (A & _). unfold dispatch.
  assert (LIT : forall t lit, exists q, Some (literal_auto cfg cb t lit p None) = Some (q, O) /\ (Inv d d q \/ Bad d q)).
  { intros t lit. unfold literal_auto.
    assert (E : literal_loop lit p [] 0 = (p, Some ([], O))) by (cbn; destruct (Z.of_nat (length lit) <=? p_sub p); reflexivity).
    rewrite E. eexists. split; [reflexivity|]. apply process_pos; [exact HI|left; exact HA]. }
  assert (LM : forall m (q : parser U), limited m q [] = []).
  { intros m q. unfold limited. destruct (_ && _); [apply firstn_nil|reflexivity]. }
  assert (STR : forall ign fx t m e, e < 0 -> exists q, string_auto cfg cb ign fx t m e p None = Some (q, O) /\ (Inv d d q \/ Bad d q)).
  { intros ign fx t m e He. unfold string_auto. rewrite LM. cbn [length Nat.mul Nat.add string_loop].
    eexists. split; [reflexivity|]. right. unfold raise_v at 1, raise_at.
    destruct (over_long _ p).
    - pose proof (stops_raise_v p e A He) as HS. destruct (0 <=? p_err (raise_v p e)) eqn:E2; [apply Z.leb_le in E2; destruct HS; lia|].
      eapply stops_bad; eassumption.
    - replace (0 <=? p_err p) with true by (symmetry; apply Z.leb_le; exact A). cbn [with_error].
      pose proof (stops_raise_v p ERR_UNCLOSEDSTRING A eq_refl) as HS. unfold raise_v, raise_at in HS.
      replace (0 <=? p_err p) with true in HS by (symmetry; apply Z.leb_le; exact A). eapply stops_bad; eassumption. }
  destruct (p_auto p) eqn:EA; try contradiction; rewrite <- EA in HA; try apply LIT; try (apply STR; reflexivity).
  unfold number_auto. rewrite LM. cbv zeta.
  set (p1 := if p_sub p =? 0 then _ else p). assert (K : keep p p1) by (subst p1; destruct (p_sub p =? 0); kp).
  assert (HI1 : Inv d d p1) by (eapply Inv_keep; eassumption).
  assert (HA1 : p_auto p1 <> A_MAIN) by (destruct K as (_ & _ & _ & _ & _ & _ & K); rewrite K; exact HA).
  assert (A1 : 0 <= p_err p1) by apply HI1.
  cbn [number_loop length].
  assert (HP : Inv d d (if over_long (max_number_len cfg) p1 then raise_v p1 ERR_MAXNUMBERLEN else p1) /\ p_auto (if over_long (max_number_len cfg) p1 then raise_v p1 ERR_MAXNUMBERLEN else p1) <> A_MAIN
     \/ Bad d (if over_long (max_number_len cfg) p1 then raise_v p1 ERR_MAXNUMBERLEN else p1)).
  { destruct (over_long _ p1); [right|left; split; assumption]. eapply stops_bad; [exact HI1|exact HA1|]. apply stops_raise_v; [exact A1|reflexivity]. }
  set (p2 := if over_long (max_number_len cfg) p1 then raise_v p1 ERR_MAXNUMBERLEN else p1) in *.
  destruct ((0 <=? p_err p2) && has (p_sub p2) N_END) eqn:E.
  - eexists. split; [reflexivity|]. apply andb_prop in E. destruct E as [E _]. apply Z.leb_le in E.
    destruct HP as [[HP1 HP2]|HP]; [|destruct HP; lia]. apply process_pos; [exact HP1|left; exact HP2].
  - eexists. split; [reflexivity|]. right. destruct HP as [[HP1 HP2]|HP].
    + eapply stops_bad; [exact HP1|exact HP2|]. apply stops_raise_v; [apply HP1|reflexivity].
    + unfold raise_v, raise_at. destruct (0 <=? p_err p2) eqn:E2; [apply Z.leb_le in E2; destruct HP; lia|exact HP].
Qed.

Lemma fini_pos : forall d p code x u', Inv d d p -> json_fini cfg cb p = Some (code, x, u') ->
  (0 <= code /\ x = pos_of d) \/ (code < 0 /\ (position_in d x \/ (x = JPos 0 0 0 /\ (blame code \/ p_st p = ST_UNINITED)))).
Proof.
  intros d p code x u' HI H. pose proof HI as (A & _ & C & _). unfold json_fini in H.
  destruct (p_st p =? ST_UNINITED) eqn:ES.
  { right. apply Z.eqb_eq in ES. inversion H; subst. split; [reflexivity|]. right. tauto. }
  replace (p_err p <? 0) with false in H by (symmetry; apply Z.ltb_ge; exact A).
  assert (FG : forall q, Inv d d q -> Some (p_err q, (if 0 <=? p_err q then p_pos q else p_epos q), p_user q) = Some (code, x, u') ->
    0 <= code /\ x = pos_of d).
  { intros q HQ E. pose proof HQ as (Aq & _ & Cq & _). replace (0 <=? p_err q) with true in E by (symmetry; apply Z.leb_le; exact Aq).
    inversion E; subst. split; [exact Aq|exact Cq]. }
  assert (FB : forall q, Bad d q -> Some (p_err q, (if 0 <=? p_err q then p_pos q else p_epos q), p_user q) = Some (code, x, u') ->
    code < 0 /\ (position_in d x \/ (x = JPos 0 0 0 /\ (blame code \/ p_st p = ST_UNINITED)))).
  { intros q [B1 B2] E. replace (0 <=? p_err q) with false in E by (symmetry; apply Z.leb_gt; exact B1). inversion E; subst. tauto. }
  assert (RU : Bad d (raise_unexpected p)).
  { unfold raise_unexpected. eapply raise_bad; [exact HI| |rewrite C; apply position_end].
    repeat match goal with |- context [if ?b then _ else _] => destruct b end; reflexivity. }
  assert (DISP : p_auto p <> A_MAIN -> match dispatch cfg cb p None with
             | None => None
             | Some (p1, n) =>
                 let p2 := with_pos p1 (JPos (p_off (p_pos p1) + Z.of_nat n) (p_line (p_pos p1)) (p_col (p_pos p1))) in
                 match p_auto p2 with
                 | A_MAIN => Some (p_err p2, (if 0 <=? p_err p2 then p_pos p2 else p_epos p2), p_user p2)
                 | _ => let p2 := raise p2 ERR_SYNTAX in Some (p_err p2, (if 0 <=? p_err p2 then p_pos p2 else p_epos p2), p_user p2)
                 end
             end = Some (code, x, u') ->
    (0 <= code /\ x = pos_of d) \/ (code < 0 /\ (position_in d x \/ (x = JPos 0 0 0 /\ (blame code \/ p_st p = ST_UNINITED))))).
  { intros HA E. destruct (dispatch_eof_pos d p HI HA) as (q & EQ & HQ). rewrite EQ in E. cbv zeta in E.
    assert (EP : with_pos q (JPos (p_off (p_pos q) + Z.of_nat 0) (p_line (p_pos q)) (p_col (p_pos q))) = q).
    { destruct q as [[]]. unfold with_pos. cbn. rewrite Z.add_0_r. reflexivity. }
    rewrite EP in E. destruct HQ as [HQ|HQ].
    - assert (RS : Bad d (raise q ERR_SYNTAX)).
      { eapply raise_bad; [exact HQ|reflexivity|]. destruct HQ as (_ & _ & CQ & _). rewrite CQ. apply position_end. }
      destruct (p_auto q); [left; apply (FG q HQ E)|right; apply (FB _ RS E)..].
    - assert (RS : raise q ERR_SYNTAX = q).
      { unfold raise, raise_at. destruct (0 <=? p_err q) eqn:E0; [apply Z.leb_le in E0; destruct HQ; lia|reflexivity]. }
      rewrite RS in E. right. destruct (p_auto q); apply (FB q HQ E). }
  destruct (p_auto p) eqn:EA; try (apply DISP; [discriminate|exact H]).
  destruct (p_nest p); [|right; apply (FB _ RU H)].
  destruct (has (p_st p) CAN_SEE_EOF); [left; apply (FG _ HI H)|right; apply (FB _ RU H)].
Qed.
End P.
