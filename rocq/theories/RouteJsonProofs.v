(** Lemmas for C67. *)
Require Import ZArith NArith List Bool String Lia.
From Verif Require Import Base Itoa Json JsonSpec JsonDumpSpec Convert Loader LoaderSpec RouteJson RouteJsonSpec.
From Verif Require JsonText Names ItoaProps ItoaProofs ConvertSpec ConvertProps JsonDumpProps JsonProps LoaderProofs.
Import ListNotations.
Open Scope Z_scope.

Notation zlen l := (Z.of_nat (List.length l)).

(** ** Printing *)
Definition prints (f : obuf -> outcome) (t : list Z) : Prop :=
  forall o, 0 <= o_space o ->
    (zlen t <= o_space o -> f o = Done (mkO (o_text o ++ t) (o_space o - zlen t))) /\
    (o_space o < zlen t -> forall o', f o <> Done o').
Lemma prints_done : prints Done [].
Proof. intros [t s] H. split; [intros _; cbn; rewrite app_nil_r; f_equal; f_equal; lia|cbn in *; lia]. Qed.
Lemma prints_wr s : prints (wr s) s.
Proof. intros o H. unfold wr. destruct (Z.ltb_spec (o_space o) (zlen s)); split; intros; try lia; [discriminate|reflexivity]. Qed.
Lemma prints_seq f g t u : prints f t -> prints g u -> prints (fun o => f o ;; g) (t ++ u).
Proof.
  intros Pf Pg o H. destruct (Pf o H) as [F1 F2]. rewrite app_length, Nat2Z.inj_add. split; intros L.
  - rewrite F1 by lia. cbn [cont]. destruct (Pg (mkO (o_text o ++ t) (o_space o - zlen t))) as [G _]; [cbn; lia|]. rewrite G by (cbn; lia). cbn. rewrite app_assoc. do 2 f_equal. lia.
  - destruct (Z_lt_le_dec (o_space o) (zlen t)) as [S1|S1]; [specialize (F2 S1); destruct (f o) as [o1| |]; cbn [cont]; [destruct (F2 o1 eq_refl)|discriminate|discriminate]|].
    rewrite F1 by lia. cbn [cont]. destruct (Pg (mkO (o_text o ++ t) (o_space o - zlen t))) as [_ G]; [cbn; lia|]. apply G. cbn. lia.
Qed.
Lemma prints_unwr f t c u : u <> [] -> prints f (t ++ [c]) -> prints (fun o => f o ;; unwr ;; wr u) (t ++ u).
Proof.
  intros NU Pf o H. destruct (Pf o H) as [F1 F2]. rewrite app_length, Nat2Z.inj_add in F1, F2. rewrite app_length, Nat2Z.inj_add. change (zlen [c]) with 1 in *.
  assert (1 <= zlen u) by (destruct u; [congruence|cbn [List.length]; lia]). split; intros L.
  - rewrite F1 by lia. cbn [cont unwr o_text o_space]. rewrite app_assoc, removelast_last. unfold wr. cbn [o_space o_text]. destruct (Z.ltb_spec (o_space o - (zlen t + 1) + 1) (zlen u)); [lia|]. rewrite app_assoc. do 2 f_equal. lia.
  - destruct (Z_lt_le_dec (o_space o) (zlen t + 1)) as [S1|S1]; [specialize (F2 S1); destruct (f o) as [o1| |]; cbn [cont]; [destruct (F2 o1 eq_refl)|discriminate|discriminate]|].
    rewrite F1 by lia. cbn [cont unwr o_text o_space]. unfold wr. cbn [o_space o_text]. destruct (Z.ltb_spec (o_space o - (zlen t + 1) + 1) (zlen u)); [discriminate|lia].
Qed.
Lemma prints_ext f g t : (forall o, f o = g o) -> prints f t -> prints g t.
Proof. intros E P o H. rewrite <- !E. exact (P o H). Qed.
(** numbers *)
Lemma decimal_text n ds : ItoaProofs.decimal n ds -> int_part ds /\ ConvertSpec.json_integer ds n /\ JsonSpec.number ds.
Proof.
  intros (NE & DG & VAL & HD). assert (IP : int_part ds).
  { destruct ds as [|c ds]; [congruence|]. inversion DG; subst. cbn [hd] in HD. destruct (Z.eq_dec c 48) as [->|].
    - specialize (HD eq_refl). destruct ds; [constructor|discriminate].
    - constructor; [unfold ItoaProofs.digit in *; lia|]. eapply Forall_impl; [|eassumption]. intros x. unfold ItoaProofs.digit, digit. lia. }
  split; [exact IP|]. split.
  - exists ds. split; [exact IP|]. left. split; [reflexivity|]. rewrite <- VAL. unfold ConvertSpec.decimal, ItoaProofs.dec_value. clear. generalize 0.
    induction ds as [|c ds IH]; intros acc; cbn [map fold_left ConvertSpec.digits_value]; [reflexivity|]. rewrite <- IH. f_equal. lia.
  - exists [], ds, [], []. rewrite !app_nil_r. repeat split; try constructor. exact IP.
Qed.
Lemma prints_itoa i : 0 <= i < 65536 -> exists ds, prints (itoa i) ds /\ JsonSpec.number ds /\ (List.length ds <= 5)%nat /\
  convert_uint16 JSON_NUMBER ds = CSet i /\ (i < 256 -> convert_uint8 JSON_NUMBER ds = CSet i).
Proof.
  intros R. destruct (ItoaProps.C39_itoa_exact i 0) as (ds & D & _); [unfold i32_min, i32_max; lia|lia|]. rewrite Z.abs_eq in D by lia. destruct (decimal_text i ds D) as (IP & JI & NU).
  exists ds. split; [|split; [exact NU|]].
  - intros o H. unfold itoa. destruct (ItoaProps.C39_itoa_exact i (o_space o)) as (ds' & D' & E); [unfold i32_min, i32_max; lia|lia|]. rewrite Z.abs_eq in D' by lia. rewrite (ItoaProofs.decimal_unique _ _ _ D' D) in E.
    cbv zeta in E. destruct (Z.ltb_spec i 0); [lia|]. rewrite E. destruct (Z.ltb_spec (o_space o) (zlen ds)); split; intros; try lia; [discriminate|reflexivity].
  - split.
    { destruct (Nat.le_gt_cases (List.length ds) 5) as [L|L]; [exact L|exfalso]. destruct D as (NE & DG & VAL & HD). destruct ds as [|c ds]; [congruence|]. rewrite ItoaProofs.dec_cons in VAL. cbn [hd] in HD. cbn [List.length] in *.
      assert (c <> 48) by (intros ->; specialize (HD eq_refl); lia). inversion DG; subst. unfold ItoaProofs.digit in *.
      assert (0 <= ItoaProofs.dec_value ds) by (match goal with H : Forall _ ds |- _ => clear - H; unfold ItoaProofs.dec_value; assert (X : forall a, 0 <= a -> 0 <= fold_left (fun a c => a * 10 + (c - 48)) ds a) by (induction H as [|x l Hx _ IH]; intros a Ha; cbn [fold_left]; [exact Ha|apply IH; unfold ItoaProofs.digit in Hx; lia]); apply X; lia end).
      assert (10 ^ 5 <= 10 ^ zlen ds) by (apply Z.pow_le_mono_r; lia). nia. }
    destruct ConvertProps.C56_integers_exact_partial as (E8 & E16 & _). split; [apply (E16 ds NU); [exact JI|lia]|intros; apply (E8 ds NU); [exact JI|lia]].
Qed.

(** ** Members, each with a comma behind it *)
Inductive cm : list Z -> list ((list Z * list Z) * jvalue) -> Prop :=
| cm_nil : cm [] []
| cm_cons : forall k v j l ms, chars k k -> value v j -> cm l ms -> cm (34 :: k ++ 34 :: 58 :: v ++ 44 :: l) (((k, k), j) :: ms).
Lemma cm_app l1 m1 : cm l1 m1 -> forall l2 m2, cm l2 m2 -> cm (l1 ++ l2) (m1 ++ m2).
Proof.
  induction 1 as [|k v j l ms C VA _ IH]; intros l2 m2 H2; [exact H2|]. rewrite <- app_comm_cons, <- app_assoc. cbn [app]. rewrite <- app_assoc. cbn [app]. constructor; [exact C|exact VA|exact (IH _ _ H2)].
Qed.
Lemma cm_members l ms : cm l ms -> ms <> [] -> exists l', l = l' ++ [44] /\ members l' ms.
Proof.
  induction 1 as [|k v j l ms C VA CM IH]; intros NE; [congruence|]. destruct ms as [|m ms].
  - inversion CM; subst. exists (34 :: k ++ 34 :: 58 :: v). split; [rewrite <- app_comm_cons, <- app_assoc; reflexivity|].
    pose proof (members_one [] k k [] [] v j [] (Forall_nil _) C (Forall_nil _) (Forall_nil _) VA (Forall_nil _)) as M. cbn [app] in M. rewrite app_nil_r in M. exact M.
  - destruct (IH ltac:(discriminate)) as (l' & -> & ML). exists (34 :: k ++ 34 :: 58 :: v ++ 44 :: l').
    split; [rewrite <- app_comm_cons, <- app_assoc; cbn [app]; rewrite <- app_assoc; reflexivity|].
    exact (members_more [] k k [] [] v j [] l' _ (Forall_nil _) C (Forall_nil _) (Forall_nil _) VA (Forall_nil _) ML).
Qed.
Lemma harmless_chars s : Forall harmless s -> chars s s.
Proof. intros H. apply JsonDumpProps.harmless_same in H. tauto. Qed.
Definition key_ok (s : string) : bool := forallb (fun c => (32 <=? c) && (c <=? 126) && negb (c =? 34) && negb (c =? 92)) (JsonText.bytes s).
Lemma key_chars s : key_ok s = true -> chars (JsonText.bytes s) (JsonText.bytes s).
Proof. intros H. apply harmless_chars. apply Forall_forall. intros c I1. unfold key_ok in H. rewrite forallb_forall in H. specialize (H c I1). unfold harmless. lia. Qed.
Lemma upto_harmless s : Forall harmless s -> upto_nul s = s.
Proof. induction 1 as [|c s H _ IH]; [reflexivity|]. change (upto_nul (c :: s)) with (if 0 <? c then c :: upto_nul s else []). unfold harmless in H. destruct (Z.ltb_spec 0 c); [|lia]. rewrite IH. reflexivity. Qed.

(** Limits of the parser *)
Definition lim (d : Z) (ms : list ((list Z * list Z) * jvalue)) : Prop :=
  Forall (fun m => zlen (fst (fst m)) <= 31 /\ lengths_ok JsonProps.ws_cfg (snd m) /\ depth (snd m) <= d) ms.

Lemma each_app {A} (f : list Z -> jvalue -> A -> meaning A) m1 : forall m2 a, each_member f (m1 ++ m2) a = andthen (each_member f m1 a) (each_member f m2).
Proof.
  induction m1 as [|[[r k] v] m1 IH]; intros m2 a; [reflexivity|]. cbn [app each_member]. destruct (32 <=? zlen k); [reflexivity|]. destruct (f (upto_nul k) v a); cbn [andthen]; [apply IH|reflexivity|reflexivity].
Qed.
Lemma each_one {A} (f : list Z -> jvalue -> A -> meaning A) (s : string) v a : key_ok s = true -> zlen (JsonText.bytes s) <= 31 ->
  each_member f [((JsonText.bytes s, JsonText.bytes s), v)] a = andthen (f (JsonText.bytes s) v a) Means.
Proof.
  intros K L. cbn [each_member]. destruct (Z.leb_spec 32 (zlen (JsonText.bytes s))); [lia|]. rewrite upto_harmless; [reflexivity|].
  apply Forall_forall. intros c I1. unfold key_ok in K. rewrite forallb_forall in K. specialize (K c I1). unfold harmless. lia.
Qed.
Lemma andthen_means {A} (m : meaning A) : andthen m Means = m.
Proof. destruct m; reflexivity. Qed.

Section Gives.
  Context {W A : Type}.
  (** The members printed by [F] take the state [a] to [b]. *)
  Definition gives (d : Z) (F : obuf -> outcome) (f : W -> list Z -> jvalue -> A -> meaning A) (a b : A) : Prop :=
    exists t ms, prints F t /\ cm t ms /\ lim d ms /\ forall w, each_member (f w) ms a = Means b.
  Lemma gives_done d f a : gives d Done f a a.
  Proof. exists [], []. split; [apply prints_done|]. split; [constructor|]. split; [constructor|reflexivity]. Qed.
  Lemma gives_seq d F G f a b c : gives d F f a b -> gives d G f b c -> gives d (fun o => F o ;; G) f a c.
  Proof.
    intros (t & ms & P & C & L & E) (t' & ms' & P' & C' & L' & E'). exists (t ++ t'), (ms ++ ms'). split; [exact (prints_seq _ _ _ _ P P')|]. split; [exact (cm_app _ _ C _ _ C')|]. split; [apply Forall_app; split; assumption|].
    intros w. rewrite each_app, E. cbn [andthen]. apply E'.
  Qed.
  Lemma gives_ext d F G f a b : (forall o, F o = G o) -> gives d F f a b -> gives d G f a b.
  Proof. intros E (t & ms & P & R). exists t, ms. split; [exact (prints_ext _ _ _ E P)|exact R]. Qed.
  Lemma gives_if d (x : bool) F f a b : (x = true -> gives d F f a b) -> gives d (fun o => if x then F o else Done o) f a (if x then b else a).
  Proof. destruct x; intros H; [apply H; reflexivity|apply gives_done]. Qed.
  Lemma gives_if' d (x : bool) F f a b : (x = true -> gives d F f a b) -> (x = false -> a = b) -> gives d (fun o => if x then F o else Done o) f a b.
  Proof. destruct x; intros H1 H2; [apply H1; reflexivity|rewrite H2 by reflexivity; apply gives_done]. Qed.
  (** one member *)
  Lemma gives_one d F (f : W -> list Z -> jvalue -> A -> meaning A) (s : string) t v a b : key_ok s = true -> zlen (JsonText.bytes s) <= 31 -> prints F (34 :: JsonText.bytes s ++ 34 :: 58 :: t ++ [44]) ->
    value t v -> lengths_ok JsonProps.ws_cfg v -> depth v <= d -> (forall w, f w (JsonText.bytes s) v a = Means b) -> gives d F f a b.
  Proof.
    intros K L P VA LO DE E. eexists _, [((JsonText.bytes s, JsonText.bytes s), v)]. split; [exact P|]. split; [apply cm_cons; [apply key_chars, K|exact VA|constructor]|]. split; [repeat constructor; assumption|].
    intros w. rewrite each_one by assumption. rewrite E. reflexivity.
  Qed.
End Gives.

(** quotation marks in the texts of the model *)
Lemma text_app s1 s2 : text s1 ++ text s2 = map (fun c => if c =? 39 then 34 else c) (JsonText.bytes s1 ++ JsonText.bytes s2).
Proof. unfold text, JsonText.text. rewrite map_app. reflexivity. Qed.

(** ** Bits *)
Definition upd (F x f : N) : N := if N.eqb (N.land F f) 0 then N.ldiff x f else N.lor x f.
Lemma upd_pow F x k : upd F x (2 ^ k) = N.lor (N.land F (2 ^ k)) (N.ldiff x (2 ^ k)).
Proof.
  assert (L : N.land F (2 ^ k) = (if N.testbit F k then 2 ^ k else 0)%N).
  { apply N.bits_inj. intros n. rewrite N.land_spec, N.pow2_bits_eqb. destruct (N.eqb_spec k n) as [->|NE]; [|rewrite andb_false_r; destruct (N.testbit F k); [rewrite N.pow2_bits_false by congruence; reflexivity|rewrite N.bits_0; reflexivity]].
    rewrite andb_true_r. destruct (N.testbit F n); [rewrite N.pow2_bits_true; reflexivity|rewrite N.bits_0; reflexivity]. }
  unfold upd. rewrite L. destruct (N.testbit F k).
  - assert (NZ : (2 ^ k <> 0)%N) by (apply N.pow_nonzero; discriminate). apply N.eqb_neq in NZ. rewrite NZ. apply N.bits_inj. intros n. rewrite !N.lor_spec, N.ldiff_spec. destruct (N.testbit x n), (N.testbit (2 ^ k) n); reflexivity.
  - cbn [N.eqb]. change (0 =? 0)%N with true. cbv iota. rewrite N.lor_0_l. reflexivity.
Qed.
Lemma clear_clear f b : N.testbit f b = false -> N.clearbit f b = f.
Proof. intros H. apply N.bits_inj. intros n. rewrite N.clearbit_eqb. destruct (N.eqb_spec b n) as [->|]; [rewrite H; reflexivity|rewrite andb_true_r; reflexivity]. Qed.
Lemma set_set f b : N.testbit f b = true -> N.setbit f b = f.
Proof. intros H. apply N.bits_inj. intros n. rewrite N.setbit_eqb. destruct (N.eqb_spec b n) as [->|]; [rewrite H; reflexivity|reflexivity]. Qed.
Lemma high c n : (c < 2 ^ 25 -> 25 <= n -> N.testbit c n = false)%N.
Proof. intros H1 H2. destruct (N.eq_dec c 0) as [->|NZ]; [apply N.bits_0|]. apply N.bits_above_log2. apply N.log2_lt_pow2; [lia|]. eapply N.lt_le_trans; [exact H1|]. apply N.pow_le_mono_r; [discriminate|exact H2]. Qed.
Ltac bits_below n := let H := fresh in
  assert (H : In n (map N.of_nat (seq 0 25))) by (apply in_map_iff; exists (N.to_nat n); split; [apply N2Nat.id|apply in_seq; lia]);
  cbn in H; repeat (destruct H as [<- |H]; [clear|]); [..|destruct H].
Definition upd_all (F x : N) (names : list (N * string)) : N := fold_left (fun x n => upd F x (fst n)) names x.
Definition names_mask : N := 32509691.
Lemma upd_all_bits F : upd_all F 255 Names.flag_names = N.lor (N.land F names_mask) 4.
Proof.
  unfold upd_all, Names.flag_names. cbn [fold_left fst].
  change 1%N with (2 ^ 0)%N; change 2%N with (2 ^ 1)%N; change 32%N with (2 ^ 5)%N; change 16%N with (2 ^ 4)%N; change 8%N with (2 ^ 3)%N; change 64%N with (2 ^ 6)%N; change 128%N with (2 ^ 7)%N; change 512%N with (2 ^ 9)%N;
  change 1024%N with (2 ^ 10)%N; change 2048%N with (2 ^ 11)%N; change 1048576%N with (2 ^ 20)%N; change 2097152%N with (2 ^ 21)%N; change 4194304%N with (2 ^ 22)%N; change 8388608%N with (2 ^ 23)%N; change 16777216%N with (2 ^ 24)%N.
  rewrite !upd_pow. apply N.bits_inj. intros n. destruct (N.lt_ge_cases n 25) as [L|L].
  - repeat (rewrite N.lor_spec || rewrite N.ldiff_spec || rewrite N.land_spec). generalize (N.testbit F n). intros b. bits_below n; destruct b; vm_compute; reflexivity.
  - repeat (rewrite N.lor_spec || rewrite N.ldiff_spec || rewrite N.land_spec). rewrite !(high (2 ^ _) n), (high 255 n), (high names_mask n), (high 4 n) by (reflexivity || exact L). rewrite !andb_false_r. reflexivity.
Qed.

Lemma prints_eq f t t' : t = t' -> prints f t -> prints f t'.
Proof. intros ->. exact (fun H => H). Qed.
Lemma prints_guard f t k : k <= zlen t -> prints f t -> prints (fun o => if o_space o <? k then Stopped TooSmall o else f o) t.
Proof. intros L P o H. destruct (P o H) as [P1 P2]. destruct (Z.ltb_spec (o_space o) k); split; intros; try lia; [discriminate|apply P1; assumption|apply P2; assumption]. Qed.
Ltac keys := repeat match goal with |- context [is (JsonText.bytes ?a) ?b] => let x := eval vm_compute in (is (JsonText.bytes a) b) in change (is (JsonText.bytes a) b) with x end; cbv iota.
Lemma value_str n : Forall harmless n -> value (34 :: n ++ [34]) (VStr n n).
Proof. intros H. constructor. apply harmless_chars, H. Qed.
Lemma str_len n : zlen n <= 16384 -> lengths_ok JsonProps.ws_cfg (VStr n n).
Proof. intros H. constructor. right. exact H. Qed.
Lemma num_len ds : (List.length ds <= 5)%nat -> lengths_ok JsonProps.ws_cfg (VNum ds).
Proof. intros H. constructor. right. unfold len. cbn [JsonProps.ws_cfg max_number_len]. lia. Qed.
Lemma wr_quoted n : prints (fun o => wr (text "'") o ;; wr n ;; wr (text "'")) (34 :: n ++ [34]).
Proof. apply (prints_eq _ ((text "'" ++ n) ++ text "'")); [rewrite <- app_assoc; reflexivity|]. apply prints_seq; [apply (prints_seq (wr (text "'")) (wr n)); apply prints_wr|apply prints_wr]. Qed.
(** "key": what [X] prints, and a comma *)
Lemma wr_member (s : string) key X t : text s = 34 :: JsonText.bytes key ++ [34; 58] -> prints X t ->
  prints (fun o => wr (text s) o ;; X ;; wr (text ",")) (34 :: JsonText.bytes key ++ 34 :: 58 :: t ++ [44]).
Proof.
  intros E P. apply (prints_eq _ ((text s ++ t) ++ [44])); [rewrite E; cbn [app]; rewrite <- !app_assoc; reflexivity|]. apply (prints_seq (fun o => wr (text s) o ;; X) (wr (text ","))); [|apply prints_wr]. apply (prints_seq (wr (text s)) X); [apply prints_wr|exact P].
Qed.
Ltac short_key := try reflexivity; try (vm_compute; congruence).

    Lemma depth_obj d ms : 0 <= d -> lim d ms -> depth (VObj ms) <= 1 + d.
    Proof. intros D0 H. cbn [depth]. induction H as [|m ms (_ & _ & H) _ IH]; cbn [fold_right]; [lia|]. cbn [depth] in *. lia. Qed.
    Lemma lengths_obj_lim d ms : lim d ms -> lengths_ok JsonProps.ws_cfg (VObj ms).
    Proof. intros H. constructor. eapply Forall_impl; [|exact H]. intros m (A & B & _). split; [right; unfold len; cbn [JsonProps.ws_cfg max_key_len]; lia|exact B]. Qed.
Section Route.
  Context {W D V F : Type}.
  Variable api : calls W V F.
  Variable cv : converters W D V F.
  Variable ntop4 ntop6 : list Z -> list Z.
  Variable formatter : Z -> option (list Z -> Z -> Z -> fmt).
  Variable family_name : Z -> option (list Z).
  Variable proto_name : Z -> pname.
  Variable numeric : bool.
  Variable r : jroute.
  Hypothesis ok : loadable cv ntop4 ntop6 formatter family_name proto_name numeric r.
  Let fl := jr_flags r.
  Let member := route_member cv.

  Definition label_of := match jr_event r with Some l => l | None => [] end.
  Lemma event_gives : gives 1 (j_event r) member new_route (mkRoute label_of zero_sa zero_sa 255).
  Proof.
    unfold j_event, label_of. destruct (jr_event r) as [l|] eqn:E; [|apply gives_done]. destruct (ok_event _ _ _ _ _ _ _ _ ok l E) as (NE & LE & H).
    apply (gives_one 1 _ member "parent-event" (34 :: l ++ [34]) (VStr l l)); [reflexivity|vm_compute; congruence| |apply value_str, H|apply str_len; lia|cbn; lia|].
    - apply (prints_eq _ ((text "'parent-event':'" ++ l) ++ text "',")); [cbn; rewrite <- !app_assoc; reflexivity|]. apply prints_seq; [apply (prints_seq (wr (text "'parent-event':'")) (wr l)); apply prints_wr|apply prints_wr].
    - intros w. unfold member, route_member. cbn [LoaderSpec.scalar given andthen]. keys. unfold shorter. destruct (Z.ltb_spec (zlen l) 33); [|lia]. reflexivity.
  Qed.

  Lemma names_give names : Forall (fun n => key_ok (snd n) = true /\ zlen (JsonText.bytes (snd n)) <= 31 /\ text (snd n) = JsonText.bytes (snd n) /\
      is (JsonText.bytes (snd n)) "parent-event" = false /\ is (JsonText.bytes (snd n)) "family" = false /\ is (JsonText.bytes (snd n)) "protocol" = false /\
      in_table Names.flag_names (JsonText.bytes (snd n)) = Means (fst n)) names ->
    forall a, gives 1 (j_names r names) member a (with_flags a (upd_all fl (r_flags a) names)).
  Proof.
    induction 1 as [|[f nm] names (K & L & TX & N1 & N2 & N3 & IT) _ IH]; intros a; [destruct a; apply gives_done|]. cbn [fst snd] in *.
    apply (gives_ext 1 (fun o => (wr (text "'") o ;; wr (text nm) ;; wr (text "':") ;; wr (text (if N.eqb (N.land (jr_flags r) f) 0 then "false" else "true")) ;; wr (text ",")) ;; j_names r names)); [reflexivity|].
    apply (gives_seq _ _ _ _ _ (with_flags a (upd fl (r_flags a) f))); [|specialize (IH (with_flags a (upd fl (r_flags a) f))); exact IH].
    assert (P : forall x, prints (fun o => wr (text "'") o ;; wr (text nm) ;; wr (text "':") ;; wr (text x) ;; wr (text ",")) (34 :: JsonText.bytes nm ++ 34 :: 58 :: text x ++ [44])).
    { intros x. apply (prints_eq _ ((((text "'" ++ text nm) ++ text "':") ++ text x) ++ text ",")); [rewrite TX, <- !app_assoc; reflexivity|]. apply prints_seq; [|apply prints_wr]. apply (prints_seq (fun o => wr (text "'") o ;; wr (text nm) ;; wr (text "':"))); [|apply prints_wr].
      apply (prints_seq (fun o => wr (text "'") o ;; wr (text nm))); [|apply prints_wr]. apply (prints_seq (wr (text "'"))); apply prints_wr. }
    unfold upd. fold fl. destruct (N.eqb (N.land fl f) 0).
    - apply (gives_one 1 _ member nm (text "false") VFalse); [exact K|exact L|apply P|constructor|constructor|cbn; lia|]. intros w. unfold member, route_member. cbn [LoaderSpec.scalar given andthen]. rewrite N1, N2, N3, IT. reflexivity.
    - apply (gives_one 1 _ member nm (text "true") VTrue); [exact K|exact L|apply P|constructor|constructor|cbn; lia|]. intros w. unfold member, route_member. cbn [LoaderSpec.scalar given andthen]. rewrite N1, N2, N3, IT. reflexivity.
  Qed.
  Lemma flags_give : gives 1 (j_names r Names.flag_names) member (mkRoute label_of zero_sa zero_sa 255) (mkRoute label_of zero_sa zero_sa (N.lor (N.land fl names_mask) 4)).
  Proof.
    rewrite <- upd_all_bits. apply (names_give Names.flag_names). repeat (constructor; [split; [reflexivity|]; split; [vm_compute; congruence|]; split; [reflexivity|]; split; [reflexivity|]; split; [reflexivity|]; split; reflexivity|]). constructor.
  Qed.

  Lemma fixed_is b : fixed r b = is_fixed r b. Proof. reflexivity. Qed.
  Definition fam_sa := with_family zero_sa (jr_family r).
  Lemma family_gives : gives 1 (j_family family_name numeric r) member (mkRoute label_of zero_sa zero_sa (N.lor (N.land fl names_mask) 4)) (mkRoute label_of fam_sa fam_sa (N.lor (N.land fl names_mask) 4)).
  Proof.
    pose proof (ok_family _ _ _ _ _ _ _ _ ok) as OF. unfold j_family. rewrite fixed_is. unfold B_FAMILY. apply gives_if'; intros FX; [|rewrite FX in OF; unfold fam_sa; rewrite OF; reflexivity].
    rewrite FX in OF.
    assert (CB : N.clearbit (N.lor (N.land fl names_mask) 4) B_FAMILY = N.lor (N.land fl names_mask) 4).
    { apply clear_clear. rewrite N.lor_spec, N.land_spec. unfold is_fixed in FX. fold fl in FX. unfold B_FAMILY. destruct (N.testbit fl 0); [discriminate|reflexivity]. }
    destruct (if numeric then None else family_name (jr_family r)) as [n|] eqn:EN.
    - assert (NU : numeric = false) by (destruct numeric; [discriminate|reflexivity]). rewrite NU in EN. destruct (ok_family_name _ _ _ _ _ _ _ _ ok n NU EN) as ((H & L) & CN).
      apply (gives_one 1 _ member "family" (34 :: n ++ [34]) (VStr n n)); [reflexivity|vm_compute; congruence| |apply value_str, H|apply str_len, L|cbn; lia|].
      + apply (wr_member "'family':" "family"); [reflexivity|]. apply prints_guard; [cbn [List.length]; rewrite app_length; cbn [List.length]; lia|apply wr_quoted].
      + intros w. unfold member, route_member. cbn [LoaderSpec.scalar given andthen]. keys. rewrite CN. cbn [given andthen]. unfold clear_bit, with_flags, with_sas. cbn [r_flags r_remote r_local r_label]. rewrite CB. reflexivity.
    - destruct (prints_itoa (jr_family r) ltac:(lia)) as (ds & P & NU & LD & C16 & _).
      apply (gives_one 1 _ member "family" ds (VNum ds)); [reflexivity|vm_compute; congruence| |constructor; exact NU|apply num_len, LD|cbn; lia|].
      + apply (wr_member "'family':" "family"); [reflexivity|exact P].
      + intros w. unfold member, route_member. cbn [LoaderSpec.scalar given andthen]. keys. rewrite C16. cbn [num given andthen]. unfold clear_bit, with_flags, with_sas. cbn [r_flags r_remote r_local r_label]. rewrite CB. reflexivity.
  Qed.

  Definition proto_sa := with_proto fam_sa (if_fixed r 2 (jr_proto r) 0).
  Definition fl4 : N := N.land fl 32509695.
  Lemma proto_gives : gives 1 (j_proto proto_name numeric r) member (mkRoute label_of fam_sa fam_sa (N.lor (N.land fl names_mask) 4)) (mkRoute label_of proto_sa proto_sa fl4).
  Proof.
    unfold j_proto, proto_sa, if_fixed. rewrite fixed_is. unfold B_PROTO.
    assert (LW : N.testbit fl 2 = true -> N.lor (N.land fl names_mask) 4 = fl4).
    { intros T. apply N.bits_inj. intros n. unfold fl4. rewrite N.lor_spec, !N.land_spec. destruct (N.lt_ge_cases n 25) as [L|L]; [|rewrite (high names_mask n), (high 4 n), (high 32509695 n) by (reflexivity || exact L); rewrite andb_false_r; reflexivity].
      destruct (N.eq_dec n 2) as [->|NE]; [rewrite T; reflexivity|]. revert NE. generalize (N.testbit fl n). intros b. bits_below n; intros NE; try congruence; destruct b; vm_compute; reflexivity. }
    apply gives_if'; intros FX.
    2: { unfold is_fixed in *. fold fl in FX. fold fl. apply negb_false_iff in FX. rewrite FX, LW by exact FX. reflexivity. }
    rewrite FX. pose proof (ok_proto _ _ _ _ _ _ _ _ ok FX) as RP.
    assert (CB : N.clearbit (N.lor (N.land fl names_mask) 4) B_PROTO = fl4).
    { apply N.bits_inj. intros n. rewrite N.clearbit_eqb. unfold fl4, B_PROTO. rewrite N.lor_spec, !N.land_spec. destruct (N.lt_ge_cases n 25) as [L|L]; [|rewrite (high names_mask n), (high 4 n), (high 32509695 n) by (reflexivity || exact L); rewrite !andb_false_r; reflexivity].
      destruct (N.eq_dec n 2) as [->|NE]; [unfold is_fixed in FX; fold fl in FX; destruct (N.testbit fl 2); [discriminate|reflexivity]|]. revert NE. generalize (N.testbit fl n). intros b. bits_below n; intros NE; try congruence; destruct b; vm_compute; reflexivity. }
    assert (TL : (if ((jr_family r =? AF_INET) || (jr_family r =? AF_INET6)) && ((jr_proto r =? IPPROTO_TCP) || (jr_proto r =? IPPROTO_UDP)) then N.setbit fl4 B_TCPLIKE else fl4) = fl4).
    { destruct (((jr_family r =? AF_INET) || (jr_family r =? AF_INET6)) && ((jr_proto r =? IPPROTO_TCP) || (jr_proto r =? IPPROTO_UDP))) eqn:B; [|reflexivity]. apply set_set. unfold fl4. rewrite N.land_spec. unfold B_TCPLIKE.
      apply andb_prop in B. destruct B as [B1 B2]. fold fl. unfold fl at 1. rewrite (ok_tcp _ _ _ _ _ _ _ _ ok FX B1); [reflexivity|]. unfold IPPROTO_TCP, IPPROTO_UDP in B2. lia. }
    assert (M1 : forall p i, p = jr_proto r -> i = ((jr_family r =? AF_INET) || (jr_family r =? AF_INET6)) -> (let r0 := clear_bit (mkRoute label_of fam_sa fam_sa (N.lor (N.land fl names_mask) 4)) B_PROTO in
      let r1 := with_sas r0 (with_proto (r_remote r0) p) (with_proto (r_local r0) p) in
      Means (if i && ((p =? IPPROTO_TCP) || (p =? IPPROTO_UDP)) then set_bit r1 B_TCPLIKE else r1)) = Means (mkRoute label_of (with_proto fam_sa (jr_proto r)) (with_proto fam_sa (jr_proto r)) fl4)).
    { intros p i -> ->. cbv zeta. unfold set_bit, clear_bit, with_flags, with_sas. cbn [r_flags r_remote r_local r_label]. rewrite CB. destruct (_ && _); [rewrite TL|]; reflexivity. }
    destruct (negb numeric && ((jr_family r =? AF_INET) || (jr_family r =? AF_INET6))) eqn:NM.
    - apply andb_prop in NM. destruct NM as [NM IF_]. apply negb_true_iff in NM. pose proof (ok_proto_name _ _ _ _ _ _ _ _ ok NM FX IF_) as OP. destruct (proto_name (jr_proto r)) as [n| |] eqn:PN; [|destruct OP|].
      + destruct OP as (H & L & CP). apply (gives_one 1 _ member "protocol" (34 :: n ++ [34]) (VStr n n)); [reflexivity|vm_compute; congruence| |apply value_str, H|apply str_len; lia|cbn; lia|].
        * apply (wr_member "'protocol':" "protocol"); [reflexivity|apply wr_quoted].
        * intros w. unfold member, route_member. cbn [LoaderSpec.scalar given andthen]. keys. unfold shorter. destruct (Z.ltb_spec (zlen n) 64); [|lia]. cbn [r_remote fam_sa with_family sa_family]. rewrite IF_. cbn [andb require andthen]. rewrite CP. cbn [andthen]. exact (M1 _ true eq_refl (eq_sym IF_)).
      + destruct (prints_itoa (jr_proto r) ltac:(lia)) as (ds & P & NU & LD & C16 & _).
        apply (gives_one 1 _ member "protocol" ds (VNum ds)); [reflexivity|vm_compute; congruence| |constructor; exact NU|apply num_len, LD|cbn; lia|].
        * apply (wr_member "'protocol':" "protocol"); [reflexivity|exact P].
        * intros w. unfold member, route_member. cbn [LoaderSpec.scalar given andthen]. keys. rewrite C16. cbn [num given andthen]. cbn [r_remote fam_sa with_family sa_family]. apply M1; reflexivity.
    - destruct (prints_itoa (jr_proto r) ltac:(lia)) as (ds & P & NU & LD & C16 & _).
      apply (gives_one 1 _ member "protocol" ds (VNum ds)); [reflexivity|vm_compute; congruence| |constructor; exact NU|apply num_len, LD|cbn; lia|].
      + apply (wr_member "'protocol':" "protocol"); [reflexivity|exact P].
      + intros w. unfold member, route_member. cbn [LoaderSpec.scalar given andthen]. keys. rewrite C16. cbn [num given andthen]. cbn [r_remote fam_sa with_family sa_family]. apply M1; reflexivity.
  Qed.

  (** *** Endpoints *)
  Lemma lim_cons d k v ms : zlen k <= 31 -> lengths_ok JsonProps.ws_cfg v -> depth v <= d -> lim d ms -> lim d (((k, k), v) :: ms).
  Proof. intros. constructor; [auto|assumption]. Qed.
  Lemma cont_assoc x f g : cont (cont x f) g = cont x (fun o => cont (f o) g).
  Proof. destruct x; reflexivity. Qed.
  Let faddr := format_address ntop4 ntop6 formatter (jr_family r).
  Lemma prints_named pre lit a bits t : lit <> [] -> written ntop4 ntop6 formatter (jr_family r) a bits t ->
    prints (fun o => wr pre o ;; write_address (faddr a bits (o_space o)) ;; wr lit) ((pre ++ t) ++ lit).
  Proof.
    intros NL WT o H. assert (1 <= zlen lit) by (destruct lit; [congruence|cbn [List.length]; lia]). rewrite !app_length, !Nat2Z.inj_add. unfold wr at 1 3.
    destruct (Z.ltb_spec (o_space o) (zlen pre)) as [S1|S1]; [split; intros; [lia|discriminate]|]. cbn [cont].
    destruct (WT (o_space o)) as [E|(L & E)]; fold faddr in E.
    - rewrite E. unfold write_address. cbn [o_space o_text]. destruct (Z.ltb_spec (o_space o - zlen pre) (zlen t + 1)); [split; intros; [lia|discriminate]|]. cbn [cont]. unfold wr. cbn [o_space o_text].
      destruct (Z.ltb_spec (o_space o - zlen pre - zlen t) (zlen lit)); split; intros; try lia; [discriminate|]. rewrite <- !app_assoc. do 2 f_equal. lia.
    - split; intros; [lia|]. destruct E as [-> | ->]; discriminate.
  Qed.
  Lemma prints_plain lit a bits t : lit <> [] -> written ntop4 ntop6 formatter (jr_family r) a bits t ->
    prints (fun o => write_address (faddr a bits (o_space o)) o ;; wr lit) (t ++ lit).
  Proof.
    intros NL WT o H. assert (1 <= zlen lit) by (destruct lit; [congruence|cbn [List.length]; lia]). rewrite !app_length, !Nat2Z.inj_add.
    destruct (WT (o_space o)) as [E|(L & E)]; fold faddr in E.
    - rewrite E. unfold write_address. destruct (Z.ltb_spec (o_space o) (zlen t + 1)); [split; intros; [lia|discriminate]|]. cbn [cont]. unfold wr. cbn [o_space o_text].
      destruct (Z.ltb_spec (o_space o - zlen t) (zlen lit)); split; intros; try lia; [discriminate|]. rewrite <- !app_assoc. do 2 f_equal. lia.
    - split; intros; [lia|]. destruct E as [-> | ->]; discriminate.
  Qed.

  Lemma put_front b : (List.length b <= 16)%nat -> put (repeat 0 16) 0 b = Means (padded b).
  Proof.
    intros L. unfold put. rewrite repeat_length. cbn [Nat.add firstn app]. destruct (Nat.leb_spec (List.length b) 16); [|lia]. unfold padded. f_equal. f_equal.
    replace 16%nat with (List.length b + (16 - List.length b))%nat at 1 by lia. rewrite repeat_app, skipn_app, repeat_length, Nat.sub_diag. rewrite skipn_all2 by (rewrite repeat_length; lia). reflexivity.
  Qed.
  Lemma put_mask b1 b2 n : List.length b1 = n -> List.length b2 = n -> (n <= 8)%nat -> put (padded b1) n b2 = Means (padded (b1 ++ b2)).
  Proof.
    intros L1 L2 L. unfold put, padded. rewrite app_length, repeat_length. destruct (Nat.leb_spec (n + List.length b2) (List.length b1 + (16 - List.length b1))); [|lia]. f_equal.
    rewrite firstn_app, L1, Nat.sub_diag, firstn_O, app_nil_r, <- L1, firstn_all. rewrite app_length, <- app_assoc. f_equal. f_equal. rewrite L2. rewrite L1 at 1. rewrite skipn_app, L1.
    rewrite skipn_all2 by lia. cbn [app]. replace (16 - n)%nat with ((n + n - n) + (16 - (n + n)))%nat by lia. rewrite repeat_app, skipn_app, repeat_length, Nat.sub_diag. rewrite skipn_all2 by (rewrite repeat_length; lia). reflexivity.
  Qed.

  Lemma key_facts (remote : bool) (key name : string) : (if remote then key = "'remote':{" /\ name = "remote" else key = "'local':{" /\ name = "local")%string ->
    text key = 34 :: JsonText.bytes name ++ [34; 58; 123] /\ key_ok name = true /\ zlen (JsonText.bytes name) <= 31 /\
    forall w ms a, route_member cv w (JsonText.bytes name) (VObj ms) a = each_member (LoaderSpec.endpoint_member cv remote w) ms a.
  Proof.
    destruct remote; intros [-> ->]; (split; [reflexivity|]; split; [reflexivity|]; split; [vm_compute; congruence|]; intros w ms a; unfold route_member; keys; reflexivity).
  Qed.
  Section End_.
    Variable remote : bool.
    Variable e : endpoint.
    Let b_addr := if remote then B_RADDR else B_LADDR.
    Let b_port := if remote then B_RPORT else B_LPORT.
    Let b_iface := if remote then B_RIFACE else B_LIFACE.
    Let b_mask := if remote then B_RMASK else B_LMASK.
    Variable a0 : route.
    Variable g : N.
    Definition st (s : sa) (g : N) : route := with_flags (set_sa remote a0 s) g.
    Lemma st_get s g' : get_sa remote (st s g') = s. Proof. unfold st, get_sa, set_sa, with_flags, with_sas. destruct remote, a0; reflexivity. Qed.
    Lemma st_set s g' s' : set_sa remote (st s g') s' = st s' g'. Proof. unfold st, get_sa, set_sa, with_flags, with_sas. destruct remote, a0; reflexivity. Qed.
    Lemma st_flags s g' : r_flags (st s g') = g'. Proof. reflexivity. Qed.
    Lemma st_clear s g' b : clear_bit (st s g') b = st s (N.clearbit g' b). Proof. unfold clear_bit, st, with_flags, set_sa, with_sas. destruct remote; reflexivity. Qed.
    Lemma st_setbit s g' b : set_bit (st s g') b = st s (N.setbit g' b). Proof. unfold set_bit, st, with_flags, set_sa, with_sas. destruct remote; reflexivity. Qed.
    Hypothesis eok : endpoint_ok cv ntop4 ntop6 formatter r b_addr b_port b_iface b_mask e.
    Hypothesis same : forall b, b = b_addr \/ b = b_port \/ b = b_iface -> N.testbit g b = N.testbit fl b.
    Hypothesis nomask : N.testbit g b_mask = false.
    Let emember := LoaderSpec.endpoint_member cv remote.
    Let p := if_fixed r 2 (jr_proto r) 0.
    Definition sa0 := mkSa (jr_family r) p 0 0 0 (repeat 0 16).
    Definition sa1 := mkSa (jr_family r) p 0 (if_fixed r b_addr (n_bits e) 0) 0 (padded (if_fixed r b_addr (n_addr e) [])).
    Definition sa2 := mkSa (jr_family r) p (if_fixed r b_port (n_port e) 0) (if_fixed r b_addr (n_bits e) 0) 0 (padded (if_fixed r b_addr (n_addr e) [])).
    Definition sa3 := mkSa (jr_family r) p (if_fixed r b_port (n_port e) 0) (if_fixed r b_addr (n_bits e) 0) (if_fixed r b_iface (n_iface e) 0) (padded (if_fixed r b_addr (n_addr e) [])).
    Definition g1 := if N.testbit fl b_mask then N.setbit g b_mask else g.
    Lemma g1_same b : b = b_addr \/ b = b_port \/ b = b_iface -> N.testbit g1 b = N.testbit fl b.
    Proof.
      intros H. unfold g1. destruct (N.testbit fl b_mask); [|exact (same b H)]. rewrite N.setbit_neq; [exact (same b H)|]. unfold b_mask, b_addr, b_port, b_iface in *. destruct remote; destruct H as [-> |[-> | ->]]; vm_compute; discriminate.
    Qed.
    Lemma not_wild b g' : N.testbit g' b = N.testbit fl b -> is_fixed r b = true -> N.clearbit g' b = g'.
    Proof. intros E H. apply clear_clear. rewrite E. unfold is_fixed in H. fold fl in H. destruct (N.testbit fl b); [discriminate|reflexivity]. Qed.
    Lemma family_there b : is_fixed r b = true -> b = b_addr \/ b = b_port -> (jr_family r =? AF_UNSPEC) = false.
    Proof.
      intros H B. destruct eok as (_ & E & _). pose proof (ok_family _ _ _ _ _ _ _ _ ok) as OF. rewrite E in OF by (destruct B as [-> | ->]; auto). unfold AF_UNSPEC. lia.
    Qed.

    Lemma address_gives : is_fixed r b_addr = true -> gives 0 (j_address ntop4 ntop6 formatter r (N.testbit (jr_flags r) b_mask) e) emember (st sa0 g) (st sa1 g1).
    Proof.
      intros FX. pose proof (family_there _ FX (or_introl eq_refl)) as FU. destruct eok as (EA & _). specialize (EA FX). unfold g1. fold fl in EA. fold fl. unfold j_address. fold faddr. unfold sa1, if_fixed. rewrite FX.
      assert (CB : N.clearbit g b_addr = g) by (apply not_wild; [apply same; auto|exact FX]).
      destruct (N.testbit fl b_mask).
      - destruct EA as (size & t1 & t2 & b1 & b2 & n & EB & L8 & L0 & -> & LB1 & LB2 & FB & W1 & (H1 & P1) & W2 & (H2 & P2) & C1 & C2).
        assert (HF : Z.shiftr (n_bits e) 1 = 8 * Z.of_nat size) by (rewrite EB, Z.shiftr_div_pow2 by lia; change (2 ^ 1) with 2; rewrite (Z.div_unique (16 * Z.of_nat size) 2 (8 * Z.of_nat size) 0); lia).
        rewrite HF. assert (NB : bytes_of_bits (8 * Z.of_nat size) = size) by (unfold bytes_of_bits; rewrite <- (Z.div_unique (8 * Z.of_nat size + 7) 8 (Z.of_nat size) 7) by lia; apply Nat2Z.id). rewrite NB.
        assert (SK : skipn size (b1 ++ b2) = b2) by (rewrite skipn_app, LB1, Nat.sub_diag, skipn_all2 by lia; reflexivity). rewrite SK.
        exists (((text "'address':'" ++ t1) ++ text "','bitmask':'") ++ t2 ++ text "',"), [((JsonText.bytes "address", JsonText.bytes "address"), VStr t1 t1); ((JsonText.bytes "bitmask", JsonText.bytes "bitmask"), VStr t2 t2)].
        split.
        { apply (prints_ext (fun o => (wr (text "'address':'") o ;; write_address (faddr (b1 ++ b2) (8 * Z.of_nat size) (o_space o)) ;; wr (text "','bitmask':'")) ;; (fun o => write_address (faddr b2 (8 * Z.of_nat size) (o_space o)) o ;; wr (text "',")))).
          { intros o. rewrite (cont_assoc _ _ (wr (text "',"))). reflexivity. }
          apply prints_seq; [apply prints_named; [discriminate|exact W1]|apply prints_plain; [discriminate|exact W2]]. }
        split.
        { pose proof (cm_cons (JsonText.bytes "address") _ _ _ _ (key_chars "address" eq_refl) (value_str t1 H1) (cm_cons (JsonText.bytes "bitmask") _ _ _ _ (key_chars "bitmask" eq_refl) (value_str t2 H2) cm_nil)) as C. cbn [app] in C. rewrite <- !app_assoc in *. cbn [app] in *. exact C. }
        split; [apply lim_cons; [vm_compute; congruence|apply str_len, P1|cbn; lia|]; apply lim_cons; [vm_compute; congruence|apply str_len, P2|cbn; lia|constructor]|].
        intros w. change [((JsonText.bytes "address", JsonText.bytes "address"), VStr t1 t1); ((JsonText.bytes "bitmask", JsonText.bytes "bitmask"), VStr t2 t2)] with ([((JsonText.bytes "address", JsonText.bytes "address"), VStr t1 t1)] ++ [((JsonText.bytes "bitmask", JsonText.bytes "bitmask"), VStr t2 t2)]).
        rewrite each_app, !each_one by (reflexivity || (vm_compute; congruence)). rewrite !andthen_means.
        assert (S1 : emember w (JsonText.bytes "address") (VStr t1 t1) (st sa0 g) = Means (st (mkSa (jr_family r) p 0 (8 * Z.of_nat size) 0 (padded b1)) g)).
        { unfold emember, LoaderSpec.endpoint_member. cbn [LoaderSpec.scalar given andthen]. keys. rewrite st_get, st_flags, st_clear. fold b_mask b_addr. rewrite nomask, CB. unfold sa0 at 1 2 3. cbn [sa_family sa_len]. rewrite FU. cbn [negb require andthen]. rewrite C1. cbn [given andthen]. unfold sa0 at 1. cbn [sa_addr].
          rewrite put_front by lia. cbn [andthen]. rewrite st_set. reflexivity. }
        rewrite S1. cbn [andthen]. rewrite each_one by (reflexivity || (vm_compute; congruence)). rewrite andthen_means.
        unfold emember, LoaderSpec.endpoint_member. cbn [LoaderSpec.scalar given andthen]. keys. rewrite st_get. cbn [sa_family sa_len sa_addr]. rewrite FU. cbn [negb require andthen]. rewrite FB. cbn [given andthen].
        assert (M1 : (Z.land (8 * Z.of_nat size) 7 =? 0) = true) by (change 7 with (Z.ones 3); rewrite Z.land_ones by lia; change (2 ^ 3) with 8; rewrite Z.mul_comm, Z.mod_mul by lia; reflexivity).
        assert (SL : Z.shiftl (8 * Z.of_nat size) 1 = 16 * Z.of_nat size) by (rewrite Z.shiftl_mul_pow2 by lia; change (2 ^ 1) with 2; lia).
        rewrite M1, SL. unfold MAX_ADDR_BITS. destruct (Z.leb_spec (16 * Z.of_nat size) 128); [|lia]. cbn [andb require andthen]. destruct (Z.leb_spec 0 (8 * Z.of_nat size)); [|lia]. rewrite Z.eqb_refl, orb_true_r. cbn [andb negb].
        rewrite C2. cbn [given andthen]. rewrite <- (Z.div_unique (8 * Z.of_nat size) 8 (Z.of_nat size) 0) by lia. rewrite Nat2Z.id. rewrite put_mask by assumption. cbn [andthen]. fold b_mask. rewrite st_setbit, st_set. unfold with_len, with_family, with_addr. cbn [sa_family sa_proto sa_port sa_len sa_iface sa_addr]. rewrite EB. reflexivity.
      - destruct EA as (RB & t & b & n & WT & (H & P) & CA & LB & PD). destruct (prints_itoa (n_bits e) RB) as (ds & PI & NU & LD & C16 & _).
        exists (((text "'address':'" ++ t) ++ text "','prefix-bits':") ++ ds ++ text ","), [((JsonText.bytes "address", JsonText.bytes "address"), VStr t t); ((JsonText.bytes "prefix-bits", JsonText.bytes "prefix-bits"), VNum ds)].
        split.
        { apply (prints_ext (fun o => (wr (text "'address':'") o ;; write_address (faddr (n_addr e) (n_bits e) (o_space o)) ;; wr (text "','prefix-bits':")) ;; (fun o => itoa (n_bits e) o ;; wr (text ",")))).
          { intros o. rewrite (cont_assoc _ _ (wr (text ","))). reflexivity. }
          apply prints_seq; [apply prints_named; [discriminate|exact WT]|apply (prints_seq (itoa (n_bits e)) (wr (text ","))); [exact PI|apply prints_wr]]. }
        split.
        { pose proof (cm_cons (JsonText.bytes "address") _ _ _ _ (key_chars "address" eq_refl) (value_str t H) (cm_cons (JsonText.bytes "prefix-bits") _ _ _ _ (key_chars "prefix-bits" eq_refl) (value_number ds NU) cm_nil)) as C. cbn [app] in C. rewrite <- !app_assoc in *. cbn [app] in *. exact C. }
        split; [apply lim_cons; [vm_compute; congruence|apply str_len, P|cbn; lia|]; apply lim_cons; [vm_compute; congruence|apply num_len, LD|cbn; lia|constructor]|].
        intros w. change [((JsonText.bytes "address", JsonText.bytes "address"), VStr t t); ((JsonText.bytes "prefix-bits", JsonText.bytes "prefix-bits"), VNum ds)] with ([((JsonText.bytes "address", JsonText.bytes "address"), VStr t t)] ++ [((JsonText.bytes "prefix-bits", JsonText.bytes "prefix-bits"), VNum ds)]).
        rewrite each_app, !each_one by (reflexivity || (vm_compute; congruence)). rewrite !andthen_means.
        assert (S1 : emember w (JsonText.bytes "address") (VStr t t) (st sa0 g) = Means (st (mkSa (jr_family r) p 0 n 0 (padded (n_addr e))) g)).
        { unfold emember, LoaderSpec.endpoint_member. cbn [LoaderSpec.scalar given andthen]. keys. rewrite st_get, st_flags, st_clear. fold b_mask b_addr. rewrite nomask, CB. unfold sa0 at 1 2 3. cbn [sa_family sa_len]. rewrite FU. cbn [negb require andthen]. rewrite CA. cbn [given andthen]. unfold sa0 at 1. cbn [sa_addr].
          rewrite put_front by lia. cbn [andthen]. rewrite st_set, PD. reflexivity. }
        rewrite S1. cbn [andthen]. rewrite each_one by (reflexivity || (vm_compute; congruence)). rewrite andthen_means.
        unfold emember, LoaderSpec.endpoint_member. cbn [LoaderSpec.scalar given andthen]. keys. rewrite st_get, st_flags. fold b_mask. rewrite nomask. cbn [sa_family sa_len sa_addr]. rewrite FU. cbn [negb andb require andthen]. rewrite C16. cbn [num andthen]. rewrite st_set. reflexivity.
    Qed.
    Lemma port_gives : is_fixed r b_port = true -> gives 0 (fun o => wr (text "'port':") o ;; itoa (n_port e) ;; wr (text ",")) emember (st sa1 g1) (st sa2 g1).
    Proof.
      intros FX. pose proof (family_there _ FX (or_intror eq_refl)) as FU. destruct eok as (_ & _ & EP & _). specialize (EP FX). destruct (prints_itoa (n_port e) EP) as (ds & PI & NU & LD & C16 & _).
      apply (gives_one 0 _ emember "port" ds (VNum ds)); [reflexivity|vm_compute; congruence|apply (wr_member "'port':" "port"); [reflexivity|exact PI]|constructor; exact NU|apply num_len, LD|cbn; lia|].
      intros w. unfold emember, LoaderSpec.endpoint_member. cbn [LoaderSpec.scalar given andthen]. keys. rewrite st_get, st_clear. fold b_port. rewrite not_wild by (try (apply g1_same; auto); exact FX). unfold sa1 at 1. cbn [sa_family]. rewrite FU. cbn [negb require andthen]. rewrite C16. cbn [num andthen]. rewrite st_set. unfold sa2, sa1, if_fixed. rewrite FX. reflexivity.
    Qed.
    Lemma iface_gives : is_fixed r b_iface = true -> gives 0 (fun o => wr (text "'interface':") o ;; itoa (n_iface e) ;; wr (text ",")) emember (st sa2 g1) (st sa3 g1).
    Proof.
      intros FX. destruct eok as (_ & _ & _ & EI & _). specialize (EI FX). destruct (prints_itoa (n_iface e) ltac:(lia)) as (ds & PI & NU & LD & _ & C8). specialize (C8 ltac:(lia)).
      apply (gives_one 0 _ emember "interface" ds (VNum ds)); [reflexivity|vm_compute; congruence|apply (wr_member "'interface':" "interface"); [reflexivity|exact PI]|constructor; exact NU|apply num_len, LD|cbn; lia|].
      intros w. unfold emember, LoaderSpec.endpoint_member. cbn [LoaderSpec.scalar given andthen]. keys. rewrite st_get, st_clear. fold b_iface. rewrite not_wild by (try (apply g1_same; auto); exact FX). rewrite C8. cbn [num andthen]. rewrite st_set. unfold sa3, sa2, if_fixed. rewrite FX. reflexivity.
    Qed.
    Lemma inner_gives : is_fixed r b_addr || is_fixed r b_port || is_fixed r b_iface = true ->
      exists t ms, prints (fun o => (fun o => if fixed r b_addr then j_address ntop4 ntop6 formatter r (N.testbit (jr_flags r) b_mask) e o else Done o) o ;;
          (fun o => if fixed r b_port then wr (text "'port':") o ;; itoa (n_port e) ;; wr (text ",") else Done o) ;;
          (fun o => if fixed r b_iface then wr (text "'interface':") o ;; itoa (n_iface e) ;; wr (text ",") else Done o)) (t ++ [44]) /\
        members t ms /\ lim 0 ms /\ forall w, each_member (emember w) ms (st sa0 g) = Means (st sa3 g1).
    Proof.
      intros SF. assert (G : gives 0 (fun o => (fun o => if fixed r b_addr then j_address ntop4 ntop6 formatter r (N.testbit (jr_flags r) b_mask) e o else Done o) o ;;
          (fun o => if fixed r b_port then wr (text "'port':") o ;; itoa (n_port e) ;; wr (text ",") else Done o) ;;
          (fun o => if fixed r b_iface then wr (text "'interface':") o ;; itoa (n_iface e) ;; wr (text ",") else Done o)) emember (st sa0 g) (st sa3 g1)).
      { apply (gives_seq _ _ _ _ _ (st sa2 g1)); [apply (gives_seq _ _ _ _ _ (st sa1 g1))|].
        - apply gives_if'; [exact address_gives|]. intros FX. rewrite fixed_is in FX. unfold sa1, g1, if_fixed. rewrite FX. destruct eok as (_ & _ & _ & _ & EM). fold fl in EM. destruct (N.testbit fl b_mask); [rewrite EM in FX by reflexivity; discriminate|reflexivity].
        - apply gives_if'; [exact port_gives|]. intros FX. rewrite fixed_is in FX. unfold sa2, sa1, if_fixed. rewrite FX. reflexivity.
        - apply gives_if'; [exact iface_gives|]. intros FX. rewrite fixed_is in FX. unfold sa3, sa2, if_fixed. rewrite FX. reflexivity. }
      destruct G as (t & ms & P & C & L & E). destruct ms as [|m ms].
      - exfalso. inversion C; subst. destruct (P (mkO [] 0) (Z.le_refl 0)) as [P1 _]. specialize (P1 (Z.le_refl 0)). change (fixed r) with (is_fixed r) in P1. unfold j_address in P1.
        assert (ST : forall s, s <> [] -> wr s (mkO [] 0) = Stopped TooSmall (mkO [] 0)) by (intros [|x s] NE; [congruence|reflexivity]).
        destruct (is_fixed r b_addr); [destruct (N.testbit (jr_flags r) b_mask); cbv beta zeta in P1; rewrite (ST (text "'address':'")) in P1 by discriminate; cbn [cont] in P1; discriminate P1|]. cbn [cont] in P1.
        destruct (is_fixed r b_port); [rewrite (ST (text "'port':")) in P1 by discriminate; cbn [cont] in P1; discriminate P1|]. cbn [cont] in P1. destruct (is_fixed r b_iface); [rewrite (ST (text "'interface':")) in P1 by discriminate; cbn [cont] in P1; discriminate P1|discriminate].
      - destruct (cm_members _ _ C ltac:(discriminate)) as (l' & -> & M). exists l', (m :: ms). auto.
    Qed.
    Lemma end_gives (key : string) (name : string) : (if remote then key = "'remote':{" /\ name = "remote" else key = "'local':{" /\ name = "local")%string ->
      gives 1 (j_end ntop4 ntop6 formatter r key b_addr b_port b_iface b_mask e) member (st sa0 g) (st sa3 g1).
    Proof.
      intros K. unfold j_end. change (fixed r) with (is_fixed r). destruct (is_fixed r b_addr || is_fixed r b_port || is_fixed r b_iface) eqn:SF.
      2: { apply orb_false_elim in SF. destruct SF as [SF F3]. apply orb_false_elim in SF. destruct SF as [F1 F2]. unfold sa3, g1, if_fixed. rewrite F1, F2, F3. destruct eok as (_ & _ & _ & _ & EM). fold fl in EM. destruct (N.testbit fl b_mask); [rewrite EM in F1 by reflexivity; discriminate|]. apply gives_done. }
      destruct (inner_gives SF) as (t & ms & P & M & L & E).
      destruct (key_facts remote key name K) as (KE & K1 & K2 & K3).
      apply (gives_one 1 _ member name (123 :: t ++ [125]) (VObj ms)).
      - exact K1.
      - exact K2.
      - apply (prints_eq _ ((text key ++ t) ++ text "},")); [rewrite KE; cbn [app]; rewrite <- ?app_assoc; cbn [app]; rewrite <- ?app_assoc; reflexivity|].
        apply (prints_unwr (fun o => wr (text key) o ;; (fun o => if fixed r b_addr then j_address ntop4 ntop6 formatter r (N.testbit (jr_flags r) b_mask) e o else Done o) ;;
          (fun o => if fixed r b_port then wr (text "'port':") o ;; itoa (n_port e) ;; wr (text ",") else Done o) ;;
          (fun o => if fixed r b_iface then wr (text "'interface':") o ;; itoa (n_iface e) ;; wr (text ",") else Done o)) _ 44); [discriminate|].
        rewrite <- app_assoc. eapply prints_ext; [|apply (prints_seq (wr (text key))); [apply prints_wr|exact P]]. intros o. rewrite !cont_assoc. destruct (wr (text key) o); [|reflexivity|reflexivity]. cbn [cont]. rewrite cont_assoc. reflexivity.
      - constructor. exact M.
      - exact (lengths_obj_lim _ _ L).
      - pose proof (depth_obj 0 ms ltac:(lia) L). lia.
      - intros w. unfold member. rewrite K3. apply E.
    Qed.
  End End_.

  Lemma bits_eq (x y : N) : (forall n, (n < 25)%N -> N.testbit x n = N.testbit y n) -> (forall n, (25 <= n)%N -> N.testbit x n = N.testbit y n) -> x = y.
  Proof. intros A B. apply N.bits_inj. intros n. destruct (N.lt_ge_cases n 25); [apply A|apply B]; assumption. Qed.
  Lemma settings_bits : g1 false (g1 true fl4) = settings_of r.
  Proof.
    unfold g1, settings_of, B_RMASK, B_LMASK. change (jr_flags r) with fl. unfold fl4. apply bits_eq; intros n L.
    - destruct (N.eq_dec n 12) as [->|N1]; [|destruct (N.eq_dec n 13) as [->|N2]].
      + destruct (N.testbit fl 13) eqn:T13, (N.testbit fl 12) eqn:T12; rewrite ?N.setbit_eqb, !N.land_spec, T12; reflexivity.
      + destruct (N.testbit fl 13) eqn:T13, (N.testbit fl 12) eqn:T12; rewrite ?N.setbit_eqb, !N.land_spec, T13; reflexivity.
      + assert (E1 : N.eqb 12 n = false) by (apply N.eqb_neq; congruence). assert (E2 : N.eqb 13 n = false) by (apply N.eqb_neq; congruence).
        destruct (N.testbit fl 13), (N.testbit fl 12); rewrite ?N.setbit_eqb, ?E1, ?E2, !N.land_spec; cbn [orb]; revert N1 N2; clear E1 E2; generalize (N.testbit fl n); intros b; bits_below n; intros; try congruence; destruct b; reflexivity.
    - assert (E1 : N.eqb 12 n = false) by (apply N.eqb_neq; lia). assert (E2 : N.eqb 13 n = false) by (apply N.eqb_neq; lia).
      destruct (N.testbit fl 13), (N.testbit fl 12); rewrite ?N.setbit_eqb, ?E1, ?E2, !N.land_spec, (high 32509695 n), (high 32521983 n) by (reflexivity || exact L); rewrite andb_false_r; reflexivity.
  Qed.
  Lemma bit_fl4 b : N.testbit 32509695 b = true -> N.testbit fl4 b = N.testbit fl b.
  Proof. intros H. unfold fl4. rewrite N.land_spec, H. apply andb_true_r. Qed.
  Lemma bit_fl4' b : N.testbit 32509695 b = false -> N.testbit fl4 b = false.
  Proof. intros H. unfold fl4. rewrite N.land_spec, H. apply andb_false_r. Qed.

  Lemma sockaddr_sa (remote : bool) e : sa3 remote e = sockaddr_of r (if remote then 1 else 4)%N (if remote then 5 else 3)%N (if remote then 6 else 7)%N e.
  Proof.
    pose proof (ok_family _ _ _ _ _ _ _ _ ok) as OF. unfold sa3, sockaddr_of. assert (FA : if_fixed r 0 (jr_family r) 0 = jr_family r) by (unfold if_fixed; destruct (is_fixed r 0); [reflexivity|congruence]). rewrite FA. destruct remote; reflexivity.
  Qed.
  Lemma route_gives : gives 1 (fun o => j_event r o ;; j_names r Names.flag_names ;; j_family family_name numeric r ;; j_proto proto_name numeric r ;;
      j_end ntop4 ntop6 formatter r "'remote':{" B_RADDR B_RPORT B_RIFACE B_RMASK (jr_remote r) ;;
      j_end ntop4 ntop6 formatter r "'local':{" B_LADDR B_LPORT B_LIFACE B_LMASK (jr_local r)) member new_route (mkRoute label_of (remote_of r) (local_of r) (settings_of r)).
  Proof.
    pose (a0 := mkRoute label_of proto_sa proto_sa fl4). pose (a1 := st true a0 (sa3 true (jr_remote r)) (g1 true fl4)).
    apply (gives_seq _ _ _ _ _ a1); [apply (gives_seq _ _ _ _ _ a0); [apply (gives_seq _ _ _ _ _ _ _ (gives_seq _ _ _ _ _ _ _ (gives_seq _ _ _ _ _ _ _ event_gives flags_give) family_gives) proto_gives)|]|].
    - apply (end_gives true (jr_remote r) a0 fl4) with (name := "remote"%string); [exact (ok_remote _ _ _ _ _ _ _ _ ok)| |apply bit_fl4'; reflexivity|split; reflexivity].
      intros b [-> |[-> | ->]]; apply bit_fl4; reflexivity.
    - pose proof (end_gives false (jr_local r) a1 (g1 true fl4) (ok_local _ _ _ _ _ _ _ _ ok)) as G. cbv zeta in G.
      assert (GB : forall b, b <> 12%N -> N.testbit (g1 true fl4) b = N.testbit fl4 b) by (intros b B; unfold g1, B_RMASK; destruct (N.testbit _ 12); [apply N.setbit_neq; congruence|reflexivity]).
      specialize (G ltac:(intros b [-> |[-> | ->]]; rewrite GB by discriminate; apply bit_fl4; reflexivity)).
      specialize (G ltac:(rewrite GB by discriminate; apply bit_fl4'; reflexivity)).
      specialize (G "'local':{"%string "local"%string (conj eq_refl eq_refl)). rewrite settings_bits in G.
      assert (E2 : st false a1 (sa3 false (jr_local r)) (settings_of r) = mkRoute label_of (remote_of r) (local_of r) (settings_of r)) by (change (mkRoute label_of (sa3 true (jr_remote r)) (sa3 false (jr_local r)) (settings_of r) = mkRoute label_of (remote_of r) (local_of r) (settings_of r)); rewrite !sockaddr_sa; reflexivity).
      rewrite E2 in G. exact G.
  Qed.
  Lemma route_prints : exists t v, prints (format_json ntop4 ntop6 formatter family_name proto_name numeric r) t /\ value t v /\ lengths_ok JsonProps.ws_cfg v /\ depth v <= 2 /\
    forall w, route_element api cv false v w = does (a_route_insert api (remote_of r) (local_of r) (settings_of r) (jr_event r) w).
  Proof.
    destruct route_gives as (t & ms & P & C & L & E). destruct ms as [|m ms].
    - exfalso. inversion C; subst. destruct (P (mkO [] 0) (Z.le_refl 0)) as [P1 _]. specialize (P1 (Z.le_refl 0)). unfold j_event in P1. destruct (jr_event r); discriminate.
    - destruct (cm_members _ _ C ltac:(discriminate)) as (l & -> & M). exists (123 :: l ++ [125]), (VObj (m :: ms)). split.
      { unfold format_json. apply (prints_eq _ ((text "{" ++ l) ++ text "}")); [reflexivity|].
        apply (prints_unwr (fun o => wr (text "{") o ;; j_event r ;; j_names r Names.flag_names ;; j_family family_name numeric r ;; j_proto proto_name numeric r ;;
          j_end ntop4 ntop6 formatter r "'remote':{" B_RADDR B_RPORT B_RIFACE B_RMASK (jr_remote r) ;;
          j_end ntop4 ntop6 formatter r "'local':{" B_LADDR B_LPORT B_LIFACE B_LMASK (jr_local r)) _ 44); [discriminate|].
        rewrite <- app_assoc. refine (prints_ext _ _ _ _ (prints_seq (wr (text "{")) _ _ _ (prints_wr _) P)). intros o. cbv beta. destruct (wr (text "{") o); reflexivity. }
      split; [constructor; exact M|]. split; [exact (lengths_obj_lim _ _ L)|]. split; [pose proof (depth_obj 1 _ ltac:(lia) L); lia|].
      intros w. cbn [route_element]. unfold member in E. rewrite E. cbn [andthen r_remote r_local r_flags r_label].
      replace (match label_of with [] => None | l0 => Some l0 end) with (jr_event r); [reflexivity|]. unfold label_of. destruct (jr_event r) as [lb|] eqn:EV; [|reflexivity]. destruct (ok_event _ _ _ _ _ _ _ _ ok lb EV) as (NE & _). destruct lb; [congruence|reflexivity].
  Qed.
End Route.

(** ** Tables *)
Lemma prints_like f g k t u : (forall o o', g o = Done o' -> f o = k o') -> (forall o, (forall o', g o <> Done o') -> forall o', f o <> Done o') -> prints g t -> prints k u -> prints f (t ++ u).
Proof.
  intros E1 E2 Pg Pk. apply (fun H => H). intros o H. pose proof (prints_seq g k t u Pg Pk o H) as [A B]. split; intros L.
  - specialize (A L). destruct (g o) as [o1| |] eqn:G; [|discriminate|discriminate]. rewrite (E1 _ _ G). exact A.
  - specialize (B L). destruct (g o) as [o1| |] eqn:G; [rewrite (E1 _ _ G); exact B| |]; apply E2; rewrite G; discriminate.
Qed.
Inductive tails : list Z -> list jvalue -> Prop :=
| tails_nil : tails [] []
| tails_cons l v t vs : value l v -> tails t vs -> tails (44 :: 10 :: l ++ t) (v :: vs).
Lemma newline : ws [10].
Proof. constructor; [right; right; left; reflexivity|constructor]. Qed.
Lemma tails_elements t vs : tails t vs -> forall l v, value l v -> elements (10 :: l ++ t ++ [10]) (v :: vs).
Proof.
  induction 1 as [|l2 v2 t vs V2 T IH]; intros l v VL.
  - exact (elements_one [10] l v [10] newline VL newline).
  - specialize (IH l2 v2 V2). pose proof (elements_more [10] l v [] _ _ newline VL (Forall_nil _) IH) as E. cbn [app] in *. rewrite <- app_assoc. exact E.
Qed.

Section Dump.
  Context {W D V F : Type}.
  Variable api : calls W V F.
  Variable cv : converters W D V F.
  Variable ntop4 ntop6 : list Z -> list Z.
  Variable formatter : Z -> option (list Z -> Z -> Z -> fmt).
  Variable family_name : Z -> option (list Z).
  Variable proto_name : Z -> pname.
  Variable numeric : bool.
  Let ok := loadable cv ntop4 ntop6 formatter family_name proto_name numeric.
  Let fj := format_json ntop4 ntop6 formatter family_name proto_name numeric.
  Let rest := dump_rest ntop4 ntop6 formatter family_name proto_name numeric.
  Definition means_route (r : jroute) (v : jvalue) : Prop :=
    lengths_ok JsonProps.ws_cfg v /\ depth v <= 2 /\
    forall w, route_element api cv false v w = does (a_route_insert api (remote_of r) (local_of r) (settings_of r) (jr_event r) w).
  Definition ending := 10 :: text "]}" ++ [10].
  Lemma rest_prints rs : Forall ok rs -> forall pre, exists t vs, Forall2 means_route rs vs /\ prints (rest (List.length rs) (pre ++ rs) (List.length pre)) (t ++ ending) /\
    match pre with
    | [] => rs = [] /\ t = [] \/ exists l v t' vs', vs = v :: vs' /\ value l v /\ tails t' vs' /\ t = l ++ t'
    | _ => tails t vs
    end.
  Proof.
    induction 1 as [|r rs R _ IH]; intros pre.
    - exists [], []. split; [constructor|]. split.
      + rewrite app_nil_r. apply (prints_ext (wr ending)); [|apply prints_wr]. intros o. unfold rest. cbn [List.length dump_rest]. unfold dump_next. rewrite (proj2 (nth_error_None pre (List.length pre))) by lia. reflexivity.
      + destruct pre; [left; auto|constructor].
    - destruct (route_prints api cv ntop4 ntop6 formatter family_name proto_name numeric r R) as (l & v & P & VL & LO & DE & ME).
      destruct (IH (pre ++ [r])) as (t & vs & F2 & PT & S1). rewrite <- app_assoc in PT. cbn [app] in PT. rewrite app_length in PT. cbn [List.length] in PT. rewrite Nat.add_1_r in PT.
      assert (TS : tails t vs) by (destruct pre; exact S1). clear S1.
      assert (NE : nth_error (pre ++ r :: rs) (List.length pre) = Some r) by (rewrite nth_error_app2, Nat.sub_diag by lia; reflexivity).
      pose (sep := match pre with [] => [] | _ => [44; 10] end).
      pose (g := fun o => (if (List.length pre =? 0)%nat then Done o else wr [44; 10] o) ;; fj r).
      assert (PG : prints g (sep ++ l)).
      { apply (prints_seq (fun o => if (List.length pre =? 0)%nat then Done o else wr [44; 10] o) (fj r)); [|exact P]. unfold sep. destruct pre; cbn [List.length Nat.eqb]; [apply prints_done|apply prints_wr]. }
      exists ((sep ++ l) ++ t), (v :: vs). split; [constructor; [split; [exact LO|split; [exact DE|exact ME]]|exact F2]|]. split.
      + rewrite <- app_assoc. apply (prints_like _ g (rest (List.length rs) (pre ++ r :: rs) (S (List.length pre)))); [| |exact PG|exact PT].
        * intros o o'. unfold g, rest. cbn [List.length dump_rest]. unfold dump_next. rewrite NE. destruct (if (List.length pre =? 0)%nat then Done o else wr [44; 10] o) as [o1|c o1|]; cbn [cont]; [|discriminate|discriminate].
          unfold fj. intros E. rewrite E. reflexivity.
        * intros o. unfold g, rest. cbn [List.length dump_rest]. unfold dump_next. rewrite NE. destruct (if (List.length pre =? 0)%nat then Done o else wr [44; 10] o) as [o1|c o1|]; cbn [cont]; [|intros; discriminate|intros; discriminate].
          unfold fj. intros E. destruct (format_json _ _ _ _ _ _ r o1) as [o2|[|] o2|]; [destruct (E o2 eq_refl)|intros; discriminate|intros; discriminate|intros; discriminate].
      + unfold sep. destruct pre as [|p0 pre]; [right; exists l, v, t, vs; auto|]. rewrite <- app_assoc. cbn [app]. constructor; assumption.
  Qed.
  Lemma elements_insert rs vs : Forall2 means_route rs vs -> forall w, each_element (route_element api cv false) vs w = match insert_all api rs w with Some w' => Means w' | None => Refused end.
  Proof.
    induction 1 as [|r v rs vs (_ & _ & M) _ IH]; intros w; cbn [each_element insert_all]; [reflexivity|]. rewrite M. unfold does. destruct (a_route_insert _ _ _ _ _ w) as [c w']. cbn [fst snd]. destruct (c <? 0); [reflexivity|]. cbn [andthen]. apply IH.
  Qed.
  Definition doc_of (vs : list jvalue) : jvalue :=
    VObj [((JsonText.bytes "wolfsentry-config-version", JsonText.bytes "wolfsentry-config-version"), VNum (text "1")); ((JsonText.bytes "routes", JsonText.bytes "routes"), VArr vs)].
  Lemma doc_meaning rs vs : Forall2 means_route rs vs -> forall dflt w, document_meaning api cv false (doc_of vs) dflt w = match insert_all api rs w with Some w' => Means w' | None => Refused end.
  Proof.
    intros F2 dflt w. unfold doc_of, document_meaning.
    change [((JsonText.bytes "wolfsentry-config-version", JsonText.bytes "wolfsentry-config-version"), VNum (text "1")); ((JsonText.bytes "routes", JsonText.bytes "routes"), VArr vs)]
      with ([((JsonText.bytes "wolfsentry-config-version", JsonText.bytes "wolfsentry-config-version"), VNum (text "1"))] ++ [((JsonText.bytes "routes", JsonText.bytes "routes"), VArr vs)]).
    rewrite each_app, each_one by (reflexivity || (vm_compute; congruence)). rewrite andthen_means. unfold section at 1. cbn [LoaderSpec.scalar given andthen]. keys. cbn [require andthen].
    assert (C1 : convert_uint32 JSON_NUMBER (text "1") = CSet 1) by (vm_compute; reflexivity). rewrite C1. cbn [num andthen]. change (1 =? 1) with true. cbn [require andthen defaults policy content].
    rewrite each_one by (reflexivity || (vm_compute; congruence)). rewrite andthen_means. unfold section. cbn [versioned require andthen]. keys. cbn [orb content]. rewrite (elements_insert rs vs F2 w). destruct (insert_all api rs w) as [w'|]; reflexivity.
  Qed.
  Lemma doc_within rs vs : Forall2 means_route rs vs -> JsonSpec.within JsonProps.ws_cfg (doc_of vs).
  Proof.
    intros F2. split; [left; reflexivity|]. split; [right|split; [|reflexivity]].
    - unfold doc_of. cbn [depth fold_right snd].
      assert (fold_right (fun x n => Z.max (depth x) n) 0 vs <= 2) by (clear - F2; induction F2 as [|r v rs vs (_ & H & _) _ IH]; cbn [fold_right]; lia). cbn [JsonProps.ws_cfg max_nesting_level]. lia.
    - unfold doc_of. constructor. constructor; [split; [right; vm_compute; congruence|constructor; right; vm_compute; congruence]|]. constructor; [split; [right; vm_compute; congruence|]|constructor]. cbn [snd]. constructor.
      clear - F2. induction F2 as [|r v rs vs (H & _) _ IH]; constructor; assumption.
  Qed.
  Lemma dump_prints rs : Forall ok rs -> exists t vs, Forall2 means_route rs vs /\ document t (doc_of vs) /\
    prints (fun o => dump_start o ;; rest (List.length rs) rs 0) t.
  Proof.
    intros FO. destruct (rest_prints rs FO []) as (t & vs & F2 & P & SH). cbn [app List.length] in P.
    pose (head := text "{'wolfsentry-config-version':1," ++ 10 :: text "'routes':[" ++ [10]).
    exists (head ++ t ++ ending), vs. split; [exact F2|]. split; [|apply (prints_seq dump_start); [apply prints_wr|exact P]].
    assert (VA : exists body, value (91 :: body ++ [93]) (VArr vs) /\ 10 :: t ++ [10] = body).
    { destruct SH as [[-> ->]|(l & v & t' & vs' & -> & VL & TS & ->)].
      - inversion F2; subst. exists [10; 10]. split; [apply (value_empty_array [10; 10]); repeat (constructor; [right; right; left; reflexivity|]); constructor|reflexivity].
      - eexists. split; [apply value_array; exact (tails_elements t' vs' TS l v VL)|rewrite <- app_assoc; reflexivity]. }
    destruct VA as (body & VA & EB).
    assert (ME : members (JsonText.text "'wolfsentry-config-version':1," ++ [10] ++ JsonText.text "'routes':" ++ (91 :: body ++ [93])) 
      [((JsonText.bytes "wolfsentry-config-version", JsonText.bytes "wolfsentry-config-version"), VNum (text "1")); ((JsonText.bytes "routes", JsonText.bytes "routes"), VArr vs)]).
    { assert (N1 : JsonSpec.number (text "1")) by (exists [], (text "1"), [], []; split; [reflexivity|]; split; [apply no_minus|]; split; [apply (int_nonzero 49 []); [lia|constructor]|]; split; [apply no_frac|apply no_exp]).
      pose proof (members_one [10] (JsonText.bytes "routes") (JsonText.bytes "routes") [] [] (91 :: body ++ [93]) _ [] newline (key_chars "routes" eq_refl) (Forall_nil _) (Forall_nil _) VA (Forall_nil _)) as M2.
      pose proof (members_more [] (JsonText.bytes "wolfsentry-config-version") (JsonText.bytes "wolfsentry-config-version") [] [] (text "1") _ [] _ _ (Forall_nil _) (key_chars "wolfsentry-config-version" eq_refl) (Forall_nil _) (Forall_nil _) (value_number _ N1) (Forall_nil _) M2) as M1.
      rewrite app_nil_r in M1. exact M1. }
    pose proof (document_intro [] _ _ [10] (Forall_nil _) (value_object _ _ ME) newline) as DI. unfold doc_of.
    replace (head ++ t ++ ending) with ([] ++ (123 :: (JsonText.text "'wolfsentry-config-version':1," ++ [10] ++ JsonText.text "'routes':" ++ 91 :: body ++ [93]) ++ [125]) ++ [10]); [exact DI|].
    rewrite <- EB. unfold head, ending. cbn. rewrite <- !app_assoc. reflexivity.
  Qed.
End Dump.
