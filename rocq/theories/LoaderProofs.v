(** Lemmas for C63: the run of json_process over the tokens of a document is what LoaderSpec.v says. *)
Require Import ZArith NArith List Bool String Lia.
From Verif Require Import Json JsonSpec JsonGrammar Convert ConvertProps EventConfig Loader LoaderSpec.
From Verif Require JsonText Table Names NamesProofs DomProofs.
Import ListNotations.
Open Scope Z_scope.

Arguments is : simpl never.
Arguments convert_uint8 : simpl never.
Arguments convert_uint16 : simpl never.
Arguments convert_uint32 : simpl never.
Arguments convert_uint64 : simpl never.
Arguments convert_sint64 : simpl never.
Arguments flag_of_text : simpl never.
Arguments result_of_text : simpl never.
Arguments flag_of_key : simpl never.
Arguments MAX_LABEL : simpl never.
Arguments MAX_VALUE : simpl never.
Arguments shorter : simpl never.
Arguments named_in : simpl never.
Arguments in_table : simpl never.
Arguments N.lor : simpl never.
Arguments N.ldiff : simpl never.
Arguments N.setbit : simpl never.
Arguments N.clearbit : simpl never.
Arguments N.testbit : simpl never.
Arguments N.eqb : simpl never.
Arguments Z.leb : simpl never.
Arguments Z.ltb : simpl never.
Arguments Z.of_nat : simpl never.
Arguments zero_route : simpl never.
Arguments zero_event : simpl never.
Arguments new_event : simpl never.
Arguments new_route : simpl never.

(** ** Keys *)
Lemma eqb_eq a : forall b, eqb a b = true <-> a = b.
Proof.
  induction a as [|x a IH]; intros [|y b]; cbn [eqb]; try (split; [discriminate|discriminate]); [tauto|].
  rewrite andb_true_iff, Z.eqb_eq, IH. split; [intros [-> ->]; reflexivity|intros [= -> ->]; auto].
Qed.
Lemma is_eq k s : is k s = true -> k = JsonText.bytes s.
Proof. apply eqb_eq. Qed.

(** ** Names *)
Lemma bytes_map s : map Z.to_N (JsonText.bytes s) = Names.bytes s.
Proof. induction s as [|c s IH]; cbn [JsonText.bytes Names.bytes map]; [reflexivity|]. rewrite IH. f_equal. unfold Ascii.nat_of_ascii. rewrite N_nat_Z, N2Z.id. reflexivity. Qed.
Definition positive (d : list Z) := forallb (fun c => 0 <? c) d = true.
Lemma map_inj a : forall b, positive a -> positive b -> map Z.to_N a = map Z.to_N b -> a = b.
Proof.
  unfold positive. induction a as [|x a IH]; intros [|y b] PA PB E; try discriminate; [reflexivity|]. cbn [forallb map] in *.
  apply andb_prop in PA, PB. destruct PA as [PA QA], PB as [PB QB]. injection E as E1 E2. apply Z.ltb_lt in PA, PB. f_equal; [lia|auto].
Qed.
Lemma positive_clean d : positive d -> NamesProofs.clean (map Z.to_N d).
Proof.
  unfold positive, NamesProofs.clean. intros P H. apply in_map_iff in H. destruct H as (c & E & I). rewrite forallb_forall in P. specialize (P c I). apply Z.ltb_lt in P. lia.
Qed.
Lemma find_table t d o : positive d -> (forall f s, In (f, s) t -> positive (JsonText.bytes s)) ->
  match o with Some f => In (f, map Z.to_N d) (Names.table_of t) | None => forall f, ~ In (f, map Z.to_N d) (Names.table_of t) end ->
  NoDup (map snd (Names.table_of t)) ->
  in_table t d = match o with Some f => Means f | None => Refused end.
Proof.
  intros PD PT H ND. unfold in_table. destruct (find (fun x => is d (snd x)) t) as [[f s]|] eqn:E.
  - apply find_some in E. destruct E as [I E]. cbn [snd fst] in *. apply is_eq in E. subst d.
    assert (I' : In (f, map Z.to_N (JsonText.bytes s)) (Names.table_of t)) by (rewrite bytes_map; unfold Names.table_of; apply in_map_iff; exists (f, s); auto).
    destruct o as [g|]; [|destruct (H f I')]. f_equal.
    clear - H I' ND. revert H I' ND. generalize (Names.table_of t). intros l A B ND. induction l as [|[a b] l IH]; [destruct A|]. cbn [map snd] in ND. inversion ND; subst.
    destruct A as [[= -> ->]|A], B as [[= -> ]|B]; [reflexivity|exfalso; apply H1, in_map_iff; exists (f, map Z.to_N (JsonText.bytes s)); auto|subst; exfalso; apply H1, in_map_iff; exists (g, map Z.to_N (JsonText.bytes s)); auto|auto].
  - destruct o as [g|]; [|reflexivity]. unfold Names.table_of in H. apply in_map_iff in H. destruct H as ([f s] & [= -> E1] & I). pose proof (find_none _ _ E _ I) as X. cbn [snd] in X. rewrite <- bytes_map in E1.
    apply map_inj in E1; [|eapply PT; exact I|exact PD]. subst d. unfold is in X. rewrite (proj2 (eqb_eq _ _) eq_refl) in X. discriminate.
Qed.
Lemma positive_flags : forall f s, In (f, s) Names.flag_names -> positive (JsonText.bytes s).
Proof.
  assert (X : forallb (fun x => forallb (fun c => 0 <? c) (JsonText.bytes (snd x))) Names.flag_names = true) by (vm_compute; reflexivity).
  rewrite forallb_forall in X. intros f s I. exact (X (f, s) I).
Qed.
Lemma positive_results : forall f s, In (f, s) Names.res_names -> positive (JsonText.bytes s).
Proof.
  assert (X : forallb (fun x => forallb (fun c => 0 <? c) (JsonText.bytes (snd x))) Names.res_names = true) by (vm_compute; reflexivity).
  rewrite forallb_forall in X. intros f s I. exact (X (f, s) I).
Qed.
Definition of_meaning {A} (m : meaning A) : res A := match m with Means a => Good a | _ => Err end.
Lemma in_table_meant t d : in_table t d <> Unspecified.
Proof. unfold in_table. destruct (find _ t); discriminate. Qed.
Lemma flag_text d : positive d -> flag_of_text d = of_meaning (in_table Names.flag_names d).
Proof.
  intros P. destruct NamesProofs.flags_ok as (A & B & C). unfold flag_of_text, named, Names.by_name. destruct (Z.of_nat (List.length d) <? 0) eqn:L; [apply Z.ltb_lt in L; lia|]. cbn [Table.bind]. rewrite Nat2Z.id.
  destruct (NamesProofs.by_name_c (Names.table_of Names.flag_names) (map Z.to_N d) [] (positive_clean d P) C) as (o & E & H). rewrite app_nil_r, map_length in E. rewrite E.
  rewrite (find_table _ d o P positive_flags H B). destruct o; reflexivity.
Qed.
Lemma result_text d : positive d -> result_of_text d = of_meaning (in_table Names.res_names d).
Proof.
  intros P. destruct NamesProofs.res_ok as (A & B & C). unfold result_of_text, named, Names.res_by_name. destruct (Z.of_nat (List.length d) <? 0) eqn:L; [apply Z.ltb_lt in L; lia|]. cbn [Table.bind]. rewrite Nat2Z.id.
  destruct (NamesProofs.res_by_name_c (Names.table_of Names.res_names) (map Z.to_N d) [] C (positive_clean d P)) as (o & E & H). rewrite app_nil_r, map_length in E. rewrite E.
  rewrite (find_table _ d o P positive_results H B). destruct o; reflexivity.
Qed.
Lemma flag_key d : positive d -> flag_of_key d = of_meaning (in_table Names.flag_names d).
Proof.
  intros P. destruct NamesProofs.flags_ok as (A & B & C). unfold flag_of_key, named, Names.by_name. change (-1 <? 0) with true. cbn iota. rewrite map_app. cbn [map]. change (Z.to_N 0) with 0%N.
  rewrite NamesProofs.strlen_c by exact (positive_clean d P). cbn [Table.bind].
  destruct (NamesProofs.by_name_c (Names.table_of Names.flag_names) (map Z.to_N d) [0%N] (positive_clean d P) C) as (o & E & H). rewrite E.
  rewrite (find_table _ d o P positive_flags H B). destruct o; reflexivity.
Qed.
Lemma upto_nul_positive k : positive (upto_nul k).
Proof. unfold positive. induction k as [|c k IH]; cbn [upto_nul]; [reflexivity|]. destruct (0 <? c) eqn:E; [|reflexivity]. cbn [forallb]. rewrite E. exact IH. Qed.
Arguments upto_nul : simpl never.

Lemma never_ub f t d : In f [convert_uint8; convert_uint16; convert_uint32; convert_uint64; convert_sint64] -> f t d <> CUB.
Proof. intros I. apply (C56_safe_partial f I t d). Qed.

(** ** Agreement *)
Definition agrees {A X} (m : meaning A) (r : res X) (P : A -> X -> Prop) : Prop :=
  match m with Means a => exists x, r = Good x /\ P a x | Refused => forall x, r <> Good x | Unspecified => True end.
Lemma agrees_bind {A B X Y} (m : meaning A) (r : res X) (P : A -> X -> Prop) (f : A -> meaning B) (g : X -> res Y) (Q : B -> Y -> Prop) :
  agrees m r P -> (forall a x, P a x -> agrees (f a) (g x) Q) -> agrees (andthen m f) (bind r g) Q.
Proof.
  destruct m as [a| |]; cbn [agrees andthen]; [intros (x & -> & H) K; apply K; exact H| |constructor]. intros H _ y E. destruct r as [x| |]; cbn [bind] in E; try discriminate. exact (H x eq_refl).
Qed.
Lemma agrees_weaken {A X} (m : meaning A) (r : res X) (P Q : A -> X -> Prop) : agrees m r P -> (forall a x, P a x -> Q a x) -> agrees m r Q.
Proof. destruct m; cbn [agrees]; [intros (x & E & H) K; exists x; auto|auto|auto]. Qed.
Lemma agrees_num c : agrees (num c) (number c) eq.
Proof. destruct c; cbn; [eexists; eauto|discriminate|discriminate|constructor]. Qed.

Section Runs.
  Context {W D V F : Type}.
  Variable api : calls W V F.
  Variable cv : converters W D V F.
  Variable only_values : bool.
  Notation jps := (jps D).
  Notation process := (process api cv only_values).

  Fixpoint run (evs : list Json.event) (x : jps * W) : res (jps * W) :=
    match evs with [] => Good x | (t, d) :: evs => bind (process t d x) (run evs) end.
  Lemma run_app a : forall b x, run (a ++ b) x = bind (run a x) (run b).
  Proof. induction a as [|[t d] a IH]; intros b x; [reflexivity|]. cbn [app run]. destruct (process t d x) as [y| |]; [apply IH|reflexivity|reflexivity]. Qed.

  Lemma agrees_call {A} (a : A) (r : Z * W) : agrees (does r) (call a r) (fun w x => x = (a, w)).
  Proof. unfold does, call. destruct (fst r <? 0); cbn; [discriminate|eexists; eauto]. Qed.

  (** Runs over members and elements, for a family of states [P]. *)
  Lemma agrees_elements {A} (f : jvalue -> A -> meaning A) (P : A -> jps * W -> Prop) :
    (forall v a x, P a x -> agrees (f v a) (run (events v) x) P) ->
    forall vs a x, P a x -> agrees (each_element f vs a) (run (flat_map events vs) x) P.
  Proof.
    intros H. induction vs as [|v vs IH]; intros a x Px; cbn [each_element flat_map]; [exists x; auto|].
    rewrite run_app. eapply agrees_bind; [apply H; exact Px|]. intros b y Py. apply IH. exact Py.
  Qed.
  Lemma agrees_members {A} (f : list Z -> jvalue -> A -> meaning A) (P : A -> jps * W -> Prop) (Q : list Z -> A -> jps * W -> Prop) :
    (forall k a x, P a x -> if 32 <=? Z.of_nat (List.length k) then process JSON_KEY k x = Err else exists y, process JSON_KEY k x = Good y /\ Q (upto_nul k) a y) ->
    (forall k v a x, positive k -> Q k a x -> agrees (f k v a) (run (events v) x) P) ->
    forall ms a x, P a x -> agrees (each_member f ms a) (run (flat_map (fun m => (JSON_KEY, snd (fst m)) :: events (snd m)) ms) x) P.
  Proof.
    intros HK HV. induction ms as [|[[r k] v] ms IH]; intros a x Px; cbn [each_member flat_map]; [exists x; auto|]. cbn [fst snd app run].
    specialize (HK k a x Px). destruct (32 <=? Z.of_nat (List.length k)).
    - rewrite HK. cbn [bind agrees]. discriminate.
    - destruct HK as (y & -> & Qy). cbn [bind]. rewrite run_app. eapply agrees_bind; [apply HV; [apply upto_nul_positive|exact Qy]|]. intros b z Pz. apply IH. exact Pz.
  Qed.
  Lemma scalar_events v t d : scalar v = Some (t, d) -> events v = [(t, d)].
  Proof. destruct v; cbn; intros [= <- <-]; reflexivity. Qed.
  Lemma run_one t d x : run [(t, d)] x = process t d x.
  Proof. cbn [run]. destruct (process t d x); reflexivity. Qed.

  Definition scalar_type (t : jtype) : bool := match t with JSON_NULL | JSON_FALSE | JSON_TRUE | JSON_NUMBER | JSON_STRING => true | _ => false end.
  Lemma scalar_typed v t d : scalar v = Some (t, d) -> scalar_type t = true.
  Proof. destruct v; cbn; intros [= <- <-]; reflexivity. Qed.

  (** ** Settings *)
  Ltac keys := repeat match goal with |- context [is ?k ?s] => destruct (is k s) eqn:? end.
  Ltac by_num := match goal with |- context [number ?c] => destruct c; cbn; try discriminate; try exact Logic.I; eexists; split; reflexivity end.

  Lemma setting_agrees j w t d c : scalar_type t = true -> j_depth j =? 5 = false ->
    (j_table j <> T_TOPCONFIG \/ is (j_key j) "max-purgeable-routes" = false /\ is (j_key j) "max-purgeable-idle-time" = false) ->
    agrees (setting cv (j_key j) t d c) (eventconfig_clause api cv j w t d c) (fun c' x => x = (c', j, w)).
  Proof.
    intros T DP N. unfold setting, eventconfig_clause, config_flag. rewrite DP. set (k := j_key j) in *.
    assert (E : forall (A : Type) (a b c : A), match t with JSON_ARRAY_END => a | JSON_OBJECT_END => b | _ => c end = c) by (destruct t; try discriminate; reflexivity). rewrite E. clear E.
    destruct (is k "max-connection-count"); [cbv beta zeta; by_num|]. destruct (is k "penalty-box-duration"); [by_num|]. destruct (is k "route-idle-time-for-purge"); [by_num|].
    destruct (is k "derog-thresh-for-penalty-boxing"); [by_num|].
    destruct (is k "derog-thresh-ignore-commendable"); [destruct t; try discriminate; cbn; try discriminate; eexists; split; reflexivity|].
    destruct (is k "commendable-clears-derogatory"); [destruct t; try discriminate; cbn; try discriminate; eexists; split; reflexivity|].
    destruct N as [N|[-> ->]]; [|cbn; discriminate].
    destruct (is k "max-purgeable-routes"); [destruct (j_table j); cbn; try discriminate; congruence|].
    destruct (is k "max-purgeable-idle-time"); [destruct (j_table j); cbn; try discriminate; congruence|]. cbn. discriminate.
  Qed.

  (** ** config-update *)
  Definition P_update pol (a : econf * W) (x : jps * W) : Prop :=
    exists key kd dom, x = (mkJ 1 T_TOPCONFIG O_NONE S_NONE 2 key kd (fst a) pol dom zero_route zero_event [], snd a).
  Definition Q_update pol k (a : econf * W) (x : jps * W) : Prop :=
    exists dom, x = (mkJ 1 T_TOPCONFIG O_NONE S_NONE 2 k 2 (fst a) pol dom zero_route zero_event [], snd a).
  Lemma update_member pol k v a x : Q_update pol k a x -> agrees (config_update_member api cv k v a) (run (events v) x) (P_update pol).
  Proof.
    intros (dom & ->). destruct a as [c w]. cbn [fst snd]. destruct (scalar v) as [[t d]|] eqn:SV.
    - rewrite (scalar_events v t d SV), run_one. pose proof (scalar_typed v t d SV) as ST. unfold config_update_member. rewrite SV. cbn [given andthen].
      assert (E : process t d (mkJ 1 T_TOPCONFIG O_NONE S_NONE 2 k 2 c pol dom zero_route zero_event [], w)
        = bind (eventconfig_clause api cv (mkJ 1 T_TOPCONFIG O_NONE S_NONE 2 k 2 c pol dom zero_route zero_event []) w t d c) (fun '(c, j, w) => Good (with_default j c, w))) by (destruct t; try discriminate; reflexivity).
      rewrite E. clear E. destruct (is k "max-purgeable-routes") eqn:M1; [|destruct (is k "max-purgeable-idle-time") eqn:M2].
      + apply is_eq in M1. subst k. unfold eventconfig_clause. cbn [j_depth j_key j_table]. change (2 =? 5) with false. cbn iota.
        assert (E : forall (A : Type) (a b c : A), match t with JSON_ARRAY_END => a | JSON_OBJECT_END => b | _ => c end = c) by (destruct t; try discriminate; reflexivity). rewrite E. clear E.
        cbn -[call does convert_uint32]. destruct (convert_uint32 t d); cbn -[call does]; try discriminate; [|exact Logic.I].
        unfold call, does. destruct (fst (a_max_routes api v0 w) <? 0); cbn; [discriminate|]. eexists. split; [reflexivity|]. eexists _, _, _. reflexivity.
      + apply is_eq in M2. subst k. unfold eventconfig_clause. cbn [j_depth j_key j_table]. change (2 =? 5) with false. cbn iota.
        assert (E : forall (A : Type) (a b c : A), match t with JSON_ARRAY_END => a | JSON_OBJECT_END => b | _ => c end = c) by (destruct t; try discriminate; reflexivity). rewrite E. clear E.
        cbn -[call does duration]. destruct (duration cv t d); cbn -[call does]; try discriminate; [|exact Logic.I].
        unfold call, does. destruct (fst (a_max_idle api v0 w) <? 0); cbn; [discriminate|]. eexists. split; [reflexivity|]. eexists _, _, _. reflexivity.
      + eapply agrees_bind; [exact (setting_agrees (mkJ 1 T_TOPCONFIG O_NONE S_NONE 2 k 2 c pol dom zero_route zero_event []) w t d c ST eq_refl (or_intror (conj M1 M2)))|].
        intros c' y ->. cbn. eexists. split; [reflexivity|]. eexists _, _, _. reflexivity.
    - unfold config_update_member. rewrite SV. cbn [given andthen agrees]. intros y. destruct v; try discriminate; cbn [events run].
      + enough (E : process JSON_ARRAY_BEG [] (mkJ 1 T_TOPCONFIG O_NONE S_NONE 2 k 2 c pol dom zero_route zero_event [], w) = Err) by (rewrite E; discriminate).
        cbn. keys; reflexivity.
      + enough (E : process JSON_OBJECT_BEG [] (mkJ 1 T_TOPCONFIG O_NONE S_NONE 2 k 2 c pol dom zero_route zero_event [], w) = Err) by (rewrite E; discriminate).
        cbn. keys; reflexivity.
  Qed.
End Runs.
