(** Lemmas for C63: the section "routes". *)
Require Import ZArith NArith List Bool String Lia.
From Verif Require Import Json JsonSpec JsonGrammar Convert EventConfig Loader LoaderSpec LoaderProofs LoaderEvents.
From Verif Require JsonText Table Names.
Import ListNotations.
Open Scope Z_scope.

Section Routes.
  Context {W D V F : Type}.
  Variable api : calls W V F.
  Variable cv : converters W D V F.
  Variable only_values : bool.
  Notation jps := (jps D).
  Notation process := (process api cv only_values).
  Notation run := (run api cv only_values).
  Notation members ms := (flat_map (fun m => (JSON_KEY, snd (fst m)) :: events (snd m)) ms).

  Lemma put_agrees a off b : agrees (put a off b) (write_at a off b) eq.
  Proof. unfold put, write_at. destruct (Nat.leb _ _); cbn; [eauto|exact Logic.I]. Qed.
  Lemma bytes_of_bits size : 0 <= size -> Z.land size 7 = 0 -> Z.shiftl size 1 <= MAX_ADDR_BITS -> bits_to_bytes size = size / 8.
  Proof.
    unfold MAX_ADDR_BITS. intros P L S1. rewrite Z.shiftl_mul_pow2 in S1 by lia. change (2 ^ 1) with 2 in S1. change 7 with (Z.ones 3) in L. rewrite Z.land_ones in L by lia. change (2 ^ 3) with 8 in L.
    unfold bits_to_bytes. rewrite Z.mod_small by lia. pose proof (Z.div_mod size 8). symmetry; apply Z.div_unique with 7; lia.
  Qed.
  Lemma shorter_64 d : (64 <=? Z.of_nat (List.length d)) = negb (shorter 64 d).
  Proof. unfold shorter. destruct (Z.ltb_spec (Z.of_nat (List.length d)) 64), (Z.leb_spec 64 (Z.of_nat (List.length d))); try reflexivity; lia. Qed.

  Lemma endpoint_agrees remote w k v r t d : scalar v = Some (t, d) -> agrees (endpoint_member cv remote w k v r) (endpoint_clause cv remote k w t d r) eq.
  Proof.
    intros SV. unfold endpoint_member, endpoint_clause. rewrite SV. cbn [given andthen].
    destruct (is k "port").
    { unfold require. destruct (sa_family (get_sa remote r) =? AF_UNSPEC); cbn [negb andthen]; [cbn; discriminate|].
      destruct v as [| | |dd|rr data|vs|ms]; try discriminate; injection SV as <- <-; try (cbn; discriminate).
      - eapply agrees_bind; [apply agrees_num|]. intros n ? <-. cbn. eauto.
      - assert (X : N.testbit (r_flags (clear_bit r (if remote then B_RPORT else B_LPORT))) B_TCPLIKE = N.testbit (r_flags r) B_TCPLIKE).
        { unfold clear_bit, with_flags. cbn [r_flags]. rewrite N.clearbit_eqb. unfold B_RPORT, B_LPORT, B_TCPLIKE. destruct remote; cbn; rewrite andb_true_r; reflexivity. }
        rewrite shorter_64. destruct (N.testbit (r_flags (clear_bit r (if remote then B_RPORT else B_LPORT))) B_TCPLIKE); cbn [negb andb andthen]; [|cbn; discriminate].
        destruct (shorter 64 data); cbn [negb andthen]; [|cbn; discriminate]. destruct (cv_port_name cv _ _); cbn; try discriminate; eauto. }
    destruct (is k "address").
    { unfold require. destruct (sa_family (get_sa remote r) =? AF_UNSPEC); cbn [negb andthen]; [cbn; discriminate|].
      unfold address_into. destruct (cv_address cv w _ _ _ t d) as [[[f b] n]|]; cbn [given andthen bind]; [|cbn; discriminate].
      unfold put, write_at. destruct (Nat.leb _ _); cbn; [eauto|exact Logic.I]. }
    destruct (is k "bitmask").
    { unfold require. destruct (sa_family (get_sa remote r) =? AF_UNSPEC); cbn [negb andthen]; [cbn; discriminate|].
      destruct (cv_family_bits cv w _) as [size|]; cbn [given andthen]; [|cbn; discriminate].
      destruct (Z.land size 7 =? 0) eqn:L; cbn [negb andb andthen]; [|cbn; discriminate]. apply Z.eqb_eq in L.
      destruct (Z.leb_spec (Z.shiftl size 1) MAX_ADDR_BITS) as [S1|S1]; cbn [andthen]; [|destruct (Z.ltb_spec MAX_ADDR_BITS (Z.shiftl size 1)); [cbn; discriminate|lia]].
      destruct (Z.ltb_spec MAX_ADDR_BITS (Z.shiftl size 1)) as [S2|_]; [lia|].
      destruct (0 <=? size) eqn:SP; cbn [andb negb]; [|exact Logic.I]. apply Z.leb_le in SP. unfold move_up.
      destruct ((sa_len (get_sa remote r) =? 0) || (sa_len (get_sa remote r) =? size)); cbn [negb]; [|exact Logic.I]. cbn [bind].
      unfold address_into. destruct (cv_address cv w true _ _ t d) as [[[f b] n]|]; cbn [given andthen bind]; [|cbn; discriminate].
      rewrite (bytes_of_bits size SP L S1). unfold put, write_at. destruct (Nat.leb _ _); cbn; [eauto|exact Logic.I]. }
    destruct (is k "prefix-bits").
    { unfold require. destruct (sa_family (get_sa remote r) =? AF_UNSPEC); cbn [negb andb andthen]; [cbn; discriminate|].
      destruct (N.testbit (r_flags r) (if remote then B_RMASK else B_LMASK)); cbn [negb andthen]; [cbn; discriminate|].
      eapply agrees_bind; [apply agrees_num|]. intros n ? <-. cbn. eauto. }
    destruct (is k "interface").
    { eapply agrees_bind; [apply agrees_num|]. intros n ? <-. cbn. eauto. }
    cbn. discriminate.
  Qed.

  Section One.
  Variables (dflt : econf) (pol : N).
  Definition Rt sec dep key kd dom r : jps := mkJ 1 T_ROUTES O_ROUTE sec dep key kd dflt pol dom r zero_event [].
  Definition P_endpoint (remote : bool) w (r : route) (x : jps * W) : Prop := exists key kd dom, x = (Rt (if remote then S_REMOTE else S_LOCAL) 4 key kd dom r, w).
  Definition Q_endpoint (remote : bool) w k (r : route) (x : jps * W) : Prop := exists dom, x = (Rt (if remote then S_REMOTE else S_LOCAL) 4 k 4 dom r, w).
  Lemma endpoint_member_agrees remote w k v r x : Q_endpoint remote w k r x -> agrees (endpoint_member cv remote w k v r) (run (events v) x) (P_endpoint remote w).
  Proof.
    intros (dom & ->). destruct (scalar v) as [[t d]|] eqn:SV.
    - rewrite (scalar_events v t d SV), run_one. pose proof (scalar_typed v t d SV) as ST.
      assert (X : process t d (Rt (if remote then S_REMOTE else S_LOCAL) 4 k 4 dom r, w) = bind (endpoint_clause cv remote k w t d r) (fun r' => Good (Rt (if remote then S_REMOTE else S_LOCAL) 4 k 4 dom r', w))) by (destruct t, remote; try discriminate; reflexivity).
      rewrite X. clear X. assert (EM : forall (m : meaning route), andthen m Means = m) by (intros [?| |]; reflexivity). rewrite <- (EM (endpoint_member cv remote w k v r)). eapply agrees_bind; [apply endpoint_agrees; exact SV|].
      intros r1 ? <-. cbn. eexists. split; [reflexivity|]. exists k, 4, dom. reflexivity.
    - assert (X : endpoint_member cv remote w k v r = Refused) by (unfold endpoint_member; rewrite SV; reflexivity). rewrite X. cbn [agrees]. intros y.
      destruct v; try discriminate; cbn [events]; rewrite run_cons; destruct remote; discriminate.
  Qed.
  Definition P_route w (r : route) (x : jps * W) : Prop := exists key kd dom, x = (Rt S_NONE 3 key kd dom r, w).
  Definition Q_route w k (r : route) (x : jps * W) : Prop := exists dom, x = (Rt S_NONE 3 k 3 dom r, w).

  Lemma protocol_agrees v r t d : scalar v = Some (t, d) ->
    agrees (let fam := sa_family (r_remote r) in
        let inet := (fam =? AF_INET) || (fam =? AF_INET6) in
        let+ p := match v with
                  | VNum _ => num (convert_uint16 t d)
                  | VStr _ _ => let+ _ := require (inet && shorter 64 d) in match cv_proto_name cv d with Found p => Means p | _ => Refused end
                  | _ => Refused
                  end in
        let r := clear_bit r B_PROTO in
        let r := with_sas r (with_proto (r_remote r) p) (with_proto (r_local r) p) in
        Means (if inet && ((p =? IPPROTO_TCP) || (p =? IPPROTO_UDP)) then set_bit r B_TCPLIKE else r)) (protocol_clause cv t d r) eq.
  Proof.
    intros SV. unfold protocol_clause. cbn zeta. change (sa_family (r_remote (clear_bit r B_PROTO))) with (sa_family (r_remote r)).
    destruct v as [| | |dd|rr data|vs|ms]; try discriminate; injection SV as <- <-; try (cbn; discriminate).
    - eapply agrees_bind; [apply agrees_num|]. intros n ? <-. cbn. eauto.
    - rewrite shorter_64. unfold require. set (fam := sa_family (r_remote r)). destruct (Z.eqb_spec fam AF_UNSPEC) as [-> |_]; [cbn; discriminate|].
      destruct ((fam =? AF_INET) || (fam =? AF_INET6)) eqn:E; cbn [negb andb andthen]; [|cbn; discriminate]. destruct (shorter 64 data); cbn [negb andthen]; [|cbn; discriminate].
      destruct (cv_proto_name cv data); cbn; try discriminate; eauto.
  Qed.
  Lemma route_member_agrees w k v r x : positive k -> Q_route w k r x -> agrees (route_member cv w k v r) (run (events v) x) (P_route w).
  Proof.
    intros PK (dom & ->). destruct (scalar v) as [[t d]|] eqn:SV.
    - rewrite (scalar_events v t d SV), run_one. pose proof (scalar_typed v t d SV) as ST.
      assert (K : forall m c, agrees m c eq -> agrees m (bind c (fun r' => Good (Rt S_NONE 3 k 3 dom r', w))) (P_route w)).
      { intros m c H. assert (EM : andthen m Means = m) by (destruct m; reflexivity). rewrite <- EM. eapply agrees_bind; [exact H|]. intros r1 ? <-. cbn. eexists. split; [reflexivity|]. exists k, 3, dom. reflexivity. }
      assert (X : process t d (Rt S_NONE 3 k 3 dom r, w) = route_clause api cv only_values (Rt S_NONE 3 k 3 dom r) w t d) by (destruct t; try discriminate; reflexivity). rewrite X. clear X.
      assert (X : route_clause api cv only_values (Rt S_NONE 3 k 3 dom r) w t d =
        if is k "parent-event" then (if MAX_LABEL <? Z.of_nat (List.length d) then Err else Good (Rt S_NONE 3 k 3 dom (clear_bit (mkRoute d (r_remote r) (r_local r) (r_flags r)) B_EVENT), w))
        else if is k "family" then bind (family_clause cv w t d r) (fun r' => Good (Rt S_NONE 3 k 3 dom r', w))
        else if is k "protocol" then bind (protocol_clause cv t d r) (fun r' => Good (Rt S_NONE 3 k 3 dom r', w))
        else bind (bind (flag_of_key k) (fun f => boolean_clause t f r)) (fun r' => Good (Rt S_NONE 3 k 3 dom r', w))) by (destruct t; try discriminate; reflexivity). rewrite X. clear X.
      assert (X : route_member cv w k v r = (let+ (t, d) := given (scalar v) in
      if is k "parent-event" then
        let+ _ := require (shorter 33 d) in
        Means (clear_bit (mkRoute d (r_remote r) (r_local r) (r_flags r)) B_EVENT)
      else if is k "family" then
        let+ f := match v with VNum _ => num (convert_uint16 t d) | VStr _ _ => given (cv_family_name cv w d) | _ => Refused end in
        let r := clear_bit r B_FAMILY in
        Means (with_sas r (with_family (r_remote r) f) (with_family (r_local r) f))
      else if is k "protocol" then
        let fam := sa_family (r_remote r) in
        let inet := (fam =? AF_INET) || (fam =? AF_INET6) in
        let+ p := match v with
                  | VNum _ => num (convert_uint16 t d)
                  | VStr _ _ => let+ _ := require (inet && shorter 64 d) in match cv_proto_name cv d with Found p => Means p | _ => Refused end
                  | _ => Refused
                  end in
        let r := clear_bit r B_PROTO in
        let r := with_sas r (with_proto (r_remote r) p) (with_proto (r_local r) p) in
        Means (if inet && ((p =? IPPROTO_TCP) || (p =? IPPROTO_UDP)) then set_bit r B_TCPLIKE else r)
      else
        let+ f := in_table Names.flag_names k in
        match v with VTrue => Means (with_flags r (N.lor (r_flags r) f)) | VFalse => Means (with_flags r (N.ldiff (r_flags r) f)) | _ => Refused end)) by (destruct v; try discriminate; reflexivity). rewrite X. clear X.
      rewrite SV. cbn [given andthen].
      destruct (is k "parent-event").
      { rewrite <- not_shorter. unfold require. destruct (shorter 33 d); cbn [negb andthen]; [|cbn; discriminate]. cbn. eexists. split; [reflexivity|]. exists k, 3, dom. reflexivity. }
      destruct (is k "family").
      { apply K. unfold family_clause. destruct v as [| | |dd|rr data|vs|ms]; try discriminate; injection SV as <- <-; try (cbn; discriminate); cbn [given andthen].
        - eapply agrees_bind; [apply agrees_num|]. intros n ? <-. cbn. eauto.
        - destruct (cv_family_name cv w data); cbn; [eauto|discriminate]. }
      destruct (is k "protocol"); [apply K; exact (protocol_agrees v r t d SV)|].
      apply K. rewrite (flag_key k PK). pose proof (in_table_meant Names.flag_names k). destruct (in_table Names.flag_names k); cbn [of_meaning andthen bind]; [|cbn; discriminate|congruence].
      unfold boolean_clause. destruct v; try discriminate; injection SV as <- <-; cbn; try discriminate; eauto.
    - destruct v as [| | |dd|rr data|vs|ms]; try (exfalso; discriminate SV); cbn [events]; rewrite run_cons; [cbn; discriminate|].
      + cbn [route_member]. destruct (is k "remote") eqn:K1; [|destruct (is k "local") eqn:K2].
        * assert (X : process JSON_OBJECT_BEG [] (Rt S_NONE 3 k 3 dom r, w) = Good (Rt S_REMOTE 4 k 3 dom r, w)).
          { transitivity (route_clause api cv only_values (Rt S_NONE 4 k 3 dom r) w JSON_OBJECT_BEG []); [reflexivity|]. unfold route_clause. cbn [j_depth Rt j_key]. rewrite K1. reflexivity. }
          rewrite X. cbn [bind]. rewrite run_app. assert (EM : forall (m : meaning route), andthen m Means = m) by (intros [?| |]; reflexivity). rewrite <- (EM (each_member _ ms r)). eapply agrees_bind.
          -- apply (agrees_members api cv only_values _ (P_endpoint true w) (Q_endpoint true w)); [| |exists k, 3, dom; reflexivity].
             ++ intros k' r' y (key' & kd' & dom' & ->). pose proof (process_key api cv only_values (Rt S_REMOTE 4 key' kd' dom' r') w k' ltac:(discriminate)) as H. destruct (32 <=? _); [exact H|]. eexists. split; [exact H|]. exists dom'. reflexivity.
             ++ intros k' v a y _ HQ. apply endpoint_member_agrees. exact HQ.
          -- intros r1 y (key' & kd' & dom' & ->). rewrite run_one. cbn. eexists. split; [reflexivity|]. exists key', kd', dom'. reflexivity.
        * assert (X : process JSON_OBJECT_BEG [] (Rt S_NONE 3 k 3 dom r, w) = Good (Rt S_LOCAL 4 k 3 dom r, w)).
          { transitivity (route_clause api cv only_values (Rt S_NONE 4 k 3 dom r) w JSON_OBJECT_BEG []); [reflexivity|]. unfold route_clause. cbn [j_depth Rt j_key]. rewrite K1, K2. reflexivity. }
          rewrite X. cbn [bind]. rewrite run_app. assert (EM : forall (m : meaning route), andthen m Means = m) by (intros [?| |]; reflexivity). rewrite <- (EM (each_member _ ms r)). eapply agrees_bind.
          -- apply (agrees_members api cv only_values _ (P_endpoint false w) (Q_endpoint false w)); [| |exists k, 3, dom; reflexivity].
             ++ intros k' r' y (key' & kd' & dom' & ->). pose proof (process_key api cv only_values (Rt S_LOCAL 4 key' kd' dom' r') w k' ltac:(discriminate)) as H. destruct (32 <=? _); [exact H|]. eexists. split; [exact H|]. exists dom'. reflexivity.
             ++ intros k' v a y _ HQ. apply endpoint_member_agrees. exact HQ.
          -- intros r1 y (key' & kd' & dom' & ->). rewrite run_one. cbn. eexists. split; [reflexivity|]. exists key', kd', dom'. reflexivity.
        * cbn [agrees]. intros y. assert (X : process JSON_OBJECT_BEG [] (Rt S_NONE 3 k 3 dom r, w) = Err); [|rewrite X; discriminate].
          transitivity (route_clause api cv only_values (Rt S_NONE 4 k 3 dom r) w JSON_OBJECT_BEG []); [reflexivity|]. unfold route_clause. cbn [j_depth Rt j_key]. rewrite K1, K2. reflexivity.
  Qed.
  End One.

  (** ** Depth and section while inside *)
  Lemma reset_depth (j : jps) : j_depth (reset j) = j_depth j /\ j_table (reset j) = j_table j.
  Proof. unfold reset. destruct (j_object j); split; reflexivity. Qed.
  Lemma route_clause_stays j w t d y : route_clause api cv only_values j w t d = Good y -> j_depth (fst y) = j_depth j /\ j_table (fst y) = j_table j.
  Proof.
    assert (K : forall (r : res route), bind r (fun r' => Good (with_route j r', w)) = Good y -> j_depth (fst y) = j_depth j /\ j_table (fst y) = j_table j).
    { intros [r| |] E; try discriminate. injection E as <-. split; reflexivity. }
    assert (KC : forall j' r, j_depth j' = j_depth j /\ j_table j' = j_table j -> call j' r = Good y -> j_depth (fst y) = j_depth j /\ j_table (fst y) = j_table j).
    { intros j' r H E. unfold call in E. destruct (fst r <? 0); [discriminate|]. injection E as <-. exact H. }
    unfold route_clause. destruct (j_depth j) as [|[[p|p|]|[[p|p|]|p|]|]|p] eqn:DJ; try discriminate; destruct t; try discriminate; intros E;
      repeat match type of E with (if ?b then _ else _) = _ => destruct b | (match ?b with _ => _ end) = _ => destruct b | (let j0 := _ in _) = _ => cbv zeta in E end; try discriminate;
      try (first [apply K in E|apply KC in E; [|rewrite <- DJ; apply reset_depth]]; rewrite ?DJ in E; exact E);
      try (injection E as <-; cbn [fst j_depth j_table with_section with_object with_route]; rewrite ?DJ; try (split; [first [assumption|reflexivity]|reflexivity]); destruct (reset_depth j); rewrite ?DJ in *; split; congruence).
  Qed.
End Routes.
