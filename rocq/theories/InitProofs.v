(** Lemmas for C79. *)
From Coq Require Import Permutation.
From Verif Require Import Base Table RouteKey EventConfig EventConfigSpec EventConfigProofs TimeConv Init InitSpec.
Open Scope N_scope.

Lemma land_bit a b i : N.land a (2 ^ i) = N.land b (2 ^ i) <-> N.testbit a i = N.testbit b i.
Proof.
  split.
  - intros H. assert (K := f_equal (fun x => N.testbit x i) H). cbn beta in K. rewrite !N.land_spec, N.pow2_bits_true, !andb_true_r in K. exact K.
  - intros H. apply N.bits_inj. intros j. rewrite !N.land_spec. destruct (N.eqb_spec j i) as [->|D]; [rewrite H; reflexivity|].
    rewrite N.pow2_bits_false by congruence. rewrite !andb_false_r. reflexivity.
Qed.
Lemma matches_bit lib caller i : config_matches lib caller (2 ^ i) = true <-> N.testbit (config caller) i = N.testbit (config lib) i.
Proof. unfold config_matches. rewrite N.eqb_eq. apply land_bit. Qed.
Lemma high_bits_clear x : x < 2 ^ 32 -> (N.land (N.ldiff (szmod - 1) (N.shiftl FLAG_MAX 1 - 1)) x = 0 <-> forall i, 14 <= i -> N.testbit x i = false).
Proof.
  intros B. change (szmod - 1) with (N.ones 64). change (N.shiftl FLAG_MAX 1 - 1) with (N.ones 14).
  assert (HI : forall i, 32 <= i -> N.testbit x i = false).
  { intros i Hi. destruct (N.eq_dec x 0) as [->|]; [apply N.bits_0|]. apply N.bits_above_log2. assert (N.log2 x < 32) by (apply N.log2_lt_pow2; lia). lia. }
  split.
  - intros H i Hi. destruct (N.leb_spec 32 i) as [L|L]; [apply HI; exact L|]. assert (K := f_equal (fun x => N.testbit x i) H). cbn beta in K.
    rewrite N.land_spec, N.ldiff_spec, N.bits_0 in K. rewrite (N.ones_spec_low 64), (N.ones_spec_high 14) in K by lia. exact K.
  - intros H. apply N.bits_inj. intros i. rewrite N.land_spec, N.ldiff_spec, N.bits_0. destruct (N.leb_spec 14 i) as [L|L]; [rewrite (H i L); apply andb_false_r|].
    rewrite (N.ones_spec_low 14) by lia. rewrite andb_false_r. reflexivity.
Qed.
Lemma compatible_spec lib caller : config caller < 2 ^ 32 -> (compatible lib caller = Code OK <-> compatible_builds lib caller).
Proof.
  intros B. unfold compatible, compatible_builds. assert (HB := high_bits_clear _ B).
  assert (M1 := matches_bit lib caller 1). assert (M2 := matches_bit lib caller 2). assert (M6 := matches_bit lib caller 6). assert (M9 := matches_bit lib caller 9).
  assert (M12 := matches_bit lib caller 12).
  change (2 ^ 1) with USER_DEFINED_TYPES in M1. change (2 ^ 2) with THREADSAFE in M2. change (2 ^ 6) with PROTOCOL_NAMES in M6. change (2 ^ 9) with HAVE_JSON_DOM in M9.
  change (2 ^ 12) with SHORT_ENUMS in M12.
  destruct (N.eqb_spec (version caller) 0) as [Z|Z]; [split; [discriminate|intros (C & _); contradiction]|].
  destruct (N.eqb_spec (version caller) (version lib)) as [V|V]; cbn [negb]; [|split; [discriminate|intros (_ & C & _); contradiction]].
  destruct (N.eqb_spec (N.land (N.ldiff (szmod - 1) (N.shiftl FLAG_MAX 1 - 1)) (config caller)) 0) as [H|H]; cbn [negb];
    [|split; [discriminate|intros (_ & _ & C & _); exfalso; apply H; apply HB; exact C]].
  assert (F : forall i, In i layout_flags <-> i = 1 \/ i = 2 \/ i = 6 \/ i = 9 \/ i = 12) by (intros i; unfold layout_flags; cbn [In]; intuition congruence).
  split.
  - intros K.
    destruct (config_matches lib caller USER_DEFINED_TYPES); [|discriminate]. destruct (config_matches lib caller THREADSAFE); [|discriminate].
    destruct (config_matches lib caller PROTOCOL_NAMES); [|discriminate]. destruct (config_matches lib caller HAVE_JSON_DOM); [|discriminate].
    destruct (config_matches lib caller SHORT_ENUMS); [|discriminate].
    split; [exact Z|]. split; [exact V|]. split; [apply HB; exact H|]. intros i Hi. apply F in Hi. destruct Hi as [->|[->|[->|[->| ->]]]]; [apply M1|apply M2|apply M6|apply M9|apply M12]; reflexivity.
  - intros (_ & _ & _ & K). rewrite (proj2 M1), (proj2 M2), (proj2 M6), (proj2 M9), (proj2 M12); [reflexivity|apply K; apply F; tauto..].
Qed.

(** the configuration that a consistent one is loaded as *)
Lemma load_ok off c : typed c -> e_size c + e_align c < szmod -> consistent off c -> exists i, load off (Some c) (mkI zero_econf 0) = (OK, i) /\ get_conf i = c /\
  e_size (ic i) < szmod /\ (e_size c <= 65535 -> e_size (ic i) <= 65535) /\ (65535 < e_size c -> e_size (ic i) = e_size c).
Proof.
  intros T W C. assert (K := proj2 (check_consistent off c T W) C). unfold load. rewrite K. destruct T as [T1 T2]. destruct C as (_ & _ & _ & _ & _ & A).
  destruct (N.ltb_spec 0 (e_align c)) as [P|P].
  - destruct A as [A|(A1 & _ & A3)]; [lia|].
    assert (M : off mod e_align c < e_align c) by (apply N.mod_lt; lia).
    destruct (N.ltb_spec 0 (off mod e_align c)) as [Q|Q].
    + assert (B : e_size c + (e_align c - off mod e_align c) <= 65535).
      { apply A3; [lia| |lia]. rewrite (N.div_mod off (e_align c)) at 1 by lia. replace (e_align c * (off / e_align c) + off mod e_align c + (e_align c - off mod e_align c)) with ((off / e_align c + 1) * e_align c) by lia. apply N.mod_mul. lia. }
      eexists. split; [reflexivity|]. unfold get_conf, with_size, sadd, ssub. cbn [ic pad e_size e_align e_max_conns e_threshold e_box e_idle e_flags e_radd e_rclr e_fset e_funset e_badd e_bclr].
      assert (S : (e_size c + (e_align c - off mod e_align c)) mod szmod = e_size c + (e_align c - off mod e_align c)) by (apply N.mod_small; lia). rewrite S.
      split; [|split; [lia|split; intros; lia]].
      replace ((e_size c + (e_align c - off mod e_align c) + szmod - (e_align c - off mod e_align c)) mod szmod) with (e_size c); [destruct c; reflexivity|].
      replace (e_size c + (e_align c - off mod e_align c) + szmod - (e_align c - off mod e_align c)) with (e_size c + 1 * szmod) by lia. rewrite N.mod_add by discriminate. symmetry. apply N.mod_small. lia.
    + eexists. split; [reflexivity|]. cbn [ic pad]. split; [|split; [lia|split; intros; lia]]. unfold get_conf, ssub, with_size. cbn [ic pad]. rewrite N.sub_0_r.
      replace ((e_size c + szmod) mod szmod) with (e_size c); [destruct c; reflexivity|]. replace (e_size c + szmod) with (e_size c + 1 * szmod) by lia. rewrite N.mod_add by discriminate. symmetry; apply N.mod_small; lia.
  - eexists. split; [reflexivity|]. cbn [ic pad]. split; [|split; [lia|split; intros; lia]]. unfold get_conf, ssub, with_size. cbn [ic pad]. rewrite N.sub_0_r.
    replace ((e_size c + szmod) mod szmod) with (e_size c); [destruct c; reflexivity|]. replace (e_size c + szmod) with (e_size c + 1 * szmod) by lia. rewrite N.mod_add by discriminate. symmetry; apply N.mod_small; lia.
Qed.

(** the fallthrough route *)
Lemma fallthrough_cases off grants i w : off <= 65535 -> e_size (ic i) < 2 ^ 32 ->
  fallthrough off grants i w =
  if grants (asked w) then
    if 65535 <? e_size (ic i) then (NUMERIC_ARG_TOO_BIG, free Fallthrough (mkW (Fallthrough :: live w) (S (asked w)) (lk w) (Init.out w)))
    else (OK, mkW (Fallthrough :: live w) (S (asked w)) (lk w) (Init.out w))
  else (SYS_RESOURCE_FAILED, mkW (live w) (S (asked w)) (lk w) (Init.out w)).
Proof.
  intros O S. unfold fallthrough, alloc. destruct (grants (asked w)); [|reflexivity]. cbn [negb].
  assert (U : u32 (e_size (ic i)) = e_size (ic i)) by (apply N.mod_small; exact S). rewrite U. destruct (N.ltb_spec 65535 (e_size (ic i))) as [L|L]; [reflexivity|].
  assert (A : sadd off (e_size (ic i)) = off + e_size (ic i)) by (apply N.mod_small; unfold szmod; lia). rewrite A.
  assert (B : (if N.odd (off + e_size (ic i)) then sadd (off + e_size (ic i)) 1 else off + e_size (ic i)) >= off + e_size (ic i)).
  { destruct (N.odd _); [|lia]. unfold sadd. rewrite N.mod_small by (unfold szmod; lia). lia. }
  destruct (N.ltb_spec (if N.odd (off + e_size (ic i)) then sadd (off + e_size (ic i)) 1 else off + e_size (ic i)) (off + e_size (ic i))); [lia|reflexivity].
Qed.

Definition block_count (lib : settings) : nat := if N.testbit (config lib) 6 then 9%nat else 8%nat.
Lemma count_blocks lib : length (all_blocks lib) = block_count lib.
Proof. unfold all_blocks, block_count. destruct (N.testbit (config lib) 6); reflexivity. Qed.

Lemma alloc_t grants b l n k p : grants n = true -> alloc grants b (mkW l n k p) = (true, mkW (b :: l) (S n) k p).
Proof. intros H. unfold alloc. cbn [asked]. rewrite H. reflexivity. Qed.
Lemma alloc_f grants b l n k p : grants n = false -> alloc grants b (mkW l n k p) = (false, mkW l (S n) k p).
Proof. intros H. unfold alloc. cbn [asked]. rewrite H. reflexivity. Qed.
Lemma point_mk p l n k q : point p (mkW l n k q) = mkW l n k p. Proof. reflexivity. Qed.
Lemma lock_mk k' l n k q : set_lock k' (mkW l n k q) = mkW l n k' q. Proof. reflexivity. Qed.
Ltac short := right; split; [intros (G & _); match goal with H : _ ?n = false |- _ => specialize (G n ltac:(lia)); congruence end|];
       eexists _, _; split; [reflexivity|]; split; [reflexivity|]; split; [intros X; try discriminate X; split; reflexivity|];
       split; [intros X; try discriminate X; split; first [reflexivity | cbn; tauto]|]; intros (G & _); match goal with H : _ ?n = false |- _ => specialize (G n ltac:(lia)); congruence end.
Ltac ask grants := match goal with
  | |- context [alloc grants ?b (mkW ?l ?n ?k ?p)] => let E := fresh "E" in destruct (grants n) eqn:E; [rewrite (alloc_t grants b l n k p E)|rewrite (alloc_f grants b l n k p E)]
  end; cbn [negb is_success]; rewrite ?point_mk; [|short].

Definition failed_cleanly (w : world) : Prop := live w = [] /\ Init.out w = Null.
Definition abandoned (w : world) : Prop := In Context (live w) /\ Init.out w = NewContext.

Lemma build_cases off lib conf grants sems from i : off <= 65535 -> load off conf (mkI zero_econf 0) = (OK, i) -> e_size (ic i) < 2 ^ 32 ->
  (granted lib grants /\ (threadsafe lib = true -> is_success sems = true) /\ e_size (ic i) <= 65535 /\
   exists w, build_context off lib conf grants sems from start = (Code OK, w, Some (with_times from i)) /\ Permutation (live w) (all_blocks lib) /\ Init.out w = NewContext /\
             asked w = block_count lib /\ lk w = (if threadsafe lib then Unlocked else Uninited)) \/
  (~ (granted lib grants /\ (threadsafe lib = true -> is_success sems = true) /\ e_size (ic i) <= 65535) /\
   exists e w, build_context off lib conf grants sems from start = (Code e, w, None) /\ is_success e = false /\
     (threadsafe lib = false -> failed_cleanly w) /\
     (threadsafe lib = true -> if grants 0%nat then abandoned w else failed_cleanly w) /\
     ((granted lib grants /\ (threadsafe lib = true -> is_success sems = true)) -> 65535 < e_size (ic i) /\ e = NUMERIC_ARG_TOO_BIG)).
Proof.
  intros O L S. unfold build_context, context_alloc_1. rewrite L. clear L. cbn [is_success negb].
  assert (SW : e_size (ic (with_times from i)) = e_size (ic i)) by reflexivity.
  unfold granted. rewrite count_blocks. unfold block_count, all_blocks, tables, context_free_1, have_mutex, failed_cleanly, abandoned.
  destruct (threadsafe lib) eqn:TS; destruct (N.testbit (config lib) 6) eqn:PN; cbn [app andb alloc_all].
  all: unfold start; repeat ask grants.
  1,2: destruct (is_success sems) eqn:SE; cbn [is_success negb lk]; rewrite ?SE; cbn [negb];
    [|right; split; [intros (_ & X & _); specialize (X eq_refl); discriminate|]; eexists _, _; split; [reflexivity|]; split; [exact SE|]; split; [intros X; discriminate X|];
      split; [intros _; split; [cbn; tauto|reflexivity]|]; intros (_ & X); specialize (X eq_refl); discriminate].
  all: rewrite ?lock_mk, fallthrough_cases by (assumption || (rewrite SW; exact S)); cbn [asked live lk Init.out]; rewrite SW.
  all: match goal with |- context [if ?grants ?n then if _ then _ else _ else _] => let F := fresh "F" in destruct (grants n) eqn:F end; [|cbn [negb is_success]; short].
  all: destruct (N.ltb_spec 65535 (e_size (ic i))) as [B|B]; cbn [negb is_success].
  all: try (right; split; [intros (_ & _ & X); lia|]; eexists _, _; split; [reflexivity|]; split; [reflexivity|]; split; [intros X; try discriminate X; split; reflexivity|];
       split; [intros X; try discriminate X; split; first [reflexivity | cbn; tauto]|]; intros _; split; [exact B|reflexivity]).
  all: unfold insert_builtins.
  all: ask grants.
  all: left; split; [intros n Hn; do 9 (destruct n as [|n]; [first [assumption|exfalso; lia]|]); lia|]; split; [first [intros _; exact SE|intros _; reflexivity|intros X; discriminate X]|]; split; [lia|];
       eexists; split; [reflexivity|]; cbn [live Init.out asked lk]; split; [|repeat split].
  all: apply NoDup_Permutation; [repeat constructor; cbn; intuition discriminate|repeat constructor; cbn; intuition discriminate|intros x; cbn; tauto].
Qed.
