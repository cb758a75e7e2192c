From Verif Require Import Base RwLock RwLockSpec RwLockProofs RwLockInv.
Open Scope Z_scope.

Ltac crush1 := match goal with
  | H : _ /\ _ |- _ => destruct H
  | H : exists _, _ |- _ => destruct H
  | H : false = true |- _ => discriminate H
  | H : true = false |- _ => discriminate H
  | H : False |- _ => destruct H
  | H : Some _ = Some _ |- _ => injection H as H
  end.

(** Steps that leave the lock alone. *)
Lemma still L l i x y : known L l i x -> frec y = frec x -> fR y = fR x -> fW y = fW x -> fGW y = fGW x -> fP y = fP x -> fGP y = fGP x -> linv L i y -> inv (L, upd l i y).
Proof.
  intros K E1 E2 E3 E4 E5 E6 Ly. apply (move L l i x); [apply K|apply K| |auto|exact Ly]. rewrite E1, E2, E3, E4, E5, E6, !Z.sub_add. apply K.
Qed.
(** An answer that changes nothing for the client. *)
Definition refused (t : thr) (cl : client) (e : err) : thr * client := (back t e, mkC (holds cl) (resv cl) None).
Lemma refused_linv L i t cl e : linv L i (t, cl) -> base (is (wh L) i) (is (rh L) i) t cl -> linv L i (refused t cl e).
Proof. unfold linv. cbn. intros (A & B & C & D & E & F & G) H. repeat (split; [assumption|]). split; [|auto]. unfold place. cbn. split; [exact H|reflexivity]. Qed.

Ltac flds := cbn [fst snd at_ rec trk sc mrc ro ret holds resv calling ls hc rwc wwc r2wc wh rh pac sr sw sp
                  back at_set mrc_add shared_up promote_thr after_step RwLockSpec.returned is_success negb more more_mutex promoted demoted less andb orb is_try b2z] in *.
Ltac split_all := repeat match goal with |- _ /\ _ => split end.
Ltac hyps := repeat match goal with
  | H : _ /\ _ |- _ => destruct H
  | H : exists _, _ |- _ => destruct H
  | H : False |- _ => destruct H
  | H : ?a = ?a |- _ => clear H
  | H : Some _ = Some _ |- _ => injection H as H; try subst
  | H : (?a && ?b)%bool = true |- _ => apply andb_prop in H
  | H : is ?o ?i = true |- _ => apply is_true in H; try subst o
  | H : holds _ = _ |- _ => progress cbn in H
  | H : HNone = HNone |- _ => clear H
  | H : HShared _ = HShared _ |- _ => injection H as H; try subst
  | H : HMutex _ = HMutex _ |- _ => injection H as H; try subst
  end.
Ltac bad := try (exfalso; first [discriminate | congruence | lia]).
Ltac easy1 := first [ discriminate | reflexivity | assumption | lia | congruence
   | solve [intros; first [discriminate | congruence | lia | reflexivity | auto]]
   | solve [eauto] ].
Arguments frec x /. Arguments fR x /. Arguments fW x /. Arguments fGW x /. Arguments fP x /. Arguments fGP x /.
Ltac norm := repeat match goal with
  | H : context [is (Some ?i) ?i] |- _ => rewrite is_refl in H
  | H : context [is None ?i] |- _ => rewrite is_none in H
  | |- context [is (Some ?i) ?i] => rewrite is_refl
  | |- context [is None ?i] => rewrite is_none
  | N : ?a <> ?b, H : context [is (Some ?a) ?b] |- _ => rewrite (is_ne a b N) in H
  | N : ?a <> ?b |- context [is (Some ?a) ?b] => rewrite (is_ne a b N)
  | H : is ?o ?i = ?b, H2 : context [is ?o ?i] |- _ => rewrite H in H2
  | H : is ?o ?i = ?b |- context [is ?o ?i] => rewrite H
  | H : true = ?x |- _ => is_var x; subst x
  | H : false = ?x |- _ => is_var x; subst x
  | H : ?x = true |- _ => is_var x; subst x
  | H : ?x = false |- _ => is_var x; subst x
  end.
Ltac feats := cbn [frec fR fW fGW fP fGP fst snd at_ rec trk sc mrc ro ret holds resv calling ls hc rwc wwc r2wc wh rh pac sr sw sp
                  back at_set mrc_add shared_up promote_thr after_step RwLockSpec.returned is_success negb more more_mutex promoted demoted less andb orb is_try b2z] in *.
Ltac dvars := repeat (hyps; match goal with
  | H : context [match ?v with _ => _ end] |- _ => is_var v; destruct v; try discriminate
  end); hyps.
Ltac gsolve G := unfold Gs in G |- *; feats; dvars; subst; norm; try discriminate; split_all; try easy1.
Lemma wh_excl L E a b c d e f : Gs L E a b c d e f -> ls L <> EXCLUSIVE -> wh L = None.
Proof. unfold Gs. intros H. hyps. destruct (ls L); [tauto|tauto|congruence]. Qed.
Definition query (c : call) : bool := match c with HaveShared | HaveMutex | HaveEither | HaveResv | DestroyThread => true | _ => false end.
Lemma query_returned c e h r : query c = true -> returned c e h r = (h, r).
Proof. unfold returned. destruct (negb (is_success e)); [reflexivity|]. destruct c; try discriminate; reflexivity. Qed.
Lemma query_pre L t i c : query c = true -> exists e, pre L t i c = (L, back t e).
Proof. destruct c; try discriminate; intros _; eexists; reflexivity. Qed.
Ltac break ST := repeat match type of ST with
  | context [match ?x with _ => _ end] => destruct x eqn:?
  end.

Lemma rec_shared L l i x : known L l i x -> 1 <= frec x -> ls L = SHARED \/ (ls L = EXCLUSIVE /\ wh L = Some i /\ rh L = Some i).
Proof.
  intros K P. pose proof (k_g _ _ _ _ K) as G. pose proof (k_F _ _ _ _ K) as F. pose proof (k_R _ _ _ _ K) as R. unfold Gs in G. hyps. destruct (ls L) eqn:E; [hyps; lia|left; reflexivity|right].
  destruct (wh L) as [a|] eqn:W, (rh L) as [b|] eqn:RH; hyps; try lia; try contradiction. subst b. split; [reflexivity|]. destruct (Nat.eq_dec a i) as [->|N]; [auto|exfalso].
  destruct (R a eq_refl N) as (y & HY & (_ & _ & _ & _ & _ & _ & LY) & _ & _ & FY & _). rewrite W, RH, is_refl in LY. specialize (LY eq_refl eq_refl). unfold frec in FY at 2. lia.
Qed.
Ltac others := let j := fresh "j" in let z := fresh "z" in intros j z ? ? ?; eapply linv_same; [..|eassumption]; flds;
   rewrite ?is_none, ?(is_ne _ j) by congruence; try easy1.
Ltac mv K G := apply (move _ _ _ _ _ _ (k_inv _ _ _ _ K) (k_at _ _ _ _ K)); [gsolve G|others|unfold linv; flds; split_all; try easy1; unfold place, base; flds; norm; split_all; try easy1].

Ltac prelude K A :=
  match type of K with known ?L ?l ?i (?t, ?cl) =>
  pose proof (k_l _ _ _ _ K) as (LA & LB & LC & LD & LE & LF & LG); cbn [fst snd] in *; pose proof (k_g _ _ _ _ K) as G;
  pose proof (k_P _ _ _ _ K) as (P0 & PI & PN); pose proof (k_F _ _ _ _ K) as FF; pose proof (k_B _ _ _ _ K) as BB;
  assert (HI : has l i) by (eexists; apply (k_at _ _ _ _ K));
  pose proof (fun e => refused_linv L i t cl e (k_l _ _ _ _ K)) as RF;
  destruct L as [ls0 hc0 rwc0 wwc0 r2wc0 wh0 rh0 pac0 sr0 sw0 sp0]; destruct t as [pc0 rec0 trk0 sc0 mrc0 ro0 ret0]; destruct cl as [h0 r0 c0];
  flds; subst pc0 trk0 sc0; unfold place in LD; cbn [at_] in LD; feats
  end.
Ltac zb := repeat match goal with
  | H : (_ <? _) = true |- _ => apply Z.ltb_lt in H | H : (_ <? _) = false |- _ => apply Z.ltb_ge in H
  | H : (_ =? _) = true |- _ => apply Z.eqb_eq in H | H : (_ =? _) = false |- _ => apply Z.eqb_neq in H
  | H : (_ || _)%bool = false |- _ => apply orb_false_elim in H; destruct H
  | H : (_ && _)%bool = true |- _ => apply andb_prop in H; destruct H
  | H : negb ?b = true |- _ => apply negb_true_iff in H
  | H : negb ?b = false |- _ => apply negb_false_iff in H
  end.
(** G for a known state of the lock. *)
Ltac gdes G := unfold Gs in G; cbn [ls hc rwc wwc r2wc wh rh pac sr sw sp] in G; hyps.

Ltac mv2 K := apply (move _ _ _ _ _ _ (k_inv _ _ _ _ K) (k_at _ _ _ _ K));
  [unfold Gs; feats; norm; split_all; try easy1|others|unfold linv; flds; norm; split_all; try easy1; unfold place, base, fresh, promoting; flds; norm; split_all; try easy1].
Lemma up_rec z : 0 <= z -> (if 0 <? z then z + 1 else 1) = z + 1.
Proof. destruct (0 <? z) eqn:E; zb; lia. Qed.
Ltac bs ST := repeat (progress (rewrite ?andb_true_r, ?andb_false_r in ST; cbn [none negb andb orb] in ST)).
Ltac stay K := apply (still _ _ _ _ _ K); [reflexivity..|].
