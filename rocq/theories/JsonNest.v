(** * The nesting stack and the state of the main automaton *)
Require Import ZArith List Bool Lia.
From Verif Require Import Json JsonProofs.
Import ListNotations.
Open Scope Z_scope.

Section P.
Context {U : Type}.
Variable cfg : jconfig.
Variable cb : jtype -> list Z -> U -> Z * U.
Implicit Types p q : parser U.

(** Not uninitialised, and the stack is not empty where its top may be looked at. *)
Definition NInv p : Prop :=
  p_st p <> ST_UNINITED /\ (has (p_st p) CAN_SEE_CLOSER = true \/ has (p_st p) CAN_SEE_COMMA = true -> p_nest p <> []).
Definition nkeep p q : Prop := p_st q = p_st p /\ p_nest q = p_nest p.
Lemma nkeep_inv : forall p q, nkeep p q -> NInv p -> NInv q.
Proof. unfold NInv. intros p q [A B]. rewrite A, B. tauto. Qed.
Lemma nkeep_trans : forall p q r, nkeep p q -> nkeep q r -> nkeep p r.
Proof. unfold nkeep. intuition congruence. Qed.
Lemma nkeep_raise : forall p e x, nkeep p (raise_at p e x).
Proof. intros. unfold raise_at. destruct (0 <=? p_err p); split; reflexivity. Qed.
Lemma nkeep_chk : forall m e p, nkeep p (chk m e p).
Proof. intros. unfold chk. destruct (over_long m p); [apply nkeep_raise|split; reflexivity]. Qed.

Lemma state_after_inv : forall t nest, (t = JSON_ARRAY_BEG \/ t = JSON_OBJECT_BEG -> nest <> []) ->
  state_after t nest <> ST_UNINITED /\
  (has (state_after t nest) CAN_SEE_CLOSER = true \/ has (state_after t nest) CAN_SEE_COMMA = true -> nest <> []).
Proof.
  intros t nest H. destruct t; cbn [state_after];
    try (split; [discriminate|intros _; apply H; tauto]); try (split; [discriminate|intros [K|K]; discriminate K]);
    destruct nest; (split; [discriminate|]); try (intros [K|K]; discriminate K); discriminate.
Qed.

(** A callback: the state is computed anew, or kept when the parser refuses the value. *)
Lemma process_ninv : forall p t x, NInv p \/ is_closer_type t = true /\ 0 <= p_err p ->
  (t = JSON_ARRAY_BEG \/ t = JSON_OBJECT_BEG -> p_nest p <> []) -> NInv (process cfg cb p t x).
Proof.
  intros p t x HI HN.
  assert (CALL : forall q, p_nest q = p_nest p -> NInv (process_call cb q t x)).
  { intros q E. unfold process_call. destruct (cb t x (p_user q)) as [e w]. unfold NInv. cbn. rewrite E. apply state_after_inv. exact HN. }
  unfold process. destruct (p_err p <? 0) eqn:E.
  { apply Z.ltb_lt in E. destruct HI as [HI|[_ HI]]; [exact HI|lia]. }
  destruct (is_closer_type t) eqn:EC; [apply CALL; reflexivity|].
  assert (HI' : NInv p) by (destruct HI as [HI|[HI _]]; [exact HI|congruence]).
  destruct (_ && _); [eapply nkeep_inv; [apply nkeep_raise|exact HI']|].
  destruct (_ && _); [eapply nkeep_inv; [apply nkeep_raise|exact HI']|].
  apply CALL. reflexivity.
Qed.

Lemma ill_nkeep : forall ign fx p c p1 ok, ill_surrogate ign fx p c = (p1, ok) -> nkeep p p1.
Proof.
  intros ign fx p c p1 ok H. unfold ill_surrogate in H.
  destruct ign; [|destruct fx]; inversion H; subst; [split; reflexivity|split; reflexivity|apply nkeep_raise].
Qed.
Definition iter_parser (r : iter) : parser U := match r with IStop p => p | IReplay p => p | INext p => p end.
Ltac nk := split; reflexivity.
Lemma escape_nkeep : forall ign fx p, nkeep p (iter_parser (escape_done ign fx p)).
Proof.
  intros ign fx p. unfold escape_done. set (c1 := p_cp1 p).
  assert (REST : forall q, nkeep p q -> nkeep p (iter_parser
          (if (p_cp0 q =? 0) && is_lo c1 then
             let '(p1, ok) := ill_surrogate ign fx q c1 in
             if ok then INext (with_cp (with_sub p1 0) (p_cp0 p1) 0) else IStop p1
           else if negb (p_cp0 q =? 0) && is_lo c1 then
             let c := 65536 + (p_cp0 q - 55296) * 1024 + (c1 - 56320) in
             INext (with_cp (with_sub (buf_append q (utf8_of c)) 0) 0 0)
           else if is_hi c1 then INext (with_cp (with_sub q (ABCD - 2)) c1 0)
           else INext (with_cp (with_sub (buf_append q (utf8_of c1)) 0) (p_cp0 q) 0)))).
  { intros q K. destruct (_ && _).
    - destruct (ill_surrogate ign fx q c1) as [p1 ok] eqn:EI. apply ill_nkeep in EI.
      destruct ok; (eapply nkeep_trans; [exact K|]); (eapply nkeep_trans; [exact EI|nk]).
    - destruct (_ && _); [eapply nkeep_trans; [exact K|nk]|]. destruct (is_hi c1); (eapply nkeep_trans; [exact K|nk]). }
  destruct (negb (p_cp0 p =? 0) && negb (is_lo c1)).
  - destruct (ill_surrogate ign fx p (p_cp0 p)) as [p1 ok] eqn:EI. apply ill_nkeep in EI. destruct ok; cbn [negb].
    + apply REST. eapply nkeep_trans; [exact EI|nk].
    + exact EI.
  - cbn [negb]. apply REST. nk.
Qed.
Lemma string_iter_nkeep : forall ign fx p c, nkeep p (iter_parser (string_iter ign fx p c)).
Proof.
  intros ign fx p c. unfold string_iter.
  destruct (p_sub p =? 0).
  { destruct (is_control c).
    - destruct (_ || _); apply nkeep_raise.
    - destruct (c =? ch_bslash); [nk|]. destruct (utf8_lead c); [nk|]. destruct fx; [nk|apply nkeep_raise]. }
  destruct (p_sub p <=? 7).
  { destruct (utf8_trail (p_sub p) c); [nk|]. destruct fx; [nk|apply nkeep_raise]. }
  destruct (p_sub p =? ch_bslash).
  { destruct (c =? 117); [nk|]. destruct (simple_escape c); [nk|apply nkeep_raise]. }
  destruct (ABCD <? p_sub p).
  { destruct (negb (is_xdigit c)); [apply nkeep_raise|].
    match goal with |- context [escape_done ign fx ?q] => pose proof (escape_nkeep ign fx q) as Hd; assert (K : nkeep p q) by nk end.
    cbv zeta. destruct (p_sub _ =? ABCD); [eapply nkeep_trans; eassumption|exact K]. }
  destruct (ABCD - 2 <=? p_sub p); [|apply nkeep_raise].
  destruct (_ && _); [nk|]. destruct (_ && _); [nk|].
  destruct (ill_surrogate ign fx p (p_cp0 p)) as [p1 ok] eqn:EI. apply ill_nkeep in EI.
  destruct ok; [eapply nkeep_trans; [exact EI|nk]|exact EI].
Qed.

Definition scalar (t : jtype) : Prop := t <> JSON_ARRAY_BEG /\ t <> JSON_OBJECT_BEG.
Lemma process_scalar : forall p t x, scalar t -> NInv p -> NInv (process cfg cb p t x).
Proof. intros p t x [A B] HI. apply process_ninv; [left; exact HI|tauto]. Qed.

Lemma s0_ninv : forall t p c, scalar t -> NInv p ->
  NInv (fst (s0 cfg cb t p c)) /\ match snd (s0 cfg cb t p c) with Some q => NInv q | None => True end.
Proof.
  intros t p c HT HI. unfold s0. destruct (_ && _); [split; [|exact Logic.I]; apply process_scalar; [exact HT|]; eapply nkeep_inv; [|exact HI]; nk|].
  destruct (_ && _); [split; [|exact Logic.I]; eapply nkeep_inv; [|exact HI]; nk|].
  pose proof (string_iter_nkeep (ign_of cfg t) (fix_of cfg t) p c) as K.
  destruct (string_iter (ign_of cfg t) (fix_of cfg t) p c) as [q|q|q]; cbn [iter_parser] in K; cbn [fst snd].
  - split; [|exact Logic.I]. eapply nkeep_inv; eassumption.
  - split; eapply nkeep_inv; eassumption.
  - split; [|exact Logic.I]. eapply nkeep_inv; [|exact HI]. eapply nkeep_trans; [exact K|nk].
Qed.
Lemma string_ninv : forall t p c, scalar t -> NInv p -> NInv (string_byte cfg cb t p c).
Proof.
  intros t p c HT HI. unfold string_byte. eapply nkeep_inv; [apply nkeep_chk|]. unfold s1.
  destruct (s0_ninv t p c HT HI) as [A B]. destruct (s0 cfg cb t p c) as [q [r|]]; cbn [fst snd] in *; [|exact A].
  apply s0_ninv; assumption.
Qed.
Lemma literal_ninv : forall t lit p c, scalar t -> NInv p -> NInv (fst (literal_byte cfg cb t lit p c)).
Proof.
  intros t lit p c HT HI. unfold literal_byte. destruct (_ <=? _).
  - destruct (is_boundary c); cbn [fst]; [apply process_scalar; assumption|]. eapply nkeep_inv; [apply nkeep_raise|]. exact HI.
  - destruct (negb _); cbn [fst]; [eapply nkeep_inv; [apply nkeep_raise|]; exact HI|]. eapply nkeep_inv; [|exact HI]. nk.
Qed.
Lemma number_ninv : forall p c, NInv p -> NInv (fst (number_byte cfg cb p c)).
Proof.
  intros p c HI. unfold number_byte. assert (K : NInv (number_sub p)) by (unfold number_sub; destruct (p_sub p =? 0); exact HI).
  cbv zeta. destruct (number_next (p_sub (number_sub p)) c) as [s|]; cbn [fst].
  - assert (K2 : NInv (chk (max_number_len cfg) ERR_MAXNUMBERLEN (advance (with_sub (number_sub p) s) 1))).
    { eapply nkeep_inv; [apply nkeep_chk|]. exact K. }
    destruct (0 <=? p_err _); exact K2.
  - destruct (_ && _); cbn [fst]; [apply process_scalar; [split; discriminate|exact K]|]. eapply nkeep_inv; [apply nkeep_raise|]. exact K.
Qed.
Lemma sub_ninv : forall p c, NInv p -> NInv (fst (sub_byte cfg cb p c)).
Proof.
  intros p c HI. unfold sub_byte. destruct (p_auto p); try (apply literal_ninv; [split; discriminate|exact HI]).
  - exact HI.
  - apply number_ninv. exact HI.
  - apply string_ninv; [split; discriminate|exact HI].
  - apply string_ninv; [split; discriminate|exact HI].
Qed.

Lemma advance_ninv : forall q c, NInv q -> NInv (new_line (advance q 1) c).
Proof. intros q c H. unfold new_line. destruct (c =? 13); [exact H|]. destruct (c =? 10); exact H. Qed.
Lemma main_ninv : forall p c, 0 <= p_err p -> NInv p -> NInv (main_byte cfg cb p c).
Proof.
  intros p c HE HI. unfold main_byte.
  assert (Hr : forall e, NInv (raise p e)) by (intros e; eapply nkeep_inv; [apply nkeep_raise|exact HI]).
  assert (Hs : forall q, NInv q -> NInv (if p_err q <? 0 then q else fst (sub_byte cfg cb q c))).
  { intros q Hq. destruct (p_err q <? 0); [exact Hq|]. apply sub_ninv. exact Hq. }
  unfold main_iter.
  destruct (has (p_st p) CAN_SEE_VALUE && ((c =? 91) || (c =? 123))).
  { destruct (_ && _); [apply Hr|]. apply advance_ninv. apply process_ninv; [|discriminate].
    left. destruct HI as [A B]. split; [exact A|]. discriminate. }
  destruct (has (p_st p) CAN_SEE_CLOSER && ((c =? 93) || (c =? 125))).
  { destruct (negb _); [apply Hr|]. apply advance_ninv. apply process_ninv.
    - right. split; [destruct (c =? 93); reflexivity|exact HE].
    - destruct (c =? 93); intros [K|K]; discriminate K. }
  destruct (_ && _).
  { apply advance_ninv. destruct (hd 0 (p_nest p) =? 93); (split; [discriminate|intros [K|K]; discriminate K]). }
  destruct (_ && _); [apply advance_ninv; (split; [discriminate|intros [K|K]; discriminate K])|].
  destruct (_ && _); [apply advance_ninv; exact HI|].
  destruct (_ && _); [apply advance_ninv; exact HI|].
  destruct (has (p_st p) CAN_SEE_VALUE && (is_in c 97 122 || is_in c 65 90)).
  { destruct (c =? 110); [apply Hs; exact HI|]. destruct (c =? 102); [apply Hs; exact HI|].
    destruct (c =? 116); [apply Hs; exact HI|]. apply Hs. apply Hr. }
  destruct (_ && _); [apply Hs; exact HI|].
  destruct (negb _); [apply Hr|apply advance_ninv; exact HI].
Qed.
Lemma bstep_ninv : forall p c, NInv p -> NInv (bstep cfg cb p c).
Proof.
  intros p c HI. unfold bstep. destruct (p_err p <? 0) eqn:E; [exact HI|]. apply Z.ltb_ge in E.
  assert (SUB : NInv (let '(p1, done) := sub_byte cfg cb p c in if done || (p_err p1 <? 0) then p1 else main_byte cfg cb p1 c)).
  { pose proof (sub_ninv p c HI) as H. destruct (sub_byte cfg cb p c) as [p1 dn]. cbn [fst] in H.
    destruct dn; cbn [orb]; [exact H|]. destruct (p_err p1 <? 0) eqn:E1; [exact H|]. apply Z.ltb_ge in E1. apply main_ninv; assumption. }
  destruct (p_auto p); try exact SUB. apply main_ninv; assumption.
Qed.
Lemma bsteps_ninv : forall d u, NInv (bsteps cfg cb (json_init u) d).
Proof.
  intros d u. assert (H : NInv (json_init u)) by (split; [discriminate|intros [K|K]; discriminate K]).
  unfold bsteps. revert H. generalize (json_init u). induction d as [|c d IH]; intros p H; [exact H|].
  cbn [fold_left]. apply IH. apply bstep_ninv. exact H.
Qed.
End P.
