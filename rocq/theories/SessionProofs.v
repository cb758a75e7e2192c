(** Lemmas about loading sessions. *)
Require Import ZArith List Bool Lia.
From Verif Require Import Json JsonProps Session.
Import ListNotations.
Open Scope Z_scope.

Lemma fini_of_failed : forall (U : Type) cfg (cb : jtype -> list Z -> U -> Z * U) p r pos u,
  json_fini cfg cb p = Some (r, pos, u) -> (p_err p <? 0) = true -> r < 0.
Proof.
  intros U cfg cb p r pos u E H. unfold json_fini in E. destruct (p_st p =? ST_UNINITED).
  - injection E as <- _ _. vm_compute. reflexivity.
  - rewrite H in E. injection E as <- _ _. apply Z.ltb_lt. exact H.
Qed.

Section P.
  Context {C J : Type} (k : calls C J) (cfg : jconfig) (ia nm : Z).
  (** The code the parser ended with and what was loaded. *)
  Definition ended (s : session C J) : option (Z * (J * C)) :=
    match s_parser s with
    | inr (r, u) => Some (r, u)
    | inl p => match json_fini cfg (cb k (s_flags s)) p with None => None | Some (r, _, u) => Some (r, u) end
    end.
  Lemma feeds_finished : forall chunks s r u, s_parser s = inr (r, u) -> feeds k cfg ia s chunks = Some s.
  Proof.
    induction chunks as [|c cs IH]; intros s r u E; cbn [feeds]; [reflexivity|].
    unfold feed. rewrite E. eapply IH. exact E.
  Qed.
  Lemma feeds_load : forall chunks fl p a code pos u,
    load_from cfg (cb k fl) p chunks = Some (code, pos, u) ->
    exists s, feeds k cfg ia (Session fl (inl p) a) chunks = Some s /\ s_flags s = fl /\ s_actual s = a /\ ended s = Some (code, u).
  Proof.
    induction chunks as [|c cs IH]; intros fl p a code pos u E; cbn [feeds load_from] in *.
    - eexists. split; [reflexivity|]. cbn [s_flags s_actual]. repeat split. unfold ended. cbn [s_parser s_flags]. rewrite E. reflexivity.
    - unfold feed. cbn [s_parser s_flags s_actual]. destruct (json_feed cfg (cb k fl) p c) as [p1|]; [|discriminate E].
      destruct (p_err p1 <? 0).
      + rewrite E. eexists. split; [eapply feeds_finished; reflexivity|]. repeat split.
      + exact (IH fl p1 a code pos u E).
  Qed.
  Lemma load_ends : forall (U : Type) (f : jtype -> list Z -> U -> Z * U) (u : U) chunks, config_ok cfg ->
    exists code pos u', load_chunks cfg f u chunks = Some (code, pos, u') /\ (~ not_too_long cfg (List.concat chunks) -> code < 0).
  Proof.
    intros U f u chunks Hc. assert (D : not_too_long cfg (List.concat chunks) \/ ~ not_too_long cfg (List.concat chunks)).
    { unfold not_too_long. lia. }
    destruct D as [D|D].
    - destruct (C52_chunking_irrelevant U cfg f u chunks Hc D) as (((code & pos) & u') & _ & _ & E). exists code, pos, u'. split; [exact E|]. intros X. contradiction.
    - destruct (C52_too_long_refused U cfg f u chunks Hc D) as (_ & code & pos & u' & E & L). exists code, pos, u'. split; [exact E|]. intros _. exact L.
  Qed.
  (** A session that started ends by what the parser answered. *)
  Lemma session_ends : forall chunks fl j c a code pos u,
    load_chunks cfg (cb k fl) (j, c) chunks = Some (code, pos, u) ->
    exists s, feeds k cfg ia (Session fl (inl (json_init (j, c))) a) chunks = Some s /\ s_flags s = fl /\ s_actual s = a /\ ended s = Some (code, u).
  Proof. intros chunks fl j c a code pos u E. exact (feeds_load chunks fl _ a code pos u E). Qed.
  Lemma fini_ended : forall s code j c, ended s = Some (code, (j, c)) ->
    fini k cfg s = Some (
      let res := if code <? 0 then match s_actual s with None => fini_out k (k_translate k code) c None | Some a => fini_out k (k_translate k code) a (Some c) end
        else match s_actual s with
             | None => fini_out k 0 c None
             | Some a => if Z.testbit (s_flags s) LF_DRY_RUN then fini_out k 0 a (Some c)
                         else if Z.testbit (s_flags s) LF_LOAD_THEN_COMMIT then commit k (s_flags s) a c else fini_out k 0 a (Some c)
             end in
      if fst res <? 0 then res else (0, snd res)).
  Proof. intros s code j c E. unfold ended in E. unfold fini. destruct (s_parser s) as [p|[r u]]; [rewrite E; reflexivity|]. injection E as -> ->. reflexivity. Qed.
  Lemma out_actual : forall r a cl, w_actual (snd (fini_out k r a cl)) = a.
  Proof. intros r a [c|]; unfold fini_out; [destruct (k_free k c)|]; reflexivity. Qed.
  Lemma out_code : forall r a cl, fst (fini_out k r a cl) = r.
  Proof. intros r a [c|]; unfold fini_out; [destruct (k_free k c)|]; reflexivity. Qed.
  Lemma out_released : forall r a cl, w_state (snd (fini_out k r a cl)) = false /\ w_locked (snd (fini_out k r a cl)) = false.
  Proof. intros r a [c|]; unfold fini_out; [destruct (k_free k c)|]; split; reflexivity. Qed.
  Lemma out_clone : forall r a cl, (forall c, 0 <= fst (k_free k c)) -> w_clone (snd (fini_out k r a cl)) = None.
  Proof.
    intros r a [c|] F; unfold fini_out; [|reflexivity]. specialize (F c). destruct (k_free k c) as [r2 c2]. cbn [fst] in F.
    destruct (r2 <? 0) eqn:E; [lia|reflexivity].
  Qed.
  Lemma commit_released : forall fl a c, w_state (snd (commit k fl a c)) = false /\ w_locked (snd (commit k fl a c)) = false.
  Proof.
    intros fl a c. unfold commit. destruct (k_exchange k a c) as [[r a1] c1]. destruct (r <? 0); [apply out_released|].
    destruct (if negb (Z.testbit fl LF_NO_FLUSH) then k_bulk_clear k a1 else (0, a1)) as [r1 a2]. destruct (r1 <? 0); [apply out_released|].
    destruct (if negb (Z.testbit fl LF_NO_FLUSH) then k_flush k c1 else (0, c1)) as [r2 c2]. destruct (r2 <? 0); [apply out_released|].
    destruct (k_bulk_insert k (k_enable k a2)) as [r3 a3]. destruct (r3 <? 0); [apply out_released|].
    destruct (k_free k c2) as [r4 c4]. apply out_released.
  Qed.
  Lemma commit_clone : forall fl a c, (forall c, 0 <= fst (k_free k c)) -> w_clone (snd (commit k fl a c)) = None.
  Proof.
    intros fl a c F. unfold commit. destruct (k_exchange k a c) as [[r a1] c1]. destruct (r <? 0); [apply out_clone; exact F|].
    destruct (if negb (Z.testbit fl LF_NO_FLUSH) then k_bulk_clear k a1 else (0, a1)) as [r1 a2]. destruct (r1 <? 0); [apply out_clone; exact F|].
    destruct (if negb (Z.testbit fl LF_NO_FLUSH) then k_flush k c1 else (0, c1)) as [r2 c2]. destruct (r2 <? 0); [apply out_clone; exact F|].
    destruct (k_bulk_insert k (k_enable k a2)) as [r3 a3]. destruct (r3 <? 0); [apply out_clone; exact F|].
    destruct (k_free k c2) as [r4 c4]. apply out_clone. exact F.
  Qed.
  Lemma fst_norm : forall (x : Z * world C), w_actual (snd (if fst x <? 0 then x else (0, snd x))) = w_actual (snd x) /\
    w_clone (snd (if fst x <? 0 then x else (0, snd x))) = w_clone (snd x) /\
    w_state (snd (if fst x <? 0 then x else (0, snd x))) = w_state (snd x) /\
    w_locked (snd (if fst x <? 0 then x else (0, snd x))) = w_locked (snd x) /\
    fst (if fst x <? 0 then x else (0, snd x)) = Z.min 0 (fst x).
  Proof. intros [r w]. cbn [fst snd]. destruct (r <? 0) eqn:E; cbn [fst snd]; repeat split; lia. Qed.
End P.
