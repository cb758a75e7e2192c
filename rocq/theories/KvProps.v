(** C33, C34. *)
From Coq Require Import String.
From Verif Require Import Base Table Names Kv KvSpec KvProofs.
Open Scope string_scope.
Open Scope Z_scope.

(** Every history of user-value calls (with arguments a C caller can pass) behaves as the typed map of KvSpec.v: same results, no
    undefined behaviour.  Missing: calls of the JSON getter (C34), overwriting stores during which the ID callback fails (the old
    value is lost, C33_overwrite_failure_refuted), and the storing of -0.0 (C33_negative_zero_refuted). *)
Theorem C33_typed_map_partial : forall h, Forall (fun ec => proper (snd ec)) h -> Forall fine h ->
  exists rs t s, run empty h = Ret (rs, t) /\ history nothing h rs s.
Proof. intros h P F. destruct (run_spec h empty empty_wf P F) as (rs & t & R & _ & H). exists rs, t, (abs t). split; [exact R|exact H]. Qed.
Print Assumptions C33_typed_map_partial.

(** the getter that belongs to a value, and its answer *)
Definition getter (w : value) (key : list N) (n : Z) : call :=
  match w with VNull => GetType key n | VBool _ => GetBool key n | VUint _ => GetUint key n | VSint _ => GetSint key n | VFloat _ => GetFloat key n
             | VString _ => GetString key n | VBytes _ => GetBytes key n | VJson _ => GetType key n end.
Definition answer_of (w : value) : answer :=
  match w with VNull => AType KV_NULL | VBool b => ABool (if b then KV_TRUE else KV_FALSE) | VUint u => AUint u | VSint z => ASint z | VFloat b => AFloat b
             | VString s => AString s | VBytes s => ABytes s | VJson _ => AType KV_JSON end.

Lemma get_after E t key n k w ro : wf t -> readable key n -> n <> 0 -> means key n k -> Z.of_nat (List.length k) <= 32 -> mem_ok E = true ->
  smap (abs t) k = Some (w, ro) -> step E t (getter w key n) = Ret (OK, answer_of w, t).
Proof.
  intros W R NZ M L ME S0.
  assert (P : proper (getter w key n)) by (destruct w; exact R). assert (F : fine (E, getter w key n)) by (destruct w; exact I).
  destruct (step_spec E t _ W P F) as (r & t' & ST & W' & A). 
  assert (TT : t' = t) by (destruct w; cbn [getter step] in ST; unfold ret_get in ST; match type of ST with (let* _ := ?m in _) = _ => destruct m as [[]| |]; cbn [bind] in ST; congruence end). subst t'.
  assert (NB : ~ bad_key E key n (fst r)).
  { intros [(Z0 & _)|[(k' & M' & L' & _)|(ME' & _)]]; [congruence| |congruence]. rewrite (means_fun _ _ _ _ M' M) in L'. lia. }
  rewrite ST. f_equal. f_equal.
  destruct w as [|b|u|z|b|s|s|j]; cbn [getter allowed] in A; destruct A as [_ [[B _]|(k' & _ & M' & A)]]; try tauto; rewrite (means_fun _ _ _ _ M' M), S0 in A; exact A.
Qed.
(** After any such history: what a successful store stored is what the getter of its type returns, until the next change of that key;
    the getters of other keys answer as before. *)
Theorem C33_store_then_get_partial : forall h rs t E key n v ow r t' w,
  Forall (fun ec => proper (snd ec)) (h ++ [(E, Store key n v ow)])%list -> Forall fine (h ++ [(E, Store key n v ow)])%list ->
  run empty h = Ret (rs, t) -> step E t (Store key n v ow) = Ret (OK, r, t') -> carries v w ->
  (forall E', mem_ok E' = true -> step E' t' (getter w key n) = Ret (OK, answer_of w, t'))
  /\ (forall E' key2 n2 k k2 w2 ro, means key n k -> means key2 n2 k2 -> k2 <> k -> n2 <> 0 -> Z.of_nat (List.length k2) <= 32 -> mem_ok E' = true ->
        smap (abs t) k2 = Some (w2, ro) -> step E' t' (getter w2 key2 n2) = Ret (OK, answer_of w2, t')).
Proof.
  intros h rs t E key n v ow r t' w P F R ST C. apply Forall_app in P, F. destruct P as [P Ps], F as [F Fs]. inversion Ps as [|? ? P1 _]; inversion Fs as [|? ? F1 _]; subst.
  destruct (run_spec h empty empty_wf P F) as (rs' & t0 & R' & W & _). rewrite R in R'. injection R' as <- <-.
  destruct (step_spec E t (Store key n _ ow) W P1 F1) as (r' & t1 & ST' & W1 & A). rewrite ST in ST'. injection ST' as <- <-. cbn [allowed fst snd] in A. destruct A as [_ A].
  destruct A as [(k & w' & NZ & M & L & C' & _ & _ & _ & [PA1 PA2] & _)|(X & _)]; [|discriminate].
  assert (w' = w).
  { destruct C; inversion C'; subst; try reflexivity.
    - f_equal. eapply means_fun; eassumption.
    - f_equal. eapply means_fun; eassumption.
    - match goal with A : means ?m ?l ?a, B : means ?m ?l ?b |- _ => pose proof (means_fun _ _ _ _ A B); subst end. congruence. }
  subst w'. split.
  - intros E' ME. cbn [snd proper] in P1. exact (get_after E' t' key n k w false W1 (proj1 P1) NZ M L ME PA1).
  - intros E' key2 n2 k0 k2 w2 ro M0 M2 NE NZ2 L2 ME S0. rewrite (means_fun _ _ _ _ M0 M) in NE.
    apply (get_after E' t' key2 n2 k2 w2 ro W1); try assumption; [exists k2; exact M2|]. rewrite PA2 by exact NE. exact S0.
Qed.
Print Assumptions C33_store_then_get_partial.

Definition okenv : kenv := mkEnv true OK OK.
Definition name (s : string) : list N := (bytes s ++ [0%N])%list.

(** Refuted: an overwriting store that fails because no ID can be had (wolfsentry_kv_set, kv.c 240-253) has already removed the old value. *)
Theorem C33_overwrite_failure_refuted : exists t t', 
  run empty [(okenv, Store (name "k") (-1) (SUint 1) 0)] = Ret ([(OK, ANone)], t)
  /\ step (mkEnv true OK (CALLBACK_ERROR 5)) t (Store (name "k") (-1) (SUint 2) 1) = Ret (CALLBACK_ERROR 5, ANone, t')
  /\ step okenv t (GetUint (name "k") (-1)) = Ret (OK, AUint 1, t)
  /\ step okenv t' (GetUint (name "k") (-1)) = Ret (ITEM_NOT_FOUND, ANone, t').
Proof. eexists _, _. repeat split; vm_compute; reflexivity. Qed.
Print Assumptions C33_overwrite_failure_refuted.

(** Refuted: storing -0.0 over 0.0 reports success but 0.0 stays (kv.c 194-195 compares doubles with ==). *)
Theorem C33_negative_zero_refuted : exists t t',
  run empty [(okenv, Store (name "k") (-1) (SDouble 0) 1)] = Ret ([(OK, ANone)], t)
  /\ step okenv t (Store (name "k") (-1) (SDouble (2 ^ 63)) 1) = Ret (OK, ANone, t')
  /\ step okenv t' (GetFloat (name "k") (-1)) = Ret (OK, AFloat 0, t').
Proof. eexists _, _. repeat split; vm_compute; reflexivity. Qed.
Print Assumptions C33_negative_zero_refuted.

(** a history that meets the hypotheses, with its results: store, get, refusals, read-only, wrong type, validator *)
Example C33_history :
  let h := [(okenv, Store (name "port") (-1) (SUint 443) 0); (okenv, GetUint (name "port") 4); (okenv, GetString (name "port") (-1));
            (okenv, Store (name "port") (-1) (SUint 80) 0); (okenv, SetMut (name "port") (-1) 0); (okenv, Store (name "port") (-1) (SUint 80) 1);
            (okenv, Delete (name "port") (-1)); (okenv, SetMut (name "port") (-1) 1); (okenv, Store (name "port") (-1) (SSint 80) 1);
            (okenv, GetUint (name "port") (-1)); (okenv, Store (name "n") (-1) (SString (name "abc") (-1)) 1); (okenv, GetString (name "n") (-1));
            (okenv, SetValidator true (fun _ => OK)); (mkEnv true BAD_VALUE OK, Store (name "n") (-1) SNull 1); (okenv, Delete (name "n") (-1)); (okenv, GetType (name "n") (-1))] in
  Forall (fun ec => proper (snd ec)) h /\ Forall fine h
  /\ exists t, run empty h = Ret ([(OK, ANone); (OK, AUint 443); (WRONG_TYPE, ANone); (ITEM_ALREADY_PRESENT, ANone); (OK, ANone); (NOT_PERMITTED, ANone);
       (NOT_PERMITTED, ANone); (OK, ANone); (OK, ANone); (OK, AUint 80); (OK, ANone); (OK, AString (bytes "abc")); (OK, ANone); (BAD_VALUE, ANone); (OK, ANone); (ITEM_NOT_FOUND, ANone)], t).
Proof.
  assert (R : forall s, ~ In 0%N (bytes s) -> readable (name s) (-1)) by (intros s N0; exists (bytes s); right; split; [lia|]; exists []; split; [reflexivity|exact N0]).
  assert (P1 : readable (name "port") (-1)) by (apply R; cbn; intuition discriminate). assert (N1 : readable (name "n") (-1)) by (apply R; cbn; intuition discriminate).
  assert (A1 : readable (name "abc") (-1)) by (apply R; cbn; intuition discriminate).
  assert (P4 : readable (name "port") 4) by (exists (bytes "port"); left; split; [lia|]; exists [0%N]; split; reflexivity).
  cbn zeta. split; [|split].
  - repeat (apply Forall_cons; [cbn [snd proper proper_value]; try split; try assumption; try lia; exact I|]). apply Forall_nil.
  - repeat (apply Forall_cons; [first [exact I|split; [reflexivity|discriminate]]|]). apply Forall_nil.
  - eexists. vm_compute. reflexivity.
Qed.

(** C34 is false of the code: wolfsentry_user_value_get_json (kv.c 1049-1061) asks for WOLFSENTRY_KV_STRING. *)
Theorem C34_json_get_refuted : forall j, exists t,
  run empty [(okenv, Store (name "k") (-1) (SJson j) 0)] = Ret ([(OK, ANone)], t)
  /\ step okenv t (GetJson (name "k") (-1)) = Ret (WRONG_TYPE, ANone, t)
  /\ step okenv t (GetType (name "k") (-1)) = Ret (OK, AType KV_JSON, t).
Proof. intros j. eexists. repeat split. Qed.
Print Assumptions C34_json_get_refuted.
(** and a string is handed out as if it were a JSON_VALUE: the caller gets the string's length as an object *)
Theorem C34_string_as_json_refuted : forall s n, Z.of_nat n <= 16000 -> List.length s = n -> exists t,
  run empty [(okenv, Store (name "k") (-1) (SString s (Z.of_nat n)) 0)] = Ret ([(OK, ANone)], t)
  /\ step okenv t (GetJson (name "k") (-1)) = Ret (OK, AJson (Word (N.of_nat n)), t).
Proof.
  intros s n L E. eexists. split.
  - cbn [run step build]. destruct (Z.ltb_spec (Z.of_nat n) 0); [lia|]. cbn [bind]. rewrite Z.gtb_ltb. unfold KV_MAX_VALUE_BYTES. destruct (Z.ltb_spec 16384 (Z.of_nat n)); [lia|].
    unfold kv_new. change (-1 =? 0) with false. cbn [bind rbind]. destruct (Z.ltb_spec (Z.of_nat n + 1) 0); [lia|]. rewrite Z.gtb_ltb. unfold KV_MAX_VALUE_BYTES. destruct (Z.ltb_spec 16384 (Z.of_nat n + 1)); [lia|].
    unfold rbind. change (let* n0 := if -1 <? 0 then strlen (name "k") else Ret (Z.to_nat (-1)) in _) with (Ret (A:=list N + err) (inl [107%N])).
    cbn [bind]. unfold memcpy. rewrite Nat2Z.id, E, Nat.leb_refl, <- E, firstn_all. cbn [bind]. reflexivity.
  - cbn -[Z.to_N]. rewrite <- nat_N_Z, N2Z.id, E. reflexivity.
Qed.
Print Assumptions C34_string_as_json_refuted.

(** What does hold: a value stored as JSON is in the map under its key, is reported with its type, and no getter but the faulty one accepts it. *)
Theorem C34_json_stored_partial : forall h rs t E key n j ow r t', 
  Forall (fun ec => proper (snd ec)) (h ++ [(E, Store key n (SJson j) ow)])%list -> Forall fine (h ++ [(E, Store key n (SJson j) ow)])%list ->
  run empty h = Ret (rs, t) -> step E t (Store key n (SJson j) ow) = Ret (OK, r, t') ->
  (exists x k, In x (rows t') /\ kv_key x = k /\ means key n k /\ KV_TYPE x = KV_JSON /\ kv_a x = Json j)
  /\ (forall E', mem_ok E' = true -> step E' t' (GetType key n) = Ret (OK, AType KV_JSON, t')).
Proof.
  intros h rs t E key n j ow r t' P F R ST. pose proof (C33_store_then_get_partial h rs t E key n (SJson j) ow r t' (VJson j) P F R ST (CJson j)) as [G _]. split; [|exact G].
  apply Forall_app in P, F. destruct P as [P Ps], F as [F Fs]. inversion Ps as [|? ? P1 _]; inversion Fs as [|? ? F1 _]; subst.
  destruct (run_spec h empty empty_wf P F) as (rs' & t0 & R' & W & _). rewrite R in R'. injection R' as <- <-.
  destruct (step_spec E t (Store key n _ ow) W P1 F1) as (r' & t1 & ST' & W1 & A). rewrite ST in ST'. injection ST' as <- <-. cbn [allowed fst snd] in A. destruct A as [_ A].
  destruct A as [(k & w' & NZ & M & L & C' & _ & _ & _ & [PA1 PA2] & _)|(X & _)]; [|discriminate]. inversion C'; subst.
  unfold abs in PA1. cbn [smap] in PA1. destruct (find t' k) as [x|] eqn:FX; [|discriminate]. destruct (find_wf _ _ _ W1 FX) as (I & KX & RX). cbn in PA1. assert (D : decode x = VJson j) by (unfold ent in PA1; congruence). rewrite D in RX. destruct RX as [T A].
  exists x, k. auto.
Qed.
Print Assumptions C34_json_stored_partial.
Example C34_json_stored_case : exists t, step okenv empty (Store (name "k") (-1) (SJson [1;2;3]%list%N) 0) = Ret (OK, ANone, t).
Proof. eexists. vm_compute. reflexivity. Qed.
