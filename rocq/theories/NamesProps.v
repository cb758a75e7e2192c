(** C47: names of route flags and of action results.  [clean s]: a string without NUL.  The caller passes a pointer to memory that
    begins with the name, and its length or a negative number (then the name is NUL-terminated). *)
From Coq Require Import String Ascii.
From Verif Require Import Base Table Names NamesProofs.
Open Scope N_scope.

Definition passed (s rest : list N) (len : Z) (buf : list N) : Prop :=
  buf = s ++ rest /\ (len = Z.of_nat (List.length s) \/ (len < 0)%Z /\ exists r, rest = 0 :: r).
Lemma passed_len {A} s rest len buf (k : nat -> out A) : clean s -> passed s rest len buf ->
  (let* n := (if (len <? 0)%Z then strlen buf else Ret (Z.to_nat len)) in k n) = k (List.length s).
Proof.
  intros C (-> & [-> |[L (r & ->)]]).
  - replace (Z.of_nat (List.length s) <? 0)%Z with false by (symmetry; apply Z.ltb_ge; lia). rewrite Nat2Z.id. reflexivity.
  - apply Z.ltb_lt in L. rewrite L, strlen_c by exact C. reflexivity.
Qed.
(** flag -> name -> flag *)
Theorem C47_flag_round_trip : forall flag nm rest len buf, flag_by_flag flag = Some nm -> passed nm rest len buf -> by_name buf len = Ret (Some flag).
Proof.
  intros flag nm rest len buf H P. apply by_flag_in in H. destruct flags_ok as (A & B & C). unfold by_name. rewrite (passed_len nm rest len buf _ (C _ _ H) P). destruct P as (-> & _).
  destruct (by_name_c (table_of flag_names) nm rest (C _ _ H) C) as (o & E & Q). rewrite E. destruct o as [g|]; [|destruct (Q flag H)]. rewrite (nd_snd _ g flag nm B Q H). reflexivity.
Qed.
(** name -> flag -> name, for every name without NUL; every other such string is not found, and nothing is read out of bounds *)
Theorem C47_name_round_trip : forall s rest len buf, clean s -> passed s rest len buf ->
  exists o, by_name buf len = Ret o /\ forall flag, o = Some flag <-> flag_by_flag flag = Some s.
Proof.
  intros s rest len buf Cs P. destruct flags_ok as (A & B & C). unfold by_name. rewrite (passed_len s rest len buf _ Cs P). destruct P as (-> & _).
  destruct (by_name_c (table_of flag_names) s rest Cs C) as (o & E & Q). exists o. split; [exact E|]. intros flag. split.
  - intros ->. apply in_by_flag; assumption.
  - intros H. apply by_flag_in in H. destruct o as [g|]; [rewrite (nd_snd _ g flag s B Q H); reflexivity|destruct (Q flag H)].
Qed.
(** The names are those of the flags they are documented for: the bits as in wolfsentry.h 1005-1064, the names as in the JSON
    configuration's documentation. *)
Definition documented_flags : list (N * string) := [
  (0, "af-wild"); (1, "raddr-wild"); (3, "lport-wild"); (4, "laddr-wild"); (5, "rport-wild"); (6, "riface-wild"); (7, "liface-wild");
  (9, "tcplike-port-numbers"); (10, "direction-in"); (11, "direction-out"); (20, "penalty-boxed"); (21, "green-listed");
  (22, "dont-count-hits"); (23, "dont-count-current-connections"); (24, "port-reset")]%string.
Theorem C47_flag_names : forall flag nm, flag_by_flag flag = Some nm <-> exists bit s, In (bit, s) documented_flags /\ flag = 2 ^ bit /\ nm = bytes s.
Proof.
  assert (X : forall f nm, In (f, nm) (table_of flag_names) <-> In (f, nm) (map (fun x => (2 ^ fst x, bytes (snd x))) documented_flags)).
  { assert (I1 : incl (table_of flag_names) (map (fun x => (2 ^ fst x, bytes (snd x))) documented_flags)) by (vm_compute; intros a H; repeat (destruct H as [<-|H]; [tauto|]); destruct H).
    assert (I2 : incl (map (fun x => (2 ^ fst x, bytes (snd x))) documented_flags) (table_of flag_names)) by (vm_compute; intros a H; repeat (destruct H as [<-|H]; [tauto|]); destruct H).
    intros f nm. split; [apply I1|apply I2]. }
  intros flag nm. destruct flags_ok as (A & B & C). split.
  - intros H. apply by_flag_in in H. apply X in H. apply in_map_iff in H. destruct H as ([bit s] & E & I1). injection E as <- <-. exists bit, s. auto.
  - intros (bit & s & I1 & -> & ->). apply in_by_flag; [exact A|]. apply X. apply in_map_iff. exists (bit, s). auto.
Qed.
(** A name that continues with a NUL makes the flag lookup read past the end of its own table entry. *)
Theorem C47_embedded_nul_refuted : exists buf, by_name buf (Z.of_nat (List.length buf)) = UB.
Proof. exists (bytes "af-wild" ++ [0; 97; 97])%list. vm_compute. reflexivity. Qed.

(** Action results: every bit has a name, and the name leads back to the bit. *)
Theorem C47_res_round_trip : forall res bit rest len buf, bit <= 31 -> N.testbit res bit = true ->
  exists nm, res_by_flag res bit = Name nm /\ (passed nm rest len buf -> res_by_name buf len = Ret (Some (2 ^ bit))).
Proof.
  intros res bit rest len buf B T. unfold res_by_flag. replace (31 <? bit) with false by (symmetry; apply N.ltb_ge; exact B). rewrite T.
  assert (Q : exists nm, by_flag (table_of res_names) (2 ^ bit) = Some nm).
  { assert (X : forallb (fun b => match by_flag (table_of res_names) (2 ^ N.of_nat b) with Some _ => true | None => false end) (seq 0 32) = true) by (vm_compute; reflexivity).
    rewrite forallb_forall in X. specialize (X (N.to_nat bit)). rewrite N2Nat.id in X. destruct (by_flag (table_of res_names) (2 ^ bit)) as [nm|]; [eauto|]. discriminate X. apply in_seq. lia. }
  destruct Q as (nm & H). rewrite H. exists nm. split; [reflexivity|]. intros P. apply by_flag_in in H. destruct res_ok as (A1 & B1 & C). unfold res_by_name. rewrite (passed_len nm rest len buf _ (C _ _ H) P). destruct P as (-> & _).
  destruct (res_by_name_c (table_of res_names) nm rest C (C _ _ H)) as (o & E & Q). rewrite E. destruct o as [g|]; [|destruct (Q (2 ^ bit) H)]. rewrite (nd_snd _ g (2 ^ bit) nm B1 Q H). reflexivity.
Qed.
Theorem C47_res_name_round_trip : forall s rest len buf, clean s -> passed s rest len buf ->
  exists o, res_by_name buf len = Ret o /\ forall res, o = Some res -> res = 0 /\ s = bytes "none" \/ exists bit, bit <= 31 /\ res = 2 ^ bit /\ res_by_flag res bit = Name s.
Proof.
  intros s rest len buf Cs P. destruct res_ok as (A & B & C). unfold res_by_name. rewrite (passed_len s rest len buf _ Cs P). destruct P as (-> & _).
  destruct (res_by_name_c (table_of res_names) s rest C Cs) as (o & E & Q). exists o. split; [exact E|]. intros res ->.
  assert (X : forallb (fun x => ((fst x =? 0) && leqb (snd x) (bytes "none")) || (2 ^ N.log2 (fst x) =? fst x) && (N.log2 (fst x) <=? 31))%bool (table_of res_names) = true) by (vm_compute; reflexivity).
  rewrite forallb_forall in X. specialize (X (res, s) Q). cbn [fst snd] in X. apply orb_true_iff in X. destruct X as [X|X]; apply andb_prop in X; destruct X as [X Y].
  - left. apply N.eqb_eq in X. split; [exact X|]. unfold leqb in Y. destruct (list_eq_dec N.eq_dec s (bytes "none")); [assumption|discriminate].
  - right. apply N.eqb_eq in X. apply N.leb_le in Y. exists (N.log2 res). split; [exact Y|]. split; [congruence|]. unfold res_by_flag. replace (31 <? N.log2 res) with false by (symmetry; apply N.ltb_ge; exact Y).
    rewrite <- X at 1. rewrite N.pow2_bits_true. rewrite X. rewrite (in_by_flag _ res s A Q). reflexivity.
Qed.

(** The same for action results: wolfsentry.h 865-933. *)
Definition documented_results : list string := ["accept"; "reject"; "connect"; "disconnect"; "derogatory"; "commendable"; "stop"; "deallocated"; "inserted"; "error"; "fallthrough"; "update"; "port-reset"; "sending"; "received"; "binding"; "listening"; "stopped-listening"; "connecting-out"; "closed"; "unreachable"; "sock-error"; "close-wait"; "reserved-23"; "user+0"; "user+1"; "user+2"; "user+3"; "user+4"; "user+5"; "user+6"; "user+7"]%string.
Theorem C47_res_names : forall res bit, bit <= 31 -> N.testbit res bit = true -> exists s, nth_error documented_results (N.to_nat bit) = Some s /\ res_by_flag res bit = Name (bytes s).
Proof.
  intros res bit B T. unfold res_by_flag. replace (31 <? bit) with false by (symmetry; apply N.ltb_ge; exact B). rewrite T.
  assert (X : forallb (fun b => match nth_error documented_results b, by_flag (table_of res_names) (2 ^ N.of_nat b) with Some s, Some nm => leqb nm (bytes s) | _, _ => false end) (seq 0 32) = true) by (vm_compute; reflexivity).
  rewrite forallb_forall in X. specialize (X (N.to_nat bit)). rewrite N2Nat.id in X. destruct (nth_error documented_results (N.to_nat bit)) as [s|]; [|discriminate X; apply in_seq; lia]. exists s. split; [reflexivity|].
  destruct (by_flag (table_of res_names) (2 ^ bit)) as [nm|]; [|discriminate X; apply in_seq; lia]. unfold leqb in X. destruct (list_eq_dec N.eq_dec nm (bytes s)) as [->|]; [reflexivity|]. discriminate X. apply in_seq. lia.
Qed.
Example names_case : flag_by_flag 1048576 = Some (bytes "penalty-boxed") /\ by_name (bytes "penalty-boxed" ++ [0]) (-1) = Ret (Some 1048576) /\
  by_name (bytes "penalty") 7 = Ret None /\ res_by_flag 2 1 = Name (bytes "reject") /\ res_by_name (bytes "rejected") 6 = Ret (Some 2).
Proof. vm_compute. repeat split; reflexivity. Qed.

Print Assumptions C47_flag_round_trip.
Print Assumptions C47_flag_names.
Print Assumptions C47_res_names.
Print Assumptions C47_name_round_trip.
Print Assumptions C47_embedded_nul_refuted.
Print Assumptions C47_res_round_trip.
Print Assumptions C47_res_name_round_trip.
