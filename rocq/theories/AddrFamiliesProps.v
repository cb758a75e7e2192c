(** C35. *)
From Coq Require Import String.
From Verif Require Import Base TableSpec Labels LabelsProofs Keyed Names Kv KvSpec KvProofs Table AddrFamilies AddrFamiliesSpec AddrFamiliesProofs.
Open Scope string_scope.
Open Scope Z_scope.

(** Every history of installs, removals and uses has exactly the effects of AddrFamiliesSpec.v on the book of the user's families:
    no undefined behaviour, and a failed install changes nothing. *)
Theorem C35_history : forall h, honest fempty [] h -> exists rs s, frun fempty h = Ret (rs, s) /\ effects blank h rs (abook s).
Proof. intros h H. destruct (frun_spec h fempty [] inv_empty H) as (rs & s & R & _ & EF). exists rs, s. split; [exact R|exact EF]. Qed.
Print Assumptions C35_history.

(** the caller's view of a looked-up name: the C string at the returned pointer *)
Definition number_of (s : fstate) (mem : list N) (len : Z) (k : N) : Prop := pton s mem len = Ret (inl k).
Definition name_of (s : fstate) (k : N) (n : named) : Prop := fst (ntop s k true) = Ret (inl n).

Lemma pton_user s held f mem len : inv s held -> In f (bynum s) -> means mem len (f_name f) -> pton s mem len = Ret (inl (f_num f)).
Proof.
  intros V I M. unfold pton. destruct (name_len_means _ _ _ M) as [L C]. rewrite L. cbn [bind].
  destruct (byname s) as [|x l] eqn:B; [apply (i_both _ _ V) in I; rewrite B in I; destruct I|].
  rewrite (get_byname_spec s held mem _ (f_name f) V (means_rel _ _ _ M)). cbn [bind]. destruct (i_ok _ _ V f I) as [[L1 L2] _].
  destruct (Nat.eqb_spec (List.length (f_name f)) 0); [lia|]. destruct (Z.ltb_spec 32 (Z.of_nat (List.length (f_name f)))); [lia|].
  rewrite (proj2 (getn_in s held (f_name f) f V) (conj I eq_refl)). reflexivity.
Qed.
Lemma pton_other s held mem len nm : inv s held -> means mem len nm -> ~ used (abook s) nm -> forall k, pton s mem len = Ret (inl k) ->
  builtin_pton pton_names mem (List.length nm) = Ret (Some k).
Proof.
  intros V M U k. unfold pton. destruct (name_len_means _ _ _ M) as [L C]. rewrite L. cbn [bind].
  set (b := builtin_pton pton_names mem (List.length nm)).
  assert (X : (let* o := b in Ret (match o with Some k0 => inl k0 | None => inr ITEM_NOT_FOUND end)) = Ret (inl k) -> b = Ret (Some k)).
  { destruct b as [[j|]| |]; cbn [bind]; intros X; try discriminate X. congruence. }
  destruct (byname s) as [|x l] eqn:B; [exact X|]. rewrite (get_byname_spec s held mem _ nm V (means_rel _ _ _ M)). cbn [bind].
  destruct (List.length nm =? 0)%nat; [discriminate|]. destruct (32 <? Z.of_nat (List.length nm)); [discriminate|].
  destruct (kfind f_name label_cmp (byname s) nm) as [f|] eqn:G; [|exact X].
  apply (getn_in s held) in G; [|exact V]. destruct U. apply (used_in s held); [exact V|]. exists f. exact G.
Qed.
Lemma name_of_user s held k f : inv s held -> name_of s k (User f) -> In f (bynum s) /\ f_num f = k.
Proof.
  intros V. unfold name_of, ntop. destruct (get_bynumber_1 s k) as [g|] eqn:G; [|destruct (builtin_ntop k); discriminate].
  destruct (refs s (f_addr g)) as [c|]; [|discriminate]. destruct (c =? u32_max)%N; [discriminate|]. cbn. intros X. assert (g = f) by congruence. subst g. apply (get_in s held); assumption.
Qed.

(** Lookups of user families are inverse to each other after every history: whatever family is found under a number is found
    under its name, with that number (also when the caller passes the returned C string, if the name has no NUL inside); a name
    found in the user's book belongs to exactly the number it is found with; and a name that is not in the book is not mistaken
    for a user family. *)
Theorem C35_inverse_partial : forall h rs s, honest fempty [] h -> frun fempty h = Ret (rs, s) ->
  (forall k f mem len, name_of s k (User f) -> means mem len (f_name f) -> number_of s mem len k)
  /\ (forall k f, name_of s k (User f) -> ~ In 0%N (f_name f) -> number_of s (name_mem (User f)) (-1) k)
  /\ (forall mem len nm k, means mem len nm -> number_of s mem len k ->
        (exists w, abook s k = Some (nm, w)) \/ (~ used (abook s) nm /\ builtin_pton pton_names mem (List.length nm) = Ret (Some k)))
  /\ (forall k nm w, abook s k = Some (nm, w) -> forall mem len, means mem len nm -> number_of s mem len k)
  /\ (forall k nm w, abook s k = Some (nm, w) -> (exists f, name_of s k (User f) /\ f_name f = nm /\ f_bits f = w) \/ fst (ntop s k true) = Ret (inr OVERFLOW_AVERTED)).
Proof.
  intros h rs s H R. destruct (frun_spec h fempty [] inv_empty H) as (rs' & s' & R' & V & EF). rewrite R in R'. injection R' as <- <-.
  set (held := held_after [] h rs) in V.
  split; [|split; [|split; [|split]]].
  - intros k f mem len NF M. destruct (name_of_user s held k f V NF) as [I <-]. exact (pton_user s held f mem len V I M).
  - intros k f NF N0. destruct (name_of_user s held k f V NF) as [I <-]. apply (pton_user s held f _ _ V I). right. split; [lia|]. exists []. split; [reflexivity|exact N0].
  - intros mem len nm k M P. destruct (kfind f_name label_cmp (byname s) nm) as [f|] eqn:G.
    + apply (getn_in s held) in G; [|exact V]. destruct G as [I <-]. unfold number_of in P. rewrite (pton_user s held f mem len V I M) in P. left. exists (f_bits f). unfold abook. assert (K : f_num f = k) by congruence. rewrite <- K, (proj2 (get_in s held (f_num f) f V) (conj I eq_refl)). reflexivity.
    + right. assert (U : ~ used (abook s) nm). { rewrite (used_in s held) by exact V. intros (f & I & NF). assert (X : kfind f_name label_cmp (byname s) nm = Some f) by (apply (getn_in s held); auto). congruence. }
      split; [exact U|]. exact (pton_other s held mem len nm V M U k P).
  - intros k nm w B mem len M. unfold abook in B. destruct (get_bynumber_1 s k) as [f|] eqn:G; [|discriminate]. cbn in B. injection B as <- <-. apply (get_in s held) in G; [|exact V]. destruct G as [I <-]. exact (pton_user s held f mem len V I M).
  - intros k nm w B. unfold abook in B. destruct (get_bynumber_1 s k) as [f|] eqn:G; [|discriminate]. cbn in B. injection B as <- <-. unfold name_of, ntop. rewrite G. apply (get_in s held) in G; [|exact V]. destruct G as [I _].
    rewrite (i_refs _ _ V). assert (X : claims s held (f_addr f) <> 0%nat). { unfold claims. rewrite (proj2 (has_addr_in (bynum s) (f_addr f)) (ex_intro _ f (conj I eq_refl))). lia. }
    destruct (Nat.eqb_spec (claims s held (f_addr f)) 0); [contradiction|]. destruct (N.of_nat (claims s held (f_addr f)) =? u32_max)%N; [right; reflexivity|]. left. exists f. cbn. tauto.
Qed.
Print Assumptions C35_inverse_partial.

(** A family handed out to a caller stays readable until the caller releases it, also after it was removed from the book. *)
Theorem C35_held_family_alive : forall h rs s a, honest fempty [] h -> frun fempty h = Ret (rs, s) -> In a (held_after [] h rs) -> refs s a <> None.
Proof.
  intros h rs s a H R I. destruct (frun_spec h fempty [] inv_empty H) as (rs' & s' & R' & V & _). rewrite R in R'. injection R' as <- <-.
  rewrite (i_refs _ _ V). apply (count_occ_In Pos.eq_dec) in I. unfold claims. destruct (Nat.eqb_spec (count_occ Pos.eq_dec (held_after [] h rs) a + (if has_addr (bynum s) a then 1 else 0)) 0); [lia|discriminate].
Qed.
Print Assumptions C35_held_family_alive.

(** built-in names *)
Lemma builtin_in t mem n k : builtin_pton t mem n = Ret (Some k) -> In k (map snd t).
Proof.
  induction t as [|[s j] t IH]; cbn [builtin_pton map snd]; [discriminate|]. destruct (strcaseeq mem (bytes s) n) as [[]| |]; cbn [bind]; try discriminate; [|right; apply IH; assumption]. intros X. left. congruence.
Qed.
(** every number that a built-in name stands for, except LINK64's, has a name that stands for it *)
Definition good_number (k : N) : bool :=
  match builtin_ntop k with
  | Some nm => match builtin_pton pton_names (nm ++ [0%N]) (List.length nm) with Ret (Some j) => N.eqb j k && negb (existsb (N.eqb 0) nm) | _ => false end
  | None => N.eqb k 119
  end.
Lemma good_numbers : forallb good_number (map snd pton_names) = true.
Proof. vm_compute. reflexivity. Qed.

Lemma good_lengths : forallb (fun e => match builtin_ntop e with Some m => (1 <=? List.length m)%nat && (List.length m <=? 32)%nat | None => true end) (map snd pton_names) = true.
Proof. vm_compute. reflexivity. Qed.
Opaque pton_names builtin_ntop builtin_pton.

(** A name that resolves to a number resolves back: after every history, if [mem] stands for number [k], then looking up the name
    of [k] gives a name that stands for [k].  Missing: LINK64 (119) unless the user names it; a user family that takes over the
    built-in name of another number; names with a NUL inside; see C35_builtin_refuted. *)
Theorem C35_builtin_partial : forall h rs s mem len k, honest fempty [] h -> frun fempty h = Ret (rs, s) -> readable mem len ->
  number_of s mem len k -> fst (ntop s k true) <> Ret (inr OVERFLOW_AVERTED) ->
  (k <> 119%N \/ abook s k <> None) ->
  (forall nm j w, builtin_ntop k = Some nm -> abook s j = Some (nm, w) -> j = k) ->
  (forall j nm w, abook s j = Some (nm, w) -> ~ In 0%N nm) ->
  exists n, name_of s k n /\ number_of s (name_mem n) (-1) k.
Proof.
  intros h rs s mem len k H R [nm0 M0] P NO K SH NN. destruct (frun_spec h fempty [] inv_empty H) as (rs' & s' & R' & V & EF). rewrite R in R'. injection R' as <- <-.
  destruct (C35_inverse_partial h rs s H R) as (A1 & A2 & A3 & A4 & A5).
  destruct (abook s k) as [[nm w]|] eqn:B.
  - destruct (A5 k nm w B) as [(f & NF & F1 & F2)|X]; [|contradiction]. exists (User f). split; [exact NF|]. apply A2; [exact NF|]. rewrite F1. exact (NN k nm w B).
  - destruct K as [K|K]; [|congruence]. destruct (A3 _ _ _ _ M0 P) as [(w & X)|(U & BP)]; [congruence|]. apply builtin_in in BP.
    pose proof good_numbers as G. rewrite forallb_forall in G. specialize (G k BP). unfold good_number in G.
    pose proof good_lengths as LL. rewrite forallb_forall in LL. specialize (LL k BP). cbv beta in LL. clear BP.
    destruct (builtin_ntop k) as [nm|] eqn:BN; [|apply N.eqb_eq in G; contradiction]. exists (Builtin nm). split.
    + unfold name_of, ntop. unfold abook in B. destruct (get_bynumber_1 s k); [discriminate|]. rewrite BN. reflexivity.
    + destruct (builtin_pton pton_names (nm ++ [0%N])%list (List.length nm)) as [[j|]| |] eqn:BJ; try discriminate G. apply andb_prop in G. destruct G as [G1 G2]. apply N.eqb_eq in G1. subst j.
      assert (N0 : ~ In 0%N nm). { intros I0. apply Bool.negb_true_iff in G2. assert (X : existsb (N.eqb 0) nm = true) by (apply existsb_exists; exists 0%N; split; [exact I0|reflexivity]). congruence. }
      assert (M : means (name_mem (Builtin nm)) (-1) nm) by (right; split; [reflexivity|exists []; split; [reflexivity|exact N0]]).
      assert (NU : ~ used (abook s) nm). { intros (j & w & E). assert (j = k) by (apply (SH nm j w); [reflexivity|exact E]). congruence. }
      unfold number_of, pton. destruct (name_len_means _ _ _ M) as [L C]. rewrite L. cbn [bind]. cbn [name_mem]. rewrite BJ. cbn [bind].
      destruct (byname s) as [|x l] eqn:BY; [reflexivity|]. cbn [name_mem] in M. rewrite (get_byname_spec s _ _ _ nm V (means_rel _ _ _ M)). cbn [bind].
      assert (LN : (1 <= List.length nm <= 32)%nat).
      { apply andb_prop in LL. destruct LL as [L1 L2]. apply Nat.leb_le in L1, L2. split; assumption. }
      destruct (Nat.eqb_spec (List.length nm) 0) as [X|_]; [clear - X LN; lia|]. destruct (Z.ltb_spec 32 (Z.of_nat (List.length nm))) as [X|_]; [clear - X LN; lia|].
      destruct (kfind f_name label_cmp (byname s) nm) as [f|] eqn:KF; [|reflexivity]. destruct NU. apply (used_in s _ nm V). apply (getn_in s _ nm f V) in KF. exists f. exact KF.
Qed.
Print Assumptions C35_builtin_partial.

Transparent pton_names builtin_ntop builtin_pton.
Definition allok : fenv := mkFe true true OK OK OK.
Definition cstr (s : string) : list N := bytes s ++ [0%N].
Definition inst (k : N) (s : string) : fenv * fcall := (allok, Install k (Some (cstr s)) (-1) true true 48).
(** Every built-in name of 119 is without a name back; a user family "LOCAL" hides the built-in one, so that "UNIX" is 1, 1 is
    "LOCAL", and "LOCAL" is 300; looked up without a place for the family, the user's names are not found at all; and 0 has a name
    that no lookup accepts. *)
Theorem C35_builtin_refuted :
  (number_of fempty (cstr "LINK64") (-1) 119 /\ fst (ntop fempty 119 true) = Ret (inr ITEM_NOT_FOUND))
  /\ (name_of fempty 0 (Builtin (bytes "UNSPEC")) /\ pton fempty (cstr "UNSPEC") (-1) = Ret (inr ITEM_NOT_FOUND))
  /\ (exists rs s, frun fempty [inst 300 "LOCAL"] = Ret (rs, s) /\ number_of s (cstr "UNIX") (-1) 1 /\ name_of s 1 (Builtin (bytes "LOCAL")) /\ number_of s (cstr "LOCAL") (-1) 300
        /\ fst (ntop s 300 false) = Ret (inr ITEM_NOT_FOUND)).
Proof.
  split; [split; vm_compute; reflexivity|]. split; [split; vm_compute; reflexivity|]. eexists. eexists. split; [reflexivity|]. repeat split; vm_compute; reflexivity.
Qed.
Print Assumptions C35_builtin_refuted.

(** a failing second allocation makes the install read an ID that was never written *)
Theorem C35_install_allocation_failure_refuted : forall s, fstep (mkFe true false OK OK OK) s (Install 300 (Some (cstr "FOO")) (-1) true true 48) = UB.
Proof. intros s. reflexivity. Qed.
Print Assumptions C35_install_allocation_failure_refuted.

Definition sample : list (fenv * fcall) :=
  [inst 300 "FOO"; inst 256 "BAR"; inst 300 "BAZ"; inst 301 "BAR"; (allok, Take 300); (allok, RemoveName (cstr "FOO") (-1)); inst 301 "FOO"; (allok, RemoveNumber 256); (allok, Drop 1)].
Lemma honest_cons E s held c h e o s1 : fstep E s c = Ret (e, o, s1) -> proper_call E c -> holds_it held c -> honest s1 (hold held c o) h -> honest s held ((E, c) :: h).
Proof. intros ST P H HH. cbn [honest]. split; [exact P|]. split; [exact H|]. intros e' o' s' ST'. rewrite ST in ST'. injection ST' as <- <- <-. exact HH. Qed.
Example C35_sample : honest fempty [] sample /\ exists rs s, frun fempty sample = Ret (rs, s)
  /\ map fst rs = [OK; OK; ITEM_ALREADY_PRESENT; ITEM_ALREADY_PRESENT; OK; OK; OK; OK; OK]
  /\ pton s (cstr "FOO") (-1) = Ret (inl 301%N) /\ pton s (cstr "inet6") (-1) = Ret (inl 10%N) /\ refs s 1 = None.
Proof.
  assert (RD : forall t, (forall x, In x (bytes t) -> x <> 0%N) -> readable (cstr t) (-1)).
  { intros t NZ. exists (bytes t). right. split; [lia|]. exists []. split; [reflexivity|]. intros I. exact (NZ _ I eq_refl). }
  split.
  - unfold sample.
    repeat (eapply honest_cons; [reflexivity|cbn [inst proper_call]; first [exact I|split; [apply RD; cbn; intros x IX; intuition lia|reflexivity]|apply RD; cbn; intros x IX; intuition lia]|cbn; tauto|]; cbn [hold f_addr]).
    exact I.
  - eexists. eexists. split; [reflexivity|]. repeat split; vm_compute; reflexivity.
Qed.

(** ** The built-in names and widths *)
Lemma lower_same x y : (lower x =? lower y)%N = true <-> same_letter x y.
Proof.
  rewrite N.eqb_eq. unfold lower, same_letter.
  destruct (N.leb_spec 65 x), (N.leb_spec x 90), (N.leb_spec 65 y), (N.leb_spec y 90); cbn [andb]; split; intros; lia.
Qed.
Lemma strncaseeq_same : forall a f r, ~ In 0%N f -> List.length a = List.length f ->
  exists b, strncaseeq (a ++ r) (f ++ [0%N]) (List.length a) = Ret b /\ (b = true <-> Forall2 same_letter a f).
Proof.
  induction a as [|x a IH]; intros [|y f] r NZ L; try discriminate L.
  - exists true. split; [destruct r; reflexivity|]. split; [constructor|reflexivity].
  - cbn [List.length] in L. injection L as L. cbn [app List.length strncaseeq].
    destruct (lower x =? lower y)%N eqn:E.
    + apply lower_same in E. destruct (N.eqb_spec x 0) as [-> |NX].
      * exfalso. destruct E as [E|[[E _]|[E E']]]; [|lia|lia]. apply NZ. left. symmetry. exact E.
      * destruct (IH f r (fun H => NZ (or_intror H)) L) as (b & S & B). exists b. split; [exact S|]. rewrite B. split; [intros; constructor; assumption|]. intros F. inversion F; assumption.
    + exists false. split; [reflexivity|]. split; [discriminate|]. intros F. inversion F as [|? ? ? ? A]; subst. apply lower_same in A. congruence.
Qed.
Lemma strcaseeq_same : forall a f r, ~ In 0%N f ->
  exists b, strcaseeq (a ++ r) f (List.length a) = Ret b /\ (b = true <-> Forall2 same_letter a f).
Proof.
  intros a f r NZ. unfold strcaseeq. destruct (Nat.eqb_spec (List.length a) (List.length f)) as [L|L]; [apply strncaseeq_same; assumption|].
  exists false. split; [reflexivity|]. split; [discriminate|]. intros F. exfalso. apply L. clear - F. induction F; cbn [List.length]; congruence.
Qed.
Lemma same_letter_sym x y : same_letter x y -> same_letter y x.
Proof. unfold same_letter. intuition auto. Qed.
Lemma pton_table : forall t a r, Forall (fun e => ~ In 0%N (bytes (fst e))) t ->
  exists o, builtin_pton t (a ++ r) (List.length a) = Ret o /\
    (forall k, o = Some k -> exists s, In (s, k) t /\ Forall2 same_letter a (bytes s)) /\
    (o = None -> forall s k, In (s, k) t -> ~ Forall2 same_letter a (bytes s)).
Proof.
  induction t as [|[s k] t IH]; intros a r F; cbn [builtin_pton].
  - exists None. split; [reflexivity|]. split; [discriminate|]. intros _ s k [].
  - inversion F as [|? ? NZ F']; subst. cbn [fst] in NZ. destruct (strcaseeq_same a (bytes s) r NZ) as (b & E & B). rewrite E. cbn [bind]. destruct b.
    + exists (Some k). split; [reflexivity|]. split; [|discriminate]. intros k' K. injection K as <-. exists s. split; [left; reflexivity|]. apply B. reflexivity.
    + destruct (IH a r F') as (o & E' & O1 & O2). exists o. split; [exact E'|]. split.
      * intros k' K. destruct (O1 k' K) as (s' & I & S'). exists s'. split; [right; exact I|exact S'].
      * intros K s' k' [X|X]; [|exact (O2 K s' k' X)]. injection X as <- <-. intros Y. apply B in Y. discriminate.
Qed.
(** names of different families differ in more than the case of letters *)
Lemma up_letter x y : same_letter x y -> (if (97 <=? x)%N && (x <=? 122)%N then (x - 32)%N else x) = (if (97 <=? y)%N && (y <=? 122)%N then (y - 32)%N else y).
Proof.
  unfold same_letter. destruct (N.leb_spec 97 x), (N.leb_spec x 122), (N.leb_spec 97 y), (N.leb_spec y 122); cbn [andb]; intros; lia.
Qed.
Definition upper (l : list N) : list N := map (fun x => if (97 <=? x)%N && (x <=? 122)%N then (x - 32)%N else x) l.
Lemma upper_same a b : Forall2 same_letter a b -> upper a = upper b.
Proof. unfold upper. induction 1 as [|x y a b H F IH]; cbn [map]; [reflexivity|]. rewrite IH. f_equal. exact (up_letter x y H). Qed.
Definition one_number (e : string * N) : bool :=
  forallb (fun e' => if list_eq_dec N.eq_dec (upper (bytes (fst e))) (upper (bytes (fst e'))) then (snd e =? snd e')%N else true) known_families.
Lemma one_number_ok : forallb one_number known_families = true.
Proof. vm_compute. reflexivity. Qed.
Lemma no_nul : forallb (fun e => forallb (fun c => negb (c =? 0)%N) (bytes (fst e))) known_families = true.
Proof. vm_compute. reflexivity. Qed.
Lemma tables_same : pton_names = known_families.
Proof. vm_compute. reflexivity. Qed.

(** With no families of the user, a name stands for the family whose macro has that name, in any mixture of upper and lower case,
    and nothing else stands for a family. *)
Theorem C35_builtin_names : forall mem len nm, means mem len nm ->
  (forall k, pton fempty mem len = Ret (inl k) <-> exists s, In (s, k) known_families /\ Forall2 same_letter nm (bytes s)) /\
  ((forall k, pton fempty mem len <> Ret (inl k)) -> pton fempty mem len = Ret (inr ITEM_NOT_FOUND)).
Proof.
  intros mem len nm M. unfold pton. destruct (name_len_means _ _ _ M) as [L C]. rewrite L. cbn [bind byname fempty].
  assert (E : exists r, mem = (nm ++ r)%list).
  { unfold copy in C. destruct (List.length nm <=? List.length mem)%nat; [|discriminate]. injection C as C. exists (skipn (List.length nm) mem). rewrite <- C at 1. symmetry. apply firstn_skipn. }
  destruct E as [r ->].
  assert (NZ : Forall (fun e => ~ In 0%N (bytes (fst e))) pton_names).
  { rewrite tables_same. apply Forall_forall. intros e I0 Z0. pose proof no_nul as NN. rewrite forallb_forall in NN. specialize (NN e I0). rewrite forallb_forall in NN. specialize (NN _ Z0). discriminate NN. }
  destruct (pton_table pton_names nm r NZ) as (o & E & O1 & O2). rewrite E. cbn [bind]. rewrite tables_same in O1, O2. destruct o as [k0|].
  - destruct (O1 k0 eq_refl) as (s0 & I0 & S0). split; [|intros X; exfalso; exact (X k0 eq_refl)]. intros k. split.
    + intros X. injection X as <-. exists s0. split; assumption.
    + intros (s & I1 & S1). pose proof one_number_ok as OO. rewrite forallb_forall in OO. specialize (OO _ I0). unfold one_number in OO. rewrite forallb_forall in OO. specialize (OO _ I1). cbn [fst snd] in OO.
      destruct (list_eq_dec N.eq_dec (upper (bytes s0)) (upper (bytes s))) as [_|D].
      * apply N.eqb_eq in OO. rewrite OO. reflexivity.
      * exfalso. apply D. rewrite <- (upper_same _ _ S0). exact (upper_same _ _ S1).
  - split; [|reflexivity]. intros k. split; [discriminate|]. intros (s & I1 & S1). exfalso. exact (O2 eq_refl s k I1 S1).
Qed.
Print Assumptions C35_builtin_names.

(** The width of addresses: of the built-in families as listed, of the user's as installed, and of no others. *)
Theorem C35_widths_partial : forall h rs s k, honest fempty [] h -> frun fempty h = Ret (rs, s) ->
  (forall w, In (k, w) known_widths -> max_addr_bits s k = inl w) /\
  (~ In k (map fst known_widths) ->
     (forall nm w, abook s k = Some (nm, w) -> max_addr_bits s k = inl w) /\
     (abook s k = None -> max_addr_bits s k = inr ITEM_NOT_FOUND)).
Proof.
  intros h rs s k H R. split.
  - intros w I0. unfold known_widths in I0. cbn [In] in I0. repeat (destruct I0 as [I0|I0]; [injection I0 as <- <-; reflexivity|]). destruct I0.
  - intros NI. assert (B : builtin_bits k = None).
    { destruct (builtin_bits k) as [b|] eqn:B; [|reflexivity]. exfalso. apply NI. cbn. unfold builtin_bits in B.
      destruct (N.eq_dec k 2) as [-> |N2]; [tauto|]. destruct (N.eq_dec k 4) as [-> |N4]; [tauto|]. destruct (N.eq_dec k 5) as [-> |N5]; [tauto|]. destruct (N.eq_dec k 10) as [-> |N10]; [tauto|].
      destruct (N.eq_dec k 29) as [-> |N29]; [tauto|]. destruct (N.eq_dec k 31) as [-> |N31]; [tauto|]. destruct (N.eq_dec k 118) as [-> |N118]; [tauto|]. destruct (N.eq_dec k 119) as [-> |N119]; [tauto|]. destruct (N.eq_dec k 137) as [-> |N137]; [tauto|].
      exfalso. clear - B N2 N4 N5 N10 N29 N31 N118 N119 N137. destruct k as [|p]; [discriminate|]. do 8 (try (destruct p as [p|p|]; try discriminate B; try congruence)). }
    unfold max_addr_bits. rewrite B. unfold abook. destruct (get_bynumber_1 s k) as [f|]; cbn [option_map]; split; [intros nm w X; inversion X; reflexivity|discriminate|discriminate|reflexivity].
Qed.
Print Assumptions C35_widths_partial.
(** The user's width for a number that is built in is not used. *)
Theorem C35_widths_refuted : exists rs s, frun fempty [inst 10%N "MINE"] = Ret (rs, s) /\ abook s 10%N = Some (bytes "MINE", 48) /\ max_addr_bits s 10%N = inl 128.
Proof. eexists. eexists. split; [reflexivity|]. split; vm_compute; reflexivity. Qed.
Print Assumptions C35_widths_refuted.
Example C35_names_sample : pton fempty (cstr "iNet6") (-1) = Ret (inl 10%N) /\ pton fempty (cstr "INET66") 5 = Ret (inl 10%N) /\ pton fempty (cstr "INET66") (-1) = Ret (inr ITEM_NOT_FOUND).
Proof. repeat split; vm_compute; reflexivity. Qed.
