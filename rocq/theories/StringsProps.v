(** C77: a result code is rendered as the text that was registered for it. *)
Require Import ZArith List String Bool Lia.
From Verif Require Import Base Errcode ErrcodeProofs Strings StringsSpec.
Import ListNotations.
Open Scope Z_scope.
Local Open Scope string_scope.
Local Open Scope Z_scope.

Definition of_first (o : option string) : text := match o with Some s => Text s | None => Null end.
Definition Inv (l : list registration) (r : registry) : Prop :=
  size (user_sources r) = 16 /\ size (user_errors r) = 384 /\ size (user_successes r) = 384 /\
  (forall i, 0 <= i < 16 -> entry (user_sources r) i = of_first (first_for_source l (112 + i))) /\
  (forall i, 0 <= i < 128 -> entry (user_errors r) i = of_first (first_for_code l (-128 - i))) /\
  (forall i, 0 <= i < 128 -> entry (user_successes r) i = of_first (first_for_code l (128 + i))) /\
  (forall i, 128 <= i < 384 -> entry (user_errors r) i = Null).
Lemma first_code_snoc l c x : first_for_code (l ++ [c]) x = match first_for_code l x with Some s => Some s | None => first_for_code [c] x end.
Proof. induction l as [|[id [|s]|id [|s]] l IH]; cbn [app first_for_code] in *; try exact IH; [reflexivity|]. destruct (id =? x); [reflexivity|exact IH]. Qed.
Lemma first_source_snoc l c x : first_for_source (l ++ [c]) x = match first_for_source l x with Some s => Some s | None => first_for_source [c] x end.
Proof. induction l as [|[id [|s]|id [|s]] l IH]; cbn [app first_for_source] in *; try exact IH; [reflexivity|]. destruct (id =? x); [reflexivity|exact IH]. Qed.
Lemma get_in t i : 0 <= i < size t -> get t i = Some (entry t i).
Proof. intros H. unfold get. destruct (Z.leb_spec 0 i), (Z.ltb_spec i (size t)); try lia. reflexivity. Qed.
Lemma put_in t i x : 0 <= i < size t -> put t i x = Some (Table (size t) (fun j => if j =? i then x else entry t j)).
Proof. intros H. unfold put. destruct (Z.leb_spec 0 i), (Z.ltb_spec i (size t)); try lia. reflexivity. Qed.

(** One registration in a state that goes with a history. *)
Lemma source_step l r id x : Inv l r ->
  (user_source id /\ first_for_source l id = None /\ exists r', source_string_set r id x = Some (r', E_OK) /\ Inv (l ++ [ForSource id x]) r') \/
  (exists s, user_source id /\ first_for_source l id = Some s /\ source_string_set r id x = Some (r, E_ALREADY_PRESENT) /\ Inv (l ++ [ForSource id x]) r) \/
  (~ user_source id /\ source_string_set r id x = Some (r, E_INVALID_ARG) /\ Inv (l ++ [ForSource id x]) r).
Proof.
  intros (Z1 & Z2 & Z3 & I1 & I2 & I3 & I4). unfold user_source, source_string_set, SOURCE_USER_BASE, SOURCE_ID_MAX.
  assert (K : forall r', user_errors r' = user_errors r -> user_successes r' = user_successes r -> size (user_sources r') = 16 ->
    (forall i, 0 <= i < 16 -> entry (user_sources r') i = of_first (first_for_source (l ++ [ForSource id x]) (112 + i))) -> Inv (l ++ [ForSource id x]) r').
  { intros r' E1 E2 S E3. unfold Inv. rewrite E1, E2. do 3 (split; [assumption|]). split; [exact E3|]. split; [|split; [|exact I4]]; intros i Hi; rewrite first_code_snoc; [rewrite I2 by exact Hi|rewrite I3 by exact Hi];
    (match goal with |- of_first ?a = _ => destruct a; [reflexivity|]; destruct x; reflexivity end). }
  destruct (Z.ltb_spec id 112) as [L|L]; cbn [orb]; [right; right; split; [lia|]; split; [reflexivity|]|]; [|destruct (Z.ltb_spec 127 id) as [G|G]; [right; right; split; [lia|]; split; [reflexivity|]|]].
  1,2: apply K; try reflexivity; try assumption; intros i Hi; rewrite first_source_snoc, I1 by exact Hi; destruct (first_for_source l (112 + i)); [reflexivity|]; destruct x; [reflexivity|]; cbn [first_for_source]; destruct (Z.eqb_spec id (112 + i)); [lia|reflexivity].
  rewrite get_in by lia. rewrite I1 by lia. replace (112 + (id - 112)) with id by lia. destruct (first_for_source l id) as [s|] eqn:F; cbn [of_first].
  - right. left. exists s. split; [lia|]. split; [reflexivity|]. split; [reflexivity|]. apply K; try reflexivity; try assumption.
    intros i Hi. rewrite first_source_snoc, I1 by exact Hi. destruct (first_for_source l (112 + i)) eqn:F'; [reflexivity|]. destruct x; [reflexivity|]. cbn [first_for_source]. destruct (Z.eqb_spec id (112 + i)); [congruence|reflexivity].
  - left. split; [lia|]. split; [reflexivity|]. rewrite put_in by lia. eexists. split; [reflexivity|]. apply K; try reflexivity; [cbn [user_sources size]; assumption|].
    intros i Hi. cbn [user_sources entry]. rewrite first_source_snoc. destruct (Z.eqb_spec i (id - 112)) as [->|N].
    + replace (112 + (id - 112)) with id by lia. rewrite F. destruct x; cbn [first_for_source]; [reflexivity|]. rewrite Z.eqb_refl. reflexivity.
    + rewrite I1 by exact Hi. destruct (first_for_source l (112 + i)); [reflexivity|]. destruct x; [reflexivity|]. cbn [first_for_source]. destruct (Z.eqb_spec id (112 + i)); [lia|reflexivity].
Qed.
Lemma code_step l r id x : Inv l r ->
  ((user_error id \/ user_success id) /\ first_for_code l id = None /\ exists r', error_string_set r id x = Some (r', E_OK) /\ Inv (l ++ [ForCode id x]) r') \/
  (exists s, (user_error id \/ user_success id) /\ first_for_code l id = Some s /\ error_string_set r id x = Some (r, E_ALREADY_PRESENT) /\ Inv (l ++ [ForCode id x]) r) \/
  (~ (user_error id \/ user_success id) /\ error_string_set r id x = Some (r, E_INVALID_ARG) /\ Inv (l ++ [ForCode id x]) r).
Proof.
  intros (Z1 & Z2 & Z3 & I1 & I2 & I3 & I4). unfold user_error, user_success, error_string_set, SUCCESS_USER_BASE, ERROR_USER_BASE, ERROR_ID_MAX. change (Z.opp 255) with (-255).
  assert (K : forall r', user_sources r' = user_sources r -> size (user_errors r') = 384 -> size (user_successes r') = 384 ->
    (forall i, 0 <= i < 128 -> entry (user_errors r') i = of_first (first_for_code (l ++ [ForCode id x]) (-128 - i))) ->
    (forall i, 0 <= i < 128 -> entry (user_successes r') i = of_first (first_for_code (l ++ [ForCode id x]) (128 + i))) ->
    (forall i, 128 <= i < 384 -> entry (user_errors r') i = Null) -> Inv (l ++ [ForCode id x]) r').
  { intros r' E1 S2 S3 E2 E3 E4. unfold Inv. rewrite E1. do 3 (split; [assumption|]). split; [|split; [exact E2|split; [exact E3|exact E4]]]. intros i Hi. rewrite first_source_snoc, I1 by exact Hi.
    destruct (first_for_source l (112 + i)); [reflexivity|]. destruct x; reflexivity. }
  assert (Same : forall o c, (o = None -> id <> c) -> of_first o = of_first (match o with Some s => Some s | None => first_for_code [ForCode id x] c end)).
  { intros o c H. destruct o; [reflexivity|]. specialize (H eq_refl). destruct x; [reflexivity|]. cbn [first_for_code]. destruct (Z.eqb_spec id c); [lia|reflexivity]. }
  assert (Unch : (forall c, first_for_code l c = None -> (-255 <= c <= -128 \/ 128 <= c <= 255) -> id <> c) -> Inv (l ++ [ForCode id x]) r).
  { intros H. apply K; try reflexivity; try assumption; intros i Hi; rewrite first_code_snoc; [rewrite I2 by exact Hi|rewrite I3 by exact Hi]; apply Same; intros F; apply H; [exact F|lia|exact F|lia]. }
  destruct (Z.ltb_spec id 0) as [Ng|Ng].
  - destruct (Z.ltb_spec (-128) id) as [L|L]; cbn [orb]; [right; right; split; [lia|]; split; [reflexivity|]; apply Unch; intros; lia|].
    destruct (Z.ltb_spec id (-255)) as [G|G]; [right; right; split; [lia|]; split; [reflexivity|]; apply Unch; intros; lia|].
    rewrite get_in by lia. rewrite I2 by lia. replace (-128 - - (id - -128)) with id by lia. destruct (first_for_code l id) as [s|] eqn:F; cbn [of_first].
    + right. left. exists s. split; [lia|]. split; [reflexivity|]. split; [reflexivity|]. apply Unch. intros c Fc _ ->. congruence.
    + left. split; [lia|]. split; [reflexivity|]. rewrite put_in by lia. eexists. split; [reflexivity|]. apply K; try reflexivity; cbn [user_errors user_successes size entry]; try assumption.
      * intros i Hi. rewrite first_code_snoc. destruct (Z.eqb_spec i (- (id - -128))) as [->|N].
        -- replace (-128 - - (id - -128)) with id by lia. rewrite F. destruct x; cbn [first_for_code]; [reflexivity|]. rewrite Z.eqb_refl. reflexivity.
        -- rewrite I2 by exact Hi. apply Same. intros _. lia.
      * intros i Hi. rewrite first_code_snoc, I3 by exact Hi. apply Same. intros _. lia.
      * intros i Hi. destruct (Z.eqb_spec i (- (id - -128))); [lia|]. apply I4. exact Hi.
  - destruct (Z.ltb_spec id 128) as [L|L]; cbn [orb]; [right; right; split; [lia|]; split; [reflexivity|]; apply Unch; intros; lia|].
    destruct (Z.ltb_spec 255 id) as [G|G]; [right; right; split; [lia|]; split; [reflexivity|]; apply Unch; intros; lia|].
    rewrite get_in by lia. rewrite I3 by lia. replace (128 + (id - 128)) with id by lia. destruct (first_for_code l id) as [s|] eqn:F; cbn [of_first].
    + right. left. exists s. split; [lia|]. split; [reflexivity|]. split; [reflexivity|]. apply Unch. intros c Fc _ ->. congruence.
    + left. split; [lia|]. split; [reflexivity|]. rewrite put_in by lia. eexists. split; [reflexivity|]. apply K; try reflexivity; cbn [user_errors user_successes size entry]; try assumption.
      * intros i Hi. rewrite first_code_snoc, I2 by exact Hi. apply Same. intros _. lia.
      * intros i Hi. rewrite first_code_snoc. destruct (Z.eqb_spec i (id - 128)) as [->|N].
        -- replace (128 + (id - 128)) with id by lia. rewrite F. destruct x; cbn [first_for_code]; [reflexivity|]. rewrite Z.eqb_refl. reflexivity.
        -- rewrite I3 by exact Hi. apply Same. intros _. lia.
Qed.
Lemma history_Inv l r : history l r -> Inv l r.
Proof.
  induction 1 as [|l r c r' result H IH E].
  - unfold Inv, at_start. cbn. repeat split; reflexivity.
  - destruct c as [id x|id x]; cbn [register] in E.
    + destruct (source_step l r id x IH) as [(_ & _ & r2 & E2 & I2)|[(s & _ & _ & E2 & I2)|(_ & E2 & I2)]]; rewrite E2 in E; injection E as <- <-; exact I2.
    + destruct (code_step l r id x IH) as [(_ & _ & r2 & E2 & I2)|[(s & _ & _ & E2 & I2)|(_ & E2 & I2)]]; rewrite E2 in E; injection E as <- <-; exact I2.
Qed.

(** Registering: an identifier of the library's, or none at all, is refused; a text that is there is never replaced; otherwise it is
    taken.  Whatever was registered before, no array is left. *)
Theorem C77_register l r : history l r -> forall id x,
  (exists r', source_string_set r id x = Some (r', E_OK) /\ user_source id /\ first_for_source l id = None \/
              r' = r /\ source_string_set r id x = Some (r', E_ALREADY_PRESENT) /\ user_source id /\ first_for_source l id <> None \/
              r' = r /\ source_string_set r id x = Some (r', E_INVALID_ARG) /\ ~ user_source id) /\
  (exists r', error_string_set r id x = Some (r', E_OK) /\ (user_error id \/ user_success id) /\ first_for_code l id = None \/
              r' = r /\ error_string_set r id x = Some (r', E_ALREADY_PRESENT) /\ (user_error id \/ user_success id) /\ first_for_code l id <> None \/
              r' = r /\ error_string_set r id x = Some (r', E_INVALID_ARG) /\ ~ (user_error id \/ user_success id)).
Proof.
  intros H id x. apply history_Inv in H. split.
  - destruct (source_step l r id x H) as [(U & F & r2 & E & _)|[(s & U & F & E & _)|(U & E & _)]].
    + exists r2. left. split; [exact E|]. split; assumption.
    + exists r. right. left. rewrite F. repeat split; try assumption; try discriminate; apply U.
    + exists r. right. right. repeat split; assumption.
  - destruct (code_step l r id x H) as [(U & F & r2 & E & _)|[(s & U & F & E & _)|(U & E & _)]].
    + exists r2. left. split; [exact E|]. split; assumption.
    + exists r. right. left. rewrite F. repeat split; try assumption; try discriminate.
    + exists r. right. right. repeat split; assumption.
Qed.
Print Assumptions C77_register.

Lemma switch_none cases i : (forall c, In c cases -> fst c <> i) -> switch cases i = None.
Proof. intros H. unfold switch. destruct (find _ cases) as [c|] eqn:E; [|reflexivity]. apply find_some in E as [In E]. apply Z.eqb_eq in E. destruct (H c In E). Qed.
Lemma messages_range i : i <= -128 \/ 128 <= i -> switch messages i = None /\ switch names i = None.
Proof. intros H. split; apply switch_none; intros c Hc; cbn [messages names In] in Hc; repeat (destruct Hc as [<-|Hc]; [cbn [fst]; lia|]); contradiction. Qed.
Lemma sources_range i : 12 <= i -> switch sources i = None.
Proof. intros H. apply switch_none; intros c Hc; cbn [sources In] in Hc; repeat (destruct Hc as [<-|Hc]; [cbn [fst]; lia|]); contradiction. Qed.

(** Rendering an error of the application: the first text it registered for it, whatever else was registered or refused. *)
Theorem C77_error_partial l r : history l r -> forall src line c, 0 <= src <= 127 -> 1 <= line <= 65535 -> user_error c ->
  let e := error_encode src line c in
  let t := match first_for_code l c with Some s => Text s | None => Text "unknown user defined error code" end in
  errcode_error_string r e = Some t /\ errcode_error_name r e = Some t.
Proof.
  intros H src line c Hs Hl U e t. apply history_Inv in H as (Z1 & Z2 & Z3 & I1 & I2 & I3 & I4). unfold user_error in U.
  assert (D : decode_error_code e = c) by (apply decode_code; lia). destruct (messages_range c ltac:(lia)) as [M N].
  assert (R : errcode_error_string r e = Some t).
  { unfold errcode_error_string. rewrite D, M. unfold ERROR_USER_BASE. destruct (Z.leb_spec c (-128)); [|lia]. rewrite get_in by lia. rewrite I2 by lia. replace (-128 - - (c - -128)) with c by lia.
    unfold t. destruct (first_for_code l c); reflexivity. }
  split; [exact R|]. unfold errcode_error_name. rewrite D, N. exact R.
Qed.
Print Assumptions C77_error_partial.
(** Rendering a success of the application that it registered no text for. *)
Theorem C77_success_partial l r : history l r -> forall src line c, 0 <= src <= 127 -> 1 <= line <= 65535 -> user_success c -> first_for_code l c = None ->
  let e := error_encode src line c in
  errcode_error_string r e = Some (Text "unknown user defined success code") /\ errcode_error_name r e = Some (Text "unknown user defined success code").
Proof.
  intros H src line c Hs Hl U F e. apply history_Inv in H as (Z1 & Z2 & Z3 & I1 & I2 & I3 & I4). unfold user_success in U.
  assert (D : decode_error_code e = c) by (apply decode_code; lia). destruct (messages_range c ltac:(lia)) as [M N].
  assert (R : errcode_error_string r e = Some (Text "unknown user defined success code")).
  { unfold errcode_error_string. rewrite D, M. unfold ERROR_USER_BASE, SUCCESS_USER_BASE. destruct (Z.leb_spec c (-128)); [lia|]. destruct (Z.leb_spec 128 c); [|lia]. rewrite get_in by lia. rewrite I3 by lia. replace (128 + (c - 128)) with c by lia.
    rewrite F. reflexivity. }
  split; [exact R|]. unfold errcode_error_name. rewrite D, N. exact R.
Qed.
Print Assumptions C77_success_partial.
(** Rendering a registered success: never its text, but the one registered for the error of the same size, or a null pointer (line 227
    returns an entry of the other table).  Printing it with "%s" is undefined. *)
Theorem C77_success_refuted l r : history l r -> forall src line c, 0 <= src <= 127 -> 1 <= line <= 65535 -> user_success c -> first_for_code l c <> None ->
  errcode_error_string r (error_encode src line c) = Some (match first_for_code l (- c) with Some s => Text s | None => Null end).
Proof.
  intros H src line c Hs Hl U F. apply history_Inv in H as (Z1 & Z2 & Z3 & I1 & I2 & I3 & I4). unfold user_success in U. unfold errcode_error_string.
  rewrite decode_code by lia. destruct (messages_range c ltac:(lia)) as [M _]. rewrite M.
  unfold ERROR_USER_BASE, SUCCESS_USER_BASE. destruct (Z.leb_spec c (-128)); [lia|]. destruct (Z.leb_spec 128 c); [|lia]. rewrite get_in by lia. rewrite I3 by lia. replace (128 + (c - 128)) with c by lia.
  destruct (first_for_code l c); [|contradiction]. cbn [of_first]. rewrite get_in by lia. rewrite I2 by lia. replace (-128 - (c - 128)) with (- c) by lia. reflexivity.
Qed.
Print Assumptions C77_success_refuted.
(** Rendering the source file. *)
Theorem C77_source l r : history l r -> forall src line c, user_source src -> 1 <= line <= 65535 -> -255 <= c <= 255 ->
  errcode_source_string r (error_encode src line c) = Some (Text (match first_for_source l src with Some s => s | None => "unknown user defined source" end)).
Proof.
  intros H src line c U Hl Hc. apply history_Inv in H as (Z1 & Z2 & Z3 & I1 & I2 & I3 & I4). unfold user_source in U. unfold errcode_source_string.
  rewrite decode_src by lia. rewrite sources_range by lia. unfold SOURCE_USER_BASE. destruct (Z.leb_spec 112 src); [|lia]. rewrite get_in by lia. rewrite I1 by lia. replace (112 + (src - 112)) with src by lia.
  destruct (first_for_source l src); reflexivity.
Qed.
Print Assumptions C77_source.

(** The codes of the library: no registration changes their texts, and each has its own, so that the code can be told from the text. *)
Definition library_codes : list Z := map Z.of_nat (seq 0 9) ++ map (fun n => - Z.of_nat n) (seq 1 41).
Lemma library_range c : In c library_codes <-> -41 <= c <= 8.
Proof.
  unfold library_codes. rewrite in_app_iff, !in_map_iff. split.
  - intros [(n & <- & Hn)|(n & <- & Hn)]; apply in_seq in Hn; lia.
  - intros H. destruct (Z.leb_spec 0 c); [left; exists (Z.to_nat c)|right; exists (Z.to_nat (- c))]; rewrite in_seq; lia.
Qed.
Definition distinct_on (f : Z -> option string) : bool :=
  forallb (fun c => forallb (fun d => match f c, f d with Some s, Some t => (c =? d) || negb (String.eqb s t) | _, _ => false end) library_codes) library_codes.
Lemma distinct_spec f : distinct_on f = true -> forall c d, -41 <= c <= 8 -> -41 <= d <= 8 -> exists s t, f c = Some s /\ f d = Some t /\ (s = t -> c = d).
Proof.
  intros H c d Hc Hd. unfold distinct_on in H. rewrite forallb_forall in H. specialize (H c (proj2 (library_range c) Hc)). rewrite forallb_forall in H. specialize (H d (proj2 (library_range d) Hd)).
  destruct (f c) as [s|]; [|discriminate]. destruct (f d) as [t|]; [|discriminate]. exists s, t. split; [reflexivity|]. split; [reflexivity|]. intros ->.
  rewrite String.eqb_refl, orb_false_r in H. apply Z.eqb_eq. exact H.
Qed.
Theorem C77_library r : forall src line c src' line' c', 0 <= src <= 127 -> 1 <= line <= 65535 -> 0 <= src' <= 127 -> 1 <= line' <= 65535 -> -41 <= c <= 8 -> -41 <= c' <= 8 ->
  (exists s s', (forall r', errcode_error_string r' (error_encode src line c) = Some (Text s)) /\ errcode_error_string r (error_encode src' line' c') = Some (Text s') /\ (s = s' <-> c = c')) /\
  (exists s s', (forall r', errcode_error_name r' (error_encode src line c) = Some (Text s)) /\ errcode_error_name r (error_encode src' line' c') = Some (Text s') /\ (s = s' <-> c = c')).
Proof.
  intros src line c src' line' c' H1 H2 H3 H4 H5 H6. split.
  - destruct (distinct_spec (switch messages) ltac:(vm_compute; reflexivity) c c' H5 H6) as (s & t & E & E' & D). exists s, t. unfold errcode_error_string. rewrite !decode_code by lia. rewrite E, E'.
    split; [reflexivity|]. split; [reflexivity|]. split; [exact D|]. intros ->. congruence.
  - destruct (distinct_spec (switch names) ltac:(vm_compute; reflexivity) c c' H5 H6) as (s & t & E & E' & D). exists s, t. unfold errcode_error_name. rewrite !decode_code by lia. rewrite E, E'.
    split; [reflexivity|]. split; [reflexivity|]. split; [exact D|]. intros ->. congruence.
Qed.
Print Assumptions C77_library.
Theorem C77_library_sources r : forall src line c src' line' c', 0 <= src <= 11 -> 1 <= line <= 65535 -> 0 <= src' <= 11 -> 1 <= line' <= 65535 -> -255 <= c <= 255 -> -255 <= c' <= 255 ->
  exists s s', (forall r', errcode_source_string r' (error_encode src line c) = Some (Text s)) /\ errcode_source_string r (error_encode src' line' c') = Some (Text s') /\ (s = s' <-> src = src').
Proof.
  intros src line c src' line' c' H1 H2 H3 H4 H5 H6. unfold errcode_source_string. rewrite (decode_src src'), (decode_src src) by lia.
  assert (E : forall a b, 0 <= a <= 11 -> 0 <= b <= 11 -> exists s t, switch sources a = Some s /\ switch sources b = Some t /\ (s = t -> a = b)).
  { assert (G : forallb (fun a => forallb (fun b => match switch sources a, switch sources b with Some s, Some t => (a =? b) || negb (String.eqb s t) | _, _ => false end) (map Z.of_nat (seq 0 12))) (map Z.of_nat (seq 0 12)) = true) by (vm_compute; reflexivity).
    intros a b Ha Hb. rewrite forallb_forall in G. specialize (G a ltac:(apply in_map_iff; exists (Z.to_nat a); rewrite in_seq; lia)). rewrite forallb_forall in G. specialize (G b ltac:(apply in_map_iff; exists (Z.to_nat b); rewrite in_seq; lia)).
    destruct (switch sources a) as [s|]; [|discriminate]. destruct (switch sources b) as [t|]; [|discriminate]. exists s, t. split; [reflexivity|]. split; [reflexivity|]. intros ->.
    rewrite String.eqb_refl, orb_false_r in G. apply Z.eqb_eq. exact G. }
  destruct (E src src' H1 H3) as (s & t & E1 & E2 & D). rewrite E1, E2. exists s, t. split; [reflexivity|]. split; [reflexivity|]. split; [exact D|]. intros <-. congruence.
Qed.
Print Assumptions C77_library_sources.

(** Whatever was registered and whatever 32-bit result is rendered (but for the smallest one, which the decoding cannot negate: C43), no
    array is left; and if it is not a registered success, what is returned is a text, never a null pointer. *)
Theorem C77_safe l r : history l r -> forall e, -2147483648 < e < 2147483648 ->
  (exists s, errcode_source_string r e = Some (Text s)) /\
  (exists t, errcode_error_string r e = Some t /\ (t = Null -> user_success (decode_error_code e) /\ first_for_code l (decode_error_code e) <> None)) /\
  (exists t, errcode_error_name r e = Some t /\ (t = Null -> user_success (decode_error_code e) /\ first_for_code l (decode_error_code e) <> None)).
Proof.
  intros H e He. apply history_Inv in H as (Z1 & Z2 & Z3 & I1 & I2 & I3 & I4).
  assert (D1 : 0 <= decode_source_id e <= 127).
  { rewrite decode_source_id_eq. destruct (Z.ltb_spec e 0).
    - split; [apply Z.div_pos; lia|]. apply Z.lt_succ_r. apply Z.div_lt_upper_bound; lia.
    - split; [apply Z.div_pos; lia|]. apply Z.lt_succ_r. apply Z.div_lt_upper_bound; lia. }
  assert (D2 : -255 <= decode_error_code e <= 255) by (rewrite decode_error_code_eq; pose proof (Z.mod_pos_bound (- e) 256); pose proof (Z.mod_pos_bound e 256); destruct (e <? 0); lia).
  assert (S : exists t, errcode_error_string r e = Some t /\ (t = Null -> user_success (decode_error_code e) /\ first_for_code l (decode_error_code e) <> None)).
  { unfold errcode_error_string. cbv zeta. set (c := decode_error_code e) in *. destruct (switch messages c); [eexists; split; [reflexivity|discriminate]|].
    unfold ERROR_USER_BASE, SUCCESS_USER_BASE. destruct (Z.leb_spec c (-128)).
    - rewrite get_in by lia. destruct (entry _ _); eexists; (split; [reflexivity|discriminate]).
    - destruct (Z.leb_spec 128 c).
      + rewrite (get_in (user_successes r)) by lia. destruct (entry (user_successes r) (c - 128)) eqn:En; [eexists; split; [reflexivity|discriminate]|].
        rewrite get_in by lia. eexists. split; [reflexivity|]. intros _. split; [unfold user_success; lia|]. rewrite I3 in En by lia. replace (128 + (c - 128)) with c in En by lia. intros F. rewrite F in En. discriminate.
      + destruct (0 <=? c); eexists; (split; [reflexivity|discriminate]). }
  split; [|split; [exact S|]].
  - unfold errcode_source_string. cbv zeta. destruct (switch sources _); [eexists; reflexivity|]. unfold SOURCE_USER_BASE. destruct (Z.leb_spec 112 (decode_source_id e)); [|eexists; reflexivity].
    rewrite get_in by lia. destruct (entry _ _); eexists; reflexivity.
  - unfold errcode_error_name. destruct (switch names _); [eexists; split; [reflexivity|discriminate]|exact S].
Qed.
Print Assumptions C77_safe.

(** An application with two sources, an error and two successes, some of them registered twice. *)
Definition registrations : list registration :=
  [ForSource 112 (Text "main.c"); ForCode (-128) (Text "no fuel"); ForCode 200 (Text "half full"); ForSource 112 (Text "other.c"); ForCode (-128) (Text "late"); ForCode (-5) (Text "mine"); ForCode 128 (Text "full")].
Fixpoint run (l : list registration) (r : registry) : option registry :=
  match l with [] => Some r | c :: l => match register r c with Some (r, _) => run l r | None => None end end.
Lemma run_history l : forall l0 r, history l0 r -> forall r', run l r = Some r' -> history (l0 ++ l) r'.
Proof.
  induction l as [|c l IH]; intros l0 r H r' E; cbn [run] in E; [injection E as <-; rewrite app_nil_r; exact H|].
  destruct (register r c) as [[r1 z]|] eqn:R; [|discriminate]. replace (l0 ++ c :: l)%list with ((l0 ++ [c]) ++ l)%list by (rewrite <- app_assoc; reflexivity).
  eapply IH; [|exact E]. econstructor; [exact H|exact R].
Qed.
Example C77_hyps : exists r, history registrations r /\
  errcode_error_string r (error_encode 112 77 (-128)) = Some (Text "no fuel") /\ errcode_source_string r (error_encode 112 77 (-128)) = Some (Text "main.c") /\
  errcode_error_string r (error_encode 5 77 (-5)) = Some (Text "Host system resource exhausted/failed, normal error (recoverable)") /\
  errcode_error_string r (error_encode 112 77 200) = Some Null /\ errcode_error_string r (error_encode 112 77 128) = Some (Text "no fuel").
Proof.
  eexists. split; [apply (run_history registrations [] at_start history_nil); reflexivity|]. repeat split; vm_compute; reflexivity.
Qed.
