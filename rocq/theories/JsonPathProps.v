(** C75: a path leads to the value it names. *)
Require Import ZArith List Bool Lia.
From Verif Require Import Dom JsonPath JsonPathSpec.
Import ListNotations.
Open Scope Z_scope.
Local Open Scope list_scope.

Lemma token_text t c r : Forall (fun c => c <> 0 /\ c <> 47) t -> c = 0 \/ c = 47 -> token (t ++ c :: r) = Some (t, c :: r).
Proof.
  intros F C. induction F as [|x t (A & B) F IH]; cbn [app token].
  - destruct C as [-> | ->]; reflexivity.
  - destruct (Z.eqb_spec x 0); [contradiction|]. destruct (Z.eqb_spec x SLASH); [contradiction|]. cbn [orb]. rewrite IH. reflexivity.
Qed.
Lemma value_le : forall d a b, Forall digit d -> a <= b -> value_of d a <= value_of d b.
Proof. intros d a b F. revert a b. induction F as [|c d D F IH]; intros a b L; cbn [value_of]; [exact L|]. apply IH. lia. Qed.
Lemma value_ge : forall d a, Forall digit d -> 0 <= a -> a <= value_of d a.
Proof. intros d a F. revert a. induction F as [|c d D F IH]; intros a L; cbn [value_of]; [lia|]. unfold digit in D. specialize (IH (a * 10 + (c - 48))). lia. Qed.
Lemma number_digits : forall d a r, Forall digit d -> 0 <= a -> value_of d a < 2 ^ 64 -> number (d ++ CLOSE :: r) a = Some (value_of d a, CLOSE :: r).
Proof.
  intros d a r F. revert a. induction F as [|c d D F IH]; intros a A U; cbn [app number value_of] in *; [reflexivity|]. unfold digit in D.
  destruct (Z.leb_spec 48 c); [|lia]. destruct (Z.leb_spec c 57); [|lia]. cbn [andb].
  pose proof (value_ge d (a * 10 + (c - 48)) F ltac:(lia)). rewrite Z.mod_small by lia. apply IH; lia.
Qed.
Lemma text_clean x : proper x -> Forall (fun c => c <> 0 /\ c <> 47) (text_of x).
Proof.
  destruct x as [k|d|]; cbn [proper text_of]; [|intros (_ & F & _)|constructor].
  - intros [_ F]. eapply Forall_impl; [|exact F]. cbn. tauto.
  - cbn [app]. constructor; [lia|]. apply Forall_app. split; [eapply Forall_impl; [|exact F]; unfold digit; intros; lia|]. repeat constructor; lia.
Qed.
Lemma not_bracketed k : Forall (fun c => c <> 0 /\ c <> 47 /\ c <> 91 /\ c <> 93) k -> bracketed k = false.
Proof.
  intros F. unfold bracketed. destruct k as [|c k]; [reflexivity|]. inversion F as [|? ? (A & B & C & D) ?]; subst. cbn [nth].
  destruct (Z.eqb_spec c OPEN); [contradiction|]. rewrite andb_false_r. reflexivity.
Qed.
Lemma is_bracketed d : d <> [] -> bracketed ([91] ++ d ++ [93]) = true.
Proof.
  intros N. unfold bracketed. destruct d as [|c d]; [contradiction|]. rewrite !app_assoc, last_last. rewrite !app_length. cbn [length nth app].
  destruct (Nat.ltb_spec 2 (1 + S (length d) + 1)); [reflexivity|lia].
Qed.
Lemma get_app : forall p q v, get v (p ++ q) = match get v p with Some w => get w q | None => None end.
Proof.
  induction p as [|s p IH]; intros q v; [reflexivity|]. cbn [app get]. destruct s as [n|k]; destruct v; try reflexivity.
  - destruct (nth_error elements n); [apply IH|reflexivity].
  - destruct (item_of k items); [apply IH|reflexivity].
Qed.
(** One part, then what follows. *)
Definition sels (x : part) : loc := way_of [x].
Lemma walk_part fuel x c r p v : proper x -> c = 0 \/ c = 47 ->
  walk (S fuel) (text_of x ++ c :: r) p v =
  match get v (sels x) with
  | None => Some None
  | Some w => if c =? 0 then Some (Some (p ++ sels x)) else walk fuel r (p ++ sels x) w
  end.
Proof.
  intros P C. cbn [walk]. rewrite (token_text _ c r (text_clean x P) C). unfold sels, way_of. cbn [flat_map]. rewrite app_nil_r. destruct x as [k|d|]; cbn [text_of] in *.
  - destruct P as [N F]. rewrite (not_bracketed k F). destruct (Nat.ltb_spec 0 (length k)); [|destruct k; [contradiction|cbn in *; lia]].
    cbn [get]. unfold dict_get_. destruct v; try reflexivity. destruct (item_of k items); reflexivity.
  - destruct P as (N & F & U). rewrite (is_bracketed d N). replace (tl (([91] ++ d ++ [93]) ++ c :: r)) with (d ++ CLOSE :: c :: r) by (cbn; rewrite <- app_assoc; reflexivity).
    rewrite number_digits by (try assumption; lia). rewrite Z.eqb_refl. cbn [get]. unfold array_get. destruct v; try reflexivity.
    pose proof (value_ge d 0 F ltac:(lia)). destruct (Z.ltb_spec (value_of d 0) (Z.of_nat (length elements))) as [L|L].
    + destruct (nth_error elements (Z.to_nat (value_of d 0))); reflexivity.
    + replace (nth_error elements (Z.to_nat (value_of d 0))) with (@None dv); [reflexivity|]. symmetry. apply nth_error_None. lia.
  - cbn [bracketed length Nat.ltb Nat.leb andb get]. rewrite app_nil_r. reflexivity.
Qed.
Lemma join_cons t l : l <> [] -> join (t :: l) = t ++ [47] ++ join l.
Proof. destruct l; [contradiction|reflexivity]. Qed.
Lemma walk_parts : forall l fuel p v junk, l <> [] -> Forall proper l -> (length l <= fuel)%nat ->
  walk fuel (path_text l ++ 0 :: junk) p v = Some (match get v (way_of l) with Some _ => Some (p ++ way_of l) | None => None end).
Proof.
  induction l as [|x l IH]; intros fuel p v junk N F L; [contradiction|]. inversion F as [|? ? P F']; subst. destruct fuel as [|fuel]; [cbn in L; lia|].
  assert (W : way_of (x :: l) = sels x ++ way_of l) by (unfold sels, way_of; cbn [flat_map]; rewrite app_nil_r; reflexivity).
  destruct l as [|y l].
  - change (path_text [x]) with (text_of x). rewrite walk_part by (try assumption; left; reflexivity). cbn [Z.eqb]. rewrite W. change (way_of []) with (@nil sel). rewrite app_nil_r. destruct (get v (sels x)); reflexivity.
  - unfold path_text. cbn [map]. rewrite join_cons by discriminate. rewrite <- !app_assoc. cbn [app].
    rewrite walk_part by (try assumption; right; reflexivity). cbn [Z.eqb]. rewrite W, get_app. destruct (get v (sels x)) as [w|]; [|reflexivity].
    change (join (text_of y :: map text_of l)) with (path_text (y :: l)). rewrite IH by (try assumption; try discriminate; cbn [length] in *; lia). rewrite app_assoc. reflexivity.
Qed.
Lemma join_length : forall l : list (list Z), l <> [] -> (length l <= S (length (join l)))%nat.
Proof.
  induction l as [|t l IH]; intros N; [contradiction|]. destruct l as [|u l]; [cbn; lia|]. rewrite join_cons by discriminate. rewrite !app_length. specialize (IH ltac:(discriminate)). cbn [length] in *. lia.
Qed.

(** For every document and every path made of keys and indices separated by slashes (with empty parts, and numbers with leading zeros,
    allowed), the answer is a pointer to the value at the end of the way, or NULL if the way leads nowhere; whatever comes after the text.
    Missing from the header's description: "foo[4]" for "foo/[4]", negative indices; see below. *)
Theorem C75_path_partial root parts junk : Forall proper parts -> json_value_path root (path_text parts ++ 0 :: junk) = Some (leads_to root parts).
Proof.
  intros F. unfold json_value_path, leads_to. destruct parts as [|x l].
  - change (path_text []) with (text_of Nothing). rewrite walk_part by (try exact I; left; reflexivity). reflexivity.
  - rewrite walk_parts; [cbn [app]; destruct (get root _); reflexivity|discriminate|exact F|].
    rewrite app_length. assert (J := join_length (map text_of (x :: l)) ltac:(discriminate)). rewrite map_length in J. unfold path_text. cbn [length] in *. lia.
Qed.
Print Assumptions C75_path_partial.

Lemma token_some : forall m, In 0 m -> exists t c r, token m = Some (t, c :: r) /\ m = t ++ c :: r /\ (c = 0 \/ c = 47 /\ In 0 r) /\ Forall (fun c => c <> 0 /\ c <> 47) t.
Proof.
  induction m as [|x m IH]; intros I; [destruct I|]. cbn [token]. destruct (Z.eqb_spec x 0) as [-> |NZ].
  - exists [], 0, m. repeat split; [left; reflexivity|constructor].
  - destruct (Z.eqb_spec x SLASH) as [-> |NS]; cbn [orb].
    + exists [], SLASH, m. repeat split; [|constructor]. right. split; [reflexivity|]. destruct I as [I|I]; [discriminate I|exact I].
    + destruct I as [I|I]; [congruence|]. destruct (IH I) as (t & c & r & -> & E & C & F). exists (x :: t), c, r. repeat split; [rewrite E; reflexivity|exact C|]. constructor; [split; assumption|exact F].
Qed.
Lemma number_some : forall m a, In 0 m -> exists i c r, number m a = Some (i, c :: r).
Proof.
  induction m as [|x m IH]; intros a I; [destruct I|]. cbn [number]. destruct ((48 <=? x) && (x <=? 57)) eqn:D.
  - destruct I as [-> |I]; [discriminate D|]. apply IH. exact I.
  - exists a, x, m. reflexivity.
Qed.

(** Whatever the text of the path, as long as it ends with a zero byte, and whatever the document: nothing behind the text is read, the
    call returns, and a pointer it returns points to a value of the document. *)
Theorem C75_safe root path : In 0 path -> exists r, json_value_path root path = Some r /\ forall p, r = Some p -> exists v, get root p = Some v.
Proof.
  intros I. unfold json_value_path.
  assert (G : forall fuel m p v, In 0 m -> (length m < fuel)%nat -> get root p = Some v -> exists r, walk fuel m p v = Some r /\ forall q, r = Some q -> exists w, get root q = Some w).
  2: { apply G; [exact I|lia|reflexivity]. }
  clear path I. induction fuel as [|fuel IH]; intros m p v I L P; [lia|]. cbn [walk].
  destruct (token_some m I) as (t & c & r & E & M & C & F). rewrite E.
  assert (NX : forall o, (forall s w, o = Some (s, w) -> get v [s] = Some w) -> exists r0,
     match o with None => Some None | Some (s, v0) => if c =? 0 then Some (Some (p ++ [s])) else walk fuel r (p ++ [s]) v0 end = Some r0 /\ forall q, r0 = Some q -> exists w, get root q = Some w).
  { intros [[s w]|] O; [|eexists; split; [reflexivity|discriminate]]. specialize (O s w eq_refl).
    assert (PS : get root (p ++ [s]) = Some w) by (rewrite get_app, P; exact O).
    destruct C as [-> |[-> I0]]; [eexists; split; [reflexivity|]; intros q Q; injection Q as <-; exists w; exact PS|]. cbn [Z.eqb].
    apply IH; [exact I0|rewrite M, app_length in L; cbn [length] in L; lia|exact PS]. }
  destruct (bracketed t) eqn:B.
  - destruct t as [|x t]; [discriminate B|]. assert (I1 : In 0 (tl m)).
    { rewrite M. cbn [app tl]. apply in_or_app. right. destruct C as [-> |[_ I0]]; [left; reflexivity|right; exact I0]. }
    destruct (number_some (tl m) 0 I1) as (i & d & r' & ->). destruct (d =? CLOSE); [|eexists; split; [reflexivity|discriminate]].
    apply NX. intros s w A. unfold array_get in A. destruct v; try discriminate A. destruct (i <? _); [|discriminate A]. destruct (nth_error elements (Z.to_nat i)) eqn:NE; [|discriminate A]. injection A as <- <-. cbn [get]. rewrite NE. reflexivity.
  - destruct (Nat.ltb 0 (length t)).
    + apply NX. intros s w A. unfold dict_get_ in A. destruct v; try discriminate A. destruct (item_of t items) eqn:NE; [|discriminate A]. injection A as <- <-. cbn [get]. rewrite NE. reflexivity.
    + destruct C as [-> |[-> I0]]; [eexists; split; [reflexivity|]; intros q Q; injection Q as <-; exists v; exact P|]. cbn [Z.eqb].
      apply IH; [exact I0|rewrite M, app_length in L; cbn [length] in L; lia|exact P].
Qed.
Print Assumptions C75_safe.

(** The document {"foo": [7, 8], "foo[1]": true}. *)
Definition doc : dv := DDict false [([102; 111; 111], DArray [DInt32 7; DInt32 8]); ([102; 111; 111; 91; 49; 93], DBool true)].
(** "Paths "foo/[4]" and "foo[4]" are treated as equivalent": they are not. *)
Theorem C75_adjacent_refuted : exists root, json_value_path root [102; 111; 111; 47; 91; 49; 93; 0] <> json_value_path root [102; 111; 111; 91; 49; 93; 0].
Proof. exists doc. vm_compute. discriminate. Qed.
Print Assumptions C75_adjacent_refuted.
(** "'[-1]' refers to the last element in the array": it refers to nothing. *)
Theorem C75_negative_refuted root : json_value_path root [91; 45; 49; 93; 0] = Some None.
Proof. destruct root; reflexivity. Qed.
Print Assumptions C75_negative_refuted.
(** "gets value with index n if root is an array having so many members, or NULL otherwise": [18446744073709551616] gets the first one. *)
Theorem C75_wraps_refuted : exists digits, Forall digit digits /\ value_of digits 0 = 2 ^ 64 /\
  forall x l, json_value_path (DArray (x :: l)) ([91] ++ digits ++ [93; 0]) = Some (Some [SIdx 0]).
Proof.
  exists [49;56;52;52;54;55;52;52;48;55;51;55;48;57;53;53;49;54;49;54]. split; [repeat constructor; cbv; congruence|]. split; [reflexivity|]. intros x l.
  unfold json_value_path. cbn [app length]. cbn [walk token Z.eqb orb SLASH Pos.eqb].
  match goal with |- context[number ?m ?a] => let r := eval vm_compute in (number m a) in change (number m a) with r end. cbv beta iota.
  match goal with |- context[bracketed ?t] => change (bracketed t) with true end. cbn [Z.eqb CLOSE Pos.eqb array_get nth_error Z.to_nat app].
  destruct (Z.ltb_spec 0 (Z.of_nat (length (x :: l)))) as [_|A]; [reflexivity|cbn [length] in A; lia].
Qed.
Print Assumptions C75_wraps_refuted.
(** What follows the number is not looked at: "[0]1]", which names no index, gets the first member. *)
Theorem C75_trailing_refuted x l : json_value_path (DArray (x :: l)) [91; 48; 93; 49; 93; 0] = Some (Some [SIdx 0]).
Proof.
  unfold json_value_path. cbn [length]. cbn [walk token Z.eqb orb SLASH Pos.eqb]. 
  match goal with |- context[number ?m ?a] => let r := eval vm_compute in (number m a) in change (number m a) with r end. cbv beta iota.
  match goal with |- context[bracketed ?t] => change (bracketed t) with true end. cbn [Z.eqb CLOSE Pos.eqb array_get nth_error Z.to_nat app].
  destruct (Z.ltb_spec 0 (Z.of_nat (length (x :: l)))) as [_|A]; [reflexivity|cbn [length] in A; lia].
Qed.
Print Assumptions C75_trailing_refuted.

(** Concrete paths: "foo//[01]" and "foo/[2]". *)
Example C75_finds : Forall proper [Key [102; 111; 111]; Nothing; Index [48; 49]] /\
  path_text [Key [102; 111; 111]; Nothing; Index [48; 49]] = [102; 111; 111; 47; 47; 91; 48; 49; 93] /\
  leads_to doc [Key [102; 111; 111]; Nothing; Index [48; 49]] = Some [SKey [102; 111; 111]; SIdx 1] /\
  leads_to doc [Key [102; 111; 111]; Index [50]] = None /\
  json_value_path doc [102; 111; 111; 47; 47; 91; 48; 49; 93; 0] = Some (Some [SKey [102; 111; 111]; SIdx 1]).
Proof.
  split; [repeat constructor; try discriminate; cbv; congruence|]. repeat split; vm_compute; reflexivity.
Qed.
