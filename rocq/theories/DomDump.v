(** What is written down is a JSON text of the value. *)
Require Import ZArith List Bool Lia.
From Coq Require Import Sorting.Permutation Sorting.Sorted.
From Verif Require Import Table Json JsonSpec JsonGrammar JsonDump JsonDumpSpec JsonDumpProofs JsonDumpProps Dict DictSpec DictProps Dom DomSpec DomProofs DomMeaning.
Import ListNotations.
Open Scope Z_scope.
Local Set Warnings "-notation-overridden".

Lemma dv_ind' : forall P : dv -> Prop,
  P DNew -> P DNull -> (forall b, P (DBool b)) -> (forall z, P (DInt32 z)) -> (forall z, P (DUint32 z)) -> (forall z, P (DInt64 z)) -> (forall z, P (DUint64 z)) ->
  (forall l, P (DDouble l)) -> (forall s, P (DString s)) -> (forall l, Forall P l -> P (DArray l)) ->
  (forall o m, Forall (fun kx => P (snd kx)) m -> P (DDict o m)) -> forall v, P v.
Proof.
  intros P H1 H2 H3 H4 H5 H6 H7 H8 H9 HA HD. fix IH 1. intros [| |b|z|z|z|z|l|s|l|o m];
    [exact H1|exact H2|apply H3|apply H4|apply H5|apply H6|apply H7|apply H8|apply H9| |].
  - apply HA. induction l as [|v vs IHvs]; constructor; [apply IH|apply IHvs].
  - apply HD. induction m as [|[k v] ms IHms]; constructor; [apply IH|apply IHms].
Qed.

(** ** Order of keys *)
Lemma before_lt : forall a b, before a b <-> key_lt a b.
Proof. intros a b. split; induction 1; [apply kl_end|apply kl_byte; assumption|apply kl_next; assumption|apply b_end|apply b_byte; assumption|apply b_next; assumption]. Qed.
Lemma before_cmp : forall a b, before a b <-> default_cmp a b < 0.
Proof. intros a b. rewrite before_lt. symmetry. apply (proj1 (proj2 C59_default_order a b)). Qed.
Lemma before_trans : forall a b c, before a b -> before b c -> before a c.
Proof.
  intros a b c H1 H2. rewrite before_cmp in *. pose proof (cmp_trans _ (proj1 C59_default_order) a b c ltac:(lia) ltac:(lia)) as L.
  destruct (Z.eq_dec (default_cmp a c) 0) as [E|E]; [|lia]. apply (proj2 C59_default_order a c) in E. subst c. pose proof (cmp_anti _ (proj1 C59_default_order) a b) as AN. lia.
Qed.
Lemma insert_perm : forall k l, Permutation (k :: l) (insert_key k l).
Proof.
  intros k. induction l as [|a l IH]; cbn [insert_key]; [reflexivity|]. destruct (default_cmp k a <=? 0); [reflexivity|]. rewrite perm_swap, IH. reflexivity.
Qed.
Lemma sort_perm : forall l, Permutation l (sort_keys l).
Proof. induction l as [|a l IH]; cbn [sort_keys fold_right]; [constructor|]. unfold sort_keys in IH. rewrite <- insert_perm, <- IH. reflexivity. Qed.
Lemma insert_sorted : forall k l, StronglySorted before l -> ~ In k l -> StronglySorted before (insert_key k l).
Proof.
  intros k. induction 1 as [|a l SL IH F]; intros NI; cbn [insert_key]; [repeat constructor|].
  destruct (Z.leb_spec (default_cmp k a) 0) as [L|L].
  - assert (KA : before k a). { apply before_cmp. destruct (Z.eq_dec (default_cmp k a) 0) as [E|E]; [|lia]. apply (proj2 C59_default_order k a) in E. exfalso. apply NI. left. symmetry. exact E. }
    constructor; [constructor; assumption|]. constructor; [exact KA|]. eapply Forall_impl; [|exact F]. intros b. apply before_trans. exact KA.
  - assert (AK : before a k). { apply before_lt. apply (proj2 C59_default_order k a). lia. }
    constructor; [apply IH; intros X; apply NI; right; exact X|]. apply Forall_forall. intros b I. apply (Permutation_in _ (Permutation_sym (insert_perm k l))) in I. destruct I as [<- |I]; [exact AK|]. rewrite Forall_forall in F. apply F. exact I.
Qed.
Lemma sort_sorted : forall l, NoDup l -> StronglySorted before (sort_keys l).
Proof.
  induction 1 as [|a l NI ND IH]; cbn [sort_keys fold_right]; [constructor|]. apply insert_sorted; [exact IH|]. intros X. apply NI. exact (Permutation_in _ (Permutation_sym (sort_perm l)) X).
Qed.

(** ** White space *)
Lemma ws_nil : ws []. Proof. constructor. Qed.
Lemma ws_app : forall a b, ws a -> ws b -> ws (a ++ b).
Proof. intros a b A B. unfold ws in *. apply Forall_app. split; assumption. Qed.
Lemma ws_repeat : forall c n, ws_byte c -> ws (text_of c n).
Proof. intros c n W. unfold text_of. induction (Z.to_nat n); cbn [repeat]; constructor; auto. Qed.
Lemma loop_ws : forall c run n, ws_byte c -> 0 < run -> run <= 2 ^ 32 - n -> forall fuel i, 0 <= i -> n - i <= Z.of_nat fuel * run ->
  exists ps, indent_loop fuel c run n i = Ret ps /\ ws (concat ps).
Proof.
  intros c run n W R B. induction fuel as [|fuel IH]; intros i I F; cbn [indent_loop]; destruct (Z.ltb_spec i n) as [L|L]; try (exists []; split; [reflexivity|constructor]).
  - exfalso. cbn in F. lia.
  - rewrite Z.mod_small by lia. destruct (IH (i + run) ltac:(lia) ltac:(rewrite Nat2Z.inj_succ in F; nia)) as (ps & -> & Q). cbn [bind]. eexists. split; [reflexivity|]. cbn [concat]. apply ws_app; [apply ws_repeat; exact W|exact Q].
Qed.
Lemma indent_ws : forall prm h nest, fits prm h -> 0 <= nest <= h -> exists ps, indent prm nest = Ret ps /\ ws (concat ps) /\ (nest = 0 -> ps = []).
Proof.
  intros prm h nest (F1 & F2 & F3) NR. unfold indent. destruct (Z.eqb_spec nest 0) as [-> |N0]; [rewrite orb_true_r; exists []; repeat split; constructor|]. rewrite orb_false_r.
  destruct (minimize prm); [exists []; repeat split; try constructor; try lia|]. destruct (with_spaces prm).
  - assert (LE : nest * tab_width prm <= h * tab_width prm) by (apply Z.mul_le_mono_nonneg_r; lia).
    rewrite Z.mod_small by nia. set (n := nest * tab_width prm) in *. assert (P : 0 <= n) by (unfold n; nia).
    destruct (loop_ws 32 32 n (or_introl eq_refl) ltac:(lia) ltac:(lia) (S (Z.to_nat (n / 32))) 0 ltac:(lia)) as (ps & E & W).
    { rewrite Nat2Z.inj_succ, Z2Nat.id by (apply Z.div_pos; lia). pose proof (Z.div_mod n 32). pose proof (Z.mod_pos_bound n 32). lia. }
    exists ps. split; [exact E|]. split; [exact W|]. lia.
  - destruct (loop_ws 9 8 nest (or_intror (or_introl eq_refl)) ltac:(lia) ltac:(lia) (S (Z.to_nat (nest / 8))) 0 ltac:(lia)) as (ps & E & W).
    { rewrite Nat2Z.inj_succ, Z2Nat.id by (apply Z.div_pos; lia). pose proof (Z.div_mod nest 8). pose proof (Z.mod_pos_bound nest 8). lia. }
    exists ps. split; [exact E|]. split; [exact W|]. lia.
Qed.
Lemma newline_ws : forall prm, ws (concat (newline prm)).
Proof. intros prm. unfold newline. destruct (minimize prm), (force_crlf prm); cbn; unfold ws; repeat (apply Forall_cons; [unfold ws_byte; auto|]); apply Forall_nil. Qed.
Lemma height_pos : forall v, 0 <= height v.
Proof. intros [| | | | | | | | |l|o m]; cbn [height]; try lia; [induction l|induction m]; cbn [fold_right]; lia. Qed.
Lemma height_el : forall l x, In x l -> height x <= fold_right (fun x n => Z.max (height x) n) 0 l.
Proof. induction l as [|a l IH]; intros x I; [destruct I|]. cbn [fold_right]. destruct I as [-> |I]; [lia|]. specialize (IH x I). lia. Qed.
Lemma height_it : forall (m : list (list Z * dv)) kx, In kx m -> height (snd kx) <= fold_right (fun kx n => Z.max (height (snd kx)) n) 0 m.
Proof. induction m as [|a l IH]; intros x I; [destruct I|]. cbn [fold_right]. destruct I as [-> |I]; [lia|]. specialize (IH x I). lia. Qed.

Section Write.
Variable pd : list Z -> list Z.
Variable prm : dparams.
Variable h : Z.
Hypothesis FIT : fits prm h.

(** [ps] are the pieces for [v], after the white space [w]. *)
Definition written (first : bool) (v : dv) (r : out (list (list Z))) : Prop :=
  exists ps w b t, r = Ret ps /\ concat ps = w ++ b /\ ws w /\ (first = false -> w = []) /\ value b t /\ writes (prefer_order prm) v t.

Lemma elements_written : forall l rs, l <> [] -> Forall2 (written true) l rs ->
  exists ps, dump_elements prm rs = Ret ps /\
    forall w0 e, ws w0 -> ws e -> exists ts, elements (w0 ++ concat ps ++ e) ts /\ Forall2 (writes (prefer_order prm)) l ts.
Proof.
  intros l rs NE F. induction F as [|v r l rs W F IH]; [congruence|]. clear NE.
  destruct W as (px & w & b & t & -> & C & WW & _ & VB & WT). cbn [dump_elements bind].
  destruct l as [|v2 l].
  - inversion F; subst. cbn [dump_elements bind]. eexists. split; [reflexivity|]. intros w0 e W0 WE. exists [t]. split; [|repeat constructor; exact WT].
    rewrite app_nil_r. cbn [app]. rewrite concat_app, C. replace (w0 ++ ((w ++ b) ++ concat (newline prm)) ++ e) with ((w0 ++ w) ++ b ++ (concat (newline prm) ++ e)) by (rewrite <- !app_assoc; reflexivity).
    apply elements_one; [apply ws_app; assumption|exact VB|apply ws_app; [apply newline_ws|exact WE]].
  - destruct IH as (ps & E & K); [discriminate|]. rewrite E. cbn [bind]. eexists. split; [reflexivity|]. intros w0 e W0 WE.
    destruct (K (concat (newline prm)) e (newline_ws prm) WE) as (ts & EL & WS). exists (t :: ts). split; [|constructor; assumption].
    inversion F; subst. rewrite !concat_app, C. cbn [concat app].
    replace (w0 ++ ((w ++ b) ++ (44 :: concat (newline prm) ++ concat ps)) ++ e) with ((w0 ++ w) ++ b ++ [] ++ 44 :: (concat (newline prm) ++ concat ps ++ e)) by (cbn [app]; rewrite <- !app_assoc; cbn [app]; rewrite <- !app_assoc; reflexivity).
    apply elements_more; [apply ws_app; assumption|exact VB|constructor|exact EL].
Qed.

Lemma items_written : forall m' nest rendered, 0 <= nest -> nest + 1 <= h -> m' <> [] ->
  Forall (fun kx => utf8_text (fst kx) /\ exists r, printed_item (fst kx) rendered = Some r /\ written false (snd kx) r) m' ->
  exists ps, dump_items prm nest rendered (map fst m') = Ret ps /\
    forall w0 e, ws w0 -> ws e -> exists ms, members (w0 ++ concat ps ++ e) ms /\
      Forall2 (fun kx mem => key_of mem = fst kx /\ writes (prefer_order prm) (snd kx) (snd mem)) m' ms.
Proof.
  intros m' nest rendered N0 NH NE F. induction F as [|[k x] m' (UK & r & PI & W) F IH]; [congruence|]. clear NE. cbn [fst snd] in *.
  destruct W as (px & w & b & t & -> & C & _ & WW & VB & WT). rewrite (WW eq_refl) in C. cbn [app] in C. clear WW w.
  destruct (C58_strings_printed k UK) as (raw & EK & CK & _).
  destruct (indent_ws prm h (nest + 1) FIT ltac:(lia)) as (ip & EI & WI & _).
  cbn [map fst dump_items]. rewrite EI. cbn [bind]. rewrite PI. cbn [bind].
  assert (SEP : exists w3, ws w3 /\ concat [if minimize prm then [58] else [58; 32]] = 58 :: w3).
  { destruct (minimize prm); [exists []|exists [32]]; (split; [repeat constructor; unfold ws_byte; auto|reflexivity]). }
  destruct SEP as (w3 & W3 & SEP).
  destruct m' as [|kx2 m'].
  - cbn [map dump_items bind]. eexists. split; [reflexivity|]. intros w0 e W0 WE. exists [((raw, k), t)]. split; [|repeat constructor; exact WT].
    rewrite app_nil_r. rewrite !concat_app, EK, C, SEP. cbn [concat app].
    replace (w0 ++ (concat ip ++ 34 :: (raw ++ [34]) ++ 58 :: w3 ++ b ++ concat (newline prm)) ++ e)
      with ((w0 ++ concat ip) ++ 34 :: raw ++ 34 :: [] ++ 58 :: w3 ++ b ++ (concat (newline prm) ++ e)) by (cbn [app]; repeat (rewrite <- !app_assoc; cbn [app]); reflexivity).
    apply members_one; [apply ws_app; assumption|exact CK|constructor|exact W3|exact VB|apply ws_app; [apply newline_ws|exact WE]].
  - destruct IH as (ps & E & K); [discriminate|]. rewrite E. cbn [bind]. eexists. split; [reflexivity|]. intros w0 e W0 WE.
    destruct (K (concat (newline prm)) e (newline_ws prm) WE) as (ms & EL & WS). exists (((raw, k), t) :: ms). split; [|constructor; [split; [reflexivity|exact WT]|exact WS]].
    cbn [map]. rewrite !concat_app, EK, C, SEP. cbn [concat app].
    replace (w0 ++ (concat ip ++ 34 :: (raw ++ [34]) ++ 58 :: w3 ++ b ++ 44 :: concat (newline prm) ++ concat ps) ++ e)
      with ((w0 ++ concat ip) ++ 34 :: raw ++ 34 :: [] ++ 58 :: w3 ++ b ++ [] ++ 44 :: (concat (newline prm) ++ concat ps ++ e)) by (cbn [app]; repeat (rewrite <- !app_assoc; cbn [app]); reflexivity).
    apply members_more; [apply ws_app; assumption|exact CK|constructor|exact W3|exact VB|constructor|exact EL].
Qed.

Lemma printed_in : forall (f : dv -> out (list (list Z))) m k x, NoDup (map fst m) -> In (k, x) m -> printed_item k (map (fun kx => (fst kx, f (snd kx))) m) = Some (f x).
Proof.
  intros f. induction m as [|[k' y] m IH]; intros k x ND I; [destruct I|]. cbn [map fst snd printed_item] in *. inversion ND as [|? ? NI ND']; subst. rewrite cmp_eq. destruct I as [E|I].
  - injection E as -> ->. rewrite keq_refl. reflexivity.
  - destruct (keq k k') eqn:E; [|apply IH; assumption]. apply keq_spec in E. subst. exfalso. apply NI. apply in_map_iff. exists (k', x). split; [reflexivity|exact I].
Qed.

Lemma prelude : forall (first : bool) nest v, 0 <= nest -> nest + height v <= h ->
  0 <= nest <= h /\ exists ps, (if first then indent prm nest else Ret []) = Ret ps /\ ws (concat ps) /\ (first = false -> concat ps = []).
Proof.
  intros first nest v N0 NH. pose proof (height_pos v). split; [lia|]. destruct first; [|exists []; repeat split; constructor].
  destruct (indent_ws prm h nest FIT ltac:(lia)) as (ps & E & W & _). exists ps. split; [exact E|split; [exact W|discriminate]].
Qed.
Lemma value_written : forall v, writable v -> forall first nest, 0 <= nest -> nest + height v <= h -> written first v (dump_value pd prm first nest v).
Proof.
  induction v as [| |b|z|z|z|z|l|s|l H|o m H] using dv_ind'; intros WV first nest N0 NH.
  all: pose proof (prelude first nest _ N0 NH) as IND; destruct IND as (HN & ip & EI & WI & FI).
  - cbn [dump_value]. rewrite EI. cbn [bind]. eexists _, (concat ip), lit_null, VNull. split; [reflexivity|]. split; [rewrite concat_app; reflexivity|]. split; [exact WI|]. split; [exact FI|]. split; constructor.
  - cbn [dump_value]. rewrite EI. cbn [bind]. eexists _, (concat ip), lit_null, VNull. split; [reflexivity|]. split; [rewrite concat_app; reflexivity|]. split; [exact WI|]. split; [exact FI|]. split; constructor.
  - cbn [dump_value]. rewrite EI. cbn [bind]. eexists _, (concat ip), (if b then lit_true else lit_false), (if b then VTrue else VFalse). split; [reflexivity|]. split; [rewrite concat_app; cbn [concat]; rewrite app_nil_r; reflexivity|]. split; [exact WI|]. split; [exact FI|]. split; [destruct b; constructor|constructor].
  - inversion WV; subst. destruct (dump_int64_text z) as (l & E & T); [unfold int32, int64 in *; lia|]. cbn [dump_value]. rewrite EI, E. cbn [bind]. eexists _, (concat ip), l, (VNum l). split; [reflexivity|]. split; [rewrite concat_app; cbn [concat]; rewrite app_nil_r; reflexivity|]. split; [exact WI|]. split; [exact FI|]. split; [constructor; exact (text_number l z T)|constructor; exact T].
  - inversion WV; subst. destruct (dump_uint64_text z) as (l & E & T); [unfold uint32, uint64 in *; lia|]. cbn [dump_value]. rewrite EI, E. cbn [bind]. eexists _, (concat ip), l, (VNum l). split; [reflexivity|]. split; [rewrite concat_app; cbn [concat]; rewrite app_nil_r; reflexivity|]. split; [exact WI|]. split; [exact FI|]. split; [constructor; exact (text_number l z T)|constructor; exact T].
  - inversion WV; subst. destruct (dump_int64_text z) as (l & E & T); [assumption|]. cbn [dump_value]. rewrite EI, E. cbn [bind]. eexists _, (concat ip), l, (VNum l). split; [reflexivity|]. split; [rewrite concat_app; cbn [concat]; rewrite app_nil_r; reflexivity|]. split; [exact WI|]. split; [exact FI|]. split; [constructor; exact (text_number l z T)|constructor; exact T].
  - inversion WV; subst. destruct (dump_uint64_text z) as (l & E & T); [assumption|]. cbn [dump_value]. rewrite EI, E. cbn [bind]. eexists _, (concat ip), l, (VNum l). split; [reflexivity|]. split; [rewrite concat_app; cbn [concat]; rewrite app_nil_r; reflexivity|]. split; [exact WI|]. split; [exact FI|]. split; [constructor; exact (text_number l z T)|constructor; exact T].
  - inversion WV.
  - inversion WV; subst. destruct (C58_strings_printed s ltac:(assumption)) as (raw & EK & CK & VK). cbn [dump_value]. rewrite EI. cbn [bind]. eexists _, (concat ip), (concat (dump_string s)), (VStr raw s). split; [reflexivity|]. split; [rewrite concat_app; reflexivity|]. split; [exact WI|]. split; [exact FI|]. split; [exact VK|constructor].
  - inversion WV as [| | | | | | | |? WL|]; subst. cbn [dump_value]. rewrite EI. cbn [bind].
    cbn [height] in NH. destruct (indent_ws prm h nest FIT) as (ep & EE & WE & _); [pose proof (height_pos (DArray l)); cbn [height] in *; lia|].
    destruct l as [|x l].
    + cbn [map dump_elements bind]. rewrite EE. cbn [bind]. eexists _, (concat ip), (91 :: (concat (newline prm) ++ concat ep) ++ [93]), (VArr []). split; [reflexivity|]. split; [|split; [exact WI|split; [exact FI|split; [constructor; apply ws_app; [apply newline_ws|exact WE]|constructor; constructor]]]].
      rewrite concat_app. cbn [concat app]. rewrite !concat_app. cbn [concat app]. rewrite <- !app_assoc. reflexivity.
    + set (L := x :: l) in *.
      assert (F : Forall2 (written true) L (map (dump_value pd prm true (nest + 1)) L)).
      { rewrite Forall_forall in H, WL. assert (HH : forall y, In y L -> nest + 1 + height y <= h) by (intros y IY; pose proof (height_el L y IY); lia). clearbody L. clear - H WL N0 HH. induction L as [|y L IHL]; cbn [map]; constructor.
        - apply H; [left; reflexivity|apply WL; left; reflexivity|lia|]. apply HH. left. reflexivity.
        - apply IHL; intros z I; [apply H|apply WL|apply HH]; right; exact I. }
      destruct (elements_written L _ ltac:(discriminate) F) as (ps & E & K). rewrite E. cbn [bind]. rewrite EE. cbn [bind].
      destruct (K (concat (newline prm)) (concat ep) (newline_ws prm) WE) as (ts & EL & WT).
      eexists _, (concat ip), (91 :: (concat (newline prm) ++ concat ps ++ concat ep) ++ [93]), (VArr ts). split; [reflexivity|]. split; [|split; [exact WI|split; [exact FI|split; [apply value_array; exact EL|constructor; exact WT]]]].
      rewrite concat_app. cbn [concat app]. rewrite !concat_app. cbn [concat app]. rewrite <- !app_assoc. reflexivity.
  - inversion WV as [| | | | | | | | |? ? ND WM]; subst. cbn [dump_value]. rewrite EI. cbn [bind].
    cbn [height] in NH. destruct (indent_ws prm h nest FIT) as (ep & EE & WE & _); [pose proof (height_pos (DDict o m)); cbn [height] in *; lia|].
    set (keys := if prefer_order prm && o then map fst m else sort_keys (map fst m)).
    set (rendered := map (fun kx => (fst kx, dump_value pd prm false (nest + 1) (snd kx))) m).
    assert (PK : Permutation keys (map fst m)). { unfold keys. destruct (_ && _); [reflexivity|]. symmetry. apply sort_perm. }
    assert (X : exists m', Permutation m m' /\ map fst m' = keys /\ (if prefer_order prm && o then m' = m else StronglySorted before (map fst m'))).
    { unfold keys in *. destruct (prefer_order prm && o); [exists m; repeat split; reflexivity|].
      destruct (Permutation_map_inv fst m (Permutation_sym (sort_perm (map fst m)))) as (m' & EM & PM).
      exists m'. split; [exact PM|]. split; [symmetry; exact EM|]. rewrite <- EM. apply sort_sorted. exact ND. }
    destruct X as (m' & PM & MK & OR).
    assert (F : Forall (fun kx => utf8_text (fst kx) /\ exists r, printed_item (fst kx) rendered = Some r /\ written false (snd kx) r) m').
    { apply Forall_forall. intros [k x] I. apply (Permutation_in _ (Permutation_sym PM)) in I. rewrite Forall_forall in WM, H. cbn [fst snd]. split; [apply (WM (k, x) I)|].
      exists (dump_value pd prm false (nest + 1) x). split; [apply printed_in; assumption|]. apply (H (k, x) I); [apply (WM (k, x) I)|lia|]. pose proof (height_it m (k, x) I). cbn [snd] in *. lia. }
    destruct m' as [|kx m'].
    + apply Permutation_sym in PM. apply Permutation_nil in PM. subst m. assert (KE : keys = []) by (rewrite <- MK; reflexivity). rewrite KE. cbn [dump_items bind]. rewrite EE. cbn [bind].
      eexists _, (concat ip), (123 :: (concat (newline prm) ++ concat ep) ++ [125]), (VObj []). split; [reflexivity|]. split; [|split; [exact WI|split; [exact FI|split; [constructor; apply ws_app; [apply newline_ws|exact WE]|]]]].
      * rewrite concat_app. cbn [concat app]. rewrite !concat_app. cbn [concat app]. rewrite <- !app_assoc. reflexivity.
      * apply (wr_dict _ o [] [] []); [constructor|destruct (_ && _); [reflexivity|constructor]|constructor].
    + set (M' := kx :: m') in *.
      assert (N1 : nest + 1 <= h). { assert (IX : In kx m) by (apply (Permutation_in _ (Permutation_sym PM)); left; reflexivity). pose proof (height_it m kx IX). pose proof (height_pos (snd kx)). lia. }
      destruct (items_written M' nest rendered N0 N1 ltac:(discriminate) F) as (ps & E & K). rewrite MK in E. rewrite E. cbn [bind]. rewrite EE. cbn [bind].
      destruct (K (concat (newline prm)) (concat ep) (newline_ws prm) WE) as (ts & EL & WT).
      eexists _, (concat ip), (123 :: (concat (newline prm) ++ concat ps ++ concat ep) ++ [125]), (VObj ts). split; [reflexivity|]. split; [|split; [exact WI|split; [exact FI|split; [apply value_object; exact EL|]]]].
      * rewrite concat_app. cbn [concat app]. rewrite !concat_app. cbn [concat app]. rewrite <- !app_assoc. reflexivity.
      * apply (wr_dict _ o m M' ts); assumption.
Qed.
End Write.
