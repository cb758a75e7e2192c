(** * C67: a route table dumped as JSON loads back

    [dump] (RouteJson.v) is wolfsentry_route_table_dump_json_start, _next for every route, and _end, into a buffer of [space] bytes;
    [loadable] and [insert_all] are in RouteJsonSpec.v; [load_chunks] and [callback] are the parser (Json.v) and the loader
    (Loader.v). *)
Require Import ZArith NArith List Bool String Lia.
From Verif Require Import Base Json JsonSpec JsonProps JsonGrammarProps JsonDumpSpec Convert EventConfig Itoa ItoaProps Loader LoaderSpec LoaderProps AddrText RouteJson RouteJsonSpec RouteJsonProofs RouteJsonAddr.
From Verif Require JsonText Names.
Import ListNotations.
Open Scope Z_scope.

(** For routes that can be loaded there is one text.  Every buffer at least as long as it receives it, with the rest of the space
    left; with a shorter buffer the dump does not succeed.  The text is a JSON document within the limits of the loader's parser.
    Missing: other routes (see the refutations). *)
Theorem C67_dump_partial :
  forall (W D V F : Type) (cv : converters W D V F) ntop4 ntop6 formatter family_name proto_name numeric routes,
    Forall (loadable cv ntop4 ntop6 formatter family_name proto_name numeric) routes ->
    exists t v, document t v /\ JsonSpec.within ws_cfg v /\
      forall space, 0 <= space ->
        (Z.of_nat (List.length t) <= space -> dump ntop4 ntop6 formatter family_name proto_name numeric routes space = Done (mkO t (space - Z.of_nat (List.length t)))) /\
        (space < Z.of_nat (List.length t) -> forall o, dump ntop4 ntop6 formatter family_name proto_name numeric routes space <> Done o).
Proof.
  intros W D V F cv n4 n6 fm fn pn nu rs FO.
  pose (api := Calls (fun _ _ _ w => (0, w)) (fun _ _ w => (0, w)) (fun _ _ => None) (fun _ _ _ w => (0, w)) (fun _ w => (0, w)) (fun _ w => (0, w)) (fun _ w => (0, w)) (fun _ w => (0, w)) (fun _ w => (0, w)) (fun _ _ _ _ w => (0, w)) (fun _ _ w => (0, w)) : calls W V F).
  destruct (dump_prints api cv n4 n6 fm fn pn nu rs FO) as (t & vs & F2 & DO & P). exists t, (doc_of vs). split; [exact DO|]. split; [exact (doc_within api cv n4 n6 fm fn pn nu rs vs F2)|].
  intros sp H. exact (P (mkO [] sp) H).
Qed.
Print Assumptions C67_dump_partial.

(** Such a dump, loaded in whatever pieces into whatever context, inserts the routes one after the other, each with its family,
    protocol, addresses, ports, interfaces, settings and parent event; if an insertion fails the configuration is refused. *)
Theorem C67_roundtrip_partial :
  forall (W D V F : Type) (api : calls W V F) (cv : converters W D V F) ntop4 ntop6 formatter family_name proto_name numeric routes space t left pieces defaults dom (w : W),
    (forall w, fst (a_default_event api [] w) < 0) ->
    Forall (loadable cv ntop4 ntop6 formatter family_name proto_name numeric) routes -> 0 <= space ->
    dump ntop4 ntop6 formatter family_name proto_name numeric routes space = Done (mkO t left) -> List.concat pieces = t ->
    exists code pos x, load_chunks ws_cfg (callback api cv false) (Good (start defaults dom, w)) pieces = Some (code, pos, x) /\
      match insert_all api routes w with
      | Some w' => code = 0 /\ exists j, x = Good (j, w')
      | None => code < 0 /\ forall y, x <> Good y
      end.
Proof.
  intros W D V F api cv n4 n6 fm fn pn nu rs sp t rest0 pieces dflt dom w NE FO SP E EC.
  destruct (dump_prints api cv n4 n6 fm fn pn nu rs FO) as (t' & vs & F2 & DO & P).
  assert (ET : t = t').
  { destruct (P (mkO [] sp) SP) as [P1 P2]. cbn [o_space o_text app] in P1, P2. unfold dump in E. destruct (Z_le_gt_dec (Z.of_nat (List.length t')) sp) as [L|G].
    - specialize (P1 L). cbv beta in P1. rewrite P1 in E. congruence.
    - assert (sp < Z.of_nat (List.length t')) as LT by (clear - G; lia). destruct (P2 LT _ E). }
  subst t'. rewrite <- EC in DO.
  destruct (C63_meaning W D V F api cv false ws_cfg pieces (doc_of vs) dflt dom w NE) as (code & pos & x & L & M); [unfold config_ok; cbn; lia|left; reflexivity|exact DO|exact (doc_within api cv n4 n6 fm fn pn nu rs vs F2)|].
  exists code, pos, x. split; [exact L|]. rewrite (doc_meaning api cv rs vs F2) in M. destruct (insert_all api rs w); exact M.
Qed.
Print Assumptions C67_roundtrip_partial.

(** What the address families contribute, if the loader's conversion of addresses is convert_sockaddr_address ([by_the_loader]): no
    formatters installed by the user for these families, and inet_pton undoing inet_ntop.  Missing: MAC addresses of 64 bits and
    prefixes of MAC addresses, prefixes of CAN addresses that are not whole bytes, the local family (see the refutations). *)
Theorem C67_addresses_partial :
  forall (W D V F : Type) (cv : converters W D V F) ntop4 ntop6 formatter pton4 pton6 parser,
    by_the_loader cv pton4 pton6 parser ->
    (forall f, formatter f = None) ->
    (forall x, Forall byte x -> List.length x = 4%nat -> pton4 (ntop4 x) = Some x /\ Forall harmless (ntop4 x) /\ Z.of_nat (List.length (ntop4 x)) < 16) ->
    (forall x, Forall byte x -> List.length x = 16%nat -> pton6 (ntop6 x) = Some x /\ Forall harmless (ntop6 x) /\ Z.of_nat (List.length (ntop6 x)) < 64) ->
    forall a m, Forall byte a -> Forall byte m ->
      (List.length a = 6%nat -> prefix_ok cv ntop4 ntop6 formatter AF_LINK48 a 48) /\
      (List.length a = 6%nat -> List.length m = 6%nat -> (forall w, cv_family_bits cv w AF_LINK48 = Some 48) -> masked_ok cv ntop4 ntop6 formatter AF_LINK48 (a ++ m) 96) /\
      (forall bits, 0 <= bits <= 32 -> List.length a = bytes_of_bits bits -> prefix_ok cv ntop4 ntop6 formatter AF_INET a bits) /\
      (List.length a = 4%nat -> List.length m = 4%nat -> (forall w, cv_family_bits cv w AF_INET = Some 32) -> masked_ok cv ntop4 ntop6 formatter AF_INET (a ++ m) 64) /\
      (forall bits, 0 <= bits <= 128 -> List.length a = bytes_of_bits bits -> prefix_ok cv ntop4 ntop6 formatter AF_INET6 a bits) /\
      (forall k, (k <= 4)%nat -> List.length a = k -> prefix_ok cv ntop4 ntop6 formatter AF_CAN a (8 * Z.of_nat k)).
Proof.
  intros W D V F cv n4 n6 fm p4 p6 pa BL NF I4 I6 a m B M.
  assert (W4 : AF_INET = 2 /\ n4 = n4 /\ p4 = p4 /\ 4%nat = 4%nat /\ 16 = 16 \/ AF_INET = 10 /\ n4 = n6 /\ p4 = p6 /\ 4%nat = 16%nat /\ 16 = 64) by (left; repeat split).
  assert (W6 : AF_INET6 = 2 /\ n6 = n4 /\ p6 = p4 /\ 16%nat = 4%nat /\ 64 = 16 \/ AF_INET6 = 10 /\ n6 = n6 /\ p6 = p6 /\ 16%nat = 16%nat /\ 64 = 64) by (right; repeat split).
  split; [intros L; eapply mac_prefix; eauto|]. split; [intros L LM FB; eapply mac_masked; eauto|].
  split; [intros bits R L; eapply (inet_prefix _ _ _ _ _ _ _ BL AF_INET n4 p4 4%nat 16 W4 (NF _) I4); [exact R|exact B|exact L]|].
  split; [intros L LM FB; exact (inet_masked _ _ _ _ _ _ _ BL AF_INET n4 p4 4%nat 16 W4 (NF _) I4 a m ltac:(lia) FB B M L LM)|].
  split; [intros bits R L; eapply (inet_prefix _ _ _ _ _ _ _ BL AF_INET6 n6 p6 16%nat 64 W6 (NF _) I6); [exact R|exact B|exact L]|].
  intros k K L. eapply can_prefix; eauto.
Qed.
Print Assumptions C67_addresses_partial.

(** Where a buffer is too small for the next route the caller keeps what it has: buffer, space and position are as before the
    call, so the call can be repeated with a new buffer.  This holds for every route. *)
Theorem C67_too_small_is_undone :
  forall ntop4 ntop6 formatter family_name proto_name numeric routes n o n' o',
    dump_next ntop4 ntop6 formatter family_name proto_name numeric routes n o = Some (n', Stopped TooSmall o') -> n' = n /\ o' = o.
Proof.
  intros n4 n6 fm fn pn nu rs n o n' o'. unfold dump_next. destruct (nth_error rs n) as [r|]; [|discriminate].
  assert (WR : forall c o1, (if (n =? 0)%nat then Done o else wr [44; 10] o) = Stopped c o1 -> o1 = o).
  { intros c o1. destruct (n =? 0)%nat; [discriminate|]. unfold wr. destruct (_ <? _); [congruence|discriminate]. }
  destruct (if (n =? 0)%nat then Done o else wr [44; 10] o) as [o1|c o1|].
  - destruct (format_json _ _ _ _ _ _ r o1) as [o2|[|] o2|]; try discriminate. intros E. split; congruence.
  - intros E. specialize (WR c o1 eq_refl). split; congruence.
  - discriminate.
Qed.
Print Assumptions C67_too_small_is_undone.

(** Every route, loadable or not: what is in the buffer stays, and the space is what remains of the buffer; so a dump that succeeds
    has written into the buffer only. *)
Definition u16s (r : jroute) : Prop :=
  0 <= jr_family r < 65536 /\ 0 <= jr_proto r < 65536 /\
  Forall (fun e => 0 <= n_bits e < 65536 /\ 0 <= n_port e < 65536 /\ 0 <= n_iface e < 65536) [jr_remote r; jr_local r].
Definition adds (f : obuf -> outcome) : Prop :=
  forall o o', 0 <= o_space o -> f o = Done o' -> exists x, o_text o' = o_text o ++ x /\ o_space o' + Z.of_nat (List.length x) = o_space o /\ 0 <= o_space o'.
Lemma adds_done : adds Done.
Proof. intros o o' H E. injection E as <-. exists []. rewrite app_nil_r. cbn. split; [reflexivity|lia]. Qed.
Lemma adds_wr s : adds (wr s).
Proof. intros o o' H. unfold wr. destruct (Z.ltb_spec (o_space o) (Z.of_nat (List.length s))); [discriminate|]. intros E. assert (o' = mkO (o_text o ++ s) (o_space o - Z.of_nat (List.length s))) by congruence. subst. exists s. cbn. split; [reflexivity|lia]. Qed.
Lemma adds_itoa i : 0 <= i < 65536 -> adds (itoa i).
Proof.
  intros R o o' H. unfold itoa. destruct (C39_itoa_exact i (o_space o)) as (ds & _ & E); [unfold i32_min, i32_max; lia|lia|]. cbv zeta in E. destruct (ws_itoa i (o_space o)) as [out s|e|]; [|discriminate|discriminate].
  destruct (_ <? _) eqn:Q in E; [discriminate|]. injection E as -> ->. intros E. assert (o' = mkO (o_text o ++ (if i <? 0 then 45 :: ds else ds)) (o_space o - Z.of_nat (List.length (if i <? 0 then 45 :: ds else ds)))) by congruence. subst o'. exists (if i <? 0 then 45 :: ds else ds). cbn [o_text o_space]. split; [reflexivity|]. apply Z.ltb_ge in Q. lia.
Qed.
Lemma adds_seq f g : adds f -> adds g -> adds (fun o => f o ;; g).
Proof.
  intros A B o o' H E. destruct (f o) as [o1| |] eqn:F1; cbn [cont] in E; try discriminate. destruct (A o o1 H F1) as (x & T1 & S1 & P1). destruct (B o1 o' P1 E) as (y & T2 & S2 & P2).
  exists (x ++ y). rewrite T2, T1, app_assoc, app_length. split; [reflexivity|lia].
Qed.
Lemma adds_when (b : bool) f : adds f -> adds (fun o => if b then f o else Done o).
Proof. intros A. destruct b; [exact A|exact adds_done]. Qed.
Lemma adds_address f : adds (write_address f).
Proof. intros o o' H. destruct f as [t| | |]; cbn [write_address]; try discriminate. destruct (Z.ltb_spec (o_space o) (Z.of_nat (List.length t) + 1)); [discriminate|]. intros E. assert (o' = mkO (o_text o ++ t) (o_space o - Z.of_nat (List.length t))) by congruence. subst. exists t. cbn. split; [reflexivity|lia]. Qed.
(** the last character is taken back only if there is one that was written *)
Lemma adds_body s f u : s <> [] -> adds f -> adds (fun o => wr s o ;; f ;; unwr ;; wr u).
Proof.
  intros NE A o o' H E. destruct (wr s o) as [o1| |] eqn:E1; cbn [cont] in E; try discriminate. destruct (adds_wr s o o1 H E1) as (x1 & T1 & S1 & P1).
  assert (X1 : x1 = s). { unfold wr in E1. destruct (_ <? _) in E1; [discriminate|]. assert (Q : o_text o1 = o_text o ++ s) by (injection E1 as <-; reflexivity). rewrite T1 in Q. exact (app_inv_head _ _ _ Q). }
  subst x1. destruct (f o1) as [o2| |] eqn:E2; cbn [cont] in E; try discriminate. destruct (A o1 o2 P1 E2) as (x2 & T2 & S2 & P2). unfold unwr in E. cbn [cont] in E.
  destruct (adds_wr u (mkO (removelast (o_text o2)) (o_space o2 + 1)) o' ltac:(cbn; lia) E) as (x3 & T3 & S3 & P3). cbn [o_text o_space] in T3, S3.
  assert (N2 : s ++ x2 <> []) by (destruct s; [congruence|discriminate]). destruct (exists_last N2) as (y & c & EY).
  exists (y ++ x3). rewrite T3, T2, T1, <- app_assoc, EY, app_assoc, removelast_last, app_length. pose proof (f_equal (@List.length Z) EY) as LE. rewrite !app_length in LE. cbn [List.length] in LE. split; [rewrite app_assoc; reflexivity|lia].
Qed.
Section Adds.
  Variable ntop4 ntop6 : list Z -> list Z.
  Variable formatter : Z -> option (list Z -> Z -> Z -> fmt).
  Variable family_name : Z -> option (list Z).
  Variable proto_name : Z -> pname.
  Variable numeric : bool.
  Variable r : jroute.
  Hypothesis U : u16s r.
  Lemma adds_names names : adds (j_names r names).
  Proof.
    induction names as [|[f name] names IH]; [exact adds_done|]. cbn [j_names].
    apply (adds_seq (fun o => wr (text "'") o ;; wr (text name) ;; wr (text "':") ;; wr (text (if N.eqb (N.land (jr_flags r) f) 0 then "false" else "true")) ;; wr (text ",")) (j_names r names)); [|exact IH].
    repeat (apply (adds_seq _ (wr _)); [|apply adds_wr]). apply adds_wr.
  Qed.
  Lemma adds_event : adds (j_event r).
  Proof. unfold j_event. destruct (jr_event r) as [l|]; [|exact adds_done]. repeat (apply (adds_seq _ (wr _)); [|apply adds_wr]). apply adds_wr. Qed.
  Lemma adds_family : adds (j_family family_name numeric r).
  Proof.
    destruct U as (U1 & _). unfold j_family. apply (adds_when _ _). apply (adds_seq _ (wr _)); [|apply adds_wr]. apply (adds_seq (wr _)); [apply adds_wr|]. intros o o' H.
    destruct (if numeric then None else family_name (jr_family r)) as [n|]; [|apply adds_itoa; assumption]. destruct (_ <? _); [discriminate|]. revert o o' H. repeat (apply (adds_seq _ (wr _)); [|apply adds_wr]). apply adds_wr.
  Qed.
  Lemma adds_proto : adds (j_proto proto_name numeric r).
  Proof.
    destruct U as (_ & U2 & _). unfold j_proto. apply (adds_when _ _). apply (adds_seq _ (wr _)); [|apply adds_wr]. apply (adds_seq (wr _)); [apply adds_wr|]. intros o o' H.
    destruct (negb numeric && _); [|apply adds_itoa; assumption]. destruct (proto_name (jr_proto r)) as [n| |]; [|discriminate|apply adds_itoa; assumption]. revert o o' H. repeat (apply (adds_seq _ (wr _)); [|apply adds_wr]). apply adds_wr.
  Qed.
  Definition u16e (e : endpoint) := 0 <= n_bits e < 65536 /\ 0 <= n_port e < 65536 /\ 0 <= n_iface e < 65536.
  Lemma adds_addr mask e : u16e e -> adds (j_address ntop4 ntop6 formatter r mask e).
  Proof.
    intros (B & _).
    assert (A1 : forall limit, adds (fun o => let half := Z.shiftr (n_bits e) 1 in
      wr (text "'address':'") o ;; write_address (format_address ntop4 ntop6 formatter (jr_family r) (n_addr e) half limit) ;;
      wr (text "','bitmask':'") ;;
      (fun o => write_address (format_address ntop4 ntop6 formatter (jr_family r) (skipn (bytes_of_bits half) (n_addr e)) half (o_space o)) o) ;;
      wr (text "',"))).
    { intros limit. cbv zeta. apply (adds_seq _ (wr _)); [|apply adds_wr]. apply (adds_seq _ (fun o => write_address _ o)); [|intros o o'; apply adds_address]. apply (adds_seq _ (wr _)); [|apply adds_wr]. apply (adds_seq _ (write_address _)); [|apply adds_address]. apply adds_wr. }
    assert (A2 : forall limit, adds (fun o =>
      wr (text "'address':'") o ;; write_address (format_address ntop4 ntop6 formatter (jr_family r) (n_addr e) (n_bits e) limit) ;;
      wr (text "','prefix-bits':") ;; itoa (n_bits e) ;; wr (text ","))).
    { intros limit. apply (adds_seq _ (wr _)); [|apply adds_wr]. apply (adds_seq _ (itoa _)); [|apply adds_itoa, B]. apply (adds_seq _ (wr _)); [|apply adds_wr]. apply (adds_seq _ (write_address _)); [|apply adds_address]. apply adds_wr. }
    intros o. unfold j_address. cbv zeta. destruct mask; [exact (A1 (o_space o) o)|exact (A2 (o_space o) o)].
  Qed.
  Lemma adds_end key a p i m e : key <> EmptyString -> u16e e -> adds (j_end ntop4 ntop6 formatter r key a p i m e).
  Proof.
    intros K E. unfold j_end. apply (adds_when _ _). destruct E as (E1 & E2 & E3).
    assert (A : adds (fun o => (if fixed r a then j_address ntop4 ntop6 formatter r (N.testbit (jr_flags r) m) e o else Done o) ;;
      (fun o => if fixed r p then wr (text "'port':") o ;; itoa (n_port e) ;; wr (text ",") else Done o) ;;
      (fun o => if fixed r i then wr (text "'interface':") o ;; itoa (n_iface e) ;; wr (text ",") else Done o))).
    { apply (adds_seq (fun o => _ ;; _)); [apply (adds_seq _ (fun o => _))|]; apply (adds_when _ _); [apply adds_addr; repeat split; lia| |];
      (apply (adds_seq _ (wr _)); [|apply adds_wr]; apply (adds_seq _ (itoa _)); [|apply adds_itoa; assumption]; apply adds_wr). }
    pose proof (adds_body (text key) _ (text "},") ltac:(destruct key; [congruence|discriminate]) A) as Q. intros o o' H E. apply (Q o o' H). rewrite <- E. destruct (wr (text key) o); reflexivity.
  Qed.
  Lemma adds_format : adds (format_json ntop4 ntop6 formatter family_name proto_name numeric r).
  Proof.
    destruct U as (_ & _ & UE). inversion UE as [|? ? E1 UE1]; subst. inversion UE1 as [|? ? E2 _]; subst.
    assert (A : adds (fun o => j_event r o ;; j_names r Names.flag_names ;; j_family family_name numeric r ;; j_proto proto_name numeric r ;;
      j_end ntop4 ntop6 formatter r "'remote':{" B_RADDR B_RPORT B_RIFACE B_RMASK (jr_remote r) ;; j_end ntop4 ntop6 formatter r "'local':{" B_LADDR B_LPORT B_LIFACE B_LMASK (jr_local r))).
    { apply (adds_seq _ (j_end _ _ _ _ _ _ _ _ _ _)); [|apply adds_end; [discriminate|exact E2]]. apply (adds_seq _ (j_end _ _ _ _ _ _ _ _ _ _)); [|apply adds_end; [discriminate|exact E1]].
      apply (adds_seq _ (j_proto _ _ _)); [|exact adds_proto]. apply (adds_seq _ (j_family _ _ _)); [|exact adds_family]. apply (adds_seq _ (j_names _ _)); [|apply adds_names]. exact adds_event. }
    pose proof (adds_body (text "{") _ (text "}") ltac:(discriminate) A) as Q. intros o o' H E. apply (Q o o' H). rewrite <- E. unfold format_json. destruct (wr (text "{") o); reflexivity.
  Qed.
End Adds.
Theorem C67_in_the_buffer :
  forall ntop4 ntop6 formatter family_name proto_name numeric routes n o n' o',
    Forall u16s routes -> 0 <= o_space o ->
    dump_next ntop4 ntop6 formatter family_name proto_name numeric routes n o = Some (n', Done o') ->
    n' = S n /\ exists x, o_text o' = o_text o ++ x /\ o_space o' + Z.of_nat (List.length x) = o_space o /\ 0 <= o_space o'.
Proof.
  intros n4 n6 fm fn pn nu rs n o n' o' U H. unfold dump_next. destruct (nth_error rs n) as [r|] eqn:NE; [|discriminate].
  rewrite Forall_forall in U. pose proof (U r (nth_error_In _ _ NE)) as UR.
  assert (A : adds (fun o => (if (n =? 0)%nat then Done o else wr [44; 10] o) ;; format_json n4 n6 fm fn pn nu r)).
  { apply adds_seq; [destruct (n =? 0)%nat; [exact adds_done|apply adds_wr]|exact (adds_format _ _ _ _ _ _ r UR)]. }
  intros E. assert (Q : n' = S n /\ ((if (n =? 0)%nat then Done o else wr [44; 10] o) ;; format_json n4 n6 fm fn pn nu r) = Done o').
  { destruct (if (n =? 0)%nat then Done o else wr [44; 10] o) as [o1|c o1|]; [|discriminate|discriminate]. cbn [cont]. destruct (format_json _ _ _ _ _ _ r o1) as [o2|[|] o2|]; try discriminate. split; congruence. }
  destruct Q as [-> Q]. split; [reflexivity|]. exact (A o o' H Q).
Qed.
Print Assumptions C67_in_the_buffer.

(** ** Concrete routes *)
(** An inet_ntop and inet_pton that undo each other: two letters per byte. *)
Fixpoint letters (l : list Z) : list Z := match l with [] => [] | b :: l => (65 + b / 16) :: (65 + b mod 16) :: letters l end.
Fixpoint unletters (l : list Z) : option (list Z) := match l with [] => Some [] | c :: d :: l => option_map (cons ((c - 65) * 16 + (d - 65))) (unletters l) | _ => None end.
Lemma letters_back x : Forall byte x -> unletters (letters x) = Some x.
Proof. induction 1 as [|b x B _ IH]; [reflexivity|]. cbn [letters unletters]. rewrite IH. unfold byte in B. cbn [option_map]. f_equal. f_equal. pose proof (Z.div_mod b 16). lia. Qed.
Lemma letters_harmless x : Forall byte x -> Forall harmless (letters x) /\ List.length (letters x) = (2 * List.length x)%nat.
Proof.
  induction 1 as [|b x B _ [IH IL]]; [split; [constructor|reflexivity]|]. unfold byte in B. cbn [letters]. split; [|cbn [List.length]; lia].
  pose proof (Z.mod_pos_bound b 16 ltac:(lia)). assert (0 <= b / 16 < 16) by (split; [apply Z.div_pos|apply Z.div_lt_upper_bound]; lia).
  constructor; [unfold harmless; lia|]. constructor; [unfold harmless; lia|exact IH].
Qed.
Definition families : converters log unit unit unit :=
  Conv (fun t d => convert_sint64 t d) (fun _ _ => Some tt)
    (fun w m f n t d => match convert_address unletters unletters (fun _ _ => None) w m f n t d [34] with Good x => Some x | _ => None end)
    (fun _ d => if is d "ssh" then Found 22 else NoEntry) (fun d => if is d "tcp" then Found 6 else NoEntry)
    (fun _ d => if is d "inet" then Some 2 else None) (fun _ f => if f =? 2 then Some 32 else if f =? 118 then Some 48 else None)
    tt (fun _ _ _ => (0, tt)) (fun _ => Some tt).
Definition no_formatter : Z -> option (list Z -> Z -> Z -> fmt) := fun _ => None.
Definition family_names (f : Z) : option (list Z) := if f =? 2 then Some (text "inet") else None.
Definition proto_names (p : Z) : pname := if p =? 6 then PName (text "tcp") else PNoEntry.
Definition nothing := mkEnd [] 0 0 0.
(** port 22 from the network 10.1/16, TCP, incoming; and a device by some bits of its MAC address *)
Definition r1 := mkJR (Some (text "call-in")) (16 + 32 + 64 + 128 + 512 + 1024 + 2097152)%N 2 6 (mkEnd [10; 1] 16 0 0) (mkEnd [] 0 22 0).
Definition r2 := mkJR None (4 + 8 + 16 + 32 + 128 + 1024 + 4096 + 1048576)%N 118 0 (mkEnd [1; 2; 3; 4; 5; 254; 255; 255; 255; 255; 0; 0] 96 0 3) nothing.
Definition dump_ex := dump letters letters no_formatter family_names proto_names false.
Definition ok_ex := loadable families letters letters no_formatter family_names proto_names false.
Definition load_ex (t : list Z) := answer (load_chunks ws_cfg (callback logging families false) (Good (start zero_econf tt, [])) [t]).
Definition text_of (x : outcome) : list Z := match x with Done o => o_text o | _ => [] end.
Lemma families_loader : by_the_loader families unletters unletters (fun _ _ => None).
Proof. intros w m f n d. exists [34]. reflexivity. Qed.
Lemma ntop_ok size room : 2 * Z.of_nat size < room -> forall x, Forall byte x -> List.length x = size -> unletters (letters x) = Some x /\ Forall harmless (letters x) /\ Z.of_nat (List.length (letters x)) < room.
Proof. intros R x B L. destruct (letters_harmless x B) as [H1 H2]. split; [exact (letters_back x B)|]. split; [exact H1|lia]. Qed.
Definition addresses_ex := C67_addresses_partial _ _ _ _ families letters letters no_formatter unletters unletters _ families_loader (fun f => eq_refl) (ntop_ok 4 16 ltac:(lia)) (ntop_ok 16 64 ltac:(lia)).
Ltac bytes := repeat (constructor; [unfold byte; lia|]); constructor.
Ltac harm := vm_compute; repeat (constructor; [repeat split; intro; discriminate|]); constructor.
Lemma r1_ok : ok_ex r1.
Proof.
  split.
  - intros l E. injection E as <-. split; [discriminate|]. split; [cbn; lia|]. harm.
  - change (0 < 2 < 65536). lia.
  - intros n _ E. injection E as <-. split; [split; [harm|cbn; lia]|reflexivity].
  - intros _. cbn. lia.
  - intros _ _ _. cbn. split; [harm|]. split; [lia|reflexivity].
  - reflexivity.
  - split; [|split; [auto|cbn; split; [lia|split; [lia|discriminate]]]]. intros _. cbn [N.testbit jr_flags r1]. change (N.testbit _ 12) with false. cbv iota.
    destruct (addresses_ex [10; 1] [] ltac:(bytes) ltac:(bytes)) as (_ & _ & A & _). apply (A 16); [lia|reflexivity].
  - split; [discriminate|]. split; [auto|]. cbn. split; [lia|]. split; [lia|discriminate].
Qed.
Lemma r2_ok : ok_ex r2.
Proof.
  split.
  - discriminate.
  - change (0 < 118 < 65536). lia.
  - discriminate.
  - discriminate.
  - discriminate.
  - discriminate.
  - split; [|split; [auto|cbn; split; [lia|split; [lia|reflexivity]]]]. intros _. change (N.testbit (jr_flags r2) 12) with true. cbv iota.
    destruct (addresses_ex [1; 2; 3; 4; 5; 254] [255; 255; 255; 255; 0; 0] ltac:(bytes) ltac:(bytes)) as (_ & A & _). apply A; [reflexivity|reflexivity|reflexivity].
  - split; [discriminate|]. split; [intros [X|X]; discriminate|]. split; [discriminate|]. split; [discriminate|discriminate].
Qed.
(** The theorems apply to a table with these two routes; it is dumped and loaded. *)
Example C67_example :
  Forall ok_ex [r1; r2] /\ Forall u16s [r1; r2] /\ by_the_loader families unletters unletters (fun _ _ => None) /\ (forall w, fst (a_default_event logging [] w) < 0) /\
  load_ex (text_of (dump_ex [r1; r2] 2000)) = Some (0, Good
    [MRoute (mkSa 2 6 0 16 0 [10; 1; 0; 0; 0; 0; 0; 0; 0; 0; 0; 0; 0; 0; 0; 0]) (mkSa 2 6 22 0 0 (repeat 0 16)) (jr_flags r1) (Some (text "call-in"));
     MRoute (mkSa 118 0 0 96 3 [1; 2; 3; 4; 5; 254; 255; 255; 255; 255; 0; 0; 0; 0; 0; 0]) (mkSa 118 0 0 0 0 (repeat 0 16)) (jr_flags r2) None]) /\
  insert_all logging [r1; r2] [] = Some
    [MRoute (mkSa 2 6 0 16 0 [10; 1; 0; 0; 0; 0; 0; 0; 0; 0; 0; 0; 0; 0; 0; 0]) (mkSa 2 6 22 0 0 (repeat 0 16)) (jr_flags r1) (Some (text "call-in"));
     MRoute (mkSa 118 0 0 96 3 [1; 2; 3; 4; 5; 254; 255; 255; 255; 255; 0; 0; 0; 0; 0; 0]) (mkSa 118 0 0 0 0 (repeat 0 16)) (jr_flags r2) None].
Proof.
  split; [constructor; [exact r1_ok|constructor; [exact r2_ok|constructor]]|].
  split; [repeat (constructor; [repeat split; cbn; try lia; repeat (constructor; [cbn; lia|]); constructor|]); constructor|].
  split; [exact families_loader|]. split; [reflexivity|]. split; vm_compute; reflexivity.
Qed.

(** ** What goes wrong *)
(** The space is measured before the name of the member is written, and the address is then written as if all of it were left:
    with some buffers the text goes beyond the end, where the answer should be BUFFER_TOO_SMALL. *)
Theorem C67_overrun_refuted : ok_ex r1 /\ dump_ex [r1] 450 = Overrun /\ (exists o, dump_ex [r1] 440 = Stopped TooSmall o) /\ exists o, dump_ex [r1] 500 = Done o.
Proof. split; [exact r1_ok|]. split; [vm_compute; reflexivity|]. split; vm_compute; eexists; reflexivity. Qed.
Print Assumptions C67_overrun_refuted.

(** Only the remote address is fixed (and the family); settings otherwise as in [r2]. *)
Definition remote_flags := (4 + 8 + 16 + 32 + 64 + 128 + 1024)%N.
Definition by_address (family : Z) (mask : bool) (a : list Z) (bits : Z) := mkJR None (remote_flags + if mask then 4096 else 0)%N family 0 (mkEnd a bits 0 0) nothing.

(** inet_ntop fails with some of the buffers that are too small, and the answer is then not BUFFER_TOO_SMALL, nor is what has been
    written of the route taken back. *)
Definition r3 := by_address 2 true [10; 1; 2; 3; 255; 0; 255; 0] 64.
Lemma r3_ok : ok_ex r3.
Proof.
  split; try discriminate.
  - change (0 < 2 < 65536). lia.
  - intros n _ E. injection E as <-. split; [split; [harm|cbn; lia]|reflexivity].
  - split; [|split; [auto|cbn; split; [lia|split; [lia|reflexivity]]]]. intros _. change (N.testbit (jr_flags r3) 12) with true. cbv iota.
    destruct (addresses_ex [10; 1; 2; 3] [255; 0; 255; 0] ltac:(bytes) ltac:(bytes)) as (_ & _ & _ & A & _). apply A; reflexivity.
  - split; [discriminate|]. split; [intros [X|X]; discriminate|]. split; [discriminate|]. split; discriminate.
Qed.
Theorem C67_too_small_refuted :
  ok_ex r3 /\
  (exists o, dump_next letters letters no_formatter family_names proto_names false [r3] 0 (mkO [] 382) = Some (0%nat, Stopped Failed o) /\ (300 < List.length (o_text o))%nat) /\
  exists o', dump_next letters letters no_formatter family_names proto_names false [r3] 0 (mkO [] 400) = Some (1%nat, Done o').
Proof.
  split; [exact r3_ok|]. split; [eexists; split; [vm_compute; reflexivity|]; apply Nat.ltb_lt; vm_compute; reflexivity|]. eexists. vm_compute. reflexivity.
Qed.
Print Assumptions C67_too_small_refuted.

(** An IPv4 address of more than 32 bits, which wolfsentry_route_insert accepts, makes the dump write beyond a variable on
    the stack. *)
Theorem C67_long_address_refuted : dump_ex [by_address 2 false [1; 2; 3; 4; 5] 40] 600 = Overrun.
Proof. vm_compute. reflexivity. Qed.
Print Assumptions C67_long_address_refuted.

(** Protocols without a name are looked up without error and without result (glibc), and the missing result is used. *)
Theorem C67_protocol_refuted : forall r o, fixed r B_PROTO = true -> jr_family r = 2 -> proto_names (jr_proto r) = PNoEntry -> 12 <= o_space o -> j_proto proto_names false r o = Overrun.
Proof.
  intros r o FX FA PN SP. unfold j_proto. rewrite FX. unfold wr at 1. change (Z.of_nat (List.length (text "'protocol':"))) with 11. destruct (Z.ltb_spec (o_space o) 11); [lia|]. cbn [cont]. rewrite FA, PN. reflexivity.
Qed.
Print Assumptions C67_protocol_refuted.

(** Routes that are dumped, and the dump is refused or loads as another route:
    - a label with a quotation mark (the text is not JSON);
    - a prefix of a MAC address;
    - a CAN address of 29 bits: the last byte is not written;
    - the wildcard for the parent event (flag 256) is not written;
    - a TCP route without the flag that says so (512) comes back with it. *)
Theorem C67_changed_refuted :
  (exists t s, dump_ex [mkJR (Some [97; 34; 98]) remote_flags 2 0 (mkEnd [1] 8 0 0) nothing] 600 = Done (mkO t s) /\ exists c x, load_ex t = Some (c, x) /\ c < 0) /\
  (exists t s, dump_ex [by_address AF_LINK48 false [1; 2; 3] 24] 600 = Done (mkO t s) /\ load_ex t = Some (-1, Err)) /\
  (exists t s, dump_ex [by_address AF_CAN false [1; 2; 3; 4] 29] 600 = Done (mkO t s) /\
     load_ex t = Some (0, Good [MRoute (mkSa 29 0 0 29 0 ([1; 2; 3; 0] ++ repeat 0 12)) (mkSa 29 0 0 0 0 (repeat 0 16)) remote_flags None])) /\
  (exists t s, dump_ex [mkJR None (remote_flags + 256) 2 0 (mkEnd [1] 8 0 0) nothing] 600 = Done (mkO t s) /\
     load_ex t = Some (0, Good [MRoute (mkSa 2 0 0 8 0 (1 :: repeat 0 15)) (mkSa 2 0 0 0 0 (repeat 0 16)) remote_flags None])) /\
  (exists t s, dump_ex [mkJR None (remote_flags - 4) 2 6 (mkEnd [1] 8 0 0) nothing] 600 = Done (mkO t s) /\
     load_ex t = Some (0, Good [MRoute (mkSa 2 6 0 8 0 (1 :: repeat 0 15)) (mkSa 2 6 0 0 0 (repeat 0 16)) (remote_flags - 4 + 512) None])).
Proof.
  split; [eexists _, _; split; [vm_compute; reflexivity|]; eexists _, _; split; [vm_compute; reflexivity|lia]|].
  repeat (split; [eexists _, _; split; [vm_compute; reflexivity|vm_compute; reflexivity]|]). eexists _, _; split; [vm_compute; reflexivity|vm_compute; reflexivity].
Qed.
Print Assumptions C67_changed_refuted.

(** MAC addresses of 64 bits, which can be configured, have no text, whatever the buffer. *)
Theorem C67_link64_refuted :
  (forall ntop4 ntop6 formatter a bits limit, formatter AF_LINK64 = None -> format_address ntop4 ntop6 formatter AF_LINK64 a bits limit = FOther) /\
  exists o, dump_ex [by_address AF_LINK64 false [1; 2; 3; 4; 5; 6; 7; 8] 64] 1000 = Stopped Failed o.
Proof. split; [intros n4 n6 fm a b l NF; unfold format_address; rewrite NF; reflexivity|]. eexists. vm_compute. reflexivity. Qed.
Print Assumptions C67_link64_refuted.
