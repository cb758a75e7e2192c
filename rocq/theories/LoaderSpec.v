(** * Specification: what a configuration document means (doc/json_configuration.md)

    The document is a JSON value ([jvalue], JsonSpec.v).  Its meaning is what it does to the contents of the context, section by
    section and member by member in the order written; or that it is refused; or, where the implementation answers for nothing,
    that it is not specified.  The calls on the contexts and the conversions of names and addresses are parameters, as in the
    model, and so are the records handed to them ([econf], [sa], [route]); nothing else of the model is used. *)
Require Import ZArith NArith List Bool String.
From Verif Require Import Json JsonSpec Convert EventConfig Loader.
From Verif Require JsonText Names.
Import ListNotations.
Open Scope Z_scope.

Inductive meaning (A : Type) := Means (a : A) | Refused | Unspecified.
Arguments Means {A} a. Arguments Refused {A}. Arguments Unspecified {A}.
Definition andthen {A B} (m : meaning A) (k : A -> meaning B) : meaning B :=
  match m with Means a => k a | Refused => Refused | Unspecified => Unspecified end.
Notation "'let+' p := m 'in' k" := (andthen m (fun p => k)) (at level 200, p pattern, m at level 100, k at level 200).

(** Members of an object in their order: keys of 32 bytes or more are refused, others count up to a NUL. *)
Fixpoint each_member {A} (f : list Z -> jvalue -> A -> meaning A) (ms : list ((list Z * list Z) * jvalue)) (a : A) : meaning A :=
  match ms with
  | [] => Means a
  | (_, k, v) :: ms => if 32 <=? Z.of_nat (List.length k) then Refused else let+ a := f (upto_nul k) v a in each_member f ms a
  end.
Fixpoint each_element {A} (f : jvalue -> A -> meaning A) (vs : list jvalue) (a : A) : meaning A :=
  match vs with [] => Means a | v :: vs => let+ a := f v a in each_element f vs a end.

(** null, true, false, numbers and strings, with their text. *)
Definition scalar (v : jvalue) : option (jtype * list Z) :=
  match v with
  | VNull => Some (JSON_NULL, []) | VTrue => Some (JSON_TRUE, []) | VFalse => Some (JSON_FALSE, [])
  | VNum d => Some (JSON_NUMBER, d) | VStr _ d => Some (JSON_STRING, d)
  | VArr _ | VObj _ => None
  end.
Definition num (c : cres) : meaning Z := match c with CSet v => Means v | CUB => Unspecified | _ => Refused end.
Definition given {A} (o : option A) : meaning A := match o with Some a => Means a | None => Refused end.
Definition require (b : bool) : meaning unit := if b then Means tt else Refused.
Definition shorter (n : Z) (d : list Z) : bool := Z.of_nat (List.length d) <? n.

(** Names of route flags and of action results; text with a NUL in it is not specified (C47). *)
Definition in_table (t : list (N * string)) (d : list Z) : meaning N :=
  match find (fun x => is d (snd x)) t with Some x => Means (fst x) | None => Refused end.
Definition named_in (t : list (N * string)) (d : list Z) : meaning N :=
  if forallb (fun c => 0 <? c) d then in_table t d else Unspecified.

(** A value that contains no object. *)
Fixpoint no_object (v : jvalue) : bool :=
  match v with VObj _ => false | VArr vs => forallb no_object vs | _ => true end.

Section Meaning.
  Context {W D V F : Type}.
  Variable api : calls W V F.
  Variable cv : converters W D V F.
  Variable only_values : bool.

  Definition does (r : Z * W) : meaning W := if fst r <? 0 then Refused else Means (snd r).

  (** ** Settings common to the default configuration and to those of events *)
  Definition setting (k : list Z) (t : jtype) (d : list Z) (c : econf) : meaning econf :=
    let flag b := match t with JSON_TRUE => Means (with_cflags c (N.setbit (e_flags c) b)) | JSON_FALSE => Means (with_cflags c (N.clearbit (e_flags c) b)) | _ => Refused end in
    if is k "max-connection-count" then let+ n := num (convert_uint32 t d) in Means (with_max_conns c (Z.to_N n))
    else if is k "penalty-box-duration" then let+ n := num (duration cv t d) in Means (with_box c n)
    else if is k "route-idle-time-for-purge" then let+ n := num (duration cv t d) in Means (with_idle c n)
    else if is k "derog-thresh-for-penalty-boxing" then let+ n := num (convert_uint32 t d) in Means (with_threshold c (Z.to_N n))
    else if is k "derog-thresh-ignore-commendable" then flag 0%N
    else if is k "commendable-clears-derogatory" then flag 1%N
    else Refused.

  (** ** "config-update": the default configuration *)
  Definition config_update_member (k : list Z) (v : jvalue) (x : econf * W) : meaning (econf * W) :=
    let '(c, w) := x in
    let+ (t, d) := given (scalar v) in
    if is k "max-purgeable-routes" then let+ n := num (convert_uint32 t d) in let+ w := does (a_max_routes api n w) in Means (c, w)
    else if is k "max-purgeable-idle-time" then let+ n := num (duration cv t d) in let+ w := does (a_max_idle api n w) in Means (c, w)
    else let+ c := setting k t d c in Means (c, w).

  (** ** The "config" of an event: also lists of names *)
  Definition config_list (k : list Z) : option (list (N * string) * (econf -> N -> econf)) :=
    if is k "route-flags-to-add-on-insert" then Some (Names.flag_names, fun c f => with_radd c (N.lor (e_radd c) f))
    else if is k "route-flags-to-clear-on-insert" then Some (Names.flag_names, fun c f => with_rclr c (N.lor (e_rclr c) f))
    else if is k "action-res-filter-bits-set" then Some (Names.res_names, fun c f => with_fset c (N.lor (e_fset c) f))
    else if is k "action-res-filter-bits-unset" then Some (Names.res_names, fun c f => with_funset c (N.lor (e_funset c) f))
    else if is k "action-res-bits-to-add" then Some (Names.res_names, fun c f => with_badd c (N.lor (e_badd c) f))
    else if is k "action-res-bits-to-clear" then Some (Names.res_names, fun c f => with_bclr c (N.lor (e_bclr c) f))
    else None.
  Definition config_member (k : list Z) (v : jvalue) (c : econf) : meaning econf :=
    match v with
    | VArr vs =>
      let+ (names, add) := given (config_list k) in
      each_element (fun v c => match v with VStr _ d => let+ f := named_in names d in Means (add c f) | _ => Refused end) vs c
    | VObj _ => Refused
    | _ => let+ (t, d) := given (scalar v) in setting k t d c
    end.

  (** ** Events *)
  Record event := Event { e_label : list Z; e_priority : Z; e_config : option econf; e_inserted : bool }.
  Definition new_event := Event [] 0 None false.
  (** The event is inserted when a member needs it, at the latest at the end. *)
  Definition inserted (x : event * W) : meaning (event * W) :=
    let '(e, w) := x in
    if e_inserted e then Means (e, w)
    else let+ w := (if only_values then Means w else does (a_event_insert api (e_label e) (e_priority e) (e_config e) w)) in
         Means (Event (e_label e) (e_priority e) (e_config e) true, w).
  Definition action_list (k : list Z) : option Z :=
    if is k "actions" || is k "post-actions" then Some TYPE_POST
    else if is k "insert-actions" then Some TYPE_INSERT
    else if is k "match-actions" then Some TYPE_MATCH
    else if is k "update-actions" then Some TYPE_UPDATE
    else if is k "delete-actions" then Some TYPE_DELETE
    else if is k "decision-actions" then Some TYPE_DECISION
    else None.
  (** The old way to give an event lists of actions: other events, of which the post actions are taken. *)
  Definition subevent (k : list Z) : option Z :=
    if is k "insert-event" then Some TYPE_INSERT
    else if is k "match-event" then Some TYPE_MATCH
    else if is k "update-event" then Some TYPE_UPDATE
    else if is k "delete-event" then Some TYPE_DELETE
    else if is k "decision-event" then Some TYPE_DECISION
    else None.
  Definition append (label : list Z) (type : Z) (a : list Z) (w : W) : meaning W :=
    if only_values then Means w else does (a_append api label type a w).
  Fixpoint append_actions (label : list Z) (type : Z) (l : list (list Z)) (w : W) : meaning W :=
    match l with [] => Means w | a :: l => let+ w := append label type a w in append_actions label type l w end.
  Definition event_member (defaults : econf) (k : list Z) (v : jvalue) (x : event * W) : meaning (event * W) :=
    let '(e, w) := x in
    match v with
    | VStr _ d =>
      if is k "label" then let+ _ := require (shorter 32 d) in Means (Event d (e_priority e) (e_config e) (e_inserted e), w)
      else
        let+ (e, w) := inserted (e, w) in
        if is k "aux-parent-event" then
          let+ w := (if only_values then Means w else does (a_aux api (e_label e) d w)) in Means (e, w)
        else
          let+ type := given (subevent k) in
          let+ _ := require (shorter 33 d) in
          if only_values then Means (e, w)
          else
            let+ l := given (a_post_actions api d w) in
            let+ w := append_actions (e_label e) type l w in
            Means (e, w)
    | VNum d =>
      let+ _ := require (is k "priority" && negb (e_inserted e)) in
      let+ n := num (convert_uint16 JSON_NUMBER d) in
      Means (Event (e_label e) n (e_config e) (e_inserted e), w)
    | VObj ms =>
      let+ _ := require (is k "config" && negb (e_inserted e)) in
      let+ c := each_member config_member ms defaults in
      Means (Event (e_label e) (e_priority e) (Some c) (e_inserted e), w)
    | VArr vs =>
      let+ (e, w) := inserted (e, w) in
      let+ type := given (action_list k) in
      let+ w := each_element (fun v w => match v with VStr _ d => let+ _ := require (shorter 33 d) in append (e_label e) type d w | _ => Refused end) vs w in
      Means (e, w)
    | VNull | VTrue | VFalse => Refused
    end.
  Definition event_element (defaults : econf) (v : jvalue) (w : W) : meaning W :=
    match v with
    | VObj ms => let+ x := each_member (event_member defaults) ms (new_event, w) in let+ (_, w) := inserted x in Means w
    | _ => Refused
    end.

  (** ** Routes *)
  (** 16 bytes hold an address; longer ones are not specified. *)
  Definition put (a : list Z) (off : nat) (b : list Z) : meaning (list Z) :=
    if (off + List.length b <=? List.length a)%nat then Means (firstn off a ++ b ++ skipn (off + List.length b) a) else Unspecified.
  Definition endpoint_member (remote : bool) (w : W) (k : list Z) (v : jvalue) (r : route) : meaning route :=
    let s := get_sa remote r in
    let has_mask := N.testbit (r_flags r) (if remote then B_RMASK else B_LMASK) in
    let no_wildcard b := clear_bit r b in
    let has_family := negb (sa_family s =? AF_UNSPEC) in
    let+ (t, d) := given (scalar v) in
    if is k "port" then
      let r := no_wildcard (if remote then B_RPORT else B_LPORT) in
      let+ _ := require has_family in
      let+ p := match v with
                | VNum _ => num (convert_uint16 t d)
                | VStr _ _ =>
                  let+ _ := require (N.testbit (r_flags r) B_TCPLIKE && shorter 64 d) in
                  match cv_port_name cv (sa_proto s) d with Found p => Means p | _ => Refused end
                | _ => Refused
                end in
      Means (set_sa remote r (with_port s p))
    else if is k "address" then
      let r := no_wildcard (if remote then B_RADDR else B_LADDR) in
      let+ _ := require has_family in
      let+ (f, b, n) := given (cv_address cv w has_mask (sa_family s) (sa_len s) t d) in
      let+ a := put (sa_addr s) 0 b in
      Means (set_sa remote r (with_len (with_family (with_addr s a) f) n))
    else if is k "bitmask" then
      let+ _ := require has_family in
      let+ size := given (cv_family_bits cv w (sa_family s)) in
      let+ _ := require ((Z.land size 7 =? 0) && (Z.shiftl size 1 <=? MAX_ADDR_BITS)) in
      if negb ((0 <=? size) && ((sa_len s =? 0) || (sa_len s =? size))) then Unspecified
      else
        let r := set_bit r (if remote then B_RMASK else B_LMASK) in
        let+ (f, b, _) := given (cv_address cv w true (sa_family s) (sa_len s) t d) in
        let+ a := put (sa_addr s) (Z.to_nat (size / 8)) b in
        Means (set_sa remote r (with_len (with_family (with_addr s a) f) (Z.shiftl size 1)))
    else if is k "prefix-bits" then
      let+ _ := require (has_family && negb has_mask) in
      let+ n := num (convert_uint16 t d) in
      Means (set_sa remote r (with_len s n))
    else if is k "interface" then
      let r := no_wildcard (if remote then B_RIFACE else B_LIFACE) in
      let+ n := num (convert_uint8 t d) in
      Means (set_sa remote r (with_iface s n))
    else Refused.
  Definition route_member (w : W) (k : list Z) (v : jvalue) (r : route) : meaning route :=
    match v with
    | VObj ms => if is k "remote" then each_member (endpoint_member true w) ms r else if is k "local" then each_member (endpoint_member false w) ms r else Refused
    | VArr _ => Refused
    | _ =>
      let+ (t, d) := given (scalar v) in
      if is k "parent-event" then
        let+ _ := require (shorter 33 d) in
        Means (clear_bit (mkRoute d (r_remote r) (r_local r) (r_flags r)) B_EVENT)
      else if is k "family" then
        let+ f := match v with VNum _ => num (convert_uint16 t d) | VStr _ _ => given (cv_family_name cv w d) | _ => Refused end in
        let r := clear_bit r B_FAMILY in
        Means (with_sas r (with_family (r_remote r) f) (with_family (r_local r) f))
      else if is k "protocol" then
        let fam := sa_family (r_remote r) in
        let inet := (fam =? AF_INET) || (fam =? AF_INET6) in
        let+ p := match v with
                  | VNum _ => num (convert_uint16 t d)
                  | VStr _ _ => let+ _ := require (inet && shorter 64 d) in match cv_proto_name cv d with Found p => Means p | _ => Refused end
                  | _ => Refused
                  end in
        let r := clear_bit r B_PROTO in
        let r := with_sas r (with_proto (r_remote r) p) (with_proto (r_local r) p) in
        Means (if inet && ((p =? IPPROTO_TCP) || (p =? IPPROTO_UDP)) then set_bit r B_TCPLIKE else r)
      else
        let+ f := in_table Names.flag_names k in
        match v with VTrue => Means (with_flags r (N.lor (r_flags r) f)) | VFalse => Means (with_flags r (N.ldiff (r_flags r) f)) | _ => Refused end
    end.
  (** A route is a wildcard in everything its members do not fix: family, protocol, addresses, ports, interfaces. *)
  Definition new_route := with_flags zero_route 255.
  Definition route_element (v : jvalue) (w : W) : meaning W :=
    match v with
    | VObj ms =>
      let+ r := each_member (route_member w) ms new_route in
      if only_values then Means w
      else does (a_route_insert api (r_remote r) (r_local r) (r_flags r) (match r_label r with [] => None | l => Some l end) w)
    | _ => Refused
    end.

  (** ** Default policies *)
  Definition default_policy_member (k : list Z) (v : jvalue) (x : N * W) : meaning (N * W) :=
    let '(p, w) := x in
    if is k "default-policy" then
      match v with
      | VStr _ d => if is d "accept" then Means (1%N, w) else if is d "reject" then Means (2%N, w) else if is d "reset" then Means (N.lor 2 4096, w) else Refused
      | _ => Refused
      end
    else if is k "default-event" then
      if only_values then let+ _ := require (no_object v) in Means (p, w)
      else let+ (_, d) := given (scalar v) in let+ w := does (a_default_event api d w) in Means (p, w)
    else Refused.

  (** ** User values *)
  Definition value_type (label : list Z) (k : list Z) (v : jvalue) (w : W) : meaning W :=
    let store (u : uval F V) := does (a_store api label u w) in
    if is k "json" then
      match deliver (dom_step cv) 0 (dom_init cv) (events v) with
      | (r, x) => let+ _ := require (0 <=? r) in let+ jv := given (dom_value cv x) in store (UJson jv)
      end
    else
      let+ (t, d) := given (match v with VNum d => Some (JSON_NUMBER, d) | VStr _ d => Some (JSON_STRING, d) | _ => None end) in
      if is k "uint" then let+ n := num (convert_uint64 t d) in store (UUint n)
      else if is k "sint" then let+ n := num (convert_sint64 t d) in store (USint n)
      else if is k "float" then let+ f := given (cv_double cv t d) in store (UDouble f)
      else if is k "string" then let+ _ := require (shorter MAX_VALUE d) in store (UString d)
      else if is k "base64" then let+ _ := require (shorter MAX_VALUE d) in store (UBase64 d)
      else Refused.
  (** A number is kept as an integer if it is one and storing it succeeds, else as a floating-point number. *)
  Definition value_member (k : list Z) (v : jvalue) (w : W) : meaning W :=
    let store (u : uval F V) w := does (a_store api k u w) in
    match v with
    | VNull => store UNull w
    | VTrue => store (UBool true) w
    | VFalse => store (UBool false) w
    | VNum d =>
      let as_double w := let+ f := given (cv_double cv JSON_NUMBER d) in store (UDouble f) w in
      match convert_sint64 JSON_NUMBER d with
      | CSet i => if fst (a_store api k (USint i) w) =? 0 then Means (snd (a_store api k (USint i) w)) else as_double (snd (a_store api k (USint i) w))
      | CUB => Unspecified
      | _ => as_double w
      end
    | VStr _ d => let+ _ := require (shorter MAX_VALUE d) in store (UString d) w
    | VObj ms => each_member (value_type k) ms w
    | VArr _ => Refused
    end.

  (** ** The document *)
  Record progress := Progress { versioned : bool; defaults : econf; policy : N; content : W }.
  Definition apply_policy (p : N) (w : W) : meaning W := if N.eqb p 0 then Means w else does (a_policy api p w).
  Definition section (k : list Z) (v : jvalue) (s : progress) : meaning progress :=
    match v with
    | VObj ms =>
      let+ _ := require (versioned s) in
      if is k "config-update" then
        let+ (c, w) := each_member config_update_member ms (defaults s, content s) in
        let+ w := does (a_defaults api c w) in
        let+ w := apply_policy (policy s) w in
        Means (Progress true c (policy s) w)
      else if is k "default-policies" then
        let+ (p, w) := each_member default_policy_member ms (policy s, content s) in
        let+ w := apply_policy p w in
        Means (Progress true (defaults s) p w)
      else if is k "user-values" then
        let+ w := each_member value_member ms (content s) in Means (Progress true (defaults s) (policy s) w)
      else Refused
    | VArr vs =>
      let+ _ := require (versioned s) in
      let+ w := (if is k "events-insert" || is k "events" then each_element (event_element (defaults s)) vs (content s)
                 else if is k "static-routes-insert" || is k "routes" then each_element route_element vs (content s)
                 else Refused) in
      Means (Progress true (defaults s) (policy s) w)
    | VNull => Refused
    | _ =>
      let+ (t, d) := given (scalar v) in
      let+ _ := require (is k "wolfsentry-config-version") in
      let+ n := num (convert_uint32 t d) in
      let+ _ := require (n =? 1) in
      Means (Progress true (defaults s) (policy s) (content s))
    end.
  Definition document_meaning (v : jvalue) (dflt : econf) (w : W) : meaning W :=
    match v with
    | VObj ms => let+ s := each_member section ms (Progress false dflt 0 w) in Means (content s)
    | _ => Refused
    end.
End Meaning.
