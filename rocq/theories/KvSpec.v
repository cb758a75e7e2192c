(** What a user of the user-value calls relies on: a finite map from keys to typed values with a read-only mark. *)
From Verif Require Import Base Base64 Kv.
Open Scope Z_scope.

Inductive value := VNull | VBool (b : bool) | VUint (n : N) | VSint (z : Z) | VFloat (bits : N) | VString (s : list N) | VBytes (s : list N) | VJson (j : list N).
Definition vmap := list N -> option (value * bool).      (* key -> value, read-only? *)

(** the byte string meant by a pointer and a length: the length, or up to the first NUL if the length is negative *)
Definition means (mem : list N) (len : Z) (s : list N) : Prop :=
  (0 <= len /\ exists r, mem = s ++ r /\ Z.of_nat (length s) = len) \/ (len < 0 /\ exists r, mem = s ++ 0%N :: r /\ ~ In 0%N s).
Definition readable (mem : list N) (len : Z) : Prop := exists s, means mem len s.

(** the value a store call hands over *)
Inductive carries : sval -> value -> Prop :=
| CNull : carries SNull VNull
| CTrue : carries (SBool KV_TRUE) (VBool true)
| CFalse : carries (SBool KV_FALSE) (VBool false)
| CUint n : carries (SUint n) (VUint n)
| CSint z : carries (SSint z) (VSint z)
| CFloat b : carries (SDouble b) (VFloat b)
| CString m len s : means m len s -> carries (SString m len) (VString s)
| CBytes m len s : 0 <= len -> means m len s -> carries (SBytes m len) (VBytes s)
| CBase64 m len s d : means m len s -> base64_decode (map Z.of_N s) (bufspc (map Z.of_N s)) true = BOk d -> carries (SBase64 m len) (VBytes (map Z.to_N d))
| CJson j : carries (SJson j) (VJson j).

Definition value_type (v : value) : N :=
  match v with VNull => KV_NULL | VBool true => KV_TRUE | VBool false => KV_FALSE | VUint _ => KV_UINT | VSint _ => KV_SINT
             | VFloat _ => KV_FLOAT | VString _ => KV_STRING | VBytes _ => KV_BYTES | VJson _ => KV_JSON end.

(** refusals of the arguments of a call, whatever the map *)
Definition bad_key (E : kenv) (key : list N) (n : Z) (e : err) : Prop :=
  (n = 0 /\ e = INVALID_ARG) \/ (exists k, means key n k /\ Z.of_nat (length k) > 32 /\ e = STRING_ARG_TOO_LONG)
  \/ (mem_ok E = false /\ e = SYS_RESOURCE_FAILED).
Definition bad_value (v : sval) (e : err) : Prop :=
  match v with
  | SBool b => b <> KV_TRUE /\ b <> KV_FALSE /\ e = WRONG_TYPE
  | SString m len => exists s, means m len s /\ Z.of_nat (length s) >= 16384 /\ (e = STRING_ARG_TOO_LONG \/ e = NUMERIC_ARG_TOO_BIG)
  | SBytes m len => (len < 0 /\ e = INVALID_ARG) \/ (len > 16384 /\ e = NUMERIC_ARG_TOO_BIG)
  | SBase64 m len => exists s, means m len s /\ ((Z.of_nat (length s) > 16384 /\ e = STRING_ARG_TOO_LONG) \/ base64_decode (map Z.of_N s) (bufspc (map Z.of_N s)) true = BErr e)
  | _ => False
  end.

(** The map as seen by the calls.  [validates] tells whether a validator is installed. *)
Record sstate := mkS { smap : vmap; validates : bool }.
Definition same_map (m m' : vmap) : Prop := forall k, m k = m' k.
(** [m'] is [m] except at [k] *)
Definition put_at (m : vmap) (k : list N) (e : option (value * bool)) (m' : vmap) : Prop := m' k = e /\ forall k', k' <> k -> m' k' = m k'.
Definition unchanged (s s' : sstate) : Prop := same_map (smap s) (smap s') /\ validates s' = validates s.

Definition store_ok (E : kenv) (s : sstate) (key : list N) (n : Z) (v : sval) (ow : Z) (r : err) (s' : sstate) : Prop :=
  (exists k w, n <> 0 /\ means key n k /\ Z.of_nat (length k) <= 32 /\ carries v w /\ r = OK
    /\ (validates s = true -> is_success (vans E) = true)
    /\ (smap s k = None \/ (ow <> 0 /\ exists old, smap s k = Some (old, false)))
    /\ put_at (smap s) k (Some (w, false)) (smap s') /\ validates s' = validates s)
  \/ (is_success r = false /\ unchanged s s'
      /\ (bad_key E key n r \/ bad_value v r \/ (validates s = true /\ r = vans E) \/ r = idr E
          \/ exists k o ro, means key n k /\ smap s k = Some (o, ro) /\ ((ow = 0 /\ r = ITEM_ALREADY_PRESENT) \/ (ow <> 0 /\ ro = true /\ r = NOT_PERMITTED)))).

(** a getter: refused arguments, no such key, or the answer [f] gives for the value *)
Definition get_ok (E : kenv) (s : sstate) (key : list N) (n : Z) (f : value -> bool -> option answer) (r : err * answer) (s' : sstate) : Prop :=
  unchanged s s' /\
  ((bad_key E key n (fst r) /\ snd r = ANone) \/
   exists k, n <> 0 /\ means key n k /\
     match smap s k with
     | None => r = (ITEM_NOT_FOUND, ANone)
     | Some (v, ro) => match f v ro with Some a => r = (OK, a) | None => r = (WRONG_TYPE, ANone) end
     end).

Definition change_ok (E : kenv) (s : sstate) (key : list N) (n : Z) (f : value -> bool -> option (value * bool) + err) (r : err) (s' : sstate) : Prop :=
  (bad_key E key n r /\ unchanged s s') \/
  exists k, n <> 0 /\ means key n k /\
    match smap s k with
    | None => r = ITEM_NOT_FOUND /\ unchanged s s'
    | Some (v, ro) => match f v ro with inl e => r = OK /\ put_at (smap s) k e (smap s') /\ validates s' = validates s | inr e => r = e /\ unchanged s s' end
    end.

Definition allowed (E : kenv) (s : sstate) (c : call) (r : err * answer) (s' : sstate) : Prop :=
  match c with
  | Store key n v ow => snd r = ANone /\ store_ok E s key n v ow (fst r) s'
  | GetType key n => get_ok E s key n (fun v _ => Some (AType (value_type v))) r s'
  | GetBool key n => get_ok E s key n (fun v _ => match v with VBool b => Some (ABool (if b then KV_TRUE else KV_FALSE)) | _ => None end) r s'
  | GetUint key n => get_ok E s key n (fun v _ => match v with VUint u => Some (AUint u) | VSint z => if 0 <=? z then Some (AUint (Z.to_N z)) else None | _ => None end) r s'
  | GetSint key n => get_ok E s key n (fun v _ => match v with VSint z => Some (ASint z) | _ => None end) r s'
  | GetFloat key n => get_ok E s key n (fun v _ => match v with VFloat b => Some (AFloat b) | _ => None end) r s'
  | GetString key n => get_ok E s key n (fun v _ => match v with VString b => Some (AString b) | _ => None end) r s'
  | GetBytes key n => get_ok E s key n (fun v _ => match v with VBytes b => Some (ABytes b) | _ => None end) r s'
  | GetJson key n => get_ok E s key n (fun v _ => match v with VJson j => Some (AJson (Json j)) | _ => None end) r s'
  | GetMut key n => get_ok E s key n (fun _ ro => Some (AMut (if ro then 0 else 1))) r s'
  | SetMut key n m => snd r = ANone /\ change_ok E s key n (fun v ro => if m =? 0 then inl (Some (v, true)) else if m =? 1 then inl (Some (v, false)) else inr INVALID_ARG) (fst r) s'
  | Delete key n => snd r = ANone /\ change_ok E s key n (fun v ro => if ro then inr NOT_PERMITTED else inl None) (fst r) s'
  | SetValidator on ans =>
    snd r = ANone /\ same_map (smap s) (smap s') /\
    if on then (fst r = OK /\ validates s' = true /\ forall k, smap s k <> None -> is_success (ans k) = true)
               \/ (is_success (fst r) = false /\ validates s' = validates s /\ exists k, smap s k <> None /\ fst r = ans k)
    else fst r = OK /\ validates s' = false
  end.

(** a history of calls and their results *)
Inductive history : sstate -> list (kenv * call) -> list (err * answer) -> sstate -> Prop :=
| HNil s : history s [] [] s
| HCons s E c r s1 h rs s2 : allowed E s c r s1 -> history s1 h rs s2 -> history s ((E, c) :: h) (r :: rs) s2.

Definition nothing : sstate := mkS (fun _ => None) false.

(** Arguments a C caller can pass: pointers to memory that is there, numbers of their C types. *)
Definition proper_value (v : sval) : Prop :=
  match v with
  | SUint n | SDouble n => (n < 2 ^ 64)%N
  | SSint z => - 2 ^ 63 <= z < 2 ^ 63
  | SString m len => readable m len
  | SBytes m len => 0 <= len -> readable m len
  | SBase64 m len => readable m len
  | _ => True
  end.
Definition proper (c : call) : Prop :=
  match c with
  | Store key n v _ => readable key n /\ proper_value v
  | GetType key n | GetBool key n | GetUint key n | GetSint key n | GetFloat key n | GetString key n | GetBytes key n
  | GetJson key n | SetMut key n _ | GetMut key n | Delete key n => readable key n
  | SetValidator _ _ => True
  end.
