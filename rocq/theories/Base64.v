(** Base64 decoding: src/wolfsentry_util.c 4059-4146, wolfsentry/wolfsentry.h 3334-3338.
    Bytes are [Z]; size_t wrap-around of src_len+3 is not modelled (a buffer of that size cannot exist). *)
From Verif Require Import Base.
Open Scope Z_scope.

(** A write past the space given by *dest_spc is the outcome [BOOB]. *)
Inductive bout (A : Type) := BOk (a : A) | BErr (e : err) | BOOB.
Arguments BOk {A}. Arguments BErr {A}. Arguments BOOB {A}.

Definition JUNK : Z := 124. (* '|' *)
Definition PADMARK : Z := 64. (* '@' *)

(** util.c 4059-4080 (base64_inv_lut), written as ranges instead of a 256-entry string. *)
Definition lut (c : Z) : Z :=
  if (65 <=? c) && (c <=? 90) then c - 65
  else if (97 <=? c) && (c <=? 122) then c - 71
  else if (48 <=? c) && (c <=? 57) then c + 4
  else if c =? 43 then 62
  else if c =? 47 then 63
  else if c =? 61 then PADMARK
  else JUNK.

(** wolfsentry.h 3334-3338 (WOLFSENTRY_BASE64_DECODED_BUFSPC). *)
Definition bufspc (src : list Z) : Z :=
  let len := Z.of_nat (length src) in
  ((len + 3) / 4) * 3
  - (if len >? 1 then (if nth (length src - 1) src 0 =? 61 then 1 else 0) else 0)
  - (if len >? 2 then (if nth (length src - 2) src 0 =? 61 then 1 else 0) else 0).

(** Decoder state: util.c 4083-4087; [out] is what has been stored at dest so far. *)
Record dst := mkdst { decoded : Z; bits : Z; pads : Z; out : list Z }.

(** [*dest++ = (byte)v]: the cast keeps the low 8 bits. *)
Definition put (cap : Z) (o : list Z) (v : Z) : option (list Z) :=
  if Z.of_nat (length o) <? cap then Some (o ++ [v mod 256]) else None.

(** util.c 4092-4124: one pass over the source; [decoded] is uint32_t, so shifts drop high bits. *)
Fixpoint dec_loop (junk : bool) (cap : Z) (src : list Z) (s : dst) : bout dst :=
  match src with
  | [] => BOk s
  | c :: rest =>
    let t := lut c in
    if t =? JUNK then
      if junk then dec_loop junk cap rest s else BErr INVALID_ARG
    else if t =? PADMARK then
      match rest with
      | c2 :: _ => if lut c2 =? PADMARK
                   then dec_loop junk cap rest (mkdst (Z.shiftl (decoded s) 6 mod 2 ^ 32) (bits s) (pads s + 1) (out s))
                   else BErr INVALID_ARG
      | [] => dec_loop junk cap rest (mkdst (Z.shiftl (decoded s) 6 mod 2 ^ 32) (bits s) (pads s + 1) (out s))
      end
    else
      let d := Z.lor (Z.shiftl (decoded s) 6 mod 2 ^ 32) t in
      let b := bits s + 6 in
      if b =? 24 then
        match put cap (out s) (Z.shiftr d 16) with
        | None => BOOB
        | Some o1 =>
          match put cap o1 (Z.shiftr d 8) with
          | None => BOOB
          | Some o2 =>
            match put cap o2 d with
            | None => BOOB
            | Some o3 => dec_loop junk cap rest (mkdst 0 0 (pads s) o3)
            end
          end
        end
      else dec_loop junk cap rest (mkdst d b (pads s) (out s))
  end.

(** util.c 4126-4146: the tail. *)
Definition dec_finish (cap : Z) (s : dst) : bout (list Z) :=
  let '(d, p, bad) :=
    if negb (bits s =? 0) && (pads s =? 0) then
      (Z.shiftl (decoded s) (24 - bits s) mod 2 ^ 32, Z.shiftr (28 - bits s) 3, bits s <? 8)
    else (decoded s, pads s, false) in
  if bad then BErr INVALID_ARG
  else if p =? 0 then BOk (out s)
  else if p =? 1 then
    match put cap (out s) (Z.shiftr d 16) with
    | None => BOOB
    | Some o1 => match put cap o1 (Z.shiftr d 8) with None => BOOB | Some o2 => BOk o2 end
    end
  else if p =? 2 then
    match put cap (out s) (Z.shiftr d 16) with None => BOOB | Some o1 => BOk o1 end
  else BErr INVALID_ARG.

(** util.c 4082-4146 (wolfsentry_base64_decode): on success the result is the bytes stored; its length is
    what is left in *dest_spc. *)
Definition base64_decode (src : list Z) (dest_spc : Z) (junk : bool) : bout (list Z) :=
  if bufspc src >? dest_spc then BErr BUFFER_TOO_SMALL
  else match dec_loop junk dest_spc src (mkdst 0 0 0 []) with
       | BOk s => dec_finish dest_spc s
       | BErr e => BErr e
       | BOOB => BOOB
       end.
