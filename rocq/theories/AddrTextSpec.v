(** * What address texts say, independently of the code *)
Require Import ZArith List Bool.
Import ListNotations.
Open Scope Z_scope.

(** a hexadecimal digit and its value *)
Inductive hex : Z -> Z -> Prop :=
| hex_09 d : 0 <= d <= 9 -> hex (48 + d) d
| hex_AF d : 10 <= d <= 15 -> hex (65 + (d - 10)) d
| hex_af d : 10 <= d <= 15 -> hex (97 + (d - 10)) d.

(** MAC addresses: octets of one or two hexadecimal digits, separated by colons (58) *)
Inductive octet : list Z -> Z -> Prop :=
| octet1 c d : hex c d -> octet [c] d
| octet2 c d c' d' : hex c d -> hex c' d' -> octet [c; c'] (16 * d + d').
Inductive octets : list Z -> list Z -> Prop :=
| octets_one t b : octet t b -> octets t [b]
| octets_more t b r bs : octet t b -> octets r bs -> octets (t ++ 58 :: r) (b :: bs).
Definition mac_text (t b : list Z) : Prop := octets t b /\ (List.length b = 6%nat \/ List.length b = 8%nat).

(** CAN addresses: numbers in C notation *)
Fixpoint value (base acc : Z) (ds : list Z) : Z := match ds with [] => acc | d :: ds => value base (acc * base + d) ds end.
Definition digits (base : Z) (t ds : list Z) : Prop := Forall2 (fun c d => hex c d /\ d < base) t ds.
Inductive numeral : list Z -> Z -> Prop :=
| numeral_10 t ds : digits 10 t ds -> (forall r, t <> 48 :: r) -> t <> [] -> numeral t (value 10 0 ds)
| numeral_8 t ds : digits 8 t ds -> numeral (48 :: t) (value 8 0 ds)
| numeral_16 x t ds : x = 120 \/ x = 88 -> digits 16 t ds -> t <> [] -> numeral (48 :: x :: t) (value 16 0 ds).
Definition space (c : Z) : Prop := c = 32 \/ 9 <= c <= 13.
Inductive c_number : list Z -> Z -> Prop :=
| c_plain sp t v : Forall space sp -> numeral t v -> c_number (sp ++ t) v
| c_plus sp t v : Forall space sp -> numeral t v -> c_number (sp ++ 43 :: t) v
| c_minus sp t v : Forall space sp -> numeral t v -> c_number (sp ++ 45 :: t) (- v).
(** four bytes, the most significant first *)
Definition big_endian (b : list Z) (n : Z) : Prop :=
  exists b1 b2 b3 b4, b = [b1; b2; b3; b4] /\ Forall (fun x => 0 <= x < 256) b /\ n = ((b1 * 256 + b2) * 256 + b3) * 256 + b4.
