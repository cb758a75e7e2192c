(** * What numerals in configurations mean *)
Require Import ZArith List Bool.
From Verif Require Import Json JsonSpec.
Import ListNotations.
Open Scope Z_scope.

(** ** JSON integers *)
Fixpoint digits_value (base : Z) (acc : Z) (ds : list Z) : Z :=
  match ds with [] => acc | d :: r => digits_value base (base * acc + d) r end.
Definition decimal (text : list Z) : Z := digits_value 10 0 (map (fun c => c - 48) text).
(** The text of a JSON number without fraction and exponent, and its value. *)
Definition json_integer (text : list Z) (v : Z) : Prop :=
  exists i, int_part i /\ (text = i /\ v = decimal i \/ text = 45 :: i /\ v = - decimal i).

(** ** C numerals: decimal, octal (leading 0) or hexadecimal (leading 0x), with a sign, after blanks *)
Definition blank (c : Z) : Prop := c = 32 \/ 9 <= c <= 13.
Inductive digit_of (base : Z) : Z -> Z -> Prop :=
| d_num : forall c, 48 <= c <= 57 -> c - 48 < base -> digit_of base c (c - 48)
| d_low : forall c, 97 <= c <= 122 -> c - 87 < base -> digit_of base c (c - 87)
| d_up : forall c, 65 <= c <= 90 -> c - 55 < base -> digit_of base c (c - 55).
Inductive magnitude : list Z -> Z -> Prop :=
| m_dec : forall c l ds, c <> 48 -> Forall2 (digit_of 10) (c :: l) ds -> magnitude (c :: l) (digits_value 10 0 ds)
| m_oct : forall l ds, Forall2 (digit_of 8) l ds -> magnitude (48 :: l) (digits_value 8 0 ds)
| m_hex : forall x c l ds, x = 120 \/ x = 88 -> Forall2 (digit_of 16) (c :: l) ds -> magnitude (48 :: x :: c :: l) (digits_value 16 0 ds).
Inductive signed : list Z -> Z -> Prop :=
| s_none : forall l v, magnitude l v -> signed l v
| s_plus : forall l v, magnitude l v -> signed (43 :: l) v
| s_minus : forall l v, magnitude l v -> signed (45 :: l) (- v).
Definition c_numeral (text : list Z) (v : Z) : Prop :=
  exists blanks l, text = blanks ++ l /\ Forall blank blanks /\ signed l v.

(** ** Units of durations *)
Inductive unit_suffix : list Z -> Z -> Prop :=
| u_none : unit_suffix [] 1
| u_s : unit_suffix [115] 1
| u_m : unit_suffix [109] 60
| u_h : unit_suffix [104] 3600
| u_d : unit_suffix [100] 86400.
