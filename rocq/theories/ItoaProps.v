(** C39: integer formatting is exact and bounded.
    Specification ([decimal] in ItoaProofs.v): a non-empty string of ASCII digits whose positional value
    is the number, without leading zero unless it is "0"; [decimal_unique] shows there is only one. *)
From Verif Require Import Base Itoa ItoaProofs.
Open Scope Z_scope.

(** For every int except INT_MIN and every amount of space: with [text] the decimal numeral (preceded by
    '-' for negatives), the formatter writes exactly [text] and reduces the space by its length, or, if
    the space is too small, reports BUFFER_TOO_SMALL.  The outcome [IUB] (write outside the space, signed
    overflow) does not occur. *)
Theorem C39_itoa_exact : forall i spc, i32_min < i <= i32_max -> 0 <= spc ->
  exists ds, decimal (Z.abs i) ds /\
    let text := if i <? 0 then 45 :: ds else ds in
    ws_itoa i spc = if spc <? Z.of_nat (length text) then IErr BUFFER_TOO_SMALL
                    else IOk text (spc - Z.of_nat (length text)).
Proof. exact itoa_lemma. Qed.
Print Assumptions C39_itoa_exact.

Theorem C39_decimal_unique : forall n ds1 ds2, decimal n ds1 -> decimal n ds2 -> ds1 = ds2.
Proof. exact decimal_unique. Qed.
Print Assumptions C39_decimal_unique.

Example C39_itoa_ex : ws_itoa (-2147483647) 11 = IOk [45;50;49;52;55;52;56;51;54;52;55] 0
  /\ ws_itoa 65535 4 = IErr BUFFER_TOO_SMALL /\ ws_itoa 0 1 = IOk [48] 0.
Proof. vm_compute. auto. Qed.

(** INT_MIN is outside: its negation overflows. The callers only pass 16-bit and smaller values. *)
Example C39_int_min : ws_itoa i32_min 100 = IUB.
Proof. reflexivity. Qed.
