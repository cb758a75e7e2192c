(** Specification of base64 (RFC 4648 section 4), independent of the decoder. *)
From Coq Require Import String Ascii.
From Verif Require Import Base.
Open Scope Z_scope.

Definition alphabet : list Z :=
  List.map (fun a => Z.of_nat (nat_of_ascii a))
    (list_ascii_of_string "ABCDEFGHIJKLMNOPQRSTUVWXYZabcdefghijklmnopqrstuvwxyz0123456789+/").
Definition b64char (sextet : Z) : Z := nth (Z.to_nat sextet) alphabet 0.
Definition EQ : Z := 61. (* '=' *)

(** Standard encoding with padding; [unpadded] omits the trailing '='. *)
Fixpoint encode (padded : bool) (bs : list Z) : list Z :=
  match bs with
  | [] => []
  | [a] => [b64char (a / 4); b64char ((a mod 4) * 16)] ++ (if padded then [EQ; EQ] else [])
  | [a; b] => [b64char (a / 4); b64char ((a mod 4) * 16 + b / 16); b64char ((b mod 16) * 4)]
              ++ (if padded then [EQ] else [])
  | a :: b :: c :: rest =>
      b64char (a / 4) :: b64char ((a mod 4) * 16 + b / 16) ::
      b64char ((b mod 16) * 4 + c / 64) :: b64char (c mod 64) :: encode padded rest
  end.

Definition is_byte (b : Z) : Prop := 0 <= b < 256.
Definition in_alphabet (c : Z) : Prop := In c alphabet.
(** A well-formed base64 text: alphabet characters in groups of four, the last group possibly completed
    by one or two '=' (or, unpadded, having two or three characters). *)
Definition wellformed (s : list Z) : Prop :=
  exists body p, s = body ++ repeat EQ p /\ Forall in_alphabet body /\
    ((p = 0%nat /\ (length body mod 4 <> 1)%nat) \/
     (p = 1%nat /\ (length body mod 4 = 3)%nat) \/
     (p = 2%nat /\ (length body mod 4 = 2)%nat)).

(** [clean] is [text] with some of the characters outside the alphabet left out. *)
Inductive without_junk : list Z -> list Z -> Prop :=
| wj_nil : without_junk [] []
| wj_keep c t u : without_junk t u -> without_junk (c :: t) (c :: u)
| wj_drop c t u : ~ in_alphabet c -> without_junk t u -> without_junk (c :: t) u.
