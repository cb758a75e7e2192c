(** * Positions in a document, as a user counts them *)
Require Import ZArith List Bool Lia.
From Verif Require Import Json.
Import ListNotations.
Open Scope Z_scope.

Definition newline (c : Z) : bool := (c =? 13) || (c =? 10).

(** The number of line ends: CR, LF, or CR LF together. *)
Fixpoint line_ends (after_cr : bool) (text : list Z) : Z :=
  match text with
  | [] => 0
  | c :: text' =>
      (if c =? 13 then 1 else if (c =? 10) && negb after_cr then 1 else 0) + line_ends (c =? 13) text'
  end.

(** The text since the last CR or LF. *)
Definition last_line (text : list Z) : list Z :=
  fold_left (fun cur c => if newline c then [] else cur ++ [c]) text [].

(** Lines are counted from 1.  Columns are counted in bytes: from 1 on the first line, from 0 on the others (this is what
    the parser does; [C54_columns_refuted] is about it). *)
Definition line_at (text : list Z) : Z := 1 + line_ends false text.
Definition column_at (text : list Z) : Z :=
  Z.of_nat (length (last_line text)) + (if existsb newline text then 0 else 1).

(** The position reported is the one right after the text [before] (line and column are 32-bit counters). *)
Definition is_after (before : list Z) (x : jpos) : Prop :=
  p_off x = Z.of_nat (length before) /\ p_line x = u32w (line_at before) /\ p_col x = u32w (column_at before).

(** [x] is a position in [doc]: right after some beginning of it. *)
Definition position_in (doc : list Z) (x : jpos) : Prop :=
  exists before after, doc = before ++ after /\ is_after before x.
Definition nowhere (x : jpos) : Prop := x = JPos 0 0 0.
