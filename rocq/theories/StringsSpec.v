(** Vocabulary of C77. *)
Require Import ZArith List String Bool.
From Verif Require Import Strings.
Import ListNotations.
Open Scope Z_scope.

(** A call of one of the two registration functions. *)
Inductive registration := ForSource (id : Z) (x : text) | ForCode (id : Z) (x : text).
Definition register (r : registry) (c : registration) : option (registry * Z) :=
  match c with ForSource id x => source_string_set r id x | ForCode id x => error_string_set r id x end.
(** The program's registrations, in order; each of them may succeed or fail. *)
Inductive history : list registration -> registry -> Prop :=
| history_nil : history [] at_start
| history_snoc l r c r' result : history l r -> register r c = Some (r', result) -> history (l ++ [c]) r'.

(** The first text (not a null pointer) that was given for it. *)
Fixpoint first_for_code (l : list registration) (c : Z) : option string :=
  match l with
  | [] => None
  | ForCode id (Text s) :: l => if id =? c then Some s else first_for_code l c
  | _ :: l => first_for_code l c
  end.
Fixpoint first_for_source (l : list registration) (c : Z) : option string :=
  match l with
  | [] => None
  | ForSource id (Text s) :: l => if id =? c then Some s else first_for_source l c
  | _ :: l => first_for_source l c
  end.
(** The identifiers left to the application. *)
Definition user_source (id : Z) : Prop := 112 <= id <= 127.
Definition user_error (id : Z) : Prop := -255 <= id <= -128.
Definition user_success (id : Z) : Prop := 128 <= id <= 255.
