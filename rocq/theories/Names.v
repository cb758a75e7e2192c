(** Names of route flags and of action results: src/routes.c 3784-3834, src/wolfsentry_util.c 357-428. *)
From Coq Require Import String Ascii.
From Verif Require Import Base Table.
Open Scope N_scope.

Fixpoint bytes (s : string) : list N := match s with EmptyString => [] | String c r => N_of_ascii c :: bytes r end.

(** routes.c 3789-3805 *)
Definition flag_names : list (N * string) := [
  (1, "af-wild");
  (2, "raddr-wild");
  (32, "rport-wild");
  (16, "laddr-wild");
  (8, "lport-wild");
  (64, "riface-wild");
  (128, "liface-wild");
  (512, "tcplike-port-numbers");
  (1024, "direction-in");
  (2048, "direction-out");
  (1048576, "penalty-boxed");
  (2097152, "green-listed");
  (4194304, "dont-count-hits");
  (8388608, "dont-count-current-connections");
  (16777216, "port-reset")
]%string.
(** util.c 359-396 *)
Definition res_names : list (N * string) := [
  (0, "none");
  (1, "accept");
  (2, "reject");
  (4, "connect");
  (8, "disconnect");
  (16, "derogatory");
  (32, "commendable");
  (64, "stop");
  (128, "deallocated");
  (256, "inserted");
  (512, "error");
  (1024, "fallthrough");
  (2048, "update");
  (4096, "port-reset");
  (8192, "sending");
  (16384, "received");
  (32768, "binding");
  (65536, "listening");
  (131072, "stopped-listening");
  (262144, "connecting-out");
  (524288, "closed");
  (1048576, "unreachable");
  (2097152, "sock-error");
  (4194304, "close-wait");
  (8388608, "reserved-23");
  (16777216, "user+0");
  (33554432, "user+1");
  (67108864, "user+2");
  (134217728, "user+3");
  (268435456, "user+4");
  (536870912, "user+5");
  (1073741824, "user+6");
  (2147483648, "user+7")
]%string.
Definition table_of (t : list (N * string)) : list (N * list N) := map (fun x => (fst x, bytes (snd x))) t.

(** strncmp(a, b, n) == 0 on two pieces of memory; reading past the end of either is undefined. *)
Fixpoint strneq (a b : list N) (n : nat) : out bool :=
  match n with
  | O => Ret true
  | S n => match a, b with
           | x :: a, y :: b => if x =? y then (if x =? 0 then Ret true else strneq a b n) else Ret false
           | _, _ => UB
           end
  end.
Fixpoint strlen (a : list N) : out nat :=
  match a with
  | [] => UB
  | x :: a => if x =? 0 then Ret O else let* n := strlen a in Ret (S n)
  end.
(** routes.c 3807-3816 *)
Fixpoint by_flag (t : list (N * list N)) (flag : N) : option (list N) :=
  match t with [] => None | (f, nm) :: t => if f =? flag then Some nm else by_flag t flag end.
(** routes.c 3818-3834; a table entry is the name and its terminating 0; [buf] is the memory at the caller's pointer *)
Fixpoint by_name_1 (t : list (N * list N)) (buf : list N) (len : nat) : out (option N) :=
  match t with
  | [] => Ret None
  | (f, nm) :: t =>
    let* eq := strneq (nm ++ [0]) buf len in
    if eq then
      let* c := ub_none (nth_error (nm ++ [0]) len) in
      if c =? 0 then Ret (Some f) else by_name_1 t buf len
    else by_name_1 t buf len
  end.
Definition by_name (buf : list N) (len : Z) : out (option N) :=
  let* n := (if (len <? 0)%Z then strlen buf else Ret (Z.to_nat len)) in by_name_1 (table_of flag_names) buf n.
Definition flag_by_flag (flag : N) : option (list N) := by_flag (table_of flag_names) flag.

(** util.c 400-412; the result is None for NULL *)
Inductive res_name := OutOfRange | Unknown | Null | Name (s : list N).
Definition res_by_flag (res bit : N) : res_name :=
  if 31 <? bit then OutOfRange
  else if N.testbit res bit then match by_flag (table_of res_names) (2 ^ bit) with Some s => Name s | None => Unknown end
  else Null.
(** util.c 414-428 *)
Fixpoint res_by_name_1 (t : list (N * list N)) (buf : list N) (len : nat) : out (option N) :=
  match t with
  | [] => Ret None
  | (f, nm) :: t =>
    let* eq := strneq (nm ++ [0]) buf len in
    if eq && Nat.eqb (length nm) len then Ret (Some f) else res_by_name_1 t buf len
  end.
Definition res_by_name (buf : list N) (len : Z) : out (option N) :=
  let* n := (if (len <? 0)%Z then strlen buf else Ret (Z.to_nat len)) in res_by_name_1 (table_of res_names) buf n.
