(** Shared counters and flag words of the thread-safe build: compare-and-swap loops, any number of threads. *)
From Verif Require Import Base.
Open Scope N_scope.

(** The operations: the "safe" increment and decrement of wolfsentry_util.h 230-281 (counters, reference counts), the flag
    update 193-210 and the reset 212-227. *)
Inductive op := OInc (x : N) | ODec (x : N) | OFlags (set clr : N) | OReset.
(** What the caller gets: [out] of the counters; [*(pre_i)] and [*(post_i)] of the flag update; [*(pre_i)] of the reset. *)
Inductive outv := Out (o : N) | PrePost (pre post : N) | Pre (pre : N).
(** One turn of the loop with the value read: leave the loop with a result, or try to swap in [post]. *)
Inductive turn := Leave (r : outv) | Swap (post : N) (r : outv).
Definition body (max : N) (o : op) (pre : N) : turn :=
  match o with
  | OInc x => if max - pre <? x then Leave (Out 0)                              (* 235-238 *)
              else let post := (pre + x) mod (max + 1) in                       (* 239, the cast *)
                   if post =? pre then Leave (Out post) else Swap post (Out post) (* 240-249 *)
  | ODec x => if pre <? x then Leave (Out max)                                  (* 264-267 *)
              else let post := pre - x in
                   if post =? pre then Leave (Out post) else Swap post (Out post) (* 268-278 *)
  | OFlags set clr => let post := N.ldiff (N.lor pre set) clr in               (* 197 *)
                   if post =? pre then Leave (PrePost pre post) else Swap post (PrePost pre post)
  | OReset => if pre =? 0 then Leave (Pre pre) else Swap 0 (Pre pre)            (* 216-225 *)
  end.

(** A thread is between operations, has read the word, or is about to compare and swap. *)
Inductive pc := Idle | Loaded (o : op) (pre : N) | Swapping (o : op) (pre post : N) (r : outv).
Record state := mkS { val : N; pcs : nat -> pc; progs : nat -> list op; results : nat -> list outv }.
Definition upd {A} (f : nat -> A) (i : nat) (x : A) : nat -> A := fun j => if Nat.eqb j i then x else f j.

(** Thread [i] takes its next step: the initial load, the local computation, or the compare-and-swap, which on failure loads
    the current value (the strong, sequentially consistent builtin). *)
Definition step (max : N) (i : nat) (s : state) : state :=
  match pcs s i with
  | Idle => match progs s i with
            | [] => s
            | o :: rest => mkS (val s) (upd (pcs s) i (Loaded o (val s))) (upd (progs s) i rest) (results s)
            end
  | Loaded o pre => match body max o pre with
            | Leave r => mkS (val s) (upd (pcs s) i Idle) (progs s) (upd (results s) i (results s i ++ [r]))
            | Swap post r => mkS (val s) (upd (pcs s) i (Swapping o pre post r)) (progs s) (results s)
            end
  | Swapping o pre post r =>
            if val s =? pre then mkS post (upd (pcs s) i Idle) (progs s) (upd (results s) i (results s i ++ [r]))
            else mkS (val s) (upd (pcs s) i (Loaded o (val s))) (progs s) (results s)
  end.
(** A schedule is any sequence of thread numbers. *)
Definition run (max : N) (sched : list nat) (s : state) : state := fold_left (fun s i => step max i s) sched s.
Definition start (v : N) (p : nat -> list op) : state := mkS v (fun _ => Idle) p (fun _ => []).
