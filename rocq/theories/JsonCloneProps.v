(** C76: a copy of a JSON value is the same value, or the copying fails. *)
Require Import ZArith List Bool Lia.
From Verif Require Import JsonClone JsonCloneSpec.
Import ListNotations.
Open Scope Z_scope.

Fixpoint cv_ind' (P : cv -> Prop) (U : P Uninit) (L : forall x, P (Leaf x)) (A : forall a l, Forall P l -> P (Arr a l))
  (O : forall o m, Forall (fun kx => P (snd kx)) m -> P (Obj o m)) (v : cv) : P v :=
  match v with
  | Uninit => U
  | Leaf x => L x
  | Arr a l => A a l ((fix go l : Forall P l := match l with [] => Forall_nil _ | x :: l => Forall_cons x (cv_ind' P U L A O x) (go l) end) l)
  | Obj o m => O o m ((fix go m : Forall (fun kx => P (snd kx)) m := match m with [] => Forall_nil _ | kx :: m => Forall_cons kx (cv_ind' P U L A O (snd kx)) (go m) end) m)
  end.

(** While the allocator has memory (and answers requests for 0 bytes with a pointer too), the copy succeeds and is the same value:
    every member, at every depth, in the same order. *)
Theorem C76_copy_partial : forall ans v, whole v -> (forall k zero, ans k zero = true) -> forall n, exists n', clone ans n v = Some (n', 0, v).
Proof.
  intros ans v W A. revert W. induction v as [|x|a l IH|o m IH] using cv_ind'; intros W n; [inversion W| | |].
  - destruct x as [| | |s]; try (eexists; reflexivity). cbn [clone]. rewrite A. destruct (long s); eexists; reflexivity.
  - inversion W as [|? ? F|]; subst. cbn [clone]. rewrite !A. cbn [negb]. generalize (S (S n)) as k. assert (G : forall rest k done, Forall (fun v => whole v -> forall n, exists n', clone ans n v = Some (n', 0, v)) rest -> Forall whole rest ->
      exists n', (fix elements (n : nat) (rest done : list cv) {struct rest} : option (nat * Z * cv) :=
        match rest with
        | [] => Some (n, 0, Arr a done)
        | x :: rest => match clone ans n x with
                       | None => None
                       | Some (n, r, y) => if r <? 0 then Some (n, r, Arr a (done ++ y :: map (fun _ => Uninit) rest))
                                           else elements n rest (done ++ [y])
                       end
        end) k rest done = Some (n', 0, Arr a (done ++ rest))).
    { induction rest as [|x rest IHr]; intros k done I' F'; [rewrite app_nil_r; eexists; reflexivity|]. inversion I' as [|? ? Ix Ir]; inversion F' as [|? ? Fx Fr]; subst.
      destruct (Ix Fx k) as [n' E]. rewrite E. cbn [Z.ltb Z.compare]. destruct (IHr n' (done ++ [x]) Ir Fr) as [n'' E']. rewrite E'. rewrite <- app_assoc. eexists; reflexivity. }
    intros k. destruct (G l k [] IH F) as [n' E]. exists n'. exact E.
  - inversion W as [| |? ? F]; subst.
    assert (AM : forall n k, exists n', add_member ans n k = (n', true)) by (intros q k; unfold add_member; rewrite !A; cbn [negb]; destruct (long k); eexists; reflexivity).
    cbn [clone]. rewrite !A. cbn [negb]. destruct o.
    + assert (G : forall rest k done, Forall (fun kx => whole (snd kx) -> forall n, exists n', clone ans n (snd kx) = Some (n', 0, snd kx)) rest -> Forall (fun kx => whole (snd kx)) rest ->
      exists n', (fix members (n : nat) (r : Z) (rest done : list (list Z * cv)) {struct rest} : option (nat * Z * cv) :=
        let leave n r := if r <? 0 then if fini (Obj true done) then Some (n, r, Leaf LNull) else None
                         else Some (n, r, Obj true done) in
        match rest with
        | [] => leave n r
        | (k, x) :: rest =>
          let '(n, ok) := add_member ans n k in
          if negb ok then leave n ERR_OUTOFMEMORY
          else match clone ans n x with None => None | Some (n, r, y) => members n r rest (done ++ [(k, y)]) end
        end) k 0 rest done = Some (n', 0, Obj true (done ++ rest))).
      { induction rest as [|[kk x] rest IHr]; intros k done I' F'; [rewrite app_nil_r; eexists; reflexivity|]. inversion I' as [|? ? Ix Ir]; inversion F' as [|? ? Fx Fr]; subst. cbn [snd] in *.
        destruct (AM k kk) as [n1 E1]. rewrite E1. cbn [negb]. destruct (Ix Fx n1) as [n' E]. rewrite E. destruct (IHr n' (done ++ [(kk, x)]) Ir Fr) as [n'' E']. cbv zeta in E'. rewrite E'. rewrite <- app_assoc. eexists; reflexivity. }
      destruct (G m (S n) [] IH F) as [n' E]. exists n'. exact E.
    + assert (G : forall rest k done, Forall (fun kx => whole (snd kx) -> forall n, exists n', clone ans n (snd kx) = Some (n', 0, snd kx)) rest -> Forall (fun kx => whole (snd kx)) rest ->
      exists n', (fix members (n : nat) (rest done : list (list Z * cv)) {struct rest} : option (nat * Z * cv) :=
        match rest with
        | [] => Some (n, 0, Obj false done)
        | (k, x) :: rest =>
          let '(n, ok) := add_member ans n k in
          if negb ok then Some (n, ERR_OUTOFMEMORY, Obj false done)
          else match clone ans n x with
               | None => None
               | Some (n, r, y) => if r <? 0 then Some (n, r, Obj false (done ++ [(k, y)])) else members n rest (done ++ [(k, y)])
               end
        end) k rest done = Some (n', 0, Obj false (done ++ rest))).
      { induction rest as [|[kk x] rest IHr]; intros k done I' F'; [rewrite app_nil_r; eexists; reflexivity|]. inversion I' as [|? ? Ix Ir]; inversion F' as [|? ? Fx Fr]; subst. cbn [snd] in *.
        destruct (AM k kk) as [n1 E1]. rewrite E1. cbn [negb]. destruct (Ix Fx n1) as [n' E]. rewrite E. cbn [Z.ltb Z.compare]. destruct (IHr n' (done ++ [(kk, x)]) Ir Fr) as [n'' E']. rewrite E'. rewrite <- app_assoc. eexists; reflexivity. }
      destruct (G m (S (S n)) [] IH F) as [n' E]. exists n'. exact E.
Qed.
Print Assumptions C76_copy_partial.

(** Whatever the allocator refuses: a value without order-keeping dictionaries is either copied and the copy is the same value, or an
    error is returned; nothing undefined happens on the way. *)
Theorem C76_success_partial : forall ans v, whole v -> unordered v -> forall n, exists n' r v', clone ans n v = Some (n', r, v') /\ (r < 0 \/ r = 0 /\ v' = v).
Proof.
  intros ans v W. induction v as [|x|a l IH|o m IH] using cv_ind'; intros U n; [inversion W| | |].
  - destruct x as [| | |s]; try (do 3 eexists; split; [reflexivity|right; split; reflexivity]). cbn [clone]. destruct (long s); [destruct (ans n false)|]; do 3 eexists; (split; [reflexivity|]); [right|left|right]; try (split; reflexivity); lia.
  - inversion W as [|? ? F|]; inversion U as [|? ? FU|]; subst. cbn [clone]. destruct (negb (ans n false)); [do 3 eexists; split; [reflexivity|left; lia]|].
    destruct (negb (ans (S n) _)); [do 3 eexists; split; [reflexivity|left; lia]|].
    assert (G : forall rest k done, Forall (fun v => whole v -> unordered v -> forall n, exists n' r v', clone ans n v = Some (n', r, v') /\ (r < 0 \/ r = 0 /\ v' = v)) rest -> Forall whole rest -> Forall unordered rest ->
      exists n' r v', (fix elements (n : nat) (rest done : list cv) {struct rest} : option (nat * Z * cv) :=
        match rest with
        | [] => Some (n, 0, Arr a done)
        | x :: rest => match clone ans n x with
                       | None => None
                       | Some (n, r, y) => if r <? 0 then Some (n, r, Arr a (done ++ y :: map (fun _ => Uninit) rest))
                                           else elements n rest (done ++ [y])
                       end
        end) k rest done = Some (n', r, v') /\ (r < 0 \/ r = 0 /\ v' = Arr a (done ++ rest))).
    { induction rest as [|x rest IHr]; intros k done I' F' U'; [rewrite app_nil_r; do 3 eexists; split; [reflexivity|right; split; reflexivity]|]. inversion I' as [|? ? Ix Ir]; inversion F' as [|? ? Fx Fr]; inversion U' as [|? ? Ux Ur]; subst.
      destruct (Ix Fx Ux k) as (n' & r & y & E & D). rewrite E. destruct (Z.ltb_spec r 0) as [N|N]; [do 3 eexists; split; [reflexivity|left; exact N]|].
      destruct D as [D|[-> ->]]; [lia|]. destruct (IHr n' (done ++ [x]) Ir Fr Ur) as (n2 & r2 & v2 & E2 & D2). rewrite <- app_assoc in D2. exists n2, r2, v2. split; [exact E2|exact D2]. }
    exact (G l (S (S n)) [] IH F FU).
  - inversion W as [| |? ? F]; inversion U as [| |? FU]; subst. cbn [clone]. destruct (negb (ans n false)); [do 3 eexists; split; [reflexivity|left; lia]|].
    destruct (negb (ans (S n) _)); [do 3 eexists; split; [reflexivity|left; unfold ERR_OUTOFMEMORY; lia]|].
    assert (G : forall rest k done, Forall (fun kx => whole (snd kx) -> unordered (snd kx) -> forall n, exists n' r v', clone ans n (snd kx) = Some (n', r, v') /\ (r < 0 \/ r = 0 /\ v' = snd kx)) rest ->
      Forall (fun kx => whole (snd kx)) rest -> Forall (fun kx => unordered (snd kx)) rest ->
      exists n' r v', (fix members (n : nat) (rest done : list (list Z * cv)) {struct rest} : option (nat * Z * cv) :=
        match rest with
        | [] => Some (n, 0, Obj false done)
        | (k, x) :: rest =>
          let '(n, ok) := add_member ans n k in
          if negb ok then Some (n, ERR_OUTOFMEMORY, Obj false done)
          else match clone ans n x with
               | None => None
               | Some (n, r, y) => if r <? 0 then Some (n, r, Obj false (done ++ [(k, y)])) else members n rest (done ++ [(k, y)])
               end
        end) k rest done = Some (n', r, v') /\ (r < 0 \/ r = 0 /\ v' = Obj false (done ++ rest))).
    { induction rest as [|[kk x] rest IHr]; intros k done I' F' U'; [rewrite app_nil_r; do 3 eexists; split; [reflexivity|right; split; reflexivity]|]. inversion I' as [|? ? Ix Ir]; inversion F' as [|? ? Fx Fr]; inversion U' as [|? ? Ux Ur]; subst. cbn [snd] in *.
      destruct (add_member ans k kk) as [n1 ok]. destruct ok; cbn [negb]; [|do 3 eexists; split; [reflexivity|left; unfold ERR_OUTOFMEMORY; lia]].
      destruct (Ix Fx Ux n1) as (n' & r & y & E & D). rewrite E. destruct (Z.ltb_spec r 0) as [N|N]; [do 3 eexists; split; [reflexivity|left; exact N]|].
      destruct D as [D|[-> ->]]; [lia|]. destruct (IHr n' (done ++ [(kk, x)]) Ir Fr Ur) as (n2 & r2 & v2 & E2 & D2). rewrite <- app_assoc in D2. exists n2, r2, v2. split; [exact E2|exact D2]. }
    exact (G m (S (S n)) [] IH F FU).
Qed.
Print Assumptions C76_success_partial.

(** With order-keeping dictionaries this is false: each member's result replaces that of the one before (1930), so a failure is
    forgotten at the next member.  Here the allocator refuses one request; success is reported, but a string has become a null. *)
Definition refuse (j : nat) : allocator := fun k _ => negb (Nat.eqb k j).
Definition text : list Z := repeat 65 14.
Definition record : cv := Obj true [([97], Leaf (LString text)); ([98], Leaf (LBool true))].
Theorem C76_lost_refuted : whole record /\ exists ans n', clone ans 0 record = Some (n', 0, Obj true [([97], Leaf LNull); ([98], Leaf (LBool true))]).
Proof. split; [repeat constructor|]. exists (refuse 2). eexists. vm_compute. reflexivity. Qed.
Print Assumptions C76_lost_refuted.
(** Or success is reported for a copy with uninitialised memory in it: every walk over it, and destroying it, is undefined. *)
Definition nested : cv := Obj true [([97], Arr 2 [Leaf (LString text); Leaf (LBool true)]); ([98], Leaf (LBool true))].
Theorem C76_garbage_refuted : whole nested /\ exists ans n', clone ans 0 nested = Some (n', 0, Obj true [([97], Arr 2 [Leaf LNull; Uninit]); ([98], Leaf (LBool true))]).
Proof. split; [repeat constructor|]. exists (refuse 4). eexists. vm_compute. reflexivity. Qed.
Print Assumptions C76_garbage_refuted.
(** If such an array is in the last member, the failure is noticed, and the destruction of the copy is undefined. *)
Definition last_nested : cv := Obj true [([97], Arr 2 [Leaf (LString text); Leaf (LBool true)])].
Theorem C76_destroys_garbage_refuted : whole last_nested /\ exists ans, clone ans 0 last_nested = None.
Proof. split; [repeat constructor|]. exists (refuse 4). vm_compute. reflexivity. Qed.
Print Assumptions C76_destroys_garbage_refuted.
(** An allocator that answers NULL to requests for 0 bytes only (as the standard allows and FreeRTOS' does) makes the copying of empty
    arrays and dictionaries fail for lack of memory. *)
Theorem C76_empty_refuted n : exists n1 n2 v1 v2,
  clone (fun _ zero => negb zero) n (Arr 0 []) = Some (n1, -1, v1) /\ clone (fun _ zero => negb zero) n (Obj false []) = Some (n2, ERR_OUTOFMEMORY, v2).
Proof. do 4 eexists. split; reflexivity. Qed.
Print Assumptions C76_empty_refuted.

(** A document of three levels, with enough memory and without. *)
Definition example_doc : cv := Obj false [([97], Arr 4 [Leaf (LInt 32 7); Leaf (LString text); Obj false [([98], Leaf LNull)]]); (text, Leaf (LString text))].
Example C76_hyps : whole example_doc /\ unordered example_doc.
Proof. split; repeat constructor. Qed.
Example C76_copied : clone (fun _ _ => true) 0 example_doc = Some (12%nat, 0, example_doc).
Proof. vm_compute. reflexivity. Qed.
Example C76_failed : option_map (fun r => snd (fst r)) (clone (refuse 9) 0 example_doc) = Some ERR_OUTOFMEMORY.
Proof. vm_compute. reflexivity. Qed.
