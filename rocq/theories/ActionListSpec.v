(** What a user expects of action lists: ordered sets of labels. *)
From Verif Require Import Base Links ActionList.
Open Scope N_scope.

Fixpoint put_after (pt x : label) (l : list label) : list label :=
  match l with [] => [] | y :: r => if label_dec y pt then y :: x :: r else y :: put_after pt x r end.
Fixpoint take_out (x : label) (l : list label) : list label :=
  match l with [] => [] | y :: r => if label_dec y x then r else y :: take_out x r end.
Definition isin (x : label) (l : list label) : bool := existsb (label_eqb x) l.
Definition change (L : list_id -> list label) (i : list_id) (l : list label) : list_id -> list label := fun j => if j =? i then l else L j.

(** A label argument that must name a registered action ([T]: the labels registered); [mem]: memory for the call; [full]: the action
    cannot be referred to once more (2^32 - 1 references). *)
Definition named (T : list label) (g : larg) (mem full : bool) : err :=
  match g with
  | Lit [] => INVALID_ARG
  | _ => if (32 <? length (lab g))%nat then STRING_ARG_TOO_LONG else if negb mem then SYS_RESOURCE_FAILED
         else if negb (isin (lab g) T) then ITEM_NOT_FOUND else if full then OVERFLOW_AVERTED else OK
  end.
Definition well_formed (g : larg) (mem : bool) : err :=
  match g with
  | Lit [] => INVALID_ARG
  | _ => if (32 <? length (lab g))%nat then STRING_ARG_TOO_LONG else if negb mem then SYS_RESOURCE_FAILED
         else match lab g with [] => INVALID_ARG | _ => OK end
  end.
(** The new labels registered and the new lists; the error tells whether anything changed. *)
Definition expected (full full2 : bool) (T : list label) (L : list_id -> list label) (o : op) : err * list label * (list_id -> list label) :=
  match o with
  | Append i g t m | Prepend i g t m =>
    match named T g t full with
    | OK => if isin (lab g) (L i) then (ITEM_ALREADY_PRESENT, T, L)
            else match m with
                 | None => (SYS_RESOURCE_FAILED, T, L)
                 | Some _ => (OK, T, change L i (match o with Append _ _ _ _ => L i ++ [lab g] | _ => lab g :: L i end))
                 end
    | e => (e, T, L)
    end
  | InsertAfter i g p t t2 m =>
    match named T g t full with
    | OK => match named T p t2 full2 with
            | OK => if isin (lab g) (L i) then (ITEM_ALREADY_PRESENT, T, L)
                    else if negb (isin (lab p) (L i)) then (ITEM_NOT_FOUND, T, L)
                    else match m with
                         | None => (SYS_RESOURCE_FAILED, T, L)
                         | Some _ => (OK, T, change L i (put_after (lab p) (lab g) (L i)))
                         end
            | e => (e, T, L)
            end
    | e => (e, T, L)
    end
  | Remove i g => if isin (lab g) (L i) then (OK, T, change L i (take_out (lab g) (L i))) else (ITEM_NOT_FOUND, T, L)
  | Register g m =>
    match well_formed g m with OK => if isin (lab g) T then (ITEM_ALREADY_PRESENT, T, L) else (OK, lab g :: T, L) | e => (e, T, L) end
  | Unregister g =>
    match well_formed g true with OK => if isin (lab g) T then (OK, take_out (lab g) T, L) else (ITEM_NOT_FOUND, T, L) | e => (e, T, L) end
  end.
(** [full] may only be claimed of an action that is on some 2^32 lists. *)
Definition crowded (L : list_id -> list label) (x : label) : Prop :=
  exists ids, NoDup ids /\ (forall i, In i ids -> In x (L i)) /\ u32_max <= N.of_nat (length ids) + 2.
Definition labels_of (o : op) : label * label :=
  match o with
  | Append _ g _ _ | Prepend _ g _ _ | Remove _ g | Register g _ | Unregister g => (lab g, lab g)
  | InsertAfter _ g p _ _ _ => (lab g, lab p)
  end.
(** [follows T L os es T' L']: a history of calls with the results and effects expected. *)
Inductive follows : list label -> (list_id -> list label) -> list op -> list err -> list label -> (list_id -> list label) -> Prop :=
| F_nil T L : follows T L [] [] T L
| F_step T L o os e es T1 L1 T2 L2 f f2 : expected f f2 T L o = (e, T1, L1) ->
    (f = true -> crowded L (fst (labels_of o))) -> (f2 = true -> crowded L (snd (labels_of o))) ->
    follows T1 L1 os es T2 L2 -> follows T L (o :: os) (e :: es) T2 L2.
(** Histories for which the code keeps its promise: an entry is put after the last one only with a block of memory whose stale
    "next" is NULL, and no action is registered under a label that is still on a list. *)
Definition careful (L : list_id -> list label) (o : op) : Prop :=
  match o with
  | InsertAfter i _ p _ _ (Some g) => (exists l, L i = l ++ [lab p]) -> nxt g = None
  | Register g _ => forall i, ~ In (lab g) (L i)
  | _ => True
  end.
(** Carefulness along a history, whatever the reference counts say. *)
Inductive careful_run : list label -> (list_id -> list label) -> list op -> Prop :=
| CR_nil T L : careful_run T L []
| CR_step T L o os : careful L o ->
    (forall f f2 e T1 L1, expected f f2 T L o = (e, T1, L1) -> careful_run T1 L1 os) -> careful_run T L (o :: os).
