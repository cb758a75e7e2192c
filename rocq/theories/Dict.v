(** JSON dictionaries: src/json/centijson_value.c 105-144 and 1056-1821, over explicit memory.

    A dictionary is a red-black tree of nodes linked by pointers, with (optionally) a doubly linked list of the nodes in the
    order of their addition.  Pointers are [option addr]; dereferencing NULL, freed or never allocated memory, and writing
    behind the end of a path array, are undefined behaviour ([UB]).  The items' values are opaque ([None] is the fresh "new"
    null of json_value_init_new); destroying keys and values is taken to succeed. *)
From Verif Require Import Base Links Table.
Open Scope Z_scope.
Local Set Warnings "-notation-overridden".

Definition ptr := option addr.
Definition key := list Z.
Definition eqp (p q : ptr) : bool :=
  match p, q with Some a, Some b => Pos.eqb a b | None, None => true | _, _ => false end.

(** centijson_value.c 105-116 (struct RBTREE_tag) without the two order links, which are in [links]; the colour is the flag
    HAS_REDCOLOR of the key (92, 1061-1065). *)
Record node := mkn { n_left : ptr; n_right : ptr; n_red : bool; n_key : key; n_val : option Z }.

(** centijson_value.c 124-134 (struct DICT_tag) and the memory of the nodes. *)
Record dict := mkd { nodes : addr -> option node; links : lheap; root : ptr; size : Z; olist : lhdr }.

(** What is fixed when the dictionary is made (584-622: HAS_ORDERLIST, the comparison) or at compile time (LOG2_32 defined
    or not, WOLFSENTRY_NO_ALLOCA). *)
Record dcfg := mkcfg { ordered : bool; dcmp : key -> key -> Z; has_log2 : bool; no_alloca : bool }.

(** memcmp as it is used in 1091-1092: the first difference of the first [min len1 len2] bytes. *)
Fixpoint memcmp (a b : key) : Z :=
  match a, b with
  | x :: a', y :: b' => if x <? y then -1 else if y <? x then 1 else memcmp a' b'
  | _, _ => 0
  end.
(** centijson_value.c 1076-1099 (json_value_dict_default_cmp). *)
Definition default_cmp (k1 k2 : key) : Z :=
  let c := memcmp k1 k2 in
  let l1 := Z.of_nat (length k1) in let l2 := Z.of_nat (length k2) in
  if (c =? 0) && negb (l1 =? l2) then (if l1 <? l2 then -1 else 1) else c.

(** centijson_value.c 122 (RBTREE_MAX_HEIGHT, with 8-byte pointers). *)
Definition MAX_HEIGHT : nat := 128.
(** centijson_value.c 136-144 (rbtree_stack_size_needed), in pointers.  wolfsentry_util.h 68-69: LOG2_32(x) is
    31 - __builtin_clz((unsigned int)x), undefined for 0. *)
Definition stack_needed (cf : dcfg) (d : dict) : out nat :=
  if has_log2 cf then
    let x := (size d + 1) mod 2 ^ 32 in
    if x =? 0 then UB else Ret (2 * Z.to_nat (Z.log2 x))%nat
  else Ret (Nat.min (Z.to_nat (size d)) MAX_HEIGHT).
(** The path arrays: 1151-1155, 1367-1382 (one more for the new member), 1548-1564, 1739-1757. *)
Definition path_room (cf : dcfg) (d : dict) (extra : nat) : out nat :=
  if no_alloca cf then Ret MAX_HEIGHT else let* n := stack_needed cf d in Ret (n + extra)%nat.

Definition get_node (d : dict) (p : ptr) : out node := match p with Some a => ub_none (nodes d a) | None => UB end.
Definition set_node (d : dict) (p : ptr) (f : node -> node) : out dict :=
  match p with
  | Some a => match nodes d a with
              | Some n => Ret (mkd (upd (nodes d) a (Some (f n))) (links d) (root d) (size d) (olist d))
              | None => UB
              end
  | None => UB
  end.
Definition set_root (d : dict) (p : ptr) : dict := mkd (nodes d) (links d) p (size d) (olist d).
Definition set_left (d : dict) (p q : ptr) : out dict := set_node d p (fun n => mkn q (n_right n) (n_red n) (n_key n) (n_val n)).
Definition set_right (d : dict) (p q : ptr) : out dict := set_node d p (fun n => mkn (n_left n) q (n_red n) (n_key n) (n_val n)).
(** 1061-1065: MAKE_RED, MAKE_BLACK, TOGGLE_COLOR, IS_RED. *)
Definition set_red (d : dict) (p : ptr) (r : bool) : out dict := set_node d p (fun n => mkn (n_left n) (n_right n) r (n_key n) (n_val n)).
Definition toggle (d : dict) (p : ptr) : out dict := set_node d p (fun n => mkn (n_left n) (n_right n) (negb (n_red n)) (n_key n) (n_val n)).
Definition is_red (d : dict) (p : ptr) : out bool := let* n := get_node d p in Ret (n_red n).
(** [p != NULL && IS_RED(p)] *)
Definition red_and_there (d : dict) (p : ptr) : out bool := match p with None => Ret false | Some _ => is_red d p end.

(** ** Looking up *)
(** centijson_value.c 1198-1217 (json_value_dict_get_): gives the item's node.  A walk longer than the number of items means a
    cycle. *)
Fixpoint find (cf : dcfg) (d : dict) (k : key) (fuel : nat) (p : ptr) : out ptr :=
  match p with
  | None => Ret None
  | Some _ =>
    match fuel with
    | O => Diverge
    | S fuel =>
      let* n := get_node d p in
      let c := dcmp cf k (n_key n) in
      if c <? 0 then find cf d k fuel (n_left n) else if c >? 0 then find cf d k fuel (n_right n) else Ret p
    end
  end.
Definition dict_get (cf : dcfg) (d : dict) (k : key) : out ptr := find cf d k (Z.to_nat (size d)) (root d).

(** ** Rotations: 1224-1239 and 1241-1256 *)
Definition rotate_left (d : dict) (parent node : ptr) : out dict :=
  let* n := get_node d node in
  let tmp := n_right n in
  let* t := get_node d tmp in
  let* d := set_right d node (n_left t) in
  let* d := set_left d tmp node in
  match parent with
  | Some _ =>
    let* p := get_node d parent in
    if eqp (n_left p) node then set_left d parent tmp
    else if eqp (n_right p) node then set_right d parent tmp
    else Ret d
  | None => Ret (set_root d tmp)
  end.
Definition rotate_right (d : dict) (parent node : ptr) : out dict :=
  let* n := get_node d node in
  let tmp := n_left n in
  let* t := get_node d tmp in
  let* d := set_left d node (n_right t) in
  let* d := set_right d tmp node in
  match parent with
  | Some _ =>
    let* p := get_node d parent in
    if eqp (n_right p) node then set_right d parent tmp
    else if eqp (n_left p) node then set_left d parent tmp
    else Ret d
  | None => Ret (set_root d tmp)
  end.

(** ** Adding *)
(** The path array is the list of its entries, the last one first: [path[path_len-1]] is the head, [path_len] the length. *)
Definition top (path : list ptr) : ptr := match path with p :: _ => p | [] => None end.   (* the last entry, or NULL if there is none *)
(** centijson_value.c 1258-1325 (json_value_dict_fix_after_insert). *)
Fixpoint fix_after_insert (d : dict) (path : list ptr) : out dict :=
  match path with
  | [] => UB
  | node :: up =>
    match up with
    | [] | None :: _ =>
      let* d := set_red d node false in
      Ret (set_root d node)
    | parent :: up2 =>
      let* pred := is_red d parent in
      if negb pred then Ret d else
      match up2 with
      | [] => UB
      | grandparent :: up3 =>
        let* g := get_node d grandparent in
        let uncle := if eqp (n_left g) parent then n_right g else n_left g in
        let* ured := red_and_there d uncle in
        if negb ured then
          let grandgrandparent := top up3 in
          let* inner_l := match n_left g with None => Ret false | Some _ => let* x := get_node d (n_left g) in Ret (eqp (n_right x) node) end in
          let* (d, parent, node) :=
            if inner_l then
              let* d := rotate_left d grandparent parent in
              let* n := get_node d node in Ret (d, node, n_left n)
            else
              let* inner_r := match n_right g with None => Ret false | Some _ => let* x := get_node d (n_right g) in Ret (eqp (n_left x) node) end in
              if inner_r then
                let* d := rotate_right d grandparent parent in
                let* n := get_node d node in Ret (d, node, n_right n)
              else Ret (d, parent, node) in
          let* p := get_node d parent in
          let* d := if eqp (n_left p) node then rotate_right d grandgrandparent grandparent
                    else rotate_left d grandgrandparent grandparent in
          let* d := set_red d parent false in
          set_red d grandparent true
        else
          let* d := set_red d parent false in
          let* d := set_red d uncle false in
          let* d := set_red d grandparent true in
          fix_after_insert d up2
      end
    end
  end.

(** centijson_value.c 1384-1397 and 1567-1580: go down to the key or to where it belongs, noting the path.  [room] is the
    number of unused entries of the array; the result is the path, the node if the key was found, and the last comparison. *)
Fixpoint descend (cf : dcfg) (d : dict) (k : key) (room : nat) (path : list ptr) (p : ptr) (c : Z) : out (list ptr * ptr * Z) :=
  match p with
  | None => Ret (path, None, c)
  | Some _ =>
    let* n := get_node d p in
    let c := dcmp cf k (n_key n) in
    match room with
    | O => UB
    | S room =>
      let path := p :: path in
      if c <? 0 then descend cf d k room path (n_left n) c
      else if c >? 0 then descend cf d k room path (n_right n) c
      else Ret (path, p, c)
    end
  end.

(** centijson_value.c 1357-1442 (json_value_dict_get_or_add_).  [m] is what the two allocations give: the address of the new
    node, or nothing if one of them fails.  Gives the item's node, or NULL for lack of memory. *)
Definition get_or_add (cf : dcfg) (d : dict) (k : key) (m : option addr) : out (dict * ptr) :=
  let* room := path_room cf d 1 in
  let* (path, found, c) := descend cf d k room [] (root d) 0 in
  match found with
  | Some _ => Ret (d, found)
  | None =>
    match m with
    | None => Ret (d, None)
    | Some a =>
      let node := Some a in
      let d := mkd (upd (nodes d) a (Some (mkn None None true k None))) (links d) (root d) (size d) (olist d) in
      (* 1416-1426 *)
      let* d :=
        if ordered cf then
          let l := upd (links d) a (Some (mklnk (ltail (olist d)) None)) in
          match ltail (olist d) with
          | Some t => let* l := ub_none (set_nxt l t node) in Ret (mkd (nodes d) l (root d) (size d) (mklhdr (lhead (olist d)) node))
          | None => Ret (mkd (nodes d) l (root d) (size d) (mklhdr node node))
          end
        else Ret d in
      (* 1428-1436 *)
      let* d := match path with
                | parent :: _ => if c <? 0 then set_left d parent node else set_right d parent node
                | [] => Ret (set_root d node)
                end in
      if (length path <? room)%nat then
        let* d := fix_after_insert d (node :: path) in
        Ret (mkd (nodes d) (links d) (root d) (size d + 1) (olist d), node)
      else UB
    end
  end.

(** centijson_value.c 1327-1342 (json_value_dict_add_), 309-313 (json_value_is_new). *)
Definition dict_add (cf : dcfg) (d : dict) (k : key) (m : option addr) : out (dict * ptr) :=
  let* (d, p) := get_or_add cf d k m in
  match p with
  | None => Ret (d, None)
  | Some _ => let* n := get_node d p in Ret (d, match n_val n with None => p | Some _ => None end)
  end.
(** The caller stores a value in the item it was given. *)
Definition dict_store (d : dict) (p : ptr) (v : Z) : out dict := set_node d p (fun n => mkn (n_left n) (n_right n) (n_red n) (n_key n) (Some v)).

(** ** Removing *)
(** centijson_value.c 1514-1524: black sibling whose far child is red. *)
Definition finish_remove (d : dict) (node parent grandparent sibling : ptr) : out dict :=
  let* sr := is_red d sibling in
  let* pr := is_red d parent in
  let* d := if Bool.eqb sr pr then Ret d else toggle d sibling in
  let* d := set_red d parent false in
  let* p := get_node d parent in
  let* s := get_node d sibling in
  if eqp node (n_left p) then
    let* d := set_red d (n_right s) false in
    rotate_left d grandparent parent
  else
    let* d := set_red d (n_left s) false in
    rotate_right d grandparent parent.
(** centijson_value.c 1459-1539 (json_value_dict_fix_after_remove); [cap] is the size of the array. *)
Fixpoint fix_after_remove (cap : nat) (fuel : nat) (d : dict) (path : list ptr) : out dict :=
  match fuel with
  | O => Diverge
  | S fuel =>
    match path with
    | [] => UB
    | node :: up =>
      let* nred := red_and_there d node in
      if nred then set_red d node false else
      match up with
      | [] | None :: _ => Ret d
      | parent :: up2 =>
        let* p := get_node d parent in
        let sibling := if eqp (n_left p) node then n_right p else n_left p in
        let grandparent := top up2 in
        let* sred := is_red d sibling in
        if sred then
          let* d := if eqp (n_left p) node then rotate_left d grandparent parent else rotate_right d grandparent parent in
          let* d := set_red d sibling false in
          let* d := set_red d parent true in
          (* path[path_len-2] = sibling; path[path_len-1] = parent; path[path_len++] = node *)
          if (length path <? cap)%nat then fix_after_remove cap fuel d (node :: parent :: sibling :: up2) else UB
        else
          let* s := get_node d sibling in
          let* lred := red_and_there d (n_left s) in
          let* rred := red_and_there d (n_right s) in
          if lred || rred then
            let* (d, sibling) :=
              if eqp node (n_left p) && negb rred then
                let* d := set_red d sibling true in
                let* d := set_red d (n_left s) false in
                let* d := rotate_right d parent sibling in
                let* p := get_node d parent in Ret (d, n_right p)
              else if eqp node (n_right p) && negb lred then
                let* d := set_red d sibling true in
                let* d := set_red d (n_right s) false in
                let* d := rotate_left d parent sibling in
                let* p := get_node d parent in Ret (d, n_left p)
              else Ret (d, sibling) in
            finish_remove d node parent grandparent sibling
          else
            let* pr := is_red d parent in
            let* d := set_red d sibling true in
            if pr then set_red d parent false else fix_after_remove cap fuel d up
      end
    end
  end.

(** centijson_value.c 1111-1122 (json_value_dict_leftmost_path): [room] entries are left in the array; the new entries are put
    on top of [path]. *)
Fixpoint leftmost_path (d : dict) (room : nat) (path : list ptr) (p : ptr) : out (list ptr) :=
  match p with
  | None => Ret path
  | Some _ =>
    match room with
    | O => UB
    | S room => let* n := get_node d p in leftmost_path d room (p :: path) (n_left n)
    end
  end.

(** [path[i] = x] *)
Fixpoint set_nth {A} (l : list A) (i : nat) (x : A) : list A :=
  match l, i with
  | [], _ => []
  | _ :: l, O => x :: l
  | y :: l, S i => y :: set_nth l i x
  end.
Definition path_set (path : list ptr) (i : nat) (x : ptr) : list ptr := set_nth path (length path - 1 - i) x.
(** [path[i]] *)
Definition path_get (path : list ptr) (i : nat) : out ptr := ub_none (nth_error path (length path - 1 - i)).

(** [if(p->left == old) p->left = new; else p->right = new;] *)
Definition swap_child (d : dict) (p old new : ptr) : out dict :=
  let* n := get_node d p in
  if eqp (n_left n) old then set_left d p new else set_right d p new.

(** centijson_value.c 1622-1640: common work for the two active code paths of the swap. *)
Definition relink_successor (d : dict) (path : list ptr) (node_index : nat) (node successor : ptr) : out dict :=
  let* n := get_node d node in
  let* d := set_left d successor (n_left n) in
  let* d := set_left d node None in
  let* d :=
    if (0 <? node_index)%nat then
      let* above := path_get path (node_index - 1) in swap_child d above node successor
    else Ret (set_root d successor) in
  let* sr := is_red d successor in
  let* nr := is_red d node in
  if Bool.eqb sr nr then Ret d else let* d := toggle d successor in toggle d node.
(** centijson_value.c 1588-1641: swap the node at the end of the path with its successor. *)
Definition swap_successor (cap : nat) (d : dict) (node : ptr) (path : list ptr) : out (dict * list ptr) :=
  let* n := get_node d node in
  match n_right n with
  | None => Ret (d, path)
  | Some _ =>
    let node_index := (length path - 1)%nat in
    let* r := get_node d (n_right n) in
    let* (d, path, successor) :=
      match n_left r with
      | Some _ =>
        let* path := leftmost_path d (cap - length path) path (n_right n) in
        match path with
        | successor :: above :: _ =>
          let* s := get_node d successor in
          let tmp := n_right s in
          let* d := set_right d successor (n_right n) in
          let* d := set_right d node tmp in
          let* d := swap_child d above successor node in
          let path := path_set path node_index successor in
          Ret (d, path_set path (length path - 1) node, successor)
        | _ => UB
        end
      | None =>
        match n_left n with
        | Some _ =>
          let successor := n_right n in
          let* d := set_right d node (n_right r) in
          let* d := set_right d successor node in
          if (length path <? cap)%nat then Ret (d, node :: path_set path (length path - 1) successor, successor) else UB
        | None => Ret (d, path, None)
        end
      end in
    match successor with
    | None => Ret (d, path)
    | Some _ =>
      let* d := relink_successor d path node_index node successor in
      Ret (d, path)
    end
  end.

(** centijson_value.c 1661-1671: take the node out of the order list. *)
Definition order_unlink (d : dict) (a : addr) : out dict :=
  let* p := ub_none (get_prv (links d) a) in
  let* n := ub_none (get_nxt (links d) a) in
  let* d := match p with
            | Some p => let* l := ub_none (set_nxt (links d) p n) in Ret (mkd (nodes d) l (root d) (size d) (olist d))
            | None => Ret (mkd (nodes d) (links d) (root d) (size d) (mklhdr n (ltail (olist d))))
            end in
  let* p := ub_none (get_prv (links d) a) in
  let* n := ub_none (get_nxt (links d) a) in
  match n with
  | Some n => let* l := ub_none (set_prv (links d) n p) in Ret (mkd (nodes d) l (root d) (size d) (olist d))
  | None => Ret (mkd (nodes d) (links d) (root d) (size d) (mklhdr (lhead (olist d)) p))
  end.
Definition free_node (d : dict) (a : addr) : out dict :=
  let* _ := ub_none (nodes d a) in
  Ret (mkd (upd (nodes d) a None) (upd (links d) a None) (root d) (size d) (olist d)).

(** centijson_value.c 1541-1694 (json_value_dict_remove_): 0 or -1. *)
Definition dict_remove (cf : dcfg) (d : dict) (k : key) : out (dict * Z) :=
  match root d with
  | None => Ret (d, -1)
  | Some _ =>
    let* cap := path_room cf d 0 in
    let* (path, found, _) := descend cf d k cap [] (root d) 0 in
    match found with
    | None => Ret (d, -1)
    | Some a =>
      let node := Some a in
      let* (d, path) := swap_successor cap d node path in
      (* 1642-1653 *)
      let* n := get_node d node in
      let single_child := match n_left n with Some _ => n_left n | None => n_right n end in
      let* d := match path with
                | _ :: above :: _ => swap_child d above node single_child
                | _ => Ret (set_root d single_child)
                end in
      let path := match path with _ :: up => single_child :: up | [] => [] end in
      (* 1655-1658 *)
      let* d := if n_red n then Ret d else fix_after_remove cap (2 * length path + 2) d path in
      let* d := if ordered cf then order_unlink d a else Ret d in
      let* d := free_node d a in
      Ret (mkd (nodes d) (links d) (root d) (size d - 1) (olist d), 0)
    end
  end.

(** ** Walking *)
(** centijson_value.c 1148-1176 (json_value_dict_keys_sorted): the nodes whose keys are put in the buffer of [n] entries. *)
Fixpoint sorted_loop (d : dict) (cap : nat) (n : nat) (stack : list ptr) : out (list ptr) :=
  match n with
  | O => Ret []
  | S n =>
    match stack with
    | [] => Ret []
    | p :: stack =>
      let* nd := get_node d p in
      let* stack := leftmost_path d (cap - length stack) stack (n_right nd) in
      let* l := sorted_loop d cap n stack in
      Ret (p :: l)
    end
  end.
Definition keys_sorted (cf : dcfg) (d : dict) (n : nat) : out (list ptr) :=
  let* cap := path_room cf d 0 in
  let* stack := leftmost_path d cap [] (root d) in
  sorted_loop d cap n stack.
(** centijson_value.c 1178-1196 (json_value_dict_keys_ordered). *)
Fixpoint ordered_loop (d : dict) (n : nat) (p : ptr) : out (list ptr) :=
  match n with
  | O => Ret []
  | S n =>
    match p with
    | None => Ret []
    | Some a => let* next := ub_none (get_nxt (links d) a) in let* l := ordered_loop d n next in Ret (p :: l)
    end
  end.
Definition keys_ordered (cf : dcfg) (d : dict) (n : nat) : out (list ptr) :=
  if ordered cf then ordered_loop d n (lhead (olist d)) else Ret [].

(** centijson_value.c 1729-1764 (json_value_dict_walk_sorted) and 1707-1727 (json_value_dict_walk_ordered): [f] is the caller's
    function, working on the caller's own state. *)
Fixpoint walk_sorted_loop {U} (f : U -> key -> option Z -> U * Z) (d : dict) (cap fuel : nat) (stack : list ptr) (u : U) : out (U * Z) :=
  match stack with
  | [] => Ret (u, 0)
  | p :: stack =>
    match fuel with
    | O => Diverge
    | S fuel =>
      let* nd := get_node d p in
      let (u, r) := f u (n_key nd) (n_val nd) in
      if r <? 0 then Ret (u, r) else
      let* stack := leftmost_path d (cap - length stack) stack (n_right nd) in
      walk_sorted_loop f d cap fuel stack u
    end
  end.
Definition walk_sorted {U} (cf : dcfg) (d : dict) (f : U -> key -> option Z -> U * Z) (u : U) : out (U * Z) :=
  let* cap := path_room cf d 0 in
  let* stack := leftmost_path d cap [] (root d) in
  walk_sorted_loop f d cap (Z.to_nat (size d)) stack u.
Fixpoint walk_ordered_loop {U} (f : U -> key -> option Z -> U * Z) (d : dict) (fuel : nat) (p : ptr) (u : U) : out (U * Z) :=
  match p with
  | None => Ret (u, 0)
  | Some a =>
    match fuel with
    | O => Diverge
    | S fuel =>
      let* nd := get_node d p in
      let (u, r) := f u (n_key nd) (n_val nd) in
      if r <? 0 then Ret (u, r) else
      let* next := ub_none (get_nxt (links d) a) in
      walk_ordered_loop f d fuel next u
    end
  end.
Definition walk_ordered {U} (cf : dcfg) (d : dict) (f : U -> key -> option Z -> U * Z) (u : U) : out (U * Z) :=
  if ordered cf then walk_ordered_loop f d (Z.to_nat (size d)) (lhead (olist d)) u else Ret (u, -1).

(** ** Destroying: 1766-1821 (json_value_dict_clean).  [mem] tells whether the allocation of the stack succeeds. *)
Fixpoint clean_loop (d : dict) (cap fuel : nat) (stack : list ptr) : out dict :=
  match stack with
  | [] => Ret d
  | p :: stack =>
    match fuel with
    | O => Diverge
    | S fuel =>
      let* nd := get_node d p in
      let* a := ub_none p in
      let* d := free_node d a in
      let* stack := leftmost_path d (cap - length stack) stack (n_right nd) in
      clean_loop d cap fuel stack
    end
  end.
Definition dict_clean (cf : dcfg) (d : dict) (mem : bool) : out (dict * Z) :=
  let* cap := stack_needed cf d in
  if mem then
    let* stack := leftmost_path d cap [] (root d) in
    let* d := clean_loop d cap (Z.to_nat (size d)) stack in
    Ret (mkd (nodes d) (links d) None 0 (mklhdr None None), 0)
  else Ret (d, -2).

(** 584-622 (json_value_init_dict_ex): the payload is zeroed. *)
Definition new_dict : dict := mkd (fun _ => None) (fun _ => None) None 0 (mklhdr None None).
