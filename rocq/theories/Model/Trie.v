(** Model of corset/trie: corset/trie/utils.py, corset/trie/node.py, corset/trie/_trie.py. *)
From Verif.Model Require Import PyBase.
Open Scope Z_scope.

(** ** corset/trie/utils.py *)

(** _binary_search (corset/trie/utils.py:5-21), with fuel for the recursion. *)
Fixpoint binary_search_aux (fuel : nat) (arr : list Z) (low high x : Z) : result Z :=
  match fuel with
  | O => Err OutOfFuel
  | S f =>
      if low <=? high then
        let mid := (high + low) / 2 in
        let! v := py_index arr mid in
        if v =? x then Ok mid
        else if x <? v then binary_search_aux f arr low (mid - 1) x
        else binary_search_aux f arr (mid + 1) high x
      else Ok (-1)
  end.

(** binary_search (corset/trie/utils.py:1-2) *)
Definition binary_search (arr : list Z) (x : Z) : result Z :=
  binary_search_aux (S (length arr)) arr 0 (zlen arr - 1) x.

(** Python's bisect.bisect_left (used at corset/trie/node.py:45, :151). *)
Fixpoint bisect_aux (fuel : nat) (arr : list Z) (x lo hi : Z) : result Z :=
  match fuel with
  | O => Err OutOfFuel
  | S f =>
      if lo <? hi then
        let mid := (lo + hi) / 2 in
        let! v := py_index arr mid in
        if v <? x then bisect_aux f arr x (mid + 1) hi else bisect_aux f arr x lo mid
      else Ok lo
  end.

Definition bisect_left (arr : list Z) (x : Z) : result Z :=
  bisect_aux (S (length arr)) arr x 0 (zlen arr).

(** list.insert(pos, v) for 0 <= pos *)
Definition py_insert {A} (l : list A) (pos : Z) (v : A) : list A :=
  take (Z.to_nat pos) l ++ v :: drop (Z.to_nat pos) l.

(** ** One node of either class, children seen as opaque objects of type C *)

(** Attributes item, children (with each child's item) and children_items of Node
    (corset/trie/node.py:6-11); NodeV2 also has item2child (corset/trie/node.py:116-124). *)
Record fnode (C : Type) := FNode {
  fn_item : option Z;
  fn_children : list (Z * C);
  fn_items : list Z
}.
Arguments FNode {C} _ _ _.
Arguments fn_item {C} _.
Arguments fn_children {C} _.
Arguments fn_items {C} _.

(** a fresh node without children *)
Definition fnode_new {C} (item : option Z) : fnode C := FNode item [] [].

(** Node.has_child (corset/trie/node.py:21-24) *)
Definition has_child1 {C} (n : fnode C) (x : Z) : result bool :=
  let! pos := binary_search (map fst (fn_children n)) x in
  Ok (negb (pos =? -1)).

(** Node.get_child (corset/trie/node.py:26-32) *)
Definition get_child1 {C} (n : fnode C) (x : Z) : result C :=
  let! pos := binary_search (map fst (fn_children n)) x in
  if negb (pos =? -1) then (let! c := py_index (fn_children n) pos in Ok (snd c)) else Err KeyError.

(** [self.item is not None and item <= self.item] (corset/trie/node.py:35, :138) *)
Definition too_small (self : option Z) (x : Z) : bool :=
  match self with None => false | Some i => x <=? i end.

(** the insertion part shared by both add_child (corset/trie/node.py:43-54, :146-160) *)
Definition link_child {C} (n : fnode C) (x : Z) (c : C) : result (fnode C) :=
  let! pos := bisect_left (fn_items n) x in
  Ok (FNode (fn_item n) (py_insert (fn_children n) pos (x, c)) (py_insert (fn_items n) pos x)).

(** Node.add_child (corset/trie/node.py:34-54); the new child object is c. *)
Definition add_child1 {C} (n : fnode C) (x : Z) (c : C) : result (fnode C) :=
  if too_small (fn_item n) x then Err ValueError
  else
    let! present := has_child1 n x in
    if present then Err ValueError else link_child n x c.

(** NodeV2: the same attributes plus item2child. *)
Record fnode2 (C : Type) := FNode2 { f2_node : fnode C; f2_dict : gmap Z C }.
Arguments FNode2 {C} _ _.
Arguments f2_node {C} _.
Arguments f2_dict {C} _.

Definition fnode2_new {C} (item : option Z) : fnode2 C := FNode2 (fnode_new item) ∅.

(** NodeV2.has_child (corset/trie/node.py:130-131) *)
Definition has_child2 {C} (n : fnode2 C) (x : Z) : result bool :=
  Ok (bool_decide (is_Some (f2_dict n !! x))).

(** NodeV2.get_child (corset/trie/node.py:134-135) *)
Definition get_child2 {C} (n : fnode2 C) (x : Z) : result C :=
  match f2_dict n !! x with Some c => Ok c | None => Err KeyError end.

(** NodeV2.add_child (corset/trie/node.py:137-160) *)
Definition add_child2 {C} (n : fnode2 C) (x : Z) (c : C) : result (fnode2 C) :=
  if too_small (fn_item (f2_node n)) x then Err ValueError
  else
    let! present := has_child2 n x in
    if present then Err ValueError
    else
      let! n' := link_child (f2_node n) x c in
      Ok (FNode2 n' (<[x := c]> (f2_dict n))).

(** A sequence of add_child calls; a call that raises leaves the node unchanged. *)
Fixpoint add_children1 {C} (n : fnode C) (l : list (Z * C)) : fnode C * list (result unit) :=
  match l with
  | [] => (n, [])
  | (x, c) :: l' =>
      match add_child1 n x c with
      | Ok n' => let (m, rs) := add_children1 n' l' in (m, Ok tt :: rs)
      | Err e => let (m, rs) := add_children1 n l' in (m, Err e :: rs)
      end
  end.
Fixpoint add_children2 {C} (n : fnode2 C) (l : list (Z * C)) : fnode2 C * list (result unit) :=
  match l with
  | [] => (n, [])
  | (x, c) :: l' =>
      match add_child2 n x c with
      | Ok n' => let (m, rs) := add_children2 n' l' in (m, Ok tt :: rs)
      | Err e => let (m, rs) := add_children2 n l' in (m, Err e :: rs)
      end
  end.

(** ** The trie built from NodeV2 nodes *)

(** A NodeV2 (corset/trie/node.py:116-124): is_last, the cached _set, and the children with their items
    in list order.  Simplifications: a child's item is stored beside it (the root's item is None);
    item2child is the association given by [children] (C18 shows the two agree); parent pointers are
    replaced by passing the path from the root down. *)
Inductive node := Node (is_last : bool) (cached : option (list Z)) (children : list (Z * node)).

Definition is_last (n : node) : bool := match n with Node l _ _ => l end.
Definition cached (n : node) : option (list Z) := match n with Node _ s _ => s end.
Definition children (n : node) : list (Z * node) := match n with Node _ _ cs => cs end.

Fixpoint find_child (x : Z) (cs : list (Z * node)) : option node :=
  match cs with
  | [] => None
  | (y, c) :: cs' => if y =? x then Some c else find_child x cs'
  end.

(** NodeV2.get_child *)
Definition get_child (n : node) (x : Z) : result node :=
  match find_child x (children n) with Some c => Ok c | None => Err KeyError end.

(** NodeV2.add_child for a node with the given item: returns the node with a new empty child. *)
Definition add_child (self : option Z) (n : node) (x : Z) : result node :=
  if too_small self x then Err ValueError
  else match find_child x (children n) with
       | Some _ => Err ValueError
       | None =>
           let! pos := bisect_left (map fst (children n)) x in
           Ok (Node (is_last n) (cached n)
                 (py_insert (children n) pos (x, Node false None [])))
       end.

(** in-place update of the child with item x *)
Definition set_child (x : Z) (c : node) (n : node) : node :=
  Node (is_last n) (cached n) (map (fun yc => if fst yc =? x then (fst yc, c) else yc) (children n)).

(** [child_node.is_last = True] *)
Definition mark_last (n : node) : node := Node true (cached n) (children n).

(** _trie_insert (corset/trie/_trie.py:4-15); [self] is the node's item, the list is a_list[pos:]. *)
Fixpoint trie_insert (self : option Z) (n : node) (l : list Z) : result node :=
  match l with
  | [] => Ok n
  | x :: l' =>
      let! n1 := match find_child x (children n) with
                 | None => add_child self n x
                 | Some _ => Ok n
                 end in
      let! child := get_child n1 x in
      let! child' := trie_insert (Some x) child l' in
      let child'' := match l' with [] => mark_last child' | _ => child' end in
      Ok (set_child x child'' n1)
  end.

(** _trie_search (corset/trie/_trie.py:18-28), the list is query[pos:] (non-empty). *)
Fixpoint trie_search (n : node) (q : list Z) : result bool :=
  match q with
  | [] => Err IndexError
  | x :: q' =>
      match get_child n x with
      | Ok c => match q' with [] => Ok (is_last c) | _ => trie_search c q' end
      | Err KeyError => Ok false
      | Err e => Err e
      end
  end.

(** A Python set of stored sets: sorted tuples, or None for an uncached node. *)
Notation hits := (gset (option (list Z))).

(** Node.all_supersets with NodeV2.get_set (corset/trie/node.py:69-82, :177-178) *)
Fixpoint all_sets (n : node) : hits :=
  match n with
  | Node l s cs =>
      (if l then {[ s ]} else ∅) ∪
      (fix go (cs : list (Z * node)) : hits :=
         match cs with [] => ∅ | (_, c) :: cs' => all_sets c ∪ go cs' end) cs
  end.

(** _trie_search_supersets (corset/trie/_trie.py:31-51), the list is query[pos:].  [result |= ...] on the
    accumulator is a union of the returned sets; the [break] only happens when the query goes on. *)
Fixpoint search_supersets_aux (n : node) (q : list Z) {struct n} : result hits :=
  match n with
  | Node _ _ cs =>
      match q with
      | [] => Err IndexError
      | item :: q' =>
          (fix go (cs : list (Z * node)) : result hits :=
             match cs with
             | [] => Ok ∅
             | (y, c) :: cs' =>
                 if y <=? item then
                   if y =? item then
                     match q' with
                     | [] => let! r := go cs' in Ok (all_sets c ∪ r)
                     | _ => search_supersets_aux c q'
                     end
                   else
                     let! r1 := search_supersets_aux c q in
                     let! r2 := go cs' in
                     Ok (r1 ∪ r2)
                 else go cs'
             end) cs
      end
  end.

(** _trie_search_subsets (corset/trie/_trie.py:54-70), the list is query[pos:]. *)
Fixpoint search_subsets_aux (n : node) (q : list Z) (acc : hits) : hits :=
  match q with
  | [] => acc
  | x :: q' =>
      let acc1 :=
        match get_child n x with
        | Ok c => search_subsets_aux c q' (if is_last c then {[ cached c ]} ∪ acc else acc)
        | Err _ => acc          (* only KeyError is possible *)
        end in
      search_subsets_aux n q' acc1
  end.

(** NodeV2.populate_sets (corset/trie/node.py:163-174) with Node.get_set (corset/trie/node.py:56-67);
    [path] lists the items from the root to n. *)
Fixpoint populate (path : list Z) (n : node) : node :=
  match n with
  | Node l s cs =>
      Node l (match s with Some _ => s | None => if l then Some path else None end)
        ((fix go (cs : list (Z * node)) : list (Z * node) :=
            match cs with [] => [] | (y, c) :: cs' => (y, populate (path ++ [y]) c) :: go cs' end) cs)
  end.

(** ** class SetTrie (corset/trie/_trie.py:73-107).  Arguments are iterables in iteration order. *)

Definition trie_empty : node := Node false None [].

Definition insert (t : node) (a_set : list Z) : result node := trie_insert None t (py_sorted a_set).

Definition insert_batch (t : node) (sets : list (list Z)) : result node :=
  let! t' := rfold insert t sets in Ok (populate [] t').

Definition search (t : node) (query : list Z) : result bool :=
  if zlen query =? 0 then Ok false else trie_search t (py_sorted query).

Definition search_supersets (t : node) (query : list Z) : result hits :=
  if zlen query =? 0 then Err ValueError else search_supersets_aux t (py_sorted query).

Definition search_subsets (t : node) (query : list Z) : hits :=
  if 0 <? zlen query then search_subsets_aux t (py_sorted query) ∅ else ∅.

(** A history of calls on a fresh SetTrie. *)
Inductive trie_op := Insert (a_set : list Z) | InsertBatch (sets : list (list Z)).

Definition trie_step (t : node) (op : trie_op) : result node :=
  match op with Insert s => insert t s | InsertBatch ss => insert_batch t ss end.

Definition run_trie (ops : list trie_op) : result node := rfold trie_step trie_empty ops.
