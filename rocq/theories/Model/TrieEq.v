(** Model of Node.__eq__ and Node.as_nested_tuple (corset/trie/node.py:87-105), inherited by NodeV2. *)
From Verif.Model Require Import PyBase Trie.
Open Scope Z_scope.

(** Node.__eq__ (corset/trie/node.py:87-97).  A child's item is stored beside the child (Model/Trie.v), so the
    comparison of the items is made where the children are compared; the items of two roots are None.
    [ci != cj] is the negation of __eq__. *)
Fixpoint node_eq (a b : node) {struct a} : bool :=
  match a, b with
  | Node l1 _ cs1, Node l2 _ cs2 =>
      Bool.eqb l1 l2 && (zlen cs1 =? zlen cs2) &&
      (fix go (cs1 cs2 : list (Z * node)) {struct cs1} : bool :=
         match cs1, cs2 with
         | (y1, c1) :: cs1', (y2, c2) :: cs2' => (y1 =? y2) && node_eq c1 c2 && go cs1' cs2'
         | _, _ => true
         end) cs1 cs2
  end.

(** Nested tuples of items (None or an integer). *)
Inductive ptuple := PItem (i : option Z) | PTuple (l : list ptuple).

(** Node.as_nested_tuple (corset/trie/node.py:99-105) of a node with the given item *)
Fixpoint as_nested_tuple (item : option Z) (n : node) : ptuple :=
  match n with
  | Node _ _ cs =>
      match cs with
      | [] => PTuple [PItem item; PTuple []]
      | _ => PTuple (PItem item ::
               (fix go (cs : list (Z * node)) : list ptuple :=
                  match cs with [] => [] | (y, c) :: cs' => as_nested_tuple (Some y) c :: go cs' end) cs)
      end
  end.
