(** Model of corset/samplers/assignment.py and corset/PRETTI. *)
From Verif.Model Require Import PyBase Sparse Utils Trie.
Open Scope Z_scope.

(** ** NaiveSampleAssignmentMixin._generate_new_rows (corset/samplers/assignment.py:10-21) *)
Definition naive_new_rows (space : list (gset Z)) (Y : csr) : result (list (list Z)) :=
  let! rows := convert_matrix_to_sets_v2 Y in
  Ok (map (fun labelset =>
             map fst (List.filter (fun ks => bool_decide (snd ks ⊆ labelset)) (enumerate space)))
          rows).

(** ** TrieSampleAssignmentMixin._generate_new_rows (corset/samplers/assignment.py:28-50) *)

(** [dict(map(reversed, enumerate(sample_space)))] (line 38): a later pair overwrites an earlier one. *)
Definition sample_ids (tuples : list (list Z)) : gmap (list Z) Z :=
  fold_left (fun d kt => <[snd kt := fst kt]> d) (enumerate tuples) ∅.

(** [sample2id.__getitem__] (line 47); None is no key. *)
Definition sample_id (d : gmap (list Z) Z) (t : option (list Z)) : result Z :=
  match t with
  | Some t => match d !! t with Some k => Ok k | None => Err KeyError end
  | None => Err KeyError
  end.

(** [ord] iterates integer sets, [hord] the set of tuples returned by the trie. *)
Definition trie_new_rows (ord : gset Z -> list Z) (hord : hits -> list (option (list Z)))
    (space : list (gset Z)) (Y : csr) : result (list (list Z)) :=
  let! rows := convert_matrix_to_sets_v2 Y in
  let tuples := map (fun s => py_sorted (ord s)) space in
  let d := sample_ids tuples in
  let! trie := insert_batch trie_empty tuples in
  rmap (fun labelset => rmap (sample_id d) (hord (search_subsets trie (ord labelset)))) rows.

(** ** PRETTI *)

(** InvertedIndex.build_index (corset/PRETTI/PRETTI_invertedIndex.py:9-12): the rows with a non-zero
    entry in each column; explicit zeros are dropped by [nonzero]. *)
Definition build_index (Y : csr) : list (gset Z) :=
  map (fun j => py_set (List.filter
                  (fun i => existsb (fun e => (fst e =? j) && negb (snd e =? 0)) (line (csr_mat Y) i))
                  (py_range (csr_rows Y))))
      (py_range (csr_cols Y)).

(** Node (corset/PRETTI/PRETTI_Trie.py:1-4): v_list and the children dict in insertion order. *)
Inductive pnode := PNode (v_list : gset Z) (pchildren : list (Z * pnode)).

Definition v_list (n : pnode) : gset Z := match n with PNode v _ => v end.
Definition pchildren (n : pnode) : list (Z * pnode) := match n with PNode _ cs => cs end.

Fixpoint pfind (a : Z) (cs : list (Z * pnode)) : option pnode :=
  match cs with
  | [] => None
  | (b, c) :: cs' => if b =? a then Some c else pfind a cs'
  end.

(** in-place change of the child under key a *)
Fixpoint preplace (a : Z) (c : pnode) (cs : list (Z * pnode)) : list (Z * pnode) :=
  match cs with
  | [] => []
  | (b, d) :: cs' => if b =? a then (b, c) :: cs' else (b, d) :: preplace a c cs'
  end.

(** The walk of PTrie.ProcessRecord (corset/PRETTI/PRETTI_Trie.py:27-42): the updated node and the
    v_list of the node reached. *)
Fixpoint pwalk (inv : list (gset Z)) (n : pnode) (l : list Z) : result (pnode * gset Z) :=
  match l with
  | [] => Ok (n, v_list n)
  | a :: l' =>
      match pfind a (pchildren n) with
      | Some c =>
          let! '(c', v) := pwalk inv c l' in
          Ok (PNode (v_list n) (preplace a c' (pchildren n)), v)
      | None =>
          let! s := py_index inv a in
          let! '(c', v) := pwalk inv (PNode (s ∩ v_list n) []) l' in
          Ok (PNode (v_list n) (pchildren n ++ [(a, c')]), v)
      end
  end.

(** [self.trie_new_rows[row].append(r_id)] (corset/PRETTI/PRETTI_Trie.py:46) *)
Definition append_id (r_id : Z) (rows : list (list Z)) (row : Z) : result (list (list Z)) :=
  let! r := py_index rows row in
  py_setitem rows row (r ++ [r_id]).

(** PTrie.ProcessRecord (corset/PRETTI/PRETTI_Trie.py:22-46) on the state (root, trie_new_rows). *)
Definition process_record (ord : gset Z -> list Z) (inv : list (gset Z)) (ordering : list Z)
    (st : pnode * list (list Z)) (rec : Z * gset Z) : result (pnode * list (list Z)) :=
  let a_list := List.filter (fun x => bool_decide (x ∈ snd rec)) ordering in
  let! '(root, v) := pwalk inv (fst st) a_list in
  let! rows := rfold (append_id (fst rec)) (snd st) (ord v) in
  Ok (root, rows).

(** Counter(items): first-occurrence order of the keys. *)
Fixpoint first_occs (seen l : list Z) : list Z :=
  match l with
  | [] => []
  | x :: l' => if existsb (Z.eqb x) seen then first_occs seen l' else x :: first_occs (x :: seen) l'
  end.
Definition count_in (x : Z) (l : list Z) : Z := zlen (List.filter (Z.eqb x) l).

(** Counter.most_common: stable sort by decreasing count. *)
Fixpoint insert_common (items : list Z) (x : Z) (l : list Z) : list Z :=
  match l with
  | [] => [x]
  | y :: l' => if count_in y items <? count_in x items then x :: l else y :: insert_common items x l'
  end.
Definition most_common (items : list Z) : list Z :=
  fold_left (fun l x => insert_common items x l) (first_occs [] items) [].

(** find_ordering (corset/samplers/assignment.py:56-58) *)
Definition find_ordering (ord : gset Z -> list Z) (space : list (gset Z)) : list Z :=
  most_common (concat (map ord space)).

(** PTrie.__init__ (corset/PRETTI/PRETTI_Trie.py:8-12) and
    PRETTISampleAssignmentMixin._generate_new_rows (corset/samplers/assignment.py:61-72) *)
Definition pretti_new_rows (ord : gset Z -> list Z) (space : list (gset Z)) (Y : csr)
    : result (list (list Z)) :=
  let inv := build_index Y in
  let ordering := find_ordering ord space in
  let n := csr_rows Y in
  let! '(_, rows) := rfold (process_record ord inv ordering)
                      (PNode (py_set (py_range n)) [], replicate (Z.to_nat n) [])
                      (enumerate space) in
  Ok rows.
