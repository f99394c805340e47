(** Model of corset/utils.py (set / matrix helpers). *)
From Verif.Model Require Import PyBase Sparse.

(** The row/column slice read by conjunctive_collapse_v2 and convert_matrix_to_sets_v2:
    [set(indices[indptr[i]:indptr[i+1]])]  (corset/utils.py:76, :121). *)
Definition line_set (m : cmat) (i : Z) : result (gset Z) :=
  let! a := py_index (indptr m) i in
  let! b := py_index (indptr m) (i + 1) in
  Ok (py_set (py_slice (indices m) a b)).

(** [for a_set in list_of_sets[1:]: if el not in a_set: ... break]  (corset/utils.py:128-135) *)
Fixpoint in_every (el : Z) (sets : list (gset Z)) : bool :=
  match sets with
  | [] => true
  | s :: sets' => if bool_decide (el ∈ s) then in_every el sets' else false
  end.

(** [ret[shared_rows] = 1]  (corset/utils.py:137-138) *)
Definition set_true (ret : list bool) (rows : list Z) : result (list bool) :=
  rfold (fun v i => py_setitem v i true) ret rows.

(** sets sorted by size (corset/utils.py:122); std++ merge sort, the order of equally large sets
    cannot influence the returned vector. *)
Definition size_le (s t : gset Z) : Prop := (size s <= size t)%nat.
Global Instance size_le_dec s t : Decision (size_le s t).
Proof. unfold size_le. apply _. Defined.

(** conjunctive_collapse_v2 (corset/utils.py:111-139). [ord] is the iteration order of
    [smallest_set]. *)
Definition conjunctive_collapse_v2 (ord : gset Z -> list Z) (m : csc) (cols : list Z)
  : result (list bool) :=
  if (zlen cols <=? 0) then Err AssertionError
  else
    let! sets := rmap (line_set (csc_mat m)) cols in
    match merge_sort size_le sets with
    | [] => Err IndexError
    | smallest :: rest =>
        let shared := List.filter (fun el => in_every el rest) (ord smallest) in
        set_true (replicate (Z.to_nat (csc_rows m)) false) shared
    end.

(** scipy [m[:, cols]]: IndexError when a column is outside [-n, n), negatives wrapped. *)
Definition norm_col (n j : Z) : result Z :=
  let j' := if j <? 0 then j + n else j in
  if (j' <? 0) || (n <=? j') then Err IndexError else Ok j'.

(** Value of row i in a compressed column: duplicates are added up (scipy semantics of
    [sum(axis=1)], which multiplies by a vector of ones). *)
Definition line_value (m : cmat) (i j : Z) : Z :=
  zsum (map snd (filter (fun e => fst e = j) (line m i))).

(** [flatten(m[:, cols].sum(axis=1)) == len(cols)]  (corset/utils.py:22, :106-108) *)
Definition col_sum_matches (m : csc) (cols : list Z) : result (list bool) :=
  let! js := rmap (norm_col (csc_cols m)) cols in
  Ok (map (fun i => zsum (map (fun j => line_value (csc_mat m) j i) js) =? zlen cols)
          (py_range (csc_rows m))).

(** conjunctive_collapse (corset/utils.py:101-108) *)
Definition conjunctive_collapse (m : csc) (cols : list Z) : result (list bool) :=
  col_sum_matches m cols.

(** number of true entries of a boolean vector: numpy [v.sum()] *)
Definition count_true (v : list bool) : Z := zlen (List.filter (fun b => b) v).

(** support_size (corset/utils.py:20-23) *)
Definition support_size (m : csc) (ids : list Z) : result Z :=
  let! v := col_sum_matches m ids in Ok (count_true v).

(** binary_vector_to_set (corset/utils.py:142-144) *)
Definition binary_vector_to_set (v : list bool) : gset Z :=
  py_set (map fst (List.filter snd (zip (py_range (zlen v)) v))).

(** convert_matrix_to_sets (corset/utils.py:62-65): [m[i, :].nonzero()[1]] keeps stored entries with
    a non-zero value. *)
Definition convert_matrix_to_sets (m : csr) : list (gset Z) :=
  map (fun i => py_set (map fst (filter (fun e => snd e <> 0) (line (csr_mat m) i))))
      (py_range (csr_rows m)).

(** convert_matrix_to_sets_v2 (corset/utils.py:68-77) *)
Definition convert_matrix_to_sets_v2 (m : csr) : result (list (gset Z)) :=
  rmap (line_set (csr_mat m)) (py_range (csr_rows m)).

(** convert_sets_to_matrix (corset/utils.py:147-160); [ord] iterates each inner set. *)
Definition convert_sets_to_matrix (ord : gset Z -> list Z) (sets : list (gset Z)) (L : Z)
  : result csr :=
  let n := zlen sets in
  let! m := rfold (fun m i =>
                let! s := py_index sets i in
                rfold (fun m j => lil_set1 m i j) m (ord s))
              (lil_zeros n L) (py_range n) in
  Ok (lil_tocsr m).

(** filter_rows_with_no_labels (corset/utils.py:80-82): keep the rows whose label sum is positive. *)
Definition rows_mask (Y : csr) : list bool :=
  map (fun i => 0 <? zsum (map snd (line (csr_mat Y) i))) (py_range (csr_rows Y)).

Definition mask_rows (mask : list bool) (m : csr) : csr :=
  Csr (of_lines (csr_cols m)
        (map snd (List.filter fst (zip mask (lines (csr_mat m)))))).

Definition filter_rows_with_no_labels (X Y : csr) : csr * csr :=
  (mask_rows (rows_mask Y) X, mask_rows (rows_mask Y) Y).

(** itertools.combinations(s, r): lexicographic by position. *)
Fixpoint combinations {A} (s : list A) (r : nat) : list (list A) :=
  match r, s with
  | O, _ => [[]]
  | S _, [] => []
  | S r', x :: s' => map (cons x) (combinations s' r') ++ combinations s' r
  end.

(** powerset (corset/utils.py:202-210), on the list of the iterable's elements. *)
Definition powerset {A} (s : list A) (exclude_empty : bool) : list (list A) :=
  let start := if exclude_empty then 1%nat else 0%nat in
  concat (map (combinations s) (seq start (length s + 1 - start))).

(** counter2proba's arithmetic (corset/utils.py:93-98) lives in Model/PMF.v (reals). *)
