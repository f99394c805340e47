(** scipy.sparse matrices as the CORSET sources use them (scipy 1.8).
    No CORSET function is modelled here; the users are corset/utils.py, corset/rule.py,
    corset/greedy/base.py and the samplers, which read [indices], [indptr], [shape], [nnz]. *)
From Verif.Model Require Import PyBase.

(** Compressed storage shared by csr_matrix (major = rows) and csc_matrix (major = columns):
    slot k of [indices]/[data] belongs to major index i when indptr[i] <= k < indptr[i+1]. *)
Record cmat := CMat {
  n_major : Z;
  n_minor : Z;
  indptr : list Z;
  indices : list Z;
  data : list Z   (** simplification: numeric and boolean dtypes are both integers *)
}.

(** The Python class is the tag, so [isinstance(m, sp.csc_matrix)] is decided by typing. *)
Record csr := Csr { csr_mat : cmat }.
Record csc := Csc { csc_mat : cmat }.

Definition csr_rows (m : csr) : Z := n_major (csr_mat m).   (* m.shape[0] *)
Definition csr_cols (m : csr) : Z := n_minor (csr_mat m).   (* m.shape[1] *)
Definition csc_rows (m : csc) : Z := n_minor (csc_mat m).
Definition csc_cols (m : csc) : Z := n_major (csc_mat m).

(** scipy: spmatrix.nnz, the number of stored entries = indptr[-1] (explicit zeros included). *)
Definition nnz (m : cmat) : Z := List.last (indptr m) 0.

(** scipy: spmatrix.sum() *)
Definition msum (m : cmat) : Z := zsum (data m).

Fixpoint nondecreasing (l : list Z) : bool :=
  match l with
  | a :: ((b :: _) as l') => (a <=? b) && nondecreasing l'
  | _ => true
  end.

(** scipy: _cs_matrix.check_format(full_check=True) *)
Definition wf_cmat (m : cmat) : bool :=
  (0 <=? n_major m) && (0 <=? n_minor m) &&
  (zlen (indptr m) =? n_major m + 1) &&
  (List.hd 0 (indptr m) =? 0) &&
  nondecreasing (indptr m) &&
  (List.last (indptr m) 0 =? zlen (indices m)) &&
  (zlen (data m) =? zlen (indices m)) &&
  forallb (fun j => (0 <=? j) && (j <? n_minor m)) (indices m).

(** The stored (minor index, value) pairs of major line i: the slice the code takes with
    [indices[indptr[i]:indptr[i+1]]]; used by the scipy operations modelled below. *)
Definition line (m : cmat) (i : Z) : list (Z * Z) :=
  py_slice (zip (indices m) (data m))
    (List.nth (Z.to_nat i) (indptr m) 0) (List.nth (Z.to_nat (i + 1)) (indptr m) 0).

(** All lines in order. *)
Definition lines (m : cmat) : list (list (Z * Z)) := map (line m) (py_range (n_major m)).

(** Compressed matrix from its lines. *)
Fixpoint ptrs (start : Z) (ls : list (list (Z * Z))) : list Z :=
  match ls with
  | [] => [start]
  | l :: ls' => start :: ptrs (start + zlen l) ls'
  end.

Definition of_lines (minor : Z) (ls : list (list (Z * Z))) : cmat :=
  CMat (zlen ls) minor (ptrs 0 ls) (map fst (concat ls)) (map snd (concat ls)).

(** scipy: csr_matrix.tocsc / csc_matrix.tocsr (sparsetools csr_tocsc): entries of minor line j are
    listed by increasing major index; duplicates and explicit zeros are kept. *)
Definition transpose_lines (m : cmat) : list (list (Z * Z)) :=
  map (fun j => concat (map (fun i => map (fun e => (i, snd e))
                                        (filter (fun e => fst e = j) (line m i)))
                          (py_range (n_major m))))
      (py_range (n_minor m)).

Definition flip_cmat (m : cmat) : cmat := of_lines (n_major m) (transpose_lines m).

Definition tocsc (m : csr) : csc := Csc (flip_cmat (csr_mat m)).
Definition tocsr (m : csc) : csr := Csr (flip_cmat (csc_mat m)).

(** lil_matrix of booleans used as a scratch 0/1 matrix: one set of column ids per row
    (simplification: scipy keeps a sorted list of columns and a list of values; all stored values are 1). *)
Record lil := Lil { lil_cols : Z; lil_rows : list (gset Z) }.

(** sp.lil_matrix((n, l), dtype=bool) *)
Definition lil_zeros (n l : Z) : lil := Lil l (replicate (Z.to_nat n) ∅).

(** m[i, j] = 1: both indices may be negative (wrapped), out of range raises IndexError
    (scipy lil_matrix.__setitem__ -> _csparsetools.lil_insert). *)
Definition lil_set1 (m : lil) (i j : Z) : result lil :=
  let l := lil_cols m in
  let j' := if j <? 0 then j + l else j in
  if (j' <? 0) || (l <=? j') then Err IndexError
  else
    let! r := py_index (lil_rows m) i in
    let! rs := py_setitem (lil_rows m) i ({[j']} ∪ r) in
    Ok (Lil l rs).

(** lil_matrix.tocsr(): columns of each row in increasing order. *)
Definition lil_tocsr (m : lil) : csr :=
  Csr (of_lines (lil_cols m)
        (map (fun r => map (fun j => (j, 1)) (py_sorted (elements r))) (lil_rows m))).
