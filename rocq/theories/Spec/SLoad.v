(** What a loaded table has to do with the table in the file. *)
From Coq Require Import QArith Qcanon.
From stdpp Require Import strings numbers.
From Verif.Model Require Import PyBase Sparse.
From Verif.Spec Require Import SMatrix SReader.
Open Scope Z_scope.

(** The sparse matrix m has the cells of the table M with w columns; zeros are not stored, every other cell once. *)
Definition stores (m : csr) (M : list (list Z)) (w : Z) : Prop :=
  wf_cmat (csr_mat m) = true /\ csr_rows m = zlen M /\ csr_cols m = w /\
  forall i j v, (exists s, slot (csr_mat m) i j s v) <->
    v <> 0 /\ 0 <= i /\ 0 <= j /\ exists row, M !! Z.to_nat i = Some row /\ row !! Z.to_nat j = Some v.

(** The number of columns after binarisation: one per kept column and one per value of every encoded column. *)
Definition encoded_width (numeric : list Z) (w : Z) (A : list (list Qc)) : Z :=
  zlen (kept numeric w A) + zsum (map (fun x => zlen (remove_dups (col A x))) (encoded numeric w A)).

(** The data sets that are read from ARFF files: number of labels, sparse format. *)
Definition known (name : string) (n_labels : Z) (sparse : bool) : Prop :=
  (name = "mediamill"%string /\ n_labels = 101 /\ sparse = false) \/
  (name = "birds"%string /\ n_labels = 19 /\ sparse = false) \/
  (name = "bookmarks"%string /\ n_labels = 208 /\ sparse = true) \/
  (name = "CAL500"%string /\ n_labels = 174 /\ sparse = false) \/
  (name = "emotions"%string /\ n_labels = 6 /\ sparse = false).
