(** What a rule means on a dataset, in terms of matrix cells only. *)
From Coq Require Import Reals.
From Verif.Model Require Import PyBase Sparse.
From Verif.Spec Require Import SMatrix.
Open Scope Z_scope.

(** Row i has every column of [items]. *)
Definition row_matches (M : csc) (items : list Z) (i : Z) : Prop :=
  0 <= i < csc_rows M /\ forall c, c ∈ items -> csc_has M i c.

(** Every id of [items] is a column of M. *)
Definition valid_items (M : csc) (items : list Z) : Prop :=
  forall c, c ∈ items -> 0 <= c < csc_cols M.

(** The rule head -> tail covers label cell (i, j) of the dataset (X, Y). *)
Definition covers (X Y : csc) (head tail : list Z) (cell : Z * Z) : Prop :=
  row_matches X head (fst cell) /\ row_matches Y tail (fst cell) /\ snd cell ∈ tail.

(** A dataset: two well-formed matrices with the same rows. *)
Definition dataset (X Y : csc) : Prop :=
  wf_cmat (csc_mat X) = true /\ wf_cmat (csc_mat Y) = true /\ csc_rows X = csc_rows Y.

(** Jaccard distance of two finite sets, as a real number. *)
Definition jaccard {A} `{Countable A} (S T : gset A) : R :=
  (1 - INR (size (S ∩ T)) / INR (size (S ∪ T)))%R.

(** Kullback-Leibler divergence between two Bernoulli distributions, with 0 ln 0 = 0. *)
Definition xlnx_over (x y : R) : R := if Rlt_dec 0 x then (x * ln (x / y))%R else 0%R.
Definition bernoulli_KL (p q : R) : R := (xlnx_over p q + xlnx_over (1 - p) (1 - q))%R.
