(** Evaluation scores in terms of the sets of predicted and true cells. *)
From Verif.Model Require Import PyBase Sparse Rand.
From Verif.Spec Require Import SMatrix.
Open Scope Z_scope.

(** [C] is the set of cells of the matrix. *)
Definition cells_of (m : csr) (C : gset (Z * Z)) : Prop := forall i j, (i, j) ∈ C <-> csr_has m i j.

(** a / b, and 1 when b is 0 *)
Definition ratio (a b : nat) : Qc :=
  if decide (b = 0%nat) then 1%Qc else (Qc_of_Z (Z.of_nat a) / Qc_of_Z (Z.of_nat b))%Qc.

(** cells in exactly one of the two *)
Definition sym_diff (P T : gset (Z * Z)) : gset (Z * Z) := (P ∖ T) ∪ (T ∖ P).

(** the cells of column j *)
Definition column (P : gset (Z * Z)) (j : Z) : gset (Z * Z) := filter (fun c => snd c = j) P.

(** Dice coefficient: 2 |P ∩ T| / (|P| + |T|), and 1 when both are empty *)
Definition dice (P T : gset (Z * Z)) : Qc := ratio (2 * size (P ∩ T)) (size P + size T).

(** average over the n columns *)
Definition column_mean (n : Z) (f : Z -> Qc) : Qc := (qsum (map f (py_range n)) / Qc_of_Z n)%Qc.
