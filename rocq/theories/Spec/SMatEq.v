(** What the value of a cell of a compressed sparse matrix is: the sum of the values of its slots. *)
From Verif.Model Require Import PyBase Sparse.
From Verif.Spec Require Import SMatrix.

Definition cell_value (m : cmat) (i j s : Z) : Prop :=
  exists kv : list (Z * Z),
    NoDup (map fst kv) /\ (forall k v, (k, v) ∈ kv <-> slot m i j k v) /\ s = foldr Z.add 0 (map snd kv).

(** Two matrices have the same value in every cell. *)
Definition same_cells (m1 m2 : csr) : Prop :=
  forall i j, 0 <= i < csr_rows m1 -> 0 <= j < csr_cols m1 ->
    exists s, cell_value (csr_mat m1) i j s /\ cell_value (csr_mat m2) i j s.
