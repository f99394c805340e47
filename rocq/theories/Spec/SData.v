(** Shapes, row selections and random splits, stated on the cells of the matrices. *)
From Verif.Model Require Import PyBase Sparse.
From Verif.Spec Require Import SMatrix.
Open Scope Z_scope.

(** X and Y agree on the rows, train and test on the columns. *)
Definition shapes_ok (trn_X trn_Y tst_X tst_Y : csr) : Prop :=
  csr_rows trn_X = csr_rows trn_Y /\ csr_rows tst_X = csr_rows tst_Y /\
  csr_cols trn_X = csr_cols tst_X /\ csr_cols trn_Y = csr_cols tst_Y.

(** m' consists of the rows of m at the positions idx, in this order. *)
Definition rows_of (m' m : csr) (idx : list Z) : Prop :=
  wf_cmat (csr_mat m') = true /\ csr_rows m' = zlen idx /\ csr_cols m' = csr_cols m /\
  forall (k : nat) i, idx !! k = Some i ->
    forall j v, (exists s, slot (csr_mat m') (Z.of_nat k) j s v) <-> (exists s, slot (csr_mat m) i j s v).

(** All sequences of length k over xs. *)
Fixpoint sequences (xs : list Z) (k : nat) : list (list Z) :=
  match k with
  | O => [[]]
  | S k' => concat (map (fun x => map (cons x) (sequences xs k')) xs)
  end.

(** The rows at the positions idx. *)
Definition select {A} (m : list A) (idx : list Z) : list A := omap (fun i => m !! Z.to_nat i) idx.

(** The mirrored positions. *)
Definition mirror (n : Z) (idx : list Z) : list Z := map (fun i => n - 1 - i) idx.
