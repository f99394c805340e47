(** When csr_matrix_equal says that two matrices are equal, and products of arrays (C94). *)
From Coq Require Import Reals Lra.
From Verif.Model Require Import PyBase Sparse Utils Evaluation Helpers.
From Verif.Spec Require Import SMatrix SMatEq.
Open Scope Z_scope.
From Verif.Proofs Require Import T_MatEq.
Open Scope Z_scope.

(** C94, csr_matrix_equal of two matrices of the same shape is True exactly if every cell has the same value in both, where the
    value of a cell is the sum of its slots: explicit zeros, duplicate slots and the order of the slots make no difference. *)
Theorem C94_matrix_equal : forall (m1 m2 : csr),
  wf_cmat (csr_mat m1) = true -> wf_cmat (csr_mat m2) = true -> csr_rows m1 = csr_rows m2 -> csr_cols m1 = csr_cols m2 ->
  exists b, csr_matrix_equal m1 m2 = Ok b /\ (b = true <-> same_cells m1 m2).
Proof. exact C94_matrix_equal_proof. Qed.
Print Assumptions C94_matrix_equal.

(** C94, matrices of different shapes: the comparison raises AttributeError instead of returning False. *)
Theorem C94_shapes : forall (m1 m2 : csr), csr_rows m1 <> csr_rows m2 \/ csr_cols m1 <> csr_cols m2 ->
  csr_matrix_equal m1 m2 = Err AttributeError.
Proof. exact C94_shapes_proof. Qed.
Print Assumptions C94_shapes.

(** C94, on the matrices the tests compare: two lists of label sets of the same length convert to matrices that are equal exactly
    if the lists are equal, whatever the orders in which the sets are read. *)
Theorem C94_sets : forall (ord1 ord2 : gset Z -> list Z) (sets1 sets2 : list (gset Z)) (L : Z),
  set_order ord1 -> set_order ord2 -> 0 <= L -> length sets1 = length sets2 ->
  (forall s j, s ∈ sets1 ++ sets2 -> j ∈ s -> 0 <= j < L) ->
  exists m1 m2 b, convert_sets_to_matrix ord1 sets1 L = Ok m1 /\ convert_sets_to_matrix ord2 sets2 L = Ok m2 /\
    csr_matrix_equal m1 m2 = Ok b /\ (b = true <-> sets1 = sets2).
Proof. exact C94_sets_proof. Qed.
Print Assumptions C94_sets.

(** C94, array_product: 1 for the empty array, the product of both parts of an array; it does not depend on the order, is 0
    exactly if a factor is, and for factors in [0, 1] it is in [0, 1] and at most each factor. *)
Theorem C94_product : 
  (array_product [] = 1)%R /\ (forall x, array_product [x] = x) /\
  (forall l1 l2, array_product (l1 ++ l2) = array_product l1 * array_product l2)%R /\
  (forall l1 l2, l1 ≡ₚ l2 -> array_product l1 = array_product l2) /\
  (forall l, array_product l = 0%R <-> 0%R ∈ l) /\
  (forall l, (forall x, x ∈ l -> 0 <= x <= 1)%R -> (0 <= array_product l <= 1)%R /\ forall x, x ∈ l -> (array_product l <= x)%R).
Proof. exact C94_product_proof. Qed.
Print Assumptions C94_product.

(** Two matrices that are stored differently: the slots of row 0 in another order, an explicit zero, a value split in two slots. *)
Definition exA := Csr (CMat 2 3 [0; 2; 3] [0; 2; 1] [1; 2; 5]).
Definition exB := Csr (CMat 2 3 [0; 3; 5] [2; 0; 1; 1; 1] [2; 1; 0; 3; 2]).
Definition exC := Csr (CMat 2 3 [0; 2; 3] [0; 2; 1] [1; 2; 4]).
Definition exD := Csr (CMat 2 4 [0; 2; 3] [0; 2; 1] [1; 2; 5]).
Example C94_ex_wf : wf_cmat (csr_mat exA) = true /\ wf_cmat (csr_mat exB) = true /\ wf_cmat (csr_mat exC) = true.
Proof. by_compute. Qed.
Example C94_ex_equal : csr_matrix_equal exA exB = Ok true /\ csr_matrix_equal exA exC = Ok false /\ csr_matrix_equal exA exD = Err AttributeError.
Proof. by_compute. Qed.
Example C94_ex_sets : exists m1 m2, convert_sets_to_matrix elements [{[0; 2]}; {[1]}] 3 = Ok m1 /\
  convert_sets_to_matrix elements [{[0; 2]}; {[2]}] 3 = Ok m2 /\ csr_matrix_equal m1 m1 = Ok true /\ csr_matrix_equal m1 m2 = Ok false.
Proof. eexists _, _. split; [vm_compute; reflexivity|]. split; [vm_compute; reflexivity|]. split; vm_compute; reflexivity. Qed.
Example C94_ex_product : array_product [1 / 2; 1 / 3; 1]%R = (1 / 6)%R.
Proof. unfold array_product. cbn. lra. Qed.
