(** Conversions between matrices and lists of sets, explicit zeros, powerset (C53-C55). *)
From Verif.Model Require Import PyBase Sparse Utils Rule GreedyBase.
From Verif.Spec Require Import SMatrix.
Open Scope Z_scope.
From Verif.Proofs Require Import T_Convert.
Open Scope Z_scope.

(** C53. Every list of sets with elements in [0, L) converts to an n x L 0/1 matrix with exactly these cells, and both
    convert_matrix_to_sets versions give the same sets back. *)
Theorem C53_round_trip : forall (ord : gset Z -> list Z) (sets : list (gset Z)) (L : Z),
  set_order ord -> 0 <= L -> (forall s j, s ∈ sets -> j ∈ s -> 0 <= j < L) ->
  exists m, convert_sets_to_matrix ord sets L = Ok m /\
    wf_cmat (csr_mat m) = true /\ binary (csr_mat m) /\ csr_rows m = zlen sets /\ csr_cols m = L /\
    (forall i j, csr_has m i j <-> 0 <= i /\ exists s, sets !! Z.to_nat i = Some s /\ j ∈ s) /\
    convert_matrix_to_sets m = sets /\ convert_matrix_to_sets_v2 m = Ok sets.
Proof. exact C53_round_trip_proof. Qed.
Print Assumptions C53_round_trip.

(** C53, range: IndexError exactly when some element is outside [-L, L); elements in [-L, 0) wrap around, as numpy
    indices do. *)
Theorem C53_out_of_range : forall (ord : gset Z -> list Z) (sets : list (gset Z)) (L : Z),
  set_order ord -> 0 <= L ->
  ((exists s j, s ∈ sets /\ j ∈ s /\ (j < - L \/ L <= j)) -> convert_sets_to_matrix ord sets L = Err IndexError) /\
  ((forall s j, s ∈ sets -> j ∈ s -> - L <= j < L) ->
   exists m, convert_sets_to_matrix ord sets L = Ok m /\
     forall i j, csr_has m i j <-> 0 <= i /\ exists s k, sets !! Z.to_nat i = Some s /\ k ∈ s /\ (j = k /\ 0 <= k \/ j = k + L /\ k < 0)).
Proof. exact C53_out_of_range_proof. Qed.
Print Assumptions C53_out_of_range.

(** C53, the two versions: convert_matrix_to_sets collects the non-zero cells of each row, version 2 the stored ones;
    so they agree on matrices without explicit zeros, and only on these. *)
Theorem C53_versions : forall (X : csr), wf_cmat (csr_mat X) = true ->
  exists v2, convert_matrix_to_sets_v2 X = Ok v2 /\ zlen v2 = csr_rows X /\ zlen (convert_matrix_to_sets X) = csr_rows X /\
    (forall i F, 0 <= i -> convert_matrix_to_sets X !! Z.to_nat i = Some F -> forall f, f ∈ F <-> nonzero_at (csr_mat X) i f) /\
    (forall i F, 0 <= i -> v2 !! Z.to_nat i = Some F -> forall f, f ∈ F <-> stored (csr_mat X) i f) /\
    (convert_matrix_to_sets X = v2 <-> forall i f, stored (csr_mat X) i f -> nonzero_at (csr_mat X) i f).
Proof. exact C53_versions_proof. Qed.
Print Assumptions C53_versions.

(** C54. Wherever a zero is stored explicitly (and no non-zero value at the same cell), version 2 reports the feature
    and version 1 does not, and predict fires every rule that needs only this feature. *)
Theorem C54_explicit_zero : forall (X : csr) (i f : Z),
  wf_cmat (csr_mat X) = true -> stored (csr_mat X) i f -> ~ nonzero_at (csr_mat X) i f ->
  (exists v2 F1 F2, convert_matrix_to_sets_v2 X = Ok v2 /\ convert_matrix_to_sets X !! Z.to_nat i = Some F1 /\ v2 !! Z.to_nat i = Some F2 /\
     f ∉ F1 /\ f ∈ F2) /\
  (forall (P : Type) (e : est P) (nl t : Z) (r : srule), e_num_labels e = Some nl ->
     (forall r j, r ∈ e_rules e -> j ∈ r_tail (sr_rule r) -> 0 <= j < nl) ->
     r ∈ e_rules e -> r_head (sr_rule r) = [f] -> t ∈ r_tail (sr_rule r) ->
     exists m, predict e X = Ok m /\ csr_has m i t).
Proof. exact C54_explicit_zero_proof. Qed.
Print Assumptions C54_explicit_zero.

(** C55. powerset(S) lists every subset of S exactly once (without the empty set if it is excluded), 2^n (or 2^n-1)
    tuples without repeated elements, smaller ones first. *)
Theorem C55_powerset : forall (ord : gset Z -> list Z) (S : gset Z) (exclude_empty : bool),
  set_order ord ->
  let ps := powerset (ord S) exclude_empty in
  (forall T : gset Z, T ∈ map py_set ps <-> T ⊆ S /\ (exclude_empty = true -> T <> ∅)) /\
  NoDup (map py_set ps) /\ (forall p, p ∈ ps -> NoDup p) /\
  zlen ps = 2 ^ Z.of_nat (size S) - (if exclude_empty then 1 else 0) /\
  (forall (i j : nat) (p q : list Z), (i <= j)%nat -> ps !! i = Some p -> ps !! j = Some q -> (length p <= length q)%nat).
Proof. exact C55_powerset_proof. Qed.
Print Assumptions C55_powerset.

Definition exSets : list (gset Z) := [{[2; 0]}; ∅; {[1]}].
Example C53_ex : exists m, convert_sets_to_matrix elements exSets 3 = Ok m /\ indices (csr_mat m) = [0; 2; 1] /\ indptr (csr_mat m) = [0; 2; 2; 3].
Proof. eexists. split; [vm_compute; reflexivity|by_compute]. Qed.
Example C53_ex_range : convert_sets_to_matrix elements exSets 2 = Err IndexError.
Proof. vm_compute. reflexivity. Qed.
(** column -1 is the last one *)
Example C53_ex_wrap : exists m, convert_sets_to_matrix elements [{[-1]}] 3 = Ok m /\ indices (csr_mat m) = [2].
Proof. eexists. split; [vm_compute; reflexivity|by_compute]. Qed.
(** one row storing 0 in column 1 and 1 in column 2; the rule {1} -> {0} *)
Definition exZ : csr := Csr (CMat 1 3 [0; 2] [1; 2] [0; 1]).
Definition exE : est unit := MkEst tt [Unbound (MkRule [1] [0])] (Some 1) (Some 3) None.
Example C54_ex : convert_matrix_to_sets exZ = [{[2]}] /\
  (let! s := convert_matrix_to_sets_v2 exZ in Ok (map (fun F => bool_decide (F = {[1; 2]})) s)) = Ok [true] /\
  (let! m := predict exE exZ in Ok (indices (csr_mat m), indptr (csr_mat m))) = Ok ([0], [0; 1]).
Proof. by_compute. Qed.
Example C54_ex_hyps : wf_cmat (csr_mat exZ) = true /\ stored (csr_mat exZ) 0 1 /\ ~ nonzero_at (csr_mat exZ) 0 1.
Proof.
  split; [by_compute|]. split.
  - exists 0, 0, 0, 2. by_compute.
  - intros (k & v & (a & b & _ & Ha & Hb & Hk & Hk' & Hj & Hv) & Hne). vm_compute in Ha, Hb. simplify_eq.
    assert (k = 0 \/ k = 1) as [->| ->] by lia; vm_compute in Hj, Hv; simplify_eq.
Qed.
Example C55_ex : powerset [4; 5; 6] true = [[4]; [5]; [6]; [4; 5]; [4; 6]; [5; 6]; [4; 5; 6]].
Proof. vm_compute. reflexivity. Qed.
