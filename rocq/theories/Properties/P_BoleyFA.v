(** The Boley frequency and area samplers (C39). *)
From Coq Require Import Lra Sorted.
From Verif.Model Require Import PyBase PyReal Sparse Utils Graph Cliques Trie Assign Rand RandR Cftp Boley.
From Verif.Spec Require Import SMatrix SAssign SCftp SBoley.
Open Scope Z_scope.
From Verif.Proofs Require Import T_BoleyFA.
Open Scope Z_scope.

(** C39, frequency.  [rowset i] is the set of non-zero columns of row i.  Whatever BoleyFrequencySampler draws is a
    non-empty itemset contained in some row, or its loop is still running after [fuel] rounds; the latter has
    probability q^fuel, where q (the probability that a round gives the empty set) is nrows / sum of 2^|row|, and an
    itemset T has probability support(T) / (sum of supports) * (1 - q^fuel).  q < 1 as soon as some row is not empty.
    Without rows np.random.choice raises ValueError. *)
Theorem C39_frequency : forall (ord : gset Z -> list Z) (fuel : nat) (Y : csr) (rowset : Z -> gset Z),
  set_order ord -> wf_cmat (csr_mat Y) = true ->
  (forall i a, 0 <= i < csr_rows Y -> (a ∈ rowset i <-> nonzero_at (csr_mat Y) i a)) ->
  let rng := py_range (csr_rows Y) in
  let supp (T : gset Z) := zsum (map (fun i => if decide (T ⊆ rowset i) then 1 else 0) rng) in
  let total := zsum (map (fun i => 2 ^ Z.of_nat (size (rowset i)) - 1) rng) in
  let weight := zsum (map (fun i => 2 ^ Z.of_nat (size (rowset i))) rng) in
  let q := (IZR (csr_rows Y) / IZR weight)%R in
  let s := bf_sample_once fuel ord (bf_fit Y) in
  (csr_rows Y = 0 -> (0 < fuel)%nat -> hprob s (Err ValueError) 1) /\
  (0 < csr_rows Y ->
     (0 <= q <= 1)%R /\ ((q < 1)%R <-> exists i a, 0 <= i < csr_rows Y /\ a ∈ rowset i) /\
     hprob s (Err OutOfFuel) (q ^ fuel) /\
     (forall T, T <> ∅ -> hprob s (Ok T) (IZR (supp T) / IZR total * (1 - q ^ fuel))) /\
     (forall o, rcan s o -> o = Err OutOfFuel \/ exists T, o = Ok T /\ T <> ∅ /\ 0 < supp T)).
Proof. exact C39_frequency_proof. Qed.
Print Assumptions C39_frequency.

(** C39, area.  [rowset i] is the set of non-zero columns of row i of a matrix with non-negative values.
    BoleyAreaSampler can always be fitted; if some row is not empty, it draws only non-empty itemsets contained in some
    row, an itemset T with probability support(T) * |T| / (sum over the rows of |row| 2^(|row|-1)), which is the sum of
    support times size over all itemsets.  Otherwise np.random.choice raises ValueError. *)
Theorem C39_area : forall (ord : gset Z -> list Z) (Y : csr) (rowset : Z -> gset Z),
  set_order ord -> wf_cmat (csr_mat Y) = true -> (forall i j k v, slot (csr_mat Y) i j k v -> 0 <= v) ->
  (forall i a, 0 <= i < csr_rows Y -> (a ∈ rowset i <-> nonzero_at (csr_mat Y) i a)) ->
  let rng := py_range (csr_rows Y) in
  let supp (T : gset Z) := zsum (map (fun i => if decide (T ⊆ rowset i) then 1 else 0) rng) in
  let total := zsum (map (fun i => 2 ^ (Z.of_nat (size (rowset i)) - 1) * Z.of_nat (size (rowset i))) rng) in
  exists fit, ba_fit Y = Ok fit /\
  ((forall i a, 0 <= i < csr_rows Y -> a ∉ rowset i) -> prob (ba_sample_once ord fit) (Err ValueError) = 1%Qc) /\
  ((exists i a, 0 <= i < csr_rows Y /\ a ∈ rowset i) -> 0 < total /\
     (forall T, T <> ∅ -> prob (ba_sample_once ord fit) (Ok T) = (Qc_of_Z (supp T * Z.of_nat (size T)) / Qc_of_Z total)%Qc) /\
     (forall o, can (ba_sample_once ord fit) o -> exists T, o = Ok T /\ T <> ∅ /\ 0 < supp T)).
Proof. exact C39_area_proof. Qed.
Print Assumptions C39_area.

(** rows {0,1}, {}, {1} *)
Definition exY : csr := Csr (CMat 3 2 [0;2;2;3] [0;1;1] [1;1;1]).
Definition exR (i : Z) : gset Z := if i =? 0 then {[0;1]} else if i =? 1 then ∅ else {[1]}.
Lemma exY_wf : wf_cmat (csr_mat exY) = true.
Proof. by_compute. Qed.
Lemma exY_slot i j k v : slot (csr_mat exY) i j k v -> 0 <= v.
Proof. intros H. destruct (PSparse.binary_b_ok (csr_mat exY) exY_wf ltac:(by_compute)) as [Hb _]. rewrite (Hb _ _ _ _ H). lia. Qed.
Lemma exR_ok i a : 0 <= i < csr_rows exY -> (a ∈ exR i <-> nonzero_at (csr_mat exY) i a).
Proof.
  intros Hi. change (csr_rows exY) with 3 in Hi.
  assert (E : convert_matrix_to_sets exY !! Z.to_nat i = Some (exR i)).
  { assert (Hi' : i = 0 \/ i = 1 \/ i = 2) by lia. destruct Hi' as [Hi' | [Hi' | Hi']]; subst i; by_compute. }
  apply (T_Convert.convert_v1_lookup exY i (exR i) exY_wf); [lia|exact E].
Qed.
(** {1} has support 2; the supports of {0}, {1}, {0,1} sum to 4; a round is empty with probability 3/7 *)
Example C39_frequency_ex : hprob (bf_sample_once 5 elements (bf_fit exY)) (Ok {[1]}) (2 / 4 * (1 - (3 / 7) ^ 5)).
Proof.
  destruct (C39_frequency elements 5 exY exR ltac:(intros s; reflexivity) exY_wf exR_ok) as [_ H]. destruct (H ltac:(by_compute)) as (_ & _ & _ & HT & _).
  specialize (HT {[1]} ltac:(set_solver)).
  assert (E1 : zsum (map (fun i => if decide (({[1]} : gset Z) ⊆ exR i) then 1 else 0) (py_range (csr_rows exY))) = 2) by (by_compute).
  assert (E2 : zsum (map (fun i => 2 ^ Z.of_nat (size (exR i)) - 1) (py_range (csr_rows exY))) = 4) by (by_compute).
  assert (E3 : zsum (map (fun i => 2 ^ Z.of_nat (size (exR i))) (py_range (csr_rows exY))) = 7) by (by_compute).
  rewrite E1, E2, E3 in HT. exact HT.
Qed.
(** areas: {0} 1, {1} 2, {0,1} 2, total 5 *)
Example C39_area_ex : exists fit, ba_fit exY = Ok fit /\ prob (ba_sample_once elements fit) (Ok {[0;1]}) = (Qc_of_Z 2 / Qc_of_Z 5)%Qc.
Proof.
  destruct (C39_area elements exY exR ltac:(intros s; reflexivity) exY_wf exY_slot exR_ok) as (fit & Ef & _ & H). exists fit. split; [done|].
  destruct H as (_ & HT & _); [exists 0, 0; split; [by_compute|set_solver]|]. specialize (HT {[0;1]} ltac:(set_solver)). rewrite HT. by_compute.
Qed.
