(** What a compressed sparse matrix means, stated directly on its three arrays. *)
From Verif.Model Require Import PyBase Sparse.

(** Slot k holds value v for (major i, minor j). *)
Definition slot (m : cmat) (i j k v : Z) : Prop :=
  exists a b,
    0 <= i /\
    indptr m !! Z.to_nat i = Some a /\
    indptr m !! Z.to_nat (i + 1) = Some b /\
    0 <= a <= k /\ k < b /\
    indices m !! Z.to_nat k = Some j /\
    data m !! Z.to_nat k = Some v.

(** Some slot is stored for (i, j), whatever its value. *)
Definition stored (m : cmat) (i j : Z) : Prop := exists k v, slot m i j k v.

(** Some stored slot for (i, j) has a non-zero value. *)
Definition nonzero_at (m : cmat) (i j : Z) : Prop := exists k v, slot m i j k v /\ v <> 0.

(** A 0/1 matrix without explicit zeros and without duplicate slots. *)
Definition binary (m : cmat) : Prop :=
  (forall i j k v, slot m i j k v -> v = 1) /\
  (forall i j k k' v v', slot m i j k v -> slot m i j k' v' -> k = k').

(** Row r of the matrix has column c. *)
Definition csr_has (m : csr) (r c : Z) : Prop := stored (csr_mat m) r c.
Definition csc_has (m : csc) (r c : Z) : Prop := stored (csc_mat m) c r.
