(** Which samples a row of a label matrix contains. *)
From Verif.Model Require Import PyBase Sparse.
From Verif.Spec Require Import SMatrix.

(** [k] is the id of a sample all of whose items satisfy [has]. *)
Definition contained_id (space : list (gset Z)) (has : Z -> Prop) (k : Z) : Prop :=
  0 <= k /\ exists s, space !! Z.to_nat k = Some s /\ forall a, a ∈ s -> has a.

(** Every stored entry is non-zero. *)
Definition no_explicit_zeros (m : cmat) : Prop := forall i j k v, slot m i j k v -> v <> 0.
