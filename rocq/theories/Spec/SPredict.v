(** What prediction and coverage should be, in terms of matrix cells. *)
From Verif.Model Require Import PyBase Sparse.
From Verif.Spec Require Import SMatrix SRule.

(** Some (head, tail) pair of [rules] has its whole head in row i of X and j in its tail. *)
Definition fires (rules : list (list Z * list Z)) (X : csr) (i j : Z) : Prop :=
  0 <= i < csr_rows X /\
  exists h t, (h, t) ∈ rules /\ (forall f, f ∈ h -> csr_has X i f) /\ j ∈ t.
