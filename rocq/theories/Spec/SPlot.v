(** Vocabulary for clusters, blocks and drawn matrices. *)
From Verif.Model Require Import PyBase.
Open Scope Z_scope.

(** How often x is listed in the cluster c. *)
Definition multiplicity (x : Z) (c : list Z) : Z := zlen (filter (fun y => y = x) c).

(** Some cluster contains x. *)
Definition clustered (clusters : list (list Z)) (x : Z) : Prop := exists c, c ∈ clusters /\ x ∈ c.

(** The pairs of a left and a right cluster that are both non-empty. *)
Definition kept (left right : list (list Z)) : list (list Z * list Z) :=
  filter (fun p => fst p <> [] /\ snd p <> []) (zip left right).

(** The entry of a matrix (list of rows) at (i, j). *)
Definition cell (M : list (list Z)) (i j : nat) (v : Z) : Prop := exists row, M !! i = Some row /\ row !! j = Some v.

(** M is a rows x cols matrix. *)
Definition has_shape (M : list (list Z)) (rows cols : Z) : Prop :=
  zlen M = rows /\ forall row, row ∈ M -> zlen row = cols.
