(** Specification of the Boley samplers: discriminating patterns, support of itemsets. *)
From Verif.Model Require Import PyBase Sparse Boley.
From Verif.Spec Require Import SCftp.
Open Scope Z_scope.

(** T is a pattern of row P that row N does not have *)
Definition discriminates (P N T : gset Z) : Prop := T ⊆ P /\ ~ T ⊆ N.

(** number of rows, labelled so that Q holds, that contain T *)
Definition set_count (Q : Z -> bool) (rows : list (gset Z)) (y : list Z) (T : gset Z) : Z :=
  zlen (List.filter (fun ry : gset Z * Z => bool_decide (T ⊆ fst ry) && Q (snd ry)) (zip rows y)).

(** positive rows with T times negative rows without T *)
Definition pattern_discrim (rows : list (gset Z)) (y : list Z) (T : gset Z) : Z :=
  set_count (fun v => 0 <? v) rows y T * (n_neg y - set_count (fun v => v =? 0) rows y T).

(** number of (positive row, negative row, pattern of the first and not of the second) triples *)
Definition patterns_between (P N : gset Z) : Z := 2 ^ Z.of_nat (size P) - 2 ^ Z.of_nat (size (P ∩ N)).
Definition pattern_total (rows : list (gset Z)) (y : list Z) : Z :=
  zsum (map (fun p : gset Z * Z => zsum (map (fun n : gset Z * Z => patterns_between (fst p) (fst n))
      (List.filter (fun ry : gset Z * Z => snd ry =? 0) (zip rows y))))
    (List.filter (fun ry : gset Z * Z => 0 <? snd ry) (zip rows y))).

(** total proposal weight: 2^|P|-1 for a positive row, 1 for a negative row *)
Definition boley_proposal_total (rows : list (gset Z)) (y : list Z) : Z :=
  zsum (map (fun p : gset Z * Z => 2 ^ Z.of_nat (size (fst p)) - 1) (List.filter (fun ry : gset Z * Z => 0 <? snd ry) (zip rows y))) * n_neg y.

(** a fitted sampler whose rows belong to the labelled data *)
Definition boley_rows (X : csr) (y : list Z) (s : bds) : Prop := zlen y = csr_rows X /\ zlen (bds_rows s) = csr_rows X.

(** number of rows containing T *)
Definition supp (rows : list (gset Z)) (T : gset Z) : Z := zlen (List.filter (fun r => bool_decide (T ⊆ r)) rows).

Global Instance discriminates_dec P N T : Decision (discriminates P N T).
Proof. unfold discriminates. apply _. Defined.
