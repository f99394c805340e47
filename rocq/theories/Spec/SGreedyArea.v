(** Vocabulary for the greedy area sampler: labels of a row, co-occurrence, greedy chains, the law of the size. *)
From Verif.Model Require Import PyBase Rand.
Open Scope Z_scope.

(** The row has a one at position l. *)
Definition has_one (row : list Z) (l : Z) : Prop := 0 <= l /\ row !! Z.to_nat l = Some 1.
Global Instance has_one_dec row l : Decision (has_one row l).
Proof. unfold has_one. apply _. Defined.

(** Number of ones of a row. *)
Definition n_ones (row : list Z) : Z := zlen (List.filter (fun v => v =? 1) row).

(** All entries are 0 or 1. *)
Definition zero_one (M : list (list Z)) : Prop := forall row v, row ∈ M -> v ∈ row -> v = 0 \/ v = 1.

(** Number of rows with a one at both places. *)
Definition cooc (M : list (list Z)) (a b : Z) : Z :=
  zlen (List.filter (fun row => bool_decide (has_one row a /\ has_one row b)) M).

(** Number of rows i where X has a one at a and Y has a one at l. *)
Definition cross (X Y : list (list Z)) (a l : Z) : Z :=
  zlen (List.filter (fun xy : list Z * list Z => bool_decide (has_one (fst xy) a /\ has_one (snd xy) l)) (zip X Y)).

(** xs lists distinct labels of the row; each one after the first maximises, over the labels of the row not
    taken yet, the smallest co-occurrence with the ones before it. *)
Definition greedy_chain (Y : list (list Z)) (row : list Z) (xs : list Z) : Prop :=
  NoDup xs /\ (forall x, x ∈ xs -> has_one row x) /\
  forall pre x post, xs = pre ++ x :: post -> pre <> [] ->
    forall y, has_one row y -> y ∉ pre -> exists z, z ∈ pre /\ forall z', z' ∈ pre -> cooc Y y z <= cooc Y x z'.

(** Probability that k labels are taken from a row with n labels: proportional to k - 1.  A row with a single
    label gives that label under Python 3.8 and fails under later versions. *)
Definition size_prob (py39 : bool) (n k : Z) : Qc :=
  if (2 <=? k) && (k <=? n) then (Qc_of_Z (2 * (k - 1)) / Qc_of_Z (n * (n - 1)))%Qc
  else if (n =? 1) && (k =? 1) && negb py39 then 1%Qc else 0%Qc.

(** Weight of a row: its number of labels times the number of subsets of the labels but one. *)
Definition area_weight (row : list Z) : Z := n_ones row * 2 ^ (n_ones row - 1).
