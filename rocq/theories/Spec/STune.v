(** What a tuning trial should report. *)
From Coq Require Import String Reals Qreals.
From stdpp Require Import strings.
From Verif.Model Require Import PyBase Sparse Rand Exp.
From Verif.Spec Require Import SMatrix SRule SPredict SEval.
Open Scope string_scope.
Open Scope list_scope.
Open Scope Z_scope.

(** The number in a result *)
Inductive number : perf_val -> R -> Prop :=
  | num_score q : number (Score q) (Q2R (this q))
  | num_coverage r : number (Coverage (Some r)) r
  | num_count n : number (Count n) (IZR n).

(** [out] has the keys of every record, and under each key the mean of the records' numbers. *)
Definition averaged (recs : list (list (string * perf_val))) (out : list (string * option R)) : Prop :=
  (forall r, r ∈ recs -> map fst r = map fst out) /\
  forall key x, (key, x) ∈ out -> exists vs : list R,
    Forall2 (fun r v => exists p, (key, p) ∈ r /\ number p v) recs vs /\
    x = Some (foldr Rplus 0 vs / INR (length vs))%R.

(** The results for predicted cells [cP] and true cells [cT] of n rows and l labels, [cov] of [occ] training cells covered
    by the [n_rules] rules *)
Definition dev_results (n l : Z) (cP cT : gset (Z * Z)) (cov occ : nat) (n_rules : Z) : list (string * perf_val) :=
  [("micro_f1", Score (dice cP cT));
   ("macro_f1", Score (column_mean l (fun j => dice (column cP j) (column cT j))));
   ("hamming_accuracy", Score (1 - Qc_of_Z (Z.of_nat (size (sym_diff cP cT))) / (Qc_of_Z n * Qc_of_Z l))%Qc);
   ("n_rules", Count n_rules);
   ("coverage", Coverage (Some (INR cov / INR occ)%R))].

(** The label cells, and the cells predicted by [rules], of the rows of the data at the positions [idx]; the first
    coordinate is the place in [idx]. *)
Definition rows_cells (Y : csr) (idx : list Z) (C : gset (Z * Z)) : Prop :=
  forall k j, (k, j) ∈ C <-> 0 <= k /\ exists i, idx !! Z.to_nat k = Some i /\ csr_has Y i j.
Definition rows_predicted (rules : list (list Z * list Z)) (X : csr) (idx : list Z) (C : gset (Z * Z)) : Prop :=
  forall k j, (k, j) ∈ C <-> 0 <= k /\ exists i, idx !! Z.to_nat k = Some i /\ fires rules X i j.

(** The training cells covered by [rules] *)
Definition covered_cells (X Y : csr) (rules : list (list Z * list Z)) (C : gset (Z * Z)) : Prop :=
  forall x, x ∈ C <-> exists h t, (h, t) ∈ rules /\ covers (tocsc X) (tocsc Y) h t x.

(** The places at which prediction and truth agree *)
Definition equal_rows (n : Z) (cP cT : gset (Z * Z)) (E : gset Z) : Prop :=
  forall k, k ∈ E <-> 0 <= k < n /\ forall j, (k, j) ∈ cP <-> (k, j) ∈ cT.
