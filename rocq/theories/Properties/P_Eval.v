(** Properties of the evaluation metrics and tail statistics (C49, C50). *)
From Coq Require Import String.
From stdpp Require Import strings.
From Verif.Model Require Import PyBase Sparse Utils Rand Graph Evaluation.
From Verif.Spec Require Import SMatrix SRule SGraph SEval.
Open Scope string_scope.
Open Scope list_scope.
Open Scope Z_scope.
From Verif.Proofs Require Import T_Eval.
Open Scope string_scope.
Open Scope list_scope.
Open Scope Z_scope.

(** C49, values: on binary matrices of equal shape (at least one row and two labels, as scikit-learn requires of
    multilabel input) each metric is the expected function of the predicted and true cells; undefined precision and
    recall count as 1. *)
Theorem C49_values : forall (P T : csr) (cP cT : gset (Z * Z)) (E : gset Z),
  wf_cmat (csr_mat P) = true -> wf_cmat (csr_mat T) = true -> binary (csr_mat P) -> binary (csr_mat T) ->
  csr_rows P = csr_rows T -> csr_cols P = csr_cols T -> 1 <= csr_rows P -> 2 <= csr_cols P ->
  cells_of P cP -> cells_of T cT ->
  (forall i, i ∈ E <-> 0 <= i < csr_rows P /\ forall j, (i, j) ∈ cP <-> (i, j) ∈ cT) ->
  let n := Qc_of_Z (csr_rows P) in
  let l := Qc_of_Z (csr_cols P) in
  let num (s : nat) := Qc_of_Z (Z.of_nat s) in
  hamming_accuracy P T = Ok (1 - num (size (sym_diff cP cT)) / (n * l))%Qc /\
  subset_accuracy P T = Ok (num (size E) / n)%Qc /\
  micro_precision P T = Ok (ratio (size (cP ∩ cT)) (size cP)) /\
  micro_recall P T = Ok (ratio (size (cP ∩ cT)) (size cT)) /\
  micro_f1 P T = Ok (dice cP cT) /\
  macro_precision P T = Ok (column_mean (csr_cols P) (fun j => ratio (size (column cP j ∩ column cT j)) (size (column cP j)))) /\
  macro_recall P T = Ok (column_mean (csr_cols P) (fun j => ratio (size (column cP j ∩ column cT j)) (size (column cT j)))) /\
  macro_f1 P T = Ok (column_mean (csr_cols P) (fun j => dice (column cP j) (column cT j))).
Proof. exact C49_values_proof. Qed.
Print Assumptions C49_values.

(** C49, bounds: each of the eight metrics lies in [0,1] and is 1 on perfect predictions. *)
Theorem C49_bounds : forall (P T : csr) (cP cT : gset (Z * Z)) (metric : csr -> csr -> result Qc),
  wf_cmat (csr_mat P) = true -> wf_cmat (csr_mat T) = true -> binary (csr_mat P) -> binary (csr_mat T) ->
  csr_rows P = csr_rows T -> csr_cols P = csr_cols T -> 1 <= csr_rows P -> 2 <= csr_cols P ->
  cells_of P cP -> cells_of T cT ->
  In metric [hamming_accuracy; subset_accuracy; micro_precision; micro_recall; micro_f1;
             macro_precision; macro_recall; macro_f1] ->
  exists v, metric P T = Ok v /\ (0 <= v <= 1)%Qc /\ (cP = cT -> v = 1%Qc).
Proof. exact C49_bounds_proof. Qed.
Print Assumptions C49_bounds.

(** C49, duality: precision of (P, T) is recall of (T, P), F1 and both accuracies are symmetric, and micro F1 is the
    harmonic mean of micro precision and micro recall (0 when both are 0). *)
Theorem C49_dual : forall (P T : csr),
  wf_cmat (csr_mat P) = true -> wf_cmat (csr_mat T) = true -> binary (csr_mat P) -> binary (csr_mat T) ->
  csr_rows P = csr_rows T -> csr_cols P = csr_cols T -> 1 <= csr_rows P -> 2 <= csr_cols P ->
  micro_precision P T = micro_recall T P /\ macro_precision P T = macro_recall T P /\
  micro_f1 P T = micro_f1 T P /\ macro_f1 P T = macro_f1 T P /\
  hamming_accuracy P T = hamming_accuracy T P /\ subset_accuracy P T = subset_accuracy T P /\
  exists p r f, micro_precision P T = Ok p /\ micro_recall P T = Ok r /\ micro_f1 P T = Ok f /\
    (f * (p + r) = (1 + 1) * p * r)%Qc /\ (p + r = 0 -> f = 0)%Qc.
Proof. exact C49_dual_proof. Qed.
Print Assumptions C49_dual.

(** C49, converse: hamming accuracy, subset accuracy and both F1 scores are 1 only on perfect predictions. *)
Theorem C49_perfect : forall (P T : csr) (cP cT : gset (Z * Z)) (metric : csr -> csr -> result Qc),
  wf_cmat (csr_mat P) = true -> wf_cmat (csr_mat T) = true -> binary (csr_mat P) -> binary (csr_mat T) ->
  csr_rows P = csr_rows T -> csr_cols P = csr_cols T -> 1 <= csr_rows P -> 2 <= csr_cols P ->
  cells_of P cP -> cells_of T cT ->
  In metric [hamming_accuracy; subset_accuracy; micro_f1; macro_f1] ->
  metric P T = Ok 1%Qc -> cP = cT.
Proof. exact C49_perfect_proof. Qed.
Print Assumptions C49_perfect.

(** C49, inputs outside the domain: matrices with different numbers of rows or columns raise ValueError in every metric. *)
Theorem C49_shape_errors : forall (P T : csr) (metric : csr -> csr -> result Qc),
  In metric [hamming_accuracy; subset_accuracy; micro_precision; micro_recall; micro_f1;
             macro_precision; macro_recall; macro_f1] ->
  wf_cmat (csr_mat P) = true -> wf_cmat (csr_mat T) = true -> binary (csr_mat P) -> binary (csr_mat T) ->
  2 <= csr_cols P -> 2 <= csr_cols T ->
  csr_rows P <> csr_rows T \/ csr_cols P <> csr_cols T -> metric P T = Err ValueError.
Proof. exact C49_shape_errors_proof. Qed.
Print Assumptions C49_shape_errors.

(** C49, report: an Evaluator accepts exactly the eight metric names, and its report maps each requested metric to the
    value of the function of that name, in the requested order. *)
Theorem C49_report : forall (ms : list string),
  let named := [("hamming_accuracy", hamming_accuracy); ("subset_accuracy", subset_accuracy);
                ("micro_precision", micro_precision); ("micro_recall", micro_recall); ("micro_f1", micro_f1);
                ("macro_precision", macro_precision); ("macro_recall", macro_recall); ("macro_f1", macro_f1)] in
  ((forall m, m ∈ ms -> exists f, In (m, f) named) -> new_evaluator ms = Ok ms /\
   forall (P T : csr),
     wf_cmat (csr_mat P) = true -> wf_cmat (csr_mat T) = true -> binary (csr_mat P) -> binary (csr_mat T) ->
     csr_rows P = csr_rows T -> csr_cols P = csr_cols T -> 1 <= csr_rows P -> 2 <= csr_cols P ->
     exists d, report ms P T = Ok d /\ NoDup (map fst d) /\ (NoDup ms -> map fst d = ms) /\
       forall m v, (m, v) ∈ d <-> m ∈ ms /\ exists f, In (m, f) named /\ f P T = Ok v) /\
  ((exists m, m ∈ ms /\ forall f, ~ In (m, f) named) -> new_evaluator ms = Err AssertionError).
Proof. exact C49_report_proof. Qed.
Print Assumptions C49_report.

(** C50, counts: for any list of itemsets (empty ones included) over a binary label matrix, the support is the number of
    rows containing the itemset, the frequency that number over the number of rows, the length the number of labels and
    the area support times length, all in the order of the list. *)
Theorem C50_counts : forall (ord : gset Z -> list Z) (te : tail_evaluator) (Ss : list (gset Z)) (rows : gset Z -> gset Z),
  set_order ord -> wf_cmat (csc_mat (te_Y te)) = true -> binary (csc_mat (te_Y te)) -> te_ntrn te = csc_rows (te_Y te) ->
  0 < te_ntrn te ->
  (forall S, S ∈ Ss -> forall c, c ∈ S -> 0 <= c < csc_cols (te_Y te)) ->
  (forall S i, S ∈ Ss -> i ∈ rows S <-> 0 <= i < te_ntrn te /\ forall c, c ∈ S -> csc_has (te_Y te) i c) ->
  let supp S := Z.of_nat (size (rows S)) in
  te_support_size ord te Ss = Ok (map supp Ss) /\
  te_frequency ord te Ss = Ok (map (fun S => Some (Qc_of_Z (supp S) / Qc_of_Z (te_ntrn te))%Qc) Ss) /\
  te_length Ss = map (fun S => Z.of_nat (size S)) Ss /\
  te_area ord te Ss = Ok (map (fun S => supp S * Z.of_nat (size S)) Ss).
Proof. exact C50_counts_proof. Qed.
Print Assumptions C50_counts.

(** C50, edges: when every ordered pair of distinct labels of each itemset is an edge of the confidence graph,
    edge_density is the sum of the weights of the ordered pairs over |S|, nan for the empty itemset, and edge_ratio is
    edge_density / (|S| - 1), nan for |S| <= 1.  The value does not depend on the iteration order. *)
Theorem C50_edges : forall (ord : gset Z -> list Z) (te : tail_evaluator) (g : graph) (Ss : list (gset Z))
    (ps : gset Z -> list (Z * Z)) (w : Z -> Z -> Qc),
  set_order ord -> te_g te = Some g ->
  (forall S, S ∈ Ss -> NoDup (ps S) /\ forall u v, (u, v) ∈ ps S <-> u ∈ S /\ v ∈ S /\ u <> v) ->
  (forall S u v, S ∈ Ss -> u ∈ S -> v ∈ S -> u <> v -> g_wt g !! (u, v) = Some (w u v)) ->
  let total S := qsum (map (fun p => w (fst p) (snd p)) (ps S)) in
  let density S := (total S / Qc_of_Z (Z.of_nat (size S)))%Qc in
  te_edge_density ord te Ss = Ok (map (fun S => if decide (size S = 0%nat) then None else Some (density S)) Ss) /\
  te_edge_ratio ord te Ss =
    Ok (map (fun S => if decide (size S <= 1)%nat then None
                      else Some (density S / Qc_of_Z (Z.of_nat (size S) - 1))%Qc) Ss).
Proof. exact C50_edges_proof. Qed.
Print Assumptions C50_edges.

(** C50, errors: an itemset with two labels that are not joined by an edge in both directions makes edge_density,
    edge_ratio and the report raise KeyError; if no confidence graph was built they raise AttributeError as soon as
    some itemset has two labels, and only then. *)
Theorem C50_edge_errors : forall (ord : gset Z -> list Z) (te : tail_evaluator) (Ss : list (gset Z)),
  set_order ord ->
  (forall g S u v, te_g te = Some g -> S ∈ Ss -> u ∈ S -> v ∈ S -> u <> v -> g_wt g !! (u, v) = None ->
     te_edge_density ord te Ss = Err KeyError /\ te_edge_ratio ord te Ss = Err KeyError) /\
  (te_g te = None ->
     (forall S, S ∈ Ss -> (2 <= size S)%nat ->
        te_edge_density ord te Ss = Err AttributeError /\ te_edge_ratio ord te Ss = Err AttributeError) /\
     ((forall S, S ∈ Ss -> (size S <= 1)%nat) ->
        te_edge_density ord te Ss = Ok (map (fun S => if decide (size S = 0%nat) then None else Some 0%Qc) Ss) /\
        te_edge_ratio ord te Ss = Ok (map (fun _ => None) Ss))).
Proof. exact C50_edge_errors_proof. Qed.
Print Assumptions C50_edge_errors.

(** C50, report: when every score can be computed the report has the six columns in order, one entry per itemset, and the
    concatenated report lists the same entries column after column, each with its metric name. *)
Theorem C50_report : forall (ord : gset Z -> list Z) (te : tail_evaluator) (Ss : list (gset Z))
    (s a : list Z) (f d r : list (option Qc)),
  te_support_size ord te Ss = Ok s -> te_frequency ord te Ss = Ok f -> te_edge_density ord te Ss = Ok d ->
  te_edge_ratio ord te Ss = Ok r -> te_area ord te Ss = Ok a ->
  exists cols, te_report ord te Ss = Ok cols /\
    cols = [("support_size", map (fun z => Some (Qc_of_Z z)) s); ("frequency", f); ("edge_density", d); ("edge_ratio", r);
            ("length", map (fun S => Some (Qc_of_Z (Z.of_nat (size S)))) Ss); ("area", map (fun z => Some (Qc_of_Z z)) a)] /\
    (forall name c, (name, c) ∈ cols -> length c = length Ss) /\
    exists rows, te_report_concat ord te Ss = Ok rows /\ length rows = (6 * length Ss)%nat /\
      forall k name c i v, cols !! k = Some (name, c) -> c !! i = Some v -> rows !! (k * length Ss + i)%nat = Some (v, name).
Proof. exact C50_report_proof. Qed.
Print Assumptions C50_report.

(** ** Examples *)

(** Two rows, three labels: predictions {0,1}, {2} against truth {0}, {1,2}. *)
Definition exP : csr := Csr (of_lines 3 [[(0, 1); (1, 1)]; [(2, 1)]]).
Definition exT : csr := Csr (of_lines 3 [[(0, 1)]; [(1, 1); (2, 1)]]).

Example C49_ex :
  wf_cmat (csr_mat exP) = true /\ wf_cmat (csr_mat exT) = true /\ binary (csr_mat exP) /\ binary (csr_mat exT) /\
  csr_rows exP = csr_rows exT /\ csr_cols exP = csr_cols exT /\ 1 <= csr_rows exP /\ 2 <= csr_cols exP.
Proof. split_and!; try by_compute; apply PSparse.binary_b_ok; by_compute. Qed.

Example C49_values_ex :
  hamming_accuracy exP exT = Ok (Q2Qc (2 # 3)) /\ subset_accuracy exP exT = Ok 0%Qc /\
  micro_precision exP exT = Ok (Q2Qc (2 # 3)) /\ micro_recall exP exT = Ok (Q2Qc (2 # 3)) /\
  micro_f1 exP exT = Ok (Q2Qc (2 # 3)) /\ macro_precision exP exT = Ok (Q2Qc (2 # 3)) /\
  macro_recall exP exT = Ok (Q2Qc (2 # 3)) /\ macro_f1 exP exT = Ok (Q2Qc (2 # 3)).
Proof. by_compute. Qed.

(** Undefined precision counts as 1, undefined recall too. *)
Example C49_empty_ex : let none := Csr (of_lines 3 [[]; []]) in
  micro_precision none exT = Ok 1%Qc /\ micro_recall none exT = Ok 0%Qc /\ micro_f1 none exT = Ok 0%Qc /\
  micro_recall exT none = Ok 1%Qc /\ micro_f1 none none = Ok 1%Qc /\ hamming_accuracy none exT = Ok (Q2Qc (1 # 2)).
Proof. intros none. by_compute. Qed.

Example C49_report_ex :
  new_evaluator ["micro_f1"; "hamming_accuracy"] = Ok ["micro_f1"; "hamming_accuracy"] /\
  new_evaluator ["micro_f1"; "f1"] = Err AssertionError /\
  report ["micro_f1"; "hamming_accuracy"] exP exT = Ok [("micro_f1", Q2Qc (2 # 3)); ("hamming_accuracy", Q2Qc (2 # 3))] /\
  hamming_accuracy exP (Csr (of_lines 3 [[(0, 1)]])) = Err ValueError /\
  micro_f1 exP (Csr (of_lines 2 [[(0, 1)]; []])) = Err ValueError.
Proof. by_compute. Qed.

(** Four rows over three labels: {0,1}, {0,1,2}, {0}, {1}. *)
Definition exTY : csc := Csc (of_lines 4 [[(0, 1); (1, 1); (2, 1)]; [(0, 1); (1, 1); (3, 1)]; [(1, 1)]]).
Definition exTE : result tail_evaluator :=
  let! g := construct_confidence_graph exTY in Ok (TailEvaluator 4 exTY (Some (fst g))).

Example C50_ex : wf_cmat (csc_mat exTY) = true /\ binary (csc_mat exTY) /\ csc_rows exTY = 4 /\
  (let! te := exTE in te_report_concat elements te [{[0; 1]}; {[0; 1; 2]}; {[2]}; ∅]) =
  Ok [(Some 2%Qc, "support_size"); (Some 1%Qc, "support_size"); (Some 1%Qc, "support_size"); (Some (Q2Qc 4), "support_size");
      (Some (Q2Qc (1 # 2)), "frequency"); (Some (Q2Qc (1 # 4)), "frequency"); (Some (Q2Qc (1 # 4)), "frequency"); (Some 1%Qc, "frequency");
      (Some (Q2Qc (2 # 3)), "edge_density"); (Some (Q2Qc (4 # 3)), "edge_density"); (Some 0%Qc, "edge_density"); (None, "edge_density");
      (Some (Q2Qc (2 # 3)), "edge_ratio"); (Some (Q2Qc (2 # 3)), "edge_ratio"); (None, "edge_ratio"); (None, "edge_ratio");
      (Some 2%Qc, "length"); (Some (Q2Qc 3), "length"); (Some 1%Qc, "length"); (Some 0%Qc, "length");
      (Some (Q2Qc 4), "area"); (Some (Q2Qc 3), "area"); (Some 1%Qc, "area"); (Some 0%Qc, "area")].
Proof. split_and!; try by_compute. apply PSparse.binary_b_ok; by_compute. Qed.

(** Labels 0 and 1 never co-occur: KeyError; no graph: AttributeError, unless no itemset has two labels. *)
Example C50_errors_ex :
  let Y := Csc (of_lines 2 [[(0, 1)]; [(1, 1)]]) in
  (let! g := construct_confidence_graph Y in te_edge_density elements (TailEvaluator 2 Y (Some (fst g))) [{[1]}; {[0; 1]}]) = Err KeyError /\
  te_edge_ratio elements (TailEvaluator 2 Y None) [{[0; 1]}] = Err AttributeError /\
  te_edge_ratio elements (TailEvaluator 2 Y None) [{[0]}] = Ok [None].
Proof. intros Y. by_compute. Qed.
