(** Model of corset/evaluation.py: the metrics of Evaluator (through scikit-learn 1.0) and TailEvaluator.
    Scores are exact rationals; floating-point rounding is not modelled. *)
From Coq Require Import String.
From stdpp Require Import strings.
From Verif.Model Require Import PyBase Sparse Utils Rand Graph.
Open Scope string_scope.
Open Scope list_scope.
Open Scope Z_scope.

Definition qdiv (a b : Z) : Qc := (Qc_of_Z a / Qc_of_Z b)%Qc.

(** ** scipy operations used by scikit-learn *)

(** Element-wise [a - b], [a.multiply(b)]: duplicates are summed, only non-zero results are stored
    (scipy sparsetools csr_binop); different shapes raise ValueError. *)
Definition csr_binop (f : Z -> Z -> Z) (a b : csr) : result csr :=
  if negb ((csr_rows a =? csr_rows b) && (csr_cols a =? csr_cols b)) then Err ValueError
  else Ok (Csr (of_lines (csr_cols a)
    (map (fun i => List.filter (fun e => negb (snd e =? 0))
           (map (fun j => (j, f (line_value (csr_mat a) i j) (line_value (csr_mat b) i j))) (py_range (csr_cols a))))
         (py_range (csr_rows a))))).

(** sklearn.utils.sparsefuncs.count_nonzero(X), (X, axis=1), (X, axis=0): stored entries are counted
    through nnz, np.diff(indptr) and np.bincount(indices). *)
Definition count_all (m : csr) : Z := nnz (csr_mat m).
Definition count_rows (m : csr) : list Z := map (fun i => zlen (line (csr_mat m) i)) (py_range (csr_rows m)).
Definition count_cols (m : csr) : list Z :=
  map (fun j => zlen (List.filter (fun x => x =? j) (indices (csr_mat m)))) (py_range (csr_cols m)).

(** ** scikit-learn *)

(** _check_targets for two sparse matrices (sklearn/metrics/_classification.py:40-112): both must be
    multilabel indicators: at least two columns, and the stored data all equal.  A matrix that is not
    makes scikit-learn raise; which exception is not modelled (GenericException). *)
Definition is_multilabel (m : csr) : bool :=
  (1 <? csr_cols m) &&
  match data (csr_mat m) with [] => true | v :: vs => forallb (fun x => x =? v) vs end.

Definition check_targets (y_true y_pred : csr) : result unit :=
  if negb (csr_rows y_true =? csr_rows y_pred) then Err ValueError
  else if is_multilabel y_true && is_multilabel y_pred then Ok tt
  else Err GenericException.

(** hamming_loss: n_differences / (n_rows * n_cols); no rows: 0 / 0.0 *)
Definition hamming_loss (y_true y_pred : csr) : result Qc :=
  let! _ := check_targets y_true y_pred in
  let! d := csr_binop Z.sub y_true y_pred in
  let n := csr_rows y_true * csr_cols y_true in
  if n =? 0 then Err ZeroDivisionError else Ok (qdiv (count_all d) n).

(** np.average of a vector without weights; nan for an empty one *)
Definition np_mean (l : list Qc) : result Qc :=
  if zlen l =? 0 then Err NonFinite else Ok (qsum l / Qc_of_Z (zlen l))%Qc.

(** accuracy_score *)
Definition accuracy_score (y_true y_pred : csr) : result Qc :=
  let! _ := check_targets y_true y_pred in
  let! d := csr_binop Z.sub y_true y_pred in
  np_mean (map (fun c => if c =? 0 then 1%Qc else 0%Qc) (count_rows d)).

Inductive averaging := Micro | Macro.

(** _prf_divide with zero_division=1 *)
Definition prf_divide (num den : Z) : Qc := if den =? 0 then 1%Qc else qdiv num den.

(** F score of precision and recall with beta = 1 *)
Definition f_of (p r : Qc) : Qc :=
  let denom := (p + r)%Qc in
  let denom := if decide (denom = 0%Qc) then 1%Qc else denom in
  ((1 + 1) * p * r / denom)%Qc.

(** precision_recall_fscore_support with average micro / macro, beta = 1, zero_division = 1, before the
    final average: one triple (precision, recall, f) per label, or a single one for micro.  Different
    numbers of labels raise ValueError (unique_labels). *)
Definition prf (avg : averaging) (y_true y_pred : csr) : result (list (Qc * Qc * Qc)) :=
  let! _ := check_targets y_true y_pred in
  let! tp := csr_binop Z.mul y_true y_pred in
  let tp_sum := count_cols tp in
  let pred_sum := count_cols y_pred in
  let true_sum := count_cols y_true in
  let '(tp_sum, pred_sum, true_sum) :=
    match avg with
    | Macro => (tp_sum, pred_sum, true_sum)
    | Micro => ([zsum tp_sum], [zsum pred_sum], [zsum true_sum])
    end in
  Ok (map (fun '(t, (p, r)) =>
             let pr := prf_divide t p in
             let rc := prf_divide t r in (pr, rc, f_of pr rc))
          (zip tp_sum (zip pred_sum true_sum))).

Definition precision_score (avg : averaging) (y_true y_pred : csr) : result Qc :=
  let! l := prf avg y_true y_pred in np_mean (map (fun x => fst (fst x)) l).
Definition recall_score (avg : averaging) (y_true y_pred : csr) : result Qc :=
  let! l := prf avg y_true y_pred in np_mean (map (fun x => snd (fst x)) l).
Definition f1_score (avg : averaging) (y_true y_pred : csr) : result Qc :=
  let! l := prf avg y_true y_pred in np_mean (map snd l).

(** ** The metrics of corset (corset/evaluation.py:17-64) *)
Definition hamming_accuracy (predictions ground_truth : csr) : result Qc :=
  let! l := hamming_loss ground_truth predictions in Ok (1 - l)%Qc.
Definition subset_accuracy (predictions ground_truth : csr) : result Qc :=
  accuracy_score ground_truth predictions.
Definition micro_precision (predictions ground_truth : csr) : result Qc :=
  precision_score Micro ground_truth predictions.
Definition micro_recall (predictions ground_truth : csr) : result Qc :=
  recall_score Micro ground_truth predictions.
Definition micro_f1 (predictions ground_truth : csr) : result Qc :=
  f1_score Micro ground_truth predictions.
Definition macro_precision (predictions ground_truth : csr) : result Qc :=
  precision_score Macro ground_truth predictions.
Definition macro_recall (predictions ground_truth : csr) : result Qc :=
  recall_score Macro ground_truth predictions.
Definition macro_f1 (predictions ground_truth : csr) : result Qc :=
  f1_score Macro ground_truth predictions.

(** AVAILABLE_METRICS (corset/evaluation.py:12-14) *)
Definition available_metrics : list string :=
  ["hamming_accuracy"; "subset_accuracy"; "micro_precision"; "micro_recall"; "micro_f1";
   "macro_precision"; "macro_recall"; "macro_f1"].

(** name2func (corset/evaluation.py:81-90) *)
Definition name2func (name : string) : result (csr -> csr -> result Qc) :=
  if String.eqb name "hamming_accuracy" then Ok hamming_accuracy
  else if String.eqb name "subset_accuracy" then Ok subset_accuracy
  else if String.eqb name "micro_precision" then Ok micro_precision
  else if String.eqb name "micro_recall" then Ok micro_recall
  else if String.eqb name "micro_f1" then Ok micro_f1
  else if String.eqb name "macro_precision" then Ok macro_precision
  else if String.eqb name "macro_recall" then Ok macro_recall
  else if String.eqb name "macro_f1" then Ok macro_f1
  else Err KeyError.

(** Evaluator.__init__ (corset/evaluation.py:76-90): the evaluator is its list of metric names. *)
Definition new_evaluator (ms : list string) : result (list string) :=
  if forallb (fun m => existsb (String.eqb m) available_metrics) ms then Ok ms else Err AssertionError.

(** d[k] = v of an OrderedDict: a present key keeps its place. *)
Fixpoint od_set {A} (d : list (string * A)) (k : string) (v : A) : list (string * A) :=
  match d with
  | [] => [(k, v)]
  | (k', v') :: d' => if String.eqb k k' then (k', v) :: d' else (k', v') :: od_set d' k v
  end.

(** Evaluator.report (corset/evaluation.py:92-102) *)
Definition report (ms : list string) (predictions ground_truth : csr) : result (list (string * Qc)) :=
  rfold (fun res m => let! f := name2func m in
                      let! v := f predictions ground_truth in
                      Ok (od_set res m v)) [] ms.

(** ** TailEvaluator (corset/evaluation.py:105-177)
    The attributes: ntrn of the dataset, trn_Y.tocsc(), and ds._g if build_confidence_graph was called.
    [ord] is the iteration order of the itemsets; nan is None. *)
Record tail_evaluator := TailEvaluator { te_ntrn : Z; te_Y : csc; te_g : option graph }.

Section TailEvaluator.
  Context (ord : gset Z -> list Z) (te : tail_evaluator).

  (** support_size (lines 111-112) *)
  Definition te_support_size (Ss : list (gset Z)) : result (list Z) :=
    rmap (fun S => support_size (te_Y te) (ord S)) Ss.

  (** frequency (lines 114-115): nan or inf when there is no row *)
  Definition te_frequency (Ss : list (gset Z)) : result (list (option Qc)) :=
    let! l := te_support_size Ss in
    Ok (map (fun s => if te_ntrn te =? 0 then None else Some (qdiv s (te_ntrn te))) l).

  (** length (lines 148-149) *)
  Definition te_length (Ss : list (gset Z)) : list Z := map (fun S => Z.of_nat (size S)) Ss.

  (** area (lines 117-118) *)
  Definition te_area (Ss : list (gset Z)) : result (list Z) :=
    let! l := te_support_size Ss in
    Ok (map (fun '(s, n) => s * n) (zip l (te_length Ss))).

  (** itertools.permutations(S, 2) *)
  Definition permutations2 (l : list Z) : list (Z * Z) :=
    concat (map (fun '(i, u) => map (fun '(_, v) => (u, v))
                                    (List.filter (fun '(j, _) => negb (j =? i)) (enumerate l)))
                (enumerate l)).

  (** np.sum([self._ds._g[u][v]['proba'] ...]) *)
  Definition te_weight (S : gset Z) : result Qc :=
    let! ws := rmap (fun '(u, v) => match te_g te with
                                    | None => Err AttributeError
                                    | Some g => edge_weight g u v
                                    end) (permutations2 (ord S)) in
    Ok (qsum ws).

  (** edge_density (lines 120-132) *)
  Definition te_edge_density (Ss : list (gset Z)) : result (list (option Qc)) :=
    rmap (fun S => if decide (size S = 0%nat) then Ok None
                   else let! w := te_weight S in
                        Ok (Some (w / Qc_of_Z (Z.of_nat (size S)))%Qc)) Ss.

  (** edge_ratio (lines 134-146) *)
  Definition te_edge_ratio (Ss : list (gset Z)) : result (list (option Qc)) :=
    rmap (fun S => if decide (size S <= 1)%nat then Ok None
                   else let! w := te_weight S in
                        Ok (Some (w / Qc_of_Z (Z.of_nat (size S)) / (Qc_of_Z (Z.of_nat (size S) - 1)))%Qc)) Ss.

  (** report (lines 156-177) without the final pd.concat: one column per score *)
  Definition te_report (Ss : list (gset Z)) : result (list (string * list (option Qc))) :=
    let! s := te_support_size Ss in
    let! f := te_frequency Ss in
    let! d := te_edge_density Ss in
    let! r := te_edge_ratio Ss in
    let! a := te_area Ss in
    let num := map (fun z => Some (Qc_of_Z z)) in
    Ok [("support_size", num s); ("frequency", f); ("edge_density", d); ("edge_ratio", r);
        ("length", num (te_length Ss)); ("area", num a)].

  (** report with concat_cols=True: all columns below each other, each score with its metric name *)
  Definition te_report_concat (Ss : list (gset Z)) : result (list (option Qc * string)) :=
    let! cols := te_report Ss in
    Ok (concat (map (fun '(name, c) => map (fun v => (v, name)) c) cols)).
End TailEvaluator.
