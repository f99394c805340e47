(** Model of the readers of ARFF files and of the binarisation in corset/utils_data.py:13-73 and :370-759.
    A text file is the list of its lines, each with its line break.  Numbers are exact: the rounding to float16 of
    the dense readers is not modelled. *)
From Coq Require Import Ascii DecimalString Qround.
From stdpp Require Import strings sorting.
From Verif.Model Require Import PyBase Sparse Utils Rand PyState Plot Data Synth.
Open Scope Z_scope.

(** ** Strings *)
(** s.split(sep) for one character *)
Fixpoint py_split (sep : Ascii.ascii) (s : string) : list string :=
  match s with
  | EmptyString => [EmptyString]
  | String c s' =>
      if Ascii.eqb c sep then EmptyString :: py_split sep s'
      else match py_split sep s' with t :: ts => String c t :: ts | [] => [String c EmptyString] end
  end.

(** s[1:-1] *)
Fixpoint str_init (s : string) : string :=
  match s with EmptyString => EmptyString | String c EmptyString => EmptyString | String c s' => String c (str_init s') end.
Definition str_inner (s : string) : string := match s with EmptyString => EmptyString | String _ s' => str_init s' end.

(** int(s).  Simplification: a plus sign, underscores and surrounding white space, which Python accepts, are
    rejected. *)
Definition str_int (s : string) : result Z :=
  match NilZero.int_of_string s with Some i => Ok (Z.of_int i) | None => Err ValueError end.

Definition space : Ascii.ascii := " "%char.
Definition comma : Ascii.ascii := ","%char.

(** ** The sparse reader *)
(** while allines[i].split(" ")[0] == "@attribute": the fields of the attribute lines, and the other lines *)
Fixpoint read_attrs (lines : list string) : result (list (list string) * list string) :=
  match lines with
  | [] => Err IndexError
  | l :: ls =>
      let fields := py_split space l in
      if decide (head fields = Some "@attribute"%string) then
        let! '(attrs, rest) := read_attrs ls in Ok (fields :: attrs, rest)
      else Ok ([], lines)
  end.

(** a, b = el.split(" "); A[row][int(a)] = 1 (corset/utils_data.py:511-515) *)
Definition set_entry (row : list Z) (el : string) : result (list Z) :=
  match py_split space el with
  | [a; b] => let! i := str_int a in py_setitem row i 1
  | _ => Err ValueError
  end.

(** one data line (corset/utils_data.py:507-518); the row of A is still zero *)
Definition sparse_row (n_cols : Z) (line : string) : result (list Z) :=
  rfold set_entry (replicate (Z.to_nat n_cols) 0) (py_split comma (str_inner line)).

(** read_data_arff_sparse (corset/utils_data.py:479-527): D, labels, label_names *)
Definition read_sparse (lines : list string) (n_labels : Z) : result (list (list Z) * list (list Z) * list string) :=
  let! '(attrs, rest) := read_attrs (drop 2 lines) in
  let! names := rmap (fun fields => py_index fields 1) attrs in
  let label_names := py_slice names (- n_labels) (zlen names) in
  let n_cols := zlen attrs in
  if zlen rest <? 2 then Err ValueError   (* np.zeros with a negative dimension *)
  else
    let! A := rmap (sparse_row n_cols) (drop 2 rest) in
    let split_column := n_cols - n_labels in
    Ok (map (fun row => py_slice row 0 split_column) A, map (fun row => py_slice row split_column (zlen row)) A, label_names).

(** ** Quantiles *)
(** np.quantile(xs, p), linear interpolation *)
Definition np_quantile (xs : list Qc) (p : Qc) : result Qc :=
  if bool_decide (p < 0)%Qc || bool_decide (1 < p)%Qc then Err ValueError
  else
    let s := merge_sort Qcle xs in
    let h := (Qc_of_Z (zlen xs - 1) * p)%Qc in
    let lo := Qfloor (this h) in
    let! x := py_index s lo in
    let! y := py_index s (Z.min (lo + 1) (zlen xs - 1)) in
    Ok (x + (h - Qc_of_Z lo) * (y - x))%Qc.

(** ** Binarisation *)
(** D[:, i] of a matrix with w columns *)
Definition column {A} (w : Z) (D : list (list A)) (i : Z) : result (list A) :=
  if (i <? - w) || (w <=? i) then Err IndexError else rmap (fun row => py_index row i) D.

(** one round of "for i in numeric_feats" (corset/utils_data.py:588-597; :706-716 with [strict]) *)
Definition binarize_column (strict : bool) (sparsity : Qc) (w : Z) (D : list (list Qc)) (i : Z) : result (list (list Qc)) :=
  let! col := column w D i in
  let! q := np_quantile col sparsity in
  rmap (fun row => let! x := py_index row i in
    py_setitem row i (if (if strict then bool_decide (x < q)%Qc else bool_decide (x <= q)%Qc) then 0%Qc else 1%Qc)) D.

(** pd.get_dummies of columns of categories: per column the sorted values, one indicator each *)
Definition categories (col : list Qc) : list Qc := merge_sort Qcle (remove_dups col).
Definition dummies (cols : list (list Qc)) (cells : list Qc) : list Qc :=
  concat (zip_with (fun col x => map (fun c => if decide (x = c) then 1%Qc else 0%Qc) (categories col)) cols cells).

(** from "for i in numeric_feats" to the end (corset/utils_data.py:588-628, :706-755); astype('int') truncates *)
Definition binarize (strict : bool) (sparsity : Qc) (numeric : list Z) (w : Z) (D labels : list (list Qc))
    : result (list (list Z) * list (list Z)) :=
  let! D := rfold (binarize_column strict sparsity w) D numeric in
  let cat_feats := List.filter (fun x => negb (bool_decide (x ∈ numeric))) (py_range w) in
  let! counted := rmap (fun x => let! col := column w D x in Ok (x, zlen (remove_dups col))) cat_feats in
  let not_binary := map fst (List.filter (fun xc => 2 <? snd xc) counted) in
  let kept := List.filter (fun i => negb (bool_decide (i ∈ not_binary))) (py_range w) in
  let! cols := rmap (column w D) not_binary in
  let! D' := rmap (fun row =>
      let! a := rmap (py_index row) kept in
      let! b := rmap (py_index row) not_binary in Ok (a ++ dummies cols b)) D in
  Ok (map (map py_int) D', map (map py_int) labels).

(** ** The dense readers *)
(** A[row_counter] = list(...): a single value fills the row, any other wrong length is a ValueError *)
Definition assign_row (n_cols : Z) (vals : list Qc) : result (list Qc) :=
  if zlen vals =? n_cols then Ok vals
  else match vals with [v] => Ok (replicate (Z.to_nat n_cols) v) | _ => Err ValueError end.

(** [fl] is float(s); an empty field counts as 0 (corset/utils_data.py:566-576) *)
Definition dense_row (fl : string -> result Qc) (n_cols : Z) (line : string) : result (list Qc) :=
  let! vals := rmap (fun el => if decide (el = EmptyString) then Ok 0%Qc else fl el) (py_split comma (str_inner line)) in
  assign_row n_cols vals.

Definition newline_numeric : string := String.append "numeric" (String (Ascii.ascii_of_nat 10) EmptyString).

(** numeric_feats.append(i-2), where i counts lines; [first] is the index for the first attribute line read *)
Definition numeric_feats (first : Z) (attrs : list (list string)) : result (list Z) :=
  let! marks := rmap (fun ia : Z * list string => let '(i, fields) := ia in
     let! t := py_index fields 2 in Ok (if decide (t = newline_numeric) then [first + i] else [])) (enumerate attrs) in
  Ok (concat marks).

Definition split_at (split_column : Z) (A : list (list Qc)) : list (list Qc) * list (list Qc) :=
  (map (fun row => py_slice row 0 split_column) A, map (fun row => py_slice row split_column (zlen row)) A).

(** A[:, :split].shape[1] for a matrix with n columns *)
Definition left_width (n split_column : Z) : Z := if split_column <? 0 then Z.max 0 (n + split_column) else Z.min n split_column.

(** read_data_arff_dense (corset/utils_data.py:530-631) *)
Definition read_dense (fl : string -> result Qc) (lines : list string) (n_labels : Z) (sparsity : Qc)
    : result (list (list Z) * list (list Z) * list string) :=
  let! '(attrs, rest) := read_attrs (drop 2 lines) in
  let! numeric := numeric_feats 0 attrs in
  let! names := rmap (fun fields => py_index fields 1) attrs in
  let label_names := py_slice names (- n_labels) (zlen names) in
  let n_cols := zlen attrs in
  if zlen rest <? 2 then Err ValueError
  else
    let! A := rmap (dense_row fl n_cols) (drop 2 rest) in
    let '(D, labels) := split_at (n_cols - n_labels) A in
    let! '(D, labels) := binarize false sparsity numeric (left_width n_cols (n_cols - n_labels)) D labels in
    Ok (D, labels, label_names).

(** the code of one field of the genbase file (corset/utils_data.py:673-684) *)
Definition genbase_cell (fl : string -> result Qc) (el : string) : result Qc :=
  if decide (el = "YES"%string) then Ok 1%Qc
  else if decide (el = "NO"%string) then Ok 0%Qc
  else if decide (el = EmptyString) then Ok 0%Qc else fl el.
Definition genbase_row (fl : string -> result Qc) (n_cols : Z) (line : string) : result (list Qc) :=
  let! vals := rmap (genbase_cell fl) (drop 1 (py_split comma (str_inner line))) in
  assign_row n_cols vals.

(** read_data_arff_dense_genbase (corset/utils_data.py:639-755): the line counter starts at 3, A has n_cols - 1
    columns *)
Definition read_genbase (fl : string -> result Qc) (lines : list string) (n_labels : Z) (sparsity : Qc)
    : result (list (list Z) * list (list Z)) :=
  let! '(attrs, rest) := read_attrs (drop 3 lines) in
  let! numeric := numeric_feats 1 attrs in
  let n_cols := zlen attrs + 1 in
  if zlen rest <? 2 then Err ValueError
  else
    let! A := rmap (genbase_row fl (n_cols - 1)) (drop 2 rest) in
    let '(D, labels) := split_at (n_cols - n_labels) A in
    binarize true sparsity numeric (left_width (n_cols - 1) (n_cols - n_labels)) D labels.

(** ** The scikit-learn generator *)
(** generate_synthetic_dataset (corset/utils_data.py:370-395) after make_multilabel_classification and astype(int);
    np.quantile flattens the matrix *)
Definition threshold_density (D : list (list Z)) (p : Qc) : result (list (list Z)) :=
  let! q := np_quantile (map Qc_of_Z (concat D)) p in
  let D := map (map (fun x => if bool_decide (Qc_of_Z x < q)%Qc then 1 else x)) D in
  let! q := np_quantile (map Qc_of_Z (concat D)) p in
  Ok (map (map (fun x => if bool_decide (q <= Qc_of_Z x)%Qc then 0 else x)) D).

(** ** The wrapper *)
(** "train" in file *)
Definition has_train (file : string) : bool := match String.index 0 "train" file with Some _ => true | None => false end.

Definition arff_data : Type := list (list Z) * list (list Z) * list (list Z) * list (list Z) * list string.

(** read_data_arff (corset/utils_data.py:402-461): D_train, labels_train, D_test, labels_test, label_names.
    [files] are the plain files of the folder and [open] is the content of a file.  Simplification: every file that is
    opened exists; [split] is train_test_split, where 0 counts as false. *)
Definition read_data_arff (fl : string -> result Qc) (open : string -> list string) (files : list string) (filepath : string)
    (n_labels : Z) (sparsity split : Qc) (sparse : bool) : rand arff_data :=
  let dataset := List.last (py_split "/"%char filepath) EmptyString in
  let file (suffix : string) := open (String.append filepath (String.append "/" (String.append dataset suffix))) in
  let pre := existsb has_train files || bool_decide (split = 0%Qc) in
  if pre then
    if sparse then
      let? '(D_train, labels_train, _) := lift (read_sparse (file "-train.arff"%string) n_labels) in
      let? '(D_test, labels_test, label_names) := lift (read_sparse (file "-test.arff"%string) n_labels) in
      Ret (D_train, labels_train, D_test, labels_test, label_names)
    else if decide (dataset = "genbase"%string) then
      let? '(D_train, labels_train) := lift (read_genbase fl (file "-train.arff"%string) n_labels sparsity) in
      let? '(D_test, labels_test) := lift (read_genbase fl (file "-test.arff"%string) n_labels sparsity) in
      Fail UnboundLocalError   (* label_names is not assigned *)
    else
      let? '(D_train, labels_train, _) := lift (read_dense fl (file "-train.arff"%string) n_labels sparsity) in
      let? '(D_test, labels_test, label_names) := lift (read_dense fl (file "-test.arff"%string) n_labels sparsity) in
      Ret (D_train, labels_train, D_test, labels_test, label_names)
  else
    let? '(D, labels, label_names) := lift (if sparse then read_sparse (file ".arff"%string) n_labels
                                            else read_dense fl (file ".arff"%string) n_labels sparsity) in
    let? '(D_train, labels_train, D_test, labels_test) := shuffle_split_data D labels split in
    Ret (D_train, labels_train, D_test, labels_test, label_names).
