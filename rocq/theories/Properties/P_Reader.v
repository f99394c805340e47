(** Readers of ARFF files and binarisation *)
From Coq Require Import Ascii String DecimalString QArith Qcanon Qround.
From stdpp Require Import strings numbers sorting.
From Verif.Model Require Import PyBase Sparse Utils Rand PyState Plot Data Synth Reader.
From Verif.Spec Require Import SData SReader.
From Verif.Proofs Require Import T_Reader.

(** C69: the sparse reader returns the indicator matrix of the listed indices, split before the last n_labels
    columns.  Row errors, in the order of the rows: an empty row is a ValueError, an index outside the columns an
    IndexError. *)
Theorem C69_sparse : forall h1 h2 attrs sep1 sep2 (rows : list (list (Z * string) * string)) n_labels,
  Forall attribute_ok attrs -> not_attribute sep1 -> 0 <= n_labels <= zlen attrs ->
  Forall (fun re => sparse_ok (fst re) /\ (snd re = "" \/ snd re = newline)%string) rows ->
  read_sparse (h1 :: h2 :: map attribute_line attrs ++ sep1 :: sep2 :: map (fun re => sparse_line (fst re) (snd re)) rows) n_labels =
  match first_some (fun re => sparse_error (zlen attrs) (fst re)) rows with
  | Some e => Err e
  | None => Ok (map (fun re => map (is_set (zlen attrs) (fst re)) (seqZ 0 (zlen attrs - n_labels))) rows,
                map (fun re => map (is_set (zlen attrs) (fst re)) (seqZ (zlen attrs - n_labels) n_labels)) rows,
                last_names attrs n_labels)
  end.
Proof. exact C69_sparse_proof. Qed.
Print Assumptions C69_sparse.

(** C70: the dense reader.  The first character of every row is lost.  A numeric feature becomes 0 for the values of
    rank up to the quantile and 1 for the others; a feature that is not numeric is kept if it has at most two values
    and replaced by one indicator per value, after the kept features, otherwise.  A numeric label is an error. *)
Theorem C70_dense : forall fl h1 h2 attrs sep1 sep2 rows n_labels p A,
  dense_file fl attrs sep1 rows n_labels p A ->
  let lines := dense_lines h1 h2 attrs sep1 sep2 rows in
  let w := zlen attrs - n_labels in
  ((exists i, numeric_at attrs i /\ w <= i) -> read_dense fl lines n_labels p = Err IndexError) /\
  ((forall i, numeric_at attrs i -> i < w) ->
   exists numeric D, (forall i, i ∈ numeric <-> numeric_at attrs i) /\ binarized false p numeric w A D /\
     read_dense fl lines n_labels p = Ok (D, map (fun row => map trunc (drop (Z.to_nat w) row)) A, last_names attrs n_labels)).
Proof. exact C70_dense_proof. Qed.
Print Assumptions C70_dense.

(** C70: the first row that cannot be read decides the error: that of float(s), or ValueError for a wrong number of
    fields *)
Theorem C70_row_error : forall fl h1 h2 attrs sep1 sep2 rows1 bad rows2 n_labels p e,
  Forall attribute_ok attrs -> not_attribute sep1 -> 0 <= n_labels <= zlen attrs -> Forall fields_ok (rows1 ++ bad :: rows2) ->
  Forall (fun fields => is_ok (row_values (field_value fl) (length attrs) (first_char_lost fields)) = true) rows1 ->
  row_values (field_value fl) (length attrs) (first_char_lost bad) = Err e ->
  read_dense fl (h1 :: h2 :: map attribute_line attrs ++ sep1 :: sep2 :: map dense_line (rows1 ++ bad :: rows2)) n_labels p = Err e.
Proof. exact C70_row_error_proof. Qed.
Print Assumptions C70_row_error.

(** C70: the last character of a data line is not looked at, whether it is the line break or not: without a final
    line break the last value of the file loses its last digit *)
Theorem C70_last_char : forall fl h1 h2 attrs sep1 sep2 lines1 s c lines2 n_labels p,
  Forall attribute_ok attrs -> not_attribute sep1 -> 0 <= n_labels <= zlen attrs ->
  read_dense fl (h1 :: h2 :: map attribute_line attrs ++ sep1 :: sep2 :: lines1 ++ (s +:+ String c "")%string :: lines2) n_labels p =
  read_dense fl (h1 :: h2 :: map attribute_line attrs ++ sep1 :: sep2 :: lines1 ++ (s +:+ newline)%string :: lines2) n_labels p.
Proof. exact C70_last_char_proof. Qed.
Print Assumptions C70_last_char.

(** C71: the matrix of the dense reader is binary only if every feature that is neither numeric nor replaced has
    values that truncate to 0 and 1: two-valued features are not recoded *)
Theorem C71_binary : forall fl h1 h2 attrs sep1 sep2 rows n_labels p A D labels names,
  dense_file fl attrs sep1 rows n_labels p A ->
  read_dense fl (dense_lines h1 h2 attrs sep1 sep2 rows) n_labels p = Ok (D, labels, names) ->
  (binary D <-> forall x, 0 <= x < zlen attrs - n_labels -> ~ numeric_at attrs x -> ~ several A x ->
     forall row, row ∈ A -> trunc (cell row x) = 0 \/ trunc (cell row x) = 1).
Proof. exact C71_binary_proof. Qed.
Print Assumptions C71_binary.

(** C71: in the column of a numeric feature more than (n-1)p of the n cells are 0; exactly floor((n-1)p) + 1 if the
    values are distinct *)
Theorem C71_zeros : forall fl h1 h2 attrs sep1 sep2 rows n_labels p A D labels names x,
  dense_file fl attrs sep1 rows n_labels p A ->
  read_dense fl (dense_lines h1 h2 attrs sep1 sep2 rows) n_labels p = Ok (D, labels, names) -> numeric_at attrs x ->
  exists k, let zeros := zlen (filter (fun d => d !! k = Some 0) D) in
    let expected := Qfloor (this (Qc_of_Z (zlen rows - 1) * p)%Qc) + 1 in
    (forall j row d, A !! j = Some row -> D !! j = Some d -> d !! k = Some (threshold false p A x (cell row x))) /\
    expected <= zeros /\ (NoDup (col A x) -> zeros = expected).
Proof. exact C71_zeros_proof. Qed.
Print Assumptions C71_zeros.

(** C71: after the kept features, every row has exactly one 1 per replaced feature *)
Theorem C71_one_hot : forall fl h1 h2 attrs sep1 sep2 rows n_labels p A D labels names,
  dense_file fl attrs sep1 rows n_labels p A ->
  read_dense fl (dense_lines h1 h2 attrs sep1 sep2 rows) n_labels p = Ok (D, labels, names) ->
  exists numeric, (forall i, i ∈ numeric <-> numeric_at attrs i) /\
    let w := zlen attrs - n_labels in
    Forall (fun d => zsum (drop (length (kept numeric w A)) d) = zlen (encoded numeric w A)) D.
Proof. exact C71_one_hot_proof. Qed.
Print Assumptions C71_one_hot.

(** C72: the genbase reader skips the first attribute (the name of the protein) twice: the split is one column too
    late, so the first label is a feature and only n_labels - 1 label columns are left, and the mark of a numeric
    attribute is applied to the next column.  Values equal to the quantile become 1. *)
Theorem C72_genbase : forall fl h1 h2 protein attrs sep1 sep2 (rows : list (string * list string)) n_labels p A,
  Forall attribute_ok attrs -> not_attribute sep1 -> 1 <= n_labels <= zlen attrs -> rows <> [] -> (0 <= p)%Qc -> (p <= 1)%Qc ->
  Forall (fun r => fst r <> ""%string /\ lacks "," (fst r) /\ Forall (lacks ",") (snd r)) rows ->
  Forall2 (fun r row => row_values (yes_no fl) (length attrs) (snd r) = Ok row) rows A ->
  let lines := h1 :: h2 :: protein :: map attribute_line attrs ++ sep1 :: sep2 :: map (fun r => dense_line (fst r :: snd r)) rows in
  let w := zlen attrs - n_labels + 1 in
  ((exists i, numeric_at attrs (i - 1) /\ w <= i) -> read_genbase fl lines n_labels p = Err IndexError) /\
  ((forall i, numeric_at attrs (i - 1) -> i < w) ->
   exists numeric D labels, (forall i, i ∈ numeric <-> numeric_at attrs (i - 1)) /\ binarized true p numeric w A D /\
     read_genbase fl lines n_labels p = Ok (D, labels) /\
     labels = map (fun row => map trunc (drop (Z.to_nat w) row)) A /\ Forall (fun r => zlen r = n_labels - 1) labels).
Proof. exact C72_genbase_proof. Qed.
Print Assumptions C72_genbase.

(** C73: the thresholds of generate_synthetic_dataset, for counts: with k = ceil((N-1)p) for the N cells, all cells
    are 0 if more than k cells are at most 1; otherwise a cell is 1 iff at most k cells are not larger *)
Theorem C73_density : forall D p, concat D <> [] -> Forall (Forall (fun v => 0 <= v)) D -> (0 <= p)%Qc -> (p <= 1)%Qc ->
  threshold_density D p = Ok (map (map (density_cell D p)) D).
Proof. exact C73_density_proof. Qed.
Print Assumptions C73_density.

(** C73: otherwise: a proportion outside [0,1] is a ValueError, an empty matrix an IndexError *)
Theorem C73_errors : forall D p,
  ((p < 0)%Qc \/ (1 < p)%Qc -> threshold_density D p = Err ValueError) /\
  ((0 <= p)%Qc -> (p <= 1)%Qc -> concat D = [] -> threshold_density D p = Err IndexError).
Proof. exact C73_errors_proof. Qed.
Print Assumptions C73_errors.

(** C74: with a file whose name contains "train" in the folder, or a split of 0, the two prepared files are read;
    nothing is drawn, and the names of the labels are those of the test file *)
Theorem C74_prepared : forall fl open (files : list string) dir dataset n_labels sparsity split (sparse : bool) o,
  lacks "/" dataset -> (exists f, f ∈ files /\ exists n, substring n 5 f = "train"%string) \/ split = 0%Qc ->
  (sparse = true \/ dataset <> "genbase"%string) ->
  let path := (dir +:+ "/" +:+ dataset)%string in
  let read name := if sparse then read_sparse (open (path +:+ "/" +:+ dataset +:+ name)%string) n_labels
                   else read_dense fl (open (path +:+ "/" +:+ dataset +:+ name)%string) n_labels sparsity in
  can (read_data_arff fl open files path n_labels sparsity split sparse) o <->
  o = match read "-train.arff"%string, read "-test.arff"%string with
      | Err e, _ => Err e
      | Ok _, Err e => Err e
      | Ok (X, Y, _), Ok (X', Y', names) => Ok (X, Y, X', Y', names)
      end.
Proof. exact C74_prepared_proof. Qed.
Print Assumptions C74_prepared.

(** C74: the prepared dense files of genbase are never returned: label_names is not assigned *)
Theorem C74_genbase : forall fl open (files : list string) dir n_labels sparsity split o,
  (exists f, f ∈ files /\ exists n, substring n 5 f = "train"%string) \/ split = 0%Qc ->
  let path := (dir +:+ "/genbase")%string in
  let read name := read_genbase fl (open (path +:+ "/genbase" +:+ name)%string) n_labels sparsity in
  can (read_data_arff fl open files path n_labels sparsity split false) o <->
  o = match read "-train.arff"%string, read "-test.arff"%string with
      | Err e, _ => Err e
      | Ok _, Err e => Err e
      | Ok _, Ok _ => Err UnboundLocalError
      end.
Proof. exact C74_genbase_proof. Qed.
Print Assumptions C74_genbase.

(** C74: otherwise the one file is read and split: k = int(split * n) rows are drawn with replacement for training,
    the mirrored rows are the test part.  A file that cannot be read gives its error. *)
Theorem C74_split : forall fl open (files : list string) dir dataset n_labels sparsity split (sparse : bool) o,
  lacks "/" dataset -> (forall f n, f ∈ files -> substring n 5 f <> "train"%string) -> split <> 0%Qc ->
  let path := (dir +:+ "/" +:+ dataset)%string in
  let text := open (path +:+ "/" +:+ dataset +:+ ".arff")%string in
  let read := if sparse then read_sparse text n_labels else read_dense fl text n_labels sparsity in
  (forall e, read = Err e -> can (read_data_arff fl open files path n_labels sparsity split sparse) o <-> o = Err e) /\
  (forall X Y names k, read = Ok (X, Y, names) -> X <> [] ->
     0 <= k -> (Qc_of_Z k <= split * Qc_of_Z (zlen X))%Qc -> (split * Qc_of_Z (zlen X) < Qc_of_Z (k + 1))%Qc ->
     can (read_data_arff fl open files path n_labels sparsity split sparse) o <->
     exists idx, zlen idx = k /\ (forall i, i ∈ idx -> 0 <= i < zlen X) /\
       o = Ok (select X idx, select Y idx, select X (mirror (zlen X) idx), select Y (mirror (zlen X) idx), names)).
Proof. exact C74_split_proof. Qed.
Print Assumptions C74_split.


(** ** Examples *)
Ltac lacking := cbv; intuition discriminate.
Ltac attributes := repeat (constructor; [split; lacking|]); constructor.
Definition ex_fl (s : string) : result Qc := match NilZero.int_of_string s with Some i => Ok (Qc_of_Z (Z.of_int i)) | None => Err ValueError end.
Definition ex_attrs : list (string * string) := [("a", "numeric"); ("c", "{1,2,3}"); ("b", "{1,2}"); ("l", "{0,1}")]%string.
Lemma ex_attrs_ok : Forall attribute_ok ex_attrs.
Proof. attributes. Qed.
Lemma ex_sep : not_attribute newline.
Proof. split; [done|]. intros t. done. Qed.

(** two features and two labels; an explicit zero counts, a negative index counts from the end *)
Definition ex_sparse : list (list (Z * string) * string) := [([(0, "1"); (2, "0")], newline); ([(-1, "1")], "")]%string.
Example C69_ex :
  Forall (fun re => sparse_ok (fst re) /\ (snd re = "" \/ snd re = newline)%string) ex_sparse /\
  read_sparse ("@relation r"%string :: newline :: map attribute_line ex_attrs ++ newline :: "@data"%string :: map (fun re => sparse_line (fst re) (snd re)) ex_sparse) 2 =
    Ok ([[1; 0]; [0; 0]], [[1; 0]; [0; 1]], ["b"; "l"]%string) /\
  read_sparse ("@relation r"%string :: newline :: map attribute_line ex_attrs ++ newline :: "@data"%string :: [sparse_line [(4, "1"%string)] newline; sparse_line [] newline]) 2 = Err IndexError /\
  read_sparse ("@relation r"%string :: newline :: map attribute_line ex_attrs ++ newline :: "@data"%string :: [sparse_line [] newline; sparse_line [(4, "1"%string)] newline]) 2 = Err ValueError.
Proof.
  split; [|split_and!; vm_compute; reflexivity]. constructor; [|constructor; [|constructor]]; (split; [|auto]).
  - constructor; [split; lacking|]. constructor; [split; lacking|constructor].
  - constructor; [split; lacking|constructor].
Qed.

(** four rows; the first values lose a character: 10, 20, 31, 4 are read as 0, 0, 1 and the empty field 0.  The
    second feature has three values, the third has two and is not recoded *)
Definition ex_rows : list (list string) := [["10"; "3"; "2"; "1"]; ["20"; "1"; "1"; "0"]; ["31"; "2"; "2"; "1"]; ["4"; "1"; "1"; "0"]]%string.
Definition ex_A : list (list Qc) := map (map Qc_of_Z) [[0; 3; 2; 1]; [0; 1; 1; 0]; [1; 2; 2; 1]] ++ [0%Qc :: map Qc_of_Z [1; 1; 0]].
Example C70_ex :
  dense_file ex_fl ex_attrs newline ex_rows 1 (Q2Qc (1 # 2)) ex_A /\ (forall i, numeric_at ex_attrs i -> i < 3) /\
  read_dense ex_fl (dense_lines "@relation r" newline ex_attrs newline "@data" ex_rows) 1 (Q2Qc (1 # 2)) =
    Ok ([[0; 2; 0; 0; 1]; [0; 1; 1; 0; 0]; [1; 2; 0; 1; 0]; [0; 1; 1; 0; 0]], [[1]; [0]; [1]; [0]], ["l"]%string).
Proof.
  split_and!.
  - unfold dense_file. split_and!; [apply ex_attrs_ok|apply ex_sep|done|done|done|done|done| |].
    + repeat (constructor; [split; [done|repeat (constructor; [lacking|]); constructor]|]). constructor.
    + repeat (constructor; [vm_compute; reflexivity|]). constructor.
  - intros i [H1 H2]. destruct (Z.to_nat i) as [|[|[|[|k]]]] eqn:E; cbn in H2; try done. lia.
  - vm_compute. reflexivity.
Qed.
(** a numeric label, a bad field, a short row, and a file without the last line break *)
Example C70_ex_errors :
  read_dense ex_fl (dense_lines "@relation r" newline (ex_attrs ++ [("z"%string, "numeric"%string)]) newline "@data" [["10"; "3"; "2"; "1"; "7"]]%string) 1 (Q2Qc (1 # 2)) = Err IndexError /\
  read_dense ex_fl (dense_lines "@relation r" newline ex_attrs newline "@data" [["10"; "x"; "2"; "1"]; ["1"; "2"]]%string) 1 (Q2Qc (1 # 2)) = Err ValueError /\
  read_dense ex_fl (dense_lines "@relation r" newline ex_attrs newline "@data" [["10"; "3"; "2"]]%string) 1 (Q2Qc (1 # 2)) = Err ValueError /\
  read_dense ex_fl (dense_lines "@relation r" newline ex_attrs newline "@data" [] ++ ["10,3,2,11"%string]) 1 (Q2Qc (1 # 2)) =
    Ok ([[0; 3; 2]], [[1]], ["l"]%string).
Proof. split_and!; vm_compute; reflexivity. Qed.
(** the third feature makes the matrix not binary; three of four cells of the first column are 0 (at least
    floor(3/2) + 1 = 2); one 1 per row in the last three columns *)
Example C71_ex : ~ binary [[0; 2; 0; 0; 1]; [0; 1; 1; 0; 0]; [1; 2; 0; 1; 0]; [0; 1; 1; 0; 0]] /\ ~ several ex_A 2 /\ several ex_A 1 /\
  trunc (cell [Qc_of_Z 0; Qc_of_Z 3; Qc_of_Z 2; Qc_of_Z 1] 2) = 2 /\
  zlen (filter (fun d : list Z => d !! 0%nat = Some 0) [[0; 2; 0; 0; 1]; [0; 1; 1; 0; 0]; [1; 2; 0; 1; 0]; [0; 1; 1; 0; 0]]) = 3.
Proof.
  split_and!.
  - intros H. apply list.Forall_cons in H as [H _]. apply list.Forall_cons in H as [_ H]. apply list.Forall_cons in H as [[H|H] _]; done.
  - intros H. vm_compute in H. lia.
  - vm_compute. lia.
  - vm_compute. reflexivity.
  - vm_compute. reflexivity.
Qed.

(** three attributes after the protein, two of them labels: one label column is left *)
Definition ex_gattrs : list (string * string) := [("f", "{YES,NO}"); ("l1", "{YES,NO}"); ("l2", "{YES,NO}")]%string.
Definition ex_grows : list (string * list string) := [("P1", ["YES"; "NO"; "YES"]); ("P2", ["NO"; "YES"; "NO"])]%string.
Example C72_ex :
  Forall attribute_ok ex_gattrs /\
  Forall (fun r => fst r <> ""%string /\ lacks "," (fst r) /\ Forall (lacks ",") (snd r)) ex_grows /\
  Forall2 (fun r row => row_values (yes_no ex_fl) (length ex_gattrs) (snd r) = Ok row) ex_grows [[1; 0; 1]; [0; 1; 0]]%Qc /\
  (forall i, ~ numeric_at ex_gattrs i) /\
  read_genbase ex_fl ("@relation"%string :: newline :: "@attribute protein string"%string :: map attribute_line ex_gattrs ++ newline :: "@data"%string ::
     map (fun r => dense_line (fst r :: snd r)) ex_grows) 2 (Q2Qc (1 # 2)) = Ok ([[1; 0]; [0; 1]], [[1]; [0]]).
Proof.
  split_and!.
  - attributes.
  - repeat (constructor; [split_and!; [done|lacking|repeat (constructor; [lacking|]); constructor]|]). constructor.
  - repeat (constructor; [vm_compute; reflexivity|]). constructor.
  - intros i [H1 H2]. destruct (Z.to_nat i) as [|[|[|k]]]; cbn in H2; done.
  - vm_compute. reflexivity.
Qed.
(** counts 0..5: at p = 1/2 the cells at most 3 (ceil(5/2) = 3 cells: 0, 1 and 2) become 1; with many small counts all become 0 *)
Example C73_ex : threshold_density [[0; 1; 2]; [3; 4; 5]] (Q2Qc (1 # 2)) = Ok [[1; 1; 1]; [0; 0; 0]] /\
  threshold_density [[0; 1; 1]; [0; 1; 5]] (Q2Qc (1 # 2)) = Ok [[0; 0; 0]; [0; 0; 0]].
Proof. split; vm_compute; reflexivity. Qed.

(** the prepared files of one data set: the training and the test matrix have different numbers of columns, because
    each file is coded with its own values *)
Definition ex_open (file : string) : list string :=
  if decide (file = "d/s/s-train.arff"%string) then dense_lines "@relation r" newline ex_attrs newline "@data" ex_rows
  else dense_lines "@relation r" newline ex_attrs newline "@data" [["10"; "3"; "2"; "1"]; ["20"; "1"; "1"; "0"]]%string.
Example C74_ex_prepared :
  can (read_data_arff ex_fl ex_open ["s-train.arff"; "s-test.arff"]%string "d/s" 1 (Q2Qc (1 # 2)) (Q2Qc (7 # 10)) false)
    (Ok ([[0; 2; 0; 0; 1]; [0; 1; 1; 0; 0]; [1; 2; 0; 1; 0]; [0; 1; 1; 0; 0]], [[1]; [0]; [1]; [0]], [[0; 3; 2]; [0; 1; 1]], [[1]; [0]], ["l"]%string)) /\
  substring 2 5 "s-train.arff" = "train"%string.
Proof. split; vm_compute; reflexivity. Qed.
Example C74_ex_split :
  prob (read_data_arff ex_fl (fun _ => dense_lines "@relation r" newline ex_attrs newline "@data" [["10"; "3"; "2"; "1"]; ["20"; "1"; "1"; "0"]]%string)
      ["s.arff"]%string "d/s" 1 (Q2Qc (1 # 2)) (Q2Qc (7 # 10)) false)
    (Ok ([[0; 3; 2]], [[1]], [[0; 1; 1]], [[0]], ["l"]%string)) = Q2Qc (1 # 2).
Proof. apply Qc_is_canon. vm_compute. reflexivity. Qed.
Example C74_ex_genbase :
  can (read_data_arff ex_fl (fun _ => "@relation"%string :: newline :: "@attribute protein string"%string :: map attribute_line ex_gattrs ++ newline :: "@data"%string ::
     map (fun r => dense_line (fst r :: snd r)) ex_grows) ["genbase-train.arff"]%string "d/genbase" 2 (Q2Qc (1 # 2)) (Q2Qc (7 # 10)) false) (Err UnboundLocalError).
Proof. vm_compute. reflexivity. Qed.
