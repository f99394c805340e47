(** C82: Dataset.load. *)
From Coq Require Import Ascii String DecimalString QArith Qcanon Qround.
From stdpp Require Import strings numbers sorting.
From Verif.Model Require Import PyBase Sparse Utils Rand PyState Data Reader Load.
From Verif.Spec Require Import SMatrix SData SReader SLoad.
From Verif.Proofs Require Import T_Load.

(** C82: the matrix that is built from a table of a file has exactly the cells of the table; zeros are not stored *)
Theorem C82_conversion : forall (M : list (list Z)) (w : Z), M <> [] -> Forall (fun row => zlen row = w) M ->
  stores (lil_of_dense M) M w.
Proof. exact C82_conversion_proof. Qed.
Print Assumptions C82_conversion.

(** C82: the toy data set needs no file: it is loaded as in load with the literal matrices, for training and test *)
Theorem C82_toy : forall fl open listdir mlrl perm dir d o,
  can (load_by_name fl open listdir mlrl perm "toy" dir d) o <->
  o = Ok (load perm toy_X toy_Y toy_X toy_Y ["0"; "1"]%string ["0"; "1"; "2"]%string d).
Proof. exact C82_toy_proof. Qed.
Print Assumptions C82_toy.

(** C82: genbase is never loaded: shuffle_split_data is called with one argument too many, after the file was read *)
Theorem C82_genbase : forall fl open listdir mlrl perm dir d o,
  can (load_by_name fl open listdir mlrl perm "genbase" dir d) o <->
  o = Ok (Err (match mlrl (dir +:+ "/genbase")%string "genbase.arff"%string "genbase.xml"%string with Err e => e | Ok _ => TypeError end), d).
Proof. exact C82_genbase_proof. Qed.
Print Assumptions C82_genbase.

(** C82: every other name is read by mlrl: first the training file, then the test file, whose names are used; an error
    leaves the data set as it was *)
Theorem C82_mlrl : forall fl open listdir mlrl perm name dir d o,
  name <> "toy"%string -> name <> "genbase"%string -> (forall n sparse, ~ known name n sparse) ->
  let read suffix := mlrl (dir +:+ "/" +:+ name)%string (name +:+ suffix)%string (name +:+ ".xml")%string in
  can (load_by_name fl open listdir mlrl perm name dir d) o <->
  o = Ok (match read "-train.arff"%string, read "-test.arff"%string with
          | Err e, _ => (Err e, d)
          | Ok _, Err e => (Err e, d)
          | Ok (X, Y, _, _), Ok (X', Y', label_names, feature_names) => load perm X Y X' Y' label_names feature_names d
          end).
Proof. exact C82_mlrl_proof. Qed.
Print Assumptions C82_mlrl.

(** C82: with a file whose name contains "train" in the folder, an ARFF data set is loaded from the two prepared files,
    without drawing anything; the names of the features are the column numbers of the training matrix *)
Theorem C82_prepared : forall fl open listdir mlrl perm name n_labels (sparse : bool) dir d o, known name n_labels sparse ->
  let path := (dir +:+ "/" +:+ name)%string in
  (exists f, f ∈ listdir path /\ exists n, substring n 5 f = "train"%string) ->
  let read suffix := if sparse then read_sparse (open (path +:+ "/" +:+ name +:+ suffix)%string) n_labels
                     else read_dense fl (open (path +:+ "/" +:+ name +:+ suffix)%string) n_labels (Q2Qc (9 # 10)) in
  can (load_by_name fl open listdir mlrl perm name dir d) o <->
  o = Ok (match read "-train.arff"%string, read "-test.arff"%string with
          | Err e, _ => (Err e, d)
          | Ok _, Err e => (Err e, d)
          | Ok (X, Y, _), Ok (X', Y', label_names) =>
              load perm (lil_of_dense X) (lil_of_dense Y) (lil_of_dense X') (lil_of_dense Y') label_names
                (map decimal (seqZ 0 (match X with row :: _ => zlen row | [] => 0 end))) d
          end).
Proof. exact C82_prepared_proof. Qed.
Print Assumptions C82_prepared.

(** C82: the two dense files are binarised separately, each with its own values.  Whether the data set can be used is
    decided by the numbers of columns alone; that the columns mean the same in both parts is not checked.  When the
    numbers differ the assertion fails after the matrices have been stored. *)
Theorem C82_dense_pair : forall fl open listdir mlrl perm name n_labels dir d h1 h2 attrs sep1 sep2 rows A h1' h2' attrs' sep1' sep2' rows' A',
  known name n_labels false -> ds_split_train d = false ->
  let path := (dir +:+ "/" +:+ name)%string in
  (exists f, f ∈ listdir path /\ exists n, substring n 5 f = "train"%string) ->
  open (path +:+ "/" +:+ name +:+ "-train.arff")%string = dense_lines h1 h2 attrs sep1 sep2 rows ->
  open (path +:+ "/" +:+ name +:+ "-test.arff")%string = dense_lines h1' h2' attrs' sep1' sep2' rows' ->
  dense_file fl attrs sep1 rows n_labels (Q2Qc (9 # 10)) A ->
  dense_file fl attrs' sep1' rows' n_labels (Q2Qc (9 # 10)) A' ->
  (forall i, numeric_at attrs i -> i < zlen attrs - n_labels) ->
  (forall i, numeric_at attrs' i -> i < zlen attrs' - n_labels) ->
  exists numeric numeric' X X' D D' L L',
    (forall i, i ∈ numeric <-> numeric_at attrs i) /\ (forall i, i ∈ numeric' <-> numeric_at attrs' i) /\
    let w := zlen attrs - n_labels in let w' := zlen attrs' - n_labels in
    binarized false (Q2Qc (9 # 10)) numeric w A D /\ binarized false (Q2Qc (9 # 10)) numeric' w' A' D' /\
    stores X D (encoded_width numeric w A) /\ stores X' D' (encoded_width numeric' w' A') /\
    stores L (map (fun row => map trunc (drop (Z.to_nat w) row)) A) n_labels /\
    stores L' (map (fun row => map trunc (drop (Z.to_nat w') row)) A') n_labels /\
    exists d', ds_trn d' = Some (X, L) /\ ds_tst d' = Some (X', L') /\
      forall o, can (load_by_name fl open listdir mlrl perm name dir d) o <->
        o = Ok (if decide (encoded_width numeric w A = encoded_width numeric' w' A') then Ok tt else Err AssertionError, d').
Proof. exact C82_dense_pair_proof. Qed.
Print Assumptions C82_dense_pair.

(** C82: without such a file the one file is read (its error is the error of load) and split: of n >= 2 rows, 7n/10 (rounded
    down) are drawn with replacement for training, the mirrored rows are the test part.  The shapes always agree: if the
    training part is not split again, load succeeds. *)
Theorem C82_split : forall fl open listdir mlrl perm name n_labels (sparse : bool) dir d o, known name n_labels sparse ->
  let path := (dir +:+ "/" +:+ name)%string in
  (forall f n, f ∈ listdir path -> substring n 5 f <> "train"%string) ->
  let text := open (path +:+ "/" +:+ name +:+ ".arff")%string in
  let read := if sparse then read_sparse text n_labels else read_dense fl text n_labels (Q2Qc (9 # 10)) in
  (forall e, read = Err e -> can (load_by_name fl open listdir mlrl perm name dir d) o <-> o = Ok (Err e, d)) /\
  (forall X Y names, read = Ok (X, Y, names) -> 2 <= zlen X ->
     let fn := map decimal (seqZ 0 (match X with row :: _ => zlen row | [] => 0 end)) in
     let part (M : list (list Z)) idx := lil_of_dense (select M idx) in
     (can (load_by_name fl open listdir mlrl perm name dir d) o <->
      exists idx, zlen idx = 7 * zlen X / 10 /\ (forall i, i ∈ idx -> 0 <= i < zlen X) /\
        o = Ok (load perm (part X idx) (part Y idx) (part X (mirror (zlen X) idx)) (part Y (mirror (zlen X) idx)) names fn d)) /\
     (ds_split_train d = false -> can (load_by_name fl open listdir mlrl perm name dir d) o -> exists d', o = Ok (Ok tt, d'))).
Proof. exact C82_split_proof. Qed.
Print Assumptions C82_split.

(** ** Examples *)
Ltac lacking := cbv; intuition discriminate.
Definition ex_fl (s : string) : result Qc := match NilZero.int_of_string s with Some i => Ok (Qc_of_Z (Z.of_int i)) | None => Err ValueError end.
Example C82_conversion_ex : stores (lil_of_dense [[0; 1; 0]; [2; 0; 1]]) [[0; 1; 0]; [2; 0; 1]] 3 /\
  lines (csr_mat (lil_of_dense [[0; 1; 0]; [2; 0; 1]])) = [[(1, 1)]; [(0, 2); (2, 1)]].
Proof. split; [|vm_compute; reflexivity]. apply C82_conversion; [done|]. repeat constructor. Qed.

(** a feature with three values and the six labels of emotions *)
Definition ex_attrs : list (string * string) :=
  map (fun s => (s, "{0,1,2,3,4,5}"%string)) ["f"; "a"; "b"; "c"; "d"; "e"; "g"]%string.
Definition ex_rows (vs : list string) : list (list string) := map (fun v => [String.append "0" v; "1"; "0"; "0"; "1"; "0"; "1"]%string) vs.
Definition ex_table (vs : list Z) : list (list Qc) := map (fun v => map Qc_of_Z [v; 1; 0; 0; 1; 0; 1]) vs.
Definition ex_file (vs : list string) : list string := dense_lines "@relation r" newline ex_attrs newline "@data" (ex_rows vs).
Definition ex_open (test : list string) (file : string) : list string :=
  if decide (file = "d/emotions/emotions-test.arff"%string) then ex_file test else ex_file ["1"; "2"; "3"]%string.
Definition ex_list (_ : string) : list string := ["emotions-train.arff"; "emotions-test.arff"]%string.
Definition no_mlrl (_ _ _ : string) : result (csr * csr * list string * list string) := Err ValueError.
Definition ex_d : dataset := new_dataset false (Q2Qc (1 # 2)).

Lemma ex_dense (vs : list string) (A : list Z) : (3 <= length vs)%nat ->
  Forall2 (fun v a => lacks "," v /\ field_value ex_fl v = Ok (Qc_of_Z a)) vs A ->
  dense_file ex_fl ex_attrs newline (ex_rows vs) 6 (Q2Qc (9 # 10)) (ex_table A).
Proof.
  intros Hl HA. unfold dense_file. split_and!; try done.
  - repeat (constructor; [split; lacking|]). constructor.
  - by destruct vs; [simpl in Hl; lia|].
  - clear Hl. unfold ex_rows. induction HA as [|v a vs A [Hv _] _ IH]; [constructor|]. simpl. constructor; [|exact IH].
    split; [done|]. constructor.
    + unfold lacks in *. simpl. intros [E|E]; [done|tauto].
    + repeat (constructor; [lacking|]). constructor.
  - clear Hl. unfold ex_rows, ex_table. induction HA as [|v a vs A [_ Hv] _ IH]; [constructor|]. cbn [map]. constructor; [|exact IH].
    unfold row_values. change (first_char_lost _) with [v; "1"; "0"; "0"; "1"; "0"; "1"]%string. cbn [map]. rewrite Hv. vm_compute. reflexivity.
Qed.

(** the test file has the values 4, 2 and 5 instead of 1, 2 and 3: the matrices have the same shape, the columns do not
    mean the same, and load succeeds.  With the values 1 and 2 only the feature is not encoded and load fails, but the
    matrices are there. *)
Example C82_dense_ex :
  known "emotions" 6 false /\ substring 9 5 "emotions-train.arff" = "train"%string /\
  dense_file ex_fl ex_attrs newline (ex_rows ["1"; "2"; "3"]%string) 6 (Q2Qc (9 # 10)) (ex_table [1; 2; 3]) /\
  dense_file ex_fl ex_attrs newline (ex_rows ["4"; "2"; "5"]%string) 6 (Q2Qc (9 # 10)) (ex_table [4; 2; 5]) /\
  (forall i, ~ numeric_at ex_attrs i) /\
  encoded_width [] 1 (ex_table [1; 2; 3]) = 3 /\ encoded_width [] 1 (ex_table [4; 2; 5]) = 3 /\ encoded_width [] 1 (ex_table [1; 2; 1]) = 1 /\
  (exists d', can (load_by_name ex_fl (ex_open ["4"; "2"; "5"]%string) ex_list no_mlrl py_range "emotions" "d" ex_d) (Ok (Ok tt, d')) /\
     option_map (fun t => map (map fst) (lines (csr_mat (fst t)))) (ds_trn d') = Some [[0]; [1]; [2]] /\
     option_map (fun t => map (map fst) (lines (csr_mat (fst t)))) (ds_tst d') = Some [[1]; [0]; [2]]) /\
  (exists d', can (load_by_name ex_fl (ex_open ["1"; "2"; "1"]%string) ex_list no_mlrl py_range "emotions" "d" ex_d) (Ok (Err AssertionError, d')) /\
     option_map (fun t => csr_cols (fst t)) (ds_tst d') = Some 1).
Proof.
  split_and!; try (vm_compute; reflexivity).
  - unfold known. tauto.
  - apply ex_dense; [done|]. repeat (constructor; [split; [lacking|vm_compute; reflexivity]|]). constructor.
  - apply ex_dense; [done|]. repeat (constructor; [split; [lacking|vm_compute; reflexivity]|]). constructor.
  - intros i [H1 H2]. destruct (Z.to_nat i) as [|[|[|[|[|[|[|k]]]]]]]; cbn in H2; done.
  - eexists. split; [vm_compute; reflexivity|]. split; vm_compute; reflexivity.
  - eexists. split; [vm_compute; reflexivity|]. vm_compute; reflexivity.
Qed.

(** one file with three rows: 21/10 rounds to two rows; drawing the first row twice leaves the last row twice as test *)
Example C82_split_ex :
  (forall f n, f ∈ ["emotions.arff"]%string -> substring n 5 f <> "train"%string) /\ 7 * 3 / 10 = 2 /\
  exists d', can (load_by_name ex_fl (ex_open []) (fun _ => ["emotions.arff"]%string) no_mlrl py_range "emotions" "d" ex_d) (Ok (Ok tt, d')) /\
     option_map (fun t => map (map fst) (lines (csr_mat (fst t)))) (ds_trn d') = Some [[0]; [0]] /\
     option_map (fun t => map (map fst) (lines (csr_mat (fst t)))) (ds_tst d') = Some [[2]; [2]] /\
     ds_feature_names d' = Some ["0"; "1"; "2"]%string.
Proof.
  split; [|split; [done|]].
  - intros f n Hf. apply elem_of_list_singleton in Hf as ->. do 14 (destruct n as [|n]; [done|]). done.
  - eexists. split; [|split_and!].
    + assert (Hk : known "emotions" 6 false) by (unfold known; tauto).
      refine (proj2 (proj1 (proj2 (C82_split ex_fl (ex_open []) (fun _ => ["emotions.arff"]%string) no_mlrl py_range "emotions" 6 false "d" ex_d _ Hk _) _ _ _ _ _)) _).
      * intros f n Hf. apply elem_of_list_singleton in Hf as ->. do 14 (destruct n as [|n]; [done|]). done.
      * vm_compute. reflexivity.
      * done.
      * exists [0; 0]. split_and!; [done| |vm_compute; reflexivity]. intros i Hi. assert (i = 0) as -> by set_solver. done.
    + vm_compute; reflexivity.
    + vm_compute; reflexivity.
    + vm_compute; reflexivity.
Qed.

(** toy, genbase and another name *)
Example C82_names_ex :
  (exists d', can (load_by_name ex_fl (ex_open []) ex_list no_mlrl py_range "toy" "d" ex_d) (Ok (Ok tt, d'))) /\
  can (load_by_name ex_fl (ex_open []) ex_list (fun _ _ _ => Ok (toy_X, toy_Y, [], [])) py_range "genbase" "d" ex_d) (Ok (Err TypeError, ex_d)) /\
  (forall n sparse, ~ known "yeast" n sparse) /\
  (exists d', can (load_by_name ex_fl (ex_open []) ex_list (fun _ _ _ => Ok (toy_X, toy_Y, ["x"; "y"], ["f"]))%string py_range "yeast" "d" ex_d) (Ok (Ok tt, d'))) /\
  can (load_by_name ex_fl (ex_open []) ex_list no_mlrl py_range "yeast" "d" ex_d) (Ok (Err ValueError, ex_d)).
Proof.
  split_and!; try (eexists; vm_compute; reflexivity); try (vm_compute; reflexivity).
  intros n sparse H. unfold known in H. naive_solver.
Qed.
