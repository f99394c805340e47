(** Model of Dataset.load (corset/data.py:47-123) with the choice of the reader.
    Not modelled: the mlrl package; its reader is a parameter that gives the matrices and the names of the labels and
    attributes, or an error. *)
From Coq Require Import Ascii DecimalString.
From stdpp Require Import strings.
From Verif.Model Require Import PyBase Sparse Utils Rand PyState Data Reader.
Open Scope Z_scope.

(** sp.lil_matrix(M) for a matrix given as a list of rows (corset/data.py:79-82).  Simplification: a matrix without rows
    gets 0 columns.  The lil format is represented by the csr matrix with the same entries. *)
Definition lil_of_dense (M : list (list Z)) : csr :=
  Csr (of_lines (match M with row :: _ => zlen row | [] => 0 end)
                (map (fun row => List.filter (fun e : Z * Z => negb (snd e =? 0)) (enumerate row)) M)).

(** str(i); np.arange(n) as names: the integers are represented by their decimal strings *)
Definition arange_names (n : Z) : list string := map (fun i => NilZero.string_of_int (Z.to_int i)) (py_range n).

(** n_labels_map and sparse_map (corset/data.py:58-71) *)
Definition arff_sets : list (string * (Z * bool)) :=
  [("mediamill", (101, false)); ("birds", (19, false)); ("bookmarks", (208, true)); ("CAL500", (174, false));
   ("emotions", (6, false))]%string.
Definition arff_entry (name : string) : option (Z * bool) :=
  option_map snd (List.find (fun e => String.eqb name (fst e)) arff_sets).

(** trn_X, trn_Y, tst_X, tst_Y, labels_names, feature_names *)
Definition fetched : Type := csr * csr * csr * csr * list string * list string.

(** Run a computation and keep the exception as a value. *)
Fixpoint attempt {A} (m : rand A) : rand (result A) :=
  match m with
  | Ret a => Ret (Ok a)
  | Fail e => Ret (Err e)
  | Choose ps k => Choose ps (fun i => attempt (k i))
  end.

Section Load.
  (** float(s), the contents of files, the plain files of a folder (os.listdir), the mlrl reader
      load_data_set_and_meta_data(dir, arff, xml), and the permutations of train_test_split *)
  Context (fl : string -> result Qc) (open : string -> list string) (listdir : string -> list string)
          (mlrl : string -> string -> string -> result (csr * csr * list string * list string)) (perm : Z -> list Z).

  (** The branches of load (corset/data.py:48-107).  shuffle_split_data takes three arguments and is called with four
      for genbase, after the data has been read: TypeError. *)
  Definition fetch (name datadir : string) : rand fetched :=
    let dir := String.append datadir (String.append "/" name) in
    if decide (name = "toy"%string) then Ret (toy_X, toy_Y, toy_X, toy_Y, ["0"; "1"]%string, ["0"; "1"; "2"]%string)
    else match arff_entry name with
    | Some (n_labels, sparse) =>
        let? '(D_train, labels_train, D_test, labels_test, label_names) :=
          read_data_arff fl open (listdir dir) dir n_labels (Q2Qc (9 # 10)) (Q2Qc (7 # 10)) sparse in
        let trn_X := lil_of_dense D_train in
        Ret (trn_X, lil_of_dense labels_train, lil_of_dense D_test, lil_of_dense labels_test, label_names,
             arange_names (csr_cols trn_X))
    | None =>
        let xml := String.append name ".xml" in
        if decide (name = "genbase"%string) then
          let? _ := lift (mlrl dir (String.append name ".arff") xml) in Fail TypeError
        else
          let? '(trn_X, trn_Y, _, _) := lift (mlrl dir (String.append name "-train.arff") xml) in
          let? '(tst_X, tst_Y, label_names, feature_names) := lift (mlrl dir (String.append name "-test.arff") xml) in
          Ret (trn_X, trn_Y, tst_X, tst_Y, label_names, feature_names)
    end.

  (** Dataset(name=name, datadir=datadir).load() (corset/data.py:47-123): what it does to the data set *)
  Definition load_by_name (name datadir : string) (d : dataset) : rand (result unit * dataset) :=
    let? r := attempt (fetch name datadir) in
    Ret match r with
        | Err e => (Err e, d)
        | Ok (trn_X, trn_Y, tst_X, tst_Y, label_names, feature_names) =>
            load perm trn_X trn_Y tst_X tst_Y label_names feature_names d
        end.
End Load.
