(** Model of corset/data.py (Dataset) and of shuffle_split_data in corset/utils_data.py.
    Not modelled: reading files (the loaders appear as the matrices and names they return), the logger,
    and the traitlets machinery around name, datadir, split_train and train_ratio. *)
From Coq Require Import String Qround.
From stdpp Require Import strings.
From Verif.Model Require Import PyBase Sparse Utils Rand Graph PyState.
Open Scope string_scope.
Open Scope list_scope.
Open Scope Z_scope.

(** The attributes of a Dataset.  A missing attribute is None; label_names is also None after set_data,
    which assigns None to it.  The graph attribute is _g. *)
Record dataset := Dataset {
  ds_split_train : bool;
  ds_train_ratio : Qc;
  ds_trn : option (csr * csr);     (* trn_X, trn_Y *)
  ds_tst : option (csr * csr);     (* tst_X, tst_Y *)
  ds_dev : option (csr * csr);     (* dev_X, dev_Y *)
  ds_label_names : option (list string);
  ds_label2id : option (gmap string Z);
  ds_feature_names : option (list string);
  ds_feature2id : option (gmap string Z);
  ds_label_freq : option (list Z);
  ds_g : option graph }.

(** Dataset() with the two options split_train and train_ratio *)
Definition new_dataset (split : bool) (ratio : Qc) : dataset :=
  Dataset split ratio None None None None None None None None None.

(** assert b *)
Definition py_assert (b : bool) : result unit := if b then Ok tt else Err AssertionError.

(** _check_shapes (corset/data.py:157-170) *)
Definition check_shapes (trn_X trn_Y tst_X tst_Y : csr) : result unit :=
  let! _ := py_assert (csr_rows trn_X =? csr_rows trn_Y) in
  let! _ := py_assert (csr_rows tst_X =? csr_rows tst_Y) in
  let! _ := py_assert (csr_cols trn_X =? csr_cols tst_X) in
  py_assert (csr_cols trn_Y =? csr_cols tst_Y).

(** M[indices] for a csr matrix and valid non-negative row indices *)
Definition csr_take (m : csr) (idx : list Z) : csr :=
  Csr (of_lines (csr_cols m) (map (line (csr_mat m)) idx)).

(** sklearn 1.0 train_test_split(X, Y, train_size=ratio, random_state=1234): the float train_size must be in (0, 1), the
    train part has floor(ratio * n) rows and must not be empty, the test part gets the rest.
    [perm n] is RandomState(1234).permutation(n); the product ratio * n is exact here, without the
    rounding of floats.  Result: X_train, X_test, Y_train, Y_test. *)
Definition train_test_split (perm : Z -> list Z) (X Y : csr) (ratio : Qc) : result (csr * csr * csr * csr) :=
  if negb (csr_rows X =? csr_rows Y) then Err ValueError
  else if bool_decide (ratio <= 0)%Qc || bool_decide (1 <= ratio)%Qc then Err ValueError
  else
    let n := csr_rows X in
    let n_train := Qfloor (this (ratio * Qc_of_Z n)%Qc) in
    let n_test := n - n_train in
    if n_train =? 0 then Err ValueError
    else
      let ind_test := take (Z.to_nat n_test) (perm n) in
      let ind_train := take (Z.to_nat n_train) (drop (Z.to_nat n_test) (perm n)) in
      Ok (csr_take X ind_train, csr_take X ind_test, csr_take Y ind_train, csr_take Y ind_test).

Section Dataset.
  Context (perm : Z -> list Z).

  Definition set_trn (v : csr * csr) (d : dataset) : dataset :=
    Dataset (ds_split_train d) (ds_train_ratio d) (Some v) (ds_tst d) (ds_dev d) (ds_label_names d)
      (ds_label2id d) (ds_feature_names d) (ds_feature2id d) (ds_label_freq d) (ds_g d).
  Definition set_dev (v : option (csr * csr)) (d : dataset) : dataset :=
    Dataset (ds_split_train d) (ds_train_ratio d) (ds_trn d) (ds_tst d) v (ds_label_names d)
      (ds_label2id d) (ds_feature_names d) (ds_feature2id d) (ds_label_freq d) (ds_g d).
  Definition set_matrices (trn tst : csr * csr) (d : dataset) : dataset :=
    Dataset (ds_split_train d) (ds_train_ratio d) (Some trn) (Some tst) (ds_dev d) (ds_label_names d)
      (ds_label2id d) (ds_feature_names d) (ds_feature2id d) (ds_label_freq d) (ds_g d).
  Definition set_names (names : option (list string)) (d : dataset) : dataset :=
    Dataset (ds_split_train d) (ds_train_ratio d) (ds_trn d) (ds_tst d) (ds_dev d) names
      (ds_label2id d) (ds_feature_names d) (ds_feature2id d) (ds_label_freq d) (ds_g d).
  Definition set_maps (lnames : list string) (l2i : gmap string Z) (fnames : list string) (f2i : gmap string Z)
      (freq : list Z) (d : dataset) : dataset :=
    Dataset (ds_split_train d) (ds_train_ratio d) (ds_trn d) (ds_tst d) (ds_dev d) (Some lnames)
      (Some l2i) (Some fnames) (Some f2i) (Some freq) (ds_g d).
  Definition set_g (g : graph) (d : dataset) : dataset :=
    Dataset (ds_split_train d) (ds_train_ratio d) (ds_trn d) (ds_tst d) (ds_dev d) (ds_label_names d)
      (ds_label2id d) (ds_feature_names d) (ds_feature2id d) (ds_label_freq d) (Some g).

  (** self.trn_X, self.trn_Y / self.tst_X, self.tst_Y *)
  Definition get_trn : sx dataset (csr * csr) :=
    let^ d := sget in match ds_trn d with Some v => sret v | None => serr AttributeError end.
  Definition get_tst : sx dataset (csr * csr) :=
    let^ d := sget in match ds_tst d with Some v => sret v | None => serr AttributeError end.

  (** split_train_if_needed (corset/data.py:125-136) *)
  Definition split_train_if_needed : sx dataset unit :=
    let^ d := sget in
    if ds_split_train d then
      let^ trn := get_trn in
      let^ parts := slift (train_test_split perm (fst trn) (snd trn) (ds_train_ratio d)) in
      let '(trn_X, dev_X, trn_Y, dev_Y) := parts in
      let^ _ := smod (set_trn (trn_X, trn_Y)) in
      smod (set_dev (Some (dev_X, dev_Y)))
    else smod (set_dev None).

  (** {name: i for i, name in enumerate(names)} (corset/data.py:112, :114) *)
  Definition name_map (names : list string) : gmap string Z :=
    foldl (fun m '(i, name) => <[name := i]> m) ∅ (enumerate names).

  (** load (corset/data.py:47-123) after the loader of the data set has returned the matrices and names *)
  Definition load (trn_X trn_Y tst_X tst_Y : csr) (labels_names feature_names : list string) : sx dataset unit :=
    let^ _ := smod (set_maps labels_names (name_map labels_names) feature_names (name_map feature_names)
                      (label_freq (tocsc trn_Y))) in
    let^ _ := smod (set_matrices (trn_X, trn_Y) (tst_X, tst_Y)) in
    let^ _ := slift (check_shapes trn_X trn_Y tst_X tst_Y) in
    split_train_if_needed.

  (** set_data (corset/data.py:150-155) *)
  Definition set_data (trn_X trn_Y tst_X tst_Y : csr) : sx dataset unit :=
    let^ _ := smod (set_matrices (trn_X, trn_Y) (tst_X, tst_Y)) in
    let^ _ := smod (set_names None) in
    let^ _ := slift (check_shapes trn_X trn_Y tst_X tst_Y) in
    split_train_if_needed.

  (** build_confidence_graph (corset/data.py:138-145).  The node names taken from label_names are not
      modelled (see construct_confidence_graph). *)
  Definition build_confidence_graph (which : string) : sx dataset graph :=
    let^ trn := get_trn in
    let^ mat := if String.eqb which "Y" then sret (snd trn)
                else if String.eqb which "X" then sret (fst trn)
                else serr UnboundLocalError in
    let^ g := slift (construct_confidence_graph (tocsc mat)) in
    let^ _ := smod (set_g (fst g)) in
    sret (fst g).

  (** build_connectivity_graph (corset/data.py:147-148) *)
  Definition build_connectivity_graph (which : string) : sx dataset graph :=
    let^ g := build_confidence_graph which in slift (convert_to_connectivity_graph g).

  (** ntrn, ndev, ntst, ncls, nfeat (corset/data.py:172-193) *)
  Definition ntrn : sx dataset Z := let^ t := get_trn in sret (csr_rows (fst t)).
  Definition ndev : sx dataset Z :=
    let^ d := sget in
    if ds_split_train d then match ds_dev d with Some v => sret (csr_rows (fst v)) | None => serr AttributeError end
    else serr AttributeError.
  Definition ntst : sx dataset Z := let^ t := get_tst in sret (csr_rows (fst t)).
  Definition ncls : sx dataset Z := let^ t := get_trn in sret (csr_cols (snd t)).
  Definition nfeat : sx dataset Z := let^ t := get_trn in sret (csr_cols (fst t)).

  (** shape (corset/data.py:195-200) *)
  Definition shape : sx dataset (list (string * Z)) :=
    let^ a := ntrn in
    let^ b := ntst in
    let^ c := nfeat in
    let^ e := ncls in
    let^ d := sget in
    if ds_split_train d then let^ v := ndev in sret [("ntrn", a); ("ntst", b); ("nfeat", c); ("ncls", e); ("ndev", v)]
    else sret [("ntrn", a); ("ntst", b); ("nfeat", c); ("ncls", e)].
End Dataset.

(** load_toy_dataset (corset/data.py:27-38): the same matrices for training and testing; the numeric names 0, 1, ... are
    written as strings here. *)
Definition toy_X : csr := Csr (of_lines 3 [[(0, 1); (1, 1)]; [(1, 1); (2, 1)]; [(0, 1); (2, 1)]]).
Definition toy_Y : csr := Csr (of_lines 2 [[(0, 1); (1, 1)]; [(1, 1)]; [(0, 1)]]).
Definition load_toy (perm : Z -> list Z) : sx dataset unit :=
  load perm toy_X toy_Y toy_X toy_Y ["0"; "1"] ["0"; "1"; "2"].

(** ** shuffle_split_data (corset/utils_data.py:466-475)
    The rows of X and y may be anything.  [p] is proportion_train; p * X.shape[0] is exact here, without
    the rounding of floats. *)

(** int(q): truncation towards zero *)
Definition py_int (q : Qc) : Z := Z.quot (Qnum (this q)) (Zpos (Qden (this q))).

(** np.random.choice(xs, k): k independent uniform draws, with replacement.  An empty xs raises
    ValueError also for k = 0, where numpy returns an empty float array that cannot be used as index. *)
Fixpoint choices_with_replacement {A} (xs : list A) (k : nat) : rand (list A) :=
  match k with
  | O => Ret []
  | S k' => let? x := np_choice_uniform xs in let? l := choices_with_replacement xs k' in Ret (x :: l)
  end.

Definition np_choice_many {A} (xs : list A) (k : Z) : rand (list A) :=
  if (k <? 0) || (zlen xs =? 0) then Fail ValueError else choices_with_replacement xs (Z.to_nat k).

(** M[indices] for an integer index array *)
Definition take_rows {A} (m : list A) (idx : list Z) : result (list A) := rmap (py_index m) idx.

Definition shuffle_split_data {A B} (X : list A) (y : list B) (p : Qc) : rand (list A * list B * list A * list B) :=
  let? idx := np_choice_many (py_range (zlen X)) (py_int (p * Qc_of_Z (zlen X))) in
  let? D_train := lift (take_rows X idx) in
  let? labels_train := lift (take_rows y idx) in
  let neg := map Z.lnot idx in           (* ~indices_split *)
  let? D_test := lift (take_rows X neg) in
  let? labels_test := lift (take_rows y neg) in
  Ret (D_train, labels_train, D_test, labels_test).
