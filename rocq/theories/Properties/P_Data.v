(** Properties of datasets and of the random split (C51, C52). *)
From Coq Require Import String Qround.
From stdpp Require Import strings.
From Verif.Model Require Import PyBase Sparse Utils Rand Graph PyState Data.
From Verif.Spec Require Import SMatrix SGraph SData.
Open Scope string_scope.
Open Scope list_scope.
Open Scope Z_scope.
From Verif.Proofs Require Import T_Data.
Open Scope string_scope.
Open Scope list_scope.
Open Scope Z_scope.

(** C51, shapes: load and set_data accept exactly consistent shapes (AssertionError otherwise); the matrices are stored
    before the check, so they stay in the dataset even when it fails.  Without split_train there is no development part. *)
Theorem C51_shapes : forall (perm : Z -> list Z) (d : dataset) (trn_X trn_Y tst_X tst_Y : csr) (ln fn : list string)
    (op : sx dataset unit),
  ds_split_train d = false ->
  op = load perm trn_X trn_Y tst_X tst_Y ln fn \/ op = set_data perm trn_X trn_Y tst_X tst_Y ->
  ds_trn (snd (op d)) = Some (trn_X, trn_Y) /\ ds_tst (snd (op d)) = Some (tst_X, tst_Y) /\
  (shapes_ok trn_X trn_Y tst_X tst_Y -> fst (op d) = Ok tt /\ ds_dev (snd (op d)) = None) /\
  (~ shapes_ok trn_X trn_Y tst_X tst_Y -> fst (op d) = Err AssertionError).
Proof. exact C51_shapes_proof. Qed.
Print Assumptions C51_shapes.

(** C51, split: with split_train, load and set_data of consistent shapes partition the rows into a train part of
    floor(ratio * n) rows and a development part, with the same rows for X and Y; if the ratio is not strictly
    between 0 and 1 or the train part would be empty they raise ValueError and the data stays unsplit. *)
Theorem C51_split : forall (perm : Z -> list Z) (d : dataset) (trn_X trn_Y tst_X tst_Y : csr) (ln fn : list string)
    (op : sx dataset unit),
  (forall n, 0 <= n -> perm n ≡ₚ py_range n) ->
  wf_cmat (csr_mat trn_X) = true -> wf_cmat (csr_mat trn_Y) = true ->
  ds_split_train d = true -> shapes_ok trn_X trn_Y tst_X tst_Y ->
  op = load perm trn_X trn_Y tst_X tst_Y ln fn \/ op = set_data perm trn_X trn_Y tst_X tst_Y ->
  let n := csr_rows trn_X in
  let splits (n_train : Z) := (0 < ds_train_ratio d)%Qc /\ (ds_train_ratio d < 1)%Qc /\ 1 <= n_train /\
    (Qc_of_Z n_train <= ds_train_ratio d * Qc_of_Z n)%Qc /\ (ds_train_ratio d * Qc_of_Z n < Qc_of_Z (n_train + 1))%Qc in
  ds_tst (snd (op d)) = Some (tst_X, tst_Y) /\
  (forall n_train, splits n_train ->
     fst (op d) = Ok tt /\
     exists train dev tX tY dX dY,
       ds_trn (snd (op d)) = Some (tX, tY) /\ ds_dev (snd (op d)) = Some (dX, dY) /\
       train ++ dev ≡ₚ py_range n /\ zlen train = n_train /\
       rows_of tX trn_X train /\ rows_of tY trn_Y train /\ rows_of dX trn_X dev /\ rows_of dY trn_Y dev) /\
  ((forall n_train, ~ splits n_train) -> fst (op d) = Err ValueError /\ ds_trn (snd (op d)) = Some (trn_X, trn_Y)).
Proof. exact C51_split_proof. Qed.
Print Assumptions C51_split.

(** C51, names: after load (even one that fails) label2id maps every label name to its last position; with distinct
    names it is the inverse of label_names.  The same holds for the features.  label_freq counts, for every label, the
    training rows that have it before any split. *)
Theorem C51_names : forall (perm : Z -> list Z) (d : dataset) (trn_X trn_Y tst_X tst_Y : csr) (ln fn : list string),
  let d1 := snd (load perm trn_X trn_Y tst_X tst_Y ln fn d) in
  ds_label_names d1 = Some ln /\ ds_feature_names d1 = Some fn /\
  exists l2i f2i freq, ds_label2id d1 = Some l2i /\ ds_feature2id d1 = Some f2i /\ ds_label_freq d1 = Some freq /\
    (forall names m, (names, m) ∈ [(ln, l2i); (fn, f2i)] ->
       (forall name i, m !! name = Some i <->
          0 <= i /\ names !! Z.to_nat i = Some name /\ forall k : nat, (Z.to_nat i < k)%nat -> names !! k <> Some name) /\
       (NoDup names -> forall name (i : nat), m !! name = Some (Z.of_nat i) <-> names !! i = Some name)) /\
    (wf_cmat (csr_mat trn_Y) = true -> binary (csr_mat trn_Y) ->
       zlen freq = csr_cols trn_Y /\
       forall j (B : gset Z), 0 <= j < csr_cols trn_Y -> (forall i, i ∈ B <-> csr_has trn_Y i j) ->
         freq !! Z.to_nat j = Some (Z.of_nat (size B))).
Proof. exact C51_names_proof. Qed.
Print Assumptions C51_names.

(** C51, set_data: label_names becomes None while label2id, feature names and label_freq keep whatever an earlier load
    stored; ndev raises AttributeError exactly when split_train is off, and after a successful split the train and
    development sizes add up to the number of rows given. *)
Theorem C51_set_data : forall (perm : Z -> list Z) (d : dataset) (trn_X trn_Y tst_X tst_Y : csr),
  (forall n, 0 <= n -> perm n ≡ₚ py_range n) ->
  wf_cmat (csr_mat trn_X) = true -> wf_cmat (csr_mat trn_Y) = true ->
  let d1 := snd (set_data perm trn_X trn_Y tst_X tst_Y d) in
  ds_label_names d1 = None /\ ds_label2id d1 = ds_label2id d /\ ds_feature_names d1 = ds_feature_names d /\
  ds_feature2id d1 = ds_feature2id d /\ ds_label_freq d1 = ds_label_freq d /\ ds_g d1 = ds_g d /\
  (ds_split_train d = false -> fst (ndev d1) = Err AttributeError /\ fst (ntrn d1) = Ok (csr_rows trn_X)) /\
  (ds_split_train d = true -> fst (set_data perm trn_X trn_Y tst_X tst_Y d) = Ok tt ->
     exists a b, fst (ntrn d1) = Ok a /\ fst (ndev d1) = Ok b /\ a + b = csr_rows trn_X /\ 1 <= a).
Proof. exact C51_set_data_proof. Qed.
Print Assumptions C51_set_data.

(** C51, graph: build_confidence_graph uses the (split) training labels for "Y", the training features for "X", and
    raises UnboundLocalError for any other argument; the result is kept as _g. *)
Theorem C51_graph : forall (d : dataset) (X Y : csr) (which : string),
  ds_trn d = Some (X, Y) -> wf_cmat (csr_mat X) = true -> binary (csr_mat X) -> wf_cmat (csr_mat Y) = true -> binary (csr_mat Y) ->
  (which <> "Y" -> which <> "X" -> build_confidence_graph which d = (Err UnboundLocalError, d)) /\
  (forall M, (which = "Y" /\ M = Y) \/ (which = "X" /\ M = X) ->
     exists g d1, build_confidence_graph which d = (Ok g, d1) /\ ds_g d1 = Some g /\ ds_trn d1 = ds_trn d /\
       g_nodes g = py_range (csr_cols M) /\
       forall u v, is_edge g u v <-> u <> v /\ exists i, csr_has M i u /\ csr_has M i v).
Proof. exact C51_graph_proof. Qed.
Print Assumptions C51_graph.

(** C52: k = int(p * N) train rows are drawn; the possible results are exactly those where for some positions idx (any
    sequence, repetitions included) the train part holds the rows idx and the test part the mirrored rows N-1-i, for
    data and labels alike; so both parts have k rows. *)
Theorem C52_mirror : forall (A B : Type) (X : list A) (y : list B) (p : Qc) (k : Z) o,
  zlen X = zlen y -> X <> [] ->
  0 <= k -> (Qc_of_Z k <= p * Qc_of_Z (zlen X))%Qc -> (p * Qc_of_Z (zlen X) < Qc_of_Z (k + 1))%Qc ->
  can (shuffle_split_data X y p) o <->
  exists idx, zlen idx = k /\ (forall i, i ∈ idx -> 0 <= i < zlen X) /\
    zlen (select X idx) = k /\ zlen (select X (mirror (zlen X) idx)) = k /\
    o = Ok (select X idx, select y idx, select X (mirror (zlen X) idx), select y (mirror (zlen X) idx)).
Proof. exact C52_mirror_proof. Qed.
Print Assumptions C52_mirror.

(** C52, law: all N^k sequences of positions are equally likely. *)
Theorem C52_law : forall (A B : Type) (X : list A) (y : list B) (p : Qc) (k : nat) (F : result (list A * list B * list A * list B) -> Qc),
  zlen X = zlen y -> X <> [] ->
  (Qc_of_Z (Z.of_nat k) <= p * Qc_of_Z (zlen X))%Qc -> (p * Qc_of_Z (zlen X) < Qc_of_Z (Z.of_nat k + 1))%Qc ->
  expect (shuffle_split_data X y p) F =
  (qsum (map (fun idx => F (Ok (select X idx, select y idx, select X (mirror (zlen X) idx), select y (mirror (zlen X) idx))))
             (sequences (py_range (zlen X)) k)) / Qc_of_Z (zlen X ^ Z.of_nat k))%Qc.
Proof. exact C52_law_proof. Qed.
Print Assumptions C52_law.

(** C52, no partition: position j is in both parts iff both j and its mirror image were drawn, and in neither iff
    neither was; the two parts hold every row exactly once iff the drawn positions are distinct, contain no mirrored
    pair, and are exactly half of the rows — never for an odd number of rows. *)
Theorem C52_not_held_out : forall (n : Z) (idx : list Z),
  0 <= n -> (forall i, i ∈ idx -> 0 <= i < n) ->
  (forall j, j ∈ idx /\ j ∈ mirror n idx <-> j ∈ idx /\ n - 1 - j ∈ idx) /\
  (forall j, j ∉ idx ++ mirror n idx <-> j ∉ idx /\ n - 1 - j ∉ idx) /\
  (idx ++ mirror n idx ≡ₚ py_range n <->
     NoDup idx /\ (forall i, i ∈ idx -> n - 1 - i ∉ idx) /\ 2 * zlen idx = n) /\
  (Z.odd n = true -> ~ idx ++ mirror n idx ≡ₚ py_range n).
Proof. exact C52_not_held_out_proof. Qed.
Print Assumptions C52_not_held_out.

(** C52, errors: a requested size int(p * N) < 0, or an empty matrix, always ends in ValueError. *)
Theorem C52_errors : forall (A B : Type) (X : list A) (y : list B) (p : Qc),
  (p * Qc_of_Z (zlen X) <= Qc_of_Z (-1))%Qc \/ X = [] ->
  forall o, can (shuffle_split_data X y p) o <-> o = Err ValueError.
Proof. exact C52_errors_proof. Qed.
Print Assumptions C52_errors.

Definition rev_perm (n : Z) : list Z := rev (py_range n).
Definition exX : csr := Csr (of_lines 3 [[(0, 1); (1, 1)]; [(1, 1)]; [(2, 1)]; [(0, 1); (2, 1)]; [(1, 1); (2, 1)]]).
Definition exY : csr := Csr (of_lines 2 [[(0, 1)]; [(0, 1); (1, 1)]; [(1, 1)]; []; [(0, 1)]]).
Definition exSX : csr := Csr (of_lines 3 [[(0, 1)]]).
Definition exSY : csr := Csr (of_lines 2 [[(1, 1)]]).

Example C51_hypotheses_ex : (forall n, 0 <= n -> rev_perm n ≡ₚ py_range n) /\
  wf_cmat (csr_mat exX) = true /\ wf_cmat (csr_mat exY) = true /\ binary (csr_mat exX) /\ binary (csr_mat exY) /\
  shapes_ok exX exY exSX exSY /\ ~ shapes_ok exX exSY exSX exSY.
Proof.
  split_and!; try by_compute.
  - intros n _. unfold rev_perm. symmetry. apply Permutation_rev.
  - apply PSparse.binary_b_ok; by_compute.
  - apply PSparse.binary_b_ok; by_compute.
Qed.

(** ratio 1/2 of five rows: two train rows (the last of the permutation 4, 3, 2, 1, 0), three development rows. *)
Example C51_split_ex :
  let r := load rev_perm exX exY exSX exSY ["a"; "b"] ["f"; "g"; "f"] (new_dataset true (Q2Qc (1 # 2))) in
  fst r = Ok tt /\
  option_map (fun t => map (fun m => map (map fst) (lines (csr_mat m))) [fst t; snd t]) (ds_trn (snd r)) = Some [[[1]; [0; 1]]; [[0; 1]; [0]]] /\
  option_map (fun t => map (fun m => map (map fst) (lines (csr_mat m))) [fst t; snd t]) (ds_dev (snd r)) =
    Some [[[1; 2]; [0; 2]; [2]]; [[0]; []; [1]]] /\
  fst (ntrn (snd r)) = Ok 2 /\ fst (ndev (snd r)) = Ok 3 /\
  option_map (fun m => (m !! "f", m !! "g", m !! "a")) (ds_feature2id (snd r)) = Some (Some 2, Some 1, None) /\
  ds_label_freq (snd r) = Some [3; 2].
Proof. intros r. split_and!; by_compute. Qed.

(** ratio 1/10: no train row would remain; ratio 1 is rejected; bad shapes are rejected but stored. *)
Example C51_errors_ex :
  fst (set_data rev_perm exX exY exSX exSY (new_dataset true (Q2Qc (1 # 10)))) = Err ValueError /\
  fst (set_data rev_perm exX exY exSX exSY (new_dataset true 1)) = Err ValueError /\
  fst (set_data rev_perm exX exY exSX exSY (new_dataset false 1)) = Ok tt /\
  fst (set_data rev_perm exX exSY exSX exSY (new_dataset false 1)) = Err AssertionError /\
  option_map (fun t => csr_rows (snd t)) (ds_trn (snd (set_data rev_perm exX exSY exSX exSY (new_dataset false 1)))) = Some 1 /\
  fst (ndev (snd (set_data rev_perm exX exY exSX exSY (new_dataset false 1)))) = Err AttributeError.
Proof. split_and!; by_compute. Qed.

(** Stale names: label2id of an earlier load survives set_data. *)
Example C51_set_data_ex :
  let d := snd (load rev_perm exX exY exSX exSY ["a"; "b"] ["f"; "g"; "f"] (new_dataset false 1)) in
  let d1 := snd (set_data rev_perm exSX exSY exSX exSY d) in
  ds_label_names d1 = None /\ option_map (fun m => m !! "b") (ds_label2id d1) = Some (Some 1) /\ ds_label_freq d1 = Some [3; 2].
Proof. intros d d1. split_and!; by_compute. Qed.

Example C51_graph_ex :
  let d := snd (set_data rev_perm exX exY exSX exSY (new_dataset false 1)) in
  (let! g := fst (build_confidence_graph "Y" d) in Ok (g_nodes g, has_edge g 0 1)) = Ok ([0; 1], true) /\
  (let! g := fst (build_confidence_graph "X" d) in Ok (g_nodes g)) = Ok [0; 1; 2] /\
  (let! g := fst (build_confidence_graph "Z" d) in Ok (g_nodes g)) = Err UnboundLocalError.
Proof. intros d. split_and!; by_compute. Qed.

(** Four rows, p = 1/2: two positions are drawn.  [0; 3] gives a test set equal to the train set, [0; 0] a
    repeated row, and [0; 1] happens to be a partition. *)
Example C52_ex :
  let X := [10; 11; 12; 13] in let y := ["a"; "b"; "c"; "d"] in
  zlen X = zlen y /\ X <> [] /\ (Qc_of_Z 2 <= Q2Qc (1 # 2) * Qc_of_Z 4)%Qc /\ (Q2Qc (1 # 2) * Qc_of_Z 4 < Qc_of_Z 3)%Qc /\
  (select X [0; 3], select y [0; 3], select X (mirror 4 [0; 3]), select y (mirror 4 [0; 3])) =
    ([10; 13], ["a"; "d"], [13; 10], ["d"; "a"]) /\
  select X (mirror 4 [0; 0]) = [13; 13] /\ select X (mirror 4 [0; 1]) = [13; 12].
Proof. intros X y. split_and!; by_compute. Qed.

(** The train and test parts hold the same rows with probability 1/4 (4 of the 16 draws). *)
Example C52_law_ex :
  prob (shuffle_split_data [10; 11; 12; 13] ["a"; "b"; "c"; "d"] (Q2Qc (1 # 2)))
    (Ok ([10; 13], ["a"; "d"], [13; 10], ["d"; "a"])) = Q2Qc (1 # 16) /\
  expect (shuffle_split_data [10; 11; 12; 13] ["a"; "b"; "c"; "d"] (Q2Qc (1 # 2)))
    (fun o => match o with
              | Ok (tr, _, te, _) => if bool_decide (Forall (fun x => x ∈ te) tr) then 1%Qc else 0%Qc
              | Err _ => 0%Qc end) = Q2Qc (1 # 4) /\
  length (sequences (py_range 4) 2) = 16%nat.
Proof. split_and!; by_compute. Qed.

Example C52_partition_ex :
  NoDup [0; 1] /\ [0; 1] ++ mirror 4 [0; 1] ≡ₚ py_range 4 /\ ~ [0; 3] ++ mirror 4 [0; 3] ≡ₚ py_range 4 /\
  2 ∉ [0; 3] ++ mirror 4 [0; 3].
Proof. split_and!; by_compute. Qed.

Example C52_errors_ex :
  prob (shuffle_split_data [10; 11] ["a"; "b"] (Q2Qc (-1))) (Err ValueError) = 1%Qc /\
  (Q2Qc (-1) * Qc_of_Z 2 <= Qc_of_Z (-1))%Qc /\
  prob (shuffle_split_data (@nil Z) (@nil string) (Q2Qc (1 # 2))) (Err ValueError) = 1%Qc.
Proof. split_and!; by_compute. Qed.
