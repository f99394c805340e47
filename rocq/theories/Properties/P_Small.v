(** Small methods: sizes and graph of a dataset (C51), metrics on unusual input (C49), slices (C70), dummy samplers (C97). *)
From Coq Require Import String QArith.Qcanon.
From stdpp Require Import strings.
From Verif.Model Require Import PyBase Sparse Utils Rand Graph PyState Data Evaluation Reader Boley.
From Verif.Model Require Exp.
From Verif.Spec Require Import SMatrix SGraph SData.
Open Scope string_scope.
Open Scope list_scope.
Open Scope Z_scope.
From Verif.Proofs Require Import T_Small.
Open Scope string_scope.
Open Scope list_scope.
Open Scope Z_scope.

(** C51, the numbers of a dataset: ntrn and ntst are the numbers of training and test rows, nfeat and ncls the numbers of
    columns of the training features and labels; shape lists these four in this order, and ndev after them if the training
    data was split.  None of them changes the dataset.  Without the data they raise AttributeError. *)
Theorem C51_numbers : forall (d : dataset),
  (forall X Y X' Y', ds_trn d = Some (X, Y) -> ds_tst d = Some (X', Y') ->
     ntrn d = (Ok (csr_rows X), d) /\ ntst d = (Ok (csr_rows X'), d) /\
     nfeat d = (Ok (csr_cols X), d) /\ ncls d = (Ok (csr_cols Y), d) /\
     (ds_split_train d = false ->
        shape d = (Ok [("ntrn", csr_rows X); ("ntst", csr_rows X'); ("nfeat", csr_cols X); ("ncls", csr_cols Y)], d)) /\
     (forall DX DY, ds_split_train d = true -> ds_dev d = Some (DX, DY) ->
        shape d = (Ok [("ntrn", csr_rows X); ("ntst", csr_rows X'); ("nfeat", csr_cols X); ("ncls", csr_cols Y);
                       ("ndev", csr_rows DX)], d))) /\
  (ds_trn d = None -> ntrn d = (Err AttributeError, d) /\ nfeat d = (Err AttributeError, d) /\
     ncls d = (Err AttributeError, d) /\ shape d = (Err AttributeError, d)) /\
  (ds_tst d = None -> ntst d = (Err AttributeError, d) /\ shape d = (Err AttributeError, d)).
Proof. exact C51_numbers_proof. Qed.
Print Assumptions C51_numbers.

(** C51, build_connectivity_graph: the nodes are the labels (or the features); two of them are joined, both ways, exactly if
    some training row has both, and the weight is 1 - (1 - c/a)(1 - c/b) where a and b count the rows with the one and
    with the other, and c the rows with both.  The attribute g of the dataset is the confidence graph, not this one. *)
Theorem C51_connectivity : forall (d : dataset) (X Y : csr) (which : string),
  ds_trn d = Some (X, Y) -> wf_cmat (csr_mat X) = true -> binary (csr_mat X) -> wf_cmat (csr_mat Y) = true -> binary (csr_mat Y) ->
  (which <> "Y" -> which <> "X" -> build_connectivity_graph which d = (Err UnboundLocalError, d)) /\
  (forall M, (which = "Y" /\ M = Y) \/ (which = "X" /\ M = X) ->
     exists c g d1, build_connectivity_graph which d = (Ok c, d1) /\ ds_g d1 = Some g /\
       build_confidence_graph which d = (Ok g, d1) /\
       g_nodes c = py_range (csr_cols M) /\
       (forall u v, is_edge c u v <-> u <> v /\ exists i, csr_has M i u /\ csr_has M i v) /\
       (forall u v w (A B C : gset Z), g_wt c !! (u, v) = Some w ->
          (forall i, i ∈ A <-> csr_has M i u) -> (forall i, i ∈ B <-> csr_has M i v) ->
          (forall i, i ∈ C <-> csr_has M i u /\ csr_has M i v) ->
          let num (s : gset Z) := Qc_of_Z (Z.of_nat (size s)) in
          w = (1 - (1 - num C / num A) * (1 - num C / num B))%Qc /\ g_wt c !! (v, u) = Some w)).
Proof. exact C51_connectivity_proof. Qed.
Print Assumptions C51_connectivity.

(** C49, unusual input: with different numbers of rows every metric raises ValueError, whatever the columns; with equally
    many rows, a matrix of at most one column makes every metric raise (scikit-learn does not take it for a multilabel
    matrix).  Without rows the Hamming accuracy divides by zero and the subset accuracy is nan. *)
Theorem C49_unusual : forall (P T : csr) (metric : csr -> csr -> result Qc),
  In metric [hamming_accuracy; subset_accuracy; micro_precision; micro_recall; micro_f1;
             macro_precision; macro_recall; macro_f1] ->
  (csr_rows P <> csr_rows T -> metric P T = Err ValueError) /\
  (csr_rows P = csr_rows T -> csr_cols P <= 1 \/ csr_cols T <= 1 -> metric P T = Err GenericException) /\
  (wf_cmat (csr_mat P) = true -> wf_cmat (csr_mat T) = true -> binary (csr_mat P) -> binary (csr_mat T) ->
   csr_rows P = 0 -> csr_rows T = 0 -> csr_cols P = csr_cols T -> 2 <= csr_cols P ->
   hamming_accuracy P T = Err ZeroDivisionError /\ subset_accuracy P T = Err NonFinite).
Proof. exact C49_unusual_proof. Qed.
Print Assumptions C49_unusual.

(** C70, the left part: for every row, however long, and every split column (negative ones included), A[:, :split] has
    left_width columns, and the rest of the row has the others. *)
Theorem C70_left_width : forall (A : list (list Qc)) (split n : Z) (D L : list (list Qc)),
  (forall row, row ∈ A -> zlen row = n) -> split_at split A = (D, L) ->
  (forall row, row ∈ D -> zlen row = left_width n split) /\ (forall row, row ∈ L -> zlen row = n - left_width n split) /\
  zip_with (++) D L = A.
Proof. exact C70_left_width_proof. Qed.
Print Assumptions C70_left_width.

(** C97. DummyHeadSampler and DummyTailSampler return one feature, or one label, each with the same probability, and nothing
    else; with no column they raise ValueError. *)
Theorem C97_dummy : forall (M : csr) (sampler : csr -> rand (gset Z)),
  In sampler [dummy_head_sample; dummy_tail_sample] ->
  (csr_cols M <= 0 -> sampler M = Fail ValueError) /\
  (0 < csr_cols M ->
     (forall o, can (sampler M) o <-> exists j, 0 <= j < csr_cols M /\ o = Ok {[ j ]}) /\
     (forall j, 0 <= j < csr_cols M -> prob (sampler M) (Ok {[ j ]}) = (1 / Qc_of_Z (csr_cols M))%Qc) /\
     (forall F : result (gset Z) -> Qc, expect (sampler M) F =
        (qsum (map (fun j => F (Ok {[ j ]})) (py_range (csr_cols M))) / Qc_of_Z (csr_cols M))%Qc)).
Proof. exact C97_dummy_proof. Qed.
Print Assumptions C97_dummy.

(** C82, the data of load_toy_dataset: the rows of X are 110, 011, 101 and those of Y are 11, 01, 10. *)
Theorem C82_toy_data : forall i j,
  csr_rows toy_X = 3 /\ csr_cols toy_X = 3 /\ csr_rows toy_Y = 3 /\ csr_cols toy_Y = 2 /\
  wf_cmat (csr_mat toy_X) = true /\ wf_cmat (csr_mat toy_Y) = true /\ binary (csr_mat toy_X) /\ binary (csr_mat toy_Y) /\
  (csr_has toy_X i j <-> (i, j) ∈ [(0,0); (0,1); (1,1); (1,2); (2,0); (2,2)]) /\
  (csr_has toy_Y i j <-> (i, j) ∈ [(0,0); (0,1); (1,1); (2,0)]).
Proof. exact C82_toy_data_proof. Qed.
Print Assumptions C82_toy_data.

(** C60, the constructor of CFTPDiscriminativitySampler: exactly the proposal distributions "tight" and "original" are accepted,
    anything else raises AssertionError; the new sampler has the values given and no data. *)
Theorem C60_cftp_sampler : forall (prune min_proba pd rs : Exp.pyval),
  (pd = Exp.VStr "tight" \/ pd = Exp.VStr "original" ->
     exists attrs, Exp.new_cftp_sampler prune min_proba pd rs = Ok (Exp.VObj "CFTPDiscriminativitySampler" attrs) /\
       forall k v, (k, v) ∈ attrs <->
         (k = "do_prune_edges" /\ v = prune) \/ (k = "min_proba" /\ v = min_proba) \/ (k = "proposal_distribution" /\ v = pd) \/
         (k = "random_state" /\ v = rs) \/ (k = "dfs_backend" /\ v = Exp.VStr "dfs_v2") \/
         (k = "_sample_space" /\ v = Exp.VNone) \/ (k = "_positives" /\ v = Exp.VNone) \/ (k = "N" /\ v = Exp.VInt 0)) /\
  (pd <> Exp.VStr "tight" -> pd <> Exp.VStr "original" -> Exp.new_cftp_sampler prune min_proba pd rs = Err AssertionError).
Proof. exact C60_cftp_sampler_proof. Qed.
Print Assumptions C60_cftp_sampler.

(** C51: three training rows and one test row.  Each label occurs in two of the rows and both in one: the weight of the edge
    is 1 - (1 - 1/2)(1 - 1/2) = 3/4. *)
Definition exX : csr := Csr (of_lines 3 [[(0,1);(1,1)]; [(0,1)]; [(1,1)]]).
Definition exY : csr := Csr (of_lines 2 [[(0,1);(1,1)]; [(1,1)]; [(0,1)]]).
Definition exTX : csr := Csr (of_lines 3 [[(0,1)]]).
Definition exTY : csr := Csr (of_lines 2 [[(0,1)]]).
Definition exPerm (n : Z) : list Z := py_range n.
Definition exD : dataset := snd (set_data exPerm exX exY exTX exTY (new_dataset false 1)).
Definition exDs : dataset := snd (set_data exPerm exX exY exTX exTY (new_dataset true (Q2Qc (2 # 3)))).

Example C51_numbers_ex :
  fst (shape exD) = Ok [("ntrn", 3); ("ntst", 1); ("nfeat", 3); ("ncls", 2)] /\
  fst (shape exDs) = Ok [("ntrn", 2); ("ntst", 1); ("nfeat", 3); ("ncls", 2); ("ndev", 1)] /\
  fst (shape (new_dataset false 1)) = Err AttributeError.
Proof. split_and!; vm_compute; reflexivity. Qed.

Example C51_connectivity_ex :
  ds_trn exD = Some (exX, exY) /\ wf_cmat (csr_mat exX) = true /\ wf_cmat (csr_mat exY) = true /\
  (let! c := fst (build_connectivity_graph "Y" exD) in Ok (g_nodes c, g_wt c !! (0, 1), g_wt c !! (1, 0), g_wt c !! (0, 0)))
    = Ok ([0; 1], Some (Q2Qc (3 # 4)), Some (Q2Qc (3 # 4)), None).
Proof.
  split; [vm_compute; reflexivity|]. split; [vm_compute; reflexivity|]. split; [vm_compute; reflexivity|].
  by_compute.
Qed.

(** C49: one column; different rows; no rows, where the other metrics are 1 (zero_division=1). *)
Example C49_unusual_ex : let one := Csr (of_lines 1 [[(0,1)]; []]) in let none := Csr (of_lines 2 []) in
  micro_f1 one one = Err GenericException /\ macro_recall exY exTY = Err ValueError /\
  hamming_accuracy none none = Err ZeroDivisionError /\ subset_accuracy none none = Err NonFinite /\
  micro_precision none none = Ok 1%Qc /\ macro_f1 none none = Ok 1%Qc.
Proof. intros one none. split_and!; by_compute. Qed.

(** C70: four columns split at 3, and at -1, and at -5. *)
Example C70_left_width_ex : let A := [[1; 0; 1; 0]; [0; 0; 1; 1]]%Qc in
  split_at 3 A = ([[1; 0; 1]; [0; 0; 1]], [[0]; [1]])%Qc /\ split_at (-1) A = split_at 3 A /\
  left_width 4 3 = 3 /\ left_width 4 (-1) = 3 /\ left_width 4 (-5) = 0 /\ left_width 4 9 = 4.
Proof. intros A. split_and!; by_compute. Qed.

(** C60: one accepted and one rejected proposal distribution. *)
Example C60_cftp_sampler_ex :
  (exists attrs, Exp.new_cftp_sampler (Exp.VBool false) (Exp.VInt 1) (Exp.VStr "original") Exp.VNone
     = Ok (Exp.VObj "CFTPDiscriminativitySampler" attrs) /\ ("proposal_distribution", Exp.VStr "original") ∈ attrs) /\
  Exp.new_cftp_sampler (Exp.VBool false) (Exp.VInt 1) (Exp.VStr "loose") Exp.VNone = Err AssertionError.
Proof.
  split; [|reflexivity].
  destruct (C60_cftp_sampler (Exp.VBool false) (Exp.VInt 1) (Exp.VStr "original") Exp.VNone) as [H _].
  destruct H as (attrs & E & Ha); [right; reflexivity|]. exists attrs. split; [exact E|]. apply Ha. tauto.
Qed.

(** C97: three features and two labels. *)
Example C97_ex : prob (dummy_head_sample exX) (Ok {[2]}) = Q2Qc (1 # 3) /\ prob (dummy_tail_sample exY) (Ok {[1]}) = Q2Qc (1 # 2) /\
  prob (dummy_head_sample exX) (Ok {[3]}) = 0%Qc /\ prob (dummy_head_sample exX) (Ok {[0; 1]}) = 0%Qc /\
  dummy_tail_sample (Csr (of_lines 0 [[]])) = Fail ValueError.
Proof. split; [by_compute|]. split; [by_compute|]. split; [by_compute|]. split; [by_compute|reflexivity]. Qed.
