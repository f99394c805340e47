(** Properties of GreedyBase: coverage ratio, prediction, pickling (C10-C13). *)
From Coq Require Import Reals Lra.
From Verif.Model Require Import PyBase PyReal Sparse Utils Rule GreedyBase.
From Verif.Spec Require Import SMatrix SRule SPredict.
Open Scope Z_scope.
From Verif.Proofs Require Import T_GreedyBase.
Open Scope Z_scope.

Definition exX : csr := Csr (of_lines 3 [[(0,1);(1,1)]; [(0,1)]; [(1,1);(2,1)]; [(0,1);(1,1)]]).
Definition exY : csr := Csr (of_lines 3 [[(0,1);(1,1)]; [(0,1);(1,1)]; [(2,1)]; [(0,1)]]).
Definition exB (h t : list Z) : bound :=
  match bind_dataset elements (new_rule h t) (tocsc exX) (tocsc exY) with
  | Ok b => b
  | Err _ => MkBound (new_rule [] []) 0 0 0 0 ∅ 0 ∅ 0 ∅ 0
  end.

(** C10. For a binary label matrix with at least one occurrence, coverage_ratio is the number of
    occurrences covered by at least one selected rule over the number of occurrences, and lies in [0,1].
    [occ] is the set of label occurrences, [cov] the set of covered ones. *)
Theorem C10_coverage_exact : forall (P : Type) (ord : gset Z -> list Z) (e : est P) (X Y : csr)
    (rs : list (list Z * list Z * bound)) (occ cov : gset (Z * Z)),
  set_order ord -> wf_cmat (csr_mat X) = true -> wf_cmat (csr_mat Y) = true ->
  csr_rows X = csr_rows Y -> binary (csr_mat Y) ->
  e_train e = Some (X, Y) -> e_rules e = map (fun r => Bound (snd r)) rs ->
  (forall h t b, (h, t, b) ∈ rs -> (forall c, c ∈ t -> 0 <= c) /\
     bind_dataset ord (new_rule h t) (tocsc X) (tocsc Y) = Ok b) ->
  (forall c, c ∈ occ <-> csr_has Y (fst c) (snd c)) -> occ <> ∅ ->
  (forall c, c ∈ cov <-> exists h t b, (h, t, b) ∈ rs /\ covers (tocsc X) (tocsc Y) h t c) ->
  coverage_ratio ord e = Ok (INR (size cov) / INR (size occ))%R /\
  cov ⊆ occ /\ (0 <= INR (size cov) / INR (size occ) <= 1)%R.
Proof. exact C10_coverage_exact_proof. Qed.
Print Assumptions C10_coverage_exact.

(** C10, order and multiplicity: two lists with the same rules have the same coverage ratio. *)
Theorem C10_coverage_order_free : forall (ord : gset Z -> list Z) (X Y : csr)
    (rs rs' : list (list Z * list Z * bound)),
  set_order ord -> wf_cmat (csr_mat X) = true -> wf_cmat (csr_mat Y) = true ->
  csr_rows X = csr_rows Y -> binary (csr_mat Y) -> (exists i j, csr_has Y i j) ->
  (forall h t b, (h, t, b) ∈ rs -> (forall c, c ∈ t -> 0 <= c) /\
     bind_dataset ord (new_rule h t) (tocsc X) (tocsc Y) = Ok b) ->
  (forall r, r ∈ rs <-> r ∈ rs') ->
  coverage_ratio_of ord Y (map (fun r => Bound (snd r)) rs) =
  coverage_ratio_of ord Y (map (fun r => Bound (snd r)) rs').
Proof. exact C10_coverage_order_free_proof. Qed.
Print Assumptions C10_coverage_order_free.

(** C10, telescoping: the coverage ratio is the sum over the selected rules of the marginal coverage
    ratio of each rule with respect to the rules selected before it. *)
Theorem C10_coverage_telescopes : forall (ord : gset Z -> list Z) (X Y : csr)
    (rs : list (list Z * list Z * bound)),
  set_order ord -> wf_cmat (csr_mat X) = true -> wf_cmat (csr_mat Y) = true ->
  csr_rows X = csr_rows Y -> binary (csr_mat Y) -> (exists i j, csr_has Y i j) ->
  (forall h t b, (h, t, b) ∈ rs -> (forall c, c ∈ t -> 0 <= c) /\
     bind_dataset ord (new_rule h t) (tocsc X) (tocsc Y) = Ok b) ->
  let bs := map snd rs in
  exists gains : list R,
    length gains = length bs /\
    (forall k b g, bs !! k = Some b -> gains !! k = Some g ->
       marginal_coverage_ratio Y (take k bs) b = Ok g /\ (0 <= g)%R) /\
    coverage_ratio_of ord Y (map Bound bs) = Ok (rsum gains).
Proof. exact C10_coverage_telescopes_proof. Qed.
Print Assumptions C10_coverage_telescopes.

(** Rules {1} -> {0} and {0} -> {0,1} cover 5 cells ... of 6 occurrences. *)
Example C10_ex_hyps :
  wf_cmat (csr_mat exX) = true /\ wf_cmat (csr_mat exY) = true /\ csr_rows exX = csr_rows exY /\
  (exists i j, csr_has exY i j) /\
  (forall h t b, (h, t, b) ∈ [([1], [0], exB [1] [0]); ([0], [0;1], exB [0] [0;1])] ->
     (forall c, c ∈ t -> 0 <= c) /\
     bind_dataset elements (new_rule h t) (tocsc exX) (tocsc exY) = Ok b).
Proof.
  split_and!; try (vm_compute; done).
  - exists 0, 1, 1, 1, 0, 2. vm_compute. repeat split; done.
  - intros h t b H. rewrite !elem_of_cons in H. destruct H as [H|[H|H]]; [| |inversion H];
      simplify_eq; (split; [intros c; rewrite ?elem_of_cons, ?elem_of_nil; lia|]).
    + unfold exB. destruct (bind_dataset _ _ _ _) eqn:E; [done|]. vm_compute in E. done.
    + unfold exB. destruct (bind_dataset _ _ _ _) eqn:E; [done|]. vm_compute in E. done.
Qed.
Example C10_ex_value :
  exists m, rfold (fun m s => let! supp := sr_support s in
      rfold (fun m c => csr_set0 m (fst c) (snd c)) m (product (elements supp) (r_tail (sr_rule s))))
    exY [Bound (exB [1] [0]); Bound (exB [0] [0;1])] = Ok m /\
  msum (csr_mat m) = 1 /\ nnz (csr_mat exY) = 6.
Proof. eexists. split; [vm_compute; reflexivity|]. split; vm_compute; done. Qed.

(** C11. predict returns a well-formed 0/1 matrix with one row per input row and num_labels columns,
    and cell (i, j) is stored exactly when some selected rule has its whole head in row i and j in its
    tail.  The rules' labels are training labels, hence below num_labels. *)
Theorem C11_predict_exact : forall (P : Type) (e : est P) (X : csr) (nl : Z),
  e_num_labels e = Some nl -> 0 <= nl -> wf_cmat (csr_mat X) = true ->
  (forall s j, s ∈ e_rules e -> j ∈ r_tail (sr_rule s) -> 0 <= j < nl) ->
  exists Yp, predict e X = Ok Yp /\
    wf_cmat (csr_mat Yp) = true /\ binary (csr_mat Yp) /\
    csr_rows Yp = csr_rows X /\ csr_cols Yp = nl /\
    forall i j, csr_has Yp i j <->
      fires (map (fun s => (r_head (sr_rule s), r_tail (sr_rule s))) (e_rules e)) X i j.
Proof. exact C11_predict_exact_proof. Qed.
Print Assumptions C11_predict_exact.

(** C11, the other direction of the label hypothesis: a rule that fires with a label >= num_labels makes
    predict raise IndexError instead of returning a matrix. *)
Theorem C11_predict_label_out_of_range : forall (P : Type) (e : est P) (X : csr) (nl : Z),
  e_num_labels e = Some nl -> wf_cmat (csr_mat X) = true ->
  (exists s j i, s ∈ e_rules e /\ j ∈ r_tail (sr_rule s) /\ nl <= j /\ 0 <= j /\ 0 <= i < csr_rows X /\
     forall f, f ∈ r_head (sr_rule s) -> csr_has X i f) ->
  predict e X = Err IndexError.
Proof. exact C11_predict_label_out_of_range_proof. Qed.
Print Assumptions C11_predict_label_out_of_range.

Definition exE : est unit := MkEst tt [Unbound (new_rule [1;0] [2]); Bound (exB [2] [2])] (Some 3) (Some 3) None.
Example C11_ex : e_num_labels exE = Some 3 /\ 0 <= 3 /\
  (forall s j, s ∈ e_rules exE -> j ∈ r_tail (sr_rule s) -> 0 <= j < 3) /\
  exists Yp, predict exE exX = Ok Yp /\ indices (csr_mat Yp) = [2; 2; 2] /\ indptr (csr_mat Yp) = [0;1;1;2;3].
Proof.
  split_and!; try done.
  - intros s j H. simpl in H. rewrite !elem_of_cons in H. destruct H as [->|[->|H]]; [| |inversion H].
    + intros H. change (j ∈ [2]) in H. rewrite elem_of_list_singleton in H. lia.
    + intros H. replace (r_tail (sr_rule (Bound (exB [2] [2])))) with [2] in H by (vm_compute; done).
      rewrite elem_of_list_singleton in H. lia.
  - eexists. split; [vm_compute; reflexivity|]. split; done.
Qed.

(** C12, order and multiplicity: estimators with the same set of (head, tail) rules predict the same. *)
Theorem C12_predict_rule_set : forall (P : Type) (e e' : est P) (X : csr) (nl : Z),
  e_num_labels e = Some nl -> e_num_labels e' = Some nl -> 0 <= nl -> wf_cmat (csr_mat X) = true ->
  (forall s j, s ∈ e_rules e -> j ∈ r_tail (sr_rule s) -> 0 <= j < nl) ->
  (forall h t, (exists s, s ∈ e_rules e /\ r_head (sr_rule s) = h /\ r_tail (sr_rule s) = t) <->
               (exists s, s ∈ e_rules e' /\ r_head (sr_rule s) = h /\ r_tail (sr_rule s) = t)) ->
  predict e X = predict e' X /\ is_ok (predict e X) = true.
Proof. exact C12_predict_rule_set_proof. Qed.
Print Assumptions C12_predict_rule_set.

(** C12, locality and monotonicity: the label set of row i' of the second prediction contains the label
    set of row i of the first as soon as the second estimator has all rules of the first and row i' of
    the second input has all features of row i of the first.  (With both inclusions in both directions
    this says that a predicted row depends on nothing but its own input row.) *)
Theorem C12_predict_local_monotone : forall (P : Type) (e e' : est P) (X X' Yp Yp' : csr) (nl i i' : Z),
  e_num_labels e = Some nl -> e_num_labels e' = Some nl -> 0 <= nl ->
  wf_cmat (csr_mat X) = true -> wf_cmat (csr_mat X') = true ->
  (forall s j, s ∈ e_rules e' -> j ∈ r_tail (sr_rule s) -> 0 <= j < nl) ->
  (forall s, s ∈ e_rules e -> s ∈ e_rules e') ->
  0 <= i < csr_rows X -> 0 <= i' < csr_rows X' ->
  (forall f, csr_has X i f -> csr_has X' i' f) ->
  predict e X = Ok Yp -> predict e' X' = Ok Yp' ->
  forall j, csr_has Yp i j -> csr_has Yp' i' j.
Proof. exact C12_predict_local_monotone_proof. Qed.
Print Assumptions C12_predict_local_monotone.

Example C12_ex : exists Yp Yp', predict exE exX = Ok Yp /\
  predict (MkEst tt [Bound (exB [2] [2]); Unbound (new_rule [1;0] [2]); Bound (exB [2] [2])] (Some 3) (Some 3) None) exX = Ok Yp' /\
  Yp = Yp' /\ csr_has Yp 0 2.
Proof.
  eexists _, _. split; [vm_compute; reflexivity|]. split; [vm_compute; reflexivity|]. split; [done|].
  exists 0, 1, 0, 1. repeat split; done.
Qed.

(** C13. Unpickling a pickled classifier keeps hyper-parameters, shapes and the (head, tail) of every
    rule in order, predicts the same on every input (even where prediction fails), and has no training
    data: coverage_ratio raises AttributeError.  Pickling again gives the same bytes. *)
Theorem C13_pickle_preserves : forall (P : Type) (e : est P) (ord : gset Z -> list Z),
  let e' := est_setstate (est_getstate e) in
  e_params e' = e_params e /\
  map sr_rule (e_rules e') = map sr_rule (e_rules e) /\
  e_num_labels e' = e_num_labels e /\ e_num_features e' = e_num_features e /\
  (forall X, predict e' X = predict e X) /\
  coverage_ratio ord e' = Err AttributeError /\
  est_getstate e' = est_getstate e.
Proof. exact C13_pickle_preserves_proof. Qed.
Print Assumptions C13_pickle_preserves.

(** C13, the dropped data matters: rules restored by unpickling have no support, so even after the
    training matrices are set again coverage_ratio raises AttributeError as soon as there is a rule. *)
Theorem C13_unpickled_coverage_unavailable : forall (P : Type) (e : est P) (ord : gset Z -> list Z) (X Y : csr),
  e_rules e <> [] ->
  coverage_ratio ord (set_X_Y (est_setstate (est_getstate e)) X Y) = Err AttributeError.
Proof. exact C13_unpickled_coverage_unavailable_proof. Qed.
Print Assumptions C13_unpickled_coverage_unavailable.

Example C13_ex : exists Yp, predict (est_setstate (est_getstate exE)) exX = Ok Yp /\ nnz (csr_mat Yp) = 3.
Proof. eexists. split; [vm_compute; reflexivity|]. done. Qed.
