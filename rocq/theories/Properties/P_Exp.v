(** Properties of the configuration factories and of train_greedy_and_eval (C60, C65). *)
From Coq Require Import String Reals Qreals Lra.
From stdpp Require Import strings.
From Verif.Model Require Import PyBase PyReal Sparse Utils Rand Rule GreedyBase PyState Greedy Evaluation Data Exp.
From Verif.Spec Require Import SMatrix SRule SPredict SGreedy SEval SExp.
Open Scope string_scope.
Open Scope list_scope.
Open Scope Z_scope.
From Verif.Proofs Require Import T_Exp.
Open Scope string_scope.
Open Scope list_scope.
Open Scope Z_scope.

(** C60. For every configuration, create_greedy_v2_from_config and create_greedy_v3_from_config build a classifier of
    the respective class in which every hyperparameter has the value given in the configuration, or the documented
    default if none is given; the two samplers get the two thresholds. *)
Theorem C60_factories : forall c : config,
  (exists o, create_greedy_v2_from_config c = Ok o /\ configured documented_v23 hyper_v23 c "GreedyCFTPDivMaxV2" o) /\
  (exists o, create_greedy_v3_from_config c = Ok o /\ configured documented_v23 hyper_v23 c "GreedyCFTPDivMaxV3" o) /\
  (exists o, create_greedy_from_config c = Ok o /\ configured documented hyper_v1 c "GreedyDivMax" o).
Proof. exact C60_factories_proof. Qed.
Print Assumptions C60_factories.

(** C60, versions: 'v2' and 'v3' select the two factories, every other version raises AssertionError; keys that are no
    hyperparameter (also tolerance) have no influence. *)
Theorem C60_versions : forall (c : config) (version : string),
  create_greedy_clf_from_config_by_version c "v2" = create_greedy_v2_from_config c /\
  create_greedy_clf_from_config_by_version c "v3" = create_greedy_v3_from_config c /\
  (version <> "v2" -> version <> "v3" -> create_greedy_clf_from_config_by_version c version = Err AssertionError) /\
  (forall c' : config, (forall key, key ∈ hyper_v23 -> c' !! key = c !! key) ->
     create_greedy_clf_from_config_by_version c' version = create_greedy_clf_from_config_by_version c version).
Proof. exact C60_versions_proof. Qed.
Print Assumptions C60_versions.

(** C65. train_greedy_and_eval with a supported version and numeric hyperparameters, on a dataset that loads: it fits a
    new classifier of that version, with the chosen hyperparameters and samplers with the chosen thresholds, on exactly
    the training matrices, predicts on the development part (validation mode) or the test part, and returns the fitted
    classifier with the eight scores of that prediction, the coverage of the training labels and the number of rules,
    in this order.  The dataset is left as load made it. *)
Theorem C65_results : forall (W : Type) (S : pyval -> pyval -> samplers W) (w0 : W) (ord : gset Z -> list Z) (fuel : nat)
    (ds_load : sx Data.dataset unit) (c : config) (version : string) (validation : bool) (d d' : Data.dataset)
    (cls : greedy_class) (vl vt vh vm : pyval) (lambd : R) (n_tails n_heads : Z) (n_max : option Z)
    (X Y TX TY : csr),
  set_order ord ->
  (version = "v2" /\ cls = DivMaxV2) \/ (version = "v3" /\ cls = DivMaxV3) ->
  chosen documented_v23 c "lambd" vl -> real_of vl lambd ->
  chosen documented_v23 c "n_tails_per_iter" vt -> vt = VInt n_tails ->
  chosen documented_v23 c "n_heads_per_tail" vh -> vh = VInt n_heads ->
  chosen documented_v23 c "n_max_rules" vm -> limit_of vm n_max ->
  ds_load d = (Ok tt, d') -> ds_trn d' = Some (X, Y) ->
  (if validation then ds_dev d' else ds_tst d') = Some (TX, TY) ->
  wf_cmat (csr_mat X) = true -> wf_cmat (csr_mat Y) = true -> csr_rows X = csr_rows Y -> binary (csr_mat Y) ->
  wf_cmat (csr_mat TX) = true -> wf_cmat (csr_mat TY) = true -> binary (csr_mat TY) ->
  csr_rows TX = csr_rows TY -> 1 <= csr_rows TY -> csr_cols TY = csr_cols Y -> 2 <= csr_cols TY ->
  exists h t af al,
    chosen documented_v23 c "min_feature_proba" af /\ head_sampler_with af h /\
    chosen documented_v23 c "min_label_proba" al /\ tail_sampler_with al t /\
    (forall e g, fit (S h t) cls ord fuel X Y (new_classifier (GParams lambd n_tails n_heads n_max 0) w0) = (Err e, g) ->
       train_greedy_and_eval S w0 ord fuel ds_load c version validation d = (Err e, d')) /\
    (forall g, fit (S h t) cls ord fuel X Y (new_classifier (GParams lambd n_tails n_heads n_max 0) w0) = (Ok tt, g) ->
       iter_ok (S h t) -> tails_valid (S h t) (csr_cols Y) ->
       forall (rules : list (list Z * list Z)) (cP cT occ cov : gset (Z * Z)) (E : gset Z),
         rules = map (fun s => (r_head (sr_rule s), r_tail (sr_rule s))) (g_rules g) ->
         (forall i j, (i, j) ∈ cP <-> fires rules TX i j) -> SEval.cells_of TY cT ->
         (forall i, i ∈ E <-> 0 <= i < csr_rows TY /\ forall j, (i, j) ∈ cP <-> (i, j) ∈ cT) ->
         SEval.cells_of Y occ -> occ <> ∅ ->
         (forall x, x ∈ cov <-> exists h t, (h, t) ∈ rules /\ covers (tocsc X) (tocsc Y) h t x) ->
         train_greedy_and_eval S w0 ord fuel ds_load c version validation d =
           (Ok (g, expected_results (csr_rows TY) (csr_cols TY) cP cT (size E) (size cov) (size occ) (zlen rules)), d')).
Proof. exact C65_results_proof. Qed.
Print Assumptions C65_results.

(** C65, errors: an exception of load or an unsupported version ends the run before anything is fitted (the latter with
    AssertionError, after loading); validation mode without a development part raises AttributeError. *)
Theorem C65_errors : forall (W : Type) (S : pyval -> pyval -> samplers W) (w0 : W) (ord : gset Z -> list Z) (fuel : nat)
    (ds_load : sx Data.dataset unit) (c : config) (version : string) (validation : bool) (d d' : Data.dataset),
  (forall e, ds_load d = (Err e, d') ->
     train_greedy_and_eval S w0 ord fuel ds_load c version validation d = (Err e, d')) /\
  (ds_load d = (Ok tt, d') -> version <> "v2" -> version <> "v3" ->
     train_greedy_and_eval S w0 ord fuel ds_load c version validation d = (Err AssertionError, d')) /\
  (ds_load d = (Ok tt, d') -> validation = true -> ds_dev d' = None ->
     exists e, train_greedy_and_eval S w0 ord fuel ds_load c version validation d = (Err e, d') /\
       forall cls p h t trn g, ds_trn d' = Some trn ->
         (exists clf, create_greedy_clf_from_config_by_version c version = Ok clf /\ read_class clf = Ok cls /\
            read_params clf = Ok p /\ attr clf "head_sampler" = Ok h /\ attr clf "tail_sampler" = Ok t) ->
         fit (S h t) cls ord fuel (fst trn) (snd trn) (new_classifier p w0) = (Ok tt, g) -> e = AttributeError).
Proof. exact C65_errors_proof. Qed.
Print Assumptions C65_errors.

(** C65, train_and_eval: with a new classifier of class GreedyDivMaxV2, V3 or GreedySubmod the same results, always on
    the test part; an exception of fit is passed on. *)
Theorem C65_train_and_eval : forall (W : Type) (S : samplers W) (w0 : W) (ord : gset Z -> list Z) (fuel : nat)
    (ds_load : sx Data.dataset unit) (d d' : Data.dataset) (cls : greedy_class) (p : gparams) (X Y TX TY : csr),
  set_order ord -> cls <> DivMax ->
  ds_load d = (Ok tt, d') -> ds_trn d' = Some (X, Y) -> ds_tst d' = Some (TX, TY) ->
  wf_cmat (csr_mat X) = true -> wf_cmat (csr_mat Y) = true -> csr_rows X = csr_rows Y -> binary (csr_mat Y) ->
  wf_cmat (csr_mat TX) = true -> wf_cmat (csr_mat TY) = true -> binary (csr_mat TY) ->
  csr_rows TX = csr_rows TY -> 1 <= csr_rows TY -> csr_cols TY = csr_cols Y -> 2 <= csr_cols TY ->
  (forall e g, fit S cls ord fuel X Y (new_classifier p w0) = (Err e, g) ->
     train_and_eval ord fuel ds_load S cls (new_classifier p w0) d = (Err e, d')) /\
  (forall g, fit S cls ord fuel X Y (new_classifier p w0) = (Ok tt, g) ->
     iter_ok S -> tails_valid S (csr_cols Y) ->
     forall (rules : list (list Z * list Z)) (cP cT occ cov : gset (Z * Z)) (E : gset Z),
       rules = map (fun s => (r_head (sr_rule s), r_tail (sr_rule s))) (g_rules g) ->
       (forall i j, (i, j) ∈ cP <-> fires rules TX i j) -> SEval.cells_of TY cT ->
       (forall i, i ∈ E <-> 0 <= i < csr_rows TY /\ forall j, (i, j) ∈ cP <-> (i, j) ∈ cT) ->
       SEval.cells_of Y occ -> occ <> ∅ ->
       (forall x, x ∈ cov <-> exists h t, (h, t) ∈ rules /\ covers (tocsc X) (tocsc Y) h t x) ->
       train_and_eval ord fuel ds_load S cls (new_classifier p w0) d =
         (Ok (g, expected_results (csr_rows TY) (csr_cols TY) cP cT (size E) (size cov) (size occ) (zlen rules)), d')).
Proof. exact C65_train_and_eval_proof. Qed.
Print Assumptions C65_train_and_eval.

(** ** Examples *)

(** A configuration with two of the hyperparameters, one of them None, and an unknown key. *)
Definition exC : config := {["lambd" := VFloat (Q2Qc (1 # 2)); "n_max_rules" := VNone; "colour" := VStr "red"]}.

Example C60_ex :
  (let! o := create_greedy_clf_from_config_by_version exC "v3" in attr o "lambd") = Ok (VFloat (Q2Qc (1 # 2))) /\
  (let! o := create_greedy_clf_from_config_by_version exC "v3" in attr o "n_max_rules") = Ok VNone /\
  (let! o := create_greedy_clf_from_config_by_version ∅ "v3" in attr o "n_max_rules") = Ok (VInt 10) /\
  (let! o := create_greedy_clf_from_config_by_version exC "v2" in attr o "n_heads_per_tail") = Ok (VInt 10) /\
  (let! o := create_greedy_clf_from_config_by_version exC "v2" in attr o "tolerance") = Err AttributeError /\
  (let! o := create_greedy_from_config exC in attr o "tolerance") = Ok (VFloat (Q2Qc (1 # 1000))) /\
  create_greedy_clf_from_config_by_version exC "v1" = Err AssertionError.
Proof. split_and!; vm_compute; reflexivity. Qed.

(** The training data, samplers and run of C45: two rules {0} -> {0} are selected. *)
Definition exT : csr := Csr (of_lines 2 [[(0,1);(1,1)]; [(1,1)]; [(1,1)]]).
Definition exD : Data.dataset := Dataset false (Q2Qc (1 # 2)) (Some (T_Greedy.divX, T_Greedy.divY)) (Some (T_Greedy.divX, exT))
  None None None None None None None.
Definition exC2 : config :=
  {["lambd" := VInt 1; "n_max_rules" := VInt 2; "n_tails_per_iter" := VInt 1; "n_heads_per_tail" := VInt 1]}.

(** Rows 0 and 1 get label 0; the truth is {0,1}, {1}, {1}: precision 1/2, recall 1/4, two of the four training
    labels covered. *)
Example C65_ex : exists g perf,
  train_greedy_and_eval (fun _ _ => T_Greedy.divS) tt elements 3 (sret tt) exC2 "v2" false exD = (Ok (g, perf), exD) /\
  ("micro_precision", Score (Q2Qc (1 # 2))) ∈ perf /\ ("micro_recall", Score (Q2Qc (1 # 4))) ∈ perf /\
  ("subset_accuracy", Score 0%Qc) ∈ perf /\
  ("coverage", Coverage (Some (INR 2 / INR 4)%R)) ∈ perf /\ ("n_rules", Count 2) ∈ perf /\
  train_greedy_and_eval (fun _ _ => T_Greedy.divS) tt elements 3 (sret tt) exC2 "v2" true exD = (Err AttributeError, exD).
Proof.
  destruct (T_Greedy.divS_fit_v2 DivMaxV2 2 1 0 (new_classifier (GParams 1 1 1 (Some 2) 0) tt)) as (g & Hf & Hr); [by left|done|done|].
  assert (set_order elements) as Ho by (intros s; reflexivity).
  assert (forall (l : list (Z * Z)) (m : csr), wf_cmat (csr_mat m) = true ->
    bool_decide (list_to_set (PGreedyBase.cell_list m) =@{gset (Z * Z)} list_to_set l) = true ->
    SEval.cells_of m (list_to_set l)) as Hcells.
  { intros l m Hw Hd i j. apply bool_decide_eq_true in Hd. rewrite <- Hd, elem_of_list_to_set. by apply PGreedyBase.elem_of_cell_list. }
  destruct (C65_results unit (fun _ _ => T_Greedy.divS) tt elements 3 (sret tt) exC2 "v2" false exD exD DivMaxV2
    (VInt 1) (VInt 1) (VInt 1) (VInt 2) 1 1 1 (Some 2) T_Greedy.divX T_Greedy.divY T_Greedy.divX exT)
    as (h & t & af & al & _ & _ & _ & _ & _ & Hok);
    [done|by left|by left|by (left; exists 1)|by left|done|by left|done|by left|by (right; exists 2)|done|done|done
    |by_compute|by_compute|by_compute|apply PSparse.binary_b_ok; by_compute|by_compute|by_compute
    |apply PSparse.binary_b_ok; by_compute|by_compute|by_compute|by_compute|by_compute|].
  specialize (Hok g Hf).
  assert (Hrun := Hok ltac:(intros w l; done)
    ltac:(intros w w' tl [= <- _] c Hc; apply elem_of_singleton in Hc as ->; by_compute)
    [([0], [0]); ([0], [0])] {[(0, 0); (1, 0)]} (list_to_set [(0, 0); (0, 1); (1, 1); (2, 1)])
    (list_to_set [(0, 0); (0, 1); (1, 0); (2, 1)]) {[(0, 0); (1, 0)]} ∅).
  eexists g, _. split.
  { apply Hrun; clear Hrun Hok.
    - rewrite Hr. vm_compute. reflexivity.
    - intros i j. unfold fires. split.
      + intros H. rewrite elem_of_union, !elem_of_singleton in H.
        split; [destruct H as [[= -> ->]|[= -> ->]]; by_compute|]. exists [0], [0].
        split; [by left|]. split; [|destruct H as [[= -> ->]|[= -> ->]]; by left].
        intros f Hf'. apply elem_of_list_singleton in Hf' as ->.
        apply PGreedyBase.elem_of_cell_list; [by_compute|].
        destruct H as [[= -> ->]|[= -> ->]]; by_compute.
      + intros (_ & h0 & t0 & Hin & Hh & Ht). rewrite !elem_of_cons, elem_of_nil in Hin.
        assert (h0 = [0] /\ t0 = [0]) as [-> ->] by (destruct Hin as [[= -> ->]|[[= -> ->]|[]]]; done).
        apply elem_of_list_singleton in Ht as ->. specialize (Hh 0 ltac:(by left)).
        apply PGreedyBase.elem_of_cell_list in Hh; [|by_compute].
        assert (bool_decide (Forall (fun c => c.2 = 0 -> c ∈ ({[(0, 0); (1, 0)]} : gset (Z * Z))) (PGreedyBase.cell_list T_Greedy.divX)) = true) as HF by (vm_compute; reflexivity).
        apply bool_decide_eq_true in HF. rewrite list.Forall_forall in HF. by apply (HF (i, 0) Hh).
    - apply Hcells; by_compute.
    - intros i. rewrite elem_of_empty. split; [done|]. intros [Hi H].
      assert (i = 0 \/ i = 1 \/ i = 2) as [-> | [-> | ->]] by (change (csr_rows exT) with 3 in Hi; lia);
        [specialize (H 1)|specialize (H 0)|specialize (H 1)]; set_solver.
    - apply Hcells; by_compute.
    - by_compute.
    - intros x.
      assert (x ∈ ({[(0, 0); (1, 0)]} : gset (Z * Z)) <-> covers (tocsc T_Greedy.divX) (tocsc T_Greedy.divY) [0] [0] x) as ->.
      { replace ({[(0, 0); (1, 0)]} : gset (Z * Z)) with (label_occs T_Greedy.divB) by by_compute.
        apply (PRuleMetric.label_occs_covers (tocsc T_Greedy.divX) (tocsc T_Greedy.divY) (new_rule [0] [0])).
        apply (T_Rule.bound_new elements); [done|apply T_GreedyBase.dataset_tocsc; by_compute| |vm_compute; reflexivity].
        intros c Hc. apply elem_of_list_singleton in Hc as ->. lia. }
      split; [intros H; exists [0], [0]; split; [by left|done]|].
      intros (h0 & t0 & Hin & H). rewrite !elem_of_cons, elem_of_nil in Hin.
      assert (h0 = [0] /\ t0 = [0]) as [-> ->] by (destruct Hin as [[= -> ->]|[[= -> ->]|[]]]; done). done. }
  unfold expected_results. rewrite !elem_of_cons.
  split_and!.
  - do 2 right. left. do 2 f_equal; apply Qc_is_canon; vm_compute; reflexivity.
  - do 3 right. left. do 2 f_equal; apply Qc_is_canon; vm_compute; reflexivity.
  - right. left. do 2 f_equal; apply Qc_is_canon; vm_compute; reflexivity.
  - do 8 right. left. reflexivity.
  - do 9 right. left. reflexivity.
  - clear Hrun Hok. destruct (C65_errors unit (fun _ _ => T_Greedy.divS) tt elements 3 (sret tt) exC2 "v2" true exD exD)
      as (_ & _ & He). destruct He as (e & He & Hat); [done|done|done|].
    rewrite He. f_equal. f_equal.
    eapply (Hat DivMaxV2 (GParams 1 1 1 (Some 2) 0) _ _ _ g); [reflexivity| |exact Hf].
    eexists. split_and!; vm_compute; reflexivity.
Qed.
