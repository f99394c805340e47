(** What the factories should build and what train_greedy_and_eval should report. *)
From Coq Require Import String Reals Qreals.
From stdpp Require Import strings.
From Verif.Model Require Import PyBase Sparse Rand Exp.
From Verif.Spec Require Import SEval.
Open Scope string_scope.
Open Scope list_scope.
Open Scope Z_scope.

(** The documented default values: of GreedyDivMax, and of versions 2 and 3. *)
Definition documented : list (string * pyval) :=
  [("min_feature_proba", VFloat (Q2Qc (4 # 5))); ("min_label_proba", VFloat (Q2Qc (4 # 5)));
   ("lambd", VFloat (Q2Qc 10)); ("n_tails_per_iter", VInt 100); ("n_heads_per_tail", VInt 10);
   ("n_max_rules", VNone); ("tolerance", VFloat (Q2Qc (1 # 1000)))].
Definition documented_v23 : list (string * pyval) :=
  [("min_feature_proba", VFloat (Q2Qc (4 # 5))); ("min_label_proba", VFloat (Q2Qc (4 # 5)));
   ("lambd", VFloat (Q2Qc 10)); ("n_tails_per_iter", VInt 100); ("n_heads_per_tail", VInt 10);
   ("n_max_rules", VInt 10)].

(** The value a configuration stands for: the one given, or the documented one if none is given. *)
Definition chosen (docs : list (string * pyval)) (c : config) (key : string) (v : pyval) : Prop :=
  c !! key = Some v \/ (c !! key = None /\ (key, v) ∈ docs).

(** [v] is an object of the class with exactly one value for each of its attributes, and [P] holds of them. *)
Definition is_object (cls : string) (v : pyval) (P : (string -> pyval -> Prop) -> Prop) : Prop :=
  exists attrs, v = VObj cls attrs /\ NoDup (map fst attrs) /\ P (fun name x => (name, x) ∈ attrs).

(** A head sampler with the parameter alpha, otherwise with the values of a newly built one *)
Definition head_sampler_with (alpha : pyval) (v : pyval) : Prop :=
  is_object "CFTPDiscriminativitySampler" v (fun has =>
    forall name x, has name x <->
      (name, x) ∈ [("min_proba", alpha); ("do_prune_edges", VBool true); ("dfs_backend", VStr "dfs_v2");
                   ("proposal_distribution", VStr "tight"); ("random_state", VNone);
                   ("_sample_space", VNone); ("_positives", VNone); ("N", VInt 0)]).

(** The same for the tail sampler *)
Definition tail_sampler_with (alpha : pyval) (v : pyval) : Prop :=
  is_object "UncoveredAreaSampler" v (fun has =>
    forall name x, has name x <->
      (name, x) ∈ [("min_proba", alpha); ("do_prune_edges", VBool true); ("dfs_backend", VStr "dfs_v2");
                   ("random_state", VInt 12345); ("update_history", VList [])]).

(** A classifier configured by [c]: every hyperparameter has the chosen value, the samplers have the two chosen
    thresholds, nothing is fitted, and there is no other attribute. *)
Definition configured (docs : list (string * pyval)) (stored : list string) (c : config) (cls : string) (v : pyval) : Prop :=
  is_object cls v (fun has =>
    (forall key x, key ∈ stored -> has key x <-> chosen docs c key x) /\
    (exists h a, has "head_sampler" h /\ chosen docs c "min_feature_proba" a /\ head_sampler_with a h) /\
    (exists t a, has "tail_sampler" t /\ chosen docs c "min_label_proba" a /\ tail_sampler_with a t) /\
    has "selected_rules" (VList []) /\ has "_num_labels" VNone /\ has "_num_features" VNone /\
    has "random_state" VNone /\
    (forall key x, has key x -> key ∈ stored ++ ["head_sampler"; "tail_sampler"; "selected_rules"; "_num_labels";
                                                "_num_features"; "random_state"])).

Definition hyper_v23 : list string :=
  ["min_feature_proba"; "min_label_proba"; "lambd"; "n_tails_per_iter"; "n_heads_per_tail"; "n_max_rules"].
Definition hyper_v1 : list string := ["lambd"; "n_tails_per_iter"; "n_heads_per_tail"; "n_max_rules"; "tolerance"].

(** The number a hyperparameter is *)
Definition real_of (v : pyval) (x : R) : Prop := (exists z, v = VInt z /\ x = IZR z) \/ exists q, v = VFloat q /\ x = Q2R (this q).
Definition limit_of (v : pyval) (n : option Z) : Prop := (v = VNone /\ n = None) \/ exists z, v = VInt z /\ n = Some z.

(** The results for predicted cells [cP] and true cells [cT] on n rows and l labels, [n_equal] rows of them predicted
    exactly, [cov] of [occ] training cells covered by the [n_rules] rules. *)
Definition expected_results (n l : Z) (cP cT : gset (Z * Z)) (n_equal cov occ : nat) (n_rules : Z) : list (string * perf_val) :=
  let num (s : nat) := Qc_of_Z (Z.of_nat s) in
  [("hamming_accuracy", Score (1 - num (size (sym_diff cP cT)) / (Qc_of_Z n * Qc_of_Z l))%Qc);
   ("subset_accuracy", Score (num n_equal / Qc_of_Z n)%Qc);
   ("micro_precision", Score (ratio (size (cP ∩ cT)) (size cP)));
   ("micro_recall", Score (ratio (size (cP ∩ cT)) (size cT)));
   ("micro_f1", Score (dice cP cT));
   ("macro_precision", Score (column_mean l (fun j => ratio (size (column cP j ∩ column cT j)) (size (column cP j)))));
   ("macro_recall", Score (column_mean l (fun j => ratio (size (column cP j ∩ column cT j)) (size (column cT j)))));
   ("macro_f1", Score (column_mean l (fun j => dice (column cP j) (column cT j))));
   ("coverage", Coverage (Some (INR cov / INR occ)%R));
   ("n_rules", Count n_rules)].
