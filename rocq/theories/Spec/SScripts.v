(** How Python binds the arguments of a call, and which hyperparameters the tuning scripts choose from. *)
From Coq Require Import String Reals Qreals QArith Qcanon.
From stdpp Require Import strings.
From Verif.Model Require Import PyBase Rand Exp.
From Verif.Spec Require Import SExp.
Open Scope string_scope.
Open Scope list_scope.
Open Scope Z_scope.

(** [b] gives every parameter of the signature, in order, its positional argument, or its keyword argument, or its default;
    every argument is used, by one parameter. *)
Definition binding {A} (sig : list (string * option A)) (pos : list A) (kw b : list (string * A)) : Prop :=
  (length pos <= length sig)%nat /\
  (forall x v, (x, v) ∈ kw -> exists i d, sig !! i = Some (x, d) /\ (length pos <= i)%nat) /\
  map fst b = map fst sig /\
  forall i x d v, sig !! i = Some (x, d) -> b !! i = Some (x, v) ->
    pos !! i = Some v \/ (pos !! i = None /\ (x, v) ∈ kw) \/ (pos !! i = None /\ x ∉ map fst kw /\ d = Some v).

(** Per dataset: feature and label thresholds in percent, the largest lambd, and the first and last number of rules. *)
Definition tuned : list (string * (Z * Z * Z * Z * Z)) :=
  [("toy", (80, 80, 100, 2, 4)); ("emotions", (80, 80, 1000, 5, 49)); ("mediamill", (80, 50, 1000, 20, 99));
   ("birds", (95, 50, 1000, 5, 49)); ("enron", (100, 80, 100, 10, 49)); ("bibtex", (95, 50, 1000, 50, 149));
   ("medical", (80, 80, 1000, 10, 49))].

(** A configuration for which versions 2 and 3 have numbers as hyperparameters: a positive weight, at least one tail, head
    and rule, and two thresholds from 0 to 1. *)
Definition fraction (v : pyval) : Prop := exists q : Qc, v = VFloat q /\ (0 <= q <= 1)%Qc.
Definition usable (c : config) : Prop :=
  exists (vl af al : pyval) (lambd : R) (n_tails n_heads n_max : Z),
    chosen documented_v23 c "lambd" vl /\ real_of vl lambd /\ (0 < lambd)%R /\
    chosen documented_v23 c "n_tails_per_iter" (VInt n_tails) /\ 1 <= n_tails /\
    chosen documented_v23 c "n_heads_per_tail" (VInt n_heads) /\ 1 <= n_heads /\
    chosen documented_v23 c "n_max_rules" (VInt n_max) /\ 1 <= n_max /\
    chosen documented_v23 c "min_feature_proba" af /\ fraction af /\
    chosen documented_v23 c "min_label_proba" al /\ fraction al.
Definition percent (z : Z) : pyval := VFloat (Q2Qc (Qmake z 100)).
