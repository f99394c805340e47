(** Model of what one trial of the tuning scripts runs and reports (scripts/tune_greedy.py, scripts/tune_and_eval.py), and
    of one run of scripts/effect_of_n_heads_per_tail.py.  Not modelled: ray and optuna, mlflow (Model/Mlflow.v has the
    experiments), the logger, and the measured times ("fit_time", "elapsed"), which are further keys of the results. *)
From Coq Require Import String Reals Qreals QArith Qcanon.
From stdpp Require Import strings.
From Verif.Model Require Import PyBase PyReal Sparse Rule GreedyBase PyState Greedy Evaluation Data Exp Scripts Rand.
Open Scope string_scope.
Open Scope list_scope.
Open Scope Z_scope.

(** A cell of the data frame of results; nan is None *)
Definition perf_num (v : perf_val) : option R :=
  match v with Score q => Some (Q2R (this q)) | Coverage r => r | Count n => Some (IZR n) end.

(** pd.DataFrame.from_records(perf_list).mean().to_dict() (scripts/tune_greedy.py:54-55, scripts/tune_and_eval.py:57-58):
    one column per key, in the order in which the keys appear; mean skips nan and missing cells, and is nan if nothing is
    left. *)
Definition add_key (ks : list string) (k : string) : list string := if bool_decide (k ∈ ks) then ks else ks ++ [k].
Definition mean_of (vs : list R) : option R := match vs with [] => None | _ => Some (rsum vs / INR (length vs))%R end.
Definition mean_perf (recs : list (list (string * perf_val))) : list (string * option R) :=
  map (fun k => (k, mean_of (omap (fun r => Scripts.assoc r k ≫= perf_num) recs)))
      (foldl add_key [] (concat (map (map fst) recs))).

(** for i in range(n): l.append(f(i)) *)
Fixpoint srepeat {S A} (f : nat -> sx S A) (i n : nat) : sx S (list A) :=
  match n with
  | O => sret []
  | Datatypes.S n => let^ a := f i in let^ l := srepeat f (Datatypes.S i) n in sret (a :: l)
  end.

(** N_REPEATS (scripts/tune_greedy.py:27, scripts/tune_and_eval.py:25) *)
Definition N_REPEATS : nat := 10.

(** The scores of one repetition (scripts/tune_and_eval.py:47-52) *)
Definition evaluate_dev {P} (ord : gset Z -> list Z) (e : est P) (dev_X dev_Y : csr) : result (list (string * perf_val)) :=
  let! pred := predict e dev_X in
  let! ms := new_evaluator ["micro_f1"; "macro_f1"; "hamming_accuracy"] in
  let! perf := report ms pred dev_Y in
  let perf := map (fun p => (fst p, Score (snd p))) perf in
  let perf := od_set perf "n_rules" (Count (zlen (e_rules e))) in
  let! cov := match coverage_ratio ord e with Ok v => Ok (Some v) | Err NonFinite => Ok None | Err x => Err x end in
  Ok (od_set perf "coverage" (Coverage cov)).

Section Trials.
  Context {W : Type}.
  (** The samplers of a classifier, and the state of the world when the i-th repetition starts *)
  Context (S : pyval -> pyval -> samplers W) (w0 : nat -> W) (ord : gset Z -> list Z) (fuel : nat).
  Context (ds_load : sx dataset unit) (perm : Z -> list Z).

  (** One repetition in one_run of scripts/tune_and_eval.py:42-55 *)
  Definition dev_run (c : config) (X Y dev_X dev_Y : csr) (i : nat) : sx dataset (gs W * list (string * perf_val)) :=
    let^ clf := slift (create_greedy_v2_from_config c) in
    let^ cls := slift (read_class clf) in
    let^ p := slift (read_params clf) in
    let^ head_sampler := slift (attr clf "head_sampler") in
    let^ tail_sampler := slift (attr clf "tail_sampler") in
    match fit (S head_sampler tail_sampler) cls ord fuel X Y (new_classifier p (w0 i)) with
    | (Err e, _) => serr e
    | (Ok _, g) => let^ perf := slift (evaluate_dev ord (g_est g) dev_X dev_Y) in sret (g, perf)
    end.

  (** one_run of scripts/tune_and_eval.py:28-59; the state is ds.  The training part of the split is never used. *)
  Definition trial (c : config) : sx dataset (list (gs W) * list (string * option R)) :=
    let^ _ := match c !! "dataset" with Some _ => sret tt | None => serr KeyError end in
    let^ _ := ds_load in
    let^ trn := get_trn in
    let^ parts := slift (train_test_split perm (fst trn) (snd trn) (Q2Qc (7 # 10))) in
    let '(trn_X, dev_X, trn_Y, dev_Y) := parts in
    let^ l := srepeat (dev_run c (fst trn) (snd trn) dev_X dev_Y) 0 N_REPEATS in
    sret (map fst l, mean_perf (map snd l)).

  (** one_run of scripts/tune_greedy.py:29-56; the state is ds *)
  Definition trial_greedy (c : config) : sx dataset (list (gs W) * list (string * option R)) :=
    let^ _ := match c !! "dataset" with Some _ => sret tt | None => serr KeyError end in
    let^ l := srepeat (fun i =>
        let^ _ := match c !! "experiment_name" with Some _ => sret tt | None => serr KeyError end in
        tune_run S (w0 i) ord fuel ds_load c) 0 N_REPEATS in
    sret (map fst l, mean_perf (map snd l)).

  (** one_run of scripts/effect_of_n_heads_per_tail.py:10-23: the returned dictionary *)
  Definition n_heads_run (c : config) (n_tails_per_iter n_heads_per_tail : Z) : sx dataset (gmap string (pyval + perf_val)) :=
    let c := <["n_heads_per_tail" := VInt n_heads_per_tail]> (<["n_tails_per_iter" := VInt n_tails_per_iter]> c) in
    let^ clf := slift (create_greedy_v2_from_config c) in
    let^ cls := slift (read_class clf) in
    let^ p := slift (read_params clf) in
    let^ head_sampler := slift (attr clf "head_sampler") in
    let^ tail_sampler := slift (attr clf "tail_sampler") in
    let^ r := train_and_eval ord fuel ds_load (S head_sampler tail_sampler) cls (new_classifier p (w0 O)) in
    sret (foldl (fun m kv => <[fst kv := inr (snd kv)]> m) (inl <$> c : gmap string (pyval + perf_val)) (snd r)).
End Trials.
