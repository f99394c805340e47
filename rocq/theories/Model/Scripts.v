(** Model of the experiment scripts (scripts/*.py): how they call train_greedy_and_eval, and the configurations they
    choose for a dataset name.  ray hands every remote call its own (pickled) copy of the arguments.  Not modelled:
    ray itself, mlflow (see Model/Mlflow.v for the experiments), timing, and writing the results. *)
From Coq Require Import String Reals QArith Qcanon.
From stdpp Require Import strings.
From Verif.Model Require Import PyBase Sparse Rule GreedyBase PyState Greedy Evaluation Data Exp Rand.
Open Scope string_scope.
Open Scope list_scope.
Open Scope Z_scope.

(** ** Binding the arguments of a call to the parameters of a Python function.  A signature lists the parameters in order,
    each with its default if it has one; there are no keyword-only or starred parameters here. *)
Section Bind.
  Context {A : Type}.
  Definition assoc (d : list (string * A)) (x : string) : option A :=
    snd <$> List.find (fun p => String.eqb x (fst p)) d.

  (** f( *pos, **kw): positional arguments first, then keywords, then defaults; TypeError if there are too many positional
      arguments, for an unknown keyword, for a second value of a parameter, and for a missing argument. *)
  Definition bind_call (sig : list (string * option A)) (pos : list A) (kw : list (string * A)) : result (list (string * A)) :=
    if (length sig <? length pos)%nat then Err TypeError
    else
      let! bound := rfold (fun b kv =>
          if bool_decide (fst kv ∈ map fst sig) && bool_decide (fst kv ∉ map fst b) then Ok (b ++ [kv]) else Err TypeError)
        (zip (map fst sig) pos) kw in
      rmap (fun p => match assoc bound (fst p) with
                     | Some v => Ok (fst p, v)
                     | None => match snd p with Some v => Ok (fst p, v) | None => Err TypeError end
                     end) sig.
End Bind.

(** What the scripts pass to train_greedy_and_eval: the dataset, a configuration, or another value *)
Inductive arg := ADataset | AConfig (c : config) | AVal (v : pyval).

(** The signature of train_greedy_and_eval (corset/exp.py:33) *)
Definition train_sig : list (string * option arg) :=
  [("ds", None); ("config", None); ("greedy_version", None); ("validation_mode", Some (AVal (VBool false)))].

Section Runs.
  Context {W : Type}.
  Context (S : pyval -> pyval -> samplers W) (w0 : W) (ord : gset Z -> list Z) (fuel : nat) (ds_load : sx dataset unit).

  (** A call of train_greedy_and_eval.  The body asserts greedy_version in ('v2', 'v3') after ds.load()
      (corset/exp.py:39-40, 147), which fails for every value that is no string.  Calls with an argument of another kind
      at the first two places, or a validation_mode that is no bool, do not occur in the scripts and are not modelled. *)
  Definition call_train (pos : list arg) (kw : list (string * arg)) : sx dataset (gs W * list (string * perf_val)) :=
    let^ b := slift (bind_call train_sig pos kw) in
    match map snd b with
    | [ADataset; AConfig c; AVal version; AVal (VBool mode)] =>
        match version with
        | VStr s => train_greedy_and_eval S w0 ord fuel ds_load c s mode
        | _ => let^ _ := ds_load in serr AssertionError
        end
    | _ => serr TypeError
    end.

  (** one_run of scripts/effect_of_num_rules.py:13-17 *)
  Definition num_rules_run (n_rules : Z) (c : config) : sx dataset (gs W * list (string * perf_val)) :=
    call_train [ADataset] [("config", AConfig (<["n_max_rules" := VInt n_rules]> c)); ("n_repeats", AVal (VInt 1))].

  (** The test evaluation at the end of scripts/tune_and_eval.py:154-156; N_REPEATS is 10 (:25) *)
  Definition tune_and_eval_test (best_config : config) : sx dataset (gs W * list (string * perf_val)) :=
    call_train [ADataset; AConfig best_config; AVal (VInt 10)] [].

  (** The call in one_run of scripts/effect_of_min_feature_proba.py:17-30; GREEDY_VERSION is 'v2' (:13) *)
  Definition min_proba_run (min_feature_proba : pyval) (c : config) : sx dataset (gs W * list (string * perf_val)) :=
    call_train [ADataset] [("config", AConfig (<["min_feature_proba" := min_feature_proba]> c));
                           ("greedy_version", AVal (VStr "v2")); ("validation_mode", AVal (VBool false))].

  (** The call in one_run of scripts/train_greedy_and_eval.py:17-29; GREEDY_VERSION is 'v3' (:12) *)
  Definition train_run (c : config) : sx dataset (gs W * list (string * perf_val)) :=
    call_train [ADataset] [("config", AConfig c); ("greedy_version", AVal (VStr "v3")); ("validation_mode", AVal (VBool false))].

  (** The call in one_run of scripts/tune_greedy.py:44-46 *)
  Definition tune_run (c : config) : sx dataset (gs W * list (string * perf_val)) :=
    match c !! "greedy_version" with
    | Some v => call_train [ADataset; AConfig c] [("greedy_version", AVal v); ("validation_mode", AVal (VBool true))]
    | None => serr KeyError
    end.
End Runs.

(** ** Configurations by dataset name.  Decimal literals are exact rationals. *)
Definition dec (a : Z) (b : positive) : pyval := VFloat (Q2Qc (Qmake a b)).
Definition dict (l : list (string * pyval)) : config := list_to_map l.

(** scripts/effect_of_num_rules.py:25-40: the configuration, the numbers of rules and of repeats.  For another name
    n_rules_list is not defined and line 46 raises NameError, given here as its subclass UnboundLocalError. *)
Definition num_rules_setup (ds : string) : result (config * list Z * Z) :=
  if String.eqb ds "toy" then Ok (dict [], [1; 2], 4)
  else if String.eqb ds "enron" then
    Ok (dict [("lambd", VInt 10); ("min_feature_proba", dec 1 1)], [10; 20; 30; 40; 50; 60], 8)
  else if String.eqb ds "medical" then Ok (dict [("lambd", VInt 140)], [30; 40; 50; 60; 70], 8)
  else Err UnboundLocalError.

(** scripts/effect_of_min_feature_proba.py:40-67, likewise *)
Definition min_proba_setup (ds : string) : result (config * list pyval * Z) :=
  if String.eqb ds "toy" then
    Ok (dict [("n_tails_per_iter", VInt 10); ("n_heads_per_tail", VInt 1)], [dec 0 1; dec 5 10; dec 1 1], 4)
  else if String.eqb ds "bibtex" then
    Ok (dict [("n_tails_per_iter", VInt 1000); ("n_heads_per_tail", VInt 10); ("lambd", dec 214 100); ("n_max_rules", VInt 85);
              ("min_label_proba", dec 5 10)], [dec 7 10; dec 8 10; dec 9 10; dec 1 1], 8)
  else if String.eqb ds "medical" then
    Ok (dict [("n_tails_per_iter", VInt 1000); ("n_heads_per_tail", VInt 10);
              ("lambd", dec 4205799926225756 100000000000000); ("n_max_rules", VInt 40)],
        [dec 4 10; dec 5 10; dec 6 10; dec 7 10; dec 8 10; dec 9 10; dec 1 1], 8)
  else if String.eqb ds "emotions" then
    Ok (dict [("n_tails_per_iter", VInt 1000); ("n_heads_per_tail", VInt 10);
              ("lambd", dec 10092288035165227 10000000000000000); ("n_max_rules", VInt 25)],
        [dec 5 10; dec 6 10; dec 7 10; dec 8 10; dec 9 10; dec 1 1], 8)
  else Err UnboundLocalError.

(** scripts/train_greedy_and_eval.py:39-77: every other name keeps the initial configuration *)
Definition train_setup (ds : string) : config * Z :=
  let base := [("n_tails_per_iter", VInt 1000); ("n_heads_per_tail", VInt 10)] in
  if String.eqb ds "toy" then (dict [("n_tails_per_iter", VInt 10); ("n_heads_per_tail", VInt 1)], 1)
  else if String.eqb ds "bibtex" then
    (dict (base ++ [("lambd", dec 120381 100000); ("n_max_rules", VInt 84); ("min_label_proba", dec 5 10); ("min_feature_proba", dec 1 1)]), 8)
  else if String.eqb ds "medical" then
    (dict (base ++ [("lambd", dec 595374 100000); ("n_max_rules", VInt 49); ("min_feature_proba", dec 5 10)]), 8)
  else if String.eqb ds "emotions" then
    (dict (base ++ [("lambd", dec 121086 100000); ("n_max_rules", VInt 19); ("min_feature_proba", dec 8 10)]), 8)
  else if String.eqb ds "birds" then
    (dict (base ++ [("lambd", dec 11066 10000); ("n_max_rules", VInt 48); ("min_feature_proba", dec 95 100)]), 8)
  else if String.eqb ds "enron" then
    (dict (base ++ [("lambd", dec 105774 100000); ("n_max_rules", VInt 49); ("min_feature_proba", dec 1 1)]), 8)
  else if String.eqb ds "mediamill" then
    (dict (base ++ [("lambd", dec 133413 100000); ("n_max_rules", VInt 44); ("min_feature_proba", dec 8 10)]), 8)
  else (dict base, 8).

(** ray.tune: a search space gives a value or a domain for every key; tune.loguniform(lo, hi) draws floats between lo and
    hi, tune.randint(lo, hi) integers from lo to hi - 1 *)
Inductive domain := Fixed (v : pyval) | LogUniform (lo hi : Qc) | RandInt (lo hi : Z).
Definition in_domain (d : domain) (v : pyval) : Prop :=
  match d with
  | Fixed x => v = x
  | LogUniform lo hi => exists q, v = VFloat q /\ (lo <= q <= hi)%Qc
  | RandInt lo hi => exists z, v = VInt z /\ lo <= z < hi
  end.

(** [c] is a configuration ray may pass to one_run: one value of every domain, and no other key *)
Definition drawn (space : list (string * domain)) (c : config) : Prop :=
  forall k, match assoc space k with
            | Some d => exists v, c !! k = Some v /\ in_domain d v
            | None => c !! k = None
            end.

(** The search space of scripts/tune_greedy.py:73-123 and scripts/tune_and_eval.py:73-123, which agree on these keys.
    For another name search_space is not defined when it is used. *)
Definition search_space (ds : string) : result (list (string * domain)) :=
  let lam hi := ("lambd", LogUniform 1%Qc (Qc_of_Z hi)) in
  let rules lo hi := ("n_max_rules", RandInt lo hi) in
  let fp (a : Z) (b : positive) := ("min_feature_proba", Fixed (dec a b)) in
  let lp (a : Z) (b : positive) := ("min_label_proba", Fixed (dec a b)) in
  if String.eqb ds "toy" then Ok [lam 100; rules 2 5]
  else if String.eqb ds "emotions" then Ok [lam 1000; rules 5 50]
  else if String.eqb ds "mediamill" then Ok [fp 8 10%positive; lp 5 10%positive; lam 1000; rules 20 100]
  else if String.eqb ds "birds" then Ok [fp 95 100%positive; lp 5 10%positive; lam 1000; rules 5 50]
  else if String.eqb ds "cal500" then Err NotImplementedError
  else if String.eqb ds "enron" then Ok [fp 1 1%positive; lam 100; rules 10 50]
  else if String.eqb ds "bibtex" then Ok [fp 95 100%positive; lp 5 10%positive; lam 1000; rules 50 150]
  else if String.eqb ds "medical" then Ok [lam 1000; rules 10 50]
  else Err UnboundLocalError.

(** search_space in scripts/tune_greedy.py after lines 125 and 129, for the arguments dataset and greedy_version *)
Definition tune_space (ds version : string) : result (list (string * domain)) :=
  let! sp := search_space ds in
  let name := ("tune_greedy_" ++ version ++ (if String.eqb ds "toy" then "_debug" else ""))%string in
  Ok (sp ++ [("greedy_version", Fixed (VStr version)); ("experiment_name", Fixed (VStr name)); ("dataset", Fixed (VStr ds))]).
