(** MLflow experiments and concurrent workers (C87). *)
From stdpp Require Import strings.
From Verif.Model Require Import PyBase Mlflow.
From Verif.Proofs Require Import T_Mlflow.

(** C87: get_experiment_id_by_name returns the identifier of an existing experiment and changes nothing.  If there is none, it creates the experiment
    and then raises AttributeError (create_experiment_if_needed returns None), unless some experiment happens to be named like the new identifier; the next call
    succeeds. *)
Theorem C87_sequential : forall (gen : store -> string) (name : string) (st : store),
  (forall i, st !! name = Some i -> create_experiment_if_needed gen name st = (Ok (Some i), st) /\ get_experiment_id_by_name gen name st = (Ok i, st)) /\
  (st !! name = None -> let i := gen st in let st' := <[name := i]> st in
     (i <> name -> st !! i = None -> create_experiment_if_needed gen name st = (Ok None, st') /\ get_experiment_id_by_name gen name st = (Err AttributeError, st')) /\
     (forall j, i <> name -> st !! i = Some j -> get_experiment_id_by_name gen name st = (Ok j, st')) /\
     get_experiment_id_by_name gen name st' = (Ok i, st')).
Proof. exact C87_sequential_proof. Qed.
Print Assumptions C87_sequential.

(** C87: if the experiment exists before the workers start (as in scripts/train_greedy_and_eval.py and scripts/tune_greedy.py), no schedule of any number of
    workers changes the experiments or makes a worker fail; every worker that has taken a step has the identifier. *)
Theorem C87_created_before : forall (gen : store -> string) (name i : string) (st : store) (n : nat) (sched : list nat),
  st !! name = Some i ->
  fst (run_workers gen name n sched st) = st /\
  forall k, (k < n)%nat -> snd (run_workers gen name n sched st) !! k = Some (if decide (k ∈ sched) then Returned i else Begin).
Proof. exact C87_created_before_proof. Qed.
Print Assumptions C87_created_before.

(** C87: if it does not exist (as at the first start of scripts/effect_of_min_feature_proba.py), every schedule in which all of n >= 1 workers finish ends with the experiment
    created once and with exactly one worker that raises AttributeError; the others return the identifier or raise MlflowException.  A worker finishes after at most
    three steps.  With two workers or more, there is a schedule in which two fail. *)
Theorem C87_first_use : forall (gen : store -> string) (name : string) (st : store) (n : nat),
  st !! name = None -> gen st <> name -> st !! gen st = None -> (1 <= n)%nat ->
  (forall sched, let '(st', ws) := run_workers gen name n sched st in
     length ws = n /\
     (forall k w, ws !! k = Some w -> (3 <= length (filter (k =.) sched))%nat -> finished w = true) /\
     (forallb finished ws = true -> st' = <[name := gen st]> st /\
        exists k, ws !! k = Some (Raised AttributeError) /\ forall j w, j <> k -> ws !! j = Some w -> w = Returned (gen st) \/ w = Raised GenericException)) /\
  ((2 <= n)%nat -> exists sched, let ws := snd (run_workers gen name n sched st) in
     ws !! 0%nat = Some (Raised AttributeError) /\ ws !! 1%nat = Some (Raised GenericException)).
Proof. exact C87_first_use_proof. Qed.
Print Assumptions C87_first_use.

Open Scope string_scope.
(** A server with the experiment "Default" (identifier "0"); new identifiers are "1". *)
Definition ex_store : store := {[ "Default" := "0" ]}.
Definition ex_gen : store -> string := fun _ => "1".
Example C87_ex : ex_store !! "greedy" = None /\ ex_gen ex_store <> "greedy" /\ ex_store !! ex_gen ex_store = None /\
  snd (run_workers ex_gen "greedy" 3 [0;1;0;1;0;2]%nat ex_store) = [Raised AttributeError; Raised GenericException; Returned "1"] /\
  snd (run_workers ex_gen "greedy" 3 [0;0;0;1;2]%nat ex_store) = [Raised AttributeError; Returned "1"; Returned "1"] /\
  run_workers ex_gen "Default" 2 [1;1;0]%nat ex_store = (ex_store, [Returned "0"; Returned "0"]).
Proof. split_and!; by vm_compute. Qed.
