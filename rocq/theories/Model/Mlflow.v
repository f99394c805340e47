(** Model of the two functions of corset/utils.py that look up MLflow experiments, and of several workers that call them at
    the same time, as the scripts do with ray. *)
From stdpp Require Import strings.
From Verif.Model Require Import PyBase.

(** The experiments of the tracking server, by name; identifiers are strings, too. *)
Notation store := (gmap string string).

(** mlflow.create_experiment: raises MlflowException (here GenericException) if there is an experiment of this name; [gen] is the identifier that the
    server chooses *)
Definition mlflow_create (gen : store -> string) (name : string) (st : store) : result string * store :=
  match st !! name with
  | Some _ => (Err GenericException, st)
  | None => (Ok (gen st), <[name := gen st]> st)
  end.

(** create_experiment_if_needed (corset/utils.py:169-174): the experiment (its identifier), or None.  A new experiment is looked up by its
    identifier instead of its name. *)
Definition create_experiment_if_needed (gen : store -> string) (name : string) (st : store) : result (option string) * store :=
  match st !! name with
  | Some i => (Ok (Some i), st)
  | None => match mlflow_create gen name st with
            | (Err e, st') => (Err e, st')
            | (Ok exp_id, st') => (Ok (st' !! exp_id), st')
            end
  end.

(** get_experiment_id_by_name (corset/utils.py:177-179): exp.experiment_id of None raises AttributeError *)
Definition get_experiment_id_by_name (gen : store -> string) (name : string) (st : store) : result string * store :=
  match create_experiment_if_needed gen name st with
  | (Err e, st') => (Err e, st')
  | (Ok None, st') => (Err AttributeError, st')
  | (Ok (Some i), st') => (Ok i, st')
  end.

(** A worker inside get_experiment_id_by_name (scripts/effect_of_min_feature_proba.py:20; scripts/train_greedy_and_eval.py:19; scripts/tune_greedy.py:39): before the
    first lookup; after a lookup without result; after creating the experiment i; finished.  Each call of mlflow is one step. *)
Inductive worker := Begin | Absent | Made (i : string) | Returned (i : string) | Raised (e : exn).
Global Instance worker_eq_dec : EqDecision worker.
Proof. solve_decision. Defined.

Definition worker_step (gen : store -> string) (name : string) (st : store) (w : worker) : store * worker :=
  match w with
  | Begin => (st, match st !! name with Some i => Returned i | None => Absent end)
  | Absent => match mlflow_create gen name st with
              | (Ok i, st') => (st', Made i)
              | (Err e, st') => (st', Raised e)
              end
  | Made exp_id => (st, match st !! exp_id with Some i => Returned i | None => Raised AttributeError end)
  | Returned _ | Raised _ => (st, w)
  end.

(** one step of worker k *)
Definition sys_step (gen : store -> string) (name : string) (s : store * list worker) (k : nat) : store * list worker :=
  match snd s !! k with
  | Some w => let '(st', w') := worker_step gen name (fst s) w in (st', <[k := w']> (snd s))
  | None => s
  end.

(** n workers, started together, taking steps in the order of the schedule *)
Definition run_workers (gen : store -> string) (name : string) (n : nat) (sched : list nat) (st : store) : store * list worker :=
  fold_left (sys_step gen name) sched (st, replicate n Begin).

Definition finished (w : worker) : bool := match w with Returned _ | Raised _ => true | _ => false end.
