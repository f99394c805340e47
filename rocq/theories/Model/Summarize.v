(** Model of scripts/summarize_tune_results.py, which ranks the configurations of the tuning experiment.  Not modelled: the
    logger, the display width of pandas, how to_markdown prints the table, and writing it to a file. *)
From Coq Require Import String Reals.
From stdpp Require Import strings.
From Verif.Model Require Import PyBase PyReal Scripts Tune Mlflow.
Open Scope string_scope.
Open Scope list_scope.
Open Scope Z_scope.

(** A run of the tracking server.  run.data.metrics has numbers (nan is None), run.data.params has strings; mlflow accepts no
    name that starts with a slash. *)
Record run := Run {
  run_experiment : string;
  run_dataset : option string;
  run_active : bool;
  run_metrics : list (string * option R);
  run_params : list (string * string)
}.

(** MlflowClient.search_runs as called in scripts/summarize_tune_results.py:23-27: the active runs of one experiment with
    this tag; the order of [server] is the order in which they are returned. *)
Definition search_runs (server : list run) (experiment_id dataset : string) : list run :=
  List.filter (fun r => String.eqb (run_experiment r) experiment_id && bool_decide (run_dataset r = Some dataset) && run_active r) server.

(** A cell of the data frame *)
Inductive cell := Num (x : option R) | Str (s : string).

(** flatten({'M': metrics, 'P': params}, reducer='path') (scripts/summarize_tune_results.py:30-31): os.path.join puts a slash
    between the two keys. *)
Definition flatten_run (r : run) : list (string * cell) :=
  map (fun p => (String.append "M/" (fst p), Num (snd p))) (run_metrics r) ++ map (fun p => (String.append "P/" (fst p), Str (snd p))) (run_params r).

(** The group of a row: its values under the keys; None if one is missing, which groupby then leaves out *)
Definition group_of (keys : list string) (row : list (string * cell)) : option (list string) :=
  mapM (fun k => match Scripts.assoc row k with Some (Str s) => Some s | _ => None end) keys.

Definition add_group (gs : list (list string)) (g : list string) : list (list string) := if bool_decide (g ∈ gs) then gs else gs ++ [g].

(** The numbers of a column in the rows of a group; describe() skips nan *)
Definition column_of (keys : list string) (column : string) (rows : list (list (string * cell))) (g : list string) : list R :=
  omap (fun row => if bool_decide (group_of keys row = Some g)
                   then match Scripts.assoc row column with Some (Num x) => x | _ => None end else None) rows.

(** 'std' of describe(): with one degree of freedom less, nan for fewer than two numbers *)
Definition std_of (vs : list R) : option R :=
  match mean_of vs with
  | Some m => if (length vs <? 2)%nat then None
              else Some (sqrt (rsum (map (fun x => ((x - m) * (x - m))%R) vs) / INR (length vs - 1)))
  | None => None
  end.

(** METRIC_FOR_RANKING (scripts/summarize_tune_results.py:14) *)
Definition METRIC_FOR_RANKING : string := "micro_f1".

(** The table [output_df] (scripts/summarize_tune_results.py:28-38) of the found runs: its columns, and in each row the
    values of the hyperparameters, the mean and the standard deviation.  groupby needs at least one key (ValueError) and the
    column (KeyError).  [argsort] lists the positions of the rows in the order of sort_values(by='mean', ascending=False),
    which does not fix the order of equal means; the groups are listed here in the order of their first rows, which is
    covered by leaving [argsort] open. *)
Definition summarize (argsort : list (option R) -> list nat) (runs : list run)
  : result (list string * list (list string * (option R * option R))) :=
  let rows := map flatten_run runs in
  match rows with
  | [] => Err IndexError
  | row0 :: _ =>
    let hyperparam_keys := List.filter (fun key => String.prefix "P" key) (map fst row0) in
    match hyperparam_keys with
    | [] => Err ValueError
    | _ =>
      let column := String.append "M/" METRIC_FOR_RANKING in
      if bool_decide (column ∈ concat (map (map fst) rows)) then
        let groups := foldl add_group [] (omap (group_of hyperparam_keys) rows) in
        let table := map (fun g => let vs := column_of hyperparam_keys column rows g in (g, (mean_of vs, std_of vs))) groups in
        Ok (hyperparam_keys ++ [String.append METRIC_FOR_RANKING "/mean"; String.append METRIC_FOR_RANKING "/std"],
            omap (fun i => table !! i) (argsort (map (fun t => fst (snd t)) table)))
      else Err KeyError
    end
  end.

(** The script (scripts/summarize_tune_results.py:13-38) for sys.argv[1] = [dataset] *)
Definition EXPERIMENT_NAME : string := "tune_greedy_v3".
Definition summarize_main (gen : store -> string) (argsort : list (option R) -> list nat) (server : list run)
  (dataset : string) (st : store) : result (list string * list (list string * (option R * option R))) * store :=
  match get_experiment_id_by_name gen EXPERIMENT_NAME st with
  | (Err e, st') => (Err e, st')
  | (Ok i, st') => (summarize argsort (search_runs server i dataset), st')
  end.
