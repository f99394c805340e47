(** What the summary of the tuning runs should say. *)
From Coq Require Import String Reals.
From stdpp Require Import strings.
From Verif.Model Require Import Summarize.
Open Scope string_scope.
Open Scope list_scope.

(** The names of metrics and of parameters of a run are the keys of two dictionaries. *)
Definition run_ok (r : run) : Prop := NoDup (map fst (run_metrics r)) /\ NoDup (map fst (run_params r)).

(** A run that was made with these values of these parameters, perhaps among others *)
Definition made_with (names values : list string) (r : run) : Prop := Forall2 (fun n v => (n, v) ∈ run_params r) names values.

(** [xs] are the micro_f1 scores of the runs made with the values, in order; runs without a score are left out. *)
Inductive scores (names values : list string) : list run -> list R -> Prop :=
  | scores_nil : scores names values [] []
  | scores_take r x runs xs : made_with names values r -> ("micro_f1", Some x) ∈ run_metrics r ->
      scores names values runs xs -> scores names values (r :: runs) (x :: xs)
  | scores_skip r runs xs : (made_with names values r -> forall x, ("micro_f1", Some x) ∉ run_metrics r) ->
      scores names values runs xs -> scores names values (r :: runs) xs.

(** The average of numbers, and their sample standard deviation *)
Definition is_average (xs : list R) (m : option R) : Prop :=
  match m with
  | None => xs = []
  | Some m => xs <> [] /\ (m * INR (length xs) = foldr Rplus 0 xs)%R
  end.
Definition is_deviation (xs : list R) (s : option R) : Prop :=
  match s with
  | None => (length xs <= 1)%nat
  | Some s => (2 <= length xs)%nat /\ (0 <= s)%R /\ exists m, is_average xs (Some m) /\
      (s * s * (INR (length xs) - 1) = foldr Rplus 0 (map (fun x => (x - m) ^ 2) xs))%R
  end.

(** [a] may stand before [b] in descending order; nan comes last. *)
Definition not_below (a b : option R) : Prop :=
  match a, b with Some x, Some y => (y <= x)%R | _, None => True | None, Some _ => False end.

(** The contract of sort_values: a rearrangement in descending order *)
Definition sorts_descending (argsort : list (option R) -> list nat) : Prop :=
  forall l, argsort l ≡ₚ seq 0 (length l) /\
    forall p q i j a b, (p < q)%nat -> argsort l !! p = Some i -> argsort l !! q = Some j -> l !! i = Some a -> l !! j = Some b -> not_below a b.
