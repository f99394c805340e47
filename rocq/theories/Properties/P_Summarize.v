(** How the tuning runs are summarized (C93). *)
From Coq Require Import String Reals Lra.
From stdpp Require Import strings.
From Verif.Model Require Import PyBase PyReal Scripts Tune Mlflow Summarize.
From Verif.Spec Require Import SSummarize.
Open Scope string_scope.
Open Scope list_scope.
Open Scope Z_scope.
From Verif.Proofs Require Import T_Summarize.
Open Scope string_scope.
Open Scope list_scope.
Open Scope Z_scope.

(** C93: the summary has a column for each parameter of the first run, and one row for each combination of their values that
    some run was made with; the row has the average and the sample standard deviation of the micro_f1 scores of the runs made
    with this combination.  So each run with all these parameters counts in exactly one row, and the other runs in none. *)
Theorem C93_rows : forall argsort runs cols table, sorts_descending argsort -> Forall run_ok runs ->
  summarize argsort runs = Ok (cols, table) ->
  exists r0 rest, let names := map fst (run_params r0) in
    runs = r0 :: rest /\ cols = map (String.append "P/") names ++ ["micro_f1/mean"; "micro_f1/std"] /\
    NoDup (map fst table) /\
    (forall values, values ∈ map fst table <-> exists r, r ∈ runs /\ made_with names values r) /\
    (forall values m s, (values, (m, s)) ∈ table -> exists xs, scores names values runs xs /\ is_average xs m /\ is_deviation xs s) /\
    (forall r values, r ∈ runs -> made_with names values r -> forall row, row ∈ table -> made_with names (fst row) r -> fst row = values).
Proof. exact C93_rows_proof. Qed.
Print Assumptions C93_rows.

(** C93: the rows are in descending order of their averages, rows without a score last; if the first row has an average, no
    combination of values has a higher one. *)
Theorem C93_ranked : forall argsort runs cols table, sorts_descending argsort -> Forall run_ok runs ->
  summarize argsort runs = Ok (cols, table) ->
  (forall p q v v' m m' s s', (p < q)%nat -> table !! p = Some (v, (m, s)) -> table !! q = Some (v', (m', s')) -> not_below m m') /\
  exists r0 rest values m s more, runs = r0 :: rest /\ table = (values, (m, s)) :: more /\
    forall values' xs, scores (map fst (run_params r0)) values' runs xs -> xs <> [] ->
      exists m0, m = Some m0 /\ (foldr Rplus 0 xs <= m0 * INR (length xs))%R.
Proof. exact C93_ranked_proof. Qed.
Print Assumptions C93_ranked.

(** C93: without a run the script raises IndexError, if the first run has no parameter ValueError, and if no run has a
    micro_f1 score KeyError; otherwise there is a table.  It is about the active runs of the experiment with this dataset; if
    there is no experiment tune_greedy_v3 yet, the script raises AttributeError after creating it. *)
Theorem C93_errors : forall argsort gen server dataset st,
  (forall i, st !! "tune_greedy_v3" = Some i -> exists runs,
     (forall r, r ∈ runs <-> r ∈ server /\ run_experiment r = i /\ run_dataset r = Some dataset /\ run_active r = true) /\
     (NoDup server -> NoDup runs) /\
     snd (summarize_main gen argsort server dataset st) = st /\
     match runs with
     | [] => fst (summarize_main gen argsort server dataset st) = Err IndexError
     | r0 :: _ => summarize_main gen argsort server dataset st = (summarize argsort runs, st) /\
        (run_params r0 = [] -> summarize argsort runs = Err ValueError) /\
        (run_params r0 <> [] -> (forall r x, r ∈ runs -> ("micro_f1", x) ∉ run_metrics r) -> summarize argsort runs = Err KeyError) /\
        (run_params r0 <> [] -> Forall run_ok runs -> (exists r x, r ∈ runs /\ ("micro_f1", x) ∈ run_metrics r) -> exists out, summarize argsort runs = Ok out)
     end) /\
  (st !! "tune_greedy_v3" = None -> st !! gen st = None -> gen st <> "tune_greedy_v3" ->
     summarize_main gen argsort server dataset st = (Err AttributeError, <["tune_greedy_v3" := gen st]> st)).
Proof. exact C93_errors_proof. Qed.
Print Assumptions C93_errors.

(** ** Examples *)
(** Four runs of two configurations.  The first configuration has scores 1/2 and 1, the second 3/5 and no number; a run
    without the parameter lambd is in no row.  The average 3/4 is ranked before 3/5. *)
Definition ex_run (lambd : option string) (x : option R) : run :=
  Run "7" (Some "toy") true [("micro_f1", x); ("n_rules", Some 3%R)]
    (match lambd with Some l => [("lambd", l); ("n_max_rules", "10")] | None => [("n_max_rules", "10")] end).
Definition ex_runs : list run :=
  [ex_run (Some "1") (Some (1 / 2)%R); ex_run (Some "5") None; ex_run (Some "5") (Some (3 / 5)%R); ex_run (Some "1") (Some 1%R); ex_run None (Some 1%R)].
Fixpoint ins_desc (l : list (option R)) (i : nat) (is : list nat) : list nat :=
  match is with
  | [] => [i]
  | j :: is' => match l !! i, l !! j with
                | Some (Some x), Some (Some y) => if Rleb y x then i :: is else j :: ins_desc l i is'
                | Some (Some x), _ => i :: is
                | _, _ => j :: ins_desc l i is'
                end
  end.
Definition ex_argsort (l : list (option R)) : list nat := foldr (ins_desc l) [] (seq 0 (length l)).

Lemma ins_desc_perm l i is : ins_desc l i is ≡ₚ i :: is.
Proof.
  induction is as [|j is IH]; [done|]. cbn. assert (j :: ins_desc l i is ≡ₚ i :: j :: is) as H by (rewrite IH; apply perm_swap).
  destruct (l !! i) as [[x|]|], (l !! j) as [[y|]|]; try done. by destruct (Rleb y x).
Qed.
Definition geo (l : list (option R)) (i j : nat) : Prop := forall a b, l !! i = Some a -> l !! j = Some b -> not_below a b.
Lemma not_below_trans a b c : not_below a b -> not_below b c -> not_below a c.
Proof. destruct a, b, c; cbn; try done. lra. Qed.
Lemma ins_desc_sorted l i is : (i < length l)%nat -> Forall (fun j => (j < length l)%nat) is -> StronglySorted (geo l) is -> StronglySorted (geo l) (ins_desc l i is).
Proof.
  intros Hi. induction is as [|j is IH]; intros Hb Hs; cbn; [repeat constructor|].
  apply list.Forall_cons in Hb as [Hj Hb]. inversion Hs as [|? ? Hs' Hf]; subst.
  destruct (lookup_lt_is_Some_2 l i Hi) as [a Ha], (lookup_lt_is_Some_2 l j Hj) as [b Hb']. rewrite Ha, Hb'.
  assert (Hfront : not_below a b -> StronglySorted (geo l) (i :: j :: is)).
  { intros Hab. constructor; [done|]. rewrite list.Forall_forall in Hf. apply list.Forall_forall. intros k Hk x y Hx Hy. rewrite Ha in Hx. injection Hx as <-.
    apply elem_of_cons in Hk as [->|Hk]; [rewrite Hb' in Hy; by injection Hy as <-|]. eapply not_below_trans; [exact Hab|]. exact (Hf k Hk _ _ Hb' Hy). }
  assert (Hback : not_below b a -> StronglySorted (geo l) (j :: ins_desc l i is)).
  { intros Hba. constructor; [by apply IH|]. apply list.Forall_forall. intros k Hk. rewrite ins_desc_perm in Hk. rewrite list.Forall_forall in Hf.
    apply elem_of_cons in Hk as [->|Hk]; [|by apply Hf]. intros x y Hx Hy. rewrite Hb' in Hx. rewrite Ha in Hy. by simplify_eq. }
  destruct a as [x|], b as [y|]; cbn in *; auto. unfold Rleb. destruct (Rle_dec y x); [by apply Hfront|]. apply Hback. lra.
Qed.
Lemma ex_argsort_ok : sorts_descending ex_argsort.
Proof.
  intros l.
  assert (H : forall is, Forall (fun j => (j < length l)%nat) is -> foldr (ins_desc l) [] is ≡ₚ is /\ StronglySorted (geo l) (foldr (ins_desc l) [] is)).
  { induction is as [|i is IH]; intros Hb; [split; [done|constructor]|]. apply list.Forall_cons in Hb as [Hi Hb]. destruct (IH Hb) as [Hp Hs]. cbn. split.
    - rewrite ins_desc_perm. by constructor.
    - apply ins_desc_sorted; [done|by rewrite Hp|done]. }
  destruct (H (seq 0 (length l))) as [Hp Hs]; [apply list.Forall_forall; intros i Hi; apply elem_of_seq in Hi; lia|].
  split; [exact Hp|]. intros p q i j a b Hpq Hi Hj Ha Hb. unfold ex_argsort in Hi, Hj.
  clear Hp. assert (geo l i j) as Hg; [|by apply Hg]. revert p q Hpq Hi Hj. induction Hs as [|k ks Hs IH Hf]; intros p q Hpq Hi Hj; [done|].
  destruct q as [|q]; [lia|]. destruct p as [|p].
  - injection Hi as ->. rewrite list.Forall_forall in Hf. apply Hf. by eapply elem_of_list_lookup_2.
  - by apply (IH p q); [lia|..].
Qed.
Lemma ex_runs_ok : Forall run_ok ex_runs.
Proof. repeat constructor; cbn; rewrite ?elem_of_cons, ?elem_of_nil; intros H; repeat (destruct H as [H|H]; [done|]); done. Qed.

Example C93_ex : exists s,
  summarize ex_argsort ex_runs = Ok (["P/lambd"; "P/n_max_rules"; "micro_f1/mean"; "micro_f1/std"],
    [(["1"; "10"], (Some (3 / 4)%R, Some s)); (["5"; "10"], (Some (3 / 5)%R, None))]) /\ (s * s = 1 / 8)%R.
Proof.
  set (keys := ["P/lambd"; "P/n_max_rules"]). set (rows := map flatten_run ex_runs).
  assert (Hc1 : column_of keys "M/micro_f1" rows ["1"; "10"] = [(1 / 2)%R; 1%R]) by reflexivity.
  assert (Hc5 : column_of keys "M/micro_f1" rows ["5"; "10"] = [(3 / 5)%R]) by reflexivity.
  assert (Hm1 : mean_of [(1 / 2)%R; 1%R] = Some (3 / 4)%R) by (unfold mean_of; f_equal; cbn; lra).
  assert (Hm5 : mean_of [(3 / 5)%R] = Some (3 / 5)%R) by (unfold mean_of; f_equal; cbn; lra).
  exists (sqrt (rsum (map (fun x => ((x - 3 / 4) * (x - 3 / 4))%R) [(1 / 2)%R; 1%R]) / INR 1)). split.
  - transitivity (Ok (keys ++ ["micro_f1/mean"; "micro_f1/std"],
      omap (fun i => (map (fun g => (g, (mean_of (column_of keys "M/micro_f1" rows g), std_of (column_of keys "M/micro_f1" rows g)))) [["1"; "10"]; ["5"; "10"]]) !! i)
       (ex_argsort (map (fun t => fst (snd t)) (map (fun g => (g, (mean_of (column_of keys "M/micro_f1" rows g), std_of (column_of keys "M/micro_f1" rows g)))) [["1"; "10"]; ["5"; "10"]])))) : result (list string * list (list string * (option R * option R)))); [reflexivity|].
    cbn [map]. rewrite Hc1, Hc5. unfold std_of. rewrite Hm1, Hm5. cbn [fst snd].
    assert (ex_argsort [Some (3 / 4)%R; Some (3 / 5)%R] = [0; 1]%nat) as ->.
    { cbn. unfold Rleb. destruct (Rle_dec (3 / 5) (3 / 4)); [done|lra]. }
    reflexivity.
  - rewrite sqrt_sqrt; cbn; lra.
Qed.

(** A run of another experiment, a failed one that was deleted, and one on another dataset are left out, and then the
    server has no run for this dataset. *)
Example C93_errors_ex : fst (summarize_main (fun _ => "8") ex_argsort
  [Run "6" (Some "toy") true [] []; Run "7" (Some "toy") false [] []; Run "7" (Some "yeast") true [] []] "toy" {["tune_greedy_v3" := "7"]}) = Err IndexError /\
  fst (summarize_main (fun _ => "8") ex_argsort ex_runs "toy" {["tune_greedy_v2" := "7"]}) = Err AttributeError.
Proof. split; reflexivity. Qed.
