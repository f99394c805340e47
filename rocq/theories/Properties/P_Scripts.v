(** What the experiment scripts run (C90). *)
From Coq Require Import String Reals Qreals QArith Qcanon Lra.
From stdpp Require Import strings.
From Verif.Model Require Import PyBase Sparse Rand Rule GreedyBase PyState Greedy Evaluation Data Exp Scripts.
From Verif.Spec Require Import SExp SScripts.
Open Scope string_scope.
Open Scope list_scope.
Open Scope Z_scope.
From Verif.Proofs Require Import T_Scripts.
Open Scope string_scope.
Open Scope list_scope.
Open Scope Z_scope.

(** C90. Python's binding of arguments: for every signature and call, the bound values are the ones of [binding], or the
    call raises TypeError. *)
Theorem C90_binding : forall (A : Type) (sig : list (string * option A)) (pos : list A) (kw : list (string * A)),
  NoDup (map fst sig) -> NoDup (map fst kw) ->
  (forall b, bind_call sig pos kw = Ok b <-> binding sig pos kw b) /\
  ((forall b, ~ binding sig pos kw b) <-> bind_call sig pos kw = Err TypeError).
Proof. exact C90_binding_proof. Qed.
Print Assumptions C90_binding.

(** C90. The calls of the scripts.  scripts/effect_of_num_rules.py: every run raises TypeError before the data are touched,
    whatever the configuration, because n_repeats is no parameter and greedy_version is missing; each alone is enough.
    scripts/tune_and_eval.py: the test evaluation raises AssertionError after loading the data (or what load raises),
    because 10 is passed as greedy_version.  The other three scripts train the version and configuration they name:
    version 2 with the given feature threshold and version 3, both on the test part, and the version under
    'greedy_version' on the development part. *)
Theorem C90_calls : forall (W : Type) (S : pyval -> pyval -> samplers W) (w0 : W) (ord : gset Z -> list Z) (fuel : nat)
    (ds_load : sx Data.dataset unit) (c : config) (d : Data.dataset),
  (forall n, num_rules_run S w0 ord fuel ds_load n c d = (Err TypeError, d)) /\
  (forall mode, call_train S w0 ord fuel ds_load [ADataset] [("config", AConfig c); ("validation_mode", AVal (VBool mode))] d = (Err TypeError, d)) /\
  (forall v n, call_train S w0 ord fuel ds_load [ADataset] [("config", AConfig c); ("greedy_version", AVal v); ("n_repeats", AVal n)] d = (Err TypeError, d)) /\
  (forall d', ds_load d = (Ok tt, d') -> tune_and_eval_test S w0 ord fuel ds_load c d = (Err AssertionError, d')) /\
  (forall e d', ds_load d = (Err e, d') -> tune_and_eval_test S w0 ord fuel ds_load c d = (Err e, d')) /\
  (forall v, min_proba_run S w0 ord fuel ds_load v c d =
     train_greedy_and_eval S w0 ord fuel ds_load (<["min_feature_proba" := v]> c) "v2" false d) /\
  train_run S w0 ord fuel ds_load c d = train_greedy_and_eval S w0 ord fuel ds_load c "v3" false d /\
  (forall v, c !! "greedy_version" = Some (VStr v) ->
     tune_run S w0 ord fuel ds_load c d = train_greedy_and_eval S w0 ord fuel ds_load c v true d).
Proof. exact C90_calls_proof. Qed.
Print Assumptions C90_calls.

(** C90. The search spaces of the tuning scripts.  There is one exactly for the names of the table: for cal500 the scripts
    raise NotImplementedError, for any other name NameError.  Every configuration drawn from it names the version and the
    dataset, and the classifier built from it has the thresholds of the table, a lambd between 1 and the bound of the table,
    a number of rules within the table, and the documented numbers of tails and heads; every such pair of lambd and number
    of rules can be drawn. *)
Theorem C90_search : forall (ds version : string),
  ((exists sp, tune_space ds version = Ok sp) <-> ds ∈ map fst tuned) /\
  (ds ∉ map fst tuned -> ds <> "cal500" -> tune_space ds version = Err UnboundLocalError) /\
  tune_space "cal500" version = Err NotImplementedError /\
  forall sp fp lp hi first last, tune_space ds version = Ok sp -> (ds, (fp, lp, hi, first, last)) ∈ tuned ->
    (forall c, drawn sp c -> exists (lambd : Qc) (n : Z),
       (1 <= lambd <= Qc_of_Z hi)%Qc /\ first <= n <= last /\
       c !! "greedy_version" = Some (VStr version) /\ c !! "dataset" = Some (VStr ds) /\ usable c /\
       ((version = "v2" \/ version = "v3") -> exists o, create_greedy_clf_from_config_by_version c version = Ok o /\
         attr o "lambd" = Ok (VFloat lambd) /\ attr o "n_max_rules" = Ok (VInt n) /\
         attr o "min_feature_proba" = Ok (percent fp) /\ attr o "min_label_proba" = Ok (percent lp) /\
         attr o "n_tails_per_iter" = Ok (VInt 100) /\ attr o "n_heads_per_tail" = Ok (VInt 10))) /\
    (forall (lambd : Qc) (n : Z), (1 <= lambd <= Qc_of_Z hi)%Qc -> first <= n <= last ->
       exists c, drawn sp c /\ c !! "lambd" = Some (VFloat lambd) /\ c !! "n_max_rules" = Some (VInt n)).
Proof. exact C90_search_proof. Qed.
Print Assumptions C90_search.

(** C90. The configurations of the other scripts.  train_greedy_and_eval.py: for every name at all, with the documented
    values where there is no branch for it.  effect_of_min_feature_proba.py and effect_of_num_rules.py: exactly for the
    names they know; with every threshold, and every number of rules, of their lists.  In all cases there is at least one
    run and the hyperparameters are numbers in their ranges. *)
Theorem C90_setups : forall ds : string,
  (usable (fst (train_setup ds)) /\ 1 <= snd (train_setup ds)) /\
  (ds ∉ ["toy"; "bibtex"; "medical"; "emotions"; "birds"; "enron"; "mediamill"] ->
     forall key, key <> "n_tails_per_iter" -> key <> "n_heads_per_tail" -> fst (train_setup ds) !! key = None) /\
  ((exists r, min_proba_setup ds = Ok r) <-> ds ∈ ["toy"; "bibtex"; "medical"; "emotions"]) /\
  (forall c probas n, min_proba_setup ds = Ok (c, probas, n) -> 1 <= n /\ probas <> [] /\
     forall p, p ∈ probas -> fraction p /\ usable (<["min_feature_proba" := p]> c)) /\
  ((exists r, num_rules_setup ds = Ok r) <-> ds ∈ ["toy"; "enron"; "medical"]) /\
  (forall c rules n, num_rules_setup ds = Ok (c, rules, n) -> 1 <= n /\ rules <> [] /\
     forall k, k ∈ rules -> 1 <= k /\ usable (<["n_max_rules" := VInt k]> c)).
Proof. exact C90_setups_proof. Qed.
Print Assumptions C90_setups.

From Verif.Properties Require P_Exp.
From Verif.Proofs Require T_Greedy.

(** def f(a, b, c=3): f(1, b=2) and f(1, c=5, b=2) bind; f(1), f(1, 2, a=7), f(1, 2, d=4) and f(1, 2, 3, 4) do not. *)
Definition f_sig : list (string * option Z) := [("a", None); ("b", None); ("c", Some 3)].
Example C90_binding_ex : bind_call f_sig [1] [("b", 2)] = Ok [("a", 1); ("b", 2); ("c", 3)] /\
  bind_call f_sig [1] [("c", 5); ("b", 2)] = Ok [("a", 1); ("b", 2); ("c", 5)] /\
  bind_call f_sig [1] [] = Err TypeError /\ bind_call f_sig [1; 2] [("a", 7)] = Err TypeError /\
  bind_call f_sig [1; 2] [("d", 4)] = Err TypeError /\ bind_call f_sig [1; 2; 3; 4] [] = Err TypeError.
Proof. by split_and!. Qed.
Example C90_binding_ex_used : NoDup (map fst f_sig) /\ binding f_sig [1] [("c", 5); ("b", 2)] [("a", 1); ("b", 2); ("c", 5)] /\
  forall b, ~ binding f_sig [1; 2] [("d", 4)] b.
Proof.
  assert (NoDup (map fst f_sig)) as Hn by (by apply (bool_decide_unpack _)). split; [done|]. split.
  - apply (C90_binding Z f_sig [1] [("c", 5); ("b", 2)] Hn); [by apply (bool_decide_unpack _)|done].
  - apply (C90_binding Z f_sig [1; 2] [("d", 4)] Hn); [by apply (bool_decide_unpack _)|done].
Qed.

(** The data and the configuration of C65: train_greedy_and_eval(ds, config, 'v2') returns two rules, but the run of
    effect_of_num_rules.py and the test evaluation of tune_and_eval.py fail on the same data. *)
Example C90_calls_ex :
  (exists g perf, call_train (fun _ _ => T_Greedy.divS) tt elements 3 (sret tt)
       [ADataset; AConfig P_Exp.exC2; AVal (VStr "v2")] [] P_Exp.exD = (Ok (g, perf), P_Exp.exD) /\ ("n_rules", Count 2) ∈ perf) /\
  num_rules_run (fun _ _ => T_Greedy.divS) tt elements 3 (sret tt) 2 P_Exp.exC2 P_Exp.exD = (Err TypeError, P_Exp.exD) /\
  tune_and_eval_test (fun _ _ => T_Greedy.divS) tt elements 3 (sret tt) P_Exp.exC2 P_Exp.exD = (Err AssertionError, P_Exp.exD).
Proof.
  destruct (C90_calls unit (fun _ _ => T_Greedy.divS) tt elements 3 (sret tt) P_Exp.exC2 P_Exp.exD) as (H1 & _ & _ & H2 & _).
  split; [|split; [exact (H1 2)|exact (H2 P_Exp.exD eq_refl)]].
  destruct P_Exp.C65_ex as (g & perf & Hrun & _ & _ & _ & _ & Hn & _). exists g, perf. split; [|exact Hn].
  rewrite call_plain. exact Hrun.
Qed.

(** medical: lambd 5/2 and 20 rules can be drawn; thresholds 80%. *)
Definition scr_m : config := dict [("lambd", VFloat (Q2Qc (Qmake 5 2))); ("n_max_rules", VInt 20); ("greedy_version", VStr "v3");
  ("experiment_name", VStr "tune_greedy_v3"); ("dataset", VStr "medical")].
Example C90_search_ex : exists sp, tune_space "medical" "v3" = Ok sp /\ drawn sp scr_m /\
  ("medical", (80, 80, 1000, 10, 49)) ∈ tuned /\ usable scr_m.
Proof.
  eexists. split; [reflexivity|].
  match goal with |- drawn ?sp _ /\ _ => assert (drawn sp scr_m) as Hd end.
  { intros k. unfold scr_m. unfold dict, assoc. cbn [app List.find fst].
    repeat match goal with |- context [String.eqb k ?x] => destruct (String.eqb_spec k x) as [->|?] end; cbn [snd fmap option_fmap option_map].
    1: eexists; split; [by vm_compute|]; eexists; split; [reflexivity|]; by split; vm_compute.
    1: eexists; split; [by vm_compute|]; eexists; split; [reflexivity|]; lia.
    1-3: eexists; split; [by vm_compute|]; done.
    apply not_elem_of_list_to_map. cbn. intros Hin. repeat (apply elem_of_cons in Hin as [->|Hin]; [done|]). by inversion Hin. }
  split; [done|]. split; [by apply (bool_decide_unpack _)|].
  destruct (C90_search "medical" "v3") as (_ & _ & _ & G).
  destruct (proj1 (G _ 80 80 1000 10 49 eq_refl ltac:(by apply (bool_decide_unpack _))) scr_m Hd) as (l & n & _ & _ & _ & _ & Hu & _). done.
Qed.

(** effect_of_min_feature_proba.py for emotions: six thresholds, eight runs each *)
Example C90_setups_ex : exists c probas, min_proba_setup "emotions" = Ok (c, probas, 8) /\ length probas = 6%nat /\
  percent 70 ∈ probas /\ usable (<["min_feature_proba" := percent 70]> c).
Proof.
  assert (percent 70 = dec 7 10) as E by (unfold percent, dec; f_equal; by apply Qc_is_canon).
  eexists _, _. split; [reflexivity|]. split; [done|]. rewrite E.
  assert (dec 7 10 ∈ [dec 5 10; dec 6 10; dec 7 10; dec 8 10; dec 9 10; dec 1 1]) as Hin by (rewrite !elem_of_cons; tauto).
  split; [done|]. destruct (C90_setups "emotions") as (_ & _ & _ & G & _). by apply (G _ _ 8 eq_refl).
Qed.
