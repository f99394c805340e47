(** How good the greedily selected rules are (C88). *)
From Coq Require Import Reals Lra.
From Verif.Model Require Import PyBase PyReal Sparse Utils Rule GreedyBase PyState Greedy.
From Verif.Spec Require Import SMatrix SRule SGreedy SApprox.
Open Scope Z_scope.
From Verif.Proofs Require Import T_Approx.
Open Scope Z_scope.

(** C88. GreedyDivMaxV2, V3 and GreedySubmod started without rules and with lambd >= 0, however fit ends: every
    selected rule comes from the candidates of its round, and the selected rules are near-optimal (see [near_optimal])
    against all lists of as many rules that were candidates in every one of these rounds. *)
Theorem C88_one_round : forall W (S : samplers W) (cls : greedy_class) (ord : gset Z -> list Z) (fuel : nat) (X Y : csr)
    (g : gs W) r g',
  set_order ord -> iter_ok S -> cls <> DivMax -> (0 <= p_lambd (g_params g))%R -> g_rules g = [] ->
  fit S cls ord fuel X Y g = (r, g') ->
  exists (picks : list bound) (Cs : list (list bound)),
    g_rules g' = map Bound picks /\
    Forall2 (fun b C => b ∈ C /\ exists w w', generate_candidate_rules S ord (g_params g) X Y w = (Ok C, w')) picks Cs /\
    forall (opt : list bound) (ps os : list scored),
      length opt = length picks -> (forall o C, o ∈ opt -> C ∈ Cs -> o ∈ C) ->
      Forall2 (scores ord) picks ps -> Forall2 (scores ord) opt os ->
      near_optimal cls (p_lambd (g_params g)) ps os.
Proof. exact C88_one_round_proof. Qed.
Print Assumptions C88_one_round.

(** C88. GreedyDivMax.fit with lambd >= 0: the second round selects as many rules as the first, from the candidates
    collected in the first, and is near-optimal against every list of as many of these candidates.  The rules kept are
    those of one of the rounds (which one: C44). *)
Theorem C88_two_rounds : forall W (S : samplers W) (ord : gset Z -> list Z) (fuel : nat) (X Y : csr) (g g' : gs W),
  set_order ord -> iter_ok S -> (0 <= p_lambd (g_params g))%R -> fit S DivMax ord fuel X Y g = (Ok tt, g') ->
  exists (r1 : list srule) (g1 : gs W) (cands picks : list bound),
    fit_1st_round S ord fuel X Y g = (Ok r1, g1) /\ g_cands g1 = Some cands /\
    length picks = length r1 /\ (forall b, b ∈ picks -> b ∈ cands) /\
    (g_rules g' = map Bound picks \/ g_rules g' = r1) /\
    forall (opt : list bound) (ps os : list scored),
      length opt = length picks -> (forall o, o ∈ opt -> o ∈ cands) ->
      Forall2 (scores ord) picks ps -> Forall2 (scores ord) opt os ->
      near_optimal DivMax (p_lambd (g_params g)) ps os.
Proof. exact C88_two_rounds_proof. Qed.
Print Assumptions C88_two_rounds.

(** C88. Every candidate of a round has a score: the label cells it covers and its KL quality in the training data. *)
Theorem C88_scored : forall W (S : samplers W) (ord : gset Z -> list Z) (p : gparams) (X Y : csr) w C w' (b : bound),
  set_order ord -> wf_cmat (csr_mat X) = true -> wf_cmat (csr_mat Y) = true -> csr_rows X = csr_rows Y ->
  tails_valid S (csr_cols Y) -> generate_candidate_rules S ord p X Y w = (Ok C, w') -> b ∈ C ->
  exists s : scored, scores ord b s.
Proof. exact C88_scored_proof. Qed.
Print Assumptions C88_scored.

(** C88, the tempting stronger claim is false: with lambd = 0 a run of GreedyDivMaxV2 can select rules worth less than
    half of what other rules, candidates in every round, would be worth (25 against 60 times ln 2 in the witness). *)
Theorem C88_half_refuted : ~ (forall W (S : samplers W) (ord : gset Z -> list Z) (fuel : nat) (X Y : csr) (p : gparams) (w : W) (g' : gs W)
    (picks opt : list bound) (ps os : list scored),
  set_order ord -> sane S -> iter_ok S -> tails_valid S (csr_cols Y) -> wf_cmat (csr_mat X) = true -> wf_cmat (csr_mat Y) = true ->
  csr_rows X = csr_rows Y -> p_lambd p = 0%R ->
  fit S DivMaxV2 ord fuel X Y (new_classifier p w) = (Ok tt, g') -> g_rules g' = map Bound picks -> length opt = length picks ->
  (forall o v C v', o ∈ opt -> generate_candidate_rules S ord p X Y v = (Ok C, v') -> o ∈ C) ->
  Forall2 (scores ord) picks ps -> Forall2 (scores ord) opt os ->
  (/ 2 * value (fun x => x) 0 os <= value (fun x => x) 0 ps)%R).
Proof. exact C88_half_refuted_proof. Qed.
Print Assumptions C88_half_refuted.

From Verif.Proofs Require Import PBase T_Greedy.
(** C88_one_round: a run of GreedyDivMaxV2 meeting the hypotheses selects four rules from the five candidates of every
    round; four other rules are candidates in every round, and all have scores. *)
Example C88_one_round_ex : exists g',
  set_order elements /\ iter_ok badS /\ (0 <= p_lambd badP)%R /\
  fit badS DivMaxV2 elements 5 badX badY (new_classifier badP T0) = (Ok tt, g') /\
  g_rules g' = map Bound (map bad_rule [0;1;2;3]%nat) /\
  (forall v, exists C v', generate_candidate_rules badS elements badP badX badY v = (Ok C, v') /\ forall i, (i < 5)%nat -> bad_rule i ∈ C) /\
  (forall i, (i < 5)%nat -> scores elements (bad_rule i) (label_occs (bad_rule i), IZR (bad_kl i) * ln 2)%R) /\
  label_occs (bad_rule 0) <> label_occs (bad_rule 1).
Proof.
  destruct bad_run as (g' & Hg & Hr). exists g'. split; [intros s; reflexivity|]. split; [intros w l; reflexivity|].
  split; [apply Rle_refl|]. split; [exact Hg|]. split; [exact Hr|]. split; [exact bad_generate|]. split; [exact bad_scores|].
  intros E. apply (f_equal size) in E. vm_compute in E. discriminate.
Qed.

(** C88_two_rounds: GreedyDivMax selects two rules in both rounds. *)
Example C88_two_rounds_ex : exists g',
  fit divS DivMax elements 3 divX divY (new_classifier (GParams 1 1 1 (Some 2) 0) tt) = (Ok tt, g') /\
  g_rules g' = map Bound [divB; divB] /\ set_order elements /\ iter_ok divS.
Proof.
  destruct (divS_fit_divmax 2 1 0 (new_classifier (GParams 1 1 1 (Some 2) 0) tt)) as (g' & H & Hr & H1); [done|done|].
  exists g'. split; [exact H|]. split; [exact Hr|]. split; [intros s; reflexivity|]. intros w l. reflexivity.
Qed.

(** C88_scored: the data and samplers of the first example meet the hypotheses. *)
Example C88_scored_ex : wf_cmat (csr_mat badX) = true /\ wf_cmat (csr_mat badY) = true /\ csr_rows badX = csr_rows badY /\
  tails_valid badS (csr_cols badY) /\ generate_candidate_rules badS elements badP badX badY T0 = (Ok bad_cands, T0).
Proof.
  split; [by_compute|]. split; [by_compute|]. split; [reflexivity|]. split; [apply bad_tails_valid|]. by vm_compute.
Qed.
