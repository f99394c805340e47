(** Properties of the greedy classifiers: candidates, selection, stopping, objectives (C40-C48). *)
From Coq Require Import Reals Lra.
From Verif.Model Require Import PyBase PyReal Sparse Utils Rule GreedyBase PyState Greedy.
From Verif.Model Require Import Cftp.
From Verif.Spec Require Import SMatrix SRule SGreedy.
Open Scope Z_scope.
From Verif.Proofs Require Import T_Greedy.
Open Scope Z_scope.

Open Scope Z_scope.

(** The dataset of the examples: 4 rows, 3 features, 3 labels, 6 label occurrences. *)
Definition exX : csr := Csr (of_lines 3 [[(0,1);(1,1)]; [(0,1)]; [(1,1);(2,1)]; [(0,1);(1,1)]]).
Definition exY : csr := Csr (of_lines 3 [[(0,1);(1,1)]; [(0,1);(1,1)]; [(2,1)]; [(0,1)]]).
Definition exB (h t : list Z) : bound :=
  match bind_dataset elements (new_rule h t) (tocsc exX) (tocsc exY) with
  | Ok b => b
  | Err _ => MkBound (new_rule [] []) 0 0 0 0 ∅ 0 ∅ 0 ∅ 0
  end.

(** Samplers used in the examples: the world counts the tails drawn; tails cycle through {0}, {0,1}, {2}, and
    two heads are drawn per tail. *)
Definition exS (limit : nat) : samplers nat := Samplers
  (fun _ w => (Ok tt, w))
  (fun w => if (limit <=? w)%nat then (Err NoMoreSamples, w)
            else (Ok (match (w mod 3)%nat with 0%nat => {[0]} | 1%nat => {[0; 1]} | _ => {[2]} end), Datatypes.S w))
  (fun _ _ w => (Ok tt, w))
  (fun _ _ w => (Ok tt, w))
  (fun n w => (Ok (take (Z.to_nat n) [Some {[0]}; Some {[1; 0]}; Some {[0]}]), w))
  (fun _ l => l).

Example exS_sane limit : sane (exS limit) /\ iter_ok (exS limit) /\ tails_valid (exS limit) (csr_cols exY).
Proof.
  split; [|split].
  - repeat split; intros; simpl; try done. by destruct (limit <=? w)%nat.
  - intros w l. done.
  - intros w w' tail H c Hc. cbn [exS tail_sample_once] in H. destruct (limit <=? w)%nat; [done|].
    replace (csr_cols exY) with 3 by done.
    destruct (w mod 3)%nat as [|[|n]]; injection H as <- _; rewrite ?elem_of_union, ?elem_of_singleton in Hc; lia.
Qed.

(** C40. The candidates returned are pairwise different rules, each built from a tail and a head the samplers
    returned and bound to the training data; every drawn pair is represented, and with at most n_heads heads
    per tail there are at most n_tails * n_heads candidates.  No head was None. *)
Theorem C40_candidates : forall W (S : samplers W) (ord : gset Z -> list Z) (p : gparams) (X Y : csr) w rules w',
  set_order ord -> wf_cmat (csr_mat Y) = true ->
  generate_candidate_rules S ord p X Y w = (Ok rules, w') ->
  exists draws, draws_from S X Y (p_n_heads p) (Z.to_nat (p_n_tails p)) w draws w' /\
    (forall i j a b, rules !! i = Some a -> rules !! j = Some b ->
       py_set (r_head (b_rule a)) = py_set (r_head (b_rule b)) ->
       py_set (r_tail (b_rule a)) = py_set (r_tail (b_rule b)) -> i = j) /\
    (forall b, b ∈ rules -> exists tail heads head, (tail, heads) ∈ draws /\ Some head ∈ heads /\
       bind_dataset ord (new_rule (ord head) (ord tail)) (tocsc X) (tocsc Y) = Ok b /\
       py_set (r_head (b_rule b)) = head /\ py_set (r_tail (b_rule b)) = tail) /\
    (forall tail heads h, (tail, heads) ∈ draws -> h ∈ heads ->
       exists b, b ∈ rules /\ py_set (r_tail (b_rule b)) = tail /\ h = Some (py_set (r_head (b_rule b)))) /\
    ((forall tail heads, (tail, heads) ∈ draws -> zlen heads <= p_n_heads p) ->
       zlen rules <= Z.max 0 (p_n_tails p) * Z.max 0 (p_n_heads p)).
Proof. exact C40_candidates_proof. Qed.
Print Assumptions C40_candidates.

(** Three tails, two heads each: 6 draws and 6 different candidates ({0} -> {0} is a candidate). *)
Example C40_ex : exists rules w', generate_candidate_rules (exS 9) elements (GParams 1 3 2 (Some 2) 0) exX exY 0%nat
    = (Ok rules, w') /\ zlen rules = 6 /\ exB [0] [0] ∈ rules /\
  (* three heads per tail, one of them repeated: still 6 *)
  exists rules3 w3, generate_candidate_rules (exS 9) elements (GParams 1 3 3 (Some 2) 0) exX exY 0%nat
    = (Ok rules3, w3) /\ zlen rules3 = 6.
Proof.
  eexists _, _. split; [vm_compute; reflexivity|]. split; [done|].
  split; [vm_compute; left|]. eexists _, _. split; [vm_compute; reflexivity|]. done.
Qed.

(** C40, the other direction: when every sampler call succeeds and every drawn head and tail can be bound,
    generation succeeds. *)
Theorem C40_candidates_returned : forall W (S : samplers W) (ord : gset Z -> list Z) (p : gparams) (X Y : csr) w
    (draws : list (gset Z * list (option (gset Z)))) w',
  set_order ord -> wf_cmat (csr_mat Y) = true ->
  draws_from S X Y (p_n_heads p) (Z.to_nat (p_n_tails p)) w draws w' ->
  (forall tail heads h, (tail, heads) ∈ draws -> tail <> ∅ /\ (forall c, c ∈ tail -> 0 <= c < csr_cols Y) /\
     (h ∈ heads -> exists head, h = Some head /\
        is_ok (bind_dataset ord (new_rule (ord head) (ord tail)) (tocsc X) (tocsc Y)) = true)) ->
  exists rules, generate_candidate_rules S ord p X Y w = (Ok rules, w').
Proof. exact C40_candidates_returned_proof. Qed.
Print Assumptions C40_candidates_returned.

(** All sampler calls of the example succeed, so generation does. *)
Example C40_returned_ex : exists draws w', draws_from (exS 9) exX exY 2 2 0%nat draws w' /\ length draws = 2%nat.
Proof.
  destruct (generate_candidate_rules (exS 9) elements (GParams 1 2 2 None 0) exX exY 0%nat) as [r w'] eqn:E.
  destruct r as [rules|e]; [|vm_compute in E; done].
  destruct (C40_candidates nat (exS 9) elements (GParams 1 2 2 None 0) exX exY 0%nat rules w')
    as (draws & Hd & _); [intros s; done|by_compute|done|].
  exists draws, w'. split; [exact Hd|]. clear -Hd. cbn in Hd. inversion Hd; subst.
  match goal with H : draws_from _ _ _ _ 1 _ _ _ |- _ => inversion H; subst end.
  match goal with H : draws_from _ _ _ _ 0 _ _ _ |- _ => inversion H; subst end. done.
Qed.

(** C41. For every iteration order of the candidates, select_best_candidate returns a candidate with maximal
    objective (the first such), and raises ValueError iff there are none. *)
Theorem C41_best_candidate : forall (cls : greedy_class) (lambd : R) (sel cands : list bound) (f : bound -> R) (order : list bound),
  order ≡ₚ cands ->
  (forall b, b ∈ cands -> objective_of_rule cls lambd sel b = Ok (f b)) ->
  (cands <> [] -> exists best before after,
     select_best_candidate cls lambd (map Bound sel) order = Ok best /\
     best ∈ cands /\ (forall b, b ∈ cands -> (f b <= f best)%R) /\
     order = before ++ best :: after /\ (forall b, b ∈ before -> (f b < f best)%R)) /\
  (select_best_candidate cls lambd (map Bound sel) order = Err ValueError <-> cands = []).
Proof. exact C41_best_candidate_proof. Qed.
Print Assumptions C41_best_candidate.

(** Candidates {0} -> {0} (3 new cells), {0} -> {0,1} (4 new cells), with no rule selected: both objectives
    exist (see C48). *)
Example C41_ex : exists f : bound -> R, forall b, b ∈ [exB [0] [0]; exB [0] [0;1]] ->
  objective_of_rule DivMax 1 [] b = Ok (f b).
Proof.
  exists (fun b => match objective_of_rule DivMax 1 [] b with Ok v => v | _ => 0%R end).
  intros b Hb. destruct (objective_of_rule DivMax 1 [] b) as [v|e] eqn:E; [done|exfalso].
  rewrite !elem_of_cons, elem_of_nil in Hb. unfold objective_of_rule, quality_of_rule in E.
  destruct (KL b) as [v|e'] eqn:EK.
  - destruct (marginal_coverage b []) as [c|e''] eqn:EM; [done|].
    destruct Hb as [Hb | [Hb | Hb]]; [subst b; vm_compute in EM; done..|done].
  - clear E. revert EK. rewrite PRuleMetric.KL_ok; [done|].
    destruct Hb as [Hb | [Hb | Hb]]; [subst b..|done]; constructor; vm_compute; intuition congruence.
Qed.

(** C42. With n_max_rules = k, fit of every class ends after at most (k - rules already present) + 1 rounds of
    candidate generation, leaves at most max(k, rules already present) rules, and a normal end means that k
    rules are present or that the last call of generate_candidate_rules raised NoMoreSamples. *)
Theorem C42_budget : forall W (S : samplers W) (cls : greedy_class) (ord : gset Z -> list Z) (fuel : nat) (X Y : csr)
    (g : gs W) r g' (k : Z),
  sane S -> p_n_max (g_params g) = Some k -> (Z.to_nat (k - zlen (g_rules g)) < fuel)%nat ->
  fit S cls ord fuel X Y g = (r, g') ->
  r <> Err OutOfFuel /\
  zlen (g_rules g') <= Z.max k (zlen (g_rules g)) /\
  (g_rounds g' <= g_rounds g + Z.to_nat (k - zlen (g_rules g)) + 1)%nat /\
  (r = Ok tt -> k <= zlen (g_rules g') \/
     exists w, generate_candidate_rules S ord (g_params g) X Y w = (Err NoMoreSamples, g_world g')).
Proof. exact C42_budget_proof. Qed.
Print Assumptions C42_budget.

(** C42: so the loop is finite, and any two bounds past that number of rounds give the same result. *)
Theorem C42_same_for_every_bound : forall W (S : samplers W) (cls : greedy_class) (ord : gset Z -> list Z) (fuel fuel' : nat)
    (X Y : csr) (g : gs W) (k : Z),
  sane S -> p_n_max (g_params g) = Some k ->
  (Z.to_nat (k - zlen (g_rules g)) < fuel)%nat -> (Z.to_nat (k - zlen (g_rules g)) < fuel')%nat ->
  fit S cls ord fuel X Y g = fit S cls ord fuel' X Y g.
Proof. exact C42_same_for_every_bound_proof. Qed.
Print Assumptions C42_same_for_every_bound.

(** A fresh classifier with the budget of two rules: 2 rules after 3 rounds, and with a tail sampler that is
    exhausted after 3 tails: 1 rule after 2 rounds. *)
Definition exG (p : gparams) : gs nat := new_classifier p 0%nat.
Example C42_ex : sane (exS 9) /\ p_n_max (g_params (exG (GParams 1 3 2 (Some 2) 0))) = Some 2 /\
  g_rules (exG (GParams 1 3 2 (Some 2) 0)) = [] /\
  (* a budget of 0: the state after one round *)
  exists g', fit (exS 9) Submod elements 1 exX exY (exG (GParams 1 0 2 (Some 0) 0)) = (Err ValueError, g') /\
    g_rounds g' = 1%nat /\
  exists g2, fit (exS 0) Submod elements 1 exX exY (exG (GParams 1 3 2 (Some 0) 0)) = (Ok tt, g2) /\ g_rules g2 = [] /\
    g_rounds g2 = 1%nat.
Proof.
  split; [apply exS_sane|]. split; [done|]. split; [done|].
  eexists. split; [vm_compute; reflexivity|]. split; [done|]. eexists. split; [vm_compute; reflexivity|]. done.
Qed.

(** C43. In tolerance mode (n_max_rules = None, tolerance >= 0) the first round ends after at most nnz(Y) + 1
    rounds of candidate generation; it appends rules to those present; every appended rule, when it was added,
    covered more than tolerance * nnz(Y) label cells that no rule before it covers; with a positive tolerance
    fewer than 1/tolerance rules are added.  A normal end means that the samples are exhausted or that the best
    candidate covers at most tolerance * nnz(Y) new cells. *)
Theorem C43_tolerance : forall W (S : samplers W) (ord : gset Z -> list Z) (fuel : nat) (X Y : csr) (g : gs W) r g'
    (old : list bound) (Bs : list (gset (Z * Z))),
  sane S -> iter_ok S -> tails_valid S (csr_cols Y) -> set_order ord ->
  wf_cmat (csr_mat X) = true -> wf_cmat (csr_mat Y) = true -> csr_rows X = csr_rows Y ->
  let tol := p_tolerance (g_params g) in
  let n := IZR (nnz (csr_mat Y)) in
  p_n_max (g_params g) = None -> (0 <= tol)%R ->
  g_rules g = map Bound old -> Forall2 (covers_somewhere ord) old Bs ->
  (Z.to_nat (nnz (csr_mat Y)) < fuel)%nat ->
  fit_1st_round S ord fuel X Y g = (r, g') ->
  r <> Err OutOfFuel /\ (g_rounds g' <= g_rounds g + Z.to_nat (nnz (csr_mat Y)) + 1)%nat /\
  exists (new : list bound) (As : list (gset (Z * Z))), g_rules g' = map Bound (old ++ new) /\
    Forall2 (covering ord (tocsc X) (tocsc Y)) new As /\
    (forall i A, As !! i = Some A -> (tol * n < fresh A (Bs ++ take i As))%R) /\
    ((0 < tol)%R -> (INR (length new) < 1 / tol)%R) /\
    (forall rs, r = Ok rs -> rs = g_rules g' /\
      ((exists w, generate_candidate_rules S ord (g_params g) X Y w = (Err NoMoreSamples, g_world g')) \/
       exists w cands best A, generate_candidate_rules S ord (g_params g) X Y w = (Ok cands, g_world g') /\
         best ∈ cands /\ covering ord (tocsc X) (tocsc Y) best A /\ (fresh A (Bs ++ As) <= tol * n)%R)).
Proof. exact C43_tolerance_proof. Qed.
Print Assumptions C43_tolerance.

(** C43, negative tolerance: there are a dataset and well-behaved samplers for which the first round never ends,
    for every negative tolerance and every lambda: however many rounds it is given, it has added one rule per
    round and is still running. *)
Theorem C43_negative_tolerance_runs_forever : exists W (S : samplers W) (X Y : csr) (w : W),
  sane S /\ iter_ok S /\ tails_valid S (csr_cols Y) /\ wf_cmat (csr_mat X) = true /\ wf_cmat (csr_mat Y) = true /\
  csr_rows X = csr_rows Y /\
  forall (lambd tol : R) (fuel : nat), (tol < 0)%R ->
    exists g', fit_1st_round S elements fuel X Y (new_classifier (GParams lambd 1 1 None tol) w) = (Err OutOfFuel, g') /\
      length (g_rules g') = fuel.
Proof. exact C43_negative_tolerance_runs_forever_proof. Qed.
Print Assumptions C43_negative_tolerance_runs_forever.

(** C45. objective(selected_rules) is lambd times the sum of the pairwise Jaccard distances of the covered cells:
    quality never enters it.  It fails exactly when two of the rules cover no cell at all. *)
Theorem C45_objective_is_diversity : forall (cls : greedy_class) (ord : gset Z -> list Z) (lambd : R) (sel : list bound)
    (As : list (gset (Z * Z))),
  set_order ord -> cls <> Submod -> Forall2 (covers_somewhere ord) sel As ->
  (pairs_covered As -> objective cls lambd sel sel = Ok (lambd * pair_diversity As)%R) /\
  (~ pairs_covered As -> objective cls lambd sel sel = Err ZeroDivisionError).
Proof. exact C45_objective_is_diversity_proof. Qed.
Print Assumptions C45_objective_is_diversity.

(** C45, after fit: the obj that GreedyDivMaxV2 and V3 report is lambd times the diversity of the selected rules. *)
Theorem C45_reported : forall W (S : samplers W) (cls : greedy_class) (ord : gset Z -> list Z) (fuel : nat) (X Y : csr)
    (g g' : gs W) (bs : list bound) (As : list (gset (Z * Z))),
  set_order ord -> cls = DivMaxV2 \/ cls = DivMaxV3 ->
  fit S cls ord fuel X Y g = (Ok tt, g') ->
  g_rules g' = map Bound bs -> Forall2 (covers_somewhere ord) bs As ->
  pairs_covered As /\ g_obj g' = Some (p_lambd (g_params g) * pair_diversity As)%R.
Proof. exact C45_reported_proof. Qed.
Print Assumptions C45_reported.

(** C44. After GreedyDivMax.fit: the two rounds have equally many rules; the rules kept are those of the first round
    if its objective is strictly larger, else those of the second; but the reported obj is the smaller of the two
    objectives.  Each objective is lambd times the diversity of that round's rules.  Every pick of the second round
    is a candidate of the first round and, whenever the objectives of all of them exist, a best one given the picks
    before it. *)
Theorem C44_better_round_worse_objective : forall W (S : samplers W) (ord : gset Z -> list Z) (fuel : nat) (X Y : csr) (g g' : gs W),
  set_order ord -> iter_ok S -> fit S DivMax ord fuel X Y g = (Ok tt, g') ->
  let lambd := p_lambd (g_params g) in
  exists (r1 r2 : list srule) (g1 : gs W) (o1 o2 : R) (cands picks : list bound),
    fit_1st_round S ord fuel X Y g = (Ok r1, g1) /\ length r1 = length r2 /\
    ((o2 < o1)%R /\ g_rules g' = r1 \/ (o1 <= o2)%R /\ g_rules g' = r2) /\
    g_obj g' = Some (Rmin o1 o2) /\ g_obj1 g' = Some o1 /\ g_obj2 g' = Some o2 /\ g_round1 g' = Some r1 /\
    (forall bs As, r1 = map Bound bs -> Forall2 (covers_somewhere ord) bs As -> o1 = (lambd * pair_diversity As)%R) /\
    (forall As, Forall2 (covers_somewhere ord) picks As -> o2 = (lambd * pair_diversity As)%R) /\
    r2 = map Bound picks /\ cands <> [] /\
    (forall b, b ∈ cands -> exists w cs w', generate_candidate_rules S ord (g_params g) X Y w = (Ok cs, w') /\ b ∈ cs) /\
    (forall i b, picks !! i = Some b -> b ∈ cands /\
       forall f : bound -> R, (forall c, c ∈ cands -> objective_of_rule DivMax lambd (take i picks) c = Ok (f c)) ->
         forall c, c ∈ cands -> (f c <= f b)%R).
Proof. exact C44_better_round_worse_objective_proof. Qed.
Print Assumptions C44_better_round_worse_objective.

(** C46. GreedyDivMaxV2, V3 and GreedySubmod never drop a rule: whatever the data, and however fit ends, the rules
    after it extend the rules before it.  With the budget already used the rules stay exactly as they were. *)
Theorem C46_refit_extends : forall W (S : samplers W) (cls : greedy_class) (ord : gset Z -> list Z) (fuel : nat) (X Y : csr)
    (g : gs W) r g',
  cls <> DivMax -> fit S cls ord fuel X Y g = (r, g') ->
  e_train (g_est g') = Some (X, Y) /\
  (exists new : list bound, g_rules g' = g_rules g ++ map Bound new) /\
  (forall k, p_n_max (g_params g) = Some k -> k <= zlen (g_rules g) -> g_rules g' = g_rules g).
Proof. exact C46_refit_extends_proof. Qed.
Print Assumptions C46_refit_extends.

(** C46, GreedyDivMax: the first round extends the old rules; fit then keeps this extension or replaces it by a
    list of candidates of the new data, of the same length.  With the budget used, the first round adds nothing. *)
Theorem C46_refit_divmax : forall W (S : samplers W) (ord : gset Z -> list Z) (fuel : nat) (X Y : csr) (g g' : gs W),
  set_order ord -> iter_ok S -> fit S DivMax ord fuel X Y g = (Ok tt, g') ->
  exists new picks : list bound,
    g_round1 g' = Some (g_rules g ++ map Bound new) /\
    (g_rules g' = g_rules g ++ map Bound new \/ g_rules g' = map Bound picks) /\
    length (g_rules g') = (length (g_rules g) + length new)%nat /\
    (forall b, b ∈ picks -> exists w cs w', generate_candidate_rules S ord (g_params g) X Y w = (Ok cs, w') /\ b ∈ cs) /\
    (forall k, p_n_max (g_params g) = Some k -> k <= zlen (g_rules g) -> new = []).
Proof. exact C46_refit_divmax_proof. Qed.
Print Assumptions C46_refit_divmax.

(** C48. The objective of a candidate b given the selected rules, in terms of label cells: A are the cells of b,
    As those of the selected rules, p and q precision and base rate of b.
    GreedyDivMax and V2: (new cells) * KL + lambd * (sum of Jaccard distances); V3: the same with the square root of
    the new cells; GreedySubmod: KL if there is a new cell, plus lambd * (new cells).  All but the last raise
    ZeroDivisionError when b and some selected rule both cover nothing. *)
Theorem C48_objectives : forall (ord : gset Z -> list Z) (X Y : csc) (head tail : list Z) (b : bound) (A : gset (Z * Z))
    (H T : gset Z) (sel : list bound) (As : list (gset (Z * Z))) (lambd : R),
  set_order ord -> dataset X Y -> (forall c, c ∈ tail -> 0 <= c) -> NoDup tail ->
  bind_dataset ord (new_rule head tail) X Y = Ok b ->
  (forall c, c ∈ A <-> covers X Y head tail c) ->
  (forall i, i ∈ H <-> row_matches X head i) -> (forall i, i ∈ T <-> row_matches Y tail i) ->
  Forall2 (covers_somewhere ord) sel As ->
  let kl := kl_quality (INR (size (H ∩ T)) / INR (size H)) (INR (size T) / IZR (csc_rows X)) in
  let dist := rsum (map (jaccard A) As) in
  (0 <= kl)%R /\
  objective_of_rule Submod lambd sel b
    = Ok ((if decide (A ⊆ all_cells As) then 0 else kl) + lambd * SGreedy.fresh A As)%R /\
  ((forall B, B ∈ As -> A ∪ B <> ∅) ->
     objective_of_rule DivMax lambd sel b = Ok (SGreedy.fresh A As * kl + lambd * dist)%R /\
     objective_of_rule DivMaxV2 lambd sel b = Ok (SGreedy.fresh A As * kl + lambd * dist)%R /\
     objective_of_rule DivMaxV3 lambd sel b = Ok (R_sqrt.sqrt (SGreedy.fresh A As) * kl + lambd * dist)%R) /\
  (forall B cls, B ∈ As -> A ∪ B = ∅ -> cls <> Submod ->
     objective_of_rule cls lambd sel b = Err ZeroDivisionError).
Proof. exact C48_objectives_proof. Qed.
Print Assumptions C48_objectives.

(** C48. The coverage part never increases as rules are selected: selecting more rules leaves a candidate the same
    number of new label cells or fewer, for any selected rules, and so does any superset of the selected rules. *)
Theorem C48_coverage_antitone : forall (b : bound) (sel more : list bound) (m m' : Z),
  (forall x, x ∈ sel -> x ∈ more) ->
  marginal_coverage b sel = Ok m -> marginal_coverage b more = Ok m' -> 0 <= m' <= m.
Proof. exact C48_coverage_antitone_proof. Qed.
Print Assumptions C48_coverage_antitone.

(** C47. A head sampler that answers None (CFTP failure) makes generate_candidate_rules raise TypeError: after any
    number of successful tails, as soon as a None follows heads that can all be bound. *)
Theorem C47_none_head : forall W (S : samplers W) (ord : gset Z -> list Z) (p : gparams) (X Y : csr) w
    (draws : list (gset Z * list (option (gset Z)))) w1 (k : nat) t y pre post w2,
  set_order ord -> wf_cmat (csr_mat Y) = true ->
  draws_from S X Y (p_n_heads p) k w draws w1 ->
  (forall tail heads h, (tail, heads) ∈ draws -> tail <> ∅ /\ (forall c, c ∈ tail -> 0 <= c < csr_cols Y) /\
     (h ∈ heads -> exists head, h = Some head /\
        is_ok (bind_dataset ord (new_rule (ord head) (ord tail)) (tocsc X) (tocsc Y)) = true)) ->
  (k < Z.to_nat (p_n_tails p))%nat ->
  proposes S X Y (p_n_heads p) w1 t y (pre ++ None :: post) w2 ->
  (forall h, h ∈ pre -> exists head, h = Some head /\
     is_ok (bind_dataset ord (new_rule (ord head) (ord t)) (tocsc X) (tocsc Y)) = true) ->
  generate_candidate_rules S ord p X Y w = (Err TypeError, w2).
Proof. exact C47_none_head_proof. Qed.
Print Assumptions C47_none_head.

(** C47. A tail that every row of Y has, or that no row has, makes generate_candidate_rules raise AssertionError when
    the head sampler is fitted as in CFTPDiscriminativitySampler.fit. *)
Theorem C47_constant_tail : forall W (S : samplers W) (ord : gset Z -> list Z) (p : gparams) (X Y : csr) w
    (draws : list (gset Z * list (option (gset Z)))) w1 (k : nat) (t : gset Z) w2,
  set_order ord -> wf_cmat (csr_mat Y) = true ->
  (forall y w, exists prune alpha pd cache, fst (head_fit S X y w) =
     match cds_fit ord prune alpha pd cache X (map Z.b2z y) with Ok _ => Ok tt | Err e => Err e end) ->
  draws_from S X Y (p_n_heads p) k w draws w1 ->
  (forall tail heads h, (tail, heads) ∈ draws -> tail <> ∅ /\ (forall c, c ∈ tail -> 0 <= c < csr_cols Y) /\
     (h ∈ heads -> exists head, h = Some head /\
        is_ok (bind_dataset ord (new_rule (ord head) (ord tail)) (tocsc X) (tocsc Y)) = true)) ->
  (k < Z.to_nat (p_n_tails p))%nat ->
  tail_sample_once S w1 = (Ok t, w2) -> t <> ∅ -> (forall c, c ∈ t -> 0 <= c < csr_cols Y) ->
  (forall i, 0 <= i < csr_rows Y -> forall c, c ∈ t -> csr_has Y i c) \/
    (forall i, 0 <= i < csr_rows Y -> ~ forall c, c ∈ t -> csr_has Y i c) ->
  fst (generate_candidate_rules S ord p X Y w) = Err AssertionError.
Proof. exact C47_constant_tail_proof. Qed.
Print Assumptions C47_constant_tail.

(** C47. What the loop of fit makes of an exception raised by generate_candidate_rules: NoMoreSamples ends it
    normally, any other exception leaves it, and in both cases the rules stay as they were. *)
Theorem C47_generation_errors : forall W (S : samplers W) (cls : greedy_class) (ord : gset Z -> list Z) (fuel : nat) (X Y : csr)
    (g : gs W) e w,
  generate_candidate_rules S ord (g_params g) X Y (g_world g) = (Err e, w) ->
  exists g', g_rules g' = g_rules g /\ g_world g' = w /\
    fit_loop S cls ord X Y (Datatypes.S fuel) g = ((if decide (e = NoMoreSamples) then Ok tt else Err e), g').
Proof. exact C47_generation_errors_proof. Qed.
Print Assumptions C47_generation_errors.

(** C47. An empty candidate set makes the loop raise ValueError.  It is empty, in particular, when
    n_tails_per_iter <= 0. *)
Theorem C47_no_candidates : forall W (S : samplers W) (cls : greedy_class) (ord : gset Z -> list Z) (fuel : nat) (X Y : csr)
    (g : gs W) w,
  iter_ok S ->
  (generate_candidate_rules S ord (g_params g) X Y (g_world g) = (Ok [], w) ->
   exists g', g_rules g' = g_rules g /\ fit_loop S cls ord X Y (Datatypes.S fuel) g = (Err ValueError, g')) /\
  (p_n_tails (g_params g) <= 0 ->
     generate_candidate_rules S ord (g_params g) X Y (g_world g) = (Ok [], g_world g)).
Proof. exact C47_no_candidates_proof. Qed.
Print Assumptions C47_no_candidates.

(** C47. An exception of the loop is the exception of fit, for every class, and the state is that of the loop; fit_start
    is everything before the loop. *)
Theorem C47_loop_error_is_fit_error : forall W (S : samplers W) (cls : greedy_class) (ord : gset Z -> list Z) (fuel : nat)
    (X Y : csr) (g g0 g1 : gs W) e,
  fit_start S cls X Y g = (Ok tt, g0) -> fit_loop S cls ord X Y fuel g0 = (Err e, g1) ->
  fit S cls ord fuel X Y g = (Err e, g1).
Proof. exact C47_loop_error_is_fit_error_proof. Qed.
Print Assumptions C47_loop_error_is_fit_error.

(** C47. When the very first call of generate_candidate_rules raises NoMoreSamples: GreedyDivMax raises
    InsufficientCandidates and loses its rules, the other classes end without changing theirs. *)
Theorem C47_nothing_to_sample : forall W (S : samplers W) (ord : gset Z -> list Z) (fuel : nat) (X Y : csr) (g : gs W) w,
  fst (tail_fit S Y (g_world g)) = Ok tt ->
  generate_candidate_rules S ord (g_params g) X Y (snd (tail_fit S Y (g_world g))) = (Err NoMoreSamples, w) ->
  g_rules g = [] ->
  (exists g', fit S DivMax ord (Datatypes.S fuel) X Y g = (Err InsufficientCandidates, g') /\ g_rules g' = []) /\
  forall cls, cls <> DivMax -> exists g', fit S cls ord (Datatypes.S fuel) X Y g = (Ok tt, g') /\ g_rules g' = [].
Proof. exact C47_nothing_to_sample_proof. Qed.
Print Assumptions C47_nothing_to_sample.

(** C47. Exhaustive list: if fit raises, the exception was raised by a sampler method, or is one of TypeError,
    ValueError, AssertionError, IndexError, ZeroDivisionError, AttributeError, InsufficientCandidates (GreedyDivMax
    only), or a nan/inf in an objective; or the model's bound on the number of rounds is too small.  A NoMoreSamples
    from fit can only come from fitting or updating a sampler. *)
Theorem C47_exhaustive : forall W (S : samplers W) (cls : greedy_class) (ord : gset Z -> list Z) (fuel : nat) (X Y : csr)
    (g : gs W) e g',
  fit S cls ord fuel X Y g = (Err e, g') ->
  (exists w, fst (tail_fit S Y w) = Err e) \/
  (exists s t w, fst (tail_update S s t w) = Err e) \/
  (e <> NoMoreSamples /\
    ((exists w, fst (tail_sample_once S w) = Err e) \/
     (exists X y w, fst (head_fit S X y w) = Err e) \/
     (exists n w, fst (head_sample S n w) = Err e))) \/
  e = TypeError \/ e = ValueError \/ e = AssertionError \/ e = IndexError \/ e = ZeroDivisionError \/
  e = AttributeError \/ e = NonFinite \/ e = OutOfFuel \/ (e = InsufficientCandidates /\ cls = DivMax).
Proof. exact C47_exhaustive_proof. Qed.
Print Assumptions C47_exhaustive.

(** The run behind the examples of C42, C45, C46: GreedyDivMaxV2 with a budget of 2 selects the same rule twice. *)
Example C42_C45_C46_ex : exists g',
  fit divS DivMaxV2 elements 3 divX divY (new_classifier (GParams 1 1 1 (Some 2) 0) tt) = (Ok tt, g') /\
  g_rules g' = map Bound [divB; divB] /\
  Forall2 (covers_somewhere elements) [divB; divB] [{[(0,0); (1,0)]}; {[(0,0); (1,0)]}] /\
  pairs_covered [{[(0,0); (1,0)]}; {[(0,0); (1,0)]}].
Proof.
  destruct (divS_fit_v2 DivMaxV2 2 1 0 (new_classifier (GParams 1 1 1 (Some 2) 0) tt)) as (g' & H & Hr); [by left|done|done|].
  exists g'. split; [exact H|]. split; [exact Hr|]. split; [apply (divB_somewhere 2)|apply (divB_pairs 2)].
Qed.

(** The run behind the example of C44: the samplers answer {0} -> {0, 1}, {0} -> {0} and {1} -> {2} in turn, with a
    budget of 2.  The first round selects the first two rules; the third is generated, but not selected.  The second
    round prefers it, so the two rounds select different rules with different objectives. *)
Definition altX : csr := Csr (of_lines 2 [[(0,1)]; [(0,1)]; [(1,1)]; [(1,1)]]).
Definition altY : csr := Csr (of_lines 3 [[(0,1);(1,1)]; [(0,1);(1,1)]; [(2,1)]; [(2,1)]]).
Definition altB (h t : list Z) : bound :=
  match bind_dataset elements (new_rule h t) (tocsc altX) (tocsc altY) with
  | Ok b => b
  | Err _ => MkBound (new_rule [] []) 0 0 0 0 ∅ 0 ∅ 0 ∅ 0
  end.
Definition altA := altB [0] [0; 1].
Definition altO := altB [0] [0].
Definition altC := altB [1] [2].
Definition altS : samplers nat := Samplers
  (fun _ w => (Ok tt, w))
  (fun w => (Ok (match w with 0%nat => {[0; 1]} | 1%nat => {[0]} | _ => {[2]} end), Datatypes.S w))
  (fun _ _ w => (Ok tt, w))
  (fun _ _ w => (Ok tt, w))
  (fun _ w => (Ok [Some (match w with 1%nat | 2%nat => {[0]} | _ => {[1]} end)], w))
  (fun _ l => l).

Lemma altB_KL b : b ∈ [altA; altO; altC] ->
  true_positive_rate b = Ok 1%R /\ base_rate b = Ok (1 / 2)%R /\ KL b = Ok (ln 2).
Proof.
  intros Hb.
  assert (b_support_size b = 2 /\ b_head_support_size b = 2 /\ b_tail_support_size b = 2 /\ b_N b = 4) as (E1 & E2 & E3 & E4).
  { rewrite !elem_of_cons, elem_of_nil in Hb. destruct Hb as [ -> | [ -> | [ -> | [] ] ] ]; vm_compute; done. }
  assert (true_positive_rate b = Ok 1%R) as Ht.
  { unfold true_positive_rate, py_div. rewrite E1, E2. cbn. f_equal. lra. }
  assert (base_rate b = Ok (1 / 2)%R) as Hr.
  { unfold base_rate, py_div. rewrite E3, E4. cbn. f_equal. lra. }
  split; [done|]. split; [done|].
  unfold KL. rewrite Ht, Hr. cbn [rbind].
  unfold Rltb. destruct (Rlt_dec 1 (1 / 2)) as [H|_]; [exfalso; lra|].
  unfold entropy. cbn [zip zip_with rmap rbind fst snd rsum].
  replace (1 / rsum [1; 1 - 1])%R with 1%R by (cbn; field). replace ((1 - 1) / rsum [1; 1 - 1])%R with 0%R by (cbn; field).
  replace (1 / 2 / rsum [1 / 2; 1 - 1 / 2])%R with (1 / 2)%R by (cbn; field).
  replace ((1 - 1 / 2) / rsum [1 / 2; 1 - 1 / 2])%R with (1 / 2)%R by (cbn; field).
  unfold rel_entr. destruct (Rlt_dec 0 1); [|lra]. destruct (Rlt_dec 0 (1 / 2)); [|lra]. destruct (Rlt_dec 0 0); [lra|].
  destruct (Req_EM_T 0 0); [|done]. destruct (Rle_dec 0 (1 / 2)); [|lra]. cbn [rbind].
  replace (1 / (1 / 2))%R with 2%R by field. f_equal. cbn. lra.
Qed.

Lemma altB_distance a b i u :
  set_len (b_support a ∩ b_support b) * set_len (py_set (r_tail (b_rule a)) ∩ py_set (r_tail (b_rule b))) = i ->
  b_support_size a * zlen (r_tail (b_rule a)) + b_support_size b * zlen (r_tail (b_rule b)) - i = u -> u <> 0 ->
  distance a b = Ok (1 - IZR i / IZR u)%R.
Proof.
  intros Hi Hu Hn. unfold distance. rewrite Hi, Hu. unfold py_div.
  destruct (u =? 0) eqn:E; [apply Z.eqb_eq in E; done|]. done.
Qed.

Lemma altB_distances : distance altA altA = Ok 0%R /\ distance altO altA = Ok (1 / 2)%R /\ distance altC altA = Ok 1%R /\
  distance altC altO = Ok 1%R /\ distance altA altO = Ok (1 / 2)%R /\ distance altA altC = Ok 1%R.
Proof.
  rewrite (altB_distance altA altA 4 4), (altB_distance altO altA 2 4), (altB_distance altC altA 0 6),
    (altB_distance altC altO 0 4), (altB_distance altA altO 2 4), (altB_distance altA altC 0 6) by (vm_compute; congruence || reflexivity).
  split_and!; f_equal; field.
Qed.

Lemma altB_objective sel b m ds : b ∈ [altA; altO; altC] -> marginal_coverage b sel = Ok m ->
  rmap (distance b) sel = Ok ds -> objective_of_rule DivMax 1 sel b = Ok (IZR m * ln 2 + 1 * rsum ds)%R.
Proof.
  intros Hb Hm Hd. unfold objective_of_rule, quality_of_rule, diversity_of_rule. rewrite Hm. cbn [rbind].
  destruct (altB_KL b Hb) as (_ & _ & ->). cbn [rbind]. rewrite Hd. done.
Qed.

Lemma altB_log sel b : b ∈ [altA; altO; altC] -> log_choice (map Bound sel) b = Ok tt.
Proof.
  intros Hb. unfold log_choice. destruct (altB_KL b Hb) as (-> & -> & ->). cbn [rbind]. rewrite bounds_map. cbn [rbind].
  rewrite PRuleMetric.marginal_coverage_size. done.
Qed.

Lemma ln2_pos : (0 < ln 2)%R.
Proof. rewrite <- ln_1. apply ln_increasing; lra. Qed.

Lemma py_max_one {A} (key : A -> result R) x v : key x = Ok v -> py_max key [x] = Ok x.
Proof. intros H. unfold py_max. rewrite H. done. Qed.

Lemma altB_select : 
  select_best_candidate DivMax 1 (map Bound []) [altA] = Ok altA /\
  select_best_candidate DivMax 1 (map Bound [altA]) [altO] = Ok altO /\
  select_best_candidate DivMax 1 (map Bound [altA; altO]) [altC] = Ok altC /\
  select_best_candidate DivMax 1 (map Bound []) [altA; altO; altC] = Ok altA /\
  select_best_candidate DivMax 1 (map Bound [altA]) [altA; altO; altC] = Ok altC.
Proof.
  pose proof ln2_pos as Hl. destruct altB_distances as (D1 & D2 & D3 & D4 & _).
  assert (IA : altA ∈ [altA; altO; altC]) by (constructor 1). assert (IO : altO ∈ [altA; altO; altC]) by (constructor 2; constructor 1).
  assert (IC : altC ∈ [altA; altO; altC]) by (constructor 2; constructor 2; constructor 1).
  unfold select_best_candidate. rewrite !bounds_map. cbn [rbind].
  assert (V1 : objective_of_rule DivMax 1 [] altA = Ok (IZR 4 * ln 2 + 1 * rsum [])%R)
    by (apply altB_objective; [exact IA|vm_compute; reflexivity|reflexivity]).
  assert (V2 : objective_of_rule DivMax 1 [] altO = Ok (IZR 2 * ln 2 + 1 * rsum [])%R)
    by (apply altB_objective; [exact IO|vm_compute; reflexivity|reflexivity]).
  assert (V3 : objective_of_rule DivMax 1 [] altC = Ok (IZR 2 * ln 2 + 1 * rsum [])%R)
    by (apply altB_objective; [exact IC|vm_compute; reflexivity|reflexivity]).
  assert (V4 : objective_of_rule DivMax 1 [altA] altA = Ok (IZR 0 * ln 2 + 1 * rsum [0])%R)
    by (apply altB_objective; [exact IA|vm_compute; reflexivity|cbn [rmap]; rewrite D1; reflexivity]).
  assert (V5 : objective_of_rule DivMax 1 [altA] altO = Ok (IZR 0 * ln 2 + 1 * rsum [1 / 2])%R)
    by (apply altB_objective; [exact IO|vm_compute; reflexivity|cbn [rmap]; rewrite D2; reflexivity]).
  assert (V6 : objective_of_rule DivMax 1 [altA] altC = Ok (IZR 2 * ln 2 + 1 * rsum [1])%R)
    by (apply altB_objective; [exact IC|vm_compute; reflexivity|cbn [rmap]; rewrite D3; reflexivity]).
  assert (V7 : objective_of_rule DivMax 1 [altA; altO] altC = Ok (IZR 2 * ln 2 + 1 * rsum [1; 1])%R)
    by (apply altB_objective; [exact IC|vm_compute; reflexivity|cbn [rmap]; rewrite D3; cbn [rbind]; rewrite D4; reflexivity]).
  split; [exact (py_max_one _ _ _ V1)|]. split; [exact (py_max_one _ _ _ V5)|]. split; [exact (py_max_one _ _ _ V7)|]. split.
  - unfold py_max. rewrite V1. cbn [rbind rfold]. rewrite V2. cbn [rbind snd fst]. unfold Rltb.
    destruct (Rlt_dec _ _) as [H|_]; [exfalso; cbn in H; lra|]. rewrite V3. cbn [rbind snd fst].
    destruct (Rlt_dec _ _) as [H|_]; [exfalso; cbn in H; lra|]. done.
  - unfold py_max. rewrite V4. cbn [rbind rfold]. rewrite V5. cbn [rbind snd fst]. unfold Rltb.
    destruct (Rlt_dec _ _) as [_|H]; [|exfalso; cbn in H; lra]. rewrite V6. cbn [rbind snd fst].
    destruct (Rlt_dec _ _) as [_|H]; [|exfalso; cbn in H; lra]. done.
Qed.

Lemma altS_round c0 (g : gs nat) t w b sel : g_params g = GParams 1 1 1 (Some 2) t -> g_rules g = map Bound sel ->
  g_world g = w -> generate_candidate_rules altS elements (GParams 1 1 1 (Some 2) t) altX altY w = (Ok [b], Datatypes.S w) ->
  select_best_candidate c0 1 (map Bound sel) [b] = Ok b -> log_choice (map Bound sel) b = Ok tt ->
  let g1 := keep_candidates c0 [b] (with_world (Datatypes.S w) (tick g)) in
  fit_round altS c0 elements altX altY g =
    if 2 <=? zlen sel then (Ok true, g1) else (Ok false, with_rules (map Bound (sel ++ [b])) (with_world (Datatypes.S w) g1)).
Proof.
  intros Hp Hr Hw Hg Hs Hl g1.
  assert (Hr1 : g_rules g1 = map Bound sel) by (unfold g1; destruct c0; exact Hr).
  assert (Hz : zlen (map Bound sel) = zlen sel) by (unfold zlen; by rewrite map_length).
  unfold fit_round. unfold sbind at 1, sget at 1. rewrite Hp.
  unfold sbind at 1, smod at 1. unfold sbind at 1, scatch at 1. unfold sbind at 1, on_world at 1.
  change (g_world (tick g)) with (g_world g). rewrite Hw, Hg. unfold sbind at 1, smod at 1. unfold sret at 1. fold g1.
  unfold sbind at 1, sget at 1. unfold sbind at 1, slift at 1. rewrite Hr1.
  change (rule_iter altS (g_world g1) [b]) with [b]. cbn [p_lambd]. rewrite Hs. unfold sbind at 1, slift at 1. rewrite Hl.
  unfold sbind at 1, slift at 1. unfold should_stop. cbn [p_n_max]. rewrite Hz.
  destruct (2 <=? zlen sel); [reflexivity|].
  unfold sbind at 1, add_rule. unfold sbind at 1, on_world. cbn [altS tail_update]. unfold smod, sret.
  change (g_rules (with_world (g_world g1) g1)) with (g_rules g1). rewrite Hr1, map_app. unfold g1. destruct c0; reflexivity.
Qed.

Lemma altB_objective_sel c0 a b (g : gs nat) : a ∈ [altA; altO; altC] -> b ∈ [altA; altO; altC] -> 
  marginal_coverage a [a; b] = Ok 0 -> marginal_coverage b [a; b] = Ok 0 -> forall d, distance a b = Ok d ->
  p_lambd (g_params g) = 1%R -> g_rules g = map Bound [a; b] -> c0 = DivMax \/ c0 = DivMaxV2 -> objective_of_selected c0 g = Ok d.
Proof.
  intros Ha Hb Ma Mb d Hd Hl Hr [ -> | -> ]; unfold objective_of_selected; rewrite Hr, bounds_map, Hl; cbn [rbind];
  unfold objective; cbn [rmap combinations2 map app]; unfold quality_of_rule; rewrite Ma, Mb; cbn [rbind];
  destruct (altB_KL a Ha) as (_ & _ & ->); destruct (altB_KL b Hb) as (_ & _ & ->); cbn [rbind fst snd rmap]; rewrite Hd;
  cbn [rbind]; f_equal; unfold rsum; cbn; lra.
Qed.

Example C44_ex : exists g',
  fit altS DivMax elements 3 altX altY (new_classifier (GParams 1 1 1 (Some 2) 0) 0%nat) = (Ok tt, g') /\ iter_ok altS /\
  g_round1 g' = Some (map Bound [altA; altO]) /\ g_rules g' = map Bound [altA; altC] /\
  g_obj1 g' = Some (1 / 2)%R /\ g_obj2 g' = Some 1%R /\ g_obj g' = Some (1 / 2)%R.
Proof.
  assert (IA : altA ∈ [altA; altO; altC]) by (constructor 1). assert (IO : altO ∈ [altA; altO; altC]) by (constructor 2; constructor 1).
  assert (IC : altC ∈ [altA; altO; altC]) by (constructor 2; constructor 2; constructor 1).
  destruct altB_select as (S1 & S2 & S3 & S4 & S5). destruct altB_distances as (_ & _ & _ & _ & D1 & D2).
  set (p := GParams 1 1 1 (Some 2) 0).
  change (fit altS DivMax elements 3 altX altY (new_classifier p 0%nat))
    with (fit_divmax altS elements 3 altX altY (new_classifier p 0%nat)).
  unfold fit_divmax, fit_1st_round. unfold sbind at 1 2.
  set (g0 := GS (MkEst p [] (Some 3) (Some 2) (Some (altX, altY))) 0%nat (Some []) None None None None 0%nat).
  assert (fit_start altS DivMax altX altY (new_classifier p 0%nat) = (Ok tt, g0)) as -> by reflexivity.
  set (g1 := GS (MkEst p (map Bound [altA]) (Some 3) (Some 2) (Some (altX, altY))) 1%nat (Some [altA]) None None None None 1%nat).
  set (g2 := GS (MkEst p (map Bound [altA; altO]) (Some 3) (Some 2) (Some (altX, altY))) 2%nat (Some [altA; altO]) None None None None 2%nat).
  set (g3 := GS (MkEst p (map Bound [altA; altO]) (Some 3) (Some 2) (Some (altX, altY))) 3%nat (Some [altA; altO; altC]) None None None None 3%nat).
  assert (R1 : fit_round altS DivMax elements altX altY g0 = (Ok false, g1)).
  { rewrite (altS_round DivMax g0 0 0%nat altA []); [|reflexivity|reflexivity|reflexivity|vm_compute; reflexivity|exact S1|exact (altB_log [] _ IA)].
    vm_compute. reflexivity. }
  assert (R2 : fit_round altS DivMax elements altX altY g1 = (Ok false, g2)).
  { rewrite (altS_round DivMax g1 0 1%nat altO [altA]); [|reflexivity|reflexivity|reflexivity|vm_compute; reflexivity|exact S2|exact (altB_log [altA] _ IO)].
    vm_compute. reflexivity. }
  assert (R3 : fit_round altS DivMax elements altX altY g2 = (Ok true, g3)).
  { rewrite (altS_round DivMax g2 0 2%nat altC [altA; altO]); [|reflexivity|reflexivity|reflexivity|vm_compute; reflexivity|exact S3|exact (altB_log [altA; altO] _ IC)].
    vm_compute. reflexivity. }
  assert (fit_loop altS DivMax elements altX altY 3 g0 = (Ok tt, g3)) as Hloop.
  { cbn [fit_loop]. unfold sbind. rewrite R1, R2, R3. reflexivity. }
  unfold sbind at 1. rewrite Hloop. unfold sbind at 1, sget at 1. unfold sbind at 1, slift at 1.
  assert (log_coverage elements (g_est g3) = Ok tt) as -> by (vm_compute; reflexivity).
  unfold sbind at 1, slift at 1.
  rewrite (altB_objective_sel DivMax altA altO g3 IA IO) with (d := (1 / 2)%R);
    [|vm_compute; reflexivity|vm_compute; reflexivity|exact D1|reflexivity|reflexivity|by left].
  unfold sbind at 1, smod at 1, sret at 1.
  unfold fit_2nd_round. unfold sbind at 1 2, sget at 1. unfold sbind at 1, smod at 1. unfold sbind at 1, smod at 1.
  cbn [g_cands with_obj1 g3].
  set (h0 := with_rules [] _).
  assert (second_loop altS [altA; altO; altC] (length (g_rules (with_obj1 (1 / 2)%R g3))) h0 =
    (Ok tt, with_rules (map Bound [altA; altC]) h0)) as Hsec.
  { change (length (g_rules (with_obj1 (1 / 2)%R g3))) with 2%nat. cbn [second_loop].
    unfold sbind at 1, sget at 1. unfold sbind at 1, slift at 1.
    change (p_lambd (g_params h0)) with 1%R. change (g_rules h0) with (map Bound []).
    change (rule_iter altS (g_world h0) [altA; altO; altC]) with [altA; altO; altC]. rewrite S4.
    unfold sbind at 1, slift at 1. rewrite (altB_log [] _ IA). unfold sbind at 1, smod at 1.
    unfold sbind at 1, sget at 1. unfold sbind at 1, slift at 1.
    set (h1 := with_rules (map Bound [] ++ [Bound altA]) h0).
    change (p_lambd (g_params h1)) with 1%R. change (g_rules h1) with (map Bound [altA]).
    change (rule_iter altS (g_world h1) [altA; altO; altC]) with [altA; altO; altC]. rewrite S5.
    unfold sbind at 1, slift at 1. rewrite (altB_log [altA] _ IC). reflexivity. }
  unfold sbind at 1. rewrite Hsec. set (h2 := with_rules (map Bound [altA; altC]) h0).
  unfold sbind at 1, sget at 1. unfold sbind at 1, slift at 1.
  assert (log_coverage elements (g_est h2) = Ok tt) as -> by (vm_compute; reflexivity).
  unfold sbind at 1, slift at 1.
  rewrite (altB_objective_sel DivMax altA altC h2 IA IC) with (d := 1%R);
    [|vm_compute; reflexivity|vm_compute; reflexivity|exact D2|reflexivity|reflexivity|by left].
  unfold sbind at 1, smod at 1, sret at 1. unfold sbind at 1, sget at 1.
  change (g_obj1 (with_obj2 1%R h2)) with (Some (1 / 2)%R). change (g_obj2 (with_obj2 1%R h2)) with (Some 1%R).
  cbv beta iota. unfold sbind at 1, smod. unfold Rltb. destruct (Rlt_dec 1 (1 / 2)) as [H|_]; [exfalso; lra|].
  eexists. split; [reflexivity|]. split; [intros w l; reflexivity|].
  split; [reflexivity|]. split; [reflexivity|]. split; [reflexivity|]. split; [reflexivity|].
  cbn [with_rules with_est g_obj with_obj]. f_equal. unfold Rmin. destruct (Rle_dec (1 / 2) 1) as [_|H]; [reflexivity|exfalso; lra].
Qed.

Lemma altB_covering h t A : NoDup t -> (forall c, c ∈ t -> 0 <= c) ->
  bind_dataset elements (new_rule h t) (tocsc altX) (tocsc altY) = Ok (altB h t) -> label_occs (altB h t) = A ->
  covers_somewhere elements (altB h t) A.
Proof.
  intros Ht Hp Hb HA.
  assert (Hd : dataset (tocsc altX) (tocsc altY)) by (apply T_GreedyBase.dataset_tocsc; by_compute).
  exists (tocsc altX), (tocsc altY). split; [exact Hd|].
  exists h, t. split; [exact Ht|]. split; [exact Hp|]. split; [exact Hb|]. intros c. rewrite <- HA.
  rewrite (PRuleMetric.label_occs_covers (tocsc altX) (tocsc altY) (new_rule h t) (altB h t) c)
    by (apply (T_Rule.bound_new elements); [intros s; reflexivity|exact Hd|exact Hp|exact Hb]).
  apply T_Rule.covers_perm; apply PBase.py_sorted_perm.
Qed.

Lemma altB_covered : Forall2 (covers_somewhere elements) [altA; altO] [{[(0,0); (0,1); (1,0); (1,1)]}; {[(0,0); (1,0)]}].
Proof.
  constructor; [|constructor; [|constructor]].
  - apply altB_covering; [apply NoDup_cons; split; [|apply NoDup_singleton]; rewrite elem_of_list_singleton; lia
      | |vm_compute; reflexivity|by_compute].
    intros c Hc. rewrite elem_of_cons, elem_of_list_singleton in Hc. lia.
  - apply altB_covering; [apply NoDup_singleton| |vm_compute; reflexivity|by_compute].
    intros c Hc. rewrite elem_of_list_singleton in Hc. lia.
Qed.

(** C45: on the same samplers GreedyDivMaxV2 selects the first two rules; the first covers four cells, the second two
    of them, and the objective reported is their Jaccard distance 1/2. *)
Example C45_ex : exists g' (A O : gset (Z * Z)),
  fit altS DivMaxV2 elements 3 altX altY (new_classifier (GParams 1 1 1 (Some 2) 0) 0%nat) = (Ok tt, g') /\
  g_rules g' = map Bound [altA; altO] /\ Forall2 (covers_somewhere elements) [altA; altO] [A; O] /\
  A = {[(0,0); (0,1); (1,0); (1,1)]} /\ O = {[(0,0); (1,0)]} /\ pairs_covered [A; O] /\
  g_obj g' = Some (1 / 2)%R /\ (1 * pair_diversity [A; O] = 1 / 2)%R.
Proof.
  assert (IA : altA ∈ [altA; altO; altC]) by (constructor 1). assert (IO : altO ∈ [altA; altO; altC]) by (constructor 2; constructor 1).
  assert (IC : altC ∈ [altA; altO; altC]) by (constructor 2; constructor 2; constructor 1).
  destruct altB_select as (S1 & S2 & S3 & _). destruct altB_distances as (_ & _ & _ & _ & D1 & _).
  set (p := GParams 1 1 1 (Some 2) 0).
  set (gi := new_classifier p 0%nat).
  set (g0 := GS (MkEst p [] (Some 3) (Some 2) (Some (altX, altY))) 0%nat None None None None None 0%nat).
  set (g1 := GS (MkEst p (map Bound [altA]) (Some 3) (Some 2) (Some (altX, altY))) 1%nat None None None None None 1%nat).
  set (g2 := GS (MkEst p (map Bound [altA; altO]) (Some 3) (Some 2) (Some (altX, altY))) 2%nat None None None None None 2%nat).
  set (g3 := GS (MkEst p (map Bound [altA; altO]) (Some 3) (Some 2) (Some (altX, altY))) 3%nat None None None None None 3%nat).
  assert (R1 : fit_round altS DivMaxV2 elements altX altY g0 = (Ok false, g1)).
  { rewrite (altS_round DivMaxV2 g0 0 0%nat altA []); [|reflexivity|reflexivity|reflexivity|vm_compute; reflexivity|exact S1|exact (altB_log [] _ IA)].
    vm_compute. reflexivity. }
  assert (R2 : fit_round altS DivMaxV2 elements altX altY g1 = (Ok false, g2)).
  { rewrite (altS_round DivMaxV2 g1 0 1%nat altO [altA]); [|reflexivity|reflexivity|reflexivity|vm_compute; reflexivity|exact S2|exact (altB_log [altA] _ IO)].
    vm_compute. reflexivity. }
  assert (R3 : fit_round altS DivMaxV2 elements altX altY g2 = (Ok true, g3)).
  { rewrite (altS_round DivMaxV2 g2 0 2%nat altC [altA; altO]); [|reflexivity|reflexivity|reflexivity|vm_compute; reflexivity|exact S3|exact (altB_log [altA; altO] _ IC)].
    vm_compute. reflexivity. }
  assert (Hfit : fit altS DivMaxV2 elements 3 altX altY gi = (Ok tt, with_obj (1 / 2)%R g3)).
  { change (fit altS DivMaxV2 elements 3 altX altY gi) with (fit_v2 altS DivMaxV2 elements 3 altX altY gi).
    unfold fit_v2. unfold sbind at 1.
    assert (fit_start altS DivMaxV2 altX altY gi = (Ok tt, g0)) as -> by reflexivity.
    unfold sbind at 1. cbn [fit_loop]. unfold sbind at 1. rewrite R1. unfold sbind at 1. rewrite R2. unfold sbind at 1. rewrite R3.
    unfold sret at 1. unfold sbind at 1, sget at 1. unfold sbind at 1, slift at 1.
    rewrite (altB_objective_sel DivMaxV2 altA altO g3 IA IO) with (d := (1 / 2)%R);
      [|vm_compute; reflexivity|vm_compute; reflexivity|exact D1|reflexivity|reflexivity|by right].
    unfold sbind, smod, slift.
    assert (log_coverage elements (g_est g3) = Ok tt) as -> by (vm_compute; reflexivity). reflexivity. }
  set (A := {[(0,0); (0,1); (1,0); (1,1)]} : gset (Z * Z)). set (O := {[(0,0); (1,0)]} : gset (Z * Z)).
  assert (Hcov : Forall2 (covers_somewhere elements) [altA; altO] [A; O]) by exact altB_covered.
  exists (with_obj (1 / 2)%R g3), A, O.
  destruct (C45_reported nat altS DivMaxV2 elements 3 altX altY gi (with_obj (1 / 2)%R g3) [altA; altO] [A; O]) as [Hpc Ho];
    [intros s; reflexivity|by left|exact Hfit|reflexivity|exact Hcov|].
  split; [exact Hfit|]. split; [reflexivity|]. split; [exact Hcov|]. split; [reflexivity|]. split; [reflexivity|].
  split; [exact Hpc|]. split; [reflexivity|].
  change (g_obj (with_obj (1 / 2)%R g3)) with (Some (1 / 2)%R) in Ho. injection Ho as Ho. symmetry. exact Ho.
Qed.

(** C43: the example samplers and dataset meet the hypotheses, with tolerance 1/10 and no budget. *)
Example C43_ex : sane (exS 9) /\ iter_ok (exS 9) /\ tails_valid (exS 9) (csr_cols exY) /\
  wf_cmat (csr_mat exX) = true /\ wf_cmat (csr_mat exY) = true /\ csr_rows exX = csr_rows exY /\ nnz (csr_mat exY) = 6.
Proof. destruct (exS_sane 9) as (? & ? & ?). split_and!; [done|done|done|by_compute..]. Qed.

(** C47: a head sampler that fails (None) after one good head; a label that every row has; a sampler with nothing
    to sample; a classifier asked for no tails. *)
Definition exN : samplers unit := Samplers
  (fun _ w => (Ok tt, w)) (fun w => (Ok {[0]}, w)) (fun _ _ w => (Ok tt, w))
  (fun _ _ w => (Ok tt, w)) (fun _ w => (Ok [Some {[0]}; None], w)) (fun _ l => l).
Definition exA : samplers unit := Samplers
  (fun _ w => (Ok tt, w)) (fun w => (Ok {[1]}, w)) (fun _ _ w => (Ok tt, w))
  (fun X y w => (match cds_fit elements false (Qcanon.Q2Qc (QArith_base.Qmake 0 1)) Tight None X (map Z.b2z y) with Ok _ => Ok tt | Err e => Err e end, w))
  (fun _ w => (Ok [Some {[0]}], w)) (fun _ l => l).
Definition exYall : csr := Csr (of_lines 2 [[(1,1)]; [(0,1);(1,1)]; [(1,1)]; [(0,1);(1,1)]]).

Example C47_ex :
  generate_candidate_rules exN elements (GParams 1 1 2 None 0) exX exY tt = (Err TypeError, tt) /\
  fst (generate_candidate_rules exA elements (GParams 1 1 2 None 0) exX exYall tt) = Err AssertionError /\
  generate_candidate_rules (exS 0) elements (GParams 1 1 2 None 0) exX exY 0%nat = (Err NoMoreSamples, 0%nat) /\
  generate_candidate_rules (exS 9) elements (GParams 1 0 2 None 0) exX exY 0%nat = (Ok [], 0%nat) /\
  (* after one good tail, NoMoreSamples ends the loop of fit; without rules GreedyDivMax raises *)
  fst (fit (exS 0) DivMax elements 1 exX exY (new_classifier (GParams 1 1 2 None 0) 0%nat)) = Err InsufficientCandidates /\
  fst (fit (exS 9) DivMaxV2 elements 1 exX exY (new_classifier (GParams 1 0 2 (Some 1) 0) 0%nat)) = Err ValueError.
Proof.
  split; [vm_compute; reflexivity|]. split; [vm_compute; reflexivity|].
  split; [vm_compute; reflexivity|]. split; [vm_compute; reflexivity|].
  split; [|vm_compute; reflexivity].
  destruct (C47_nothing_to_sample nat (exS 0) elements 0 exX exY (new_classifier (GParams 1 1 2 None 0) 0%nat) 0%nat)
    as [(g' & H & _) _]; [done|vm_compute; reflexivity|done|]. by rewrite H.
Qed.

(** C48: {0} -> {0, 1} covers four cells of which {0} -> {0} has two. *)
Example C48_ex :
  (exists A, covering elements (tocsc exX) (tocsc exY) (exB [0] [0; 1]) A /\ size A = 4%nat) /\
  marginal_coverage (exB [0] [0; 1]) [] = Ok 4 /\
  marginal_coverage (exB [0] [0; 1]) [exB [0] [0]] = Ok 2 /\
  marginal_coverage (exB [0] [0; 1]) [exB [0] [0]; exB [0] [1]] = Ok 0.
Proof.
  split; [|split; [|split]; vm_compute; reflexivity].
  exists (label_occs (exB [0] [0; 1])). split; [|by_compute].
  assert (Hd : dataset (tocsc exX) (tocsc exY)) by (apply T_GreedyBase.dataset_tocsc; by_compute).
  assert (bind_dataset elements (new_rule [0] [0; 1]) (tocsc exX) (tocsc exY) = Ok (exB [0] [0; 1])) as Hb
    by (vm_compute; reflexivity).
  assert (forall c : Z, c ∈ [0; 1] -> 0 <= c) as Hpos.
  { intros c Hc. rewrite elem_of_cons, elem_of_list_singleton in Hc. lia. }
  exists [0], [0; 1]. split; [repeat constructor; set_solver by lia|]. split; [done|]. split; [exact Hb|]. intros c.
  rewrite (PRuleMetric.label_occs_covers (tocsc exX) (tocsc exY) (new_rule [0] [0; 1]) (exB [0] [0; 1]) c) by (apply (T_Rule.bound_new elements); [intros s; done|done|done|done]).
  apply T_Rule.covers_perm; apply PBase.py_sorted_perm.
Qed.
