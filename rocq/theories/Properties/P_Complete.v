(** The classifiers with their own samplers (C91). *)
From Coq Require Import QArith.Qcanon Qreals Lra.
From Verif.Model Require Import PyBase PyReal Sparse Utils Graph Cliques Assign Rand RandR Uncovered Cftp GreedyHead Repeat Rule GreedyBase PyState Greedy Complete.
From Verif.Spec Require Import SMatrix SGraph SRule SGreedy SAssign SUncovered SComplete.
Open Scope Z_scope.
From Verif.Proofs Require Import T_Complete.
Open Scope Z_scope.

(** A complete classifier: GreedyCFTPDivMaxV2 or V3 with its own samplers, newly constructed, is fitted on any two 0/1 matrices
    with equally many rows (one or more), whatever the random numbers, the iteration orders of sets and the thresholds are.
    fit ends within n_max_rules + 1 rounds.  It ends normally, or with TypeError (the head sampler returned None), or with
    AssertionError, the last only if some label is in every row.  In each case the rules so far are at most n_max_rules, and the
    head and the tail of each are probable itemsets of the data that some row has both of and some row has neither of; its
    support are the rows that have both.  Every rule has a tail that occurs in a row where the rules before it left one of its
    labels uncovered.  If fit ends normally with fewer rules than n_max_rules, the rules cover every label of
    every row. *)
Theorem C91_complete : forall (cls : greedy_class) (ord : gset Z -> list Z) (rord : list bound -> list bound) (af al : Qc)
    (X Y : csr) (p : gparams) (k : Z) (t : nat -> R) (fuel : nat) (r : result unit) (g : gs world),
  cls = DivMaxV2 \/ cls = DivMaxV3 -> set_order ord -> (forall l, rord l ≡ₚ l) ->
  wf_cmat (csr_mat X) = true -> wf_cmat (csr_mat Y) = true -> binary (csr_mat X) -> binary (csr_mat Y) ->
  csr_rows X = csr_rows Y -> 1 <= csr_rows Y ->
  p_n_max p = Some k -> 0 <= k -> 1 <= p_n_tails p -> 1 <= p_n_heads p -> uniform_tape t -> (Z.to_nat k < fuel)%nat ->
  cftp_fit cls ord rord af al fuel X Y (new_classifier p (new_world t)) = (r, g) ->
  (r = Ok tt \/ r = Err TypeError \/ r = Err AssertionError) /\
  (r = Err AssertionError -> exists c, 0 <= c < csr_cols Y /\ forall i, 0 <= i < csr_rows Y -> csr_has Y i c) /\
  exists bs, g_rules g = map Bound bs /\ zlen bs <= k /\
    (forall b, b ∈ bs -> learned_rule X Y af al (r_head (b_rule b)) (r_tail (b_rule b)) (b_support b)) /\
    (forall j b, bs !! j = Some b -> exists i c, (forall a, a ∈ r_tail (b_rule b) -> csr_has Y i a) /\ c ∈ r_tail (b_rule b) /\
       forall b', b' ∈ take j bs -> i ∈ b_support b' -> c ∉ r_tail (b_rule b')) /\
    (r = Ok tt -> zlen bs < k -> forall i c, csr_has Y i c -> exists b, b ∈ bs /\ i ∈ b_support b /\ c ∈ r_tail (b_rule b)).
Proof. exact C91_complete_proof. Qed.
Print Assumptions C91_complete.

(** The same for GreedyCFTPDivMax.  Here the second round picks from the kept candidates: fit raises InsufficientCandidates only
    if no row has a label; the claims about covered labels hold for the rules of the first round, which are as many as the
    final rules. *)
Theorem C91_complete_divmax : forall (ord : gset Z -> list Z) (rord : list bound -> list bound) (af al : Qc)
    (X Y : csr) (p : gparams) (k : Z) (t : nat -> R) (fuel : nat) (r : result unit) (g : gs world),
  set_order ord -> (forall l, rord l ≡ₚ l) ->
  wf_cmat (csr_mat X) = true -> wf_cmat (csr_mat Y) = true -> binary (csr_mat X) -> binary (csr_mat Y) ->
  csr_rows X = csr_rows Y -> 1 <= csr_rows Y ->
  p_n_max p = Some k -> 0 <= k -> 1 <= p_n_tails p -> 1 <= p_n_heads p -> uniform_tape t -> (Z.to_nat k < fuel)%nat ->
  cftp_fit DivMax ord rord af al fuel X Y (new_classifier p (new_world t)) = (r, g) ->
  (r = Ok tt \/ r = Err TypeError \/ r = Err AssertionError \/ r = Err InsufficientCandidates) /\
  (r = Err AssertionError -> exists c, 0 <= c < csr_cols Y /\ forall i, 0 <= i < csr_rows Y -> csr_has Y i c) /\
  (r = Err InsufficientCandidates -> forall i c, ~ csr_has Y i c) /\
  exists bs, g_rules g = map Bound bs /\ zlen bs <= k /\
    (forall b, b ∈ bs -> learned_rule X Y af al (r_head (b_rule b)) (r_tail (b_rule b)) (b_support b)) /\
    (r = Ok tt -> exists bs1, g_round1 g = Some (map Bound bs1) /\ zlen bs1 = zlen bs /\
       (forall b, b ∈ bs1 -> learned_rule X Y af al (r_head (b_rule b)) (r_tail (b_rule b)) (b_support b)) /\
       (forall j b, bs1 !! j = Some b -> exists i c, (forall a, a ∈ r_tail (b_rule b) -> csr_has Y i a) /\ c ∈ r_tail (b_rule b) /\
          forall b', b' ∈ take j bs1 -> i ∈ b_support b' -> c ∉ r_tail (b_rule b')) /\
       (zlen bs < k -> forall i c, csr_has Y i c -> exists b, b ∈ bs1 /\ i ∈ b_support b /\ c ∈ r_tail (b_rule b))).
Proof. exact C91_complete_divmax_proof. Qed.
Print Assumptions C91_complete_divmax.

(** The sequences stand for exactly the random outcomes: an outcome of the tail sampler, or of the head sampler's k draws, is possible
    if and only if some sequence of numbers in [0,1) gives it. *)
Theorem C91_sequences : forall (ord : gset Z -> list Z) (st : ua) (s : cds) (n : nat) (o : result (gset Z)) (o' : result (list (option (gset Z)) * cstate)),
  (can (ua_sample_once st) o <-> exists t, uniform_tape t /\ fst (run_rand (ua_sample_once st) t) = o) /\
  (rcan (repeat_st n (cds_value_st ord s) cstate_empty) o' <->
   exists t, uniform_tape t /\ fst (run_rrand (repeat_st n (cds_value_st ord s) cstate_empty) t) = o').
Proof. exact C91_sequences_proof. Qed.
Print Assumptions C91_sequences.

(** The TypeError does occur.  If some label is in some rows and not in others, and no feature tells these rows apart (every feature of a
    row with the label is a feature of every row without it), then for all parameters some random numbers make fit raise TypeError, for each of the three
    classes. *)
Theorem C91_crash : forall (cls : greedy_class) (ord : gset Z -> list Z) (rord : list bound -> list bound) (af al : Qc)
    (X Y : csr) (p : gparams) (k c : Z) (fuel : nat),
  cls <> Submod -> set_order ord -> (forall l, rord l ≡ₚ l) ->
  wf_cmat (csr_mat X) = true -> wf_cmat (csr_mat Y) = true -> binary (csr_mat X) -> binary (csr_mat Y) -> csr_rows X = csr_rows Y ->
  p_n_max p = Some k -> 1 <= p_n_tails p -> 1 <= p_n_heads p -> (0 < fuel)%nat ->
  (exists i, csr_has Y i c) -> (exists n, 0 <= n < csr_rows Y /\ ~ csr_has Y n c) ->
  (forall i n f, csr_has Y i c -> 0 <= n < csr_rows Y -> ~ csr_has Y n c -> csr_has X i f -> csr_has X n f) ->
  exists t, uniform_tape t /\ fst (cftp_fit cls ord rord af al fuel X Y (new_classifier p (new_world t))) = Err TypeError.
Proof. exact C91_crash_proof. Qed.
Print Assumptions C91_crash.

(** One feature, one label, two rows; row 0 has both.  Whatever the random numbers are, fit raises TypeError or finds the rule
    0 -> 0. *)
From Verif.Proofs Require Import PBase PSparse.
Open Scope Z_scope.
Definition exM : csr := Csr (of_lines 1 [[(0, 1)]; []]).
Lemma exM_wf : wf_cmat (csr_mat exM) = true. Proof. by vm_compute. Qed.
Lemma exM_has i c : csr_has exM i c <-> i = 0 /\ c = 0.
Proof.
  unfold csr_has, exM. cbn [csr_mat]. rewrite stored_of_lines; [|lia|].
  - split.
    + intros (Hi & l & Hl & Hc). destruct (Z.to_nat i) as [|[|n]] eqn:E; cbn in Hl; injection Hl as <- || discriminate; cbn in Hc.
      * apply elem_of_list_singleton in Hc. lia.
      * inversion Hc.
    + intros [-> ->]. split; [lia|]. exists [(0, 1)]. split; [done|]. left.
  - intros l j v Hl Hj. apply elem_of_cons in Hl as [->|Hl]; [apply elem_of_list_singleton in Hj; injection Hj as -> ->; lia|].
    apply elem_of_list_singleton in Hl as ->. inversion Hj.
Qed.
Lemma exM_rule b : learned_rule exM exM (Q2Qc (1 # 2)) (Q2Qc (1 # 2)) (r_head (b_rule b)) (r_tail (b_rule b)) (b_support b) ->
  r_head (b_rule b) = [0] /\ r_tail (b_rule b) = [0] /\ b_support b = {[0]}.
Proof.
  intros (h & t & (Hh & Ht & _) & S1 & E1 & S2 & E2 & Hs).
  assert (Hone : forall s l, probable_itemset exM (Q2Qc (1 # 2)) s -> StronglySorted Z.lt l -> (forall c, c ∈ l <-> c ∈ s) -> l = [0] /\ s = {[0]}).
  { intros s l (l' & ws & Hne & _ & Hl' & Hr & _) Hsort Hl. change (csr_cols exM) with 1 in Hr.
    assert (Hs0 : s = {[0]}).
    { apply set_eq. intros c. rewrite elem_of_singleton. split; [intros Hc; apply Hr in Hc; lia|]. intros ->.
      destruct l' as [|x l']; [done|]. assert (x ∈ s) as Hx by (apply Hl'; left). pose proof (Hr x Hx). by replace 0 with x by lia. }
    split; [|done]. subst s. destruct l as [|x [|y l]].
    - assert (0 ∈ ([] : list Z)) as Hx by (apply Hl; set_solver). inversion Hx.
    - assert (x ∈ ({[0]} : gset Z)) as Hx by (apply Hl; left). by apply elem_of_singleton in Hx as ->.
    - assert (x ∈ ({[0]} : gset Z)) as Hx%elem_of_singleton by (apply Hl; left). assert (y ∈ ({[0]} : gset Z)) as Hy%elem_of_singleton by (apply Hl; right; left).
      apply StronglySorted_inv in Hsort as [_ Hf]. inversion Hf. lia. }
  destruct (Hone h _ Hh S1 E1) as [-> ->], (Hone t _ Ht S2 E2) as [-> ->]. split; [done|]. split; [done|].
  apply set_eq. intros i. rewrite Hs, elem_of_singleton. change (csr_rows exM) with 2. split.
  - intros (_ & H & _). assert (csr_has exM i 0) as Hc by (apply H; set_solver). apply exM_has in Hc. lia.
  - intros ->. split; [lia|]. split; intros c Hc; apply elem_of_singleton in Hc as ->; by apply exM_has.
Qed.
Example C91_ex : forall (t : nat -> R) r g, uniform_tape t ->
  cftp_fit DivMaxV3 elements (fun l => l) (Q2Qc (1 # 2)) (Q2Qc (1 # 2)) 10 exM exM (new_classifier (GParams 1 1 1 (Some 5) 0) (new_world t)) = (r, g) ->
  r = Err TypeError \/
  r = Ok tt /\ exists b, Bound b ∈ g_rules g /\ r_head (b_rule b) = [0] /\ r_tail (b_rule b) = [0] /\ b_support b = {[0]}.
Proof.
  intros t r g Ht H.
  destruct (C91_complete DivMaxV3 elements (fun l => l) (Q2Qc (1 # 2)) (Q2Qc (1 # 2)) exM exM (GParams 1 1 1 (Some 5) 0) 5 t 10 r g)
    as (Hr & Ha & bs & Eb & Hlen & Hl & _ & Hc); try exact H; try exact Ht; try exact exM_wf; try (apply binary_b_ok; by vm_compute); try reflexivity.
  - by right.
  - intros s. reflexivity.
  - vm_compute. discriminate.
  - discriminate.
  - apply Nat.ltb_lt. reflexivity.
  - destruct Hr as [ -> | [ -> | -> ] ]; [right; split; [reflexivity|]|by left|].
    + assert (exists b, b ∈ bs) as [b Hb].
      { destruct bs as [|b bs]; [|exists b; left]. destruct (Hc eq_refl) with (i := 0) (c := 0) as (b & Hb & _); [reflexivity|by apply exM_has|]. by exists b. }
      exists b. split; [rewrite Eb; apply elem_of_list_fmap; by exists b|]. apply exM_rule. by apply Hl.
    + exfalso. destruct (Ha eq_refl) as (c & _ & Hall). assert (csr_has exM 1 c) as Hx by (apply Hall; vm_compute; split; [discriminate|reflexivity]).
      apply exM_has in Hx as [? _]. discriminate.
Qed.

(** The labelled row has no feature, the other row has one: some random numbers make fit raise TypeError. *)
Definition exN : csr := Csr (of_lines 1 [[]; [(0, 1)]]).
Lemma exN_has i c : csr_has exN i c -> i = 1.
Proof.
  unfold csr_has, exN. cbn [csr_mat]. rewrite stored_of_lines; [|lia|].
  - intros (Hi & l & Hl & Hc). destruct (Z.to_nat i) as [|[|n]] eqn:E; cbn in Hl; injection Hl as <- || discriminate; cbn in Hc; [inversion Hc|lia].
  - intros l j v Hl Hj. apply elem_of_cons in Hl as [->|Hl]; [inversion Hj|].
    apply elem_of_list_singleton in Hl as ->. apply elem_of_list_singleton in Hj. injection Hj as -> ->. lia.
Qed.
Example C91_crash_ex : exists t, uniform_tape t /\
  fst (cftp_fit DivMaxV2 elements (fun l => l) (Q2Qc (1 # 2)) (Q2Qc (1 # 2)) 10 exN exM (new_classifier (GParams 1 1 1 (Some 5) 0) (new_world t))) = Err TypeError.
Proof.
  apply C91_crash with (k := 5) (c := 0); try exact exM_wf; try (apply binary_b_ok; by vm_compute); try reflexivity; try discriminate.
  - intros s. reflexivity.
  - apply Nat.ltb_lt. reflexivity.
  - exists 0. by apply exM_has.
  - exists 1. split; [vm_compute; split; [discriminate|reflexivity]|]. intros Hx. apply exM_has in Hx as [? _]. discriminate.
  - intros i n f Hi _ _ Hf. apply exM_has in Hi as [-> _]. apply exN_has in Hf. discriminate.
Qed.
