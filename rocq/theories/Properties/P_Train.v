(** What the scores on the training data say about the rules (C96). *)
From Coq Require Import QArith.Qcanon Qreals Reals Lra.
From Verif.Model Require Import PyBase PyReal Sparse Utils Graph Cliques Assign Rand RandR Evaluation Uncovered Cftp GreedyHead Repeat Rule GreedyBase PyState Greedy Complete.
From Verif.Spec Require Import SMatrix SGraph SRule SPredict SEval SGreedy SAssign SUncovered SComplete.
Open Scope Z_scope.
From Verif.Proofs Require Import T_Train.
Open Scope Z_scope.

(** C96. A classifier with rules bound to its training data X, Y predicts X. Its micro recall is at least its coverage ratio,
    and equal to it exactly if every label that is predicted and true is covered by a rule. Its micro precision is 1 exactly if every
    rule is always right (the support is the head support), and then recall and coverage ratio are equal too. The coverage ratio is 1
    exactly if every label is covered by a rule, the recall is 1 exactly if every label is predicted by a rule. The number of wrong
    predictions, (1 - precision) times the number of predictions, is at most the sum over the rules of the length of the tail times the
    number of rows with the head and without the tail. *)
Theorem C96_training_scores : forall (P : Type) (ord : gset Z -> list Z) (e : est P) (X Y : csr) (rs : list (list Z * list Z * bound)),
  set_order ord -> wf_cmat (csr_mat X) = true -> wf_cmat (csr_mat Y) = true -> csr_rows X = csr_rows Y -> binary (csr_mat Y) ->
  2 <= csr_cols Y -> (exists i j, csr_has Y i j) ->
  e_train e = Some (X, Y) -> e_num_labels e = Some (csr_cols Y) -> e_rules e = map (fun r => Bound (snd r)) rs ->
  (forall h t b, (h, t, b) ∈ rs -> (forall c, c ∈ t -> 0 <= c < csr_cols Y) /\
     bind_dataset ord (new_rule h t) (tocsc X) (tocsc Y) = Ok b) ->
  exists Yp r p c, predict e X = Ok Yp /\ micro_recall Yp Y = Ok r /\ micro_precision Yp Y = Ok p /\ coverage_ratio ord e = Ok c /\
    (c <= Q2R (this r))%R /\
    (c = Q2R (this r) <-> forall h t b i j, (h, t, b) ∈ rs -> row_matches (tocsc X) h i -> j ∈ t -> csr_has Y i j ->
       exists h' t' b', (h', t', b') ∈ rs /\ covers (tocsc X) (tocsc Y) h' t' (i, j)) /\
    (p = 1%Qc <-> forall h t b, (h, t, b) ∈ rs -> b_support b = b_head_support b) /\
    (p = 1%Qc -> c = Q2R (this r)) /\
    (c = 1%R <-> forall i j, csr_has Y i j -> exists h t b, (h, t, b) ∈ rs /\ covers (tocsc X) (tocsc Y) h t (i, j)) /\
    (r = 1%Qc <-> forall i j, csr_has Y i j -> exists h t b, (h, t, b) ∈ rs /\ row_matches (tocsc X) h i /\ j ∈ t) /\
    ((1 - p) * Qc_of_Z (nnz (csr_mat Yp)) <=
       Qc_of_Z (foldr Z.add 0 (map (fun '(h, t, b) => zlen t * (b_head_support_size b - b_support_size b)) rs))%Z)%Qc.
Proof. exact C96_training_scores_proof. Qed.
Print Assumptions C96_training_scores.

(** C96, for fit with any samplers and any class: the scores on the training data after fit. *)
Theorem C96_fitted : forall (W : Type) (S : samplers W) (cls : greedy_class) (ord : gset Z -> list Z) (fuel : nat) (X Y : csr)
    (p : gparams) (w : W) (g : gs W),
  set_order ord -> iter_ok S -> tails_valid S (csr_cols Y) ->
  wf_cmat (csr_mat X) = true -> wf_cmat (csr_mat Y) = true -> csr_rows X = csr_rows Y -> binary (csr_mat Y) ->
  2 <= csr_cols Y -> (exists i j, csr_has Y i j) ->
  fit S cls ord fuel X Y (new_classifier p w) = (Ok tt, g) ->
  exists Yp r q c, predict (g_est g) X = Ok Yp /\ micro_recall Yp Y = Ok r /\ micro_precision Yp Y = Ok q /\ coverage_ratio ord (g_est g) = Ok c /\
    (c <= Q2R (this r))%R /\ (q = 1%Qc -> c = Q2R (this r)) /\
    (q = 1%Qc <-> forall b, Bound b ∈ g_rules g -> b_support b = b_head_support b).
Proof. exact C96_fitted_proof. Qed.
Print Assumptions C96_fitted.

(** C96, for the repository's learners (GreedyCFTPDivMax, V2 and V3), for all random numbers: if fit ends normally, the training recall is at
    least the coverage ratio; if there are fewer rules than n_max_rules (and, for GreedyCFTPDivMax, the rules are those of the first round),
    both are 1. *)
Theorem C96_learned : forall (cls : greedy_class) (ord : gset Z -> list Z) (rord : list bound -> list bound) (af al : Qc)
    (X Y : csr) (p : gparams) (k : Z) (t : nat -> R) (fuel : nat) (g : gs world),
  cls <> Submod -> set_order ord -> (forall l, rord l ≡ₚ l) ->
  wf_cmat (csr_mat X) = true -> wf_cmat (csr_mat Y) = true -> binary (csr_mat X) -> binary (csr_mat Y) ->
  csr_rows X = csr_rows Y -> 1 <= csr_rows Y -> 2 <= csr_cols Y -> (exists i j, csr_has Y i j) ->
  p_n_max p = Some k -> 0 <= k -> 1 <= p_n_tails p -> 1 <= p_n_heads p -> uniform_tape t -> (Z.to_nat k < fuel)%nat ->
  cftp_fit cls ord rord af al fuel X Y (new_classifier p (new_world t)) = (Ok tt, g) ->
  exists Yp r q c, predict (g_est g) X = Ok Yp /\ micro_recall Yp Y = Ok r /\ micro_precision Yp Y = Ok q /\ coverage_ratio ord (g_est g) = Ok c /\
    (c <= Q2R (this r))%R /\ (q = 1%Qc -> c = Q2R (this r)) /\
    ((cls = DivMax -> g_round1 g = Some (g_rules g)) -> zlen (g_rules g) < k -> c = 1%R /\ r = 1%Qc).
Proof. exact C96_learned_proof. Qed.
Print Assumptions C96_learned.

From Verif.Proofs Require Import PBase PSparse T_Greedy.
Open Scope Z_scope.
(** Four rows, features {0}, {0,1}, {1}, {0}, labels {0,1}, {0,1}, {0}, {0}; the rule {0} -> {0,1} is wrong about label 1 of row 3, which
    leaves label 0 of row 3 predicted but not covered: coverage ratio below recall 5/6, precision 5/6, 1 wrong prediction, bound 2. *)
Definition trX : csr := Csr (of_lines 2 [[(0,1)]; [(0,1);(1,1)]; [(1,1)]; [(0,1)]]).
Definition trY : csr := Csr (of_lines 2 [[(0,1);(1,1)]; [(0,1);(1,1)]; [(0,1)]; [(0,1)]]).
Definition trB : bound :=
  match bind_dataset elements (new_rule [0] [0;1]) (tocsc trX) (tocsc trY) with
  | Ok b => b
  | Err _ => MkBound (new_rule [] []) 0 0 0 0 ∅ 0 ∅ 0 ∅ 0
  end.
Definition trE : est unit := MkEst tt [Bound trB] (Some 2) (Some 2) (Some (trX, trY)).
Lemma trY_has i j : csr_has trY i j <-> (i, j) ∈ [(0,0); (0,1); (1,0); (1,1); (2,0); (3,0)].
Proof. rewrite <- PGreedyBase.elem_of_cell_list by (by vm_compute). change (PGreedyBase.cell_list trY) with [(0,0); (0,1); (1,0); (1,1); (2,0); (3,0)]. done. Qed.
Lemma trX_has i j : csr_has trX i j <-> (i, j) ∈ [(0,0); (1,0); (1,1); (2,1); (3,0)].
Proof. rewrite <- PGreedyBase.elem_of_cell_list by (by vm_compute). change (PGreedyBase.cell_list trX) with [(0,0); (1,0); (1,1); (2,1); (3,0)]. done. Qed.
Example C96_ex : exists Yp c,
  predict trE trX = Ok Yp /\ micro_recall Yp trY = Ok (Q2Qc (5 # 6)) /\ micro_precision Yp trY = Ok (Q2Qc (5 # 6)) /\
  coverage_ratio elements trE = Ok c /\ (c < 5 / 6)%R /\
  nnz (csr_mat Yp) = 6 /\ zlen [0; 1] * (b_head_support_size trB - b_support_size trB) = 2.
Proof.
  assert (P1 : set_order elements) by (intros s; reflexivity).
  assert (P2 : wf_cmat (csr_mat trX) = true) by (vm_compute; reflexivity).
  assert (P3 : wf_cmat (csr_mat trY) = true) by (vm_compute; reflexivity).
  assert (P4 : csr_rows trX = csr_rows trY) by reflexivity.
  assert (P5 : binary (csr_mat trY)) by (apply binary_b_ok; by vm_compute).
  assert (P6 : 2 <= csr_cols trY) by (by vm_compute).
  assert (P7 : exists i j, csr_has trY i j) by (exists 0, 0; apply trY_has; left).
  assert (P8 : forall h t b, (h, t, b) ∈ [([0], [0; 1], trB)] -> (forall c, c ∈ t -> 0 <= c < csr_cols trY) /\
    bind_dataset elements (new_rule h t) (tocsc trX) (tocsc trY) = Ok b).
  { intros h t b H. apply elem_of_list_singleton in H. injection H as -> -> ->. split; [|vm_compute; reflexivity].
    intros x Hx. change (csr_cols trY) with 2. rewrite !elem_of_cons, elem_of_nil in Hx. lia. }
  destruct (C96_training_scores unit elements trE trX trY [([0], [0; 1], trB)] P1 P2 P3 P4 P5 P6 P7 eq_refl eq_refl eq_refl P8) as (Yp & r & p & c & H1 & H2 & H3 & H4 & H5 & H6 & H7 & H8 & _).
  vm_compute in H1. injection H1 as <-. vm_compute in H2. injection H2 as <-. vm_compute in H3. injection H3 as <-.
  eexists _, c. split; [vm_compute; reflexivity|]. split; [vm_compute; reflexivity|]. split; [vm_compute; reflexivity|]. split; [exact H4|].
  split; [|split; vm_compute; reflexivity].
  match type of H5 with (_ <= ?q)%R => assert (Hq : q = (5 / 6)%R) by (unfold Q2R; cbn; field) end.
  rewrite Hq in H5, H6. destruct H5 as [H5|H5]; [exact H5|]. exfalso. pose proof (proj1 H6 H5) as H9. clear H5 H6.
  destruct (H9 [0] [0; 1] trB 3 0) as (h' & t' & b' & Hb & Hc).
  + left.
  + split; [change (0 <= 3 < 4); lia|]. intros x Hx. apply elem_of_list_singleton in Hx as ->. apply tocsc_has; [by vm_compute|]. apply trX_has. repeat ((by left) || right).
  + left.
  + apply trY_has. repeat ((by left) || right).
  + apply elem_of_list_singleton in Hb. injection Hb as -> -> ->. destruct Hc as (_ & [_ Hc] & _). cbn [fst] in Hc.
    specialize (Hc 1 ltac:(right; left)). apply tocsc_has in Hc; [|by vm_compute]. apply trY_has in Hc. revert Hc. apply (bool_decide_unpack ((3, 1) ∉ [(0,0); (0,1); (1,0); (1,1); (2,0); (3,0)])). by vm_compute.
Qed.

(** fit of the example of C42 and C45 selects the rule {0} -> {0} twice; it is always right: recall and coverage ratio are 1/2. *)
Example C96_fitted_ex : exists g Yp,
  fit divS DivMaxV2 elements 3 divX divY (new_classifier (GParams 1 1 1 (Some 2) 0) tt) = (Ok tt, g) /\
  predict (g_est g) divX = Ok Yp /\ micro_recall Yp divY = Ok (Q2Qc (1 # 2)) /\ coverage_ratio elements (g_est g) = Ok (1 / 2)%R.
Proof.
  destruct (divS_fit_v2 DivMaxV2 2 1 0 (new_classifier (GParams 1 1 1 (Some 2) 0) tt)) as (g & Hf & Hr); [by left|done|done|].
  assert (P1 : set_order elements) by (intros s; reflexivity).
  assert (P2 : iter_ok divS) by (intros w l; reflexivity).
  assert (P3 : tails_valid divS (csr_cols divY)) by (intros w w' tl [= <- _] c Hc; apply elem_of_singleton in Hc as ->; by_compute).
  assert (P4 : wf_cmat (csr_mat divX) = true) by (vm_compute; reflexivity).
  assert (P5 : wf_cmat (csr_mat divY) = true) by (vm_compute; reflexivity).
  assert (P6 : binary (csr_mat divY)) by (apply binary_b_ok; by vm_compute).
  assert (P7 : 2 <= csr_cols divY) by (by vm_compute).
  assert (P8 : exists i j, csr_has divY i j).
  { exists 0, 0. apply PGreedyBase.elem_of_cell_list; [by vm_compute|]. change (PGreedyBase.cell_list divY) with [(0,0); (0,1); (1,0); (2,1)]. left. }
  destruct (C96_fitted unit divS DivMaxV2 elements 3 divX divY (GParams 1 1 1 (Some 2) 0) tt g P1 P2 P3 P4 P5 eq_refl P6 P7 P8 Hf)
    as (Yp & r & q & c & H1 & H2 & H3 & H4 & H5 & H6 & H7).
  exists g, Yp. split; [exact Hf|]. split; [exact H1|].
  assert (Hq : q = 1%Qc).
  { apply H7. intros b Hb. change (g_rules g = [Bound divB; Bound divB]) in Hr. rewrite Hr in Hb. rewrite !elem_of_cons, elem_of_nil in Hb.
    destruct Hb as [ [= ->] | [ [= ->] | [] ] ]; by_compute. }
  assert (HY : predict (MkEst tt [Bound divB; Bound divB] (Some 2) (Some 1) None) divX = Ok Yp).
  { destruct (T_Exp.fit_rules divS DivMaxV2 elements divX divY 3 (GParams 1 1 1 (Some 2) 0) tt g) as (N & _); [intros w l; reflexivity|discriminate|exact Hf|].
    unfold predict in H1 |- *. rewrite N in H1. change (e_rules (g_est g) = [Bound divB; Bound divB]) in Hr. rewrite Hr in H1. exact H1. }
  vm_compute in HY. injection HY as <-. vm_compute in H2. injection H2 as <-.
  split; [vm_compute; reflexivity|]. rewrite H4. f_equal. rewrite (H6 Hq). unfold Q2R. cbn. field.
Qed.

(** Two rows, one with the only feature and both labels: whatever the random numbers are, fit raises TypeError, or ends with 5 rules, or
    recall and coverage ratio are 1. *)
Definition leX : csr := Csr (of_lines 1 [[(0, 1)]; []]).
Definition leY : csr := Csr (of_lines 2 [[(0, 1); (1, 1)]; []]).
Lemma leY_has i c : csr_has leY i c <-> (i, c) ∈ [(0, 0); (0, 1)].
Proof. rewrite <- PGreedyBase.elem_of_cell_list by (by vm_compute). change (PGreedyBase.cell_list leY) with [(0,0); (0,1)]. done. Qed.
Example C96_learned_ex : forall (t : nat -> R) r g, uniform_tape t ->
  cftp_fit DivMaxV3 elements (fun l => l) (Q2Qc (1 # 2)) (Q2Qc (1 # 2)) 10 leX leY (new_classifier (GParams 1 1 1 (Some 5) 0) (new_world t)) = (r, g) ->
  r = Err TypeError \/
  r = Ok tt /\ (5 <= zlen (g_rules g) \/ exists Yp, predict (g_est g) leX = Ok Yp /\ micro_recall Yp leY = Ok 1%Qc /\ coverage_ratio elements (g_est g) = Ok 1%R).
Proof.
  intros t r g Ht H.
  assert (P1 : set_order elements) by (intros s; reflexivity).
  assert (P2 : wf_cmat (csr_mat leX) = true) by (vm_compute; reflexivity).
  assert (P3 : wf_cmat (csr_mat leY) = true) by (vm_compute; reflexivity).
  assert (P4 : binary (csr_mat leX)) by (apply binary_b_ok; vm_compute; reflexivity).
  assert (P5 : binary (csr_mat leY)) by (apply binary_b_ok; vm_compute; reflexivity).
  assert (P6 : (Z.to_nat 5 < 10)%nat) by (apply Nat.ltb_lt; reflexivity).
  assert (P7 : exists i j, csr_has leY i j) by (exists 0, 0; apply leY_has; left).
  assert (P8 : csr_rows leX = csr_rows leY) by reflexivity.
  assert (P9 : 1 <= csr_rows leY) by (change (1 <= 2); lia).
  assert (P10 : 2 <= csr_cols leY) by (change (2 <= 2); lia).
  destruct (T_Complete.C91_complete_proof DivMaxV3 elements (fun l => l) (Q2Qc (1 # 2)) (Q2Qc (1 # 2)) leX leY (GParams 1 1 1 (Some 5) 0) 5 t 10 r g
    (or_intror eq_refl) P1 (fun l => Permutation_refl l) P2 P3 P4 P5 P8 P9 eq_refl ltac:(lia) ltac:(cbn; lia) ltac:(cbn; lia) Ht P6 H) as (Hr & Ha & _).
  destruct Hr as [ -> | [ -> | -> ] ]; [|left; reflexivity|].
  - right. split; [reflexivity|]. destruct (decide (5 <= zlen (g_rules g))) as [ Hy | Hn ]; [left; exact Hy|]. right.
    destruct (C96_learned DivMaxV3 elements (fun l => l) (Q2Qc (1 # 2)) (Q2Qc (1 # 2)) leX leY (GParams 1 1 1 (Some 5) 0) 5 t 10 g
      ltac:(discriminate) P1 (fun l => Permutation_refl l) P2 P3 P4 P5 P8 P9 P10 P7 eq_refl ltac:(lia) ltac:(cbn; lia) ltac:(cbn; lia) Ht P6 H)
      as (Yp & rr & q & c & H1 & H2 & H3 & H4 & _ & _ & H7).
    destruct (H7 ltac:(discriminate) (proj1 (Z.nle_gt _ _) Hn)) as [ -> -> ]. exists Yp. split; [exact H1|]. split; [exact H2|exact H4].
  - exfalso. destruct (Ha eq_refl) as (c & _ & Hall). assert (csr_has leY 1 c) as Hx by (apply Hall; change (0 <= 1 < 2); lia).
    apply leY_has in Hx. rewrite !elem_of_cons, elem_of_nil in Hx. destruct Hx as [ [=] | [ [=] | [] ] ].
Qed.
