(** Proofs of the property theorems of Properties/P_Train.v. *)
From Coq Require Import QArith.Qcanon Qreals Reals Lra.
From Verif.Model Require Import PyBase PyReal Sparse Utils Graph Cliques Assign Rand RandR Evaluation Uncovered Cftp GreedyHead Repeat Rule GreedyBase PyState Greedy Complete.
From Verif.Spec Require Import SMatrix SGraph SRule SPredict SEval SGreedy SAssign SUncovered SComplete.
Open Scope Z_scope.
From Verif.Proofs Require Import PBase PSparse PRule PRand PGreedyBase T_Rule T_GreedyBase T_Eval T_Exp T_Greedy T_Complete.
Open Scope Z_scope.

Lemma Q2R_Qc (q : Q) : Q2R (this (Q2Qc q)) = Q2R q.
Proof. apply Qeq_eqR. cbn. apply Qred_correct. Qed.

Lemma Q2R_ratio a b : b <> 0%nat -> Q2R (this (ratio a b)) = (INR a / INR b)%R.
Proof.
  intros Hb. unfold ratio. destruct (decide (b = 0%nat)); [done|].
  assert (E : forall z, Q2R (this (Qc_of_Z z)) = IZR z).
  { intros z. unfold Qc_of_Z. cbn [this]. unfold Q2R. cbn. field. }
  unfold Qcdiv, Qcmult, Qcinv. rewrite Q2R_Qc, Q2R_mult, Q2R_Qc, Q2R_inv, !E, <- !INR_IZR_INZ; [done|].
  intros H. assert (Hc : Qc_of_Z (Z.of_nat b) = 0%Qc) by by apply Qc_is_canon.
  apply Qc_of_Z_inj_0 in Hc. lia.
Qed.

Definition cells (m : csr) : gset (Z * Z) := list_to_set (cell_list m).
Lemma cells_ok m : wf_cmat (csr_mat m) = true -> cells_of m (cells m).
Proof. intros Hm i j. unfold cells. rewrite elem_of_list_to_set. by apply elem_of_cell_list. Qed.

(** the label cells that a rule predicts although they are no labels *)
Definition wrong (t : list Z) (b : bound) : gset (Z * Z) :=
  list_to_set (concat (map (fun i => map (fun j => (i, j)) t) (elements (b_head_support b ∖ b_support b)))).
Lemma elem_of_wrong t b i j : (i, j) ∈ wrong t b <-> i ∈ b_head_support b ∖ b_support b /\ j ∈ t.
Proof.
  unfold wrong. rewrite elem_of_list_to_set, elem_of_list_In, in_concat. split.
  - intros (l & Hl & Hin). apply elem_of_list_In, elem_of_map in Hl as (i' & -> & Hi).
    apply elem_of_list_In, elem_of_map in Hin as (j' & [= -> ->] & Hj). apply elem_of_elements in Hi. done.
  - intros [Hi Hj]. eexists. split; [apply elem_of_list_In, elem_of_map; exists i; split; [reflexivity|by apply elem_of_elements]|].
    apply elem_of_list_In, elem_of_map. by exists j.
Qed.
Lemma size_list_to_set_le (l : list (Z * Z)) : (size (list_to_set l : gset (Z * Z)) <= length l)%nat.
Proof.
  induction l as [|x l IH]; [cbn; rewrite size_empty; lia|]. cbn [list_to_set length].
  change (size ({[x]} ∪ list_to_set l : gset (Z * Z)) <= S (length l))%nat.
  rewrite size_union_alt, size_singleton. pose proof (subseteq_size (list_to_set l ∖ {[x]} : gset (Z * Z)) (list_to_set l)) as H.
  feed pose proof H; [set_solver|]. lia.
Qed.
Lemma wrong_size t b : (size (wrong t b) <= length t * size (b_head_support b ∖ b_support b))%nat.
Proof.
  unfold wrong. etrans; [apply size_list_to_set_le|]. change (size (b_head_support b ∖ b_support b)) with (length (elements (b_head_support b ∖ b_support b))).
  induction (elements _) as [|i l IH]; [cbn; lia|]. cbn [map concat length]. rewrite app_length, map_length. lia.
Qed.

Lemma Qc_of_Z_0 : Qc_of_Z 0 = 0%Qc.
Proof. by apply Qc_is_canon. Qed.
Lemma int_l_sub (A B : gset (Z * Z)) : A ∩ B ⊆ A. Proof. set_solver. Qed.
Lemma int_l_eq (A B : gset (Z * Z)) : A ⊆ B -> A ∩ B = A. Proof. intros H. apply set_eq. set_solver. Qed.
Lemma sub_eq_size (A B : gset (Z * Z)) : A ⊆ B -> size A = size B -> B ⊆ A.
Proof.
  intros H E x Hx. destruct (decide (x ∈ A)) as [|Hn]; [done|]. exfalso.
  assert (A ⊂ B) as Hs by (split; [done|]; intros C; by apply Hn, C). apply subset_size in Hs. lia.
Qed.
Lemma size_split (A B : gset (Z * Z)) : (size (A ∖ B) + size (A ∩ B) = size A)%nat.
Proof.
  rewrite <- size_union by set_solver. f_equal. apply set_eq. intros c. rewrite elem_of_union, elem_of_difference, elem_of_intersection.
  destruct (decide (c ∈ B)); tauto.
Qed.
Lemma size_diff_le (A B : gset (Z * Z)) : (size A <= size (A ∖ B) + size B)%nat.
Proof. pose proof (size_split A B). pose proof (subseteq_size (A ∩ B) B). feed pose proof H0; [set_solver|]. lia. Qed.

Lemma C96_training_scores_proof : forall (P : Type) (ord : gset Z -> list Z) (e : est P) (X Y : csr) (rs : list (list Z * list Z * bound)),
  set_order ord -> wf_cmat (csr_mat X) = true -> wf_cmat (csr_mat Y) = true -> csr_rows X = csr_rows Y -> binary (csr_mat Y) ->
  2 <= csr_cols Y -> (exists i j, csr_has Y i j) ->
  e_train e = Some (X, Y) -> e_num_labels e = Some (csr_cols Y) -> e_rules e = map (fun r => Bound (snd r)) rs ->
  (forall h t b, (h, t, b) ∈ rs -> (forall c, c ∈ t -> 0 <= c < csr_cols Y) /\
     bind_dataset ord (new_rule h t) (tocsc X) (tocsc Y) = Ok b) ->
  exists Yp r p c, predict e X = Ok Yp /\ micro_recall Yp Y = Ok r /\ micro_precision Yp Y = Ok p /\ coverage_ratio ord e = Ok c /\
    (c <= Q2R (this r))%R /\
    (c = Q2R (this r) <-> forall h t b i j, (h, t, b) ∈ rs -> row_matches (tocsc X) h i -> j ∈ t -> csr_has Y i j ->
       exists h' t' b', (h', t', b') ∈ rs /\ covers (tocsc X) (tocsc Y) h' t' (i, j)) /\
    (p = 1%Qc <-> forall h t b, (h, t, b) ∈ rs -> b_support b = b_head_support b) /\
    (p = 1%Qc -> c = Q2R (this r)) /\
    (c = 1%R <-> forall i j, csr_has Y i j -> exists h t b, (h, t, b) ∈ rs /\ covers (tocsc X) (tocsc Y) h t (i, j)) /\
    (r = 1%Qc <-> forall i j, csr_has Y i j -> exists h t b, (h, t, b) ∈ rs /\ row_matches (tocsc X) h i /\ j ∈ t) /\
    ((1 - p) * Qc_of_Z (nnz (csr_mat Yp)) <=
       Qc_of_Z (foldr Z.add 0 (map (fun '(h, t, b) => zlen t * (b_head_support_size b - b_support_size b)) rs))%Z)%Qc.
Proof.
  intros P ord e X Y rs Hord HX HY Hrows HbY Hcols (i0 & j0 & Hij) Htr Hnl Her Hrs.
  assert (Hd : dataset (tocsc X) (tocsc Y)) by by apply dataset_tocsc.
  assert (Hrule : forall h t b, (h, t, b) ∈ rs -> b_rule b = new_rule h t).
  { intros h t b Hb. destruct (Hrs _ _ _ Hb) as [Hx Hbd].
    apply (bound_new ord) in Hbd; [|done|done|intros x Hxx; apply Hx in Hxx; lia]. by destruct Hbd. }
  assert (Hsupp : forall h t b, (h, t, b) ∈ rs -> 
    (forall i, i ∈ b_head_support b <-> row_matches (tocsc X) h i) /\
    (forall i, i ∈ b_support b <-> row_matches (tocsc X) h i /\ row_matches (tocsc Y) t i) /\
    b_head_support_size b = Z.of_nat (size (b_head_support b)) /\ b_support_size b = Z.of_nat (size (b_support b))).
  { intros h t b Hb. destruct (Hrs _ _ _ Hb) as [Hx Hbd].
    destruct (C01_support_exact_proof ord (tocsc X) (tocsc Y) h t b Hord Hd) as (S1 & _ & S3 & S4 & _ & S6 & _); [|done|].
    { intros c Hc. apply Hx in Hc. lia. }
    done. }
  assert (Hhas : forall i j, csc_has (tocsc Y) i j <-> csr_has Y i j) by (intros; by apply tocsc_has).
  (* the prediction *)
  destruct (C11_predict_exact_proof P e X (csr_cols Y) Hnl ltac:(lia) HX) as (Yp & EYp & HwP & HbP & HrP & HcP & HhP).
  { intros s j Hs Hj. rewrite Her in Hs. apply elem_of_map in Hs as ([[h t] b] & -> & Hb). cbn [snd sr_rule] in Hj.
    rewrite (Hrule _ _ _ Hb) in Hj. cbn in Hj. destruct (Hrs _ _ _ Hb) as [Hx _]. apply Hx. by rewrite py_sorted_perm in Hj. }
  assert (Hfire : forall i j, csr_has Yp i j <-> exists h t b, (h, t, b) ∈ rs /\ row_matches (tocsc X) h i /\ j ∈ t).
  { intros i j. rewrite HhP. unfold fires. rewrite Her. split.
    - intros (Hi & h & t & Hin & Hh & Hj). apply elem_of_map in Hin as (s & [= -> ->] & Hs).
      apply elem_of_map in Hs as ([[h t] b] & -> & Hb). cbn [snd sr_rule] in *. rewrite (Hrule _ _ _ Hb) in Hh, Hj. cbn in Hh, Hj.
      exists h, t, b. split; [done|]. split; [|by rewrite py_sorted_perm in Hj].
      split; [by rewrite tocsc_rows|]. intros c Hc. apply tocsc_has; [done|]. apply Hh. by rewrite py_sorted_perm.
    - intros (h & t & b & Hb & [Hi Hh] & Hj). rewrite tocsc_rows in Hi. split; [done|].
      exists (py_sorted h), (py_sorted t). split; [|split].
      + apply elem_of_map. exists (Bound b). cbn [sr_rule]. rewrite (Hrule _ _ _ Hb). split; [done|].
        apply elem_of_map. by exists (h, t, b).
      + intros f Hf. rewrite py_sorted_perm in Hf. apply tocsc_has; [done|]. by apply Hh.
      + by rewrite py_sorted_perm. }
  set (cP := cells Yp). set (cT := cells Y).
  assert (HP : cells_of Yp cP) by by apply cells_ok. assert (HT : cells_of Y cT) by by apply cells_ok.
  assert (Hr1 : 1 <= csr_rows Yp).
  { apply stored_range in Hij; [|done]. rewrite HrP, Hrows. unfold csr_rows. lia. }
  assert (Hsc : scored Yp Y cP cT) by (constructor; try done; [by rewrite HrP|by rewrite HcP]).
  destruct (values Yp Y cP cT Hsc) as (_ & _ & Vp & Vr & _).
  (* the coverage *)
  assert (HneT : cT <> ∅). { intros E. assert ((i0, j0) ∈ cT) as Hin by (by apply HT). rewrite E in Hin. by apply elem_of_empty in Hin. }
  set (cov := union_occs (map snd rs)).
  assert (Hcov : forall c, c ∈ cov <-> exists h t b, (h, t, b) ∈ rs /\ covers (tocsc X) (tocsc Y) h t c).
  { apply (bound_list_occs ord X Y rs); try done. intros h t b Hb. destruct (Hrs _ _ _ Hb) as [Hx Hbd]. split; [|done].
    intros c Hc. apply Hx in Hc. lia. }
  destruct (C10_coverage_exact_proof P ord e X Y rs cT cov) as (Ec & _ & _); try done.
  { intros h t b Hb. destruct (Hrs _ _ _ Hb) as [Hx Hbd]. split; [|done]. intros c Hc. apply Hx in Hc. lia. }
  { intros [i j]. apply HT. }
  assert (Hsub : cov ⊆ cP ∩ cT).
  { intros [i j] Hc. apply Hcov in Hc as (h & t & b & Hb & Hc). apply elem_of_intersection. split.
    - apply HP, Hfire. exists h, t, b. destruct Hc as (H1 & _ & H3). done.
    - apply HT. exact (covers_occ X Y h t (i, j) HY Hc). }
  assert (HnT : size cT <> 0%nat) by (intros E; apply size_empty_inv in E; apply HneT; by apply leibniz_equiv).
  assert (Hle : (size cov <= size (cP ∩ cT))%nat) by by apply subseteq_size.
  assert (HposT : (0 < INR (size cT))%R) by (apply lt_0_INR; lia).
  assert (Hiff : (INR (size cov) / INR (size cT) = INR (size (cP ∩ cT)) / INR (size cT))%R <-> cP ∩ cT ⊆ cov).
  { split.
    - intros E. assert (INR (size cov) = INR (size (cP ∩ cT))) as E'.
      { apply (Rmult_eq_reg_r (/ INR (size cT))%R); [exact E|]. apply Rinv_neq_0_compat. lra. }
      apply INR_eq in E'. by apply sub_eq_size.
    - intros H. assert (cov = cP ∩ cT) as -> by (apply leibniz_equiv; by apply (anti_symm (⊆))). done. }
  assert (Hprec : ratio (size (cP ∩ cT)) (size cP) = 1%Qc <-> cP ⊆ cT).
  { pose proof (subseteq_size _ _ (int_l_sub cP cT)) as Hle'. split.
    - intros E. apply ratio_eq_1 in E; [|done]. intros c Hc. apply (sub_eq_size _ _ (int_l_sub cP cT) E) in Hc. by apply elem_of_intersection in Hc as [_ ?].
    - intros H. rewrite (int_l_eq _ _ H). apply ratio_refl. }
  assert (Hc1 : (INR (size cov) / INR (size cT))%R = 1%R <-> cT ⊆ cov).
  { assert (cov ⊆ cT) as Hs by (intros c Hc; apply Hsub, elem_of_intersection in Hc as [_ ?]; done). split.
    - intros E. assert (INR (size cov) = INR (size cT)) as E'.
      { replace (INR (size cov)) with (INR (size cov) / INR (size cT) * INR (size cT))%R by (field; lra). rewrite E. ring. }
      apply INR_eq in E'. by apply sub_eq_size.
    - intros H. assert (cov = cT) as -> by (apply leibniz_equiv; by apply (anti_symm (⊆))). field. lra. }
  assert (Hr1' : ratio (size (cP ∩ cT)) (size cT) = 1%Qc <-> cT ⊆ cP).
  { rewrite (comm_L (∩) cP cT). pose proof (subseteq_size _ _ (int_l_sub cT cP)) as Hle'. split.
    - intros E. apply ratio_eq_1 in E; [|done]. intros c Hc. apply (sub_eq_size _ _ (int_l_sub cT cP) E) in Hc. by apply elem_of_intersection in Hc as [_ ?].
    - intros H. rewrite (int_l_eq _ _ H). apply ratio_refl. }
  exists Yp, (ratio (size (cP ∩ cT)) (size cT)), (ratio (size (cP ∩ cT)) (size cP)), (INR (size cov) / INR (size cT))%R.
  split; [done|]. split; [done|]. split; [done|]. split; [done|]. rewrite (Q2R_ratio _ _ HnT). split; [|split; [|split; [|split; [|split; [|split]]]]].
  - apply Rmult_le_compat_r; [left; by apply Rinv_0_lt_compat|]. by apply le_INR.
  - rewrite Hiff. split.
    + intros H h t b i j Hb Hh Hj Hy. apply Hcov. apply H. apply elem_of_intersection. split; [|by apply HT].
      apply HP, Hfire. by exists h, t, b.
    + intros H [i j] Hc. apply elem_of_intersection in Hc as [H1 H2]. apply HP, Hfire in H1 as (h & t & b & Hb & Hh & Hj).
      apply HT in H2. apply Hcov. exact (H h t b i j Hb Hh Hj H2).
  - rewrite Hprec. split.
    + intros H h t b Hb. destruct (Hsupp _ _ _ Hb) as (S1 & S2 & _). apply set_eq. intros i. rewrite S1, S2. split; [by intros []|].
      intros Hi. split; [done|]. split; [rewrite tocsc_rows, <- Hrows, <- tocsc_rows; apply Hi|]. intros c Hc.
      apply Hhas. apply HT. apply H. apply HP, Hfire. by exists h, t, b.
    + intros H [i j] Hc. apply HP, Hfire in Hc as (h & t & b & Hb & Hh & Hj). destruct (Hsupp _ _ _ Hb) as (S1 & S2 & _).
      apply S1 in Hh. rewrite <- (H _ _ _ Hb) in Hh. apply S2 in Hh as [_ [_ Hh]]. apply HT, Hhas. by apply Hh.
  - rewrite Hprec, Hiff. intros H [i j] Hc. apply elem_of_intersection in Hc as [H1 H2].
    apply HP, Hfire in H1 as (h & t & b & Hb & Hh & Hj). apply Hcov. exists h, t, b. split; [done|]. split; [done|].
    split; [|done]. split; [cbn [fst]; rewrite tocsc_rows, <- Hrows, <- tocsc_rows; apply Hh|]. intros c Hc. cbn [fst].
    apply Hhas, HT, H, HP, Hfire. by exists h, t, b.
  - rewrite Hc1. split; [intros H i j Hy; by apply Hcov, H, HT|]. intros H [i j] Hc. apply Hcov, H. by apply HT.
  - rewrite Hr1'. split; [intros H i j Hy; apply Hfire, HP, H; by apply HT|]. intros H [i j] Hc. apply HP, Hfire, H. by apply HT.
  - assert (Hnnz : nnz (csr_mat Yp) = Z.of_nat (size cP)).
    { change (nnz (csr_mat Yp)) with (count_all Yp). apply count_all_size. by apply simple_binary. }
    assert (Hwrong : Z.of_nat (size (cP ∖ cT)) <= foldr Z.add 0 (map (fun '(h, t, b) => zlen t * (b_head_support_size b - b_support_size b)) rs)).
    { assert (Hin : forall c, c ∈ cP ∖ cT -> exists h t b, (h, t, b) ∈ rs /\ c ∈ wrong t b).
      { intros [i j] Hc. apply elem_of_difference in Hc as [H1 H2]. apply HP, Hfire in H1 as (h & t & b & Hb & Hh & Hj).
        exists h, t, b. split; [done|]. apply elem_of_wrong. split; [|done]. destruct (Hsupp _ _ _ Hb) as (S1 & S2 & _).
        apply elem_of_difference. split; [by apply S1|]. intros C. apply S2 in C as [_ [_ C]]. apply H2, HT, Hhas. by apply C. }
      revert Hin. generalize (cP ∖ cT). clear -Hsupp. induction rs as [|[[h t] b] l IH]; intros W Hin.
      - assert (W = ∅) as ->; [|by rewrite size_empty]. apply set_eq. intros c. split; [|set_solver]. intros Hc.
        destruct (Hin c Hc) as (h & t & b & Hb & _). by apply elem_of_nil in Hb.
      - cbn [map foldr]. specialize (IH (fun h t b Hb => Hsupp h t b (elem_of_list_further _ _ _ Hb)) (W ∖ wrong t b)).
        assert (Z.of_nat (size (W ∖ wrong t b)) <= foldr Z.add 0 (map (fun '(h, t, b) => zlen t * (b_head_support_size b - b_support_size b)) l)) as H1.
        { apply IH. intros c Hc. apply elem_of_difference in Hc as [Hc Hn]. destruct (Hin c Hc) as (h' & t' & b' & Hb & Hw).
          apply elem_of_cons in Hb as [[= -> -> ->]|Hb]; [done|]. by exists h', t', b'. }
        destruct (Hsupp h t b ltac:(left)) as (S1 & S2 & S3 & S4).
        pose proof (wrong_size t b) as H2.
        assert (size W <= size (W ∖ wrong t b) + size (wrong t b))%nat as H3.
        { apply size_diff_le. }
        assert (b_support b ⊆ b_head_support b) as Hs by (intros i Hi; apply S1; by apply S2).
        pose proof (size_difference _ _ Hs) as H4. pose proof (subseteq_size _ _ Hs) as H5.
        rewrite S3, S4. unfold zlen at 1. rewrite H4 in H2. nia. }
    assert (Hsz : (size (cP ∖ cT) + size (cP ∩ cT) = size cP)%nat).
    { apply size_split. }
    rewrite Hnnz. transitivity (Qc_of_Z (Z.of_nat (size (cP ∖ cT)))).
    + unfold ratio. destruct (decide (size cP = 0%nat)) as [E|E].
      * rewrite E. assert (size (cP ∖ cT) = 0%nat) as -> by lia.
        change (Z.of_nat 0) with 0. rewrite Qc_of_Z_0. replace ((1 - 1) * 0)%Qc with 0%Qc by ring. apply Qcle_refl.
      * pose proof (Qc_pos_ne _ (Qc_of_nat_pos _ E)) as Hne. rewrite <- Hsz at 2.
        rewrite Nat2Z.inj_add, Qc_of_Z_plus. rewrite <- Hsz, Nat2Z.inj_add, Qc_of_Z_plus in Hne. rewrite <- Hsz, Nat2Z.inj_add, Qc_of_Z_plus.
        set (u := Qc_of_Z (Z.of_nat (size (cP ∖ cT)))) in *. set (v := Qc_of_Z (Z.of_nat (size (cP ∩ cT)))) in *.
        replace ((1 - v / (u + v)) * (u + v))%Qc with u; [apply Qcle_refl|]. field. exact Hne.
    + rewrite <- Z2Qc_inj_le. exact Hwrong.
Qed.


Lemma pairs_of (X Y : csr) (ord : gset Z -> list Z) (bs : list bound) :
  (forall b, b ∈ bs -> exists h t, bind_dataset ord (new_rule h t) (tocsc X) (tocsc Y) = Ok b /\ forall c, c ∈ t -> 0 <= c < csr_cols Y) ->
  exists rs : list (list Z * list Z * bound), map snd rs = bs /\
    forall h t b, (h, t, b) ∈ rs -> (forall c, c ∈ t -> 0 <= c < csr_cols Y) /\ bind_dataset ord (new_rule h t) (tocsc X) (tocsc Y) = Ok b.
Proof.
  induction bs as [|b bs IH]; intros H.
  - exists []. split; [done|]. intros h t b Hb. by apply elem_of_nil in Hb.
  - destruct IH as (rs & E & Hrs); [intros b' Hb'; apply H; by right|]. destruct (H b ltac:(left)) as (h & t & H1 & H2).
    exists ((h, t, b) :: rs). split; [cbn; by rewrite E|]. intros h' t' b' Hb. apply elem_of_cons in Hb as [[= -> -> ->]|Hb]; [done|]. by apply Hrs.
Qed.

Lemma fit_rules_any {W} (S : samplers W) cls ord X Y fuel p w g : set_order ord -> iter_ok S ->
  fit S cls ord fuel X Y (new_classifier p w) = (Ok tt, g) ->
  e_num_labels (g_est g) = Some (csr_cols Y) /\ e_train (g_est g) = Some (X, Y) /\
  exists bs, g_rules g = map Bound bs /\ forall b, b ∈ bs -> generated S ord p X Y b.
Proof.
  intros Ho Hi H. assert (cls = DivMax \/ cls <> DivMax) as [-> | Hc] by (by destruct cls; [left|right..]); [|by apply (fit_rules S cls ord X Y fuel p w)].
  destruct (C46_refit_divmax_proof W S ord fuel X Y (new_classifier p w) g Ho Hi H) as (new & picks & R1 & R2 & _ & R4 & _).
  change (fit S DivMax ord fuel X Y (new_classifier p w)) with (fit_divmax S ord fuel X Y (new_classifier p w)) in H.
  unfold fit_divmax, sbind in H. destruct (fit_1st_round S ord fuel X Y (new_classifier p w)) as [[rs1|e] ga] eqn:Ea; [|discriminate].
  destruct (fit_2nd_round S ord ga) as [[rs2|e] gb] eqn:Eb; [|discriminate].
  destruct (second_round_out _ _ _ _ _ Eb) as (_ & _ & _ & _ & B5 & _ & B7 & _).
  assert (NB : e_num_labels (g_est gb) = e_num_labels (g_est ga)).
  { unfold fit_2nd_round, sbind, sget, smod in Eb. destruct (g_cands ga) as [[|c cands]|]; [discriminate| |discriminate].
    destruct (second_loop S (c :: cands) (length (g_rules ga)) (with_rules [] (with_round1 (g_rules ga) ga))) as [[[]|e] g1] eqn:E1; [|discriminate].
    destruct (second_loop_out _ _ _ _ _ _ E1) as (pk & Eg & _). unfold slift, sret in Eb.
    destruct (log_coverage ord (g_est g1)); [|discriminate]. destruct (objective_of_selected DivMax g1); [|discriminate].
    injection Eb as _ <-. rewrite Eg. reflexivity. }
  unfold fit_1st_round, sbind in Ea.
  destruct (fit_start S DivMax X Y (new_classifier p w)) as [[[]|e] g0] eqn:E0; [|discriminate].
  destruct (fit_loop S DivMax ord X Y fuel g0) as [[[]|e] g1] eqn:E1; [|discriminate].
  destruct (fit_start_out _ _ _ _ _ _ _ E0) as (F1 & F2 & _ & F3 & _).
  destruct (fit_loop_extends _ _ _ _ _ _ _ _ _ E1) as (L1 & L2 & _).
  destruct (fit_loop_rules _ _ _ _ _ _ _ _ _ Hi E1) as (L3 & bs & L4 & L5).
  unfold sget, slift, smod, sret in Ea. destruct (log_coverage ord (g_est g1)); [|discriminate]. destruct (objective_of_selected DivMax g1); [|discriminate].
  injection Ea as <- <-.
  assert (N0 : e_num_labels (g_est g0) = Some (csr_cols Y)).
  { unfold fit_start, sbind, smod, on_world in E0. cbn [with_est g_world g_est] in E0.
    destruct (tail_fit S Y _) as [[[]|e] w1]; [|discriminate].
    destruct (keeps_candidates DivMax); injection E0 as <-; reflexivity. }
  unfold sget in H. destruct (g_obj1 gb) as [o1|]; [|discriminate]. destruct (g_obj2 gb) as [o2|]; [|discriminate].
  unfold smod in H. injection H as <-. split; [|split].
  - cbn. rewrite NB. cbn. by rewrite L3.
  - cbn. rewrite B7. cbn. by rewrite L2, F3.
  - destruct R2 as [R2|R2].
    + exists bs. split; [|rewrite F2 in L5; exact L5]. rewrite R2. cbn in R1. rewrite B5 in R1. injection R1 as R1.
      change (g_rules (with_obj1 _ g1)) with (g_rules g1) in R1. rewrite L4, F1 in R1. cbn in R1. cbn. symmetry. exact R1.
    + exists picks. split; [exact R2|exact R4].
Qed.

Lemma C96_fitted_proof : forall (W : Type) (S : samplers W) (cls : greedy_class) (ord : gset Z -> list Z) (fuel : nat) (X Y : csr)
    (p : gparams) (w : W) (g : gs W),
  set_order ord -> iter_ok S -> tails_valid S (csr_cols Y) ->
  wf_cmat (csr_mat X) = true -> wf_cmat (csr_mat Y) = true -> csr_rows X = csr_rows Y -> binary (csr_mat Y) ->
  2 <= csr_cols Y -> (exists i j, csr_has Y i j) ->
  fit S cls ord fuel X Y (new_classifier p w) = (Ok tt, g) ->
  exists Yp r q c, predict (g_est g) X = Ok Yp /\ micro_recall Yp Y = Ok r /\ micro_precision Yp Y = Ok q /\ coverage_ratio ord (g_est g) = Ok c /\
    (c <= Q2R (this r))%R /\ (q = 1%Qc -> c = Q2R (this r)) /\
    (q = 1%Qc <-> forall b, Bound b ∈ g_rules g -> b_support b = b_head_support b).
Proof.
  intros W S cls ord fuel X Y p w g Hord Hi Htv HX HY Hrows HbY Hcols Hne Hf.
  destruct (fit_rules_any S cls ord X Y fuel p w g Hord Hi Hf) as (E1 & E2 & bs & E3 & Hg).
  destruct (pairs_of X Y ord bs) as (rs & Ers & Hrs).
  { intros b Hb. destruct (generated_tail S ord p X Y b Hord HY Htv (Hg b Hb)) as (h & t & Hb' & _ & Ht). by exists h, t. }
  destruct (C96_training_scores_proof _ ord (g_est g) X Y rs) as (Yp & r & q & c & H1 & H2 & H3 & H4 & H5 & _ & H7 & H8 & _); try done.
  { unfold g_rules in E3. rewrite E3, <- Ers, map_map. done. }
  exists Yp, r, q, c. split_and!; try done. rewrite H7, E3, <- Ers. split.
  - intros H b Hb. apply elem_of_map in Hb as (b' & [= ->] & Hb). apply elem_of_map in Hb as ([[h t] b''] & -> & Hb). cbn. by apply (H h t).
  - intros H h t b Hb. apply H. apply elem_of_map. exists b. split; [done|]. apply elem_of_map. by exists (h, t, b).
Qed.


Lemma C96_learned_proof : forall (cls : greedy_class) (ord : gset Z -> list Z) (rord : list bound -> list bound) (af al : Qc)
    (X Y : csr) (p : gparams) (k : Z) (t : nat -> R) (fuel : nat) (g : gs world),
  cls <> Submod -> set_order ord -> (forall l, rord l ≡ₚ l) ->
  wf_cmat (csr_mat X) = true -> wf_cmat (csr_mat Y) = true -> binary (csr_mat X) -> binary (csr_mat Y) ->
  csr_rows X = csr_rows Y -> 1 <= csr_rows Y -> 2 <= csr_cols Y -> (exists i j, csr_has Y i j) ->
  p_n_max p = Some k -> 0 <= k -> 1 <= p_n_tails p -> 1 <= p_n_heads p -> uniform_tape t -> (Z.to_nat k < fuel)%nat ->
  cftp_fit cls ord rord af al fuel X Y (new_classifier p (new_world t)) = (Ok tt, g) ->
  exists Yp r q c, predict (g_est g) X = Ok Yp /\ micro_recall Yp Y = Ok r /\ micro_precision Yp Y = Ok q /\ coverage_ratio ord (g_est g) = Ok c /\
    (c <= Q2R (this r))%R /\ (q = 1%Qc -> c = Q2R (this r)) /\
    ((cls = DivMax -> g_round1 g = Some (g_rules g)) -> zlen (g_rules g) < k -> c = 1%R /\ r = 1%Qc).
Proof.
  intros cls ord rord af al X Y p k t fuel g Hcls Ho Hro HwX HwY HbX HbY Hrows Hpos Hcols Hne Ek Hk Hnt Hnh Ht Hf H.
  destruct (fit_rules_any (cftp_samplers ord rord af al) cls ord X Y fuel p (new_world t) g) as (N1 & N2 & _).
  { exact Ho. }
  { intros w l. exact (Hro l). }
  { exact H. }
  destruct (space_itemsets ord Y al Ho HwY HbY) as (gl & ls & lr & L1 & L2 & L3 & L4 & L5 & L6 & L7 & L8 & L9 & L10).
  destruct (space_itemsets ord X af Ho HwX HbX) as (gf & fs & fr & F1 & F2 & F3 & _ & _ & _ & F7 & _ & F9 & F10).
  assert (exists bs, g_rules g = map Bound bs /\ (forall b, b ∈ bs -> good ord af al X Y b) /\
    ((cls = DivMax -> g_round1 g = Some (g_rules g)) -> zlen bs < k -> forall i c, csr_has Y i c -> exists b, b ∈ bs /\ i ∈ b_support b /\ c ∈ r_tail (b_rule b)))
    as (bs & B1 & B2 & Hall).
  { assert (cls = DivMax \/ (cls = DivMaxV2 \/ cls = DivMaxV3)) as [-> | Hcls'] by (destruct cls; [left; reflexivity|right; left; reflexivity|right; right; reflexivity|done]).
    - destruct (fit_divmax_step ord rord af al X Y) with (lspace := ls) (lrows := lr) (fspace := fs) (frows := fr) (gl := gl) (gf := gf) (p := p) (k := k) (t := t) (fuel := fuel) (r := Ok tt : result unit) (g := g)
        as (bs & B1 & B2 & B3 & B4); try done.
      destruct B4 as [[_ (bs1 & C1 & C2 & _ & C4 & C5)]|[?|[[? _]|[? _]]]]; [|done..]. exists bs. split; [exact B1|]. split; [exact B2|].
      intros Hr Hlen. specialize (Hr eq_refl). rewrite C1, B1 in Hr. injection Hr as Hr.
      assert (bs1 = bs) as -> by (clear -Hr; revert bs Hr; induction bs1 as [|x l IH]; intros [|y l'] Hr; [done|done|done|]; injection Hr as -> Hr; f_equal; by apply IH).
      apply C5. exact Hlen.
    - destruct (fit_v2_step ord rord af al X Y) with (lspace := ls) (lrows := lr) (fspace := fs) (frows := fr) (gl := gl) (gf := gf) (p := p) (k := k) (t := t) (fuel := fuel) (cls := cls) (r := Ok tt : result unit) (g := g)
        as (bs & B1 & B2 & B2' & B3 & B4); try done.
      destruct B4 as [[_ Hall]|[?|[? _]]]; [|done..]. exists bs. split; [exact B1|]. split; [exact B2|]. intros _. exact Hall. }
  destruct (pairs_of X Y ord bs) as (rs & Ers & Hrs).
  { intros b Hb. destruct (B2 b Hb) as (h & t' & (_ & (l & ws & _ & _ & _ & Hr & _) & _) & Hb'). exists (ord h), (ord t'). split; [done|].
    intros c Hc. apply set_order_elem in Hc; [|done]. by apply Hr. }
  destruct (C96_training_scores_proof _ ord (g_est g) X Y rs) as (Yp & r & q & c & H1 & H2 & H3 & H4 & H5 & _ & _ & H8 & H9 & H10 & _); try done.
  { unfold g_rules in B1. rewrite B1, <- Ers, map_map. done. }
  exists Yp, r, q, c. split; [exact H1|]. split; [exact H2|]. split; [exact H3|]. split; [exact H4|]. split; [exact H5|]. split; [exact H8|].
  intros Hr1 Hlen. specialize (Hall Hr1). rewrite B1 in Hlen. unfold zlen in Hlen. rewrite map_length in Hlen.
  assert (Hcv : forall i j, csr_has Y i j -> exists h t b, (h, t, b) ∈ rs /\ covers (tocsc X) (tocsc Y) h t (i, j)).
  { intros i j Hy. destruct (Hall Hlen i j Hy) as (b & Hb & Hi & Hj). rewrite <- Ers in Hb. apply elem_of_map in Hb as ([[h t'] b'] & -> & Hb).
    cbn [snd] in *. exists h, t', b'. split; [done|]. destruct (Hrs _ _ _ Hb) as [Hr Hbd].
    assert (Hd : dataset (tocsc X) (tocsc Y)) by by apply dataset_tocsc.
    apply (bound_new ord) in Hbd; [|done|done|intros c' Hc'; apply Hr in Hc'; lia].
    apply (bt_supp _ _ _ _ Hbd) in Hi as [Hh Htl]. rewrite (bt_rule _ _ _ _ Hbd) in Hj. cbn [new_rule r_head r_tail] in *.
    split; [|split]; cbn [fst snd].
    - split; [apply Hh|]. intros c' Hc'. apply Hh. by rewrite py_sorted_perm.
    - split; [apply Htl|]. intros c' Hc'. apply Htl. by rewrite py_sorted_perm.
    - by rewrite py_sorted_perm in Hj. }
  split; [by apply H9|]. apply H10. intros i j Hy. destruct (Hcv i j Hy) as (h & t' & b & Hb & Hc1 & Hc2 & Hc3). by exists h, t', b.
Qed.
