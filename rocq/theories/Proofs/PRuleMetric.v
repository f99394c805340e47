(** Lemmas on corset/rule.py: distance, rates, KL, marginal coverage. *)
From Coq Require Import Reals Lra.
From Verif.Model Require Import PyBase PyReal Sparse Utils Rule.
From Verif.Spec Require Import SMatrix SRule.
From Verif.Proofs Require Import PBase PSparse PUtils PRule PSets.
Open Scope Z_scope.

Lemma elem_of_label_occs b i j :
  (i, j) ∈ label_occs b <-> i ∈ b_support b /\ j ∈ r_tail (b_rule b).
Proof.
  unfold label_occs. rewrite elem_of_list_to_set, elem_of_product, elem_of_elements. done.
Qed.

Lemma label_occs_covers X Y r b c :
  bound_to X Y r b -> (c ∈ label_occs b <-> covers X Y (r_head r) (r_tail r) c).
Proof.
  intros Hb. destruct c as [i j]. rewrite elem_of_label_occs.
  rewrite (bt_supp _ _ _ _ Hb), (bt_rule _ _ _ _ Hb). unfold covers. simpl. tauto.
Qed.

Definition sized (b : bound) : Prop := b_support_size b = Z.of_nat (size (b_support b)).

Lemma size_label_occs b : NoDup (r_tail (b_rule b)) ->
  size (label_occs b) = (size (b_support b) * length (r_tail (b_rule b)))%nat.
Proof.
  intros Hnd. rewrite (size_product (b_support b) (py_set (r_tail (b_rule b)))).
  - unfold py_set. rewrite (size_list_to_set (r_tail (b_rule b))) by done. done.
  - intros i j. rewrite elem_of_label_occs, elem_of_py_set. done.
Qed.

Lemma distance_jaccard a b :
  sized a -> sized b -> NoDup (r_tail (b_rule a)) -> NoDup (r_tail (b_rule b)) ->
  distance a b =
    if bool_decide (label_occs a ∪ label_occs b = ∅) then Err ZeroDivisionError
    else Ok (jaccard (label_occs a) (label_occs b)).
Proof.
  intros Ha Hb Hta Htb. unfold distance. rewrite Ha, Hb. unfold set_len.
  rewrite <- Nat2Z.inj_mul.
  rewrite <- (size_product _ _ (label_occs a ∩ label_occs b)).
  2: { intros i j. rewrite !elem_of_intersection, !elem_of_label_occs, !elem_of_py_set. tauto. }
  unfold zlen. rewrite <- !Nat2Z.inj_mul, <- !size_label_occs by done.
  pose proof (size_union_inter (label_occs a) (label_occs b)) as E.
  replace (Z.of_nat (size (label_occs a)) + Z.of_nat (size (label_occs b)) -
           Z.of_nat (size (label_occs a ∩ label_occs b)))
    with (Z.of_nat (size (label_occs a ∪ label_occs b))) by lia.
  unfold py_div. case_bool_decide as Hu.
  - rewrite Hu, size_empty. done.
  - destruct (Z.eqb_spec (Z.of_nat (size (label_occs a ∪ label_occs b))) 0) as [E0|E0].
    + exfalso. apply Hu, size_0_iff. lia.
    + simpl. unfold jaccard. rewrite !INR_IZR_INZ. done.
Qed.

(** ** Marginal coverage *)

Lemma fold_difference (refs : list bound) (s : gset (Z * Z)) c :
  c ∈ fold_left (fun cur r => cur ∖ label_occs r) refs s <->
  c ∈ s /\ forall r, r ∈ refs -> c ∉ label_occs r.
Proof.
  revert s. induction refs as [|r refs IH]; intros s; simpl.
  - split; [|tauto]. intros H. split; [done|]. intros r Hr. inversion Hr.
  - rewrite IH, elem_of_difference. split.
    + intros [[H1 H2] H3]. split; [done|]. intros r' Hr'.
      apply elem_of_cons in Hr' as [->|?]; auto.
    + intros [H1 H2]. split; [split; [done|]|]; [apply H2; set_solver|].
      intros r' Hr'. apply H2. set_solver.
Qed.

Definition new_cells (b : bound) (refs : list bound) : gset (Z * Z) :=
  fold_left (fun cur r => cur ∖ label_occs r) refs (label_occs b).

Lemma elem_of_new_cells b refs c :
  c ∈ new_cells b refs <-> c ∈ label_occs b /\ forall r, r ∈ refs -> c ∉ label_occs r.
Proof. apply fold_difference. Qed.

Lemma marginal_coverage_size b refs :
  marginal_coverage b refs = Ok (Z.of_nat (size (new_cells b refs))).
Proof.
  unfold marginal_coverage. fold (new_cells b refs).
  destruct (Z.ltb_spec (Z.of_nat (size (new_cells b refs))) 0); [lia|done].
Qed.

(** ** Rates *)

Lemma IZR_div_range a b : 0 <= a <= b -> 0 < b -> (0 <= IZR a / IZR b <= 1)%R.
Proof.
  intros Ha Hb. assert (0 < IZR b)%R by (apply IZR_lt; lia).
  assert (0 <= IZR a)%R by (apply IZR_le; lia). assert (IZR a <= IZR b)%R by (apply IZR_le; lia).
  split.
  - apply Rmult_le_pos; [done|]. left. by apply Rinv_0_lt_compat.
  - apply (Rmult_le_reg_r (IZR b)); [done|]. unfold Rdiv.
    rewrite Rmult_assoc, Rinv_l by lra. lra.
Qed.

Record counts_ok (b : bound) : Prop := {
  co_hpos : 0 < b_head_support_size b;
  co_npos : 0 < b_N b;
  co_s_h : 0 <= b_support_size b <= b_head_support_size b;
  co_s_t : b_support_size b <= b_tail_support_size b;
  co_t_N : b_tail_support_size b <= b_N b;
  co_np : b_num_positives b = b_tail_support_size b;
  (* every row outside the tail support that is outside ... *)
  co_full : b_tail_support_size b = b_N b -> b_support_size b = b_head_support_size b
}.

Lemma rows_size (s : gset Z) n : 0 <= n -> (forall i, i ∈ s -> 0 <= i < n) -> Z.of_nat (size s) <= n.
Proof.
  intros Hn H. assert (size s <= size (py_set (py_range n)))%nat as E.
  { apply subseteq_size. intros i Hi. rewrite elem_of_py_set, elem_of_py_range. auto. }
  unfold py_set in E. rewrite (size_list_to_set (py_range n)) in E by apply NoDup_py_range.
  rewrite length_py_range in E. lia.
Qed.

Lemma bound_to_counts X Y r b :
  dataset X Y -> bound_to X Y r b -> (exists i, row_matches X (r_head r) i) -> counts_ok b.
Proof.
  intros (HX & HY & Hrows) Hb [i0 Hi0]. destruct Hb.
  apply wf_cmat_facts in HX as FX. apply wf_cmat_facts in HY as FY.
  assert (0 <= csc_rows X) as HN by apply FX.
  assert (0 < size (b_head_support b))%nat as Hp.
  { apply bt_head in Hi0. destruct (size (b_head_support b)) eqn:E; [|lia].
    apply size_0_iff in E. set_solver. }
  assert (0 < csc_rows X) by (destruct Hi0; lia).
  assert (size (b_support b) <= size (b_head_support b))%nat.
  { apply subseteq_size. intros i. rewrite bt_supp, bt_head. tauto. }
  assert (size (b_support b) <= size (b_tail_support b))%nat.
  { apply subseteq_size. intros i. rewrite bt_supp, bt_tail. tauto. }
  assert (Z.of_nat (size (b_tail_support b)) <= csc_rows X).
  { apply rows_size; [done|]. intros i. rewrite bt_tail. intros [? _]. lia. }
  constructor; try lia.
  intros E. rewrite bt_ssize, bt_hsize. f_equal. f_equal.
  assert (b_tail_support b = py_set (py_range (csc_rows X))) as Hall.
  { apply subset_same_size.
    - intros i. rewrite bt_tail, elem_of_py_set, elem_of_py_range. intros [? _]. lia.
    - unfold py_set. rewrite (size_list_to_set (py_range (csc_rows X))) by apply NoDup_py_range.
      rewrite length_py_range. lia. }
  apply set_eq. intros i. rewrite bt_supp, bt_head. split; [tauto|]. intros Hi.
  split; [done|]. apply bt_tail. rewrite Hall, elem_of_py_set, elem_of_py_range. by destruct Hi.
Qed.

(** ** KL *)

Definition rate (a b : Z) : R := (IZR a / IZR b)%R.

Lemma ln_le_sub1 x : (0 < x)%R -> (ln x <= x - 1)%R.
Proof.
  intros Hx. destruct (Req_dec x 1) as [->|Hne].
  - rewrite ln_1. lra.
  - assert (ln x <> 0)%R as Hln.
    { intros E. apply Hne. rewrite <- (exp_ln x), E, exp_0 by done. done. }
    pose proof (exp_ineq1 (ln x) Hln) as He.
    rewrite exp_ln in He by done. lra.
Qed.

Lemma ln_lt_sub1 x : (0 < x)%R -> x <> 1%R -> (ln x < x - 1)%R.
Proof.
  intros Hx Hne. assert (ln x <> 0)%R as Hln.
  { intros E. apply Hne. rewrite <- (exp_ln x), E, exp_0 by done. done. }
  pose proof (exp_ineq1 (ln x) Hln) as He.
  rewrite exp_ln in He by done. lra.
Qed.

(** x ln(x/y) >= x - y, strictly when x <> y *)
Lemma xlnx_over_ge x y : (0 <= x)%R -> (0 <= y)%R -> (x > 0 -> 0 < y)%R -> (x - y <= xlnx_over x y)%R.
Proof.
  intros Hx Hy Hxy. unfold xlnx_over. destruct (Rlt_dec 0 x) as [Hp|Hn]; [|lra].
  specialize (Hxy Hp). pose proof (ln_le_sub1 (y / x)) as H.
  assert (0 < y / x)%R as Hq by (apply Rdiv_lt_0_compat; lra). specialize (H Hq).
  replace (ln (x / y)) with (- ln (y / x))%R.
  2: { rewrite <- ln_Rinv by done. f_equal. field. lra. }
  assert (x * ln (y / x) <= x * (y / x - 1))%R by (apply Rmult_le_compat_l; lra).
  replace (x * (y / x - 1))%R with (y - x)%R in * by (field; lra). lra.
Qed.

Lemma xlnx_over_gt x y : (0 < x)%R -> (0 < y)%R -> x <> y -> (x - y < xlnx_over x y)%R.
Proof.
  intros Hx Hy Hne. unfold xlnx_over. destruct (Rlt_dec 0 x) as [Hp|Hn]; [|lra].
  assert (0 < y / x)%R as Hq by (apply Rdiv_lt_0_compat; lra).
  assert (y / x <> 1)%R as Hq1.
  { intros E. apply Hne. apply (f_equal (fun t => t * x)%R) in E.
    unfold Rdiv in E. rewrite Rmult_assoc, Rinv_l in E by lra. lra. }
  pose proof (ln_lt_sub1 _ Hq Hq1) as H.
  replace (ln (x / y)) with (- ln (y / x))%R.
  2: { rewrite <- ln_Rinv by done. f_equal. field. lra. }
  assert (x * ln (y / x) < x * (y / x - 1))%R by (apply Rmult_lt_compat_l; lra).
  replace (x * (y / x - 1))%R with (y - x)%R in * by (field; lra). lra.
Qed.

(** admissible (p, q): q = 1 forces p = 1 and q = 0 forces p = 0 *)
Definition dominated (p q : R) : Prop :=
  (0 <= p <= 1 /\ 0 <= q <= 1 /\ (0 < p -> 0 < q) /\ (0 < 1 - p -> 0 < 1 - q))%R.

Lemma bernoulli_KL_nonneg p q : dominated p q -> (0 <= bernoulli_KL p q)%R.
Proof.
  intros (Hp & Hq & H1 & H2). unfold bernoulli_KL.
  assert (p - q <= xlnx_over p q)%R by (apply xlnx_over_ge; lra).
  assert ((1 - p) - (1 - q) <= xlnx_over (1 - p) (1 - q))%R by (apply xlnx_over_ge; lra).
  lra.
Qed.

Lemma bernoulli_KL_pos p q : dominated p q -> p <> q -> (0 < bernoulli_KL p q)%R.
Proof.
  intros (Hp & Hq & H1 & H2) Hne. unfold bernoulli_KL.
  assert (p - q <= xlnx_over p q)%R by (apply xlnx_over_ge; lra).
  assert ((1 - p) - (1 - q) <= xlnx_over (1 - p) (1 - q))%R by (apply xlnx_over_ge; lra).
  destruct (Rlt_dec 0 p) as [Hpp|Hpp].
  - assert (p - q < xlnx_over p q)%R by (apply xlnx_over_gt; [done|auto|done]). lra.
  - assert ((1 - p) - (1 - q) < xlnx_over (1 - p) (1 - q))%R.
    { apply xlnx_over_gt; [lra|apply H2; lra|lra]. }
    lra.
Qed.

Lemma bernoulli_KL_refl p : (0 <= p <= 1)%R -> bernoulli_KL p p = 0%R.
Proof.
  intros Hp. unfold bernoulli_KL, xlnx_over.
  assert (forall x, 0 < x -> x * ln (x / x) = 0)%R as E.
  { intros x Hx. replace (x / x)%R with 1%R by (field; lra). rewrite ln_1. lra. }
  destruct (Rlt_dec 0 p); destruct (Rlt_dec 0 (1 - p)); rewrite ?E by lra; lra.
Qed.

(** KL(p2||q) - KL(p1||q) = KL(p2||p1) + (p2-p1) (ln(p1/q) - ln((1-p1)/(1-q))) *)
Lemma bernoulli_KL_mono p1 p2 q :
  (0 < q)%R -> (q <= p1)%R -> (p1 < p2)%R -> (p2 <= 1)%R ->
  (bernoulli_KL p1 q < bernoulli_KL p2 q)%R.
Proof.
  intros Hq Hqp Hp Hp2.
  assert (Hpos : (0 < bernoulli_KL p2 p1)%R).
  { apply bernoulli_KL_pos; [|lra]. unfold dominated. lra. }
  assert (L1 : (0 <= ln (p1 / q))%R).
  { rewrite <- ln_1. destruct (Req_dec p1 q) as [->|Hne].
    - right. f_equal. field. lra.
    - left. apply ln_increasing; [lra|]. apply (Rmult_lt_reg_r q); [done|].
      unfold Rdiv. rewrite Rmult_assoc, Rinv_l by lra. lra. }
  assert (L2 : (ln ((1 - p1) / (1 - q)) <= 0)%R).
  { rewrite <- ln_1. destruct (Req_dec p1 q) as [->|Hne].
    - right. f_equal. field. lra.
    - left. apply ln_increasing.
      + apply Rdiv_lt_0_compat; lra.
      + apply (Rmult_lt_reg_r (1 - q)); [lra|].
        unfold Rdiv. rewrite Rmult_assoc, Rinv_l by lra. lra. }
  assert (E1 : xlnx_over p2 q = (xlnx_over p2 p1 + p2 * ln (p1 / q))%R).
  { unfold xlnx_over. destruct (Rlt_dec 0 p2); [|lra].
    rewrite <- Rmult_plus_distr_l, <- ln_mult by (apply Rdiv_lt_0_compat; lra).
    f_equal. f_equal. field. lra. }
  assert (E2 : xlnx_over (1 - p2) (1 - q) =
               (xlnx_over (1 - p2) (1 - p1) + (1 - p2) * ln ((1 - p1) / (1 - q)))%R).
  { unfold xlnx_over. destruct (Rlt_dec 0 (1 - p2)).
    - rewrite <- Rmult_plus_distr_l, <- ln_mult by (apply Rdiv_lt_0_compat; lra).
      f_equal. f_equal. field. lra.
    - assert (p2 = 1)%R as -> by lra. lra. }
  assert (E3 : xlnx_over p1 q = (p1 * ln (p1 / q))%R).
  { unfold xlnx_over. destruct (Rlt_dec 0 p1); [done|lra]. }
  assert (E4 : xlnx_over (1 - p1) (1 - q) = ((1 - p1) * ln ((1 - p1) / (1 - q)))%R).
  { unfold xlnx_over. destruct (Rlt_dec 0 (1 - p1)); [done|lra]. }
  unfold bernoulli_KL in *. rewrite E1, E2, E3, E4.
  assert (0 <= (p2 - p1) * ln (p1 / q))%R by (apply Rmult_le_pos; lra).
  assert (0 <= (p2 - p1) * - ln ((1 - p1) / (1 - q)))%R by (apply Rmult_le_pos; lra).
  nra.
Qed.

Lemma entropy_bernoulli p q : dominated p q ->
  entropy [p; (1 - p)%R] [q; (1 - q)%R] = Ok (bernoulli_KL p q).
Proof.
  intros (Hp & Hq & H1 & H2). unfold entropy, rsum. simpl.
  replace (p + (1 - p + 0))%R with 1%R by lra. replace (q + (1 - q + 0))%R with 1%R by lra.
  unfold Rdiv. rewrite Rinv_1, !Rmult_1_r.
  assert (Hre : forall x y, (0 <= x)%R -> (0 <= y)%R -> (0 < x -> 0 < y)%R ->
                  rel_entr x y = Ok (xlnx_over x y)).
  { intros x y Hx Hy Hxy. unfold rel_entr, xlnx_over. destruct (Rlt_dec 0 x) as [Hx0|Hx0].
    - destruct (Rlt_dec 0 y) as [?|Hy0]; [done|]. exfalso. auto.
    - destruct (Req_EM_T x 0); [|lra]. destruct (Rle_dec 0 y); [done|lra]. }
  rewrite !Hre by (lra || auto). simpl. unfold bernoulli_KL. f_equal. lra.
Qed.

Lemma tpr_ok b : counts_ok b ->
  true_positive_rate b = Ok (rate (b_support_size b) (b_head_support_size b)).
Proof.
  intros []. unfold true_positive_rate, py_div.
  destruct (Z.eqb_spec (b_head_support_size b) 0); [lia|done].
Qed.

Lemma base_rate_ok b : counts_ok b ->
  base_rate b = Ok (rate (b_tail_support_size b) (b_N b)).
Proof.
  intros []. unfold base_rate, py_div. destruct (Z.eqb_spec (b_N b) 0); [lia|done].
Qed.

Lemma rate_pos a b : 0 <= a -> 0 < b -> (0 < rate a b)%R -> 0 < a.
Proof.
  intros Ha Hb H. destruct (decide (a = 0)) as [->|]; [|lia].
  unfold rate, Rdiv in H. lra.
Qed.

Lemma rate_pos_2 a b : 0 < a -> 0 < b -> (0 < rate a b)%R.
Proof. intros. apply Rdiv_lt_0_compat; apply IZR_lt; lia. Qed.

Lemma rate_one a b : 0 < b -> (rate a b = 1%R <-> a = b).
Proof.
  intros Hb. assert (0 < IZR b)%R by (apply IZR_lt; lia). split.
  - intros E. apply eq_IZR. apply (f_equal (fun t => t * IZR b)%R) in E.
    unfold rate, Rdiv in E. rewrite Rmult_assoc, Rinv_l in E by lra. lra.
  - intros ->. unfold rate. field. lra.
Qed.

Lemma rates_dominated b : counts_ok b ->
  dominated (rate (b_support_size b) (b_head_support_size b)) (rate (b_tail_support_size b) (b_N b)).
Proof.
  intros C. assert (C' := C). destruct C'.
  assert (0 <= rate (b_support_size b) (b_head_support_size b) <= 1)%R as R1
    by (apply IZR_div_range; lia).
  assert (0 <= rate (b_tail_support_size b) (b_N b) <= 1)%R as R2 by (apply IZR_div_range; lia).
  split; [done|]. split; [done|]. split.
  - intros H. apply rate_pos in H; [|lia|lia]. apply rate_pos_2; lia.
  - intros H. destruct (Req_dec (rate (b_tail_support_size b) (b_N b)) 1) as [E|E]; [|lra].
    apply rate_one in E; [|lia]. apply co_full0 in E.
    apply rate_one in E; [|lia]. lra.
Qed.

Lemma KL_ok b : counts_ok b ->
  KL b = Ok (if Rlt_dec (rate (b_support_size b) (b_head_support_size b))
                        (rate (b_tail_support_size b) (b_N b))
             then 0%R
             else bernoulli_KL (rate (b_support_size b) (b_head_support_size b))
                        (rate (b_tail_support_size b) (b_N b))).
Proof.
  intros C. unfold KL. rewrite tpr_ok, base_rate_ok by done. simpl. unfold Rltb.
  destruct (Rlt_dec _ _); [done|]. apply entropy_bernoulli, rates_dominated, C.
Qed.
