(** Proofs of the property theorems of Properties/P_Eval.v. *)
From Coq Require Import String.
From stdpp Require Import strings.
From Verif.Model Require Import PyBase Sparse Utils Rand Graph Evaluation.
From Verif.Spec Require Import SMatrix SRule SGraph SEval.
Open Scope string_scope.
Open Scope list_scope.
Open Scope Z_scope.
From Verif.Proofs Require Import PBase PSparse PUtils PRand PSets PGreedyBase.
Open Scope Z_scope.

(** ** Counting stored cells *)
Lemma NoDup_cells (m : csr) : (forall i, 0 <= i < csr_rows m -> NoDup (map fst (line (csr_mat m) i))) -> NoDup (cell_list m).
Proof.
  intros Hn. unfold cell_list.
  assert (forall l, NoDup l -> (forall i, i ∈ l -> 0 <= i < csr_rows m) ->
    NoDup (concat (map (fun i => map (fun e => (i, fst e)) (line (csr_mat m) i)) l))) as H.
  { induction 1 as [|i l Hi Hl IH]; intros Hr; simpl; [constructor|].
    apply NoDup_app. split_and!.
    - rewrite <- (map_map fst (pair i)). apply NoDup_fmap_2; [intros ???; by simplify_eq|].
      apply Hn, Hr. left.
    - intros [i' j] H1 H2. apply elem_of_map in H1 as (e & E & _). simplify_eq.
      apply elem_of_concat in H2 as (l' & Hl' & H2). apply elem_of_map in Hl' as (i'' & -> & Hi'').
      apply elem_of_map in H2 as (e2 & E & _). by simplify_eq.
    - apply IH. intros i' Hi'. apply Hr. by right. }
  apply H; [apply NoDup_py_range|]. intros i Hi. by apply elem_of_py_range in Hi.
Qed.

Lemma indices_cells (m : csr) : wf_cmat (csr_mat m) = true -> indices (csr_mat m) = map snd (cell_list m).
Proof.
  intros Hwf. assert (E := concat_lines _ Hwf). apply wf_cmat_facts in Hwf as [].
  transitivity (map fst (concat (lines (csr_mat m)))).
  { rewrite E. assert (length (indices (csr_mat m)) <= length (data (csr_mat m)))%nat as Hl by (unfold zlen in *; lia).
    symmetry. exact (fst_zip _ _ Hl). }
  unfold cell_list, lines, csr_rows. rewrite !concat_map, !map_map. f_equal. apply map_ext. intros i.
  rewrite map_map. apply map_ext. done.
Qed.

(** a matrix without duplicate cells and the set of its cells *)
Definition simple (m : csr) (C : gset (Z * Z)) : Prop :=
  wf_cmat (csr_mat m) = true /\ NoDup (cell_list m) /\ cells_of m C.

Lemma simple_binary m C : wf_cmat (csr_mat m) = true -> binary (csr_mat m) -> cells_of m C -> simple m C.
Proof. intros H1 H2 H3. split; [done|]. split; [by apply NoDup_cell_list|done]. Qed.

Lemma simple_set m C : simple m C -> C = list_to_set (cell_list m).
Proof.
  intros (Hwf & _ & HC). apply set_eq. intros [i j]. rewrite (HC i j), elem_of_list_to_set, elem_of_cell_list; done.
Qed.

Lemma nnz_cells (m : csr) : zlen (concat (lines (csr_mat m))) = Z.of_nat (length (cell_list m)).
Proof.
  unfold cell_list, lines, csr_rows, zlen. f_equal. induction (py_range _) as [|i l IH]; [done|].
  cbn [map concat]. rewrite !app_length, IH, map_length. done.
Qed.

Lemma count_all_size m C : simple m C -> count_all m = Z.of_nat (size C).
Proof.
  intros Hs. rewrite (simple_set m C Hs). destruct Hs as (Hwf & Hn & _). rewrite size_list_to_set by done.
  unfold count_all. rewrite nnz_lines by done.
  apply nnz_cells.
Qed.

Lemma count_cols_size m C : simple m C -> count_cols m = map (fun j => Z.of_nat (size (column C j))) (py_range (csr_cols m)).
Proof.
  intros Hs. unfold count_cols. apply map_ext. intros j. rewrite (simple_set m C Hs). destruct Hs as (Hwf & Hn & _).
  rewrite indices_cells by done.
  assert (column (list_to_set (cell_list m)) j = list_to_set (List.filter (fun c => snd c =? j) (cell_list m))) as ->.
  { apply set_eq. intros c. unfold column. rewrite elem_of_filter, !elem_of_list_to_set, elem_of_lfilter, Z.eqb_eq. tauto. }
  rewrite size_list_to_set by by apply NoDup_lfilter. unfold zlen. f_equal.
  induction (cell_list m) as [|[i x] l IH]; [done|]. cbn [map List.filter snd]. inversion Hn; subst.
  destruct (x =? j); cbn [length]; rewrite IH by done; done.
Qed.

Lemma count_rows_zero m C i : simple m C -> 0 <= i < csr_rows m ->
  (zlen (line (csr_mat m) i) = 0 <-> forall j, (i, j) ∉ C).
Proof.
  intros (Hwf & Hn & HC) Hi. rewrite zlen_0. split.
  - intros E j Hj. apply HC in Hj. apply elem_of_line_fst in Hj; [|done..]. rewrite E in Hj. inversion Hj.
  - intros H. destruct (line (csr_mat m) i) as [|[j v] l] eqn:E; [done|]. exfalso. apply (H j). apply HC.
    apply elem_of_line_fst; [done..|]. rewrite E. left.
Qed.

(** ** Element-wise operations *)
Definition binop_mat (f : Z -> Z -> Z) (a b : csr) : csr :=
  Csr (of_lines (csr_cols a)
    (map (fun i => List.filter (fun e => negb (snd e =? 0))
           (map (fun j => (j, f (line_value (csr_mat a) i j) (line_value (csr_mat b) i j))) (py_range (csr_cols a))))
         (py_range (csr_rows a)))).

Lemma binop_ok (f : Z -> Z -> Z) (a b : csr) : csr_rows a = csr_rows b -> csr_cols a = csr_cols b -> csr_binop f a b = Ok (binop_mat f a b).
Proof. intros H1 H2. unfold csr_binop. rewrite H1, H2, !Z.eqb_refl. cbn [andb negb]. unfold binop_mat. by rewrite H1, H2. Qed.

Lemma wf_dims m : wf_cmat m = true -> 0 <= n_major m /\ 0 <= n_minor m.
Proof. intros H. apply wf_cmat_facts in H as []. done. Qed.

Lemma binop_simple (f : Z -> Z -> Z) (a b : csr) (C : gset (Z * Z)) : wf_cmat (csr_mat a) = true ->
  (forall i j, (i, j) ∈ C <-> 0 <= i < csr_rows a /\ 0 <= j < csr_cols a /\
     f (line_value (csr_mat a) i j) (line_value (csr_mat b) i j) <> 0) ->
  simple (binop_mat f a b) C /\ csr_rows (binop_mat f a b) = csr_rows a /\ csr_cols (binop_mat f a b) = csr_cols a.
Proof.
  intros Hwf HC. destruct (wf_dims _ Hwf) as [Hr Hc].
  assert (Hrows : csr_rows (binop_mat f a b) = csr_rows a).
  { unfold binop_mat, csr_rows at 1. cbn [csr_mat n_major of_lines]. rewrite zlen_map, zlen_py_range; done. }
  split; [|split; [done|done]].
  assert (Hrange : lines_in_range (csr_cols a) (map (fun i => List.filter (fun e => negb (snd e =? 0))
           (map (fun j => (j, f (line_value (csr_mat a) i j) (line_value (csr_mat b) i j))) (py_range (csr_cols a))))
         (py_range (csr_rows a)))).
  { intros l j v Hl Hj. apply elem_of_map in Hl as (i & -> & _). apply elem_of_lfilter in Hj as [_ Hj].
    apply elem_of_map in Hj as (j' & E & Hj). injection E as -> _. by apply elem_of_py_range. }
  assert (Hw : wf_cmat (csr_mat (binop_mat f a b)) = true) by by apply of_lines_wf.
  assert (Hline : forall i, 0 <= i < csr_rows a -> line (csr_mat (binop_mat f a b)) i =
    List.filter (fun e => negb (snd e =? 0))
           (map (fun j => (j, f (line_value (csr_mat a) i j) (line_value (csr_mat b) i j))) (py_range (csr_cols a)))).
  { intros i Hi. apply line_of_lines; [lia|]. apply list_lookup_fmap_Some. exists i. split; [by apply lookup_py_range|done]. }
  split; [done|]. split.
  - apply NoDup_cells. rewrite Hrows. intros i Hi. rewrite Hline by done.
    assert (forall l, NoDup l -> NoDup (map fst (List.filter (fun e : Z * Z => negb (snd e =? 0))
      (map (fun j => (j, f (line_value (csr_mat a) i j) (line_value (csr_mat b) i j))) l)))) as H; [|apply H, NoDup_py_range].
    induction 1 as [|x l Hx Hl IH]; [constructor|]. cbn [map List.filter snd]. destruct (negb _); [|done].
    cbn [map fst]. constructor; [|done]. intros Hin. apply elem_of_map in Hin as (e & -> & He).
    apply elem_of_lfilter in He as [_ He]. apply elem_of_map in He as (j & -> & Hj). done.
  - intros i j. rewrite HC. split.
    + intros (Hi & Hj & Hf). apply elem_of_line_fst; [done|by rewrite <- Hrows in Hi|]. rewrite Hline by done.
      apply elem_of_map. eexists (j, _). split; [reflexivity|]. apply elem_of_lfilter. split.
      * cbn [snd]. apply negb_true_iff, Z.eqb_neq. exact Hf.
      * apply elem_of_map. exists j. split; [reflexivity|]. by apply elem_of_py_range.
    + intros Hs. apply stored_range in Hs as R; [|done]. destruct R as [Hi Hj].
      change (0 <= i < csr_rows (binop_mat f a b)) in Hi. rewrite Hrows in Hi.
      change (0 <= j < csr_cols a) in Hj. split; [done|]. split; [done|].
      apply elem_of_line_fst in Hs; [|done|by change (0 <= i < csr_rows (binop_mat f a b)); rewrite Hrows].
      rewrite Hline in Hs by done. apply elem_of_map in Hs as (e & -> & He). apply elem_of_lfilter in He as [Hz He].
      apply elem_of_map in He as (j' & -> & Hj'). cbn [fst snd] in *. apply negb_true_iff, Z.eqb_neq in Hz. done.
Qed.

Lemma value_cells m C i j : wf_cmat (csr_mat m) = true -> binary (csr_mat m) -> cells_of m C -> 0 <= i < csr_rows m ->
  line_value (csr_mat m) i j = if decide ((i, j) ∈ C) then 1 else 0.
Proof.
  intros Hwf Hb HC Hi. destruct (line_value_binary (csr_mat m) i j Hwf Hb Hi) as [H1 H2].
  destruct (decide _) as [H|H]; [apply HC in H; auto|]. apply H2. intros Hs. by apply H, HC.
Qed.

Lemma zsum_counts (l : list Z) n : (forall x, x ∈ l -> 0 <= x < n) ->
  zsum (map (fun j => zlen (List.filter (fun x => x =? j) l)) (py_range n)) = zlen l.
Proof.
  induction l as [|x l IH]; intros Hr.
  - cbn [List.filter]. change (zlen (@nil Z)) with 0. induction (py_range n) as [|j js IHj]; [done|]. cbn [map zsum foldr]. done.
  - assert (zsum (map (fun j => zlen (List.filter (fun y => y =? j) (x :: l))) (py_range n)) =
      zsum (map (fun j => zlen (List.filter (fun y => y =? j) l)) (py_range n)) + 1) as ->.
    2: { rewrite IH by (intros y Hy; apply Hr; by right). rewrite zlen_cons. done. }
    assert (forall js, NoDup js ->
      zsum (map (fun j => zlen (List.filter (fun y => y =? j) (x :: l))) js) =
      zsum (map (fun j => zlen (List.filter (fun y => y =? j) l)) js) + (if decide (x ∈ js) then 1 else 0)) as H.
    { clear. induction 1 as [|j js Hj _ IH]; [done|].
      change (zsum (map ?f (j :: js))) with (f j + zsum (map f js)). rewrite IH. cbn [List.filter].
      destruct (Z.eqb_spec x j) as [->|Hne].
      - rewrite zlen_cons. rewrite decide_False by done. rewrite decide_True by left. lia.
      - destruct (decide (x ∈ js)) as [H|H]; [rewrite decide_True by by right|rewrite decide_False by set_solver]; lia. }
    rewrite H by apply NoDup_py_range. rewrite decide_True; [done|]. apply elem_of_py_range, Hr. left.
Qed.

Lemma zsum_count_cols m C : simple m C -> zsum (count_cols m) = Z.of_nat (size C).
Proof.
  intros Hs. rewrite <- (count_all_size m C Hs). destruct Hs as (Hwf & Hn & HC). unfold count_cols.
  rewrite zsum_counts.
  - unfold count_all. rewrite nnz_lines by done. rewrite indices_cells, zlen_map by done.
    symmetry. apply nnz_cells.
  - rewrite indices_cells by done. intros j Hj. apply elem_of_map in Hj as ([i j'] & -> & Hc). cbn [snd].
    apply elem_of_cell_list in Hc; [|done]. apply stored_range in Hc as [_ Hc]; done.
Qed.

Lemma binary_data m : wf_cmat m = true -> binary m -> forall v, v ∈ data m -> v = 1.
Proof.
  intros Hwf Hb v Hv. assert (E := concat_lines _ Hwf).
  assert (v ∈ map snd (concat (lines m))) as Hin.
  { rewrite E. apply wf_cmat_facts in Hwf as [].
    assert (length (data m) <= length (indices m))%nat as Hl by (unfold zlen in *; lia).
    by rewrite (snd_zip _ _ Hl : map snd (zip (indices m) (data m)) = data m). }
  apply elem_of_map in Hin as ([j v'] & -> & Hin). apply elem_of_concat in Hin as (l & Hl & Hin).
  unfold lines in Hl. apply elem_of_map in Hl as (i & -> & Hi). apply elem_of_py_range in Hi.
  by eapply binary_line_value.
Qed.

Lemma multilabel_binary m : wf_cmat (csr_mat m) = true -> binary (csr_mat m) -> 2 <= csr_cols m -> is_multilabel m = true.
Proof.
  intros Hwf Hb Hc. unfold is_multilabel. apply andb_true_intro. split; [apply Z.ltb_lt; lia|].
  pose proof (binary_data _ Hwf Hb) as Hd. destruct (data (csr_mat m)) as [|v vs]; [done|].
  apply forallb_forall. intros x Hx. apply elem_of_list_In in Hx. rewrite (Hd v) by left. rewrite (Hd x) by by right. done.
Qed.

(** the two matrices of a metric *)
Record scored (P T : csr) (cP cT : gset (Z * Z)) : Prop := {
  sc_wfP : wf_cmat (csr_mat P) = true; sc_wfT : wf_cmat (csr_mat T) = true;
  sc_binP : binary (csr_mat P); sc_binT : binary (csr_mat T);
  sc_rows : csr_rows P = csr_rows T; sc_cols : csr_cols P = csr_cols T;
  sc_r1 : 1 <= csr_rows P; sc_c2 : 2 <= csr_cols P;
  sc_P : cells_of P cP; sc_T : cells_of T cT }.

Lemma scored_sym P T cP cT : scored P T cP cT -> scored T P cT cP.
Proof. intros []. constructor; try done; congruence. Qed.

Lemma check_ok P T cP cT : scored P T cP cT -> check_targets T P = Ok tt.
Proof.
  intros []. unfold check_targets. rewrite <- sc_rows0, Z.eqb_refl. cbn [negb].
  rewrite !multilabel_binary by (done || lia). done.
Qed.

Lemma diff_simple P T cP cT : scored P T cP cT ->
  csr_binop Z.sub T P = Ok (binop_mat Z.sub T P) /\ simple (binop_mat Z.sub T P) (sym_diff cP cT) /\
  csr_rows (binop_mat Z.sub T P) = csr_rows P.
Proof.
  intros []. split; [by apply binop_ok|].
  destruct (binop_simple Z.sub T P (sym_diff cP cT) sc_wfT0) as (H1 & H2 & _).
  { intros i j. rewrite <- sc_rows0, <- sc_cols0. split.
    - intros Hd. assert (csr_has P i j \/ csr_has T i j) as Hh.
      { unfold sym_diff in Hd. rewrite elem_of_union, !elem_of_difference in Hd. destruct Hd as [[Hd _]|[Hd _]]; [left; by apply sc_P0|right; by apply sc_T0]. }
      assert (0 <= i < csr_rows P /\ 0 <= j < csr_cols P) as [Hi Hj].
      { destruct Hh as [Hh|Hh]; apply stored_range in Hh; try done. unfold csr_rows, csr_cols in *. by rewrite sc_rows0, sc_cols0. }
      split; [done|]. split; [done|].
      rewrite (value_cells T cT), (value_cells P cP) by (done || congruence).
      unfold sym_diff in Hd. rewrite elem_of_union, !elem_of_difference in Hd.
      destruct (decide ((i, j) ∈ cT)), (decide ((i, j) ∈ cP)); try lia; tauto.
    - intros (Hi & Hj & Hf). rewrite (value_cells T cT), (value_cells P cP) in Hf by (done || congruence).
      unfold sym_diff. rewrite elem_of_union, !elem_of_difference.
      destruct (decide ((i, j) ∈ cT)), (decide ((i, j) ∈ cP)); try lia; tauto. }
  split; [done|]. congruence.
Qed.

Lemma mul_simple P T cP cT : scored P T cP cT ->
  csr_binop Z.mul T P = Ok (binop_mat Z.mul T P) /\ simple (binop_mat Z.mul T P) (cP ∩ cT) /\
  csr_cols (binop_mat Z.mul T P) = csr_cols P.
Proof.
  intros []. split; [by apply binop_ok|].
  destruct (binop_simple Z.mul T P (cP ∩ cT) sc_wfT0) as (H1 & _ & H2).
  { intros i j. rewrite <- sc_rows0, <- sc_cols0. rewrite elem_of_intersection. split.
    - intros [Hd1 Hd2]. assert (Hh := Hd1). apply sc_P0 in Hh.
      apply stored_range in Hh as [Hi Hj]; [|done].
      change (0 <= i < csr_rows P) in Hi. change (0 <= j < csr_cols P) in Hj. split; [done|]. split; [done|].
      rewrite (value_cells T cT), (value_cells P cP) by (done || congruence). rewrite !decide_True by done. done.
    - intros (Hi & Hj & Hf). rewrite (value_cells T cT), (value_cells P cP) in Hf by (done || congruence).
      destruct (decide ((i, j) ∈ cT)), (decide ((i, j) ∈ cP)); try lia; tauto. }
  split; [done|]. congruence.
Qed.

Lemma prf_divide_ratio a b : prf_divide (Z.of_nat a) (Z.of_nat b) = ratio a b.
Proof.
  unfold prf_divide, ratio. destruct (decide (b = 0%nat)) as [->|H]; [done|].
  destruct (Z.eqb_spec (Z.of_nat b) 0); [lia|done].
Qed.

Lemma Qc_of_nat_pos n : n <> 0%nat -> (0 < Qc_of_Z (Z.of_nat n))%Qc.
Proof. intros. apply Qc_of_Z_pos. lia. Qed.

Lemma Qc_pos_ne (x : Qc) : (0 < x)%Qc -> x <> 0%Qc.
Proof. intros H ->. by apply (irreflexivity Qclt) in H. Qed.

Lemma ratio_0 b : b <> 0%nat -> ratio 0 b = 0%Qc.
Proof. intros H. unfold ratio. rewrite decide_False by done. change (Z.of_nat 0) with 0. rewrite Z2Qc_inj_0. unfold Qcdiv. ring. Qed.

Lemma f_of_0_r p : f_of p 0 = 0%Qc.
Proof. unfold f_of, Qcdiv. ring. Qed.
Lemma f_of_0_l r : f_of 0 r = 0%Qc.
Proof. unfold f_of, Qcdiv. ring. Qed.

Lemma f_of_sym p r : f_of p r = f_of r p.
Proof. unfold f_of. rewrite (Qcplus_comm p r). unfold Qcdiv. ring. Qed.

Lemma f_of_ratio t p r : (t <= p)%nat -> (t <= r)%nat -> f_of (ratio t p) (ratio t r) = ratio (2 * t) (p + r).
Proof.
  intros Hp Hr. destruct (decide (t = 0%nat)) as [->|Ht].
  - change (2 * 0)%nat with 0%nat. destruct (decide (p = 0%nat)) as [->|Hp0], (decide (r = 0%nat)) as [->|Hr0].
    + vm_compute. by_compute.
    + rewrite (ratio_0 r), (ratio_0 (0 + r)) by lia. apply f_of_0_r.
    + rewrite (ratio_0 p), (ratio_0 (p + 0)) by lia. apply f_of_0_l.
    + rewrite (ratio_0 p), (ratio_0 (p + r)) by lia. apply f_of_0_l.
  - unfold ratio, f_of. rewrite !decide_False by lia.
    replace (Z.of_nat (2 * t)) with (2 * Z.of_nat t) by lia. rewrite Nat2Z.inj_add, Qc_of_Z_mult, Qc_of_Z_plus.
    change 2 with (1 + 1) at 1. rewrite Qc_of_Z_plus, Z2Qc_inj_1.
    pose proof (Qc_of_nat_pos t Ht) as T0. assert (P0 := Qc_of_nat_pos p ltac:(lia)). assert (R0 := Qc_of_nat_pos r ltac:(lia)).
    set (x := Qc_of_Z (Z.of_nat t)) in *. set (y := Qc_of_Z (Z.of_nat p)) in *. set (z := Qc_of_Z (Z.of_nat r)) in *.
    assert (y <> 0%Qc) by by apply Qc_pos_ne.
    assert (z <> 0%Qc) by by apply Qc_pos_ne.
    assert (x <> 0%Qc) by by apply Qc_pos_ne.
    assert (y + z <> 0)%Qc as Hs.
    { apply Qc_pos_ne, Qcplus_pos_pos; done. }
    assert (x / y + x / z = x * (y + z) / (y * z))%Qc as E by (field; done).
    rewrite decide_False.
    + rewrite (decide_False (P := (p + r)%nat = 0%nat)) by lia. rewrite E. field. done.
    + rewrite E. intros E0. unfold Qcdiv in E0. apply Qcmult_integral in E0 as [E0|E0].
      * apply Qcmult_integral in E0 as [E0|E0]; done.
      * assert (y * z * / (y * z) = 1)%Qc as E1. { apply Qcmult_inv_r. intros E2. apply Qcmult_integral in E2 as [E2|E2]; done. }
        rewrite E0 in E1. ring_simplify in E1. done.
Qed.

Lemma np_mean_one x : np_mean [x] = Ok x.
Proof. unfold np_mean. change (zlen [x]) with 1. cbn [Z.eqb]. f_equal. cbn [qsum foldr]. unfold Qcdiv. rewrite Z2Qc_inj_1. field. done. Qed.

Lemma np_mean_cols n f : 0 < n -> np_mean (map f (py_range n)) = Ok (column_mean n f).
Proof.
  intros Hn. unfold np_mean, column_mean. rewrite zlen_map, zlen_py_range by lia.
  destruct (Z.eqb_spec n 0); [lia|done].
Qed.

Lemma zip_maps {A B C D} (a : A -> B) (b : A -> C) (c : A -> D) l :
  zip (map a l) (zip (map b l) (map c l)) = map (fun x => (a x, (b x, c x))) l.
Proof. induction l as [|x l IH]; [done|]. cbn [map zip_with]. by rewrite IH. Qed.

Lemma column_inter P T j : column (P ∩ T) j = column P j ∩ column T j.
Proof. apply set_eq. intros c. unfold column. rewrite elem_of_intersection, !elem_of_filter, elem_of_intersection. tauto. Qed.

Lemma inter_le (P T : gset (Z * Z)) : (size (P ∩ T) <= size P)%nat /\ (size (P ∩ T) <= size T)%nat.
Proof. split; apply subseteq_size; set_solver. Qed.

Lemma prf_micro P T cP cT : scored P T cP cT ->
  prf Micro T P = Ok [(ratio (size (cP ∩ cT)) (size cP), ratio (size (cP ∩ cT)) (size cT), dice cP cT)].
Proof.
  intros Hs. unfold prf. rewrite (check_ok P T cP cT Hs). cbn [rbind].
  destruct (mul_simple P T cP cT Hs) as (-> & H1 & H2). cbn [rbind].
  assert (simple P cP /\ simple T cT) as [SP ST] by (destruct Hs; split; by apply simple_binary).
  rewrite (zsum_count_cols _ _ H1), (zsum_count_cols _ _ SP), (zsum_count_cols _ _ ST).
  cbn [zip_with map]. rewrite !prf_divide_ratio. destruct (inter_le cP cT). by rewrite f_of_ratio.
Qed.

Lemma prf_macro P T cP cT : scored P T cP cT ->
  prf Macro T P = Ok (map (fun j => (ratio (size (column cP j ∩ column cT j)) (size (column cP j)),
                                     ratio (size (column cP j ∩ column cT j)) (size (column cT j)),
                                     dice (column cP j) (column cT j))) (py_range (csr_cols P))).
Proof.
  intros Hs. unfold prf. rewrite (check_ok P T cP cT Hs). cbn [rbind].
  destruct (mul_simple P T cP cT Hs) as (-> & H1 & H2). cbn [rbind].
  assert (simple P cP /\ simple T cT) as [SP ST] by (destruct Hs; split; by apply simple_binary).
  rewrite (count_cols_size _ _ H1), (count_cols_size _ _ SP), (count_cols_size _ _ ST), H2.
  replace (csr_cols T) with (csr_cols P) by apply Hs. rewrite zip_maps, map_map. f_equal. apply map_ext. intros j.
  rewrite !prf_divide_ratio, column_inter. destruct (inter_le (column cP j) (column cT j)). by rewrite f_of_ratio.
Qed.

Lemma C49_values_proof : forall (P T : csr) (cP cT : gset (Z * Z)) (E : gset Z),
  wf_cmat (csr_mat P) = true -> wf_cmat (csr_mat T) = true -> binary (csr_mat P) -> binary (csr_mat T) ->
  csr_rows P = csr_rows T -> csr_cols P = csr_cols T -> 1 <= csr_rows P -> 2 <= csr_cols P ->
  cells_of P cP -> cells_of T cT ->
  (forall i, i ∈ E <-> 0 <= i < csr_rows P /\ forall j, (i, j) ∈ cP <-> (i, j) ∈ cT) ->
  let n := Qc_of_Z (csr_rows P) in
  let l := Qc_of_Z (csr_cols P) in
  let num (s : nat) := Qc_of_Z (Z.of_nat s) in
  hamming_accuracy P T = Ok (1 - num (size (sym_diff cP cT)) / (n * l))%Qc /\
  subset_accuracy P T = Ok (num (size E) / n)%Qc /\
  micro_precision P T = Ok (ratio (size (cP ∩ cT)) (size cP)) /\
  micro_recall P T = Ok (ratio (size (cP ∩ cT)) (size cT)) /\
  micro_f1 P T = Ok (dice cP cT) /\
  macro_precision P T = Ok (column_mean (csr_cols P) (fun j => ratio (size (column cP j ∩ column cT j)) (size (column cP j)))) /\
  macro_recall P T = Ok (column_mean (csr_cols P) (fun j => ratio (size (column cP j ∩ column cT j)) (size (column cT j)))) /\
  macro_f1 P T = Ok (column_mean (csr_cols P) (fun j => dice (column cP j) (column cT j))).
Proof.
  intros P T cP cT E H1 H2 H3 H4 H5 H6 H7 H8 H9 H10 HE n l num.
  assert (Hs : scored P T cP cT) by done.
  pose proof (check_ok P T cP cT Hs) as Hc. destruct (diff_simple P T cP cT Hs) as (Hd & Sd & Rd).
  split; [|split].
  - unfold hamming_accuracy, hamming_loss. rewrite Hc. cbn [rbind]. rewrite Hd. cbn [rbind].
    rewrite <- H5, <- H6. destruct (Z.eqb_spec (csr_rows P * csr_cols P) 0) as [E0|_]; [nia|]. cbn [rbind].
    rewrite (count_all_size _ _ Sd). unfold qdiv. rewrite Qc_of_Z_mult. done.
  - unfold subset_accuracy, accuracy_score. rewrite Hc. cbn [rbind]. rewrite Hd. cbn [rbind].
    unfold np_mean, count_rows. rewrite !zlen_map, Rd, zlen_py_range by lia.
    destruct (Z.eqb_spec (csr_rows P) 0); [lia|]. f_equal. f_equal. rewrite map_map.
    assert (E = list_to_set (List.filter (fun i => zlen (line (csr_mat (binop_mat Z.sub T P)) i) =? 0) (py_range (csr_rows P)))) as ->.
    { apply set_eq. intros i. rewrite HE, elem_of_list_to_set, elem_of_lfilter, elem_of_py_range, Z.eqb_eq.
      split.
      - intros [Hi Hj]. split; [|done]. apply (count_rows_zero _ _ i Sd); [by rewrite Rd|]. intros j. unfold sym_diff.
        specialize (Hj j). rewrite elem_of_union, !elem_of_difference. tauto.
      - intros [Hz Hi]. split; [done|]. intros j. apply (proj1 (count_rows_zero _ _ i Sd ltac:(by rewrite Rd))) with (j := j) in Hz.
        unfold sym_diff in Hz. rewrite elem_of_union, !elem_of_difference in Hz.
        destruct (decide ((i, j) ∈ cP)), (decide ((i, j) ∈ cT)); tauto. }
    rewrite size_list_to_set by apply NoDup_lfilter, NoDup_py_range. unfold num.
    generalize (py_range (csr_rows P)). intros li. induction li as [|i li IH]; [cbn [map List.filter length]; change (Z.of_nat 0) with 0; by rewrite Z2Qc_inj_0|].
    cbn [map List.filter]. destruct (zlen _ =? 0); cbn [length]; [|change (qsum (0 :: ?x))%Qc with (0 + qsum x)%Qc; rewrite IH; ring].
    change (qsum (1 :: ?x))%Qc with (1 + qsum x)%Qc. rewrite IH.
    rewrite Nat2Z.inj_succ. unfold Z.succ. rewrite Qc_of_Z_plus, Z2Qc_inj_1. ring.
  - unfold micro_precision, micro_recall, micro_f1, macro_precision, macro_recall, macro_f1, precision_score, recall_score, f1_score.
    rewrite (prf_micro P T cP cT Hs), (prf_macro P T cP cT Hs). cbn [rbind map fst snd]. rewrite !np_mean_one, !map_map. cbn [fst snd].
    rewrite !np_mean_cols by lia. done.
Qed.


(** ** Bounds *)
Lemma Qcdiv_le_1 (x y : Qc) : (0 < y)%Qc -> (x <= y)%Qc -> (x / y <= 1)%Qc.
Proof.
  intros Hy Hx. replace 1%Qc with (y / y)%Qc by (field; by apply Qc_pos_ne). unfold Qcdiv.
  apply Qcmult_le_compat_r; [done|]. by apply Qclt_le_weak, Qcinv_pos.
Qed.

Lemma Qcdiv_eq_1 (x y : Qc) : (0 < y)%Qc -> (x / y = 1)%Qc -> x = y.
Proof.
  intros Hy E. apply Qc_pos_ne in Hy. replace x with (x / y * y)%Qc by (field; done). rewrite E. ring.
Qed.

Lemma ratio_01 a b : (a <= b)%nat -> (0 <= ratio a b <= 1)%Qc.
Proof.
  intros Hab. unfold ratio. destruct (decide (b = 0%nat)) as [->|Hb]; [by split|].
  pose proof (Qc_of_nat_pos b Hb) as Hp. split.
  - apply Qcdiv_nonneg; [apply Qc_of_Z_nonneg; lia|done].
  - apply Qcdiv_le_1; [done|]. apply (proj1 (Z2Qc_inj_le _ _)). lia.
Qed.

Lemma ratio_refl a : ratio a a = 1%Qc.
Proof.
  unfold ratio. destruct (decide _) as [->|Hb]; [done|]. pose proof (Qc_pos_ne _ (Qc_of_nat_pos a Hb)). field. done.
Qed.

Lemma ratio_eq_1 a b : (a <= b)%nat -> ratio a b = 1%Qc -> a = b.
Proof.
  intros Hab. unfold ratio. destruct (decide (b = 0%nat)) as [->|Hb]; [intros _; lia|].
  intros E. apply Qcdiv_eq_1 in E; [|by apply Qc_of_nat_pos]. apply Z2Qc_inj in E. lia.
Qed.

Lemma dice_01 P T : (0 <= dice P T <= 1)%Qc.
Proof. apply ratio_01. destruct (inter_le P T). lia. Qed.

Lemma dice_refl P : dice P P = 1%Qc.
Proof.
  unfold dice. replace (P ∩ P) with P by (apply set_eq; intros c; rewrite elem_of_intersection; tauto).
  replace (size P + size P)%nat with (2 * size P)%nat by lia. apply ratio_refl.
Qed.

Lemma full_subset {A} `{Countable A} (X Y : gset A) : X ⊆ Y -> (size Y <= size X)%nat -> X ≡ Y.
Proof.
  intros Hs Hl. apply set_equiv_subseteq. split; [done|]. destruct (decide (Y ⊆ X)) as [|Hn]; [done|].
  assert (X ⊂ Y) as Hlt by by split. apply subset_size in Hlt. lia.
Qed.

Lemma inter_full (P T : gset (Z * Z)) : size (P ∩ T) = size P -> size (P ∩ T) = size T -> P = T.
Proof.
  intros H1 H2.
  assert (P ∩ T = P) as E1.
  { apply leibniz_equiv. apply full_subset; [apply intersection_subseteq_l|lia]. }
  assert (P ∩ T = T) as E2.
  { apply leibniz_equiv. apply full_subset; [apply intersection_subseteq_r|lia]. }
  by rewrite <- E1, E2 at 1.
Qed.

Lemma dice_eq_1 P T : dice P T = 1%Qc -> P = T.
Proof.
  intros E. destruct (inter_le P T). apply ratio_eq_1 in E; [|lia]. apply inter_full; lia.
Qed.

Lemma dice_sym P T : dice P T = dice T P.
Proof.
  unfold dice. replace (T ∩ P) with (P ∩ T) by (apply set_eq; intros c; rewrite !elem_of_intersection; tauto).
  by rewrite Nat.add_comm.
Qed.

Lemma qsum_01 {A} (f : A -> Qc) (l : list A) : (forall x, x ∈ l -> 0 <= f x <= 1)%Qc -> (0 <= qsum (map f l) <= Qc_of_Z (zlen l))%Qc.
Proof.
  induction l as [|x l IH]; intros Hf.
  - change (zlen (@nil A)) with 0. rewrite Z2Qc_inj_0. by split.
  - destruct IH as [I1 I2]; [intros y Hy; apply Hf; by right|]. destruct (Hf x ltac:(left)) as [F1 F2].
    cbn [map]. change (qsum (?a :: ?b)) with (a + qsum b)%Qc. rewrite zlen_cons, Z.add_comm, Qc_of_Z_plus, Z2Qc_inj_1. split.
    + rewrite <- (Qcplus_0_l 0). by apply Qcplus_le_compat.
    + by apply Qcplus_le_compat.
Qed.

Lemma qsum_all_1 {A} (f : A -> Qc) (l : list A) : (forall x, x ∈ l -> 0 <= f x <= 1)%Qc -> qsum (map f l) = Qc_of_Z (zlen l) ->
  forall x, x ∈ l -> f x = 1%Qc.
Proof.
  induction l as [|x l IH]; intros Hf E; [intros x Hx; inversion Hx|].
  cbn [map] in E. change (qsum (?a :: ?b)) with (a + qsum b)%Qc in E. rewrite zlen_cons, Z.add_comm, Qc_of_Z_plus, Z2Qc_inj_1 in E.
  assert (Hl : forall y, y ∈ l -> (0 <= f y <= 1)%Qc) by (intros y Hy; apply Hf; by right).
  destruct (qsum_01 f l Hl) as [I1 I2]. destruct (Hf x ltac:(left)) as [F1 F2].
  assert (f x = 1%Qc) as Ex.
  { apply Qcle_antisym; [done|]. apply Qcnot_lt_le. intros Hlt.
    assert (f x + qsum (map f l) < 1 + Qc_of_Z (zlen l))%Qc as H.
    { apply (Qclt_le_trans _ (1 + qsum (map f l))%Qc); [by apply Qcplus_lt_mono_r|]. by apply Qcplus_le_mono_l. }
    rewrite E in H. by apply (irreflexivity Qclt) in H. }
  rewrite Ex in E. assert (qsum (map f l) = Qc_of_Z (zlen l)) as E2.
  { replace (qsum (map f l)) with (1 + qsum (map f l) - 1)%Qc by ring. rewrite E. ring. }
  intros y Hy. apply elem_of_cons in Hy as [->|Hy]; [done|]. by apply IH.
Qed.

Lemma column_mean_01 n f : 0 < n -> (forall j, 0 <= f j <= 1)%Qc -> (0 <= column_mean n f <= 1)%Qc.
Proof.
  intros Hn Hf. pose proof (Qc_of_Z_pos n Hn) as Hp. unfold column_mean.
  destruct (qsum_01 f (py_range n) (fun j _ => Hf j)) as [H1 H2]. rewrite zlen_py_range in H2 by lia.
  split; [by apply Qcdiv_nonneg|by apply Qcdiv_le_1].
Qed.

Lemma column_mean_eq_1 n f : 0 < n -> (forall j, 0 <= f j <= 1)%Qc -> column_mean n f = 1%Qc -> forall j, 0 <= j < n -> f j = 1%Qc.
Proof.
  intros Hn Hf E j Hj. pose proof (Qc_of_Z_pos n Hn) as Hp. unfold column_mean in E. apply Qcdiv_eq_1 in E; [|done].
  apply (qsum_all_1 f (py_range n)); [done| |by apply elem_of_py_range]. by rewrite zlen_py_range by lia.
Qed.

Lemma column_mean_1 n f : 0 < n -> (forall j, f j = 1%Qc) -> column_mean n f = 1%Qc.
Proof.
  intros Hn Hf. pose proof (Qc_of_Z_pos n Hn) as Hp. apply Qc_pos_ne in Hp. unfold column_mean.
  rewrite (qsum_map_ext f (fun _ => Qc_of_Z 1)) by (intros j _; by rewrite Hf, Z2Qc_inj_1). rewrite (qsum_Z (fun _ => 1)).
  assert (zsum (map (fun _ => 1) (py_range n)) = n) as ->.
  { rewrite <- (zlen_py_range n) at 2 by lia. induction (py_range n) as [|x l IH]; [done|].
    cbn [map]. change (zsum (?a :: ?b)) with (a + zsum b). rewrite IH, zlen_cons. lia. }
  field. done.
Qed.

Lemma in_range P T cP cT : scored P T cP cT -> forall i j, (i, j) ∈ cP \/ (i, j) ∈ cT -> 0 <= i < csr_rows P /\ 0 <= j < csr_cols P.
Proof.
  intros [] i j [H|H]; [apply sc_P0 in H|apply sc_T0 in H]; apply stored_range in H; try done.
  unfold csr_rows, csr_cols in *. by rewrite sc_rows0, sc_cols0.
Qed.

Lemma sym_diff_le P T cP cT : scored P T cP cT -> Z.of_nat (size (sym_diff cP cT)) <= csr_rows P * csr_cols P.
Proof.
  intros Hs. assert (size (sym_diff cP cT) <= length (concat (map (fun i => map (pair i) (py_range (csr_cols P))) (py_range (csr_rows P)))))%nat as H.
  { rewrite <- (size_list_to_set (C := gset (Z * Z))) by (apply NoDup_concat_map_pair; apply NoDup_py_range). apply subseteq_size.
    intros [i j] Hc. apply elem_of_list_to_set. apply elem_of_product. rewrite !elem_of_py_range.
    apply (in_range P T cP cT Hs). unfold sym_diff in Hc. rewrite elem_of_union, !elem_of_difference in Hc. tauto. }
  rewrite length_concat_map_pair, !length_py_range in H. destruct Hs. nia.
Qed.

(** the rows on which the two matrices agree *)
Definition agreeing (n : Z) (cP cT : gset (Z * Z)) : gset Z :=
  list_to_set (List.filter (fun i => forallb (fun c => negb (fst c =? i)) (elements (sym_diff cP cT))) (py_range n)).

Lemma elem_of_agreeing n cP cT i : i ∈ agreeing n cP cT <-> 0 <= i < n /\ forall j, (i, j) ∈ cP <-> (i, j) ∈ cT.
Proof.
  unfold agreeing. rewrite elem_of_list_to_set, elem_of_lfilter, elem_of_py_range, forallb_forall. split.
  - intros [H Hi]. split; [done|]. intros j.
    assert (~ (i, j) ∈ sym_diff cP cT) as Hn.
    { intros Hin. apply elem_of_elements, elem_of_list_In, H in Hin. cbn [fst] in Hin. by rewrite Z.eqb_refl in Hin. }
    unfold sym_diff in Hn. rewrite elem_of_union, !elem_of_difference in Hn.
    destruct (decide ((i, j) ∈ cP)), (decide ((i, j) ∈ cT)); tauto.
  - intros [Hi H]. split; [|done]. intros [i' j] Hin. cbn [fst]. destruct (Z.eqb_spec i' i) as [->|]; [|done].
    apply elem_of_list_In, elem_of_elements in Hin. unfold sym_diff in Hin. rewrite elem_of_union, !elem_of_difference in Hin.
    specialize (H j). tauto.
Qed.

Lemma agreeing_le n cP cT : 0 <= n -> Z.of_nat (size (agreeing n cP cT)) <= n.
Proof.
  intros Hn. assert (size (agreeing n cP cT) <= length (py_range n))%nat as H; [|rewrite length_py_range in H; lia].
  rewrite <- (size_list_to_set (C := gset Z)) by apply NoDup_py_range. apply subseteq_size. intros i Hi.
  apply elem_of_agreeing in Hi as [Hi _]. by apply elem_of_list_to_set, elem_of_py_range.
Qed.

Lemma values P T cP cT : scored P T cP cT ->
  let n := Qc_of_Z (csr_rows P) in
  let l := Qc_of_Z (csr_cols P) in
  let num (s : nat) := Qc_of_Z (Z.of_nat s) in
  hamming_accuracy P T = Ok (1 - num (size (sym_diff cP cT)) / (n * l))%Qc /\
  subset_accuracy P T = Ok (num (size (agreeing (csr_rows P) cP cT)) / n)%Qc /\
  micro_precision P T = Ok (ratio (size (cP ∩ cT)) (size cP)) /\
  micro_recall P T = Ok (ratio (size (cP ∩ cT)) (size cT)) /\
  micro_f1 P T = Ok (dice cP cT) /\
  macro_precision P T = Ok (column_mean (csr_cols P) (fun j => ratio (size (column cP j ∩ column cT j)) (size (column cP j)))) /\
  macro_recall P T = Ok (column_mean (csr_cols P) (fun j => ratio (size (column cP j ∩ column cT j)) (size (column cT j)))) /\
  macro_f1 P T = Ok (column_mean (csr_cols P) (fun j => dice (column cP j) (column cT j))).
Proof.
  intros [] n l num. apply C49_values_proof; try done. intros i. apply elem_of_agreeing.
Qed.

Lemma sym_diff_refl c : sym_diff c c = ∅.
Proof. apply set_eq. intros x. unfold sym_diff. rewrite elem_of_union, !elem_of_difference. set_solver. Qed.

Lemma inter_refl (c : gset (Z * Z)) : c ∩ c = c.
Proof. apply set_eq. intros x. rewrite elem_of_intersection. tauto. Qed.

Lemma hamming_01 P T cP cT : scored P T cP cT ->
  (0 <= 1 - Qc_of_Z (Z.of_nat (size (sym_diff cP cT))) / (Qc_of_Z (csr_rows P) * Qc_of_Z (csr_cols P)) <= 1)%Qc.
Proof.
  intros Hs. pose proof (sym_diff_le P T cP cT Hs) as Hle. destruct Hs.
  rewrite <- Qc_of_Z_mult. assert (Hp : (0 < Qc_of_Z (csr_rows P * csr_cols P))%Qc) by (apply Qc_of_Z_pos; nia).
  set (q := (_ / _)%Qc).
  assert (0 <= q)%Qc by (apply Qcdiv_nonneg; [apply Qc_of_Z_nonneg; lia|done]).
  assert (q <= 1)%Qc by (apply Qcdiv_le_1; [done|by apply (proj1 (Z2Qc_inj_le _ _))]).
  split.
  - replace 0%Qc with (q - q)%Qc by ring. unfold Qcminus. apply Qcplus_le_compat; [done|apply Qcle_refl].
  - replace 1%Qc with (1 - 0)%Qc at 2 by ring. unfold Qcminus. apply Qcplus_le_compat; [apply Qcle_refl|]. by apply Qcopp_le_compat.
Qed.

Lemma subset_01 P T cP cT : scored P T cP cT ->
  (0 <= Qc_of_Z (Z.of_nat (size (agreeing (csr_rows P) cP cT))) / Qc_of_Z (csr_rows P) <= 1)%Qc.
Proof.
  intros []. assert (Hp : (0 < Qc_of_Z (csr_rows P))%Qc) by (apply Qc_of_Z_pos; lia). split.
  - apply Qcdiv_nonneg; [apply Qc_of_Z_nonneg; lia|done].
  - apply Qcdiv_le_1; [done|]. apply (proj1 (Z2Qc_inj_le _ _)), agreeing_le. lia.
Qed.

Lemma C49_bounds_proof : forall (P T : csr) (cP cT : gset (Z * Z)) (metric : csr -> csr -> result Qc),
  wf_cmat (csr_mat P) = true -> wf_cmat (csr_mat T) = true -> binary (csr_mat P) -> binary (csr_mat T) ->
  csr_rows P = csr_rows T -> csr_cols P = csr_cols T -> 1 <= csr_rows P -> 2 <= csr_cols P ->
  cells_of P cP -> cells_of T cT ->
  In metric [hamming_accuracy; subset_accuracy; micro_precision; micro_recall; micro_f1;
             macro_precision; macro_recall; macro_f1] ->
  exists v, metric P T = Ok v /\ (0 <= v <= 1)%Qc /\ (cP = cT -> v = 1%Qc).
Proof.
  intros P T cP cT metric H1 H2 H3 H4 H5 H6 H7 H8 H9 H10 Hin.
  assert (Hs : scored P T cP cT) by done.
  destruct (values P T cP cT Hs) as (V1 & V2 & V3 & V4 & V5 & V6 & V7 & V8).
  destruct (inter_le cP cT) as [L1 L2]. assert (Hc := fun j => inter_le (column cP j) (column cT j)).
  cbn [In] in Hin. destruct_or! Hin; subst metric;
    eexists; (split; [eassumption|]).
  - split; [by apply (hamming_01 P T)|]. intros <-. rewrite sym_diff_refl. change (Z.of_nat (size (∅ : gset (Z * Z)))) with 0.
    rewrite Z2Qc_inj_0. unfold Qcdiv. ring.
  - split; [by apply (subset_01 P T)|]. intros <-.
    assert (Hp : (0 < Qc_of_Z (csr_rows P))%Qc) by (apply Qc_of_Z_pos; lia). apply Qc_pos_ne in Hp.
    replace (Z.of_nat (size (agreeing (csr_rows P) cP cP))) with (csr_rows P); [field; done|].
    assert (agreeing (csr_rows P) cP cP = list_to_set (py_range (csr_rows P))) as ->.
    { apply set_eq. intros i. rewrite elem_of_agreeing, elem_of_list_to_set, elem_of_py_range. split; [tauto|]. split; [done|tauto]. }
    rewrite size_list_to_set by apply NoDup_py_range. rewrite length_py_range. lia.
  - split; [by apply ratio_01|]. intros <-. rewrite inter_refl. apply ratio_refl.
  - split; [by apply ratio_01|]. intros <-. rewrite inter_refl. apply ratio_refl.
  - split; [apply dice_01|]. intros <-. apply dice_refl.
  - split; [apply column_mean_01; [lia|]; intros j; apply ratio_01, Hc|]. intros <-. apply column_mean_1; [lia|].
    intros j. rewrite inter_refl. apply ratio_refl.
  - split; [apply column_mean_01; [lia|]; intros j; apply ratio_01, Hc|]. intros <-. apply column_mean_1; [lia|].
    intros j. rewrite inter_refl. apply ratio_refl.
  - split; [apply column_mean_01; [lia|]; intros j; apply dice_01|]. intros <-. apply column_mean_1; [lia|].
    intros j. apply dice_refl.
Qed.


Lemma C49_dual_proof : forall (P T : csr),
  wf_cmat (csr_mat P) = true -> wf_cmat (csr_mat T) = true -> binary (csr_mat P) -> binary (csr_mat T) ->
  csr_rows P = csr_rows T -> csr_cols P = csr_cols T -> 1 <= csr_rows P -> 2 <= csr_cols P ->
  micro_precision P T = micro_recall T P /\ macro_precision P T = macro_recall T P /\
  micro_f1 P T = micro_f1 T P /\ macro_f1 P T = macro_f1 T P /\
  hamming_accuracy P T = hamming_accuracy T P /\ subset_accuracy P T = subset_accuracy T P /\
  exists p r f, micro_precision P T = Ok p /\ micro_recall P T = Ok r /\ micro_f1 P T = Ok f /\
    (f * (p + r) = (1 + 1) * p * r)%Qc /\ (p + r = 0 -> f = 0)%Qc.
Proof.
  intros P T H1 H2 H3 H4 H5 H6 H7 H8.
  set (cells m := list_to_set (cell_list m) : gset (Z * Z)).
  assert (Hcells : forall m, wf_cmat (csr_mat m) = true -> cells_of m (cells m)).
  { intros m Hm i j. unfold cells. rewrite elem_of_list_to_set. by apply elem_of_cell_list. }
  assert (Hs : scored P T (cells P) (cells T)) by (constructor; auto).
  pose proof (scored_sym _ _ _ _ Hs) as Hs'. set (cP := cells P) in *. set (cT := cells T) in *. clearbody cP cT.
  destruct (values P T cP cT Hs) as (V1 & V2 & V3 & V4 & V5 & V6 & V7 & V8). rewrite V1, V2, V3, V4, V5, V6, V8.
  destruct (values T P cT cP Hs') as (W1 & W2 & W3 & W4 & W5 & W6 & W7 & W8). rewrite W1, W2, W4, W5, W7, W8.
  assert (Hi : forall A B : gset (Z * Z), A ∩ B = B ∩ A) by (intros A B; apply set_eq; intros c; rewrite !elem_of_intersection; tauto).
  rewrite (Hi cT cP), H5, H6.
  split_and!; try done.
  - f_equal. unfold column_mean. f_equal. apply qsum_map_ext. intros j _. by rewrite Hi.
  - by rewrite dice_sym.
  - f_equal. unfold column_mean. f_equal. apply qsum_map_ext. intros j _. by rewrite dice_sym.
  - do 4 f_equal. f_equal. f_equal. unfold sym_diff. apply set_eq. intros c. rewrite !elem_of_union. tauto.
  - do 5 f_equal. apply set_eq. intros i. rewrite !elem_of_agreeing. split; intros [Hi0 Hj]; (split; [done|]); intros j; specialize (Hj j); tauto.
  - eexists _, _, _. split; [reflexivity|]. split; [reflexivity|]. split; [reflexivity|].
    destruct (inter_le cP cT) as [L1 L2]. unfold dice. rewrite <- f_of_ratio by done.
    generalize (ratio (size (cP ∩ cT)) (size cP)) (ratio (size (cP ∩ cT)) (size cT)) (ratio_01 _ _ L1) (ratio_01 _ _ L2).
    intros p r [Hp _] [Hr _]. assert (Hz : (p + r = 0)%Qc -> p = 0%Qc /\ r = 0%Qc).
    { intros E. assert (p <= 0)%Qc as Hp'. { rewrite <- E. rewrite <- (Qcplus_0_r p) at 1. apply Qcplus_le_compat; [apply Qcle_refl|done]. }
      assert (p = 0%Qc) as -> by by apply Qcle_antisym. split; [done|]. by rewrite Qcplus_0_l in E. }
    unfold f_of. destruct (decide (p + r = 0)%Qc) as [E|E].
    + destruct (Hz E) as [-> ->]. split; [|intros _]; unfold Qcdiv; ring.
    + split; [field; done|done].
Qed.


Lemma Ok_inj {A} (x y : A) : Ok x = Ok y -> x = y.
Proof. congruence. Qed.

Lemma C49_perfect_proof : forall (P T : csr) (cP cT : gset (Z * Z)) (metric : csr -> csr -> result Qc),
  wf_cmat (csr_mat P) = true -> wf_cmat (csr_mat T) = true -> binary (csr_mat P) -> binary (csr_mat T) ->
  csr_rows P = csr_rows T -> csr_cols P = csr_cols T -> 1 <= csr_rows P -> 2 <= csr_cols P ->
  cells_of P cP -> cells_of T cT ->
  In metric [hamming_accuracy; subset_accuracy; micro_f1; macro_f1] ->
  metric P T = Ok 1%Qc -> cP = cT.
Proof.
  intros P T cP cT metric H1 H2 H3 H4 H5 H6 H7 H8 H9 H10 Hin.
  assert (Hs : scored P T cP cT) by done.
  destruct (values P T cP cT Hs) as (V1 & V2 & _ & _ & V5 & _ & _ & V8).
  cbn [In] in Hin. destruct_or! Hin; subst metric.
  - rewrite V1. intros E%Ok_inj. assert (Hp : (0 < Qc_of_Z (csr_rows P) * Qc_of_Z (csr_cols P))%Qc) by (rewrite <- Qc_of_Z_mult; apply Qc_of_Z_pos; nia).
    assert (Qc_of_Z (Z.of_nat (size (sym_diff cP cT))) = 0)%Qc as E0.
    { set (x := Qc_of_Z (Z.of_nat _)) in *. set (y := (Qc_of_Z (csr_rows P) * _)%Qc) in *. apply Qc_pos_ne in Hp.
      replace x with ((1 - (1 - x / y)) * y)%Qc by (field; done). rewrite E. ring. }
    apply Qc_of_Z_inj_0 in E0. assert (size (sym_diff cP cT) = 0%nat) as Es by lia. apply size_empty_inv in Es.
    apply set_eq. intros c. specialize (Es c). unfold sym_diff in Es. rewrite elem_of_union, !elem_of_difference in Es.
    destruct (decide (c ∈ cP)), (decide (c ∈ cT)); set_solver.
  - rewrite V2. intros E%Ok_inj. apply Qcdiv_eq_1 in E; [|apply Qc_of_Z_pos; lia]. apply Z2Qc_inj in E.
    assert (agreeing (csr_rows P) cP cT ≡ list_to_set (py_range (csr_rows P))) as EA.
    { apply full_subset.
      - intros i Hi. apply elem_of_agreeing in Hi as [Hi _]. by apply elem_of_list_to_set, elem_of_py_range.
      - rewrite size_list_to_set by apply NoDup_py_range. rewrite length_py_range. lia. }
    apply set_eq. intros [i j].
    assert (0 <= i < csr_rows P -> ((i, j) ∈ cP <-> (i, j) ∈ cT)) as Hrow.
    { intros Hi. apply (elem_of_agreeing (csr_rows P)). apply EA. by apply elem_of_list_to_set, elem_of_py_range. }
    split; intros Hc; apply Hrow; try done; apply (in_range P T cP cT Hs i j); tauto.
  - rewrite V5. intros E%Ok_inj. by apply dice_eq_1.
  - rewrite V8. intros E%Ok_inj.
    assert (Hcol : forall j, 0 <= j < csr_cols P -> column cP j = column cT j).
    { intros j Hj. apply dice_eq_1. apply (column_mean_eq_1 (csr_cols P) (fun j => dice (column cP j) (column cT j))); [lia| |done|done].
      intros. apply dice_01. }
    apply set_eq. intros [i j].
    assert (0 <= j < csr_cols P -> ((i, j) ∈ cP <-> (i, j) ∈ cT)) as Hj.
    { intros Hj. assert ((i, j) ∈ column cP j <-> (i, j) ∈ column cT j) as Hij by by rewrite Hcol.
      unfold column in Hij. rewrite !elem_of_filter in Hij. cbn [snd] in Hij. tauto. }
    split; intros Hc; apply Hj; try done; apply (in_range P T cP cT Hs i j); tauto.
Qed.


Lemma C49_shape_errors_proof : forall (P T : csr) (metric : csr -> csr -> result Qc),
  In metric [hamming_accuracy; subset_accuracy; micro_precision; micro_recall; micro_f1;
             macro_precision; macro_recall; macro_f1] ->
  wf_cmat (csr_mat P) = true -> wf_cmat (csr_mat T) = true -> binary (csr_mat P) -> binary (csr_mat T) ->
  2 <= csr_cols P -> 2 <= csr_cols T ->
  csr_rows P <> csr_rows T \/ csr_cols P <> csr_cols T -> metric P T = Err ValueError.
Proof.
  intros P T metric Hin H1 H2 H3 H4 H5 H6 Hne.
  assert (Hc : check_targets T P = Err ValueError \/ csr_cols P <> csr_cols T /\ check_targets T P = Ok tt).
  { unfold check_targets. destruct (Z.eqb_spec (csr_rows T) (csr_rows P)) as [E|E]; [|left; done].
    right. cbn [negb]. rewrite !multilabel_binary by done. split; [|done]. destruct Hne; [congruence|done]. }
  assert (Hb : forall f, csr_cols P <> csr_cols T -> csr_binop f T P = Err ValueError).
  { intros f Hn. unfold csr_binop. destruct (Z.eqb_spec (csr_cols T) (csr_cols P)); [congruence|]. by rewrite andb_false_r. }
  cbn [In] in Hin.
  destruct_or! Hin; try done; subst metric;
    unfold hamming_accuracy, subset_accuracy, hamming_loss, accuracy_score,
      micro_precision, micro_recall, micro_f1, macro_precision, macro_recall, macro_f1, precision_score, recall_score, f1_score, prf;
    (destruct Hc as [->|[Hn ->]]; cbn [rbind]; [done|]); rewrite Hb by done; done.
Qed.


(** ** The report *)
Lemma existsb_elem (m : string) (l : list string) : existsb (String.eqb m) l = true <-> m ∈ l.
Proof.
  rewrite existsb_exists. split.
  - intros (x & Hx & E). apply String.eqb_eq in E as ->. by apply elem_of_list_In.
  - intros H. exists m. split; [by apply elem_of_list_In|]. apply String.eqb_refl.
Qed.

Lemma od_set_fst {A} (d : list (string * A)) k v : map fst (od_set d k v) = if decide (k ∈ map fst d) then map fst d else map fst d ++ [k].
Proof.
  induction d as [|[k' v'] d IH]; [done|]. cbn [od_set map fst]. destruct (String.eqb_spec k k') as [->|Hne].
  - rewrite decide_True by left. done.
  - cbn [map fst]. rewrite IH. destruct (decide (k ∈ map fst d)) as [H|H].
    + rewrite decide_True by by right. done.
    + rewrite decide_False; [done|]. intros Hin. apply elem_of_cons in Hin as [|]; done.
Qed.

Lemma elem_of_od_set {A} (d : list (string * A)) k v k' v' : NoDup (map fst d) ->
  (k', v') ∈ od_set d k v <-> (k' = k /\ v' = v) \/ (k' <> k /\ (k', v') ∈ d).
Proof.
  induction d as [|[k0 v0] d IH]; intros Hn; cbn [od_set].
  - rewrite elem_of_list_singleton. split; [intros [= -> ->]; tauto|]. intros [[-> ->]|[_ H]]; [done|inversion H].
  - cbn [map fst] in Hn. inversion Hn as [|? ? Hk Hd]; subst. destruct (String.eqb_spec k k0) as [->|Hne].
    + rewrite !elem_of_cons. split.
      * intros [[= -> ->]|H]; [tauto|]. right. split; [|tauto]. intros ->. apply Hk. apply elem_of_map. by exists (k0, v').
      * intros [[-> ->]|[H1 [[= -> ->]|H2]]]; [tauto|done|tauto].
    + rewrite !elem_of_cons, IH by done. split.
      * intros [[= -> ->]|[[-> ->]|[? ?]]]; [right; split; [done|tauto]|tauto|tauto].
      * intros [[-> ->]|[H1 [[= -> ->]|H2]]]; tauto.
Qed.

(** the metric functions by name *)
Definition metric_names : list (string * (csr -> csr -> result Qc)) :=
  [("hamming_accuracy", hamming_accuracy); ("subset_accuracy", subset_accuracy); ("micro_precision", micro_precision);
   ("micro_recall", micro_recall); ("micro_f1", micro_f1); ("macro_precision", macro_precision);
   ("macro_recall", macro_recall); ("macro_f1", macro_f1)].

Lemma name2func_ok m f : In (m, f) metric_names -> name2func m = Ok f.
Proof. unfold metric_names. cbn [In]. intros H. destruct_or! H; try done; injection H as <- <-; done. Qed.

Lemma metric_ok m f : In (m, f) metric_names -> In f [hamming_accuracy; subset_accuracy; micro_precision; micro_recall; micro_f1;
             macro_precision; macro_recall; macro_f1].
Proof. intros H. apply (in_map snd) in H. exact H. Qed.

Lemma named m : m ∈ available_metrics -> exists f, In (m, f) metric_names.
Proof.
  intros H. apply elem_of_list_In in H. change available_metrics with (map fst metric_names) in H.
  apply in_map_iff in H as ([m' f] & E & H). cbn [fst] in E. subst m'. by exists f.
Qed.

Lemma named_fun m f g : In (m, f) metric_names -> In (m, g) metric_names -> f = g.
Proof. intros H1%name2func_ok H2%name2func_ok. congruence. Qed.

Definition step P T (res : list (string * Qc)) (m : string) : result (list (string * Qc)) :=
  let! f := name2func m in let! v := f P T in Ok (od_set res m v).

Lemma report_fold P T : (forall m f, In (m, f) metric_names -> exists v, f P T = Ok v) ->
  forall ms d0, (forall m, m ∈ ms -> m ∈ available_metrics) -> NoDup (map fst d0) ->
  exists d, rfold (step P T) d0 ms = Ok d /\ NoDup (map fst d) /\
    (NoDup ms -> (forall m, m ∈ ms -> m ∉ map fst d0) -> map fst d = map fst d0 ++ ms) /\
    (forall m v, (m, v) ∈ d <-> (m ∉ ms /\ (m, v) ∈ d0) \/ (m ∈ ms /\ exists f, In (m, f) metric_names /\ f P T = Ok v)).
Proof.
  intros Hf ms. induction ms as [|m ms IH]; intros d0 Hms Hn.
  - exists d0. split; [done|]. split; [done|]. split; [intros _ _; by rewrite app_nil_r|].
    intros m v. split; [intros H; left; split; [apply not_elem_of_nil|done]|]. intros [[_ H]|[H _]]; [done|inversion H].
  - destruct (named m (Hms m ltac:(left))) as [f Hm]. destruct (Hf m f Hm) as [v Hv].
    assert (Hn' : NoDup (map fst (od_set d0 m v))).
    { rewrite od_set_fst. destruct (decide _) as [|Hni]; [done|]. apply NoDup_app. split; [done|]. split; [|apply NoDup_singleton].
      intros x Hx ->%elem_of_list_singleton. done. }
    destruct (IH (od_set d0 m v)) as (d & Hd & Hnd & Hord & Hel); [intros x Hx; apply Hms; by right|done|].
    exists d. split.
    { rewrite <- Hd. change (rfold (step P T) d0 (m :: ms)) with (let! s := step P T d0 m in rfold (step P T) s ms).
      unfold step at 1. rewrite (name2func_ok m f Hm). cbn [rbind]. rewrite Hv. done. }
    split; [done|]. split.
    + intros Hnd2 Hdis. inversion Hnd2 as [|? ? Hm1 Hm2]; subst. rewrite Hord; [|done|].
      * rewrite od_set_fst. rewrite decide_False by (apply Hdis; left). by rewrite <- app_assoc.
      * intros x Hx. rewrite od_set_fst, decide_False by (apply Hdis; left). rewrite elem_of_app, elem_of_list_singleton.
        intros [H| ->]; [|done]. apply (Hdis x); [by right|done].
    + intros x w. rewrite Hel, elem_of_od_set, not_elem_of_cons, elem_of_cons by done. split.
      * intros [[H1 [[-> ->]|[H2 H3]]]|[H1 H2]]; [right; split; [tauto|by exists f]|tauto|tauto].
      * intros [[[H1 H2] H3]|[[->|H1] (g & Hg & Hw)]]; [tauto| |right; split; [done|by exists g]].
        destruct (decide (m ∈ ms)) as [Hin|Hin]; [right; split; [done|by exists g]|]. left. split; [done|]. left. split; [done|].
        rewrite (named_fun m g f Hg Hm) in Hw. congruence.
Qed.

Lemma C49_report_proof : forall (ms : list string),
  let named := [("hamming_accuracy", hamming_accuracy); ("subset_accuracy", subset_accuracy);
                ("micro_precision", micro_precision); ("micro_recall", micro_recall); ("micro_f1", micro_f1);
                ("macro_precision", macro_precision); ("macro_recall", macro_recall); ("macro_f1", macro_f1)] in
  ((forall m, m ∈ ms -> exists f, In (m, f) named) -> new_evaluator ms = Ok ms /\
   forall (P T : csr),
     wf_cmat (csr_mat P) = true -> wf_cmat (csr_mat T) = true -> binary (csr_mat P) -> binary (csr_mat T) ->
     csr_rows P = csr_rows T -> csr_cols P = csr_cols T -> 1 <= csr_rows P -> 2 <= csr_cols P ->
     exists d, report ms P T = Ok d /\ NoDup (map fst d) /\ (NoDup ms -> map fst d = ms) /\
       forall m v, (m, v) ∈ d <-> m ∈ ms /\ exists f, In (m, f) named /\ f P T = Ok v) /\
  ((exists m, m ∈ ms /\ forall f, ~ In (m, f) named) -> new_evaluator ms = Err AssertionError).
Proof.
  intros ms. change [("hamming_accuracy", hamming_accuracy); ("subset_accuracy", subset_accuracy);
                ("micro_precision", micro_precision); ("micro_recall", micro_recall); ("micro_f1", micro_f1);
                ("macro_precision", macro_precision); ("macro_recall", macro_recall); ("macro_f1", macro_f1)] with metric_names.
  intros nm. unfold nm. clear nm.
  assert (Hav : forall m f, In (m, f) metric_names -> m ∈ available_metrics).
  { intros m f H. apply elem_of_list_In. exact (in_map fst _ _ H). }
  split.
  - intros Hms. assert (Hall : forall m, m ∈ ms -> m ∈ available_metrics) by (intros m Hm; destruct (Hms m Hm) as [f Hf]; by apply (Hav m f)).
    split.
    { unfold new_evaluator. rewrite (proj2 (forallb_forall _ _)); [done|]. intros m Hm. apply existsb_elem, Hall, elem_of_list_In, Hm. }
    intros P T H1 H2 H3 H4 H5 H6 H7 H8.
    set (cells m := list_to_set (cell_list m) : gset (Z * Z)).
    assert (Hcells : forall m, wf_cmat (csr_mat m) = true -> cells_of m (cells m)).
    { intros m Hm i j. unfold cells. rewrite elem_of_list_to_set. by apply elem_of_cell_list. }
    destruct (report_fold P T) with (ms := ms) (d0 := @nil (string * Qc)) as (d & Hd & Hn & Ho & He).
    + intros m f Hf. destruct (C49_bounds_proof P T (cells P) (cells T) f) as (v & Hv & _); [done..|by apply Hcells|by apply Hcells|by apply (metric_ok m)|by exists v].
    + done.
    + constructor.
    + exists d. split; [exact Hd|]. split; [done|]. split.
      * intros Hnd. rewrite (Ho Hnd) by (intros m _; apply not_elem_of_nil). done.
      * intros m v. rewrite He. split; [intros [[_ H]|H]; [inversion H|done]|tauto].
  - intros (m & Hm & Hf). unfold new_evaluator. destruct (forallb _ ms) eqn:E; [|done].
    rewrite forallb_forall in E. apply elem_of_list_In, E, existsb_elem, named in Hm as [f Hm]. by apply Hf in Hm.
Qed.


(** ** Itemset statistics *)

Lemma support_size_ok Y cols (R : gset Z) : wf_cmat (csc_mat Y) = true -> binary (csc_mat Y) ->
  (forall c, c ∈ cols -> 0 <= c < csc_cols Y) ->
  (forall i, i ∈ R <-> 0 <= i < csc_rows Y /\ forall c, c ∈ cols -> csc_has Y i c) ->
  support_size Y cols = Ok (Z.of_nat (size R)).
Proof.
  intros Hwf Hb Hc HR. unfold support_size. destruct (col_sum_matches_ok Y cols Hwf Hb Hc) as (v & -> & Hl & Hv). cbn [rbind].
  f_equal. apply count_true_size. intros i. rewrite HR, Hl. split; intros [Hi H]; (split; [done|]); by apply Hv.
Qed.

Lemma C50_counts_proof : forall (ord : gset Z -> list Z) (te : tail_evaluator) (Ss : list (gset Z)) (rows : gset Z -> gset Z),
  set_order ord -> wf_cmat (csc_mat (te_Y te)) = true -> binary (csc_mat (te_Y te)) -> te_ntrn te = csc_rows (te_Y te) ->
  0 < te_ntrn te ->
  (forall S, S ∈ Ss -> forall c, c ∈ S -> 0 <= c < csc_cols (te_Y te)) ->
  (forall S i, S ∈ Ss -> i ∈ rows S <-> 0 <= i < te_ntrn te /\ forall c, c ∈ S -> csc_has (te_Y te) i c) ->
  let supp S := Z.of_nat (size (rows S)) in
  te_support_size ord te Ss = Ok (map supp Ss) /\
  te_frequency ord te Ss = Ok (map (fun S => Some (Qc_of_Z (supp S) / Qc_of_Z (te_ntrn te))%Qc) Ss) /\
  te_length Ss = map (fun S => Z.of_nat (size S)) Ss /\
  te_area ord te Ss = Ok (map (fun S => supp S * Z.of_nat (size S)) Ss).
Proof.
  intros ord te Ss rows Hord Hwf Hb Hn Hpos Hv HR supp.
  assert (te_support_size ord te Ss = Ok (map supp Ss)) as E.
  { unfold te_support_size. rewrite (rmap_ext _ (fun S => Ok (supp S))); [apply rmap_ok_map|].
    intros S HS. apply support_size_ok; [done|done| |].
    - intros c Hc. rewrite (Hord _), elem_of_elements in Hc. by apply (Hv S).
    - intros i. rewrite (HR S i HS), Hn. split; intros [Hi H]; (split; [done|]); intros c Hc; apply H; [rewrite (Hord _), elem_of_elements in Hc; done|].
      rewrite (Hord _). by apply elem_of_elements. }
  split; [done|]. split; [|split; [done|]].
  - unfold te_frequency. rewrite E. cbn [rbind]. rewrite map_map. f_equal. apply map_ext. intros S.
    destruct (Z.eqb_spec (te_ntrn te) 0); [lia|done].
  - unfold te_area. rewrite E. cbn [rbind]. f_equal. unfold te_length. clear. induction Ss as [|S Ss IH]; [done|].
    cbn [map zip_with]. by rewrite IH.
Qed.


(** ** Edge statistics *)
Lemma enumerate_others (l : list Z) (i0 u0 : Z) : NoDup l -> l !! Z.to_nat i0 = Some u0 -> 0 <= i0 ->
  map snd (List.filter (fun '(j, _) => negb (j =? i0)) (enumerate l)) = List.filter (fun v => negb (v =? u0)) l.
Proof.
  intros Hn Hl Hi. unfold enumerate, py_range.
  assert (forall (l : list Z) k, (forall p v, l !! p = Some v -> (k + Z.of_nat p = i0 <-> v = u0)) ->
    map snd (List.filter (fun '(j, _) => negb (j =? i0)) (zip (seqZ k (zlen l)) l)) = List.filter (fun v => negb (v =? u0)) l) as H.
  { clear. induction l as [|v l IH]; intros k Hk; [by rewrite zip_with_nil_r|].
    rewrite seqZ_cons by (rewrite zlen_cons; pose proof (zlen_nonneg l); lia).
    replace (Z.pred (zlen (v :: l))) with (zlen l) by (rewrite zlen_cons; lia).
    cbn [zip_with List.filter].
    assert (IH' := IH (Z.succ k)). rewrite <- IH'.
    2: { intros p w Hp. rewrite <- (Hk (S p) w Hp). lia. }
    specialize (Hk 0%nat v eq_refl). change (Z.of_nat 0) with 0 in Hk. rewrite Z.add_0_r in Hk.
    destruct (Z.eqb_spec k i0), (Z.eqb_spec v u0); cbn [negb map snd]; try done; tauto. }
  apply H. intros p v Hp. split.
  - intros E. replace (Z.to_nat i0) with p in Hl by lia. congruence.
  - intros ->. rewrite (NoDup_lookup l p (Z.to_nat i0) u0 Hn Hp Hl). lia.
Qed.

Lemma elem_of_enumerate (l : list Z) i u : (i, u) ∈ enumerate l -> 0 <= i /\ l !! Z.to_nat i = Some u.
Proof.
  intros H. unfold enumerate in H. apply elem_of_list_lookup in H as [p Hp]. apply lookup_zip_with_Some in Hp as (x & y & E & H1 & H2).
  injection E as -> ->. unfold py_range in H1. apply lookup_seqZ in H1 as [-> H1]. split; [lia|]. by replace (Z.to_nat (0 + Z.of_nat p)) with p by lia.
Qed.

Lemma map_snd_enumerate (l : list Z) : map snd (enumerate l) = l.
Proof.
  unfold enumerate. assert (length l <= length (py_range (zlen l)))%nat as Hl by (rewrite length_py_range; unfold zlen; lia).
  exact (snd_zip _ _ Hl).
Qed.

Lemma permutations2_alt (l : list Z) : NoDup l ->
  permutations2 l = concat (map (fun u => map (pair u) (List.filter (fun v => negb (v =? u)) l)) l).
Proof.
  intros Hn. unfold permutations2.
  transitivity (concat (map (fun u => map (pair u) (List.filter (fun v => negb (v =? u)) l)) (map snd (enumerate l)))); [|by rewrite map_snd_enumerate].
  rewrite map_map. f_equal.
  apply map_ext_in. intros [i u] Hin. apply elem_of_list_In, elem_of_enumerate in Hin as [Hi Hl]. cbn [snd].
  rewrite <- (enumerate_others l i u Hn Hl Hi), map_map. apply map_ext. by intros [].
Qed.

Lemma elem_of_permutations2 (l : list Z) u v : NoDup l -> (u, v) ∈ permutations2 l <-> u ∈ l /\ v ∈ l /\ u <> v.
Proof.
  intros Hn. rewrite permutations2_alt, elem_of_concat by done. split.
  - intros (l' & Hl' & H). apply elem_of_map in Hl' as (x & -> & Hx). apply elem_of_map in H as (y & [= -> ->] & Hy).
    apply elem_of_lfilter in Hy as [Hne Hy]. apply negb_true_iff, Z.eqb_neq in Hne. done.
  - intros (Hu & Hv & Hne). eexists. split; [apply elem_of_map; exists u; done|]. apply elem_of_map. exists v. split; [done|].
    apply elem_of_lfilter. split; [|done]. apply negb_true_iff, Z.eqb_neq. done.
Qed.

Lemma NoDup_permutations2 (l : list Z) : NoDup l -> NoDup (permutations2 l).
Proof.
  intros Hn. rewrite permutations2_alt by done.
  assert (forall k, NoDup k -> NoDup (concat (map (fun u => map (pair u) (List.filter (fun v => negb (v =? u)) l)) k))) as H; [|by apply H].
  induction 1 as [|x k Hx Hk IH]; [constructor|]. cbn [map concat]. apply NoDup_app. split_and!.
  - apply NoDup_fmap_2; [intros ???; by simplify_eq|]. by apply NoDup_lfilter.
  - intros [i j] H1 H2. apply elem_of_map in H1 as (y & [= -> ->] & _). apply elem_of_concat in H2 as (l' & Hl' & H2).
    apply elem_of_map in Hl' as (z & -> & Hz). apply elem_of_map in H2 as (w & [= -> ->] & _). done.
  - done.
Qed.

Lemma qsum_Permutation l l' : l ≡ₚ l' -> qsum l = qsum l'.
Proof.
  induction 1 as [|x l l' _ IH|x y l|l l' l'' _ IH1 _ IH2]; [done| | |congruence].
  - change (qsum (?a :: ?b)) with (a + qsum b)%Qc. by rewrite IH.
  - change (qsum (y :: x :: l)) with (y + (x + qsum l))%Qc. change (qsum (x :: y :: l)) with (x + (y + qsum l))%Qc. ring.
Qed.

(** the weight of an itemset all of whose ordered pairs are edges *)
Lemma te_weight_ok ord te g (S : gset Z) (ps : list (Z * Z)) (w : Z -> Z -> Qc) :
  set_order ord -> te_g te = Some g -> NoDup ps -> (forall u v, (u, v) ∈ ps <-> u ∈ S /\ v ∈ S /\ u <> v) ->
  (forall u v, (u, v) ∈ ps -> g_wt g !! (u, v) = Some (w u v)) ->
  te_weight ord te S = Ok (qsum (map (fun p => w (fst p) (snd p)) ps)).
Proof.
  intros Hord Hg Hn Hps Hw. unfold te_weight. rewrite Hg.
  assert (HnS : NoDup (ord S)) by (rewrite (Hord _); apply NoDup_elements).
  assert (Hp : permutations2 (ord S) ≡ₚ ps).
  { apply NoDup_Permutation; [by apply NoDup_permutations2|done|]. intros [u v]. rewrite elem_of_permutations2 by done.
    rewrite Hps. by rewrite (Hord _), !elem_of_elements. }
  rewrite (rmap_ext _ (fun p => Ok (w (fst p) (snd p)))).
  - rewrite rmap_ok_map. cbn [rbind]. f_equal. apply qsum_Permutation. by rewrite Hp.
  - intros [u v] Huv. rewrite Hp in Huv. unfold edge_weight. by rewrite (Hw u v Huv).
Qed.

Lemma rmap_err_edge {A B} (f : A -> result B) (e : exn) l x : x ∈ l -> (forall y, f y = Err e \/ exists b, f y = Ok b) -> f x = Err e -> rmap f l = Err e.
Proof.
  intros Hx Hf Ex. induction l as [|y l IH]; [inversion Hx|]. cbn [rmap].
  destruct (Hf y) as [->|[b Eb]]; [done|]. rewrite Eb. cbn [rbind].
  apply elem_of_cons in Hx as [->|Hx]; [congruence|]. by rewrite IH.
Qed.

Lemma te_weight_err ord te (S : gset Z) u v : set_order ord -> u ∈ S -> v ∈ S -> u <> v ->
  (te_g te = None -> te_weight ord te S = Err AttributeError) /\
  (forall g, te_g te = Some g -> g_wt g !! (u, v) = None -> te_weight ord te S = Err KeyError).
Proof.
  intros Hord Hu Hv Hne.
  assert (HnS : NoDup (ord S)) by (rewrite (Hord _); apply NoDup_elements).
  assert (Hin : (u, v) ∈ permutations2 (ord S)) by (apply elem_of_permutations2; [done|]; rewrite (Hord _), !elem_of_elements; done).
  unfold te_weight. split.
  - intros ->. erewrite (rmap_err_edge _ AttributeError _ (u, v) Hin); [done| |done]. intros []. by left.
  - intros g -> Hg. erewrite (rmap_err_edge _ KeyError _ (u, v) Hin); [done| |unfold edge_weight; by rewrite Hg].
    intros [x y]. unfold edge_weight. destruct (g_wt g !! (x, y)); [right; by eexists|by left].
Qed.

Lemma size_two (S : gset Z) : (2 <= size S)%nat -> exists u v, u ∈ S /\ v ∈ S /\ u <> v.
Proof.
  intros H. unfold size, set_size in H. simpl in H. assert (Hn := NoDup_elements S). assert (He := fun x => elem_of_elements S x).
  destruct (elements S) as [|u [|v l]]; cbn [length] in H; try lia. exists u, v.
  split_and!; [apply He; left|apply He; right; left|]. intros ->. inversion Hn as [|? ? Hni]; subst. apply Hni. left.
Qed.

Lemma C50_edges_proof : forall (ord : gset Z -> list Z) (te : tail_evaluator) (g : graph) (Ss : list (gset Z))
    (ps : gset Z -> list (Z * Z)) (w : Z -> Z -> Qc),
  set_order ord -> te_g te = Some g ->
  (forall S, S ∈ Ss -> NoDup (ps S) /\ forall u v, (u, v) ∈ ps S <-> u ∈ S /\ v ∈ S /\ u <> v) ->
  (forall S u v, S ∈ Ss -> u ∈ S -> v ∈ S -> u <> v -> g_wt g !! (u, v) = Some (w u v)) ->
  let total S := qsum (map (fun p => w (fst p) (snd p)) (ps S)) in
  let density S := (total S / Qc_of_Z (Z.of_nat (size S)))%Qc in
  te_edge_density ord te Ss = Ok (map (fun S => if decide (size S = 0%nat) then None else Some (density S)) Ss) /\
  te_edge_ratio ord te Ss =
    Ok (map (fun S => if decide (size S <= 1)%nat then None
                      else Some (density S / Qc_of_Z (Z.of_nat (size S) - 1))%Qc) Ss).
Proof.
  intros ord te g Ss ps w Hord Hg Hps Hw total density.
  assert (Hwt : forall S, S ∈ Ss -> te_weight ord te S = Ok (total S)).
  { intros S HS. destruct (Hps S HS) as [H1 H2]. apply (te_weight_ok ord te g); [done..|]. intros u v Huv. apply H2 in Huv as (? & ? & ?).
    by apply (Hw S). }
  unfold te_edge_density, te_edge_ratio. split.
  - rewrite (rmap_ext _ (fun S => Ok (if decide (size S = 0%nat) then None else Some (density S)))); [apply rmap_ok_map|].
    intros S HS. destruct (decide _); [done|]. by rewrite Hwt.
  - rewrite (rmap_ext _ (fun S => Ok (if decide (size S <= 1)%nat then None else Some (density S / Qc_of_Z (Z.of_nat (size S) - 1))%Qc))); [apply rmap_ok_map|].
    intros S HS. destruct (decide _); [done|]. by rewrite Hwt.
Qed.


Lemma C50_edge_errors_proof : forall (ord : gset Z -> list Z) (te : tail_evaluator) (Ss : list (gset Z)),
  set_order ord ->
  (forall g S u v, te_g te = Some g -> S ∈ Ss -> u ∈ S -> v ∈ S -> u <> v -> g_wt g !! (u, v) = None ->
     te_edge_density ord te Ss = Err KeyError /\ te_edge_ratio ord te Ss = Err KeyError) /\
  (te_g te = None ->
     (forall S, S ∈ Ss -> (2 <= size S)%nat ->
        te_edge_density ord te Ss = Err AttributeError /\ te_edge_ratio ord te Ss = Err AttributeError) /\
     ((forall S, S ∈ Ss -> (size S <= 1)%nat) ->
        te_edge_density ord te Ss = Ok (map (fun S => if decide (size S = 0%nat) then None else Some 0%Qc) Ss) /\
        te_edge_ratio ord te Ss = Ok (map (fun _ => None) Ss))).
Proof.
  intros ord te Ss Hord.
  assert (Hsz : forall (S : gset Z) u v, u ∈ S -> v ∈ S -> u <> v -> (2 <= size S)%nat).
  { intros S u v Hu Hv Hne. replace 2%nat with (size ({[u; v]} : gset Z)).
    - apply subseteq_size. intros x Hx. apply elem_of_union in Hx as [Hx|Hx]; apply elem_of_singleton in Hx as ->; done.
    - rewrite size_union, !size_singleton; [done|]. intros x. rewrite !elem_of_singleton. congruence. }
  split.
  - intros g S u v Hg HS Hu Hv Hne Hnone. specialize (Hsz S u v Hu Hv Hne).
    destruct (te_weight_err ord te S u v Hord Hu Hv Hne) as [_ He]. specialize (He g Hg Hnone).
    assert (Hall : forall S', te_weight ord te S' = Err KeyError \/ exists b, te_weight ord te S' = Ok b).
    { intros S'. unfold te_weight. rewrite Hg.
      destruct (rmap _ (permutations2 (ord S'))) as [ws|e] eqn:E; [right; by eexists|]. left. cbn [rbind]. f_equal.
      revert E. generalize (permutations2 (ord S')). intros l. induction l as [|[x y] l IH]; [done|]. cbn [rmap]. unfold edge_weight at 1.
      destruct (g_wt g !! (x, y)); cbn [rbind]; [|congruence]. destruct (rmap _ l); cbn [rbind]; [done|]. intros [= ->]. by apply IH. }
    split; (eapply (rmap_err_edge _ KeyError _ S HS); [|cbn beta; rewrite decide_False by lia; rewrite He; done]); intros S'.
    + destruct (decide _); [right; by eexists|]. destruct (Hall S') as [->|[b ->]]; [by left|right; by eexists].
    + destruct (decide _); [right; by eexists|]. destruct (Hall S') as [->|[b ->]]; [by left|right; by eexists].
  - intros Hg.
    assert (Hsmall : forall S' : gset Z, (size S' <= 1)%nat -> te_weight ord te S' = Ok 0%Qc).
    { intros S' Hs. unfold te_weight. assert (permutations2 (ord S') = []) as ->; [|done].
      assert (HnS : NoDup (ord S')) by (rewrite (Hord _); apply NoDup_elements).
      destruct (permutations2 (ord S')) as [|[x y] l] eqn:E; [done|]. exfalso.
      assert ((x, y) ∈ permutations2 (ord S')) as Hin by (rewrite E; left). apply elem_of_permutations2 in Hin; [|done].
      rewrite (Hord _), !elem_of_elements in Hin. destruct Hin as (? & ? & ?). assert (2 <= size S')%nat by by apply (Hsz S' x y). lia. }
    split.
    + intros S HS H2.
      assert (Hall : forall S', te_weight ord te S' = Err AttributeError \/ exists b, te_weight ord te S' = Ok b).
      { intros S'. destruct (decide (2 <= size S')%nat) as [Hd|Hd].
        - apply size_two in Hd as (u & v & Hu & Hv & Hne). left. by apply (te_weight_err ord te S' u v).
        - right. rewrite Hsmall by lia. by eexists. }
      assert (He : te_weight ord te S = Err AttributeError).
      { apply size_two in H2 as (u & v & Hu & Hv & Hne). by apply (te_weight_err ord te S u v). }
      split; (eapply (rmap_err_edge _ AttributeError _ S HS); [|cbn beta; rewrite decide_False by lia; rewrite He; done]); intros S'.
      * destruct (decide _); [right; by eexists|]. destruct (Hall S') as [->|[b ->]]; [by left|right; by eexists].
      * destruct (decide _); [right; by eexists|]. destruct (Hall S') as [->|[b ->]]; [by left|right; by eexists].
    + intros Hs. unfold te_edge_density, te_edge_ratio. split.
      * rewrite (rmap_ext _ (fun S => Ok (if decide (size S = 0%nat) then None else Some 0%Qc))); [apply rmap_ok_map|].
        intros S HS. destruct (decide _); [done|]. rewrite Hsmall by by apply Hs. cbn [rbind]. do 2 f_equal. unfold Qcdiv. ring.
      * rewrite (rmap_ext _ (fun S => Ok None)); [apply rmap_ok_map|]. intros S HS. rewrite decide_True by by apply Hs. done.
Qed.


Lemma C50_report_proof : forall (ord : gset Z -> list Z) (te : tail_evaluator) (Ss : list (gset Z))
    (s a : list Z) (f d r : list (option Qc)),
  te_support_size ord te Ss = Ok s -> te_frequency ord te Ss = Ok f -> te_edge_density ord te Ss = Ok d ->
  te_edge_ratio ord te Ss = Ok r -> te_area ord te Ss = Ok a ->
  exists cols, te_report ord te Ss = Ok cols /\
    cols = [("support_size", map (fun z => Some (Qc_of_Z z)) s); ("frequency", f); ("edge_density", d); ("edge_ratio", r);
            ("length", map (fun S => Some (Qc_of_Z (Z.of_nat (size S)))) Ss); ("area", map (fun z => Some (Qc_of_Z z)) a)] /\
    (forall name c, (name, c) ∈ cols -> length c = length Ss) /\
    exists rows, te_report_concat ord te Ss = Ok rows /\ length rows = (6 * length Ss)%nat /\
      forall k name c i v, cols !! k = Some (name, c) -> c !! i = Some v -> rows !! (k * length Ss + i)%nat = Some (v, name).
Proof.
  intros ord te Ss s a f d r Hs Hf Hd Hr Ha.
  set (cols := [_; _; _; _; _; _]). exists cols.
  assert (E : te_report ord te Ss = Ok cols).
  { unfold te_report. rewrite Hs, Hf, Hd, Hr, Ha. cbn [rbind]. unfold cols, te_length. by rewrite map_map. }
  assert (Hlen : forall name c, (name, c) ∈ cols -> length c = length Ss).
  { assert (L1 : length s = length Ss) by (symmetry; apply (Forall2_length _ _ _ (proj1 (rmap_ok _ _ _) Hs))).
    assert (L2 : length d = length Ss) by (symmetry; apply (Forall2_length _ _ _ (proj1 (rmap_ok _ _ _) Hd))).
    assert (L3 : length r = length Ss) by (symmetry; apply (Forall2_length _ _ _ (proj1 (rmap_ok _ _ _) Hr))).
    unfold te_frequency in Hf. rewrite Hs in Hf. cbn [rbind] in Hf. injection Hf as <-.
    unfold te_area in Ha. rewrite Hs in Ha. cbn [rbind] in Ha. injection Ha as <-.
    intros name c Hin. unfold cols in Hin. rewrite !elem_of_cons in Hin.
    destruct_or! Hin; try (by inversion Hin); injection Hin as -> ->; rewrite ?map_length, ?zip_with_length; unfold te_length; rewrite ?map_length; lia. }
  split; [done|]. split; [done|]. split; [done|].
  unfold te_report_concat. rewrite E. cbn [rbind]. eexists. split; [reflexivity|].
  assert (Hgen : forall (cs : list (string * list (option Qc))) n, (forall name c, (name, c) ∈ cs -> length c = n) ->
    length (concat (map (fun '(name, c) => map (fun v => (v, name)) c) cs)) = (length cs * n)%nat /\
    forall k name c i v, cs !! k = Some (name, c) -> c !! i = Some v ->
      concat (map (fun '(name, c) => map (fun v => (v, name)) c) cs) !! (k * n + i)%nat = Some (v, name)).
  { clear. induction cs as [|[m c] cs IH]; intros n Hn; [done|].
    destruct (IH n) as [I1 I2]; [intros name c' Hc; apply (Hn name); by right|].
    assert (Hc := Hn m c ltac:(left)). cbn [map concat length]. split.
    - rewrite app_length, map_length, I1. lia.
    - intros [|k] name c' i v H1 H2; cbn in H1.
      + injection H1 as <- <-. cbn [Nat.mul Nat.add]. rewrite lookup_app_l by (rewrite map_length; by eapply lookup_lt_Some).
        apply list_lookup_fmap_Some. by exists v.
      + rewrite lookup_app_r by (rewrite map_length; cbn [Nat.mul]; lia). rewrite map_length, Hc.
        replace (S k * n + i - n)%nat with (k * n + i)%nat by (cbn [Nat.mul]; lia). by eapply I2. }
  destruct (Hgen cols (length Ss) Hlen) as [G1 G2]. split; [exact G1|]. exact G2.
Qed.
