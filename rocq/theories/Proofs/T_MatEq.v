(** Proofs of the property theorems of Properties/P_MatEq.v. *)
From Coq Require Import Reals Lra.
From Verif.Model Require Import PyBase Sparse Utils Evaluation Helpers.
From Verif.Spec Require Import SMatrix SMatEq.
Open Scope Z_scope.
From Verif.Proofs Require Import PBase PSparse T_Eval T_Convert.
Open Scope Z_scope.

(** ** The value of a cell *)
Fixpoint kvs (j a : Z) (l : list (Z * Z)) : list (Z * Z) :=
  match l with
  | [] => []
  | (j', v) :: l => if decide (j' = j) then (a, v) :: kvs j (a + 1) l else kvs j (a + 1) l
  end.

Lemma elem_of_kvs j l a k v : (k, v) ∈ kvs j a l <-> exists p : nat, l !! p = Some (j, v) /\ k = a + Z.of_nat p.
Proof.
  revert a. induction l as [|[j' v'] l IH]; intros a; cbn [kvs].
  - rewrite elem_of_nil. split; [done|]. intros (p & Hp & _). by rewrite lookup_nil in Hp.
  - assert (Hshift : (k, v) ∈ kvs j (a + 1) l <-> exists p : nat, ((j', v') :: l) !! S p = Some (j, v) /\ k = a + Z.of_nat (S p)).
    { rewrite IH. split; intros (p & Hp & Hk); exists p; (split; [done|lia]). }
    destruct (decide (j' = j)) as [->|Hne].
    + rewrite elem_of_cons, Hshift. split.
      * intros [[= -> ->]|(p & Hp & Hk)]; [exists 0%nat; split; [done|lia]|by exists (S p)].
      * intros ([|p] & Hp & Hk); [left; injection Hp as ->; f_equal; lia|right; by exists p].
    + rewrite Hshift. split; [intros (p & H); by exists (S p)|]. intros ([|p] & Hp & Hk); [cbn in Hp; congruence|by exists p].
Qed.

Lemma kvs_NoDup j l a : NoDup (map fst (kvs j a l)).
Proof.
  revert a. induction l as [|[j' v] l IH]; intros a; cbn [kvs]; [constructor|]. destruct (decide (j' = j)); [|done].
  cbn [map fst]. constructor; [|done]. intros H. apply elem_of_map in H as ([k v'] & -> & H).
  apply elem_of_kvs in H as (p & _ & H). cbn [fst] in H. lia.
Qed.

Lemma kvs_sum j l a : foldr Z.add 0 (map snd (kvs j a l)) = zsum (map snd (filter (fun e => fst e = j) l)).
Proof.
  revert a. induction l as [|[j' v] l IH]; intros a; cbn [kvs]; [done|]. rewrite filter_cons. cbn [fst].
  destruct (decide (j' = j)) as [->|Hne]; [|done]. cbn [map snd foldr]. rewrite IH. done.
Qed.

Lemma sum_perm (l l' : list Z) : l ≡ₚ l' -> foldr Z.add 0 l = foldr Z.add 0 l'.
Proof. induction 1; cbn; lia. Qed.

Lemma line_slots m i : wf_cmat m = true -> 0 <= i < n_major m ->
  exists a, (forall p j v, line m i !! p = Some (j, v) <-> slot m i j (a + Z.of_nat p) v) /\ (forall j k v, slot m i j k v -> a <= k).
Proof.
  intros Hwf Hi. destruct (wf_ptr m i Hwf Hi) as (a & b & Ha & Hb & Hab & Hbl).
  exists a. split.
  2: { intros j k v (a' & b' & _ & Ha' & _ & Hk & _). assert (a' = a) as -> by congruence. lia. }
  intros p j v.
  unfold line. rewrite (nth_lookup_Z _ _ _ Ha), (nth_lookup_Z _ _ _ Hb).
  apply wf_cmat_facts in Hwf as F. destruct F.
  rewrite py_slice_in; [|lia|].
  2: { unfold zlen in *. rewrite zip_with_length. lia. }
  rewrite lookup_take_Some, lookup_drop, lookup_zip_with_Some. split.
  - intros [(x & y & [= <- <-] & Hx & Hy) Hp]. exists a, b.
    replace (Z.to_nat (a + Z.of_nat p)) with (Z.to_nat a + p)%nat by lia.
    repeat split; try done; lia.
  - intros (a' & b' & ? & Ha' & Hb' & ? & ? & Hj & Hv).
    assert (a' = a) as -> by congruence. assert (b' = b) as -> by congruence.
    replace (Z.to_nat (a + Z.of_nat p)) with (Z.to_nat a + p)%nat in Hj, Hv by lia.
    split; [|lia]. exists j, v. done.
Qed.

Lemma cell_value_line m i j s : wf_cmat m = true -> 0 <= i < n_major m -> (cell_value m i j s <-> s = line_value m i j).
Proof.
  intros Hwf Hi. destruct (line_slots m i Hwf Hi) as (a & Hl & Hge).
  assert (Hkv : forall k v, (k, v) ∈ kvs j a (line m i) <-> slot m i j k v).
  { intros k v. rewrite elem_of_kvs. split.
    - intros (p & Hp & ->). by apply Hl.
    - intros Hs. pose proof (Hge _ _ _ Hs). exists (Z.to_nat (k - a)).
      replace (a + Z.of_nat (Z.to_nat (k - a))) with k by lia. split; [|done]. apply Hl.
      replace (a + Z.of_nat (Z.to_nat (k - a))) with k by lia. done. }
  unfold line_value. rewrite <- (kvs_sum j (line m i) a). split.
  - intros (kv & Hn & Hs & ->). apply sum_perm. apply (fmap_Permutation snd).
    apply NoDup_Permutation; [by apply (NoDup_fmap_1 fst)|by apply (NoDup_fmap_1 fst), kvs_NoDup|].
    intros [k v]. by rewrite Hs, Hkv.
  - intros ->. exists (kvs j a (line m i)). split; [apply kvs_NoDup|]. split; [done|done].
Qed.

(** ** csr_matrix_equal *)
Definition ne01 (a b : Z) : Z := if a =? b then 0 else 1.

Lemma csr_matrix_equal_run m1 m2 : csr_rows m1 = csr_rows m2 -> csr_cols m1 = csr_cols m2 ->
  csr_matrix_equal m1 m2 = Ok (count_all (binop_mat ne01 m1 m2) =? 0).
Proof.
  intros Hr Hc. unfold csr_matrix_equal, csr_ne. rewrite Hr, Hc, !Z.eqb_refl. cbn [andb].
  change (fun a b : Z => if a =? b then 0 else 1) with ne01. rewrite (binop_ok ne01 m1 m2 Hr Hc). reflexivity.
Qed.

Definition differ (m1 m2 : csr) : gset (Z * Z) :=
  list_to_set (List.filter (fun '(i, j) => negb (line_value (csr_mat m1) i j =? line_value (csr_mat m2) i j))
    (concat (map (fun i => map (fun j => (i, j)) (py_range (csr_cols m1))) (py_range (csr_rows m1))))).

Lemma elem_of_differ m1 m2 i j : (i, j) ∈ differ m1 m2 <->
  0 <= i < csr_rows m1 /\ 0 <= j < csr_cols m1 /\ ne01 (line_value (csr_mat m1) i j) (line_value (csr_mat m2) i j) <> 0.
Proof.
  unfold differ. rewrite elem_of_list_to_set, elem_of_lfilter, elem_of_list_In, in_concat.
  assert (Hne : negb (line_value (csr_mat m1) i j =? line_value (csr_mat m2) i j) = true <->
                ne01 (line_value (csr_mat m1) i j) (line_value (csr_mat m2) i j) <> 0).
  { unfold ne01. destruct (_ =? _); cbn; split; intros; congruence. }
  rewrite Hne. split.
  - intros [Hf (l & Hl & Hin)]. apply elem_of_list_In, elem_of_map in Hl as (i' & -> & Hi).
    apply elem_of_list_In, elem_of_map in Hin as (j' & [= -> ->] & Hj).
    apply elem_of_py_range in Hi. apply elem_of_py_range in Hj. done.
  - intros (Hi & Hj & Hf). split; [done|]. eexists. split.
    + apply elem_of_list_In, elem_of_map. exists i. split; [reflexivity|]. by apply elem_of_py_range.
    + apply elem_of_list_In, elem_of_map. exists j. split; [reflexivity|]. by apply elem_of_py_range.
Qed.

Lemma C94_matrix_equal_proof : forall (m1 m2 : csr),
  wf_cmat (csr_mat m1) = true -> wf_cmat (csr_mat m2) = true -> csr_rows m1 = csr_rows m2 -> csr_cols m1 = csr_cols m2 ->
  exists b, csr_matrix_equal m1 m2 = Ok b /\ (b = true <-> same_cells m1 m2).
Proof.
  intros m1 m2 Hw1 Hw2 Hr Hc. rewrite csr_matrix_equal_run by done. eexists. split; [reflexivity|].
  destruct (binop_simple ne01 m1 m2 (differ m1 m2) Hw1) as (Hs & _); [apply elem_of_differ|].
  rewrite (count_all_size _ _ Hs), Z.eqb_eq. split.
  - intros H i j Hi Hj. exists (line_value (csr_mat m1) i j). split; [by apply cell_value_line|].
    apply cell_value_line; [done|unfold csr_rows in *; by rewrite <- Hr|].
    assert ((i, j) ∉ differ m1 m2) as Hn.
    { assert (differ m1 m2 ≡ ∅) as -> by (apply size_empty_inv; lia). set_solver. }
    rewrite elem_of_differ in Hn. unfold ne01 in Hn.
    destruct (Z.eqb_spec (line_value (csr_mat m1) i j) (line_value (csr_mat m2) i j)); [done|]. destruct Hn. done.
  - intros H. assert (differ m1 m2 = ∅) as ->; [|done]. apply set_eq. intros [i j]. rewrite elem_of_differ. split; [|set_solver].
    intros (Hi & Hj & Hne). destruct (H i j Hi Hj) as (s & H1 & H2).
    apply cell_value_line in H1; [|done..]. apply cell_value_line in H2; [|done|unfold csr_rows in *; by rewrite <- Hr].
    unfold ne01 in Hne. rewrite <- H1, <- H2, Z.eqb_refl in Hne. done.
Qed.


Lemma C94_shapes_proof : forall (m1 m2 : csr), csr_rows m1 <> csr_rows m2 \/ csr_cols m1 <> csr_cols m2 ->
  csr_matrix_equal m1 m2 = Err AttributeError.
Proof.
  intros m1 m2 H. unfold csr_matrix_equal, csr_ne.
  destruct (Z.eqb_spec (csr_rows m1) (csr_rows m2)), (Z.eqb_spec (csr_cols m1) (csr_cols m2)); cbn [andb]; try done. destruct H; done.
Qed.


Lemma binary_value m i j : wf_cmat m = true -> binary m -> 0 <= i < n_major m -> stored m i j -> cell_value m i j 1.
Proof.
  intros Hwf [Hv Hu] Hi (k & v & Hs). exists [(k, 1)]. split; [|split].
  - apply NoDup_singleton.
  - intros k' v'. rewrite elem_of_list_singleton. split.
    + intros [= -> ->]. assert (v = 1) as -> by by eapply Hv. done.
    + intros Hs'. f_equal; [by eapply Hu|by eapply Hv].
  - done.
Qed.
Lemma empty_value m i j : ~ stored m i j -> cell_value m i j 0.
Proof.
  intros Hn. exists []. split; [constructor|]. split; [|done]. intros k v. rewrite elem_of_nil. split; [done|].
  intros Hs. apply Hn. by exists k, v.
Qed.

Lemma C94_sets_proof : forall (ord1 ord2 : gset Z -> list Z) (sets1 sets2 : list (gset Z)) (L : Z),
  set_order ord1 -> set_order ord2 -> 0 <= L -> length sets1 = length sets2 ->
  (forall s j, s ∈ sets1 ++ sets2 -> j ∈ s -> 0 <= j < L) ->
  exists m1 m2 b, convert_sets_to_matrix ord1 sets1 L = Ok m1 /\ convert_sets_to_matrix ord2 sets2 L = Ok m2 /\
    csr_matrix_equal m1 m2 = Ok b /\ (b = true <-> sets1 = sets2).
Proof.
  intros ord1 ord2 sets1 sets2 L Ho1 Ho2 HL Hlen Hr.
  destruct (C53_round_trip_proof ord1 sets1 L Ho1 HL) as (m1 & E1 & Hw1 & Hb1 & Hr1 & Hc1 & Hh1 & _).
  { intros s j Hs. apply Hr, elem_of_app. by left. }
  destruct (C53_round_trip_proof ord2 sets2 L Ho2 HL) as (m2 & E2 & Hw2 & Hb2 & Hr2 & Hc2 & Hh2 & _).
  { intros s j Hs. apply Hr, elem_of_app. by right. }
  assert (Hrr : csr_rows m1 = csr_rows m2) by (rewrite Hr1, Hr2; unfold zlen; lia).
  destruct (C94_matrix_equal_proof m1 m2 Hw1 Hw2 Hrr ltac:(congruence)) as (b & Hb & Hiff).
  exists m1, m2, b. split; [done|]. split; [done|]. split; [done|]. rewrite Hiff. unfold same_cells.
  rewrite Hr1, Hc1. split.
  - intros H. apply list_eq. intros i.
    destruct (sets1 !! i) as [s1|] eqn:G1, (sets2 !! i) as [s2|] eqn:G2; [|apply lookup_lt_Some in G1; apply lookup_ge_None in G2; lia
      |apply lookup_lt_Some in G2; apply lookup_ge_None in G1; lia|done].
    f_equal. apply set_eq. intros j.
    assert (Hi : 0 <= Z.of_nat i < zlen sets1) by (apply lookup_lt_Some in G1; unfold zlen; lia).
    assert (Hs1 : csr_has m1 (Z.of_nat i) j <-> j ∈ s1).
    { rewrite Hh1, Nat2Z.id, G1. split; [intros [_ (s & [= ->] & Hj)]; done|]. intros Hj. split; [lia|]. by exists s1. }
    assert (Hs2 : csr_has m2 (Z.of_nat i) j <-> j ∈ s2).
    { rewrite Hh2, Nat2Z.id, G2. split; [intros [_ (s & [= ->] & Hj)]; done|]. intros Hj. split; [lia|]. by exists s2. }
    assert (Hi1 : 0 <= Z.of_nat i < n_major (csr_mat m1)) by (change (0 <= Z.of_nat i < csr_rows m1); lia).
    assert (Hi2 : 0 <= Z.of_nat i < n_major (csr_mat m2)) by (change (0 <= Z.of_nat i < csr_rows m2); lia).
    assert (Hv : 0 <= j < L -> line_value (csr_mat m1) (Z.of_nat i) j = line_value (csr_mat m2) (Z.of_nat i) j).
    { intros Hj. destruct (H _ j Hi Hj) as (s & A1 & A2). apply cell_value_line in A1; [|done..]. apply cell_value_line in A2; [|done..]. congruence. }
    assert (Hin : forall s, s ∈ sets1 ++ sets2 -> j ∈ s -> 0 <= j < L) by (intros s Hs; by apply Hr).
    rewrite <- Hs1, <- Hs2. split; intros Hj.
    + destruct (decide (j ∈ s2)) as [|Hn]; [by apply Hs2|]. exfalso.
      assert (0 <= j < L) as R. { apply (Hin s1); [|by apply Hs1]. apply elem_of_app. left. by eapply elem_of_list_lookup_2. }
      pose proof (binary_value _ _ _ Hw1 Hb1 Hi1 Hj) as A1. apply cell_value_line in A1; [|done..].
      assert (A2 : cell_value (csr_mat m2) (Z.of_nat i) j 0) by (apply empty_value; intros C; apply Hn, Hs2, C).
      apply cell_value_line in A2; [|done..]. specialize (Hv R). congruence.
    + destruct (decide (j ∈ s1)) as [|Hn]; [by apply Hs1|]. exfalso.
      assert (0 <= j < L) as R. { apply (Hin s2); [|by apply Hs2]. apply elem_of_app. right. by eapply elem_of_list_lookup_2. }
      pose proof (binary_value _ _ _ Hw2 Hb2 Hi2 Hj) as A2. apply cell_value_line in A2; [|done..].
      assert (A1 : cell_value (csr_mat m1) (Z.of_nat i) j 0) by (apply empty_value; intros C; apply Hn, Hs1, C).
      apply cell_value_line in A1; [|done..]. specialize (Hv R). congruence.
  - intros <- i j Hi Hj.
    assert (Hi1 : 0 <= i < n_major (csr_mat m1)) by (change (0 <= i < csr_rows m1); lia).
    assert (Hi2 : 0 <= i < n_major (csr_mat m2)) by (change (0 <= i < csr_rows m2); lia).
    assert (Hsame : csr_has m1 i j <-> csr_has m2 i j) by by rewrite Hh1, Hh2.
    destruct (sets1 !! Z.to_nat i) as [s|] eqn:G.
    + destruct (decide (j ∈ s)) as [Hin|Hn].
      * exists 1. assert (csr_has m1 i j) as A by (apply Hh1; split; [lia|]; by exists s).
        split; [by apply binary_value|]. apply binary_value; try done. by apply Hsame.
      * exists 0. assert (~ csr_has m1 i j) as A by (rewrite Hh1, G; intros [_ (s' & [= <-] & ?)]; done).
        split; apply empty_value; [done|]. intros C. by apply A, Hsame.
    + exists 0. assert (~ csr_has m1 i j) as A by (rewrite Hh1, G; intros [_ (s' & ? & ?)]; done).
      split; apply empty_value; [done|]. intros C. by apply A, Hsame.
Qed.


(** ** array_product *)
Lemma array_product_acc l a : (fold_left (fun res e => res * e) l a = a * array_product l)%R.
Proof.
  unfold array_product. revert a. induction l as [|x l IH]; intros a; cbn [fold_left]; [lra|].
  rewrite IH, (IH (1 * x)%R). lra.
Qed.
Lemma array_product_cons x l : (array_product (x :: l) = x * array_product l)%R.
Proof. unfold array_product at 1. cbn [fold_left]. rewrite array_product_acc. lra. Qed.

Lemma C94_product_proof : 
  (array_product [] = 1)%R /\ (forall x, array_product [x] = x) /\
  (forall l1 l2, array_product (l1 ++ l2) = array_product l1 * array_product l2)%R /\
  (forall l1 l2, l1 ≡ₚ l2 -> array_product l1 = array_product l2) /\
  (forall l, array_product l = 0%R <-> 0%R ∈ l) /\
  (forall l, (forall x, x ∈ l -> 0 <= x <= 1)%R -> (0 <= array_product l <= 1)%R /\ forall x, x ∈ l -> (array_product l <= x)%R).
Proof.
  split; [reflexivity|]. split; [intros x; rewrite array_product_cons; unfold array_product; cbn; lra|].
  split; [|split; [|split]].
  - induction l1 as [|x l1 IH]; intros l2; cbn [app]; [unfold array_product at 2; cbn; lra|].
    rewrite !array_product_cons, IH. lra.
  - induction 1; rewrite ?array_product_cons; try done; [by rewrite IHPermutation|lra|congruence].
  - induction l as [|x l IH].
    + unfold array_product. cbn. rewrite elem_of_nil. split; [lra|done].
    + rewrite array_product_cons, elem_of_cons, <- IH. split.
      * intros H. apply Rmult_integral in H as [->|H]; [by left|by right].
      * intros [<-|H]; [lra|rewrite H; lra].
  - induction l as [|x l IH]; intros H.
    + split; [unfold array_product; cbn; lra|]. intros x Hx. by apply elem_of_nil in Hx.
    + rewrite array_product_cons. assert (Hx : (0 <= x <= 1)%R) by (apply H; left).
      destruct IH as [H1 H2]; [intros y Hy; apply H; by right|]. split; [nra|].
      intros y Hy. apply elem_of_cons in Hy as [->|Hy]; [nra|]. specialize (H2 _ Hy). nra.
Qed.
