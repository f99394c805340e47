(** Proofs of the property theorems of Properties/P_Rule.v. *)
From Coq Require Import Reals Lra.
From Verif.Model Require Import PyBase PyReal Sparse Utils Rule.
From Verif.Spec Require Import SMatrix SRule.
Open Scope Z_scope.
From Verif.Proofs Require Import PBase PSparse PUtils PRule PSets PRuleMetric.

Lemma row_matches_perm M l l' i : l ≡ₚ l' -> (row_matches M l i <-> row_matches M l' i).
Proof. intros H. unfold row_matches. setoid_rewrite H. done. Qed.

Lemma covers_perm X Y h h' t t' c : h ≡ₚ h' -> t ≡ₚ t' -> (covers X Y h t c <-> covers X Y h' t' c).
Proof.
  intros Hh Ht. unfold covers. rewrite (row_matches_perm X h h') by done.
  rewrite (row_matches_perm Y t t') by done. rewrite Ht. done.
Qed.

Lemma valid_items_perm M l l' : l ≡ₚ l' -> (valid_items M l <-> valid_items M l').
Proof. intros H. unfold valid_items. setoid_rewrite H. done. Qed.

Lemma sorted_nil l : py_sorted l = [] <-> l = [].
Proof.
  split; [|intros ->; done]. intros E. apply Permutation_nil. rewrite <- E. apply py_sorted_perm.
Qed.

Lemma bound_new (ord : gset Z -> list Z) (X Y : csc) (head tail : list Z) b :
  set_order ord -> dataset X Y -> (forall c, c ∈ tail -> 0 <= c) ->
  bind_dataset ord (new_rule head tail) X Y = Ok b -> bound_to X Y (new_rule head tail) b.
Proof.
  intros Hord Hd Hpos Hb. eapply bind_ok_spec; eauto. intros c. simpl.
  rewrite py_sorted_perm. auto.
Qed.

Lemma bound_new_cells (ord : gset Z -> list Z) (X Y : csc) (head tail : list Z) (b : bound) (A : gset (Z * Z)) :
  set_order ord -> dataset X Y -> (forall c, c ∈ tail -> 0 <= c) ->
  bind_dataset ord (new_rule head tail) X Y = Ok b ->
  (forall c, c ∈ A <-> covers X Y head tail c) -> label_occs b = A.
Proof.
  intros Hord Hd Hpos Hb HA. apply set_eq. intros c. rewrite HA.
  rewrite (label_occs_covers X Y (new_rule head tail)) by (eapply bound_new; done).
  simpl. apply covers_perm; apply py_sorted_perm.
Qed.

Lemma bound_new_tail (ord : gset Z -> list Z) (X Y : csc) (head tail : list Z) b :
  set_order ord -> dataset X Y -> (forall c, c ∈ tail -> 0 <= c) -> NoDup tail ->
  bind_dataset ord (new_rule head tail) X Y = Ok b -> NoDup (r_tail (b_rule b)) /\ sized b.
Proof.
  intros Hord Hd Hpos Hnd Hb. apply bound_new in Hb; try done.
  split; [|apply Hb]. rewrite (bt_rule _ _ _ _ Hb). simpl. rewrite py_sorted_perm. done.
Qed.

Lemma bound_new_counts (ord : gset Z -> list Z) (X Y : csc) (head tail : list Z) b :
  set_order ord -> dataset X Y -> (forall c, c ∈ tail -> 0 <= c) ->
  bind_dataset ord (new_rule head tail) X Y = Ok b -> counts_ok b.
Proof.
  intros Hord Hd Hpos Hb. eapply bound_to_counts; [done|eapply bound_new; eauto|].
  eapply (bind_ok_valid ord (new_rule head tail) X Y b); try done.
  intros c. simpl. rewrite py_sorted_perm. auto.
Qed.


Lemma C01_support_exact_proof : forall (ord : gset Z -> list Z) (X Y : csc) (head tail : list Z) b,
  set_order ord -> dataset X Y -> (forall c, c ∈ tail -> 0 <= c) ->
  bind_dataset ord (new_rule head tail) X Y = Ok b ->
  (forall i, i ∈ b_head_support b <-> row_matches X head i) /\
  (forall i, i ∈ b_tail_support b <-> row_matches Y tail i) /\
  (forall i, i ∈ b_support b <-> row_matches X head i /\ row_matches Y tail i) /\
  b_head_support_size b = Z.of_nat (size (b_head_support b)) /\
  b_tail_support_size b = Z.of_nat (size (b_tail_support b)) /\
  b_support_size b = Z.of_nat (size (b_support b)) /\
  b_num_positives b = Z.of_nat (size (b_tail_support b)) /\
  b_N b = csc_rows X /\ b_D b = csc_cols X /\ b_L b = csc_cols Y.
Proof.
  intros ord X Y head tail b Hord Hd Hpos Hb. apply bound_new in Hb; try done.
  destruct Hb. simpl in *. repeat (setoid_rewrite py_sorted_perm in bt_head || fail).
  split; [intros i; rewrite bt_head; apply row_matches_perm, py_sorted_perm|].
  split; [intros i; rewrite bt_tail; apply row_matches_perm, py_sorted_perm|].
  split; [intros i; rewrite bt_supp; f_equiv; apply row_matches_perm, py_sorted_perm|].
  auto 10.
Qed.



Lemma C02_bind_outcomes_proof : forall (ord : gset Z -> list Z) (X Y : csc) (head tail : list Z),
  set_order ord -> dataset X Y -> (forall c, c ∈ tail -> 0 <= c) ->
  let outcome := bind_dataset ord (new_rule head tail) X Y in
  (* a head id outside [0, D) *)
  (~ valid_items X head -> outcome = Err ValueError) /\
  (* otherwise an empty tail, a label >= L, an empty head *)
  (valid_items X head -> tail = [] -> outcome = Err AssertionError) /\
  (valid_items X head -> ~ valid_items Y tail -> outcome = Err IndexError) /\
  (head = [] -> tail <> [] -> valid_items Y tail -> outcome = Err AssertionError) /\
  (* both non-empty and valid: fails iff no row has the whole head *)
  (head <> [] -> tail <> [] -> valid_items X head -> valid_items Y tail ->
     ((forall i, ~ row_matches X head i) <-> outcome = Err ValueError) /\
     ((exists i, row_matches X head i) <-> exists b, outcome = Ok b)).
Proof.
  intros ord X Y head tail Hord Hd Hpos outcome.
  assert (Hp := py_sorted_perm head). assert (Hp' := py_sorted_perm tail).
  assert (Hd' := Hd). destruct Hd' as (HX & HY & Hr).
  assert (Hvh : valid_items X (r_head (new_rule head tail)) <-> valid_items X head)
    by (apply valid_items_perm, Hp).
  assert (Hvt : valid_items Y (r_tail (new_rule head tail)) <-> valid_items Y tail)
    by (apply valid_items_perm, Hp').
  split; [|split; [|split; [|split]]].
  - intros H. apply bind_bad_head. tauto.
  - intros H ->. apply bind_empty_tail; [tauto|]. simpl. by apply sorted_nil.
  - intros H Ht. apply bind_bad_tail; [done|tauto| |].
    + intros c. simpl. rewrite Hp'. auto.
    + destruct (valid_items_dec Y tail) as [?|(c & Hc & Hb)]; [done|].
      exists c. simpl. rewrite Hp'. split; [done|]. specialize (Hpos c Hc). lia.
  - intros -> Ht Hv. apply bind_empty_head; try done; [|tauto]. simpl. by rewrite sorted_nil.
  - intros Hh Ht Hvh0 Hvt0.
    destruct (bind_valid ord (new_rule head tail) X Y) as [Hno Hyes]; try done;
      [simpl; by rewrite sorted_nil|simpl; by rewrite sorted_nil|tauto|tauto|].
    simpl in Hno, Hyes. setoid_rewrite (row_matches_perm X (py_sorted head) head _ Hp) in Hno.
    assert (Hyes' : (exists i, row_matches X head i) -> exists b, outcome = Ok b).
    { intros [i Hi]. destruct Hyes as (b & Hb & _); [|by exists b].
      exists i. by apply (row_matches_perm X _ _ _ Hp). }
    assert (Hback : forall b, outcome = Ok b -> exists i, row_matches X head i).
    { intros b Hb. destruct (bind_ok_valid ord (new_rule head tail) X Y b) as (_ & _ & _ & _ & i & Hi);
        try done; [intros c; simpl; rewrite Hp'; auto|].
      exists i. by apply (row_matches_perm X _ _ _ Hp). }
    split; split.
    + apply Hno.
    + intros E i Hi. destruct Hyes' as [b Hb]; [eauto|]. congruence.
    + apply Hyes'.
    + intros [b Hb]. eauto.
Qed.



Lemma C02_negative_tail_accepted_proof : forall (ord : gset Z -> list Z) (X Y : csc) head,
  set_order ord -> dataset X Y -> head <> [] -> valid_items X head ->
  (exists i, row_matches X head i) ->
  exists b, bind_dataset ord (new_rule head [-1]) X Y = Ok b /\ b_support b = ∅.
Proof.
  intros ord X Y head Hord (HX & HY & Hrows) Hh Hv [i0 Hi0].
  assert (Hp := py_sorted_perm head).
  unfold bind_dataset. cbn [r_head r_tail new_rule].
  rewrite check_head_ok by (intros c; rewrite Hp; apply Hv). simpl.
  change (py_sorted [-1]) with [-1].
  assert (Ht : conjunctive_collapse_v2 ord Y [-1] = Ok (replicate (Z.to_nat (csc_rows Y)) false)).
  { unfold conjunctive_collapse_v2. simpl. unfold line_set.
    apply wf_cmat_facts in HY as F. destruct F.
    assert (py_index (indptr (csc_mat Y)) (-1) = Ok (zlen (indices (csc_mat Y)))) as ->.
    { unfold py_index. simpl.
      assert ((-1 + zlen (indptr (csc_mat Y)) <? 0) = false) as -> by lia.
      assert ((zlen (indptr (csc_mat Y)) <=? -1 + zlen (indptr (csc_mat Y))) = false) as -> by lia.
      simpl. replace (-1 + zlen (indptr (csc_mat Y))) with (n_major (csc_mat Y)) by lia.
      rewrite wff_last. done. }
    simpl. change (-1 + 1) with 0. assert (py_index (indptr (csc_mat Y)) 0 = Ok 0) as ->.
    { apply py_index_ok; [lia|]. done. }
    simpl. unfold merge_sort. simpl.
    assert (py_set (py_slice (indices (csc_mat Y)) (zlen (indices (csc_mat Y))) 0) = ∅) as ->.
    { unfold py_slice. pose proof (zlen_nonneg (indices (csc_mat Y))).
      rewrite !py_clamp_id by lia.
      replace (Z.to_nat (0 - zlen (indices (csc_mat Y)))) with 0%nat by lia. done. }
    assert (ord ∅ = []) as ->.
    { apply Permutation_nil. symmetry. rewrite (Hord ∅), elements_empty. done. }
    done. }
  rewrite Ht. simpl.
  destruct (conj_v2_ok ord X (py_sorted head) Hord HX) as (hv & -> & Hhl & Hhv).
  { by rewrite sorted_nil. }
  { intros c. rewrite Hp. apply Hv. }
  simpl. destruct (Z.eqb_spec (set_len (binary_vector_to_set hv)) 0) as [E|E].
  - exfalso. unfold set_len in E. assert (size (binary_vector_to_set hv) = 0%nat) as E0 by lia.
    apply size_0_iff in E0. assert (i0 ∈ binary_vector_to_set hv) as Hin; [|set_solver].
    apply elem_of_binary_vector_to_set. destruct Hi0 as [Hr Hi0]. split; [lia|].
    apply Hhv; [done|]. intros c. rewrite Hp. apply Hi0.
  - unfold logical_and.
    assert (zlen (replicate (Z.to_nat (csc_rows Y)) false) = csc_rows Y) as Hl.
    { unfold zlen. rewrite replicate_length. apply wf_cmat_facts in HY as []. unfold csc_rows. lia. }
    rewrite Hl, Hhl, Hrows, Z.eqb_refl. simpl. eexists. split; [reflexivity|]. simpl.
    apply set_eq. intros i. rewrite elem_of_binary_vector_to_set. split.
    + intros [_ Hi]. apply lookup_andb in Hi as [_ Hi]; [|lia].
      apply lookup_replicate in Hi as [? _]. done.
    + intros Hi. by apply not_elem_of_empty in Hi.
Qed.



Lemma C03_collapse_agree_proof : forall ord Y cols,
  set_order ord -> wf_cmat (csc_mat Y) = true -> binary (csc_mat Y) -> cols <> [] ->
  valid_items Y cols ->
  exists v,
    conjunctive_collapse Y cols = Ok v /\ conjunctive_collapse_v2 ord Y cols = Ok v /\
    zlen v = csc_rows Y /\
    (forall i, 0 <= i < csc_rows Y -> (v !! Z.to_nat i = Some true <-> row_matches Y cols i)) /\
    (forall S : gset Z, (forall i, i ∈ S <-> row_matches Y cols i) ->
       support_size Y cols = Ok (Z.of_nat (size S))).
Proof.
  intros ord Y cols Hord Hwf Hb Hne Hv.
  destruct (col_sum_matches_ok Y cols Hwf Hb Hv) as (v & E & Hl & Hi).
  exists v. split; [done|]. split.
  { rewrite <- conj_v1_v2_agree by done. done. }
  split; [done|]. split.
  - intros i Hr. rewrite Hi by done. unfold row_matches. tauto.
  - intros S HS. unfold support_size. rewrite E. simpl. f_equal. apply count_true_size.
    intros i. rewrite HS. unfold row_matches. rewrite Hl. split; intros [Hr H]; (split; [done|]);
      by apply Hi.
Qed.



Lemma C04_rule_identity_proof : forall h1 t1 h2 t2 : list Z,
  NoDup h1 -> NoDup t1 -> NoDup h2 -> NoDup t2 ->
  (rule_eqb (new_rule h1 t1) (new_rule h2 t2) = true <->
     (forall x, x ∈ h1 <-> x ∈ h2) /\ (forall x, x ∈ t1 <-> x ∈ t2)) /\
  (rule_eqb (new_rule h1 t1) (new_rule h2 t2) = true <->
     rule_hash_key (new_rule h1 t1) = rule_hash_key (new_rule h2 t2)).
Proof.
  intros h1 t1 h2 t2 N1 N2 N3 N4.
  assert (Hs : forall l l', NoDup l -> NoDup l' -> (py_sorted l = py_sorted l' <-> forall x, x ∈ l <-> x ∈ l')).
  { intros l l' Hl Hl'. split.
    - intros E x. rewrite <- (py_sorted_perm l), E, (py_sorted_perm l'). done.
    - intros H. apply py_sorted_unique. apply NoDup_Permutation; done. }
  unfold rule_eqb, rule_hash_key. simpl. rewrite andb_true_iff, !bool_decide_eq_true. split.
  - rewrite !Hs by done. done.
  - split; [intros [-> ->]; done|intros [= -> ->]; done].
Qed.



Lemma C04_pickle_round_trip_proof : forall b,
  rule_setstate (rule_getstate b) = b_rule b /\
  rule_eqb (rule_setstate (rule_getstate b)) (b_rule b) = true.
Proof.
  intros b. assert (rule_setstate (rule_getstate b) = b_rule b) as ->.
  { unfold rule_setstate, rule_getstate. simpl. destruct (b_rule b). done. }
  split; [done|]. unfold rule_eqb. rewrite !bool_decide_true by done. done.
Qed.


Lemma C05_distance_is_jaccard_proof : forall (ord : gset Z -> list Z) (X Y : csc) (h1 t1 h2 t2 : list Z) (b1 b2 : bound) (A B : gset (Z * Z)),
  set_order ord -> dataset X Y ->
  (forall c, c ∈ t1 -> 0 <= c) -> (forall c, c ∈ t2 -> 0 <= c) -> NoDup t1 -> NoDup t2 ->
  bind_dataset ord (new_rule h1 t1) X Y = Ok b1 ->
  bind_dataset ord (new_rule h2 t2) X Y = Ok b2 ->
  (forall c, c ∈ A <-> covers X Y h1 t1 c) -> (forall c, c ∈ B <-> covers X Y h2 t2 c) ->
  A ∪ B <> ∅ ->
  distance b1 b2 = Ok (jaccard A B) /\ distance b2 b1 = Ok (jaccard A B) /\
  (0 <= jaccard A B <= 1)%R /\ (jaccard A B = 0%R <-> A = B).
Proof.
  intros ord X Y h1 t1 h2 t2 b1 b2 A B Hord Hd P1 P2 N1 N2 B1 B2 HA HB Hne.
  assert (label_occs b1 = A) as E1 by (apply (bound_new_cells ord X Y h1 t1); done).
  assert (label_occs b2 = B) as E2 by (apply (bound_new_cells ord X Y h2 t2); done).
  apply bound_new_tail in B1 as [? ?]; try done. apply bound_new_tail in B2 as [? ?]; try done.
  rewrite !distance_jaccard by done. rewrite E1, E2.
  rewrite !bool_decide_false by (done || (intros E; apply Hne; rewrite <- E; clear; set_solver)).
  rewrite (jaccard_sym B A). split; [done|]. split; [done|].
  split; [by apply jaccard_range|by apply jaccard_zero].
Qed.



Lemma C06_triangle_proof : forall (ord : gset Z -> list Z) (X Y : csc) (h1 t1 h2 t2 h3 t3 : list Z) b1 b2 b3 d12 d23 d13,
  set_order ord -> dataset X Y ->
  (forall c, c ∈ t1 ++ t2 ++ t3 -> 0 <= c) -> NoDup t1 -> NoDup t2 -> NoDup t3 ->
  bind_dataset ord (new_rule h1 t1) X Y = Ok b1 ->
  bind_dataset ord (new_rule h2 t2) X Y = Ok b2 ->
  bind_dataset ord (new_rule h3 t3) X Y = Ok b3 ->
  distance b1 b2 = Ok d12 -> distance b2 b3 = Ok d23 -> distance b1 b3 = Ok d13 ->
  (d13 <= d12 + d23)%R.
Proof.
  intros ord X Y h1 t1 h2 t2 h3 t3 b1 b2 b3 d12 d23 d13 Hord Hd HP N1 N2 N3 B1 B2 B3 D1 D2 D3.
  apply bound_new_tail in B1 as [? ?]; [|done|done|intros c Hc; apply HP; set_solver|done].
  apply bound_new_tail in B2 as [? ?]; [|done|done|intros c Hc; apply HP; set_solver|done].
  apply bound_new_tail in B3 as [? ?]; [|done|done|intros c Hc; apply HP; set_solver|done].
  rewrite distance_jaccard in D1, D2, D3 by done.
  case_bool_decide as E1; [done|]. case_bool_decide as E2; [done|]. case_bool_decide as E3; [done|].
  injection D1 as <-. injection D2 as <-. injection D3 as <-. by apply jaccard_triangle.
Qed.



Lemma C07_distance_defined_proof : forall (ord : gset Z -> list Z) (X Y : csc) (h1 t1 h2 t2 : list Z) b1 b2,
  set_order ord -> dataset X Y ->
  (forall c, c ∈ t1 -> 0 <= c) -> (forall c, c ∈ t2 -> 0 <= c) -> NoDup t1 -> NoDup t2 ->
  bind_dataset ord (new_rule h1 t1) X Y = Ok b1 ->
  bind_dataset ord (new_rule h2 t2) X Y = Ok b2 ->
  ((forall c, ~ covers X Y h1 t1 c /\ ~ covers X Y h2 t2 c) <-> distance b1 b2 = Err ZeroDivisionError) /\
  ((exists c, covers X Y h1 t1 c \/ covers X Y h2 t2 c) <-> exists d, distance b1 b2 = Ok d).
Proof.
  intros ord X Y h1 t1 h2 t2 b1 b2 Hord Hd P1 P2 N1 N2 B1 B2.
  assert (C1 : forall c, c ∈ label_occs b1 <-> covers X Y h1 t1 c).
  { intros c. rewrite (label_occs_covers X Y (new_rule h1 t1)) by (eapply bound_new; done).
    apply covers_perm; apply py_sorted_perm. }
  assert (C2 : forall c, c ∈ label_occs b2 <-> covers X Y h2 t2 c).
  { intros c. rewrite (label_occs_covers X Y (new_rule h2 t2)) by (eapply bound_new; done).
    apply covers_perm; apply py_sorted_perm. }
  apply bound_new_tail in B1 as [? ?]; try done. apply bound_new_tail in B2 as [? ?]; try done.
  rewrite distance_jaccard by done. setoid_rewrite <- C1. setoid_rewrite <- C2.
  case_bool_decide as E.
  - split; split; try done.
    + intros _ c. set_solver.
    + intros [c Hc]. set_solver.
    + intros [d Hd']. done.
  - assert (exists c, c ∈ label_occs b1 \/ c ∈ label_occs b2) as Hex.
    { destruct (set_choose_L _ E) as [c Hc]. exists c. set_solver. }
    split; split; try done.
    + intros Hn. destruct Hex as [c Hc]. specialize (Hn c). tauto.
    + intros _. eauto.
Qed.



Lemma C08_rates_proof : forall (ord : gset Z -> list Z) (X Y : csc) (head tail : list Z) (b : bound) (H T S : gset Z),
  set_order ord -> dataset X Y -> (forall c, c ∈ tail -> 0 <= c) ->
  bind_dataset ord (new_rule head tail) X Y = Ok b ->
  (forall i, i ∈ H <-> row_matches X head i) -> (forall i, i ∈ T <-> row_matches Y tail i) ->
  S = H ∩ T ->
  let sz s := INR (size (s : gset Z)) in
  precision b = Ok (sz S / sz H)%R /\ (0 <= sz S / sz H <= 1)%R /\
  base_rate b = Ok (sz T / IZR (csc_rows X))%R /\ (0 <= sz T / IZR (csc_rows X) <= 1)%R /\
  (T = ∅ -> recall b = Err NonFinite) /\
  (T <> ∅ -> recall b = Ok (sz S / sz T)%R /\ (0 <= sz S / sz T <= 1)%R).
Proof.
  intros ord X Y head tail b H T S Hord Hd Hpos Hb HH HT -> sz.
  assert (C : counts_ok b) by exact (bound_new_counts _ _ _ _ _ _ Hord Hd Hpos Hb).
  destruct (C01_support_exact_proof ord X Y head tail b Hord Hd Hpos Hb)
    as (Eh & Et & Es & Sh & St & Ss & Sn & EN & _ & _).
  assert (b_head_support b = H) as <- by (apply set_eq; intros i; rewrite Eh, HH; done).
  assert (b_tail_support b = T) as <- by (apply set_eq; intros i; rewrite Et, HT; done).
  assert (b_support b = b_head_support b ∩ b_tail_support b) as Ei.
  { apply set_eq. intros i. rewrite elem_of_intersection, Es, Eh, Et. done. }
  rewrite <- Ei. unfold precision. rewrite tpr_ok, base_rate_ok by done. unfold rate, sz.
  rewrite !INR_IZR_INZ, <- Sh, <- St, <- Ss, <- EN. destruct C.
  split; [done|]. split; [apply IZR_div_range; lia|]. split; [done|].
  split; [apply IZR_div_range; lia|]. unfold recall, np_div. rewrite co_np.
  split.
  - intros E. rewrite St, E, size_empty. done.
  - intros E. destruct (Z.eqb_spec (b_tail_support_size b) 0) as [E0|E0].
    + exfalso. apply E, size_0_iff. lia.
    + split; [done|]. apply IZR_div_range; lia.
Qed.



Lemma C08_KL_proof : forall (ord : gset Z -> list Z) (X Y : csc) (head tail : list Z) b p q,
  set_order ord -> dataset X Y -> (forall c, c ∈ tail -> 0 <= c) ->
  bind_dataset ord (new_rule head tail) X Y = Ok b ->
  precision b = Ok p -> base_rate b = Ok q ->
  exists v, KL b = Ok v /\ (0 <= v)%R /\
    ((p <= q)%R -> v = 0%R) /\
    ((q < p)%R -> v = bernoulli_KL p q /\ (0 < v)%R).
Proof.
  intros ord X Y head tail b p q Hord Hd Hpos Hb Hp Hq.
  assert (C : counts_ok b) by exact (bound_new_counts _ _ _ _ _ _ Hord Hd Hpos Hb).
  unfold precision in Hp. rewrite tpr_ok in Hp by done. rewrite base_rate_ok in Hq by done.
  rewrite KL_ok by done. pose proof (rates_dominated b C) as Dm.
  remember (rate (b_support_size b) (b_head_support_size b)) as p'.
  remember (rate (b_tail_support_size b) (b_N b)) as q'.
  injection Hp as ->. injection Hq as ->.
  eexists. split; [reflexivity|]. destruct (Rlt_dec p q) as [L|L].
  - split; [lra|]. split; [done|]. lra.
  - split; [by apply bernoulli_KL_nonneg|]. split.
    + intros Hle. assert (p = q) as -> by lra. apply bernoulli_KL_refl. apply Dm.
    + intros Hlt. split; [done|]. apply bernoulli_KL_pos; [done|lra].
Qed.



Lemma C08_KL_increasing_proof : forall b1 b2 p1 p2 q v1 v2 ord1 ord2 X1 Y1 (h1 t1 : list Z) X2 Y2 (h2 t2 : list Z),
  set_order ord1 -> set_order ord2 -> dataset X1 Y1 -> dataset X2 Y2 ->
  (forall c, c ∈ t1 -> 0 <= c) -> (forall c, c ∈ t2 -> 0 <= c) ->
  bind_dataset ord1 (new_rule h1 t1) X1 Y1 = Ok b1 ->
  bind_dataset ord2 (new_rule h2 t2) X2 Y2 = Ok b2 ->
  precision b1 = Ok p1 -> precision b2 = Ok p2 -> base_rate b1 = Ok q -> base_rate b2 = Ok q ->
  KL b1 = Ok v1 -> KL b2 = Ok v2 ->
  (q <= p1)%R -> (p1 < p2)%R -> (v1 < v2)%R.
Proof.
  intros b1 b2 p1 p2 q v1 v2 ord1 ord2 X1 Y1 h1 t1 X2 Y2 h2 t2 O1 O2 D1 D2 P1 P2 B1 B2
    Hp1 Hp2 Hq1 Hq2 K1 K2 L1 L2.
  assert (C1 : counts_ok b1) by exact (bound_new_counts _ _ _ _ _ _ O1 D1 P1 B1).
  assert (C2 : counts_ok b2) by exact (bound_new_counts _ _ _ _ _ _ O2 D2 P2 B2).
  pose proof (rates_dominated b1 C1) as M1. pose proof (rates_dominated b2 C2) as M2.
  unfold precision in *. rewrite tpr_ok in Hp1, Hp2 by done. rewrite base_rate_ok in Hq1, Hq2 by done.
  rewrite KL_ok in K1, K2 by done.
  remember (rate (b_support_size b1) (b_head_support_size b1)) as r1.
  remember (rate (b_support_size b2) (b_head_support_size b2)) as r2.
  remember (rate (b_tail_support_size b1) (b_N b1)) as q1.
  remember (rate (b_tail_support_size b2) (b_N b2)) as q2.
  injection Hp1 as ->. injection Hp2 as ->. injection Hq1 as ->. injection Hq2 as ->.
  destruct (Rlt_dec p1 q); [lra|]. destruct (Rlt_dec p2 q); [lra|].
  injection K1 as <-. injection K2 as <-.
  destruct M1 as (_ & Hq & _ & _). destruct M2 as (Hp2 & _ & Hpos & _).
  apply bernoulli_KL_mono; lra.
Qed.


Lemma C09_marginal_coverage_exact_proof : forall (ord : gset Z -> list Z) (X Y : csc) (head tail : list Z) (b : bound) (refs : list (list Z * list Z * bound)) (S : gset (Z * Z)),
  set_order ord -> dataset X Y -> (forall c, c ∈ tail -> 0 <= c) ->
  bind_dataset ord (new_rule head tail) X Y = Ok b ->
  (* each reference (h, t, b') is a rule bound to the same data *)
  Forall (fun r : list Z * list Z * bound => let '(h, t, b') := r in
     (forall c, c ∈ t -> 0 <= c) /\ bind_dataset ord (new_rule h t) X Y = Ok b') refs ->
  (forall c, c ∈ S <-> covers X Y head tail c /\
                       ~ exists h t b', (h, t, b') ∈ refs /\ covers X Y h t c) ->
  marginal_coverage b (map snd refs) = Ok (Z.of_nat (size S)).
Proof.
  intros ord X Y head tail b refs S Hord Hd Hpos Hb Href HS.
  assert (Cov : forall h t b', (forall c, c ∈ t -> 0 <= c) ->
     bind_dataset ord (new_rule h t) X Y = Ok b' ->
     forall c, c ∈ label_occs b' <-> covers X Y h t c).
  { intros h t b' Hp Hb' c. rewrite (label_occs_covers X Y (new_rule h t)) by (eapply bound_new; done).
    apply covers_perm; apply py_sorted_perm. }
  rewrite marginal_coverage_size. f_equal. f_equal. f_equal. apply set_eq. intros c.
  rewrite elem_of_new_cells, HS, (Cov head tail b) by done. f_equiv. split.
  - intros Hn (h & t & b' & Hin & Hc).
    apply (Hn b'); [apply elem_of_map; exists (h, t, b'); done|].
    rewrite Forall_forall in Href. destruct (Href _ Hin) as [Hp Hb'].
    by apply (Cov h t b').
  - intros Hn r Hr Hc. apply elem_of_map in Hr as ([[h t] b'] & -> & Hin). simpl in *.
    rewrite Forall_forall in Href. destruct (Href _ Hin) as [Hp Hb'].
    apply Hn. exists h, t, b'. split; [done|]. by apply (Cov h t b').
Qed.


Lemma C09_marginal_coverage_laws_proof : forall (b : bound) (refs refs' : list bound),
  (exists n, marginal_coverage b refs = Ok n /\ 0 <= n) /\
  ((forall r, r ∈ refs <-> r ∈ refs') -> marginal_coverage b refs = marginal_coverage b refs') /\
  ((forall r, r ∈ refs -> r ∈ refs') ->
     forall n n', marginal_coverage b refs = Ok n -> marginal_coverage b refs' = Ok n' -> n' <= n) /\
  (b ∈ refs -> marginal_coverage b refs = Ok 0) /\
  (NoDup (r_tail (b_rule b)) -> b_support_size b = Z.of_nat (size (b_support b)) ->
     marginal_coverage b [] = Ok (label_area b)).
Proof.
  intros b refs refs'. rewrite !marginal_coverage_size.
  split; [eexists; split; [done|lia]|]. split; [|split; [|split]].
  - intros H. f_equal. f_equal. f_equal. apply set_eq. intros c.
    rewrite !elem_of_new_cells. setoid_rewrite H. done.
  - intros H n n' [= <-] [= <-]. apply inj_le. apply subseteq_size. intros c.
    rewrite !elem_of_new_cells. intros [Hc Hn]. split; [done|]. intros r Hr. auto.
  - intros H. assert (new_cells b refs = ∅) as ->; [|by rewrite size_empty].
    apply set_eq. intros c. rewrite elem_of_new_cells. split.
    + intros [Hc Hn]. exfalso. by apply (Hn b).
    + intros Hc. by apply not_elem_of_empty in Hc.
  - intros Hnd Hsz. unfold new_cells. simpl. rewrite size_label_occs by done.
    unfold label_area, zlen. rewrite Hsz. f_equal. lia.
Qed.
