(** Lemmas on compressed sparse matrices. *)
From Verif.Model Require Import PyBase Sparse.
From Verif.Spec Require Import SMatrix.
From Verif.Proofs Require Import PBase.

Lemma nondecreasing_lookup l i j a b :
  nondecreasing l = true -> l !! i = Some a -> l !! j = Some b -> (i <= j)%nat -> a <= b.
Proof.
  revert i j a b. induction l as [|x l IH]; intros i j a b Hn Hi Hj Hij; [done|].
  assert (Hhd : forall k c, l !! k = Some c -> x <= c).
  { destruct l as [|y l]; [done|]. simpl in Hn. apply andb_prop in Hn as [H1 H2].
    intros k c Hk. assert (y <= c); [|lia].
    apply (IH 0%nat k); [exact H2|done|exact Hk|lia]. }
  assert (Hn' : nondecreasing l = true).
  { destruct l; [done|]. simpl in Hn. by apply andb_prop in Hn as [_ ?]. }
  destruct i as [|i]; simpl in Hi.
  - injection Hi as ->. destruct j as [|j]; simpl in Hj; [injection Hj as ->; lia|eauto].
  - destruct j as [|j]; [lia|]. simpl in Hj. eapply IH; eauto. lia.
Qed.

Lemma last_lookup_list (l : list Z) : l <> [] -> l !! (length l - 1)%nat = Some (List.last l 0).
Proof.
  induction l as [|x l IH]; [done|]. intros _. destruct l as [|y l]; [done|].
  specialize (IH ltac:(done)). simpl in IH. simpl length.
  replace (S (S (length l)) - 1)%nat with (S (length l)) by lia.
  change ((x :: y :: l) !! S (length l)) with ((y :: l) !! length l).
  replace (length l - 0)%nat with (length l) in IH by lia. exact IH.
Qed.

Record wf_facts (m : cmat) : Prop := {
  wff_major : 0 <= n_major m;
  wff_minor : 0 <= n_minor m;
  wff_ptrlen : zlen (indptr m) = n_major m + 1;
  wff_hd : indptr m !! 0%nat = Some 0;
  wff_nd : nondecreasing (indptr m) = true;
  wff_last : indptr m !! Z.to_nat (n_major m) = Some (zlen (indices m));
  wff_data : zlen (data m) = zlen (indices m);
  wff_range : forall k j, indices m !! k = Some j -> 0 <= j < n_minor m
}.

Lemma wf_cmat_facts m : wf_cmat m = true <-> wf_facts m.
Proof.
  unfold wf_cmat. rewrite !andb_true_iff, !Z.leb_le, !Z.eqb_eq, forallb_forall. split.
  - intros [[[[[[[H1 H2] H3] H4] H5] H6] H7] H8].
    destruct (indptr m) as [|p ps] eqn:E; [unfold zlen in H3; simpl in H3; lia|].
    constructor; rewrite ?E; try done.
    + simpl in *. congruence.
    + rewrite <- H6. rewrite <- last_lookup_list by done. f_equal.
      unfold zlen in H3. lia.
    + intros k j Hk. specialize (H8 j). rewrite andb_true_iff, Z.leb_le, Z.ltb_lt in H8.
      apply H8. apply elem_of_list_In. eapply elem_of_list_lookup_2; eauto.
  - intros [H1 H2 H3 H4 H5 H6 H7 H8].
    destruct (indptr m) as [|p ps] eqn:E; [done|].
    repeat split; try done.
    + simpl in *. congruence.
    + assert (Hl := last_lookup_list (p :: ps) ltac:(done)).
      assert (Z.to_nat (n_major m) = (length (p :: ps) - 1)%nat) as Hn.
      { unfold zlen in H3. lia. }
      rewrite Hn, Hl in H6. congruence.
    + intros j Hj. apply elem_of_list_In, elem_of_list_lookup in Hj as [k Hk].
      apply H8 in Hk. rewrite andb_true_iff, Z.leb_le, Z.ltb_lt. lia.
Qed.

Lemma wf_ptr m i : wf_cmat m = true -> 0 <= i < n_major m ->
  exists a b, indptr m !! Z.to_nat i = Some a /\ indptr m !! Z.to_nat (i + 1) = Some b /\
              0 <= a <= b /\ b <= zlen (indices m).
Proof.
  intros Hwf Hi. apply wf_cmat_facts in Hwf. destruct Hwf.
  destruct (lookup_lt_is_Some_2 (indptr m) (Z.to_nat i)) as [a Ha].
  { unfold zlen in *. lia. }
  destruct (lookup_lt_is_Some_2 (indptr m) (Z.to_nat (i + 1))) as [b Hb].
  { unfold zlen in *. lia. }
  exists a, b. repeat split; try done.
  - eapply nondecreasing_lookup; [done|exact wff_hd0|exact Ha|lia].
  - eapply nondecreasing_lookup; [done|exact Ha|exact Hb|lia].
  - eapply nondecreasing_lookup; [done|exact Hb|exact wff_last0|lia].
Qed.

Lemma slot_range m i j k v : wf_cmat m = true -> slot m i j k v ->
  0 <= i < n_major m /\ 0 <= j < n_minor m /\ 0 <= k < zlen (indices m).
Proof.
  intros Hwf (a & b & Hi & Ha & Hb & Hk & Hkb & Hj & Hv).
  apply wf_cmat_facts in Hwf as F. destruct F.
  apply lookup_lt_Some in Hb as Hlen. unfold zlen in *.
  apply lookup_lt_Some in Hj as Hlen2.
  split; [|split].
  - lia.
  - eapply wff_range0; eauto.
  - lia.
Qed.

Lemma nth_lookup_Z (l : list Z) n a : l !! n = Some a -> List.nth n l 0 = a.
Proof. intros H. apply nth_lookup_Some with (d := 0) in H. exact H. Qed.

Lemma elem_of_line m i j v :
  wf_cmat m = true -> 0 <= i < n_major m ->
  ((j, v) ∈ line m i <-> exists k, slot m i j k v).
Proof.
  intros Hwf Hi. destruct (wf_ptr m i Hwf Hi) as (a & b & Ha & Hb & Hab & Hbl).
  unfold line. rewrite (nth_lookup_Z _ _ _ Ha), (nth_lookup_Z _ _ _ Hb).
  apply wf_cmat_facts in Hwf as F. destruct F.
  rewrite elem_of_py_slice; [|lia|].
  2: { unfold zlen in *. rewrite zip_with_length. lia. }
  split.
  - intros (k & Hk & Hl). apply lookup_zip_with_Some in Hl as (x & y & [= <- <-] & Hx & Hy).
    exists k, a, b. repeat split; try done; lia.
  - intros (k & a' & b' & ? & Ha' & Hb' & ? & ? & Hj & Hv).
    assert (a' = a) as -> by congruence. assert (b' = b) as -> by congruence.
    exists k. split; [lia|]. apply lookup_zip_with_Some. exists j, v. done.
Qed.

Lemma elem_of_line_fst m i j :
  wf_cmat m = true -> 0 <= i < n_major m ->
  (j ∈ map fst (line m i) <-> stored m i j).
Proof.
  intros Hwf Hi. rewrite elem_of_map. unfold stored. split.
  - intros ([j' v] & -> & H). apply elem_of_line in H as [k H]; [|done..]. eauto.
  - intros (k & v & H). exists (j, v). split; [done|]. apply elem_of_line; eauto.
Qed.

Lemma stored_range m i j : wf_cmat m = true -> stored m i j ->
  0 <= i < n_major m /\ 0 <= j < n_minor m.
Proof. intros Hwf (k & v & H). apply slot_range in H; [tauto|done]. Qed.

(** ** Matrices built from lines *)

Lemma length_ptrs s ls : length (ptrs s ls) = S (length ls).
Proof. revert s. induction ls as [|l ls IH]; intros s; simpl; [done|]. rewrite IH. done. Qed.

Lemma lookup_ptrs s ls k :
  (k <= length ls)%nat -> ptrs s ls !! k = Some (s + zlen (concat (take k ls))).
Proof.
  revert s k. induction ls as [|l ls IH]; intros s k Hk; simpl in *.
  - assert (k = 0%nat) as -> by lia. simpl. unfold zlen. simpl. f_equal. lia.
  - destruct k as [|k]; simpl.
    + unfold zlen. simpl. f_equal. lia.
    + rewrite IH by lia. rewrite zlen_app. f_equal. lia.
Qed.

Lemma ptrs_nondecreasing s ls : nondecreasing (ptrs s ls) = true.
Proof.
  revert s. induction ls as [|l ls IH]; intros s; [done|].
  simpl. specialize (IH (s + zlen l)).
  assert (exists t, ptrs (s + zlen l) ls = (s + zlen l) :: t) as [t Ht].
  { destruct ls; simpl; eauto. }
  rewrite Ht in *. pose proof (zlen_nonneg l).
  rewrite andb_true_iff. split; [lia|exact IH].
Qed.

Definition lines_in_range (minor : Z) (ls : list (list (Z * Z))) : Prop :=
  forall l j v, l ∈ ls -> (j, v) ∈ l -> 0 <= j < minor.

Lemma of_lines_wf minor ls :
  0 <= minor -> lines_in_range minor ls -> wf_cmat (of_lines minor ls) = true.
Proof.
  intros Hm Hr. apply wf_cmat_facts. constructor; simpl.
  - apply zlen_nonneg.
  - done.
  - unfold zlen. rewrite length_ptrs. lia.
  - rewrite lookup_ptrs by lia. rewrite take_0. done.
  - apply ptrs_nondecreasing.
  - unfold zlen at 1. rewrite Nat2Z.id, lookup_ptrs by lia.
    rewrite firstn_all, zlen_map. done.
  - rewrite !zlen_map. done.
  - intros k j Hk. apply elem_of_list_lookup_2, elem_of_map in Hk as ([j' v] & -> & H).
    apply elem_of_concat in H as (l & Hl & H). simpl. eauto.
Qed.

Lemma drop_concat_take {A} (ls : list (list A)) k l :
  ls !! k = Some l ->
  take (length l) (drop (length (concat (take k ls))) (concat ls)) = l.
Proof.
  revert k. induction ls as [|x ls IH]; intros k Hk; [done|].
  destruct k as [|k]; simpl in *.
  - injection Hk as ->. rewrite drop_0. apply take_app.
  - rewrite app_length. rewrite drop_app_ge by lia.
    rewrite Nat.add_comm, Nat.add_sub. apply IH. done.
Qed.

Lemma take_S_concat {A} (ls : list (list A)) k l :
  ls !! k = Some l -> concat (take (S k) ls) = concat (take k ls) ++ l.
Proof.
  intros H. rewrite (take_S_r _ _ _ H), concat_app. simpl. rewrite app_nil_r. done.
Qed.

Lemma zip_fst_snd {A B} (l : list (A * B)) : zip (map fst l) (map snd l) = l.
Proof. induction l as [|[a b] l IH]; simpl; [done|]. rewrite IH. done. Qed.

Lemma line_of_lines minor ls i l :
  0 <= i -> ls !! Z.to_nat i = Some l -> line (of_lines minor ls) i = l.
Proof.
  intros Hi Hl. unfold line. simpl. rewrite zip_fst_snd.
  apply lookup_lt_Some in Hl as Hlt.
  assert (Ha := lookup_ptrs 0 ls (Z.to_nat i) ltac:(lia)).
  assert (Hb := lookup_ptrs 0 ls (Z.to_nat (i + 1)) ltac:(lia)).
  rewrite (nth_lookup_Z _ _ _ Ha), (nth_lookup_Z _ _ _ Hb).
  replace (Z.to_nat (i + 1)) with (S (Z.to_nat i)) by lia.
  rewrite (take_S_concat _ _ _ Hl), zlen_app.
  assert (Hle : zlen (concat (take (Z.to_nat i) ls)) + zlen l <= zlen (concat ls)).
  { rewrite <- zlen_app, <- (take_S_concat _ _ _ Hl).
    rewrite <- (take_drop (S (Z.to_nat i)) ls) at 2. rewrite concat_app, zlen_app.
    pose proof (zlen_nonneg (concat (drop (S (Z.to_nat i)) ls))). lia. }
  pose proof (zlen_nonneg l). pose proof (zlen_nonneg (concat (take (Z.to_nat i) ls))).
  rewrite py_slice_in by lia.
  replace (Z.to_nat (0 + (zlen (concat (take (Z.to_nat i) ls)) + zlen l) -
             (0 + zlen (concat (take (Z.to_nat i) ls))))) with (length l)
    by (unfold zlen; lia).
  replace (Z.to_nat (0 + zlen (concat (take (Z.to_nat i) ls))))
    with (length (concat (take (Z.to_nat i) ls))) by (unfold zlen; lia).
  apply drop_concat_take. done.
Qed.

Lemma lines_lookup m i : 0 <= i < n_major m -> lines m !! Z.to_nat i = Some (line m i).
Proof.
  intros Hi. unfold lines. apply (list_lookup_fmap_Some (line m)).
  exists i. split; [|reflexivity]. by apply lookup_py_range.
Qed.

Lemma lines_of_lines minor ls : lines (of_lines minor ls) = ls.
Proof.
  apply list_eq. intros k. unfold lines. simpl.
  change (map (line (of_lines minor ls)) (py_range (zlen ls)))
    with (line (of_lines minor ls) <$> py_range (zlen ls)).
  rewrite list_lookup_fmap.
  destruct (ls !! k) as [l|] eqn:E.
  - apply lookup_lt_Some in E as Hlt.
    replace k with (Z.to_nat (Z.of_nat k)) at 1 by lia.
    rewrite lookup_py_range by (unfold zlen; lia). simpl. f_equal.
    apply line_of_lines; [lia|]. rewrite Nat2Z.id. done.
  - apply lookup_ge_None in E.
    assert (py_range (zlen ls) !! k = None) as ->; [|done].
    apply lookup_ge_None. rewrite length_py_range. unfold zlen. lia.
Qed.

Lemma slot_of_lines minor ls i j v :
  0 <= minor -> lines_in_range minor ls ->
  ((exists k, slot (of_lines minor ls) i j k v) <->
   0 <= i /\ exists l, ls !! Z.to_nat i = Some l /\ (j, v) ∈ l).
Proof.
  intros Hm Hr. assert (Hwf := of_lines_wf minor ls Hm Hr). split.
  - intros [k Hk]. assert (Hk' := Hk). apply slot_range in Hk' as (Hi & _); [|done].
    split; [lia|]. simpl in Hi.
    destruct (lookup_lt_is_Some_2 ls (Z.to_nat i)) as [l Hl]; [unfold zlen in Hi; lia|].
    exists l. split; [done|]. rewrite <- (line_of_lines minor ls i l) by (done || lia).
    apply elem_of_line; [done|simpl; lia|eauto].
  - intros (Hi & l & Hl & Hj). apply elem_of_line; [done| |].
    + simpl. apply lookup_lt_Some in Hl. unfold zlen. lia.
    + rewrite (line_of_lines minor ls i l) by (done || lia). done.
Qed.

Lemma stored_of_lines minor ls i j :
  0 <= minor -> lines_in_range minor ls ->
  (stored (of_lines minor ls) i j <->
   0 <= i /\ exists l, ls !! Z.to_nat i = Some l /\ j ∈ map fst l).
Proof.
  intros Hm Hr. unfold stored. split.
  - intros (k & v & Hk). assert (exists k, slot (of_lines minor ls) i j k v) as H by eauto.
    apply slot_of_lines in H as (Hi & l & Hl & Hj); [|done..]. split; [done|].
    exists l. split; [done|]. apply elem_of_map. exists (j, v). done.
  - intros (Hi & l & Hl & Hj). apply elem_of_map in Hj as ([j' v] & -> & Hj).
    destruct (slot_of_lines minor ls i j' v Hm Hr) as [_ H].
    destruct H as [k Hk]; [split; [done|]; exists l; done|]. exists k, v. done.
Qed.

(** ** Conversion between csr and csc *)

Lemma elem_of_transpose_line m i j v :
  (i, v) ∈ concat (map (fun i => map (fun e => (i, snd e))
                                   (filter (fun e => fst e = j) (line m i)))
                     (py_range (n_major m)))
  <-> 0 <= i < n_major m /\ (j, v) ∈ line m i.
Proof.
  rewrite elem_of_concat. split.
  - intros (l & Hl & Hv). apply elem_of_map in Hl as (i' & -> & Hi').
    apply elem_of_py_range in Hi'.
    apply elem_of_map in Hv as ([j' v'] & [= <- <-] & Hf).
    apply elem_of_list_filter in Hf as [Hj Hf]. simpl in Hj. subst. done.
  - intros [Hi Hv]. eexists. split.
    + apply elem_of_map. exists i. split; [reflexivity|]. by apply elem_of_py_range.
    + apply elem_of_map. exists (j, v). split; [done|]. by apply elem_of_list_filter.
Qed.

Lemma lookup_transpose_lines m j : 0 <= j < n_minor m ->
  transpose_lines m !! Z.to_nat j =
  Some (concat (map (fun i => map (fun e => (i, snd e))
                                   (filter (fun e => fst e = j) (line m i)))
                     (py_range (n_major m)))).
Proof.
  intros Hj. unfold transpose_lines.
  apply (list_lookup_fmap_Some (fun j => concat (map (fun i => map (fun e => (i, snd e))
                                   (filter (fun e => fst e = j) (line m i)))
                     (py_range (n_major m))))).
  exists j. split; [|reflexivity]. by apply lookup_py_range.
Qed.

Lemma transpose_lines_in_range m : lines_in_range (n_major m) (transpose_lines m).
Proof.
  intros l i v Hl Hi. unfold transpose_lines in Hl. apply elem_of_map in Hl as (j & -> & _).
  apply elem_of_transpose_line in Hi. tauto.
Qed.

Lemma length_transpose_lines m : 0 <= n_minor m -> zlen (transpose_lines m) = n_minor m.
Proof. intros. unfold transpose_lines. rewrite zlen_map. by apply zlen_py_range. Qed.

Lemma flip_wf m : wf_cmat m = true -> wf_cmat (flip_cmat m) = true.
Proof.
  intros Hwf. apply wf_cmat_facts in Hwf as []. apply of_lines_wf; [done|].
  apply transpose_lines_in_range.
Qed.

Lemma flip_slot m i j v : wf_cmat m = true ->
  ((exists k, slot (flip_cmat m) j i k v) <-> (exists k, slot m i j k v)).
Proof.
  intros Hwf. apply wf_cmat_facts in Hwf as F. unfold flip_cmat.
  rewrite slot_of_lines; [|by destruct F|apply transpose_lines_in_range]. split.
  - intros (Hj & l & Hl & Hi). apply lookup_lt_Some in Hl as Hlt.
    assert (0 <= j < n_minor m) as Hj'.
    { pose proof (length_transpose_lines m (wff_minor _ F)) as E. unfold zlen in E. lia. }
    rewrite lookup_transpose_lines in Hl by done. injection Hl as <-.
    apply elem_of_transpose_line in Hi as [Hi Hv]. by apply elem_of_line.
  - intros [k Hk]. assert (Hk' := Hk). apply slot_range in Hk' as (Hi & Hj & _); [|done].
    split; [lia|]. eexists. split; [by apply lookup_transpose_lines|].
    apply elem_of_transpose_line. split; [done|]. apply elem_of_line; eauto.
Qed.

Lemma flip_stored m i j : wf_cmat m = true -> (stored (flip_cmat m) j i <-> stored m i j).
Proof.
  intros Hwf. unfold stored. split.
  - intros (k & v & H). assert (exists k, slot (flip_cmat m) j i k v) as E by eauto.
    apply (flip_slot m i j v Hwf) in E as [k' E]. exists k', v. done.
  - intros (k & v & H). assert (exists k, slot m i j k v) as E by eauto.
    apply (flip_slot m i j v Hwf) in E as [k' E]. exists k', v. done.
Qed.

Lemma tocsc_has m i j : wf_cmat (csr_mat m) = true -> (csc_has (tocsc m) i j <-> csr_has m i j).
Proof. intros. by apply flip_stored. Qed.

(** ** Binary matrices *)

Lemma line_lookup m i : wf_cmat m = true -> 0 <= i < n_major m ->
  exists a, 0 <= a /\ forall p j v, line m i !! p = Some (j, v) <-> slot m i j (a + Z.of_nat p) v.
Proof.
  intros Hwf Hi. destruct (wf_ptr m i Hwf Hi) as (a & b & Ha & Hb & Hab & Hbl).
  exists a. split; [lia|]. intros p j v.
  unfold line. rewrite (nth_lookup_Z _ _ _ Ha), (nth_lookup_Z _ _ _ Hb).
  apply wf_cmat_facts in Hwf as F. destruct F.
  rewrite py_slice_in; [|lia|].
  2: { unfold zlen in *. rewrite zip_with_length. lia. }
  rewrite lookup_take_Some, lookup_drop, lookup_zip_with_Some. split.
  - intros [(x & y & [= <- <-] & Hx & Hy) Hp]. exists a, b.
    replace (Z.to_nat (a + Z.of_nat p)) with (Z.to_nat a + p)%nat by lia.
    repeat split; try done; lia.
  - intros (a' & b' & ? & Ha' & Hb' & ? & ? & Hj & Hv).
    assert (a' = a) as -> by congruence. assert (b' = b) as -> by congruence.
    replace (Z.to_nat (a + Z.of_nat p)) with (Z.to_nat a + p)%nat in Hj, Hv by lia.
    split; [|lia]. exists j, v. done.
Qed.

Lemma binary_line_NoDup m i : wf_cmat m = true -> binary m -> 0 <= i < n_major m ->
  NoDup (map fst (line m i)).
Proof.
  intros Hwf [_ Hu] Hi. destruct (line_lookup m i Hwf Hi) as (a & Ha & Hl).
  apply NoDup_alt. intros p q j Hp Hq.
  apply (list_lookup_fmap_Some fst) in Hp as ([j1 v1] & Hp & ->).
  apply (list_lookup_fmap_Some fst) in Hq as ([j2 v2] & Hq & Hj). simpl in Hj. subst j2.
  apply Hl in Hp. apply Hl in Hq. specialize (Hu _ _ _ _ _ _ Hp Hq). lia.
Qed.

Lemma binary_line_value m i j v : wf_cmat m = true -> binary m -> 0 <= i < n_major m ->
  (j, v) ∈ line m i -> v = 1.
Proof.
  intros Hwf [Hv _] Hi H. apply elem_of_line in H as [k H]; [|done..]. eauto.
Qed.

(** Executable test for [binary]. *)
Definition binary_b (m : cmat) : bool :=
  forallb (fun v => v =? 1) (data m) &&
  forallb (fun i => bool_decide (NoDup (map fst (line m i)))) (py_range (n_major m)).

Lemma binary_b_ok m : wf_cmat m = true -> binary_b m = true -> binary m.
Proof.
  intros Hwf H. apply andb_prop in H as [Hd Hn].
  rewrite forallb_forall in Hd, Hn. split.
  - intros i j k v (a & b & _ & _ & _ & _ & _ & _ & Hv).
    apply elem_of_list_lookup_2, elem_of_list_In in Hv. apply Hd in Hv. lia.
  - intros i j k k' v v' H1 H2.
    assert (R := H1). apply slot_range in R as (Hi & _ & _); [|done].
    assert (Hnd : NoDup (map fst (line m i))).
    { apply (bool_decide_eq_true_1 _). apply Hn. apply elem_of_list_In. by apply elem_of_py_range. }
    destruct (line_lookup m i Hwf Hi) as (a & Ha & Hl).
    assert (Hpos : forall k v, slot m i j k v -> a <= k).
    { clear -Hl Ha Hwf Hi. intros k v Hs. assert (Hs' := Hs).
      destruct Hs' as (a' & b' & ? & Ha' & Hb' & ? & ? & ? & ?).
      (* the first stored slot of line i is at position a' *)
      destruct (wf_ptr m i Hwf Hi) as (a0 & b0 & Ha0 & Hb0 & ? & Hb0l).
      assert (a0 = a') as -> by congruence. assert (b0 = b') as -> by congruence.
      destruct (decide (a <= k)) as [|Hlt]; [done|]. exfalso.
      assert (Hlen : length (line m i) = Z.to_nat (b' - a')).
      { unfold line. rewrite (nth_lookup_Z _ _ _ Ha'), (nth_lookup_Z _ _ _ Hb').
        apply wf_cmat_facts in Hwf as F. destruct F.
        rewrite py_slice_in; [|lia|unfold zlen in *; rewrite zip_with_length; lia].
        rewrite take_length, drop_length, zip_with_length. unfold zlen in *. lia. }
      destruct (lookup_lt_is_Some_2 (line m i) (Z.to_nat (b' - a') - 1)) as [[j' v''] Hlast]; [lia|].
      apply Hl in Hlast. destruct Hlast as (a2 & b2 & _ & E1 & E2 & ? & ? & _).
      assert (a2 = a') as -> by congruence. assert (b2 = b') as -> by congruence. lia. }
    assert (P1 := Hpos _ _ H1). assert (P2 := Hpos _ _ H2).
    assert (E1 := H1). assert (E2 := H2).
    replace k with (a + Z.of_nat (Z.to_nat (k - a))) in E1 by lia.
    replace k' with (a + Z.of_nat (Z.to_nat (k' - a))) in E2 by lia.
    apply Hl in E1. apply Hl in E2.
    assert (Z.to_nat (k - a) = Z.to_nat (k' - a)) as E.
    { apply (NoDup_lookup (map fst (line m i)) _ _ j Hnd);
        apply (list_lookup_fmap_Some fst); eexists; split; eauto. }
    lia.
Qed.
