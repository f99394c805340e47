(** Lemmas on corset/utils.py. *)
From Verif.Model Require Import PyBase Sparse Utils.
From Verif.Spec Require Import SMatrix.
From Verif.Proofs Require Import PBase PSparse.

Lemma line_set_ok m i : wf_cmat m = true -> 0 <= i < n_major m ->
  exists s, line_set m i = Ok s /\ forall j, j ∈ s <-> stored m i j.
Proof.
  intros Hwf Hi. destruct (wf_ptr m i Hwf Hi) as (a & b & Ha & Hb & Hab & Hbl).
  unfold line_set.
  assert (py_index (indptr m) i = Ok a) as -> by (apply py_index_ok; [lia|done]).
  assert (py_index (indptr m) (i + 1) = Ok b) as -> by (apply py_index_ok; [lia|done]).
  simpl. eexists. split; [done|]. intros j. rewrite elem_of_py_set, elem_of_py_slice by lia.
  apply wf_cmat_facts in Hwf as F. destruct F. split.
  - intros (k & Hk & Hj).
    destruct (lookup_lt_is_Some_2 (data m) (Z.to_nat k)) as [v Hv].
    { apply lookup_lt_Some in Hj. unfold zlen in *. lia. }
    exists k, v, a, b. repeat split; try done; lia.
  - intros (k & v & a' & b' & ? & Ha' & Hb' & ? & ? & Hj & Hv).
    exists k. split; [|done]. assert (a' = a) by congruence. assert (b' = b) by congruence. lia.
Qed.

Lemma line_set_high m i : wf_cmat m = true -> n_major m <= i -> line_set m i = Err IndexError.
Proof.
  intros Hwf Hi. apply wf_cmat_facts in Hwf as F. destruct F. unfold line_set.
  destruct (py_index (indptr m) i) as [a|e] eqn:E; simpl.
  - rewrite py_index_high by lia. done.
  - unfold py_index in E. repeat case_match; congruence.
Qed.

Lemma in_every_spec el sets : in_every el sets = true <-> forall s, s ∈ sets -> el ∈ s.
Proof.
  induction sets as [|s sets IH]; simpl.
  - split; [|done]. intros _ s Hs. inversion Hs.
  - case_bool_decide as E.
    + rewrite IH. split; intros H t Ht.
      * apply elem_of_cons in Ht as [->|Ht]; auto.
      * apply H. set_solver.
    + split; [done|]. intros H. exfalso. apply E, H. set_solver.
Qed.

Lemma set_true_ok v rows :
  (forall i, i ∈ rows -> 0 <= i < zlen v) ->
  exists v', set_true v rows = Ok v' /\ length v' = length v /\
    forall k, v' !! k = Some true <->
              (Z.of_nat k ∈ rows \/ v !! k = Some true).
Proof.
  unfold set_true. revert v. induction rows as [|r rows IH]; intros v Hr; simpl.
  - exists v. split; [done|]. split; [done|]. intros k. split; [auto|].
    intros [H|H]; [inversion H|done].
  - rewrite py_setitem_ok by (apply Hr; set_solver). simpl.
    destruct (IH (<[Z.to_nat r:=true]> v)) as (v' & Hv' & Hl & Hk).
    { intros i Hi. unfold zlen. rewrite insert_length. apply Hr. set_solver. }
    exists v'. split; [done|]. split; [by rewrite Hl, insert_length|].
    intros k. rewrite Hk. assert (0 <= r < zlen v) by (apply Hr; set_solver).
    destruct (decide (k = Z.to_nat r)) as [->|Hne].
    + rewrite list_lookup_insert by (unfold zlen in *; lia). split; [|auto].
      intros _. left. rewrite Z2Nat.id by lia. set_solver.
    + rewrite list_lookup_insert_ne by done. rewrite elem_of_cons. split.
      * intros [?|?]; auto.
      * intros [[?|?]|?]; auto. lia.
Qed.

Lemma rmap_line_sets m cols :
  wf_cmat m = true -> (forall c, c ∈ cols -> 0 <= c < n_major m) ->
  exists sets, rmap (line_set m) cols = Ok sets /\ length sets = length cols /\
    forall i, (forall s, s ∈ sets -> i ∈ s) <-> (forall c, c ∈ cols -> stored m c i).
Proof.
  intros Hwf. induction cols as [|c cols IH]; intros Hc; simpl.
  - exists []. split; [done|]. split; [done|]. intros i.
    split; intros _ x Hx; inversion Hx.
  - destruct (line_set_ok m c Hwf) as (s & Hs & Hsj); [apply Hc; set_solver|].
    rewrite Hs. simpl. destruct IH as (sets & -> & Hl & Hi); [set_solver|]. simpl.
    exists (s :: sets). split; [done|]. split; [simpl; by rewrite Hl|].
    intros i. split.
    + intros H c' Hc'. apply elem_of_cons in Hc' as [->|Hc'].
      * apply Hsj, H. set_solver.
      * revert c' Hc'. apply Hi. intros t Ht. apply H. set_solver.
    + intros H t Ht. apply elem_of_cons in Ht as [->|Ht].
      * apply Hsj, H. set_solver.
      * revert t Ht. apply Hi. intros c' Hc'. apply H. set_solver.
Qed.

Lemma rmap_line_sets_bad m cols :
  wf_cmat m = true -> (forall c, c ∈ cols -> 0 <= c) -> (exists c, c ∈ cols /\ n_major m <= c) ->
  rmap (line_set m) cols = Err IndexError.
Proof.
  intros Hwf. induction cols as [|c cols IH]; intros Hpos (x & Hx & Hbad); [inversion Hx|].
  simpl. destruct (decide (n_major m <= c)) as [Hle|Hle].
  - rewrite line_set_high by done. done.
  - destruct (line_set_ok m c Hwf) as (s & -> & _).
    { split; [|lia]. apply Hpos. set_solver. }
    simpl. rewrite IH; [done|set_solver|]. exists x. split; [|done].
    apply elem_of_cons in Hx as [->|?]; [lia|done].
Qed.

(** Main characterisation of conjunctive_collapse_v2. *)
Lemma conj_v2_ok ord Y cols :
  set_order ord -> wf_cmat (csc_mat Y) = true -> cols <> [] ->
  (forall c, c ∈ cols -> 0 <= c < csc_cols Y) ->
  exists v, conjunctive_collapse_v2 ord Y cols = Ok v /\
    zlen v = csc_rows Y /\
    forall i, 0 <= i < csc_rows Y ->
      (v !! Z.to_nat i = Some true <-> forall c, c ∈ cols -> csc_has Y i c).
Proof.
  intros Hord Hwf Hne Hc. unfold conjunctive_collapse_v2.
  assert (zlen cols <=? 0 = false) as ->.
  { destruct cols; [done|]. rewrite zlen_cons. pose proof (zlen_nonneg cols). lia. }
  destruct (rmap_line_sets (csc_mat Y) cols Hwf Hc) as (sets & -> & Hlen & Hsets). simpl.
  assert (Hperm : merge_sort size_le sets ≡ₚ sets) by apply merge_sort_Permutation.
  destruct (merge_sort size_le sets) as [|smallest rest] eqn:E.
  { apply Permutation_length in Hperm. destruct cols; [done|]. simpl in *. lia. }
  apply wf_cmat_facts in Hwf as F. destruct F.
  assert (Hel : forall i, i ∈ List.filter (fun el => in_every el rest) (ord smallest) <->
                forall c, c ∈ cols -> csc_has Y i c).
  { intros i. rewrite elem_of_lfilter, in_every_spec, set_order_elem by done.
    unfold csc_has. rewrite <- Hsets. setoid_rewrite <- Hperm. split.
    - intros [H1 H2] s Hs. apply elem_of_cons in Hs as [->|Hs]; auto.
    - intros H. split; [intros s Hs|]; apply H; set_solver. }
  destruct (set_true_ok (replicate (Z.to_nat (csc_rows Y)) false)
              (List.filter (fun el => in_every el rest) (ord smallest))) as (v & Hv & Hl & Hk).
  { intros i Hi. rewrite Hel in Hi. unfold zlen. rewrite replicate_length.
    destruct cols as [|c cols]; [done|]. specialize (Hi c ltac:(set_solver)).
    apply stored_range in Hi; [|done]. unfold csc_rows. lia. }
  exists v. split; [done|]. split.
  { unfold zlen. rewrite Hl, replicate_length. unfold csc_rows. lia. }
  intros i Hi. rewrite Hk, Z2Nat.id by lia. rewrite <- Hel.
  split; [|auto]. intros [?|H]; [done|].
  apply lookup_replicate in H as [? _]. done.
Qed.

Lemma conj_v2_index_error ord Y cols :
  wf_cmat (csc_mat Y) = true -> (forall c, c ∈ cols -> 0 <= c) ->
  (exists c, c ∈ cols /\ csc_cols Y <= c) ->
  conjunctive_collapse_v2 ord Y cols = Err IndexError.
Proof.
  intros Hwf Hpos Hbad. unfold conjunctive_collapse_v2.
  assert (zlen cols <=? 0 = false) as ->.
  { destruct cols; [destruct Hbad as (? & H & _); inversion H|].
    rewrite zlen_cons. pose proof (zlen_nonneg cols). lia. }
  rewrite rmap_line_sets_bad by done. done.
Qed.

(** Boolean vectors and index sets *)

Lemma lookup_true_or_false (v : list bool) k :
  (k < length v)%nat -> v !! k = Some true \/ v !! k = Some false.
Proof. intros H. destruct (lookup_lt_is_Some_2 v k H) as [[] E]; auto. Qed.

Lemma elem_of_binary_vector_to_set v i :
  i ∈ binary_vector_to_set v <-> 0 <= i < zlen v /\ v !! Z.to_nat i = Some true.
Proof.
  unfold binary_vector_to_set. rewrite elem_of_py_set, elem_of_map. split.
  - intros ([i' b] & -> & H). apply elem_of_lfilter in H as [Hb H]. simpl in *. subst b.
    apply elem_of_list_lookup in H as [k Hk].
    apply lookup_zip_with_Some in Hk as (x & y & [= <- <-] & Hx & Hy).
    unfold py_range in Hx. apply lookup_seqZ in Hx as [-> Hk]. simpl.
    split; [lia|]. replace (Z.to_nat (0 + Z.of_nat k)) with k by lia. done.
  - intros [Hi Hv]. exists (i, true). split; [done|]. apply elem_of_lfilter. split; [done|].
    apply elem_of_list_lookup. exists (Z.to_nat i). apply lookup_zip_with_Some.
    exists i, true. split; [done|]. split; [by apply lookup_py_range|done].
Qed.

Lemma size_map_fst_filter (v : list bool) s n :
  length (List.filter snd (zip (seqZ s n) v)) = length (List.filter (fun b => b) (take (Z.to_nat n) v)).
Proof.
  revert s n. induction v as [|b v IH]; intros s n.
  - rewrite zip_with_nil_r, take_nil. done.
  - destruct (decide (n <= 0)) as [Hn|Hn].
    + rewrite seqZ_nil by lia. replace (Z.to_nat n) with 0%nat by lia. done.
    + rewrite seqZ_cons by lia. replace (Z.to_nat n) with (S (Z.to_nat (Z.pred n))) by lia.
      simpl. destruct b; simpl; rewrite IH; done.
Qed.

Lemma NoDup_map_fst_filter (v : list bool) n :
  NoDup (map fst (List.filter snd (zip (py_range n) v))).
Proof.
  assert (Hsub : forall (l : list Z) (w : list bool) x,
             x ∈ map fst (List.filter snd (zip l w)) -> x ∈ l).
  { induction l as [|y l IH]; intros w x; [done|]. destruct w as [|b w]; simpl.
    - intros H. inversion H.
    - destruct b; simpl; rewrite ?elem_of_cons; intros; naive_solver. }
  generalize (NoDup_py_range n). generalize (py_range n). intros l. revert v.
  induction l as [|x l IH]; intros v Hl; [constructor|].
  inversion Hl as [|? ? Hx Hl']; subst.
  destruct v as [|b v]; simpl; [constructor|].
  destruct b; simpl; [|auto]. constructor; [|auto].
  intros H. apply Hx. eapply Hsub; eauto.
Qed.

Lemma size_binary_vector_to_set v :
  Z.of_nat (size (binary_vector_to_set v)) = count_true v.
Proof.
  unfold binary_vector_to_set, py_set.
  rewrite size_list_to_set by apply NoDup_map_fst_filter.
  rewrite map_length. unfold py_range. rewrite size_map_fst_filter.
  unfold count_true, zlen. rewrite firstn_all2 by lia. done.
Qed.

(** ** Row sums of a binary matrix (conjunctive_collapse, support_size) *)

Lemma filter_sum_binary (l : list (Z * Z)) j :
  NoDup (map fst l) -> (forall i v, (i, v) ∈ l -> v = 1) ->
  (j ∈ map fst l -> zsum (map snd (filter (fun e => fst e = j) l)) = 1) /\
  (j ∉ map fst l -> zsum (map snd (filter (fun e => fst e = j) l)) = 0).
Proof.
  induction l as [|[i v] l IH]; intros Hnd Hv.
  - split; [intros H; inversion H|done].
  - simpl in Hnd. apply NoDup_cons in Hnd as [Hi Hnd].
    destruct IH as [IH1 IH2]; [done|intros i' v' H; apply (Hv i'); set_solver|].
    assert (v = 1) as -> by (apply (Hv i); set_solver).
    split; simpl; intros Hj.
    + destruct (decide (i = j)) as [->|Hne].
      * rewrite filter_cons_True by done. simpl. rewrite IH2 by done. lia.
      * rewrite filter_cons_False by done. apply IH1. set_solver.
    + rewrite filter_cons_False by (simpl; set_solver). apply IH2. set_solver.
Qed.

Lemma line_value_binary m i j : wf_cmat m = true -> binary m -> 0 <= i < n_major m ->
  (stored m i j -> line_value m i j = 1) /\ (~ stored m i j -> line_value m i j = 0).
Proof.
  intros Hwf Hb Hi. rewrite <- elem_of_line_fst by done. unfold line_value.
  apply filter_sum_binary; [by apply binary_line_NoDup|].
  intros i' v. by apply binary_line_value.
Qed.

Lemma rmap_norm_col n cols :
  (forall c, c ∈ cols -> 0 <= c < n) -> rmap (norm_col n) cols = Ok cols.
Proof.
  induction cols as [|c cols IH]; intros H; [done|]. simpl.
  assert (0 <= c < n) by (apply H; set_solver). unfold norm_col at 1.
  assert (c <? 0 = false) as -> by lia. assert (c <? 0 = false) as -> by lia.
  assert (n <=? c = false) as -> by lia. simpl. rewrite IH; [done|set_solver].
Qed.

Lemma zsum_all_ones (f : Z -> Z) (P : Z -> Prop) cols :
  (forall c, c ∈ cols -> (P c -> f c = 1) /\ (~ P c -> f c = 0)) ->
  (forall c, Decision (P c)) ->
  zsum (map f cols) <= zlen cols /\
  (zsum (map f cols) = zlen cols <-> forall c, c ∈ cols -> P c).
Proof.
  intros H Hdec. induction cols as [|c cols IH]; simpl.
  - split; [done|]. split; [|done]. intros _ c Hc. inversion Hc.
  - destruct IH as [IH1 IH2]; [intros c' Hc'; apply H; set_solver|].
    destruct (H c ltac:(set_solver)) as [H1 H2]. rewrite zlen_cons.
    destruct (Hdec c) as [HP|HP].
    + rewrite (H1 HP). split; [lia|]. split.
      * intros Hs c' Hc'. apply elem_of_cons in Hc' as [->|Hc']; [done|].
        revert c' Hc'. apply IH2. lia.
      * intros Ha. assert (zsum (map f cols) = zlen cols); [|lia].
        apply IH2. intros c' Hc'. apply Ha. set_solver.
    + rewrite (H2 HP). split; [lia|]. split; [lia|].
      intros Ha. exfalso. apply HP, Ha. set_solver.
Qed.

Lemma stored_dec m i j : wf_cmat m = true -> 0 <= i < n_major m -> Decision (stored m i j).
Proof.
  intros Hwf Hi. destruct (decide (j ∈ map fst (line m i))) as [H|H].
  - left. by apply elem_of_line_fst.
  - right. intros Hs. apply H. by apply elem_of_line_fst.
Qed.

Lemma col_sum_matches_ok Y cols :
  wf_cmat (csc_mat Y) = true -> binary (csc_mat Y) ->
  (forall c, c ∈ cols -> 0 <= c < csc_cols Y) ->
  exists v, col_sum_matches Y cols = Ok v /\
    zlen v = csc_rows Y /\
    forall i, 0 <= i < csc_rows Y ->
      (v !! Z.to_nat i = Some true <-> forall c, c ∈ cols -> csc_has Y i c).
Proof.
  intros Hwf Hb Hc. unfold col_sum_matches. rewrite rmap_norm_col by done. simpl.
  eexists. split; [reflexivity|].
  assert (0 <= csc_rows Y) by (apply wf_cmat_facts in Hwf as []; done).
  split; [rewrite zlen_map; by apply zlen_py_range|].
  intros i Hi.
  set (f := fun i0 => zsum (map (fun j => line_value (csc_mat Y) j i0) cols) =? zlen cols).
  assert (map f (py_range (csc_rows Y)) !! Z.to_nat i = Some (f i)) as ->.
  { apply (list_lookup_fmap_Some f). exists i. split; [by apply lookup_py_range|done]. }
  unfold f.
  assert (Hcols : forall c, c ∈ cols ->
            (csc_has Y i c -> line_value (csc_mat Y) c i = 1) /\
            (~ csc_has Y i c -> line_value (csc_mat Y) c i = 0)).
  { intros c Hcc. apply line_value_binary; [done|done|by apply Hc]. }
  assert (Hdec : forall c, Decision (csc_has Y i c)).
  { intros c. destruct (decide (0 <= c < csc_cols Y)) as [Hr|Hr].
    - by apply stored_dec.
    - right. intros Hs. apply stored_range in Hs; [|done]. unfold csc_cols in Hr. lia. }
  destruct (zsum_all_ones (fun j => line_value (csc_mat Y) j i) (csc_has Y i) cols Hcols Hdec)
    as [_ Hiff].
  rewrite <- Hiff. split.
  - intros [= E]. lia.
  - intros E. f_equal. lia.
Qed.

(** Boolean vectors of equal length with the same true positions are equal. *)
Lemma bool_vector_ext (v w : list bool) :
  zlen v = zlen w ->
  (forall i, 0 <= i < zlen v -> (v !! Z.to_nat i = Some true <-> w !! Z.to_nat i = Some true)) ->
  v = w.
Proof.
  intros Hl H. apply list_eq. intros k.
  destruct (decide (k < length v)%nat) as [Hk|Hk].
  - specialize (H (Z.of_nat k)). rewrite Nat2Z.id in H.
    unfold zlen in *.
    destruct (lookup_true_or_false v k) as [E1|E1]; [lia| |];
    destruct (lookup_true_or_false w k) as [E2|E2]; try lia; rewrite ?E1, ?E2; try done.
    + destruct H as [H _]; [lia|]. specialize (H E1). congruence.
    + destruct H as [_ H]; [lia|]. specialize (H E2). congruence.
  - unfold zlen in Hl. rewrite !lookup_ge_None_2 by lia. done.
Qed.

Lemma conj_v1_v2_agree ord Y cols :
  set_order ord -> wf_cmat (csc_mat Y) = true -> binary (csc_mat Y) -> cols <> [] ->
  (forall c, c ∈ cols -> 0 <= c < csc_cols Y) ->
  conjunctive_collapse Y cols = conjunctive_collapse_v2 ord Y cols.
Proof.
  intros Hord Hwf Hb Hne Hc.
  destruct (conj_v2_ok ord Y cols Hord Hwf Hne Hc) as (v & -> & Hl & Hv).
  destruct (col_sum_matches_ok Y cols Hwf Hb Hc) as (w & Hw & Hlw & Hvw).
  unfold conjunctive_collapse. rewrite Hw. f_equal. apply bool_vector_ext; [lia|].
  intros i Hi. rewrite Hv, Hvw by lia. done.
Qed.

(** number of rows having all columns *)
Lemma count_true_size v (S : gset Z) :
  (forall i, i ∈ S <-> 0 <= i < zlen v /\ v !! Z.to_nat i = Some true) ->
  count_true v = Z.of_nat (size S).
Proof.
  intros H. rewrite <- size_binary_vector_to_set.
  assert (binary_vector_to_set v = S) as ->; [|done].
  apply set_eq. intros i. rewrite elem_of_binary_vector_to_set. by rewrite H.
Qed.
