(** Lemmas on corset/greedy/base.py: prediction and coverage. *)
From Coq Require Import Reals Lra.
From Verif.Model Require Import PyBase PyReal Sparse Utils Rule GreedyBase.
From Verif.Spec Require Import SMatrix SRule SPredict.
From Verif.Proofs Require Import PBase PSparse PUtils PRule PSets PRuleMetric.
Open Scope Z_scope.

(** ** lil assignment *)

Lemma lil_set1_ok l rows i j :
  0 <= i < zlen rows -> 0 <= j < l ->
  lil_set1 (Lil l rows) i j = Ok (Lil l (alter (fun r => {[j]} ∪ r) (Z.to_nat i) rows)).
Proof.
  intros Hi Hj. unfold lil_set1. simpl.
  assert (j <? 0 = false) as -> by lia. assert (j <? 0 = false) as -> by lia.
  assert (l <=? j = false) as -> by lia. simpl.
  destruct (py_index_in_range rows i Hi) as (r & -> & Hr). simpl.
  rewrite py_setitem_ok by done. simpl. do 2 f_equal.
  apply list_eq. intros k. destruct (decide (k = Z.to_nat i)) as [->|Hne].
  - rewrite list_lookup_insert by (unfold zlen in Hi; lia).
    rewrite list_lookup_alter, Hr. done.
  - rewrite list_lookup_insert_ne, list_lookup_alter_ne by done. done.
Qed.

Lemma lil_set_list_ok l rows i js :
  0 <= i < zlen rows -> (forall j, j ∈ js -> 0 <= j < l) ->
  rfold (fun m j => lil_set1 m i j) (Lil l rows) js =
  Ok (Lil l (alter (fun r => py_set js ∪ r) (Z.to_nat i) rows)).
Proof.
  revert rows. induction js as [|j js IH]; intros rows Hi Hjs; simpl.
  - rewrite list_alter_id; [done|]. intros x. set_solver.
  - rewrite lil_set1_ok by (done || apply Hjs; left). simpl.
    rewrite IH.
    + do 2 f_equal. rewrite <- list_alter_compose. apply list_eq. intros k.
      destruct (decide (k = Z.to_nat i)) as [->|Hne].
      * rewrite !list_lookup_alter. destruct (rows !! Z.to_nat i); simpl; [|done].
        f_equal. apply set_eq. unfold py_set. set_solver.
      * rewrite !list_lookup_alter_ne by done. done.
    + unfold zlen in *. rewrite alter_length. done.
    + intros j' Hj'. apply Hjs. by right.
Qed.

(** ** predict in closed form *)

(** labels fired by [rules] on a row with the given features *)
Definition pred_set (rules : list rule) (F : gset Z) : gset Z :=
  py_set (concat (map r_tail (List.filter (fun r => head_in r F) rules))).

Lemma elem_of_pred_set rules F j :
  j ∈ pred_set rules F <-> exists r, r ∈ rules /\ (forall f, f ∈ r_head r -> f ∈ F) /\ j ∈ r_tail r.
Proof.
  unfold pred_set. rewrite elem_of_py_set, elem_of_concat. split.
  - intros (l & Hl & Hj). apply elem_of_map in Hl as (r & -> & Hr).
    apply elem_of_lfilter in Hr as [Hh Hr]. exists r. split_and!; try done.
    unfold head_in in Hh. apply bool_decide_eq_true in Hh. intros f Hf. apply Hh.
    by apply elem_of_py_set.
  - intros (r & Hr & Hh & Hj). exists (r_tail r). split; [|done]. apply elem_of_map.
    exists r. split; [done|]. apply elem_of_lfilter. split; [|done].
    unfold head_in. apply bool_decide_eq_true. intros f Hf. apply Hh. by apply elem_of_py_set.
Qed.

Lemma predict_row_ok rules l rows i F :
  0 <= i < zlen rows -> (forall r j, r ∈ rules -> j ∈ r_tail r -> 0 <= j < l) ->
  predict_row rules i F (Lil l rows) =
  Ok (Lil l (alter (fun r => pred_set rules F ∪ r) (Z.to_nat i) rows)).
Proof.
  unfold predict_row. revert rows. induction rules as [|r rules IH]; intros rows Hi Hr; simpl.
  - rewrite list_alter_id; [done|]. intros x. unfold pred_set. simpl. set_solver.
  - destruct (head_in r F) eqn:Eh.
    + rewrite lil_set_list_ok by (done || (intros j Hj; eapply Hr; [left|done])). simpl.
      rewrite IH.
      * do 2 f_equal. rewrite <- list_alter_compose. apply list_eq. intros k.
        destruct (decide (k = Z.to_nat i)) as [->|Hne].
        -- rewrite !list_lookup_alter. destruct (rows !! Z.to_nat i); simpl; [|done].
           f_equal. apply set_eq. intros x. unfold pred_set. simpl. rewrite Eh. simpl.
           unfold py_set. rewrite list_to_set_app_L. set_solver.
        -- rewrite !list_lookup_alter_ne by done. done.
      * unfold zlen in *. rewrite alter_length. done.
      * intros r' j Hr' Hj. eapply Hr; [right|]; done.
    + simpl. rewrite IH; [|done|].
      * unfold pred_set. simpl. rewrite Eh. done.
      * intros r' j Hr' Hj. eapply Hr; [right|]; done.
Qed.

Lemma predict_loop_ok rules l done0 rest :
  (forall r j, r ∈ rules -> j ∈ r_tail r -> 0 <= j < l) ->
  rfold (fun m p => predict_row rules (fst p) (snd p) m)
    (Lil l (done0 ++ replicate (length rest) ∅))
    (zip (seqZ (zlen done0) (zlen rest)) rest) =
  Ok (Lil l (done0 ++ map (pred_set rules) rest)).
Proof.
  intros Hr. revert done0. induction rest as [|F rest IH]; intros done0; simpl.
  - done.
  - rewrite (seqZ_cons (zlen done0)) by (rewrite zlen_cons; pose proof (zlen_nonneg rest); lia).
    simpl. rewrite predict_row_ok; [|rewrite zlen_app, zlen_cons; pose proof (zlen_nonneg done0);
      pose proof (zlen_nonneg (replicate (length rest) (∅:gset Z))); lia|done].
    simpl. replace (Z.to_nat (zlen done0)) with (length done0 + 0)%nat by (unfold zlen; lia).
    rewrite alter_app_r. simpl.
    specialize (IH (done0 ++ [pred_set rules F])).
    rewrite <- !(assoc_L app) in IH. simpl in IH.
    replace (Z.succ (zlen done0)) with (zlen (done0 ++ [pred_set rules F]))
      by (rewrite zlen_app; unfold zlen; simpl; lia).
    replace (Z.pred (zlen (F :: rest))) with (zlen rest) by (rewrite zlen_cons; lia).
    rewrite <- IH. do 4 f_equal. apply set_eq. set_solver.
Qed.

Lemma convert_v2_ok (X : csr) : wf_cmat (csr_mat X) = true ->
  exists sets, convert_matrix_to_sets_v2 X = Ok sets /\ zlen sets = csr_rows X /\
    forall i F, 0 <= i -> sets !! Z.to_nat i = Some F -> forall f, f ∈ F <-> csr_has X i f.
Proof.
  intros Hwf. unfold convert_matrix_to_sets_v2.
  assert (forall l, (forall i, i ∈ l -> 0 <= i < csr_rows X) ->
    exists sets, rmap (line_set (csr_mat X)) l = Ok sets) as H.
  { induction l as [|i l IH]; intros Hl; [by exists []|]. simpl.
    destruct (line_set_ok (csr_mat X) i Hwf) as (s & -> & _); [apply Hl; left|].
    destruct IH as (sets & ->); [intros i' Hi'; apply Hl; by right|]. simpl. eauto. }
  destruct (H (py_range (csr_rows X))) as (sets & E).
  { intros i Hi. by apply elem_of_py_range in Hi. }
  exists sets. apply rmap_ok in E as E'. split; [done|].
  apply Forall2_length in E' as El. split.
  { unfold zlen. rewrite <- El, length_py_range. apply wf_cmat_facts in Hwf as []. unfold csr_rows. lia. }
  intros i F Hi HF. assert (0 <= i < csr_rows X) as Hir.
  { apply lookup_lt_Some in HF. rewrite <- El, length_py_range in HF. lia. }
  destruct (line_set_ok (csr_mat X) i Hwf Hir) as (s & Es & Hs).
  assert (Hl := lookup_py_range _ _ Hir).
  eapply Forall2_lookup_lr in E'; [|exact Hl|exact HF]. simpl in E'.
  rewrite Es in E'. by simplify_eq.
Qed.

Definition pred_csr (rules : list rule) (l : Z) (sets : list (gset Z)) : csr :=
  lil_tocsr (Lil l (map (pred_set rules) sets)).

Lemma predict_ok {P} (e : est P) (X : csr) nl :
  e_num_labels e = Some nl -> wf_cmat (csr_mat X) = true ->
  (forall r j, r ∈ e_rules e -> j ∈ r_tail (sr_rule r) -> 0 <= j < nl) ->
  exists sets, convert_matrix_to_sets_v2 X = Ok sets /\
    predict e X = Ok (pred_csr (map sr_rule (e_rules e)) nl sets).
Proof.
  intros Hnl Hwf Hr. unfold predict. rewrite Hnl.
  destruct (convert_v2_ok X Hwf) as (sets & Es & Hlen & _). rewrite Es. simpl.
  exists sets. split; [done|]. unfold enumerate, lil_zeros, py_range.
  rewrite <- Hlen. replace (Z.to_nat (zlen sets)) with (length sets) by (unfold zlen; lia).
  pose proof (predict_loop_ok (map sr_rule (e_rules e)) nl [] sets) as H. simpl in H.
  change (zlen []) with 0 in H. rewrite H; [done|].
  intros r j Hr' Hj. apply elem_of_map in Hr' as (s & -> & Hs). eauto.
Qed.

(** ** lil_tocsr *)

Lemma lil_rows_in_range l (rows : list (gset Z)) :
  (forall r j, r ∈ rows -> j ∈ r -> 0 <= j < l) ->
  lines_in_range l (map (fun r => map (fun j => (j, 1)) (py_sorted (elements r))) rows).
Proof.
  intros H. unfold lines_in_range. intros ln j v Hln He.
  apply elem_of_map in Hln as (r & -> & Hr). apply elem_of_map in He as (j' & Ej & Hj).
  simplify_eq. rewrite py_sorted_perm in Hj. apply elem_of_elements in Hj. eauto.
Qed.

Lemma lil_tocsr_facts l (rows : list (gset Z)) :
  0 <= l -> (forall r j, r ∈ rows -> j ∈ r -> 0 <= j < l) ->
  let m := lil_tocsr (Lil l rows) in
  wf_cmat (csr_mat m) = true /\ csr_rows m = zlen rows /\ csr_cols m = l /\
  (forall i j, csr_has m i j <-> 0 <= i /\ exists r, rows !! Z.to_nat i = Some r /\ j ∈ r) /\
  binary (csr_mat m).
Proof.
  intros Hl H m. assert (Hin := lil_rows_in_range l rows H).
  assert (Hwf : wf_cmat (csr_mat m) = true) by (apply of_lines_wf; done).
  split_and!; try done.
  - unfold csr_rows. simpl. by rewrite zlen_map.
  - intros i j. unfold csr_has, m. simpl. rewrite stored_of_lines by done.
    split; intros [Hi Hx]; split; try done.
    + destruct Hx as (ln & Hln & Hj). rewrite list_lookup_fmap in Hln.
      apply fmap_Some in Hln as (r & Hr & ->). exists r. split; [done|].
      rewrite map_map in Hj. simpl in Hj. rewrite map_id in Hj.
      rewrite py_sorted_perm in Hj. by apply elem_of_elements in Hj.
    + destruct Hx as (r & Hr & Hj). eexists. rewrite list_lookup_fmap, Hr. split; [done|].
      rewrite map_map. simpl. rewrite map_id, py_sorted_perm. by apply elem_of_elements.
  - apply binary_b_ok; [done|]. unfold binary_b. apply andb_true_intro. split.
    + apply forallb_forall. intros v Hv. apply elem_of_list_In in Hv. unfold m in Hv. simpl in Hv.
      apply elem_of_map in Hv as ([j v'] & -> & Hv). apply elem_of_concat in Hv as (ln & Hln & Hv).
      apply elem_of_map in Hln as (r & -> & Hr). apply elem_of_map in Hv as (j' & E & _).
      by simplify_eq.
    + apply forallb_forall. intros i Hi. apply elem_of_list_In, elem_of_py_range in Hi.
      apply bool_decide_eq_true. unfold m in *. simpl in *. rewrite zlen_map in Hi.
      destruct (lookup_lt_is_Some_2 rows (Z.to_nat i)) as [r Hr]; [unfold zlen in Hi; lia|].
      erewrite line_of_lines; [|lia|by rewrite list_lookup_fmap, Hr].
      rewrite map_map. simpl. rewrite map_id, py_sorted_perm. apply NoDup_elements.
Qed.

(** ** zeroing cells of a csr matrix *)

(** Sum of the values of a line whose minor index satisfies f. *)
Definition psum (f : Z -> bool) (l : list (Z * Z)) : Z :=
  zsum (map snd (List.filter (fun e => f (fst e)) l)).

Lemma psum_app f l l' : psum f (l ++ l') = psum f l + psum f l'.
Proof. unfold psum. rewrite List.filter_app, map_app, zsum_app. done. Qed.

Lemma psum_set0_line f j l :
  psum f (set0_line j l) = psum (fun x => f x && negb (x =? j)) l.
Proof.
  unfold set0_line. case_bool_decide as Hj.
  - clear Hj. unfold psum. induction l as [|[k v] l IH]; simpl; [done|].
    destruct (Z.eqb_spec k j) as [->|Hne]; simpl.
    + rewrite andb_false_r. destruct (f j); simpl; lia.
    + rewrite andb_true_r. destruct (f k); simpl; lia.
  - rewrite psum_app. assert (psum f [(j, 0)] = 0) as ->.
    { unfold psum. simpl. destruct (f j); done. }
    rewrite Z.add_0_r. unfold psum. do 2 f_equal. apply List.filter_ext_in.
    intros [k v] Hk. simpl. destruct (Z.eqb_spec k j) as [->|Hne]; simpl.
    + exfalso. apply Hj. apply elem_of_map. exists (j, v). split; [done|]. by apply elem_of_list_In.
    + by rewrite andb_true_r.
Qed.

Lemma zsum_snd_concat (ls : list (list (Z * Z))) :
  zsum (map snd (concat ls)) = zsum (map (psum (fun _ => true)) ls).
Proof.
  induction ls as [|l ls IH]; simpl; [done|]. rewrite map_app, zsum_app, IH. f_equal.
  unfold psum. f_equal. f_equal. induction l; simpl; congruence.
Qed.

Lemma concat_lines m : wf_cmat m = true -> concat (lines m) = zip (indices m) (data m).
Proof.
  intros Hwf. assert (F := Hwf). apply wf_cmat_facts in F.
  assert (forall n, Z.of_nat n <= n_major m -> exists b, indptr m !! n = Some b /\ 0 <= b <= zlen (indices m) /\
    concat (map (line m) (py_range (Z.of_nat n))) = take (Z.to_nat b) (zip (indices m) (data m))) as H.
  { induction n as [|n IH]; intros Hn.
    - exists 0. split; [apply F|]. split; [pose proof (zlen_nonneg (indices m)); lia|done].
    - destruct IH as (a & Ha & Har & IH); [lia|].
      destruct (wf_ptr m (Z.of_nat n) Hwf) as (a' & b & Ha' & Hb & Hab & Hbl); [lia|].
      rewrite Nat2Z.id in Ha'. assert (a' = a) as -> by congruence.
      replace (Z.to_nat (Z.of_nat n + 1)) with (S n) in Hb by lia.
      exists b. split; [done|]. split; [lia|].
      unfold py_range in *. rewrite Nat2Z.inj_succ, <- Z.add_1_r, seqZ_app by lia.
      rewrite map_app, concat_app, IH.
      replace (seqZ (0 + Z.of_nat n) 1) with [Z.of_nat n] by (rewrite seqZ_cons by lia; f_equal; lia).
      cbn [map concat]. rewrite app_nil_r. unfold line. rewrite Nat2Z.id.
      replace (Z.to_nat (Z.of_nat n + 1)) with (S n) by lia.
      rewrite (nth_lookup_Z _ _ _ Ha), (nth_lookup_Z _ _ _ Hb).
      rewrite py_slice_in; [|lia|].
      2: { unfold zlen in *. rewrite zip_with_length. destruct F. unfold zlen in *. lia. }
      rewrite take_take_drop. f_equal. lia. }
  destruct F. destruct (H (Z.to_nat (n_major m))) as (b & Hb & Hbl & E); [lia|].
  rewrite Z2Nat.id in E by done. unfold lines. rewrite E.
  rewrite wff_last in Hb. simplify_eq. apply take_ge. rewrite zip_with_length. unfold zlen in *. lia.
Qed.

Lemma zip_snd (a b : list Z) : length a = length b -> map snd (zip a b) = b.
Proof. revert b. induction a; intros [|y b] H; simpl in *; try done. f_equal. auto. Qed.
Lemma zip_fst (a b : list Z) : length a = length b -> map fst (zip a b) = a.
Proof. revert b. induction a; intros [|y b] H; simpl in *; try done. f_equal. auto. Qed.

Lemma msum_lines m : wf_cmat m = true -> msum m = zsum (map (psum (fun _ => true)) (lines m)).
Proof.
  intros Hwf. rewrite <- zsum_snd_concat, concat_lines by done. unfold msum.
  apply wf_cmat_facts in Hwf as []. rewrite zip_snd; [done|]. unfold zlen in *. lia.
Qed.

Lemma nnz_lines m : wf_cmat m = true -> nnz m = zlen (concat (lines m)).
Proof.
  intros Hwf. rewrite concat_lines by done. apply wf_cmat_facts in Hwf as [].
  unfold nnz. assert (indptr m <> []) as Hne by (intros E; rewrite E in wff_hd; done).
  pose proof (last_lookup_list _ Hne) as Hl.
  replace (length (indptr m) - 1)%nat with (Z.to_nat (n_major m)) in Hl by (unfold zlen in *; lia).
  rewrite wff_last in Hl. simplify_eq.
  unfold zlen in *. rewrite zip_with_length. lia.
Qed.

(** m is Y with the cells of cs zeroed *)
Record zeroed (Y m : csr) (cs : gset (Z * Z)) : Prop := {
  zr_rows : csr_rows m = csr_rows Y;
  zr_cols : csr_cols m = csr_cols Y;
  zr_sum : msum (csr_mat m) = zsum (map (psum (fun _ => true)) (lines (csr_mat m)));
  zr_psum : forall i f, 0 <= i < csr_rows Y ->
    psum f (line (csr_mat m) i) = psum (fun j => f j && negb (bool_decide ((i, j) ∈ cs))) (line (csr_mat Y) i)
}.

Lemma psum_ext f g l : (forall x, f x = g x) -> psum f l = psum g l.
Proof. intros H. unfold psum. do 2 f_equal. apply List.filter_ext. intros e. apply H. Qed.

Lemma zeroed_init (Y : csr) : wf_cmat (csr_mat Y) = true -> zeroed Y Y ∅.
Proof.
  intros Hwf. constructor; try done.
  - by apply msum_lines.
  - intros i f Hi. apply psum_ext. intros x. rewrite bool_decide_eq_false_2; [|set_solver].
    by rewrite andb_true_r.
Qed.

Lemma zeroed_step (Y m : csr) (cs : gset (Z * Z)) i j :
  zeroed Y m cs -> 0 <= i < csr_rows Y -> 0 <= j < csr_cols Y ->
  exists m', csr_set0 m i j = Ok m' /\ zeroed Y m' ({[(i, j)]} ∪ cs).
Proof.
  intros Hz Hi Hj. destruct Hz. unfold csr_set0, norm_col.
  assert (i <? 0 = false) as -> by lia. assert (j <? 0 = false) as -> by lia.
  rewrite zr_rows0, zr_cols0.
  assert (i <? 0 = false) as -> by lia. assert (j <? 0 = false) as -> by lia.
  assert (csr_rows Y <=? i = false) as -> by lia. assert (csr_cols Y <=? j = false) as -> by lia.
  simpl. eexists. split; [reflexivity|].
  constructor; simpl; try done.
  - unfold csr_rows in *. simpl. unfold zlen. rewrite alter_length. unfold lines.
    rewrite map_length, length_py_range, zr_rows0. lia.
  - rewrite lines_of_lines. unfold msum, of_lines. simpl. apply zsum_snd_concat.
  - intros i0 f Hi0. assert (Hl : lines (csr_mat m) !! Z.to_nat i0 = Some (line (csr_mat m) i0)).
    { apply lines_lookup. unfold csr_rows in *. lia. }
    destruct (decide (i0 = i)) as [->|Hne].
    + erewrite line_of_lines; [|lia|by rewrite list_lookup_alter, Hl].
      rewrite psum_set0_line, zr_psum0 by done. apply psum_ext. intros x.
      rewrite <- andb_assoc. f_equal. rewrite <- negb_orb. f_equal.
      apply eq_bool_prop_intro. rewrite bool_decide_spec, orb_True, bool_decide_spec, Is_true_true.
      rewrite Z.eqb_eq. set_solver.
    + erewrite line_of_lines; [|lia|rewrite list_lookup_alter_ne by lia; exact Hl].
      rewrite zr_psum0 by done. apply psum_ext. intros x. do 2 f_equal.
      apply bool_decide_ext. set_solver.
Qed.

Lemma zeroed_cells (Y m : csr) (cs : gset (Z * Z)) (l : list (Z * Z)) :
  zeroed Y m cs -> (forall c, c ∈ l -> 0 <= fst c < csr_rows Y /\ 0 <= snd c < csr_cols Y) ->
  exists m', rfold (fun m c => csr_set0 m (fst c) (snd c)) m l = Ok m' /\ zeroed Y m' (list_to_set l ∪ cs).
Proof.
  revert m cs. induction l as [|[i j] l IH]; intros m cs Hz Hl; simpl.
  - exists m. split; [done|]. replace (∅ ∪ cs) with cs by (apply set_eq; set_solver). done.
  - destruct (zeroed_step Y m cs i j Hz) as (m' & -> & Hz'); [apply (Hl (i, j)); left..|].
    simpl. destruct (IH m' _ Hz') as (m'' & E & Hz''); [intros c Hc; apply Hl; by right|].
    exists m''. split; [done|].
    replace ({[(i, j)]} ∪ list_to_set l ∪ cs) with (list_to_set l ∪ ({[(i, j)]} ∪ cs)); [done|].
    apply set_eq. set_solver.
Qed.

(** cells covered by some rule of the list *)
Definition union_occs (bs : list bound) : gset (Z * Z) := ⋃ (map label_occs bs).

Lemma elem_of_union_occs bs c : c ∈ union_occs bs <-> exists b, b ∈ bs /\ c ∈ label_occs b.
Proof.
  unfold union_occs. rewrite elem_of_union_list. split.
  - intros (s & Hs & Hc). apply elem_of_map in Hs as (b & -> & Hb). eauto.
  - intros (b & Hb & Hc). exists (label_occs b). split; [|done]. apply elem_of_map. eauto.
Qed.

Lemma zeroed_rules (ord : gset Z -> list Z) (Y m : csr) (cs : gset (Z * Z)) (bs : list bound) :
  set_order ord -> zeroed Y m cs ->
  (forall b c, b ∈ bs -> c ∈ label_occs b -> 0 <= fst c < csr_rows Y /\ 0 <= snd c < csr_cols Y) ->
  exists m', rfold (fun m s =>
               let! supp := sr_support s in
               rfold (fun m c => csr_set0 m (fst c) (snd c)) m (product (ord supp) (r_tail (sr_rule s))))
             m (map Bound bs) = Ok m' /\ zeroed Y m' (union_occs bs ∪ cs).
Proof.
  intros Hord. revert m cs. induction bs as [|b bs IH]; intros m cs Hz Hl; simpl.
  - exists m. split; [done|]. unfold union_occs. simpl.
    replace (∅ ∪ cs) with cs by (apply set_eq; set_solver). done.
  - assert (Hc : forall c, c ∈ product (ord (b_support b)) (r_tail (b_rule b)) <-> c ∈ label_occs b).
    { intros [i j]. unfold product. rewrite elem_of_product, elem_of_label_occs.
      rewrite set_order_elem by done. done. }
    destruct (zeroed_cells Y m cs (product (ord (b_support b)) (r_tail (b_rule b))) Hz) as (m' & -> & Hz').
    { intros c Hc'. apply Hc in Hc'. eapply Hl; [left|done]. }
    simpl. destruct (IH m' _ Hz') as (m'' & E & Hz''); [intros b' c Hb' Hc'; eapply Hl; [by right|done]|].
    exists m''. split; [done|].
    replace (union_occs (b :: bs) ∪ cs) with
      (union_occs bs ∪ (list_to_set (product (ord (b_support b)) (r_tail (b_rule b))) ∪ cs)); [done|].
    apply set_eq. intros c. rewrite !elem_of_union, elem_of_list_to_set, Hc.
    unfold union_occs. simpl. set_solver.
Qed.

(** all cells of a binary matrix, in storage order *)
Definition cell_list (Y : csr) : list (Z * Z) :=
  concat (map (fun i => map (fun e => (i, fst e)) (line (csr_mat Y) i)) (py_range (csr_rows Y))).

Lemma elem_of_cell_list (Y : csr) i j : wf_cmat (csr_mat Y) = true ->
  ((i, j) ∈ cell_list Y <-> csr_has Y i j).
Proof.
  intros Hwf. unfold cell_list. rewrite elem_of_concat. split.
  - intros (l & Hl & Hj). apply elem_of_map in Hl as (i' & -> & Hi). apply elem_of_py_range in Hi.
    apply elem_of_map in Hj as (e & E & He). simplify_eq. apply elem_of_line_fst; [done..|].
    apply elem_of_map. eauto.
  - intros Hs. apply stored_range in Hs as R; [|done]. destruct R as [Hi _].
    eexists. split; [apply elem_of_map; exists i; split; [reflexivity|by apply elem_of_py_range]|].
    apply elem_of_line_fst in Hs; [|done..]. apply elem_of_map in Hs as (e & -> & He).
    apply elem_of_map. eauto.
Qed.

Lemma NoDup_cell_list (Y : csr) : wf_cmat (csr_mat Y) = true -> binary (csr_mat Y) -> NoDup (cell_list Y).
Proof.
  intros Hwf Hb. unfold cell_list.
  assert (forall l, NoDup l -> (forall i, i ∈ l -> 0 <= i < csr_rows Y) ->
    NoDup (concat (map (fun i => map (fun e => (i, fst e)) (line (csr_mat Y) i)) l))) as H.
  { induction 1 as [|i l Hi Hl IH]; intros Hr; simpl; [constructor|].
    apply NoDup_app. split_and!.
    - rewrite <- (map_map fst (pair i)). apply NoDup_fmap_2; [intros ???; by simplify_eq|].
      apply binary_line_NoDup; [done..|]. apply Hr. left.
    - intros [i' j] H1 H2. apply elem_of_map in H1 as (e & E & _). simplify_eq.
      apply elem_of_concat in H2 as (l' & Hl' & H2). apply elem_of_map in Hl' as (i'' & -> & Hi'').
      apply elem_of_map in H2 as (e2 & E & _). by simplify_eq.
    - apply IH. intros i' Hi'. apply Hr. by right. }
  apply H; [apply NoDup_py_range|]. intros i Hi. by apply elem_of_py_range in Hi.
Qed.

Lemma psum_binary_count (f : Z -> bool) (l : list (Z * Z)) :
  (forall j v, (j, v) ∈ l -> v = 1) -> psum f l = zlen (List.filter f (map fst l)).
Proof.
  intros H. unfold psum. induction l as [|[j v] l IH]; simpl; [done|].
  assert (v = 1) as -> by (eapply H; left).
  destruct (f j); simpl; rewrite IH by (intros j' v' Hx; eapply H; by right).
  - rewrite zlen_cons. lia.
  - done.
Qed.

Lemma msum_zeroed (Y m : csr) (cs O : gset (Z * Z)) :
  wf_cmat (csr_mat Y) = true -> binary (csr_mat Y) -> zeroed Y m cs ->
  (forall c, c ∈ O <-> csr_has Y (fst c) (snd c)) ->
  msum (csr_mat m) = Z.of_nat (size (O ∖ cs)).
Proof.
  intros Hwf Hb Hz HO. destruct Hz. rewrite zr_sum0.
  assert (O ∖ cs = list_to_set (List.filter (fun c => negb (bool_decide (c ∈ cs))) (cell_list Y))) as ->.
  { apply set_eq. intros [i j]. rewrite elem_of_difference, elem_of_list_to_set, elem_of_lfilter, HO.
    rewrite elem_of_cell_list by done. simpl.
    rewrite negb_true_iff, bool_decide_eq_false. tauto. }
  rewrite size_list_to_set by (apply NoDup_lfilter, NoDup_cell_list; done).
  unfold lines. change (n_major (csr_mat m)) with (csr_rows m). rewrite zr_rows0.
  unfold cell_list.
  assert (forall l, (forall i, i ∈ l -> 0 <= i < csr_rows Y) ->
    zsum (map (psum (fun _ => true)) (map (line (csr_mat m)) l)) =
    zlen (List.filter (fun c => negb (bool_decide (c ∈ cs)))
       (concat (map (fun i => map (fun e => (i, fst e)) (line (csr_mat Y) i)) l)))) as H.
  { induction l as [|i l IH]; intros Hl; simpl; [done|].
    rewrite IH by (intros i' Hi'; apply Hl; by right). rewrite List.filter_app, zlen_app. f_equal.
    assert (0 <= i < csr_rows Y) as Hi by (apply Hl; left).
    rewrite zr_psum0 by done. simpl.
    rewrite psum_binary_count by (intros j v Hjv; by eapply binary_line_value).
    rewrite <- (map_map fst (pair i)).
    generalize (map fst (line (csr_mat Y) i)). clear. intros l.
    induction l as [|j l IH]; simpl; [done|].
    destruct (negb _); simpl; rewrite ?zlen_cons, ?IH; done. }
  rewrite H; [done|]. intros i Hi. by apply elem_of_py_range in Hi.
Qed.

Lemma nnz_binary (Y : csr) (O : gset (Z * Z)) :
  wf_cmat (csr_mat Y) = true -> binary (csr_mat Y) ->
  (forall c, c ∈ O <-> csr_has Y (fst c) (snd c)) -> nnz (csr_mat Y) = Z.of_nat (size O).
Proof.
  intros Hwf Hb HO. rewrite nnz_lines by done.
  assert (O = list_to_set (cell_list Y)) as ->.
  { apply set_eq. intros [i j]. rewrite elem_of_list_to_set, HO, elem_of_cell_list by done. done. }
  rewrite size_list_to_set by (apply NoDup_cell_list; done).
  unfold cell_list, lines, csr_rows. unfold zlen. f_equal.
  induction (py_range _) as [|i l IH]; simpl; [done|]. rewrite !app_length, map_length. lia.
Qed.

(** ** telescoping *)

Lemma union_occs_app bs b : union_occs (bs ++ [b]) = union_occs bs ∪ new_cells b bs.
Proof.
  apply set_eq. intros c. rewrite elem_of_union, !elem_of_union_occs, elem_of_new_cells. split.
  - intros (b' & Hb' & Hc). apply elem_of_app in Hb' as [Hb'|Hb'].
    + left. eauto.
    + apply elem_of_list_singleton in Hb' as ->.
      destruct (decide (c ∈ union_occs bs)) as [H|H].
      * left. by apply elem_of_union_occs.
      * right. split; [done|]. intros r Hr Hcr. apply H. apply elem_of_union_occs. eauto.
  - intros [(b' & Hb' & Hc)|[Hc _]]; [exists b'|exists b]; rewrite elem_of_app, elem_of_list_singleton; auto.
Qed.

Lemma size_union_occs_app bs b :
  size (union_occs (bs ++ [b])) = (size (union_occs bs) + size (new_cells b bs))%nat.
Proof.
  rewrite union_occs_app. apply size_union. intros c H1 H2.
  apply elem_of_union_occs in H1 as (b' & Hb' & Hc). apply elem_of_new_cells in H2 as [_ H2].
  by eapply H2.
Qed.

Fixpoint marg_list (pre bs : list bound) : list Z :=
  match bs with
  | [] => []
  | b :: bs' => Z.of_nat (size (new_cells b pre)) :: marg_list (pre ++ [b]) bs'
  end.

Lemma union_occs_telescope pre bs :
  Z.of_nat (size (union_occs (pre ++ bs))) = Z.of_nat (size (union_occs pre)) + zsum (marg_list pre bs).
Proof.
  revert pre. induction bs as [|b bs IH]; intros pre; simpl.
  - rewrite app_nil_r. lia.
  - specialize (IH (pre ++ [b])). rewrite <- (assoc_L app) in IH. simpl in IH.
    rewrite IH, size_union_occs_app. lia.
Qed.

Lemma lookup_marg_list pre bs k b : bs !! k = Some b ->
  marg_list pre bs !! k = Some (Z.of_nat (size (new_cells b (pre ++ take k bs)))).
Proof.
  revert pre k. induction bs as [|b' bs IH]; intros pre [|k] Hk; simpl in *; try done.
  - simplify_eq. by rewrite app_nil_r.
  - rewrite (IH _ _ Hk), <- (assoc_L app). done.
Qed.

Lemma length_marg_list pre bs : length (marg_list pre bs) = length bs.
Proof. revert pre. induction bs; intros; simpl; auto. Qed.

Lemma rsum_IZR_div l n : (rsum (map (fun z => IZR z / n) l) = IZR (zsum l) / n)%R.
Proof.
  induction l as [|z l IH]; simpl; [unfold Rdiv; lra|]. rewrite IH, plus_IZR. unfold Rdiv. lra.
Qed.
