(** Proofs of the property theorems of Properties/P_GreedyBase.v. *)
From Coq Require Import Reals Lra.
From Verif.Model Require Import PyBase PyReal Sparse Utils Rule GreedyBase.
From Verif.Spec Require Import SMatrix SRule SPredict.
Open Scope Z_scope.
From Verif.Proofs Require Import PBase PSparse PUtils PRule PSets PRuleMetric PGreedyBase T_Rule.

Lemma dataset_tocsc (X Y : csr) :
  wf_cmat (csr_mat X) = true -> wf_cmat (csr_mat Y) = true -> csr_rows X = csr_rows Y ->
  dataset (tocsc X) (tocsc Y).
Proof.
  intros HX HY E. split_and!; [by apply flip_wf..|].
  unfold csc_rows, tocsc, csr_rows in *. simpl. done.
Qed.

Lemma tocsc_rows (Y : csr) : csc_rows (tocsc Y) = csr_rows Y.
Proof. done. Qed.

(** coverage_ratio of bound rules whose cells are occurrences *)
Lemma coverage_ratio_closed (ord : gset Z -> list Z) (Y : csr) (bs : list bound) (O : gset (Z * Z)) :
  set_order ord -> wf_cmat (csr_mat Y) = true -> binary (csr_mat Y) ->
  (forall c, c ∈ O <-> csr_has Y (fst c) (snd c)) -> O <> ∅ ->
  (forall b c, b ∈ bs -> c ∈ label_occs b -> c ∈ O) ->
  coverage_ratio_of ord Y (map Bound bs) =
    Ok (INR (size (union_occs bs)) / INR (size O))%R /\ union_occs bs ⊆ O.
Proof.
  intros Hord Hwf Hb HO Hne Hc.
  assert (Hsub : union_occs bs ⊆ O).
  { intros c Hx. apply elem_of_union_occs in Hx as (b & Hb' & Hx). eauto. }
  split; [|done]. unfold coverage_ratio_of.
  destruct (zeroed_rules ord Y Y ∅ bs Hord (zeroed_init Y Hwf)) as (m & -> & Hz).
  { intros b c Hb' Hx. specialize (Hc _ _ Hb' Hx). apply HO in Hc.
    apply stored_range in Hc; [|done]. done. }
  simpl. rewrite (msum_zeroed Y m _ O Hwf Hb Hz HO), (nnz_binary Y O Hwf Hb HO).
  assert (0 < size O)%nat as Hpos.
  { destruct (size O) eqn:E; [|lia]. apply size_0_iff in E. done. }
  unfold np_div. destruct (Z.eqb_spec (Z.of_nat (size O)) 0); [lia|]. simpl. f_equal.
  replace (union_occs bs ∪ ∅) with (union_occs bs) by (apply set_eq; set_solver).
  assert (size O = size (union_occs bs) + size (O ∖ union_occs bs))%nat as E.
  { rewrite <- size_union by set_solver. f_equal. apply union_difference_L. done. }
  rewrite <- !INR_IZR_INZ. rewrite E, plus_INR.
  assert (0 < INR (size (union_occs bs)) + INR (size (O ∖ union_occs bs)))%R.
  { rewrite <- plus_INR, <- E. apply (lt_INR 0). done. }
  field. lra.
Qed.

(** every covered cell is a label occurrence *)
Lemma covers_occ (X Y : csr) (h t : list Z) c : wf_cmat (csr_mat Y) = true ->
  covers (tocsc X) (tocsc Y) h t c -> csr_has Y (fst c) (snd c).
Proof. intros Hwf (_ & (_ & Hy) & Hc). apply tocsc_has; [done|]. by apply Hy. Qed.

Lemma bound_list_occs (ord : gset Z -> list Z) (X Y : csr) (rs : list (list Z * list Z * bound)) :
  set_order ord -> wf_cmat (csr_mat X) = true -> wf_cmat (csr_mat Y) = true -> csr_rows X = csr_rows Y ->
  (forall h t b, (h, t, b) ∈ rs -> (forall c, c ∈ t -> 0 <= c) /\
     bind_dataset ord (new_rule h t) (tocsc X) (tocsc Y) = Ok b) ->
  forall c, c ∈ union_occs (map snd rs) <->
    exists h t b, (h, t, b) ∈ rs /\ covers (tocsc X) (tocsc Y) h t c.
Proof.
  intros Hord HX HY Hr Hrs c. rewrite elem_of_union_occs. assert (Hd := dataset_tocsc X Y HX HY Hr).
  assert (forall h t b, (h, t, b) ∈ rs -> c ∈ label_occs b <-> covers (tocsc X) (tocsc Y) h t c) as Hcov.
  { intros h t b Hin. destruct (Hrs _ _ _ Hin) as [Hpos Hb].
    rewrite (label_occs_covers (tocsc X) (tocsc Y) (new_rule h t)) by (eapply bound_new; done).
    simpl. apply covers_perm; apply py_sorted_perm. }
  split.
  - intros (b & Hb & Hc). apply elem_of_map in Hb as ([[h t] b'] & E & Hin). simpl in E. subst b'.
    exists h, t, b. split; [done|]. by apply (Hcov h t b).
  - intros (h & t & b & Hin & Hc). exists b. split.
    + apply elem_of_map. exists (h, t, b). done.
    + by apply (Hcov h t b).
Qed.


Lemma C10_coverage_exact_proof : forall (P : Type) (ord : gset Z -> list Z) (e : est P) (X Y : csr)
    (rs : list (list Z * list Z * bound)) (occ cov : gset (Z * Z)),
  set_order ord -> wf_cmat (csr_mat X) = true -> wf_cmat (csr_mat Y) = true ->
  csr_rows X = csr_rows Y -> binary (csr_mat Y) ->
  e_train e = Some (X, Y) -> e_rules e = map (fun r => Bound (snd r)) rs ->
  (forall h t b, (h, t, b) ∈ rs -> (forall c, c ∈ t -> 0 <= c) /\
     bind_dataset ord (new_rule h t) (tocsc X) (tocsc Y) = Ok b) ->
  (forall c, c ∈ occ <-> csr_has Y (fst c) (snd c)) -> occ <> ∅ ->
  (forall c, c ∈ cov <-> exists h t b, (h, t, b) ∈ rs /\ covers (tocsc X) (tocsc Y) h t c) ->
  coverage_ratio ord e = Ok (INR (size cov) / INR (size occ))%R /\
  cov ⊆ occ /\ (0 <= INR (size cov) / INR (size occ) <= 1)%R.
Proof.
  intros P ord e X Y rs occ cov Hord HX HY Hr Hb He Hrules Hrs Hocc Hne Hcov.
  unfold coverage_ratio. rewrite He, Hrules.
  rewrite <- (map_map snd Bound).
  assert (Hu := bound_list_occs ord X Y rs Hord HX HY Hr Hrs).
  assert (cov = union_occs (map snd rs)) as -> by (apply set_eq; intros c; rewrite Hcov, Hu; done).
  destruct (coverage_ratio_closed ord Y (map snd rs) occ Hord HY Hb Hocc Hne) as [E Hsub].
  { intros b c Hb' Hc. apply Hocc.
    assert (c ∈ union_occs (map snd rs)) as Hx by (apply elem_of_union_occs; eauto).
    apply Hu in Hx as (h & t & b' & _ & Hx). by eapply covers_occ. }
  split; [done|]. split; [done|].
  apply subseteq_size in Hsub as Hle. rewrite !INR_IZR_INZ. apply IZR_div_range; [lia|].
  destruct (size occ) eqn:Es; [|lia]. apply size_0_iff in Es. done.
Qed.


Lemma C10_coverage_order_free_proof : forall (ord : gset Z -> list Z) (X Y : csr)
    (rs rs' : list (list Z * list Z * bound)),
  set_order ord -> wf_cmat (csr_mat X) = true -> wf_cmat (csr_mat Y) = true ->
  csr_rows X = csr_rows Y -> binary (csr_mat Y) -> (exists i j, csr_has Y i j) ->
  (forall h t b, (h, t, b) ∈ rs -> (forall c, c ∈ t -> 0 <= c) /\
     bind_dataset ord (new_rule h t) (tocsc X) (tocsc Y) = Ok b) ->
  (forall r, r ∈ rs <-> r ∈ rs') ->
  coverage_ratio_of ord Y (map (fun r => Bound (snd r)) rs) =
  coverage_ratio_of ord Y (map (fun r => Bound (snd r)) rs').
Proof.
  intros ord X Y rs rs' Hord HX HY Hr Hb (i0 & j0 & H0) Hrs Hsame.
  rewrite <- !(map_map snd Bound).
  set (occ := list_to_set (cell_list Y) : gset (Z * Z)).
  assert (Hocc : forall c, c ∈ occ <-> csr_has Y (fst c) (snd c)).
  { intros [i j]. unfold occ. rewrite elem_of_list_to_set, elem_of_cell_list by done. done. }
  assert (occ <> ∅) as Hne.
  { intros E. assert ((i0, j0) ∈ occ) as Hx by (apply Hocc; done). rewrite E in Hx. set_solver. }
  assert (Hin : forall rs, (forall h t b, (h, t, b) ∈ rs -> (forall c, c ∈ t -> 0 <= c) /\
     bind_dataset ord (new_rule h t) (tocsc X) (tocsc Y) = Ok b) ->
     forall b c, b ∈ map snd rs -> c ∈ label_occs b -> c ∈ occ).
  { intros rs0 Hrs0 b c Hb' Hc. apply Hocc.
    assert (c ∈ union_occs (map snd rs0)) as Hx by (apply elem_of_union_occs; eauto).
    apply (bound_list_occs ord X Y rs0) in Hx as (h & t & b' & _ & Hx); try done. by eapply covers_occ. }
  assert (Hrs' : forall h t b, (h, t, b) ∈ rs' -> (forall c, c ∈ t -> 0 <= c) /\
     bind_dataset ord (new_rule h t) (tocsc X) (tocsc Y) = Ok b).
  { intros h t b Hx. apply Hrs. by apply Hsame. }
  destruct (coverage_ratio_closed ord Y (map snd rs) occ) as [-> _]; try done; [by apply Hin|].
  destruct (coverage_ratio_closed ord Y (map snd rs') occ) as [-> _]; try done; [by apply Hin|].
  do 4 f_equal. apply set_eq. intros c.
  rewrite (bound_list_occs ord X Y rs), (bound_list_occs ord X Y rs') by done.
  setoid_rewrite Hsame. done.
Qed.


Lemma C10_coverage_telescopes_proof : forall (ord : gset Z -> list Z) (X Y : csr)
    (rs : list (list Z * list Z * bound)),
  set_order ord -> wf_cmat (csr_mat X) = true -> wf_cmat (csr_mat Y) = true ->
  csr_rows X = csr_rows Y -> binary (csr_mat Y) -> (exists i j, csr_has Y i j) ->
  (forall h t b, (h, t, b) ∈ rs -> (forall c, c ∈ t -> 0 <= c) /\
     bind_dataset ord (new_rule h t) (tocsc X) (tocsc Y) = Ok b) ->
  let bs := map snd rs in
  exists gains : list R,
    length gains = length bs /\
    (forall k b g, bs !! k = Some b -> gains !! k = Some g ->
       marginal_coverage_ratio Y (take k bs) b = Ok g /\ (0 <= g)%R) /\
    coverage_ratio_of ord Y (map Bound bs) = Ok (rsum gains).
Proof.
  intros ord X Y rs Hord HX HY Hr Hb (i0 & j0 & H0) Hrs bs.
  set (occ := list_to_set (cell_list Y) : gset (Z * Z)).
  assert (Hocc : forall c, c ∈ occ <-> csr_has Y (fst c) (snd c)).
  { intros [i j]. unfold occ. rewrite elem_of_list_to_set, elem_of_cell_list by done. done. }
  assert (occ <> ∅) as Hne.
  { intros E. assert ((i0, j0) ∈ occ) as Hx by (apply Hocc; done). rewrite E in Hx. set_solver. }
  assert (0 < size occ)%nat as Hpos.
  { destruct (size occ) eqn:E; [|lia]. apply size_0_iff in E. done. }
  exists (map (fun z => (IZR z / INR (size occ))%R) (marg_list [] bs)). split_and!.
  - rewrite map_length. apply length_marg_list.
  - intros k b g Hk Hg. rewrite list_lookup_fmap, (lookup_marg_list [] bs k b Hk) in Hg.
    simpl in Hg. simplify_eq. unfold marginal_coverage_ratio. rewrite marginal_coverage_size. simpl.
    destruct (Z.ltb_spec (Z.of_nat (size (new_cells b (take k bs)))) 0); [lia|].
    rewrite (nnz_binary Y occ HY Hb Hocc). unfold py_div.
    destruct (Z.eqb_spec (Z.of_nat (size occ)) 0); [lia|]. rewrite INR_IZR_INZ. split; [done|].
    apply Rmult_le_pos; [apply IZR_le; lia|]. left. apply Rinv_0_lt_compat, IZR_lt. lia.
  - destruct (coverage_ratio_closed ord Y bs occ) as [-> _]; try done.
    { intros b c Hb' Hc. apply Hocc.
      assert (c ∈ union_occs bs) as Hx by (apply elem_of_union_occs; eauto).
      apply (bound_list_occs ord X Y rs) in Hx as (h & t & b' & _ & Hx); try done.
      by eapply covers_occ. }
    rewrite rsum_IZR_div. pose proof (union_occs_telescope [] bs) as E. simpl in E.
    rewrite INR_IZR_INZ, E. done.
Qed.



Lemma predict_spec {P} (e : est P) (X : csr) nl :
  e_num_labels e = Some nl -> 0 <= nl -> wf_cmat (csr_mat X) = true ->
  (forall s j, s ∈ e_rules e -> j ∈ r_tail (sr_rule s) -> 0 <= j < nl) ->
  exists sets, predict e X = Ok (pred_csr (map sr_rule (e_rules e)) nl sets) /\ zlen sets = csr_rows X /\
   (forall i F, 0 <= i -> sets !! Z.to_nat i = Some F -> forall f, f ∈ F <-> csr_has X i f) /\
   (forall r j, r ∈ map (pred_set (map sr_rule (e_rules e))) sets -> j ∈ r -> 0 <= j < nl).
Proof.
  intros Hnl Hpos HX Hr. destruct (convert_v2_ok X HX) as (sets & Es & Hlen & HF).
  destruct (predict_ok e X nl Hnl HX Hr) as (sets' & Es' & E).
  rewrite Es in Es'. simplify_eq. exists sets'. split_and!; try done.
  intros r j H Hj. apply elem_of_map in H as (F & -> & _).
  apply elem_of_pred_set in Hj as (r & H & _ & Hj). apply elem_of_map in H as (s & -> & Hs). eauto.
Qed.

Lemma rfold_err {A S} (f : S -> A -> result S) s l x :
  (forall s a y, f s a = Err y -> y = IndexError) -> rfold f s l = Err x -> x = IndexError.
Proof.
  intros Hf. revert s. induction l as [|a l IH]; intros s H; simpl in H; [done|].
  destruct (f s a) eqn:E; simpl in H; [eauto|]. simplify_eq. eauto.
Qed.

Lemma py_index_err {A} (l : list A) i x : py_index l i = Err x -> x = IndexError.
Proof.
  unfold py_index. match goal with |- (if ?b then _ else _) = _ -> _ => destruct b end; [congruence|].
  destruct (l !! _); congruence.
Qed.

Lemma lil_set1_err m i j x : lil_set1 m i j = Err x -> x = IndexError.
Proof.
  unfold lil_set1. match goal with |- (if ?b then _ else _) = _ -> _ => destruct b end; [congruence|].
  destruct (py_index _ _) eqn:E; simpl; [|intros; simplify_eq; by eapply py_index_err].
  unfold py_setitem. match goal with |- rbind (if ?b then _ else _) _ = _ -> _ => destruct b end; simpl; congruence.
Qed.

Lemma predict_err {P} (e : est P) (X : csr) nl x :
  e_num_labels e = Some nl -> wf_cmat (csr_mat X) = true -> predict e X = Err x -> x = IndexError.
Proof.
  intros Hnl HX. unfold predict. rewrite Hnl.
  destruct (convert_v2_ok X HX) as (sets & -> & _). simpl.
  destruct (rfold _ _ _) eqn:E; simpl; [done|]. intros H. simplify_eq.
  eapply rfold_err; [|exact E]. intros m p y Hy. unfold predict_row in Hy.
  eapply rfold_err; [|exact Hy]. intros m' r y' Hy'. simpl in Hy'.
  destruct (head_in r _); [|done]. eapply rfold_err; [|exact Hy'].
  intros m1 j y1 H1. exact (lil_set1_err _ _ _ _ H1).
Qed.

Lemma C11_predict_exact_proof : forall (P : Type) (e : est P) (X : csr) (nl : Z),
  e_num_labels e = Some nl -> 0 <= nl -> wf_cmat (csr_mat X) = true ->
  (forall s j, s ∈ e_rules e -> j ∈ r_tail (sr_rule s) -> 0 <= j < nl) ->
  exists Yp, predict e X = Ok Yp /\
    wf_cmat (csr_mat Yp) = true /\ binary (csr_mat Yp) /\
    csr_rows Yp = csr_rows X /\ csr_cols Yp = nl /\
    forall i j, csr_has Yp i j <->
      fires (map (fun s => (r_head (sr_rule s), r_tail (sr_rule s))) (e_rules e)) X i j.
Proof.
  intros P e X nl Hnl Hpos HX Hr.
  destruct (predict_spec e X nl Hnl Hpos HX Hr) as (sets & E & Hlen & HF & Hrange).
  exists (pred_csr (map sr_rule (e_rules e)) nl sets). split; [done|].
  destruct (lil_tocsr_facts nl (map (pred_set (map sr_rule (e_rules e))) sets) Hpos Hrange)
    as (Hwf & Hrows & Hcols & Hhas & Hbin).
  unfold pred_csr. split_and!; try done.
  { rewrite Hrows, zlen_map. done. }
  intros i j. rewrite Hhas. unfold fires. split.
  - intros (Hi & r & Hl & Hj). rewrite list_lookup_fmap in Hl.
    apply fmap_Some in Hl as (F & HFl & ->). apply elem_of_pred_set in Hj as (r & Hr' & Hh & Hj).
    apply elem_of_map in Hr' as (s & -> & Hs). split.
    + apply lookup_lt_Some in HFl. unfold zlen in Hlen. lia.
    + exists (r_head (sr_rule s)), (r_tail (sr_rule s)). split_and!; try done.
      * apply elem_of_map. eauto.
      * intros f Hf. apply (HF i F); auto.
  - intros (Hi & h & t & Hin & Hh & Hj). split; [lia|].
    apply elem_of_map in Hin as (s & Es & Hs). simplify_eq.
    destruct (lookup_lt_is_Some_2 sets (Z.to_nat i)) as [F HFl]; [unfold zlen in Hlen; lia|].
    eexists. split; [by rewrite list_lookup_fmap, HFl|].
    apply elem_of_pred_set. exists (sr_rule s). split_and!; try done.
    + apply elem_of_map. eauto.
    + intros f Hf. apply (HF i F); [lia|done|]. by apply Hh.
Qed.


Lemma C11_predict_label_out_of_range_proof : forall (P : Type) (e : est P) (X : csr) (nl : Z),
  e_num_labels e = Some nl -> wf_cmat (csr_mat X) = true ->
  (exists s j i, s ∈ e_rules e /\ j ∈ r_tail (sr_rule s) /\ nl <= j /\ 0 <= j /\ 0 <= i < csr_rows X /\
     forall f, f ∈ r_head (sr_rule s) -> csr_has X i f) ->
  predict e X = Err IndexError.
Proof.
  intros P e X nl Hnl HX (s & j & i & Hs & Hj & Hbig & Hj0 & Hi & Hh).
  destruct (predict e X) as [Yp|x] eqn:E.
  2: { f_equal. exact (predict_err e X nl x Hnl HX E). }
  exfalso.
  unfold predict in E. rewrite Hnl in E.
  destruct (convert_v2_ok X HX) as (sets & Es & Hlen & HF). rewrite Es in E. simpl in E.
  apply rbind_ok in E as (ret & E & _).
  destruct (lookup_lt_is_Some_2 sets (Z.to_nat i)) as [F HFl]; [unfold zlen in Hlen; lia|].
  assert ((i, F) ∈ enumerate sets) as Hin.
  { unfold enumerate. apply elem_of_list_lookup. exists (Z.to_nat i).
    apply lookup_zip_with_Some. exists i, F. split_and!; try done. apply lookup_py_range. lia. }
  assert (Hkeep1 : forall m i j m', lil_set1 m i j = Ok m' -> lil_cols m' = lil_cols m).
  { intros m i' j' m' H. unfold lil_set1 in H.
    destruct ((if j' <? 0 then j' + lil_cols m else j') <? 0)%Z; [done|].
    destruct (lil_cols m <=? _); [done|]. simpl in H.
    apply rbind_ok in H as (? & _ & H). apply rbind_ok in H as (? & _ & H). by simplify_eq. }
  assert (Hkeep2 : forall i js m m', rfold (fun m j => lil_set1 m i j) m js = Ok m' -> lil_cols m' = lil_cols m).
  { intros i' js. induction js as [|j' js IH]; intros m m' H; simpl in H; [by simplify_eq|].
    apply rbind_ok in H as (m1 & H1 & H). apply IH in H. apply Hkeep1 in H1. congruence. }
  assert (Hbad1 : forall i js m m', j ∈ js -> lil_cols m = nl -> rfold (fun m j => lil_set1 m i j) m js = Ok m' -> False).
  { intros i' js. induction js as [|j' js IH]; intros m m' Hjs Hm H; simpl in H; [inversion Hjs|].
    apply rbind_ok in H as (m1 & H1 & H). apply elem_of_cons in Hjs as [<-|Hjs].
    - unfold lil_set1 in H1. destruct (Z.ltb_spec j 0); [lia|].
      destruct (Z.ltb_spec j 0); [lia|]. destruct (Z.leb_spec (lil_cols m) j); [done|lia].
    - eapply (IH m1); [done| |done]. apply Hkeep1 in H1. congruence. }
  assert (Hkeep3 : forall rules i F m m', predict_row rules i F m = Ok m' -> lil_cols m' = lil_cols m).
  { intros rules i' F'. unfold predict_row. induction rules as [|r rules IH]; intros m m' H; simpl in H; [by simplify_eq|].
    apply rbind_ok in H as (m1 & H1 & H). apply IH in H.
    destruct (head_in r F'); [apply Hkeep2 in H1|simplify_eq]; congruence. }
  assert (Hbad2 : forall rules m m', sr_rule s ∈ rules -> lil_cols m = nl -> predict_row rules i F m = Ok m' -> False).
  { unfold predict_row. induction rules as [|r rules IH]; intros m m' Hr Hm H; simpl in H; [inversion Hr|].
    apply rbind_ok in H as (m1 & H1 & H).
    apply elem_of_cons in Hr as [<-|Hr].
    - assert (head_in (sr_rule s) F = true) as Ehi.
      { unfold head_in. apply bool_decide_eq_true. intros f Hf. apply elem_of_py_set in Hf.
        apply (HF i F); [lia|done|]. by apply Hh. }
      rewrite Ehi in H1. by eapply Hbad1 in H1.
    - eapply (IH m1); [done| |done]. destruct (head_in r F); [apply Hkeep2 in H1|simplify_eq]; congruence. }
  assert (Hbad3 : forall l m m', (i, F) ∈ l -> lil_cols m = nl ->
    rfold (fun m p => predict_row (map sr_rule (e_rules e)) (fst p) (snd p) m) m l = Ok m' -> False).
  { induction l as [|p l IH]; intros m m' Hl Hm H; simpl in H; [inversion Hl|].
    apply rbind_ok in H as (m1 & H1 & H). apply elem_of_cons in Hl as [<-|Hl].
    - simpl in H1. eapply Hbad2; [|done|exact H1]. apply elem_of_map. eauto.
    - eapply (IH m1); [done| |done]. apply Hkeep3 in H1. congruence. }
  eapply Hbad3; [exact Hin| |exact E]. done.
Qed.



Lemma C12_predict_rule_set_proof : forall (P : Type) (e e' : est P) (X : csr) (nl : Z),
  e_num_labels e = Some nl -> e_num_labels e' = Some nl -> 0 <= nl -> wf_cmat (csr_mat X) = true ->
  (forall s j, s ∈ e_rules e -> j ∈ r_tail (sr_rule s) -> 0 <= j < nl) ->
  (forall h t, (exists s, s ∈ e_rules e /\ r_head (sr_rule s) = h /\ r_tail (sr_rule s) = t) <->
               (exists s, s ∈ e_rules e' /\ r_head (sr_rule s) = h /\ r_tail (sr_rule s) = t)) ->
  predict e X = predict e' X /\ is_ok (predict e X) = true.
Proof.
  intros P e e' X nl Hnl Hnl' Hpos HX Hr Hsame.
  assert (Hr' : forall s j, s ∈ e_rules e' -> j ∈ r_tail (sr_rule s) -> 0 <= j < nl).
  { intros s j Hs Hj. destruct (Hsame (r_head (sr_rule s)) (r_tail (sr_rule s))) as [_ Hx].
    destruct Hx as (s' & Hs' & _ & Et); [eauto|]. eapply Hr; [exact Hs'|]. by rewrite Et. }
  destruct (predict_ok e X nl Hnl HX Hr) as (sets & Es & ->).
  destruct (predict_ok e' X nl Hnl' HX Hr') as (sets' & Es' & ->).
  rewrite Es in Es'. simplify_eq. split; [|done]. f_equal. unfold pred_csr. do 2 f_equal.
  apply map_ext. intros F. apply set_eq. intros j. rewrite !elem_of_pred_set.
  assert (Hmem : forall e1 e2 : est P, (forall h t,
      (exists s, s ∈ e_rules e1 /\ r_head (sr_rule s) = h /\ r_tail (sr_rule s) = t) ->
      (exists s, s ∈ e_rules e2 /\ r_head (sr_rule s) = h /\ r_tail (sr_rule s) = t)) ->
      (exists r, r ∈ map sr_rule (e_rules e1) /\ (forall f, f ∈ r_head r -> f ∈ F) /\ j ∈ r_tail r) ->
      (exists r, r ∈ map sr_rule (e_rules e2) /\ (forall f, f ∈ r_head r -> f ∈ F) /\ j ∈ r_tail r)).
  { intros e1 e2 H (r & Hr1 & Hh & Hj). apply elem_of_map in Hr1 as (s & -> & Hs).
    destruct (H (r_head (sr_rule s)) (r_tail (sr_rule s))) as (s' & Hs' & Eh & Et); [eauto|].
    exists (sr_rule s'). rewrite Eh, Et. split_and!; try done. apply elem_of_map. eauto. }
  split; apply Hmem; intros h t; apply Hsame.
Qed.


Lemma C12_predict_local_monotone_proof : forall (P : Type) (e e' : est P) (X X' Yp Yp' : csr) (nl i i' : Z),
  e_num_labels e = Some nl -> e_num_labels e' = Some nl -> 0 <= nl ->
  wf_cmat (csr_mat X) = true -> wf_cmat (csr_mat X') = true ->
  (forall s j, s ∈ e_rules e' -> j ∈ r_tail (sr_rule s) -> 0 <= j < nl) ->
  (forall s, s ∈ e_rules e -> s ∈ e_rules e') ->
  0 <= i < csr_rows X -> 0 <= i' < csr_rows X' ->
  (forall f, csr_has X i f -> csr_has X' i' f) ->
  predict e X = Ok Yp -> predict e' X' = Ok Yp' ->
  forall j, csr_has Yp i j -> csr_has Yp' i' j.
Proof.
  intros P e e' X X' Yp Yp' nl i i' Hnl Hnl' Hpos HX HX' Hr' Hsub Hi Hi' Hf E E' j Hj.
  destruct (C11_predict_exact_proof P e X nl) as (Y1 & E1 & _ & _ & _ & _ & H1); try done.
  { intros s j' Hs. apply Hr'. auto. }
  destruct (C11_predict_exact_proof P e' X' nl) as (Y2 & E2 & _ & _ & _ & _ & H2); try done.
  rewrite E in E1. rewrite E' in E2. simplify_eq.
  apply H2. apply H1 in Hj as (_ & h & t & Hin & Hh & Hj). split; [done|].
  exists h, t. split_and!; try done; [|auto].
  apply elem_of_map in Hin as (s & Es & Hs). apply elem_of_map. eauto.
Qed.



Lemma C13_pickle_preserves_proof : forall (P : Type) (e : est P) (ord : gset Z -> list Z),
  let e' := est_setstate (est_getstate e) in
  e_params e' = e_params e /\
  map sr_rule (e_rules e') = map sr_rule (e_rules e) /\
  e_num_labels e' = e_num_labels e /\ e_num_features e' = e_num_features e /\
  (forall X, predict e' X = predict e X) /\
  coverage_ratio ord e' = Err AttributeError /\
  est_getstate e' = est_getstate e.
Proof.
  intros P e ord e'. destruct e as [p rs nl nf tr].
  assert (E : map sr_rule (e_rules e') = map sr_rule rs).
  { subst e'. unfold est_getstate, est_setstate. simpl. rewrite map_map, map_map.
    apply map_ext. intros s. simpl. destruct (sr_rule s) as [h t]. done. }
  split_and!; try done.
  - intros X. unfold predict. rewrite E. simpl. destruct nl; done.
  - unfold est_getstate. simpl. do 3 f_equal. rewrite map_map, map_map.
    apply map_ext. intros s. destruct (sr_rule s) as [h t]. done.
Qed.


Lemma C13_unpickled_coverage_unavailable_proof : forall (P : Type) (e : est P) (ord : gset Z -> list Z) (X Y : csr),
  e_rules e <> [] ->
  coverage_ratio ord (set_X_Y (est_setstate (est_getstate e)) X Y) = Err AttributeError.
Proof.
  intros P [p rs nl nf tr] ord X Y Hne. simpl in Hne. unfold coverage_ratio, est_getstate, est_setstate.
  simpl. destruct rs as [|s rs]; [done|]. done.
Qed.
