(** Proofs of the property theorems of Properties/P_Boley.v. *)
From Coq Require Import Lra Sorted.
From Verif.Model Require Import PyBase PyReal Sparse Utils Graph Cliques Trie Assign Rand RandR Cftp Boley.
From Verif.Spec Require Import SMatrix SAssign SCftp SBoley.
Open Scope Z_scope.
From Verif.Proofs Require Import PBase PSets PSparse PUtils PTrie PAssign PGraph PCliques PSubsets PGreedyBase PRand PRandR PUncovered T_Assign T_Graph T_Uncovered PCftp T_Cftp T_Convert PBoley.
Open Scope Z_scope.

Definition rset (rows : list (gset Z)) (i : Z) : gset Z := default ∅ (rows !! Z.to_nat i).
Definition bw (rows : list (gset Z)) (p n : Z) : Z :=
  (2 ^ Z.of_nat (size (rset rows p ∖ rset rows n)) - 1) * 2 ^ Z.of_nat (size (rset rows p ∩ rset rows n)).
Definition bwt (rows : list (gset Z)) (pos : list Z) (i : Z) : R :=
  if bool_decide (i ∈ pos) then IZR (2 ^ Z.of_nat (size (rset rows i)) - 1) else 1%R.

Lemma rset_ok rows i : 0 <= i < zlen rows -> py_index rows i = Ok (rset rows i).
Proof. intros Hi. destruct (py_index_in_range rows i Hi) as (r & E & Er). unfold rset. by rewrite E, Er. Qed.

Lemma rset_lookup rows i r : rows !! Z.to_nat i = Some r -> rset rows i = r.
Proof. intros E. unfold rset. by rewrite E. Qed.

Lemma size_split (P N : gset Z) : size P = (size (P ∖ N) + size (P ∩ N))%nat.
Proof.
  rewrite <- size_union by set_solver. f_equal. apply set_eq. intros x. destruct (decide (x ∈ N)); set_solver.
Qed.

Lemma between_bw (P N : gset Z) : patterns_between P N = (2 ^ Z.of_nat (size (P ∖ N)) - 1) * 2 ^ Z.of_nat (size (P ∩ N)).
Proof. unfold patterns_between. rewrite (size_split P N), Nat2Z.inj_add, Z.pow_add_r by lia. ring. Qed.

Lemma pow2_pos n : 0 < 2 ^ Z.of_nat n.
Proof. apply Z.pow_pos_nonneg; lia. Qed.

Lemma bw_nonneg rows p n : 0 <= bw rows p n.
Proof. unfold bw. pose proof (pow2_pos (size (rset rows p ∖ rset rows n))). pose proof (pow2_pos (size (rset rows p ∩ rset rows n))). nia. Qed.

Lemma bw_pos rows p n : 0 < bw rows p n <-> ~ rset rows p ⊆ rset rows n.
Proof.
  unfold bw. pose proof (pow2_pos (size (rset rows p ∩ rset rows n))). split.
  - intros Hb Hs. assert (rset rows p ∖ rset rows n = ∅) as E by (apply set_eq; set_solver). rewrite E, size_empty in Hb. lia.
  - intros Hs. apply disc_pos, size_pos_ne in Hs.
    assert (2 ^ 1 <= 2 ^ Z.of_nat (size (rset rows p ∖ rset rows n))) by (apply Z.pow_le_mono_r; lia). nia.
Qed.

Lemma bw_le rows p n : bw rows p n <= 2 ^ Z.of_nat (size (rset rows p)) - 1.
Proof.
  unfold bw. rewrite (size_split (rset rows p) (rset rows n)), Nat2Z.inj_add, Z.pow_add_r by lia.
  pose proof (pow2_pos (size (rset rows p ∩ rset rows n))). lia.
Qed.

Lemma bwd_ok rows pos : exists W, bds_weight_dict (zlen rows) rows pos = Ok W /\
  (forall i, 0 <= i < zlen rows -> W !! i = Some (bwt rows pos i)) /\ (forall i, ~ 0 <= i < zlen rows -> W !! i = None).
Proof.
  destruct (rfold_insert (bwt rows pos) (fun d i =>
    if bool_decide (i ∈ pos) then
      let! r := py_index rows i in Ok (<[i := IZR (2 ^ Z.of_nat (size r) - 1)]> d)
    else Ok (<[i := 1%R]> d)) (py_range (zlen rows))) with (d := (∅ : gmap Z R)) as (d' & E & Hd).
  - intros d i Hi. apply elem_of_py_range in Hi. rewrite (rset_ok rows i Hi). unfold bwt. by destruct (bool_decide (i ∈ pos)).
  - exists d'. split; [exact E|]. split.
    + intros i Hi. apply Hd. by apply elem_of_py_range.
    + intros i Hi. destruct (Hd i) as [_ H]. rewrite H; [apply lookup_empty|]. by rewrite elem_of_py_range.
Qed.

Lemma bwt_nonneg rows pos i : (0 <= bwt rows pos i)%R.
Proof. unfold bwt. case_bool_decide; [|lra]. apply (IZR_le 0). pose proof (pow2_pos (size (rset rows i))). lia. Qed.

Lemma pos_range' {A} (rows : list A) y p : length rows = length y -> p ∈ pos_indices y -> 0 <= p < zlen rows.
Proof. intros Hl. rewrite pos_sel, elem_of_sel. intros (Hp & v & Hv & _). apply lookup_lt_Some in Hv. unfold zlen. lia. Qed.
Lemma neg_range' {A} (rows : list A) y p : length rows = length y -> p ∈ neg_indices y -> 0 <= p < zlen rows.
Proof. intros Hl. rewrite neg_sel, elem_of_sel. intros (Hp & v & Hv & _). apply lookup_lt_Some in Hv. unfold zlen. lia. Qed.
Lemma neg_not_pos' y p : p ∈ neg_indices y -> p ∉ pos_indices y.
Proof. rewrite neg_sel, pos_sel, !elem_of_sel. intros (Hp & v & Hv & Hz) (_ & v' & Hv' & Hz'). assert (v = v') by congruence. subst. lia. Qed.
Lemma elem_of_pos y p : p ∈ pos_indices y <-> is_pos y p.
Proof. rewrite pos_sel, elem_of_sel. unfold is_pos. setoid_rewrite Z.ltb_lt. done. Qed.
Lemma elem_of_neg y p : p ∈ neg_indices y <-> is_neg y p.
Proof. rewrite neg_sel, elem_of_sel. unfold is_neg. setoid_rewrite Z.eqb_eq. split; [intros (? & v & ? & ->)|intros []]; eauto. Qed.

Lemma bds_dom rows y W : length rows = length y -> (forall i, 0 <= i < zlen rows -> W !! i = Some (bwt rows (pos_indices y) i)) ->
  dominated W W (pos_indices y) (neg_indices y) (boley_pair_weight rows) (bw rows).
Proof.
  intros Hl HW. split_and!.
  - intros p Hp. apply (pos_range' rows) in Hp; [|done]. rewrite (HW p Hp). eexists. split; [done|apply bwt_nonneg].
  - intros p Hp. apply (neg_range' rows) in Hp; [|done]. rewrite (HW p Hp). eexists. split; [done|apply bwt_nonneg].
  - intros p n a b Hp Hn. pose proof (pos_range' rows y p Hl Hp) as Hp'. pose proof (neg_range' rows y n Hl Hn) as Hn'.
    rewrite (HW p Hp'), (HW n Hn'). intros [= <-] [= <-]. split_and!.
    + unfold boley_pair_weight. rewrite (rset_ok _ _ Hp'), (rset_ok _ _ Hn'). done.
    + apply bw_nonneg.
    + unfold bwt. rewrite bool_decide_eq_true_2 by done. rewrite (bool_decide_eq_false_2 (n ∈ pos_indices y)) by (by apply neg_not_pos').
      rewrite Rmult_1_r. apply IZR_le, bw_le.
Qed.

Lemma bds_fit_inv cache X y s : bds_fit cache X y = Ok s -> boley_rows X y s ->
  (forall i, 0 <= i < zlen (bds_rows s) -> bds_weights s !! i = Some (bwt (bds_rows s) (pos_indices y) i)) /\
  bds_pos s = pos_indices y /\ bds_neg s = neg_indices y /\
  cftp_init (bds_weights s) (bds_weights s) (pos_indices y) (neg_indices y) (boley_pair_weight (bds_rows s)) 1024 = Ok (bds_cftp s) /\
  dominated (bds_weights s) (bds_weights s) (pos_indices y) (neg_indices y) (boley_pair_weight (bds_rows s)) (bw (bds_rows s)) /\
  length (bds_rows s) = length y.
Proof.
  unfold bds_fit. destruct (negb _); [done|]. destruct (match cache with Some r => Ok r | None => _ end) as [rows|] eqn:Ec; [|done]. cbn [rbind].
  destruct (bds_weight_dict (csr_rows X) rows (pos_indices y)) as [Wd|] eqn:Ew; [|done]. cbn [rbind].
  destruct (existsb _ _); [done|]. unfold boley_cftp_init.
  destruct (cftp_init Wd Wd (pos_indices y) (neg_indices y) (boley_pair_weight rows) 1024) as [c|] eqn:Ei; [|done]. cbn [rbind].
  destruct (_ || _); [done|]. cbn [rbind]. intros [= <-] (Hy & Hr). cbn [bds_rows bds_weights bds_pos bds_neg bds_cftp] in *.
  assert (Hl : length rows = length y) by (unfold zlen in *; lia).
  destruct (bwd_ok rows (pos_indices y)) as (W' & E & HW & _). rewrite Hr, Ew in E. injection E as <-.
  split_and!; try done. by eapply bds_dom.
Qed.

Lemma C38_count_proof : forall (rows : list (gset Z)) (p n : Z) (P N : gset Z),
  0 <= p -> 0 <= n -> rows !! Z.to_nat p = Some P -> rows !! Z.to_nat n = Some N ->
  exists L : list (gset Z), NoDup L /\ (forall T, T ∈ L <-> discriminates P N T) /\
    boley_pair_weight rows p n = Ok (zlen L) /\
    zlen L = (2 ^ Z.of_nat (size (P ∖ N)) - 1) * 2 ^ Z.of_nat (size (P ∩ N)) /\
    zlen L = 2 ^ Z.of_nat (size P) - 2 ^ Z.of_nat (size (P ∩ N)).
Proof.
  intros rows p n P N Hp Hn EP EN. exists (pats elements P N).
  assert (Ho : set_order elements) by (intros s; done).
  split; [by apply NoDup_pats|]. split; [intros T; by apply elem_of_pats|].
  rewrite length_pats by done. split; [|split; [done|apply eq_sym, between_bw]].
  pose proof (lookup_lt_Some _ _ _ EP). pose proof (lookup_lt_Some _ _ _ EN).
  unfold boley_pair_weight. rewrite (rset_ok rows p), (rset_ok rows n) by (unfold zlen; lia).
  by rewrite (rset_lookup _ _ _ EP), (rset_lookup _ _ _ EN).
Qed.


Lemma C38_uniform_proof : forall (ord : gset Z -> list Z) (fuel : nat) (P N : gset Z), set_order ord ->
  (forall o, rcan (bds_pattern fuel ord P N) o -> o = Err OutOfFuel \/ exists T, o = Ok T /\ discriminates P N T) /\
  (P ⊆ N -> forall o, rcan (bds_pattern fuel ord P N) o -> o = Err OutOfFuel) /\
  (~ P ⊆ N ->
     let e := ((1 / 2 ^ size (P ∖ N)) ^ fuel)%R in
     (0 <= e <= (1 / 2) ^ fuel)%R /\
     hprob (bds_pattern fuel ord P N) (Err OutOfFuel) e /\
     forall T, hprob (bds_pattern fuel ord P N) (Ok T)
       (if decide (discriminates P N T) then (1 - e) / IZR (2 ^ Z.of_nat (size P) - 2 ^ Z.of_nat (size (P ∩ N))) else 0)%R).
Proof.
  intros ord fuel P N Ho. split; [intros o; by apply pattern_can|]. split.
  { intros Hs o H. apply pattern_can in H as [?|(T & _ & HT1 & HT2)]; [done| |done]. exfalso. apply HT2. set_solver. }
  intros Hs e.
  assert (Hpow : (2 <= 2 ^ size (P ∖ N))%R).
  { pose proof (size_pos_ne _ (disc_pos P N Hs)) as H. destruct (size (P ∖ N)) as [|m]; [lia|]. simpl. pose proof (pow_R1_Rle 2 m ltac:(lra)). lra. }
  assert (He : e = ((/ 2 ^ size (P ∖ N)) ^ fuel)%R) by (unfold e, Rdiv; by rewrite Rmult_1_l).
  assert (Hinv : (0 < / 2 ^ size (P ∖ N) <= 1 / 2)%R).
  { split; [apply Rinv_0_lt_compat; lra|]. unfold Rdiv. rewrite Rmult_1_l. apply Rinv_le_contravar; lra. }
  split; [rewrite He; split; [apply pow_le; lra|apply pow_incr; lra]|].
  split.
  - unfold hprob. pose proof (pattern_expect ord fuel P N (fun o => if decide (o = Err OutOfFuel) then 1 else 0)%R Ho Hs) as H.
    rewrite rsum_zero in H by (intros; by rewrite decide_False).
    rewrite decide_True in H by done. rewrite Rmult_0_r, Rplus_0_l, Rmult_1_r, <- He in H. exact H.
  - intros T. unfold hprob. pose proof (pattern_expect ord fuel P N (fun o => if decide (o = Ok T) then 1 else 0)%R Ho Hs) as H.
    cbn beta in H. match type of H with hexpect _ _ (_ + _ * ?z)%R => assert (Ez : z = 0%R) by (by rewrite decide_False) end.
    rewrite Ez in H. rewrite Rmult_0_r, Rplus_0_r in H.
    rewrite length_pats, <- between_bw in H by done. unfold patterns_between in H. rewrite <- He in H.
    destruct (decide (discriminates P N T)) as [Hd|Hd].
    + rewrite (rsum_map_ext _ (fun x => 1 * (if decide (x = T) then 1 else 0))%R) in H.
      2:{ intros x _. rewrite Rmult_1_l. destruct (decide (x = T)) as [->|]; [by rewrite decide_True|rewrite decide_False; [done|congruence]]. }
      rewrite (rsum_indicator (fun _ => 1%R)) in H; [by rewrite Rmult_1_r in H|by apply NoDup_pats|by apply elem_of_pats].
    + rewrite rsum_zero in H; [by rewrite Rmult_0_r in H|]. intros x Hx. rewrite decide_False; [done|]. intros [= ->]. apply Hd. by eapply elem_of_pats.
Qed.


(** sums over the labelled rows *)
Lemma sel_sum P rows y (f : gset Z -> Z) : length rows = length y ->
  zsum (map (fun i => f (rset rows i)) (sel P y)) = zsum (map (fun ry : gset Z * Z => f (fst ry)) (List.filter (fun ry : gset Z * Z => P (snd ry)) (zip rows y))).
Proof.
  intros Hl. rewrite <- (map_map (rset rows) f), <- (map_map fst f). do 2 f_equal. apply (rows_sel_gen ∅). done.
Qed.

Lemma pattern_total_eq rows y : length rows = length y -> pattern_total rows y = total_weight (bw rows) (pos_indices y) (neg_indices y).
Proof.
  intros Hl. unfold pattern_total, total_weight. rewrite pos_sel, neg_sel.
  rewrite <- (sel_sum (fun v => 0 <? v) rows y (fun P => zsum (map (fun n : gset Z * Z => patterns_between P (fst n)) (List.filter (fun ry : gset Z * Z => snd ry =? 0) (zip rows y)))) Hl).
  f_equal. apply map_ext. intros p. rewrite <- (sel_sum (fun v => v =? 0) rows y (patterns_between (rset rows p)) Hl). f_equal. apply map_ext. intros n. apply between_bw.
Qed.

Lemma bproposal_mass rows y W : length rows = length y -> (forall i, 0 <= i < zlen rows -> W !! i = Some (bwt rows (pos_indices y) i)) ->
  (pmass W (pos_indices y) * pmass W (neg_indices y))%R = IZR (boley_proposal_total rows y).
Proof.
  intros Hl HW. unfold boley_proposal_total. rewrite mult_IZR, (n_neg_sel y). f_equal.
  - unfold pmass. rewrite <- (sel_sum (fun v => 0 <? v) rows y (fun r => 2 ^ Z.of_nat (size r) - 1) Hl), <- rsum_IZR. apply rsum_map_ext.
    intros p Hp. unfold pweight. rewrite HW by (by apply (pos_range' rows y)). unfold bwt. simpl. by rewrite bool_decide_eq_true_2.
  - unfold pmass. rewrite <- (Rmult_1_l (IZR (zlen _))), <- rsum_const. apply rsum_map_ext.
    intros p Hp. unfold pweight. rewrite HW by (by apply (neg_range' rows y)). unfold bwt. simpl. rewrite bool_decide_eq_false_2; [done|]. by apply neg_not_pos'.
Qed.

Definition bhit (rows : list (gset Z)) (T : gset Z) (p n : Z) : Z := if decide (discriminates (rset rows p) (rset rows n) T) then 1 else 0.

Lemma set_count_sel P rows y T : length rows = length y -> set_count P rows y T = zsum (map (fun i => if decide (T ⊆ rset rows i) then 1 else 0) (sel P y)).
Proof.
  intros Hl. pose proof (sel_sum P rows y (fun r : gset Z => if decide (T ⊆ r) then 1 else 0) Hl) as E. cbn beta in E. etransitivity; [|symmetry; exact E]. unfold set_count. generalize (zip rows y). intros l.
  induction l as [|[r v] l IH]; [done|]. cbn [List.filter fst snd]. destruct (P v).
  - cbn [map fst]. change (zsum (?a :: ?b)) with (a + zsum b). destruct (decide (T ⊆ r)).
    + rewrite bool_decide_eq_true_2 by done. cbn [andb]. rewrite <- IH. unfold zlen. cbn [length]. lia.
    + rewrite bool_decide_eq_false_2 by done. cbn [andb]. rewrite IH. lia.
  - rewrite andb_false_r. exact IH.
Qed.

Lemma zsum_cons a l : zsum (a :: l) = a + zsum l.
Proof. done. Qed.

Lemma zsum_map_ext' {A} (f g : A -> Z) l : (forall x, x ∈ l -> f x = g x) -> zsum (map f l) = zsum (map g l).
Proof. intros H. f_equal. apply map_ext_in. intros x Hx. apply H. by apply elem_of_list_In. Qed.

Lemma pattern_discrim_sum rows y T : length rows = length y ->
  pattern_discrim rows y T = zsum (map (fun p => zsum (map (bhit rows T p) (neg_indices y))) (pos_indices y)).
Proof.
  intros Hl. unfold pattern_discrim. rewrite !set_count_sel by done. rewrite (n_neg_sel y).
  assert (H : forall (l1 l2 : list Z), zsum (map (fun i => if decide (T ⊆ rset rows i) then 1 else 0) l1) *
      (zlen l2 - zsum (map (fun i => if decide (T ⊆ rset rows i) then 1 else 0) l2)) = zsum (map (fun p => zsum (map (bhit rows T p) l2)) l1)).
  { intros l1 l2. assert (H2 : forall p, zsum (map (bhit rows T p) l2) = (if decide (T ⊆ rset rows p) then 1 else 0) * (zlen l2 - zsum (map (fun i => if decide (T ⊆ rset rows i) then 1 else 0) l2))).
    { intros p. induction l2 as [|n l2 IH]; [destruct (decide (T ⊆ rset rows p)); reflexivity|]. cbn [map]. rewrite !zsum_cons, IH. unfold zlen. cbn [length]. unfold bhit, discriminates.
      destruct (decide (T ⊆ rset rows p)), (decide (T ⊆ rset rows n)), (decide _); try lia; tauto. }
    induction l1 as [|p l1 IH]; [done|]. cbn [map]. rewrite !zsum_cons, H2, <- IH. ring. }
  apply (H (pos_indices y) (neg_indices y)).
Qed.

Lemma pattern_discrim_pos rows y T : length rows = length y ->
  0 < pattern_discrim rows y T <-> exists p n, p ∈ pos_indices y /\ n ∈ neg_indices y /\ discriminates (rset rows p) (rset rows n) T.
Proof.
  intros Hl. rewrite pattern_discrim_sum by done.
  assert (Hh : forall p n, 0 <= bhit rows T p n) by (intros; unfold bhit; destruct (decide _); lia).
  split.
  - intros Hd. destruct (decide (Exists (fun p => Exists (fun n => discriminates (rset rows p) (rset rows n) T) (neg_indices y)) (pos_indices y))) as [He|He].
    + apply list.Exists_exists in He as (p & Hp & He). apply list.Exists_exists in He as (n & Hn & He). eauto.
    + exfalso. apply IZR_lt in Hd. rewrite <- rsum_IZR in Hd. rewrite rsum_zero in Hd; [lra|]. intros p Hp. rewrite <- rsum_IZR. apply rsum_zero. intros n Hn.
      unfold bhit. rewrite decide_False; [done|]. intros H. apply He. apply list.Exists_exists. exists p. split; [done|]. apply list.Exists_exists. eauto.
  - intros (p & n & Hp & Hn & Hd). apply lt_IZR. rewrite <- rsum_IZR.
    assert (Hnn : forall p, (0 <= IZR (zsum (map (bhit rows T p) (neg_indices y))))%R).
    { intros. rewrite <- rsum_IZR. apply rsum_nonneg. intros. by apply (IZR_le 0). }
    destruct (Rle_lt_or_eq_dec 0 _ (rsum_nonneg (fun p => IZR (zsum (map (bhit rows T p) (neg_indices y)))) (pos_indices y) (fun x _ => Hnn x))) as [H|H]; [done|].
    exfalso. symmetry in H. apply (rsum_zero_iff _ _ p) in H; [|auto|done]. cbn beta in H. rewrite <- rsum_IZR in H.
    apply (rsum_zero_iff _ _ n) in H; [|intros; by apply (IZR_le 0)|done]. cbn beta in H. unfold bhit in H. rewrite decide_True in H by done. lra.
Qed.

Lemma C35_boley_proof : forall (cache : option (list (gset Z))) (X : csr) (y : list Z) (s : bds) (p n : Z),
  bds_fit cache X y = Ok s -> boley_rows X y s -> is_pos y p -> is_neg y n ->
  exists (a b : R) (P N : gset Z), bds_weights s !! p = Some a /\ bds_weights s !! n = Some b /\
    bds_rows s !! Z.to_nat p = Some P /\ bds_rows s !! Z.to_nat n = Some N /\
    a = IZR (2 ^ Z.of_nat (size P) - 1) /\ b = 1%R /\
    let w := (2 ^ Z.of_nat (size P) - 2 ^ Z.of_nat (size (P ∩ N))) in
    boley_pair_weight (bds_rows s) p n = Ok w /\ 0 <= w /\ (IZR w <= a * b)%R /\ ((0 < a * b)%R -> (IZR w * 1 / (a * b * 1) <= 1)%R).
Proof.
  intros cache X y s p n Hfit Hb Hp Hn. destruct (bds_fit_inv _ _ _ _ Hfit Hb) as (HW & Ep & En & Ei & Hdom & Hl).
  apply elem_of_pos in Hp. apply elem_of_neg in Hn.
  pose proof (pos_range' (bds_rows s) y p Hl Hp) as Hp'. pose proof (neg_range' (bds_rows s) y n Hl Hn) as Hn'.
  destruct (py_index_in_range (bds_rows s) p Hp') as (P & _ & EP). destruct (py_index_in_range (bds_rows s) n Hn') as (N & _ & EN).
  exists (bwt (bds_rows s) (pos_indices y) p), (bwt (bds_rows s) (pos_indices y) n), P, N.
  rewrite (HW p Hp'), (HW n Hn'). split_and!; try done.
  - unfold bwt. rewrite bool_decide_eq_true_2 by done. by rewrite (rset_lookup _ _ _ EP).
  - unfold bwt. rewrite bool_decide_eq_false_2; [done|]. by apply neg_not_pos'.
  - cbn zeta. destruct (dom3 _ _ _ _ _ _ Hdom p n Hp Hn) as (H1 & H2 & H3).
    assert (Ew : bw (bds_rows s) p n = 2 ^ Z.of_nat (size P) - 2 ^ Z.of_nat (size (P ∩ N))).
    { pose proof (between_bw P N) as E. unfold bw. rewrite (rset_lookup _ _ _ EP), (rset_lookup _ _ _ EN). symmetry. exact E. }
    rewrite <- Ew. unfold pweight in H3. rewrite (HW p Hp'), (HW n Hn') in H3. cbn [default from_option Datatypes.id id] in H3.
    split_and!; try done. intros Hpos. rewrite !Rmult_1_r. apply (Rmult_le_reg_r (bwt (bds_rows s) (pos_indices y) p * bwt (bds_rows s) (pos_indices y) n)); [done|].
    unfold Rdiv. rewrite Rmult_assoc, Rinv_l, Rmult_1_r, Rmult_1_l by lra. exact H3.
Qed.


(** ** the law of the whole sampler *)
Lemma bsample_gen (N : nat) (HN : horizon 1024 (Z.of_nat N)) : forall (ord : gset Z -> list Z) (fuel : nat)
    (cache : option (list (gset Z))) (X : csr) (y : list Z) (s : bds),
  set_order ord -> bds_fit cache X y = Ok s -> boley_rows X y s ->
  let rows := bds_rows s in
  let total := pattern_total rows y in
  let q := (IZR total / IZR (boley_proposal_total rows y))%R in
  (forall o, rcan (bds_sample_once fuel ord s) o ->
     o = Ok None \/ o = Err OutOfFuel /\ 0 < total \/ exists T, o = Ok (Some T) /\ 0 < pattern_discrim rows y T) /\
  (0 < total -> (0 < q <= 1)%R /\
     hprob (bds_sample_once fuel ord s) (Ok None) ((1 - q) ^ N) /\
     (exists v, hprob (bds_sample_once fuel ord s) (Err OutOfFuel) v /\ (0 <= v <= (1 / 2) ^ fuel)%R) /\
     forall T, exists v, hprob (bds_sample_once fuel ord s) (Ok (Some T)) v /\
       (IZR (pattern_discrim rows y T) / IZR total * (1 - (1 - q) ^ N) * (1 - (1 / 2) ^ fuel) <= v
        <= IZR (pattern_discrim rows y T) / IZR total * (1 - (1 - q) ^ N))%R).
Proof.
  intros ord fuel cache X y s Ho Hfit Hf rows total q.
  destruct (bds_fit_inv _ _ _ _ Hfit Hf) as (HW & Ep & En & Ei & Hdom & Hl). fold rows in HW, Ei, Hdom, Hl.
  assert (Htot : total = total_weight (bw rows) (pos_indices y) (neg_indices y)) by (by apply pattern_total_eq).
  assert (Htp : forall p n, p ∈ pos_indices y -> n ∈ neg_indices y -> 0 < bw rows p n -> 0 < total).
  { intros p n Hp Hn Hw. assert (Hge : 0 <= total).
    { rewrite Htot. apply le_IZR. unfold total_weight. rewrite <- rsum_IZR. apply rsum_nonneg. intros. rewrite <- rsum_IZR. apply rsum_nonneg. intros. apply (IZR_le 0), bw_nonneg. }
    destruct (Z.eq_dec total 0) as [Hz|]; [|lia]. exfalso. rewrite Htot in Hz. apply (f_equal IZR) in Hz. unfold total_weight in Hz. rewrite <- rsum_IZR in Hz.
    apply (rsum_zero_iff _ _ p) in Hz; [| |done].
    2:{ intros. rewrite <- rsum_IZR. apply rsum_nonneg. intros. apply (IZR_le 0), bw_nonneg. }
    cbn beta in Hz. rewrite <- rsum_IZR in Hz. apply (rsum_zero_iff _ _ n) in Hz; [|intros; apply (IZR_le 0), bw_nonneg|done]. apply (eq_IZR _ 0) in Hz. lia. }
  split.
  - intros o H. unfold bds_sample_once in H. apply rcan_bind in H as [(r & Hr & H)|(e & He & ->)].
    2:{ apply (C32_usable_pair_proof _ _ _ _ _ _ _ _ _ Hdom Ei) in He as [?|(p & n & ? & _)]; done. }
    apply (C32_usable_pair_proof _ _ _ _ _ _ _ _ _ Hdom Ei) in Hr as [[= ->]|(p & n & [= ->] & Hp & Hn & Hw)]; [by left|]. right.
    fold rows in H. rewrite (rset_ok rows p (pos_range' rows y p Hl Hp)), (rset_ok rows n (neg_range' rows y n Hl Hn)) in H. cbn [rlift rrbind] in H.
    apply rcan_bind in H as [(T & HT & H)|(e & He & ->)].
    + apply pattern_can in HT as [?|(T' & [= <-] & HT)]; [done| |done]. simpl in H. subst o. right. exists T. split; [done|]. apply pattern_discrim_pos; [done|]. eauto.
    + apply pattern_can in He as [[= ->]|(T' & ? & _)]; [|done|done]. left. split; [done|]. eauto.
  - intros Ht.
    assert (Hposs : exists p n, p ∈ pos_indices y /\ n ∈ neg_indices y /\ 0 < bw rows p n).
    { destruct (decide (Exists (fun p => Exists (fun n => 0 < bw rows p n) (neg_indices y)) (pos_indices y))) as [He|He].
      - apply list.Exists_exists in He as (p & Hp & He'). apply list.Exists_exists in He' as (n & Hn & Hpn). eauto.
      - exfalso. assert (total = 0); [|lia]. apply eq_IZR. rewrite Htot. unfold total_weight. rewrite <- rsum_IZR. apply rsum_zero. intros p Hp. rewrite <- rsum_IZR. apply rsum_zero. intros n Hn.
        pose proof (bw_nonneg rows p n). assert (E : bw rows p n = 0); [|by rewrite E]. destruct (Z.eq_dec (bw rows p n) 0); [done|]. exfalso. apply He.
        apply list.Exists_exists. exists p. split; [done|]. apply list.Exists_exists. exists n. split; [done|]. lia. }
    destruct (mass_pos_gen _ _ _ _ _ Hdom Hposs) as [Hsp Hsn].
    pose proof (bproposal_mass rows y _ Hl HW) as Hpm.
    assert (Hq : q = accept_mass (bds_weights s) (bds_weights s) (pos_indices y) (neg_indices y) (bw rows)).
    { unfold q, accept_mass. by rewrite <- Htot, Hpm. }
    destruct (C34_exact_proof _ _ _ _ _ _ _ 10 _ Hdom Ei (NoDup_sel (fun v => 0 <? v) _) (NoDup_sel (fun v => v =? 0) _) Hsp Hsn ltac:(lia) ltac:(done)) as (Hq01 & _ & _).
    rewrite <- Hq in Hq01.
    assert (Ht' : (0 < IZR total)%R) by (by apply (IZR_lt 0)).
    assert (Hqpos : (0 < q)%R).
    { unfold q. apply Rdiv_lt_0_compat; [done|]. rewrite <- Hpm. by apply Rmult_lt_0_compat. }
    split; [lra|].
    assert (HE : forall F, hexpect F (cftp_draw (bds_cftp s) false) ((1 - q) ^ N * F (Ok (RetPair None)) +
        S2 (pos_indices y) (neg_indices y) (fun c => (1 - (1 - q) ^ N) * (W (bw rows) c / IZR total) * F (Ok (RetPair (Some c)))))%R).
    { intros F. pose proof (draw_expect _ _ _ _ _ _ _ _ Hdom Ei Hsp Hsn (Z.of_nat N) F HN) as E.
      unfold Law in E. rewrite Nat2Z.id in E. rewrite acc_mass, total_S2, <- Hq, <- Htot in E. exact E. }
    set (A := ((1 - (1 - q) ^ N))%R) in *.
    assert (HA : (0 <= A <= 1)%R).
    { unfold A. assert (0 <= (1 - q) ^ N <= 1)%R; [|lra]. split; [apply pow_le; lra|]. pose proof (pow_incr (1 - q) 1 N ltac:(lra)) as Hi. by rewrite pow1 in Hi. }
    set (e := fun c : Z * Z => ((/ 2 ^ size (rset rows c.1 ∖ rset rows c.2)) ^ fuel)%R).
    set (V := fun (f : result (option (gset Z)) -> R) (c : Z * Z) => ((1 - e c) / W (bw rows) c * rsum (map (fun T => f (Ok (Some T))) (pats ord (rset rows c.1) (rset rows c.2))) + e c * f (Err OutOfFuel))%R).
    assert (Hgen : forall f : result (option (gset Z)) -> R, hexpect f (bds_sample_once fuel ord s) ((1 - q) ^ N * f (Ok None) +
        S2 (pos_indices y) (neg_indices y) (fun c => A * (W (bw rows) c / IZR total) * V f c))%R).
    { intros f. set (F := fun o : result sample_ret => match o with
         | Ok (RetPair None) => f (Ok None)
         | Ok (RetPair (Some c)) => V f c
         | Ok (RetDetails _ _) => 0%R | Err e => f (Err e) end).
      unfold bds_sample_once. apply (hbind _ _ _ F); [apply (HE F)| |done].
      intros r Hr. apply (C32_usable_pair_proof _ _ _ _ _ _ _ _ _ Hdom Ei) in Hr as [[= ->]|(p & n & [= ->] & Hp & Hn & Hw)]; [constructor|].
      fold rows. rewrite (rset_ok rows p (pos_range' rows y p Hl Hp)), (rset_ok rows n (neg_range' rows y n Hl Hn)). cbn [rlift rrbind F].
      apply (hbind _ _ _ (fun o => match o with Ok T => f (Ok (Some T)) | Err e => f (Err e) end)).
      - pose proof (pattern_expect ord fuel (rset rows p) (rset rows n) (fun o => match o with Ok T => f (Ok (Some T)) | Err e => f (Err e) end) Ho (proj1 (bw_pos rows p n) Hw)) as H.
        rewrite length_pats in H by done. exact H.
      - intros T _. apply HRet.
      - done. }
    assert (He : forall p n, 0 < bw rows p n -> (0 <= e (p, n) <= (1 / 2) ^ fuel)%R).
    { intros p n Hw. apply bw_pos, disc_pos, size_pos_ne in Hw. unfold e. cbn [fst snd].
      assert (Hpow : (2 <= 2 ^ size (rset rows p ∖ rset rows n))%R).
      { destruct (size (rset rows p ∖ rset rows n)) as [|m]; [lia|]. simpl. pose proof (pow_R1_Rle 2 m ltac:(lra)). lra. }
      assert (Hinv : (0 < / 2 ^ size (rset rows p ∖ rset rows n) <= 1 / 2)%R).
      { split; [apply Rinv_0_lt_compat; lra|]. unfold Rdiv. rewrite Rmult_1_l. apply Rinv_le_contravar; lra. }
      split; [apply pow_le; lra|apply pow_incr; lra]. }
    split; [|split].
    + pose proof (Hgen (fun o => if decide (o = Ok None) then 1 else 0)%R) as H. unfold hprob.
      rewrite (S2_ext _ _ _ (fun _ => 0 * 0)%R) in H; [rewrite S2_scal in H; rewrite decide_True in H by done; replace ((1 - q) ^ N)%R with ((1 - q) ^ N * 1 + 0 * S2 (pos_indices y) (neg_indices y) (fun _ => 0))%R by ring; exact H|].
      intros c _. unfold V. rewrite rsum_zero by (intros; by rewrite decide_False). cbn beta. rewrite (decide_False (P := Err OutOfFuel = Ok None)) by done. ring.
    + eexists. split; [apply Hgen|]. cbn beta. rewrite (decide_False (P := Ok None = Err OutOfFuel)) by done. rewrite Rmult_0_r, Rplus_0_l.
      assert (EV : forall c, V (fun o => if decide (o = Err OutOfFuel) then 1 else 0)%R c = e c).
      { intros c. unfold V. rewrite rsum_zero by (intros; by rewrite decide_False). rewrite decide_True by done. ring. }
      assert (Hterm : forall c, inp (pos_indices y) (neg_indices y) c -> (0 <= A * (W (bw rows) c / IZR total) * e c <= A * (1 / 2) ^ fuel / IZR total * W (bw rows) c)%R).
      { intros [p n] _. destruct (Z.eq_dec (bw rows p n) 0) as [Ez|Ez].
        - unfold W. cbn [fst snd]. rewrite Ez. unfold Rdiv. rewrite !Rmult_0_l, !Rmult_0_r, Rmult_0_l. lra.
        - pose proof (bw_nonneg rows p n). destruct (He p n ltac:(lia)) as [He1 He2].
          assert (HWp : (0 <= W (bw rows) (p, n) / IZR total)%R). { apply div_nonneg; [unfold W; simpl; apply (IZR_le 0); lia|lra]. }
          split; [apply Rmult_le_pos; [apply Rmult_le_pos; lra|done]|].
          replace (A * (1 / 2) ^ fuel / IZR total * W (bw rows) (p, n))%R with (A * (W (bw rows) (p, n) / IZR total) * (1 / 2) ^ fuel)%R by (field; lra).
          apply Rmult_le_compat_l; [apply Rmult_le_pos; lra|done]. }
      rewrite (S2_ext _ _ _ (fun c => A * (W (bw rows) c / IZR total) * e c)%R) by (intros c _; by rewrite EV). split.
      * apply S2_nonneg. intros c Hc. by apply Hterm.
      * apply (Rle_trans _ (S2 (pos_indices y) (neg_indices y) (fun c => A * (1 / 2) ^ fuel / IZR total * W (bw rows) c)%R)).
        { unfold S2. apply rsum_le. intros p Hp. apply rsum_le. intros n Hn. apply Hterm. done. }
        rewrite S2_scal. fold (Zt (pos_indices y) (neg_indices y) (W (bw rows))). rewrite total_S2, <- Htot.
        replace (A * (1 / 2) ^ fuel / IZR total * IZR total)%R with (A * (1 / 2) ^ fuel)%R by (field; lra).
        rewrite <- (Rmult_1_l ((1 / 2) ^ fuel)) at 2. apply Rmult_le_compat_r; [apply pow_le; lra|lra].
    + intros T. eexists. split; [apply Hgen|]. cbn beta. rewrite (decide_False (P := Ok None = Ok (Some T))) by done. rewrite Rmult_0_r, Rplus_0_l.
      assert (EV : forall c, inp (pos_indices y) (neg_indices y) c -> (A * (W (bw rows) c / IZR total) * V (fun o => if decide (o = Ok (Some T)) then 1 else 0) c)%R = (A / IZR total * ((1 - e c) * IZR (bhit rows T c.1 c.2)))%R).
      { intros [p n] _. unfold V. cbn beta. rewrite (decide_False (P := Err OutOfFuel = Ok (Some T))) by done. rewrite Rmult_0_r, Rplus_0_r. cbn [fst snd].
        assert (Hs : rsum (map (fun T' => if decide (Ok (Some T') = Ok (Some T)) then 1%R else 0%R) (pats ord (rset rows p) (rset rows n))) = IZR (bhit rows T p n)).
        { unfold bhit. destruct (decide (discriminates (rset rows p) (rset rows n) T)) as [Hd|Hd].
          - rewrite (rsum_map_ext _ (fun x => 1 * (if decide (x = T) then 1 else 0))%R).
            2:{ intros x _. rewrite Rmult_1_l. destruct (decide (x = T)) as [->|]; [by rewrite decide_True|rewrite decide_False; [done|congruence]]. }
            rewrite (rsum_indicator (fun _ => 1%R)); [done|by apply NoDup_pats|by apply elem_of_pats].
          - apply rsum_zero. intros x Hx. rewrite decide_False; [done|]. intros [= ->]. apply Hd. by eapply elem_of_pats. }
        rewrite Hs. unfold bhit. destruct (decide (discriminates (rset rows p) (rset rows n) T)) as [Hd|Hd]; [|unfold Rdiv; ring].
        assert (HWp : (0 < W (bw rows) (p, n))%R).
        { unfold W. cbn [fst snd]. apply (IZR_lt 0), bw_pos. intros Hs'. destruct Hd as [H1 H2]. apply H2. set_solver. }
        field. lra. }
      rewrite (S2_ext _ _ _ _ EV), S2_scal.
      assert (Epd : IZR (pattern_discrim rows y T) = S2 (pos_indices y) (neg_indices y) (fun c => IZR (bhit rows T c.1 c.2))).
      { rewrite pattern_discrim_sum by done. unfold S2. rewrite <- rsum_IZR. apply rsum_map_ext. intros p _. by rewrite <- rsum_IZR. }
      rewrite Epd. set (B := S2 (pos_indices y) (neg_indices y) (fun c => IZR (bhit rows T c.1 c.2))).
      set (C := S2 (pos_indices y) (neg_indices y) (fun c => (1 - e c) * IZR (bhit rows T c.1 c.2))%R).
      assert (Hin : forall c : Z * Z, (IZR (bhit rows T c.1 c.2) * (1 - (1 / 2) ^ fuel) <= (1 - e c) * IZR (bhit rows T c.1 c.2) <= IZR (bhit rows T c.1 c.2))%R).
      { intros [p n]. cbn [fst snd]. unfold bhit. destruct (decide (discriminates (rset rows p) (rset rows n) T)) as [Hd|Hd]; [|lra].
        assert (Hw : 0 < bw rows p n). { apply bw_pos. intros Hs'. destruct Hd as [H1 H2]. apply H2. set_solver. }
        destruct (He p n Hw). lra. }
      assert (HBC : (B * (1 - (1 / 2) ^ fuel) <= C <= B)%R).
      { unfold B, C. rewrite <- S2_scal_r. split; unfold S2; apply rsum_le; intros p _; apply rsum_le; intros n _; apply Hin. }
      assert (HAt : (0 <= A / IZR total)%R) by (apply div_nonneg; lra).
      replace (B / IZR total * A * (1 - (1 / 2) ^ fuel))%R with (A / IZR total * (B * (1 - (1 / 2) ^ fuel)))%R by (field; lra).
      replace (B / IZR total * A)%R with (A / IZR total * B)%R by (field; lra).
      split; apply Rmult_le_compat_l; lra.
Qed.

Lemma C38_sampler_proof : forall (ord : gset Z -> list Z) (fuel : nat)
    (cache : option (list (gset Z))) (X : csr) (y : list Z) (s : bds),
  set_order ord -> bds_fit cache X y = Ok s -> boley_rows X y s ->
  let rows := bds_rows s in
  let total := pattern_total rows y in
  let q := (IZR total / IZR (boley_proposal_total rows y))%R in
  (forall o, rcan (bds_sample_once fuel ord s) o ->
     o = Ok None \/ o = Err OutOfFuel /\ 0 < total \/ exists T, o = Ok (Some T) /\ 0 < pattern_discrim rows y T) /\
  (0 < total -> (0 < q <= 1)%R /\
     hprob (bds_sample_once fuel ord s) (Ok None) ((1 - q) ^ 1024) /\
     (exists v, hprob (bds_sample_once fuel ord s) (Err OutOfFuel) v /\ (0 <= v <= (1 / 2) ^ fuel)%R) /\
     forall T, exists v, hprob (bds_sample_once fuel ord s) (Ok (Some T)) v /\
       (IZR (pattern_discrim rows y T) / IZR total * (1 - (1 - q) ^ 1024) * (1 - (1 / 2) ^ fuel) <= v
        <= IZR (pattern_discrim rows y T) / IZR total * (1 - (1 - q) ^ 1024))%R).
Proof.
  apply bsample_gen. right. exists 10. split; [lia|]. split; [vm_compute; reflexivity|lia].
Qed.


(** ** ground truth *)
Lemma elem_of_bds_pairs s p n : (p, n) ∈ bds_pairs s <-> p ∈ bds_pos s /\ n ∈ bds_neg s.
Proof.
  unfold bds_pairs. rewrite elem_of_list_In, in_concat. split.
  - intros (l & Hl & Hpn). apply in_map_iff in Hl as (p' & <- & Hp). apply in_map_iff in Hpn as (n' & [= -> ->] & Hn). by rewrite !elem_of_list_In.
  - intros [Hp Hn]. apply elem_of_list_In in Hp, Hn. exists (map (pair p) (bds_neg s)). split; [apply in_map_iff; by exists p|by apply in_map].
Qed.

Lemma bds_pairs_sum (f : Z -> Z -> Z) s : zsum (map (fun pn => f pn.1 pn.2) (bds_pairs s)) = zsum (map (fun p => zsum (map (f p) (bds_neg s))) (bds_pos s)).
Proof.
  unfold bds_pairs. induction (bds_pos s) as [|p l IH]; [done|]. cbn [map concat]. rewrite map_app, zsum_app, IH, map_map. done.
Qed.

Lemma NoDup_bds_pairs s : NoDup (bds_pos s) -> NoDup (bds_neg s) -> NoDup (bds_pairs s).
Proof.
  intros Hp Hn. unfold bds_pairs. induction Hp as [|p l Hx Hp IH]; [constructor|]. cbn [map concat]. apply NoDup_app. split_and!; [|..|done].
  - apply (NoDup_fmap_2 (pair p)). done.
  - intros [p' n] Hin Hin'. apply elem_of_map in Hin as (n' & [= -> ->] & _).
    apply elem_of_list_In, in_concat in Hin' as (l' & Hl' & Hin'). apply in_map_iff in Hl' as (p'' & <- & Hp''). apply in_map_iff in Hin' as (? & [= -> ->] & _).
    apply Hx. by apply elem_of_list_In.
Qed.

Lemma bpairs_fold rows : forall (prs : list (Z * Z)) (d : gmap (Z * Z) Z),
  (forall p n, (p, n) ∈ prs -> (0 <= p < zlen rows) /\ (0 <= n < zlen rows)) ->
  exists d', rfold (fun d pn => let! wgt := boley_pair_weight rows (fst pn) (snd pn) in
                               Ok (if 0 <? wgt then <[pn := wgt]> d else d)) d prs = Ok d' /\
    forall pn, d' !! pn = if decide (pn ∈ prs /\ 0 < bw rows pn.1 pn.2) then Some (bw rows pn.1 pn.2) else d !! pn.
Proof.
  induction prs as [|[p n] prs IH]; intros d Hr.
  - exists d. split; [done|]. intros pn. by rewrite decide_False by (intros [H _]; inversion H).
  - destruct (Hr p n ltac:(left)) as [Hp Hn]. cbn [rfold fst snd].
    assert (boley_pair_weight rows p n = Ok (bw rows p n)) as ->.
    { unfold boley_pair_weight. rewrite (rset_ok rows p Hp), (rset_ok rows n Hn). done. }
    cbn [rbind]. destruct (IH (if 0 <? bw rows p n then <[(p, n) := bw rows p n]> d else d)) as (d' & -> & Hd').
    { intros p' n' Hin. apply Hr. by right. }
    exists d'. split; [done|]. intros pn. rewrite Hd'. destruct (decide (pn = (p, n))) as [->|Hne].
    + cbn [fst snd]. destruct (Z.ltb_spec 0 (bw rows p n)) as [Hw|Hw].
      * rewrite (decide_True (P := (p, n) ∈ (p, n) :: prs /\ _)) by (split; [left|done]). destruct (decide _); [done|]. by rewrite lookup_insert.
      * rewrite !decide_False; [done|lia|lia].
    + assert (Hl : (if 0 <? bw rows p n then <[(p, n) := bw rows p n]> d else d) !! pn = d !! pn).
      { destruct (0 <? bw rows p n); [|done]. by rewrite lookup_insert_ne. }
      rewrite Hl. destruct (decide (pn ∈ prs /\ _)) as [[Ha Hb]|Hn'].
      * rewrite decide_True; [done|]. split; [by right|done].
      * rewrite decide_False; [done|]. intros [Hc Hb]. apply elem_of_cons in Hc as [?|?]; [done|]. by apply Hn'.
Qed.

(** the keys written for a pair *)
Definition bkeys (ord : gset Z -> list Z) (P N : gset Z) : list (list Z) :=
  concat (map (fun p1 => map (fun p2 => py_sorted (p1 ++ p2)) (powerset (ord (P ∩ N)) false)) (powerset (ord (P ∖ N)) true)).

Lemma sorted_lt_key k l : StronglySorted Z.lt k -> NoDup l -> (forall x, x ∈ k <-> x ∈ l) -> k = py_sorted l.
Proof.
  intros Hs Hnd Hx. apply sorted_unique; [done|by apply py_sorted_lt|]. intros x. by rewrite py_sorted_perm.
Qed.

Lemma app_disjoint_NoDup ord (P N : gset Z) p1 p2 : set_order ord -> p1 `sublist_of` ord (P ∖ N) -> p2 `sublist_of` ord (P ∩ N) -> NoDup (p1 ++ p2).
Proof.
  intros Ho H1 H2. destruct (ord_NoDup ord (P ∖ N) Ho) as (Hnd1 & E1 & _), (ord_NoDup ord (P ∩ N) Ho) as (Hnd2 & E2 & _).
  apply NoDup_app. split_and!; [by eapply sublist_NoDup| |by eapply sublist_NoDup]. intros x Hx Hx'.
  apply (sublist_elem _ _ _ H1) in Hx. apply (sublist_elem _ _ _ H2) in Hx'. rewrite <- elem_of_py_set, E1 in Hx. rewrite <- elem_of_py_set, E2 in Hx'. set_solver.
Qed.

Lemma elem_of_bkeys ord P N k : set_order ord -> k ∈ bkeys ord P N <-> StronglySorted Z.lt k /\ discriminates P N (py_set k).
Proof.
  intros Ho. rewrite <- (elem_of_pats ord) by done. unfold bkeys, pats. rewrite !elem_of_concat. split.
  - intros (l & Hl & Hk). apply elem_of_map in Hl as (p1 & -> & H1). apply elem_of_map in Hk as (p2 & -> & H2).
    pose proof H1 as H1'. apply elem_of_powerset in H1' as [Hs1 _]. apply elem_of_powerset in H2 as [Hs2 _].
    split; [apply py_sorted_lt; by eapply app_disjoint_NoDup|]. eexists. split; [apply elem_of_map; exists p1; split; [reflexivity|done]|].
    apply elem_of_map. exists p2. split; [|by apply elem_of_subs]. apply set_eq. intros x. rewrite elem_of_union, !elem_of_py_set, py_sorted_perm, elem_of_app. done.
  - intros (Hs & l & Hl & HT). apply elem_of_map in Hl as (p1 & -> & H1). apply elem_of_map in HT as (p2 & E & H2). apply elem_of_subs in H2.
    eexists. split; [apply elem_of_map; exists p1; split; [reflexivity|done]|]. apply elem_of_powerset in H1 as [H1 _].
    apply elem_of_map. exists p2. split; [|apply elem_of_powerset; done]. apply sorted_lt_key; [done|by eapply app_disjoint_NoDup|].
    intros x. rewrite elem_of_app, <- !elem_of_py_set, E. set_solver.
Qed.

Lemma bkeys_pats ord P N : set_order ord -> map py_set (bkeys ord P N) ≡ₚ pats ord P N.
Proof.
  intros Ho. destruct (ord_NoDup ord (P ∩ N) Ho) as (Hnd2 & _). unfold bkeys, pats. rewrite concat_map, map_map.
  induction (powerset (ord (P ∖ N)) true) as [|p1 l IH]; [done|]. cbn [map concat]. apply Permutation_app; [|done]. rewrite map_map.
  rewrite (map_ext (fun x => py_set (py_sorted (p1 ++ x))) (fun s2 => py_set p1 ∪ py_set s2)).
  - apply Permutation_map, powerset_perm. done.
  - intros p2. apply set_eq. intros x. rewrite elem_of_union, !elem_of_py_set, py_sorted_perm, elem_of_app. done.
Qed.

Lemma NoDup_bkeys ord P N : set_order ord -> NoDup (bkeys ord P N).
Proof.
  intros Ho. apply (NoDup_fmap_1 py_set). pose proof (bkeys_pats ord P N Ho) as E. change (py_set <$> bkeys ord P N) with (map py_set (bkeys ord P N)). rewrite E. by apply NoDup_pats.
Qed.

Definition msum {Kt} `{Countable Kt} (d : gmap Kt Z) : Z := zsum (map snd (map_to_list d)).

Lemma msum_insert {Kt} `{Countable Kt} (d : gmap Kt Z) k v : msum (<[k := v]> d) = msum d - default 0 (d !! k) + v.
Proof.
  unfold msum. destruct (d !! k) as [c|] eqn:E; simpl.
  - rewrite (zsum_perm _ (map snd ((k, v) :: map_to_list (delete k d)))).
    2:{ apply Permutation_map. rewrite <- insert_delete_insert. apply map_to_list_insert, lookup_delete. }
    rewrite (zsum_perm (map snd (map_to_list d)) (map snd ((k, c) :: map_to_list (delete k d)))) by (apply Permutation_map; symmetry; by apply map_to_list_delete).
    cbn [map snd]. rewrite !zsum_cons. lia.
  - rewrite (zsum_perm _ (map snd ((k, v) :: map_to_list d))) by (apply Permutation_map; by apply map_to_list_insert). cbn [map snd]. rewrite zsum_cons. lia.
Qed.

Lemma msum_count {Kt} `{Countable Kt} (l : list Kt) : forall d : gmap Kt Z,
  msum (fold_left (fun d k => <[k := match d !! k with Some c => c + 1 | None => 1 end]> d) l d) = msum d + zlen l.
Proof.
  induction l as [|k l IH]; intros d; [unfold zlen; simpl; lia|]. cbn [fold_left]. rewrite IH, msum_insert. unfold zlen. cbn [length]. destruct (d !! k); simpl; lia.
Qed.

Lemma length_bkeys ord P N : set_order ord -> zlen (bkeys ord P N) = (2 ^ Z.of_nat (size (P ∖ N)) - 1) * 2 ^ Z.of_nat (size (P ∩ N)).
Proof.
  intros Ho. rewrite <- (length_pats ord) by done. unfold zlen. f_equal. rewrite <- (bkeys_pats ord P N Ho). by rewrite map_length.
Qed.

Definition khit (rows : list (gset Z)) (k : list Z) (p n : Z) : Z := if decide (StronglySorted Z.lt k /\ discriminates (rset rows p) (rset rows n) (py_set k)) then 1 else 0.

Lemma bcount_fold ord rows : set_order ord -> forall (prs : list (Z * Z)) (d : gmap (list Z) Z),
  (forall p n, (p, n) ∈ prs -> (0 <= p < zlen rows) /\ (0 <= n < zlen rows)) ->
  (forall k v, d !! k = Some v -> 0 < v) ->
  exists d', rfold (fun d pn =>
      let! rp := py_index rows (fst pn) in
      let! rn := py_index rows (snd pn) in
      let p1_ps := powerset (ord (rp ∖ rn)) true in
      let p2_ps := powerset (ord (rp ∩ rn)) false in
      Ok (fold_left (fun d k => <[k := match d !! k with Some c => c + 1 | None => 1 end]> d)
            (concat (map (fun p1 => map (fun p2 => py_sorted (p1 ++ p2)) p2_ps) p1_ps)) d)) d prs = Ok d' /\
    (forall k v, d' !! k = Some v -> 0 < v) /\
    msum d' = msum d + zsum (map (fun pn => bw rows pn.1 pn.2) prs) /\
    forall k, default 0 (d' !! k) = default 0 (d !! k) + zsum (map (fun pn => khit rows k pn.1 pn.2) prs).
Proof.
  intros Ho. induction prs as [|[p n] prs IH]; intros d Hr Hpos.
  - exists d. split_and!; [done|done|simpl; lia|]. intros k. simpl. lia.
  - destruct (Hr p n ltac:(left)) as [Hp Hn]. cbn [rfold fst snd]. rewrite (rset_ok rows p Hp), (rset_ok rows n Hn). cbn [rbind].
    set (P := rset rows p). set (N := rset rows n). cbv zeta. fold (bkeys ord P N).
    set (d1 := fold_left _ (bkeys ord P N) d).
    assert (Hd1 : forall k, d1 !! k = if decide (StronglySorted Z.lt k /\ discriminates P N (py_set k)) then Some (default 0 (d !! k) + 1) else d !! k).
    { intros k. unfold d1. rewrite count_inner by (by apply NoDup_bkeys).
      destruct (decide (k ∈ bkeys ord P N)) as [Hk|Hk]; rewrite elem_of_bkeys in Hk by done; [by rewrite decide_True|by rewrite decide_False]. }
    assert (Hnn : forall k, 0 <= default 0 (d !! k)).
    { intros k. destruct (d !! k) as [v|] eqn:E; simpl; [|lia]. apply Hpos in E. lia. }
    destruct (IH d1) as (d' & E & Hpos' & Hsum & Hd').
    { intros p' n' Hin. apply Hr. by right. }
    { intros k v. rewrite Hd1. destruct (decide _); [intros [= <-]; specialize (Hnn k); lia|apply Hpos]. }
    exists d'. split_and!; [exact E|done|..].
    { rewrite Hsum. unfold d1. rewrite msum_count, length_bkeys by done. cbn [map fst snd]. rewrite zsum_cons. unfold bw at 2. fold P N. lia. }
    intros k. rewrite Hd', Hd1. cbn [map fst snd]. rewrite zsum_cons.
    unfold khit at 2. fold P N. destruct (decide _); simpl; lia.
Qed.

Lemma khit_bhit rows k p n : StronglySorted Z.lt k -> khit rows k p n = bhit rows (py_set k) p n.
Proof. intros Hk. unfold khit, bhit. destruct (decide (discriminates _ _ _)); [by rewrite decide_True|rewrite decide_False; [done|tauto]]. Qed.

Lemma C38_ground_truth_proof : forall (ord : gset Z -> list Z) (cache : option (list (gset Z))) (X : csr) (y : list Z) (s : bds),
  set_order ord -> bds_fit cache X y = Ok s -> boley_rows X y s ->
  let rows := bds_rows s in
  let total := pattern_total rows y in
  (total = 0 -> bds_ground_truth_pairs s = Ok ∅ /\ bds_ground_truth_samples ord s = Ok ∅) /\
  (total <> 0 -> exists mp ms, bds_ground_truth_pairs s = Ok mp /\ bds_ground_truth_samples ord s = Ok ms /\
     (forall k v, ms !! k = Some v <-> StronglySorted Z.lt k /\ 0 < pattern_discrim rows y (py_set k) /\
        v = (IZR (pattern_discrim rows y (py_set k)) / IZR total)%R) /\
     (forall p n v, mp !! (p, n) = Some v <-> is_pos y p /\ is_neg y n /\ exists P N, rows !! Z.to_nat p = Some P /\ rows !! Z.to_nat n = Some N /\
        0 < patterns_between P N /\ v = (IZR (patterns_between P N) / IZR total)%R) /\
     rsum (map snd (map_to_list ms)) = 1%R /\ rsum (map snd (map_to_list mp)) = 1%R).
Proof.
  intros ord cache X y s Ho Hfit Hf rows total.
  destruct (bds_fit_inv _ _ _ _ Hfit Hf) as (HW & Ep & En & Ei & Hdom & Hl). fold rows in HW, Ei, Hdom, Hl.
  assert (Hrange : forall p n, (p, n) ∈ bds_pairs s -> (0 <= p < zlen rows) /\ (0 <= n < zlen rows)).
  { intros p n Hpn. apply elem_of_bds_pairs in Hpn as [Hp Hn]. rewrite Ep in Hp. rewrite En in Hn. split; [by eapply pos_range'|by eapply neg_range']. }
  assert (Htot : total = zsum (map (fun pn => bw rows pn.1 pn.2) (bds_pairs s))).
  { rewrite bds_pairs_sum, Ep, En. unfold total. by rewrite (pattern_total_eq rows y Hl). }
  destruct (bpairs_fold rows (bds_pairs s) ∅ Hrange) as (d & Ed & Hd).
  destruct (bcount_fold ord rows Ho (bds_pairs s) ∅ Hrange ltac:(intros ? ? Hx; rewrite lookup_empty in Hx; done)) as (cnt & Ec & Hcpos & Hct & Hcnt).
  rewrite <- Htot in Hct. change (msum (∅ : gmap (list Z) Z)) with 0 in Hct. rewrite Z.add_0_l in Hct.
  assert (Hcd : forall k, StronglySorted Z.lt k -> default 0 (cnt !! k) = pattern_discrim rows y (py_set k)).
  { intros k Hk. rewrite Hcnt, lookup_empty. simpl. rewrite (bds_pairs_sum (khit rows k)), Ep, En, (pattern_discrim_sum _ _ _ Hl).
    apply zsum_map_ext'. intros p _. apply zsum_map_ext'. intros n _. by apply khit_bhit. }
  assert (Hcn : forall k, ~ StronglySorted Z.lt k -> cnt !! k = None).
  { intros k Hk. specialize (Hcnt k). rewrite lookup_empty in Hcnt. simpl in Hcnt. destruct (cnt !! k) as [v|] eqn:E; [|done]. simpl in Hcnt.
    apply Hcpos in E. exfalso. assert (zsum (map (fun pn => khit rows k pn.1 pn.2) (bds_pairs s)) = 0); [|lia]. clear - Hk.
    induction (bds_pairs s) as [|pn l IH]; [done|]. cbn [map]. rewrite zsum_cons, IH. unfold khit. rewrite decide_False; [done|tauto]. }
  assert (Hnd : NoDup (bds_pairs s)).
  { apply NoDup_bds_pairs; rewrite ?Ep, ?En; [apply (NoDup_sel (fun v => 0 <? v))|apply (NoDup_sel (fun v => v =? 0))]. }
  assert (Hdt : zsum (map snd (map_to_list d)) = total).
  { rewrite (map_sum_range d (bds_pairs s)); [|done|].
    - rewrite Htot. apply zsum_map_ext'. intros [p n] Hin. rewrite Hd, lookup_empty. cbn [fst snd]. pose proof (bw_nonneg rows p n).
      destruct (decide _) as [?|Hn]; [done|]. simpl. destruct (Z.eq_dec (bw rows p n) 0); [lia|]. exfalso. apply Hn. split; [done|lia].
    - intros pn [v Hv]. rewrite Hd, lookup_empty in Hv. destruct (decide _) as [[? _]|]; done. }
  assert (E1 : bds_ground_truth_pairs s = counter2proba d) by (unfold bds_ground_truth_pairs; fold rows; by rewrite Ed).
  assert (E2 : bds_ground_truth_samples ord s = counter2proba cnt).
  { unfold bds_ground_truth_samples. fold rows. match goal with |- rbind ?r _ = _ => replace r with (@Ok (gmap (list Z) Z) cnt) by (symmetry; exact Ec) end. done. }
  rewrite E1, E2. unfold counter2proba. rewrite Hdt. unfold msum in Hct. rewrite Hct. split.
  - intros Hz.
    assert (Hbz : forall p n, (p, n) ∈ bds_pairs s -> bw rows p n = 0).
    { rewrite Htot in Hz. clear - Hz. intros p n Hin. apply (f_equal IZR) in Hz. rewrite <- rsum_IZR in Hz. apply (rsum_zero_iff _ _ (p, n)) in Hz; [|intros; apply (IZR_le 0), bw_nonneg|done]. by apply eq_IZR in Hz. }
    assert (d = ∅) as ->.
    { apply map_eq. intros [p n]. rewrite Hd, lookup_empty. rewrite decide_False; [done|]. cbn [fst snd]. intros [Hin Hpos]. apply Hbz in Hin. lia. }
    assert (cnt = ∅) as ->; [|done].
    apply map_eq. intros k. rewrite lookup_empty. destruct (decide (StronglySorted Z.lt k)) as [Hk|Hk]; [|by apply Hcn].
    destruct (cnt !! k) as [v|] eqn:E; [|done]. exfalso. pose proof (Hcpos _ _ E) as Hv. specialize (Hcd k Hk). rewrite E in Hcd. simpl in Hcd. subst v.
    apply pattern_discrim_pos in Hv as (p & n & Hp & Hn & Hdis1 & Hdis2); [|done].
    assert (Hin : (p, n) ∈ bds_pairs s) by (apply elem_of_bds_pairs; by rewrite Ep, En).
    assert (0 < bw rows p n); [|rewrite (Hbz p n Hin) in *; lia]. apply bw_pos. clear - Hdis1 Hdis2. set_solver.
  - intros Hnz. exists ((fun v => IZR v / IZR total)%R <$> d), ((fun v => IZR v / IZR total)%R <$> cnt).
    rewrite !ratio_map by done. split; [done|]. split; [done|]. split_and!.
    + intros k v. rewrite lookup_fmap, fmap_Some. split.
      * intros (c & Ek & ->). destruct (decide (StronglySorted Z.lt k)) as [Hk|Hk]; [|by rewrite Hcn in Ek]. specialize (Hcd k Hk).
        pose proof (Hcpos _ _ Ek). rewrite Ek in Hcd. simpl in Hcd. by subst c.
      * intros (Hk & Hpos & ->). exists (pattern_discrim rows y (py_set k)). split; [|done]. specialize (Hcd k Hk).
        destruct (cnt !! k) as [c|]; simpl in Hcd; [by subst c|lia].
    + intros p n v. rewrite lookup_fmap, fmap_Some, <- elem_of_pos, <- elem_of_neg. pose proof (Hd (p, n)) as Hdpn. rewrite lookup_empty in Hdpn. rewrite Hdpn. split.
      * intros (c & Ek & ->). destruct (decide _) as [[Hin Hw]|]; [|done]. injection Ek as <-. cbn [fst snd] in *.
        pose proof (Hrange p n Hin) as [Hp Hn]. apply elem_of_bds_pairs in Hin as [? ?]. rewrite <- Ep, <- En. split; [done|]. split; [done|].
        destruct (py_index_in_range rows p Hp) as (P & _ & EP), (py_index_in_range rows n Hn) as (N & _ & EN). exists P, N. split; [done|]. split; [done|].
        unfold bw in *. rewrite (rset_lookup _ _ _ EP), (rset_lookup _ _ _ EN), <- between_bw in *. done.
      * intros (Hp & Hn & P & N & EP & EN & Hw & ->). exists (bw rows p n). cbn [fst snd].
        assert (Eb : bw rows p n = patterns_between P N) by (unfold bw; by rewrite (rset_lookup _ _ _ EP), (rset_lookup _ _ _ EN), between_bw).
        rewrite Eb. rewrite decide_True; [done|]. split; [|done]. apply elem_of_bds_pairs. by rewrite Ep, En.
    + by apply ratio_sum.
    + by apply ratio_sum.
Qed.


Lemma existsb_false {A} (f : A -> bool) l : (forall x, x ∈ l -> f x = false) -> existsb f l = false.
Proof. intros H. induction l as [|x l IH]; [done|]. cbn [existsb]. rewrite H by left. apply IH. intros. apply H. by right. Qed.
Lemma forallb_nonneg l : (forall x, x ∈ l -> (0 <= x)%R) -> forallb (Rleb 0%R) l = true.
Proof. intros H. apply forallb_forall. intros x Hx. apply elem_of_list_In, H in Hx. unfold Rleb. by destruct (Rle_dec 0 x). Qed.

Lemma C38_fresh_fit_proof : forall (ord : gset Z -> list Z) (fuel : nat) (X : csr) (y : list Z),
  set_order ord -> wf_cmat (csr_mat X) = true -> zlen y = csr_rows X -> (forall v, v ∈ y <-> v = 0 \/ v = 1) ->
  exists s, bds_fit None X y = Ok s /\ boley_rows X y s /\
    (forall i r a, 0 <= i -> bds_rows s !! Z.to_nat i = Some r -> a ∈ r <-> csr_has X i a) /\
    forall T, rcan (bds_sample_once fuel ord s) (Ok (Some T)) ->
      T <> ∅ /\ exists p n, is_pos y p /\ is_neg y n /\ (forall a, a ∈ T -> csr_has X p a) /\ ~ (forall a, a ∈ T -> csr_has X n a).
Proof.
  intros ord fuel X y Ho Hwf Hy Hset.
  destruct (convert_v2_ok X Hwf) as (rows & Er & Hlen & Hrows).
  assert (Hl : length rows = length y) by (unfold zlen in *; lia).
  destruct (bwd_ok rows (pos_indices y)) as (W & EW & HW & HW').
  pose proof (bds_dom rows y W Hl HW) as Hdom.
  set (c := the_cftp W W (pos_indices y) (neg_indices y) (boley_pair_weight rows) 1024 (pweight W) (pweight W)).
  set (s := BDS rows (pos_indices y) (neg_indices y) W c).
  assert (Hfit : bds_fit None X y = Ok s).
  { unfold bds_fit. rewrite bool_decide_eq_true_2.
    2:{ apply set_eq. intros v. unfold py_set. rewrite elem_of_list_to_set, Hset. set_solver. }
    cbn [negb]. rewrite Er. cbn [rbind]. rewrite <- Hlen, EW. cbn [rbind].
    rewrite existsb_false.
    2:{ intros v Hv. apply elem_of_map in Hv as ([i v'] & -> & Hv). apply elem_of_map_to_list in Hv. cbn [snd]. unfold Rltb. destruct (Rlt_dec v' 0) as [Hlt|]; [|done]. exfalso.
        destruct (decide (0 <= i < zlen rows)) as [Hi|Hi]; [|by rewrite HW' in Hv]. rewrite (HW i Hi) in Hv. injection Hv as <-. pose proof (bwt_nonneg rows (pos_indices y) i). lra. }
    unfold boley_cftp_init. rewrite (init_ok W W (pos_indices y) (neg_indices y) (boley_pair_weight rows) 1024 (pweight W) (pweight W) (dom1 _ _ _ _ _ _ Hdom) (dom2 _ _ _ _ _ _ Hdom)).
    cbn [rbind]. rewrite !forallb_nonneg; [done|..]; intros v Hv; apply elem_of_map in Hv as (i & -> & Hi);
      [apply (dom2 _ _ _ _ _ _ Hdom) in Hi as [_ Hi]|apply (dom1 _ _ _ _ _ _ Hdom) in Hi as [_ Hi]]; exact Hi. }
  assert (Hb : boley_rows X y s) by (split; [done|]; cbn [s bds_rows]; lia).
  exists s. split; [done|]. split; [done|]. split; [intros i r a Hi E; by apply (Hrows i r Hi E)|]. intros T HT.
  destruct (C38_sampler_proof ord fuel None X y s Ho Hfit Hb) as [H _].
  apply H in HT as [?|[[? _]|(T' & [= <-] & Hpos)]]; [done|done|]. apply pattern_discrim_pos in Hpos as (p & n & Hp & Hn & H1 & H2); [|done].
  split; [set_solver|]. exists p, n. rewrite elem_of_pos in Hp. rewrite elem_of_neg in Hn. split; [done|]. split; [done|].
  assert (Hin : forall i, 0 <= i < zlen rows -> forall a, a ∈ rset rows i <-> csr_has X i a).
  { intros i Hi a. destruct (py_index_in_range rows i Hi) as (r & _ & E). rewrite (rset_lookup _ _ _ E). apply (Hrows i r); [lia|done]. }
  apply elem_of_pos in Hp. apply elem_of_neg in Hn. apply (pos_range' rows) in Hp; [|done]. apply (neg_range' rows) in Hn; [|done]. split.
  - intros a Ha. apply Hin; [done|]. by apply H1.
  - intros Ha. apply H2. intros a HaT. apply Hin; [done|]. by apply Ha.
Qed.
