(** Proofs of the property theorems of Properties/P_Convert.v. *)
From Verif.Model Require Import PyBase Sparse Utils Rule GreedyBase.
From Verif.Spec Require Import SMatrix.
Open Scope Z_scope.
From Verif.Proofs Require Import PBase PSparse PUtils PGreedyBase PSubsets.
Open Scope Z_scope.

Definition wrap (L j : Z) : Z := if j <? 0 then j + L else j.

Lemma lil_set1_wrap l rows i j : 0 <= i < zlen rows -> - l <= j < l ->
  lil_set1 (Lil l rows) i j = Ok (Lil l (alter (fun r => {[wrap l j]} ∪ r) (Z.to_nat i) rows)).
Proof.
  intros Hi Hj. rewrite <- lil_set1_ok; [|done|unfold wrap; destruct (Z.ltb_spec j 0); lia].
  unfold lil_set1, wrap. simpl.
  destruct (j <? 0) eqn:E; [assert (H : j + l <? 0 = false) by lia; repeat (rewrite H; cbv beta iota zeta)|repeat (rewrite E; cbv beta iota zeta)]; reflexivity.
Qed.

Lemma lil_set_list_wrap l i js : (forall j, j ∈ js -> - l <= j < l) -> forall rows, 0 <= i < zlen rows ->
  rfold (fun m j => lil_set1 m i j) (Lil l rows) js =
  Ok (Lil l (alter (fun r => py_set (map (wrap l) js) ∪ r) (Z.to_nat i) rows)).
Proof.
  induction js as [|j js IH]; intros Hjs rows Hi; simpl.
  - rewrite list_alter_id; [done|]. intros x. set_solver.
  - rewrite lil_set1_wrap by (done || apply Hjs; left). cbn [rbind].
    rewrite IH; [|intros j' Hj'; apply Hjs; by right|unfold zlen in *; by rewrite alter_length].
    do 2 f_equal. rewrite <- list_alter_compose. apply list_eq. intros k.
    destruct (decide (k = Z.to_nat i)) as [->|Hne].
    + rewrite !list_lookup_alter. destruct (rows !! Z.to_nat i); simpl; [|done].
      f_equal. apply set_eq. unfold py_set. set_solver.
    + rewrite !list_lookup_alter_ne by done. done.
Qed.

Lemma lil_set_list_err l i js : (exists j, j ∈ js /\ (j < - l \/ l <= j)) -> forall rows, 0 <= i < zlen rows ->
  rfold (fun m j => lil_set1 m i j) (Lil l rows) js = Err IndexError.
Proof.
  induction js as [|j js IH]; intros (x & Hx & Hr) rows Hi; [inversion Hx|]. cbn [rfold].
  destruct (decide (- l <= j < l)) as [Hj|Hj].
  - rewrite lil_set1_wrap by done. cbn [rbind]. apply IH; [|unfold zlen in *; by rewrite alter_length].
    apply elem_of_cons in Hx as [->|Hx]; [lia|]. exists x. done.
  - unfold lil_set1. simpl. destruct (Z.ltb_spec j 0) as [Hn|Hn].
    + rewrite (proj2 (Z.ltb_lt (j + l) 0)) by lia. done.
    + rewrite (proj2 (Z.ltb_ge j 0)) by lia. rewrite (proj2 (Z.leb_le l j)) by lia. done.
Qed.

Definition to_rows (l : Z) (ord : gset Z -> list Z) (sets : list (gset Z)) : list (gset Z) := map (fun s => py_set (map (wrap l) (ord s))) sets.

Lemma alter_mid {A} (f : A -> A) (pre : list A) x post : alter f (length pre) (pre ++ x :: post) = pre ++ f x :: post.
Proof. induction pre as [|y pre IH]; simpl; [done|]. f_equal. exact IH. Qed.

Lemma sets_loop ord L (sets : list (gset Z)) : set_order ord -> forall k : nat, (k <= length sets)%nat ->
  (forall s j, s ∈ take k sets -> j ∈ s -> - L <= j < L) ->
  rfold (fun m i => let! s := py_index sets i in rfold (fun m j => lil_set1 m i j) m (ord s)) (lil_zeros (zlen sets) L) (seqZ 0 (Z.of_nat k))
  = Ok (Lil L (to_rows L ord (take k sets) ++ replicate (length sets - k) ∅)).
Proof.
  intros Ho. induction k as [|k IH]; intros Hk Hr.
  - simpl. unfold lil_zeros, zlen. rewrite Nat2Z.id, Nat.sub_0_r. done.
  - destruct (lookup_lt_is_Some_2 sets k) as [s Hs]; [lia|].
    rewrite (take_S_r sets k s) in Hr by done. 
    replace (Z.of_nat (Datatypes.S k)) with (Z.of_nat k + 1) by lia. rewrite seqZ_app by lia. cbn [seqZ].
    assert (Happ : forall (B St : Type) (f : St -> B -> result St) l l' st, rfold f st (l ++ l') = let! st' := rfold f st l in rfold f st' l').
    { intros B St f l l'. induction l as [|x l IHl]; intros st; [done|]. cbn [rfold app]. destruct (f st x); [apply IHl|done]. }
    rewrite Happ, IH; [|lia|intros s' j Hs'; apply Hr; apply elem_of_app; by left]. cbn [rbind].
    change (seqZ (0 + Z.of_nat k) 1) with [0 + Z.of_nat k]. cbn [rfold].
    rewrite Z.add_0_l. destruct (py_index_in_range sets (Z.of_nat k)) as (s' & -> & Hs'); [unfold zlen; lia|].
    rewrite Nat2Z.id in Hs'. assert (s' = s) by congruence. subst s'. cbn [rbind].
    rewrite lil_set_list_wrap.
    + cbn [rbind]. do 2 f_equal. rewrite Nat2Z.id. replace (length sets - k)%nat with (Datatypes.S (length sets - Datatypes.S k))%nat by lia. cbn [replicate].
      assert (El : length (to_rows L ord (take k sets)) = k) by (unfold to_rows; rewrite map_length, take_length; lia).
      rewrite <- El at 1. rewrite alter_mid. rewrite (take_S_r sets k s) by done. unfold to_rows. rewrite map_app, <- app_assoc. simpl.
      do 2 f_equal. apply set_eq. set_solver.
    + intros j Hj. rewrite (Ho s) in Hj. apply elem_of_elements in Hj. apply (Hr s); [|done]. apply elem_of_app. right. left.
    + unfold to_rows, zlen. rewrite app_length, map_length, take_length, replicate_length. lia.
Qed.

Lemma first_bad L (sets : list (gset Z)) : (exists s j, s ∈ sets /\ j ∈ s /\ (j < - L \/ L <= j)) ->
  exists k s, sets !! k = Some s /\ (exists j, j ∈ s /\ (j < - L \/ L <= j)) /\ forall s j, s ∈ take k sets -> j ∈ s -> - L <= j < L.
Proof.
  induction sets as [|s sets IH]; intros (s' & j & Hs & Hj & Hr); [inversion Hs|].
  destruct (decide (set_Forall (fun j => - L <= j < L) s)) as [Hok|Hbad].
  - apply elem_of_cons in Hs as [->|Hs]; [specialize (Hok j Hj); simpl in Hok; lia|].
    destruct IH as (k & s0 & Hk & Hb & Hp); [by exists s', j|]. exists (S k), s0. split_and!; [done|done|].
    intros s1 j1 H1 Hj1. simpl in H1. apply elem_of_cons in H1 as [->|H1]; [by apply Hok|by apply (Hp s1)].
  - apply not_set_Forall_Exists in Hbad; [|apply _]. destruct Hbad as (j0 & Hj0 & Hr0). exists 0%nat, s. split_and!; [done| |].
    + exists j0. split; [done|]. simpl in Hr0. lia.
    + intros s1 j1 H1. inversion H1.
Qed.

Lemma convert_v1_lookup (X : csr) i F : wf_cmat (csr_mat X) = true -> 0 <= i -> convert_matrix_to_sets X !! Z.to_nat i = Some F ->
  0 <= i < csr_rows X /\ forall f, f ∈ F <-> nonzero_at (csr_mat X) i f.
Proof.
  intros Hwf Hi HF. unfold convert_matrix_to_sets in HF. rewrite list_lookup_fmap in HF.
  apply fmap_Some in HF as (i' & Hi' & ->). apply lookup_seqZ in Hi' as [-> Hi']. rewrite Z.add_0_l, Z2Nat.id in * by done.
  split; [lia|]. intros f. rewrite elem_of_py_set, elem_of_map. unfold nonzero_at. split.
  - intros ([j v] & -> & He). apply elem_of_list_filter in He as [Hv He]. apply elem_of_line in He as [k He]; [|done|unfold csr_rows in *; lia]. simpl in *. eauto.
  - intros (k & v & Hs & Hv). exists (f, v). split; [done|]. apply elem_of_list_filter. split; [done|]. apply elem_of_line; [done|unfold csr_rows in *; lia|eauto].
Qed.

Lemma convert_v1_length (X : csr) : wf_cmat (csr_mat X) = true -> zlen (convert_matrix_to_sets X) = csr_rows X.
Proof.
  intros Hwf. unfold convert_matrix_to_sets. rewrite zlen_map, zlen_py_range; [done|]. apply wf_cmat_facts in Hwf as []. done.
Qed.

Lemma C53_round_trip_proof : forall (ord : gset Z -> list Z) (sets : list (gset Z)) (L : Z),
  set_order ord -> 0 <= L -> (forall s j, s ∈ sets -> j ∈ s -> 0 <= j < L) ->
  exists m, convert_sets_to_matrix ord sets L = Ok m /\
    wf_cmat (csr_mat m) = true /\ binary (csr_mat m) /\ csr_rows m = zlen sets /\ csr_cols m = L /\
    (forall i j, csr_has m i j <-> 0 <= i /\ exists s, sets !! Z.to_nat i = Some s /\ j ∈ s) /\
    convert_matrix_to_sets m = sets /\ convert_matrix_to_sets_v2 m = Ok sets.
Proof.
  intros ord sets L Ho HL Hr.
  assert (E : to_rows L ord sets = sets).
  { unfold to_rows. rewrite <- (map_id sets) at 2. apply map_ext_in. intros s Hs. apply elem_of_list_In in Hs.
    apply set_eq. intros x. rewrite elem_of_py_set, elem_of_map. split.
    - intros (j & -> & Hj). rewrite (Ho s) in Hj. apply elem_of_elements in Hj. specialize (Hr s j Hs Hj). unfold wrap. rewrite (proj2 (Z.ltb_ge j 0)) by lia. done.
    - intros Hx. exists x. split; [|rewrite (Ho s); by apply elem_of_elements]. specialize (Hr s x Hs Hx). unfold wrap. by rewrite (proj2 (Z.ltb_ge x 0)) by lia. }
  assert (Hrun : convert_sets_to_matrix ord sets L = Ok (lil_tocsr (Lil L sets))).
  { unfold convert_sets_to_matrix. pose proof (sets_loop ord L sets Ho (length sets) ltac:(lia)) as H. unfold py_range.
    change (zlen sets) with (Z.of_nat (length sets)) at 2. rewrite H.
    - cbn [rbind]. rewrite firstn_all, Nat.sub_diag, E. cbn [replicate]. by rewrite app_nil_r.
    - rewrite firstn_all. intros s j Hs Hj. specialize (Hr s j Hs Hj). lia. }
  destruct (lil_tocsr_facts L sets HL Hr) as (Hwf & Hn & Hc & Hcell & Hb).
  exists (lil_tocsr (Lil L sets)). split; [done|]. split_and!; try done.
  - apply list_eq_same_length with (n := length sets); [done| |].
    + pose proof (convert_v1_length _ Hwf). rewrite Hn in *. unfold zlen in *. lia.
    + intros i s s' Hi Hs Hs'. rewrite <- (Nat2Z.id i) in Hs. apply convert_v1_lookup in Hs as [_ Hs]; [|done|lia].
      apply set_eq. intros f. rewrite Hs. split.
      * intros (k & v & Hsl & _). assert (csr_has (lil_tocsr (Lil L sets)) (Z.of_nat i) f) as Hh by (by exists k, v).
        apply Hcell in Hh as (_ & s0 & H0 & Hf). rewrite Nat2Z.id in H0. congruence.
      * intros Hf. assert (csr_has (lil_tocsr (Lil L sets)) (Z.of_nat i) f) as (k & v & Hsl).
        { apply Hcell. split; [lia|]. exists s'. by rewrite Nat2Z.id. }
        exists k, v. split; [done|]. destruct Hb as [Hb _]. rewrite (Hb _ _ _ _ Hsl). done.
  - destruct (convert_v2_ok _ Hwf) as (sets' & -> & Hl' & Hs'). f_equal. apply list_eq_same_length with (n := length sets); [done| |].
    + rewrite Hn in *. unfold zlen in *. lia.
    + intros i s s' Hi Hs Hs0. apply set_eq. intros f. rewrite <- (Nat2Z.id i) in Hs. rewrite (Hs' (Z.of_nat i) s ltac:(lia) Hs f), Hcell.
      rewrite Nat2Z.id. split; [intros (_ & s0 & H0 & Hf); congruence|]. intros Hf. split; [lia|]. by exists s'.
Qed.


Lemma C53_out_of_range_proof : forall (ord : gset Z -> list Z) (sets : list (gset Z)) (L : Z),
  set_order ord -> 0 <= L ->
  ((exists s j, s ∈ sets /\ j ∈ s /\ (j < - L \/ L <= j)) -> convert_sets_to_matrix ord sets L = Err IndexError) /\
  ((forall s j, s ∈ sets -> j ∈ s -> - L <= j < L) ->
   exists m, convert_sets_to_matrix ord sets L = Ok m /\
     forall i j, csr_has m i j <-> 0 <= i /\ exists s k, sets !! Z.to_nat i = Some s /\ k ∈ s /\ (j = k /\ 0 <= k \/ j = k + L /\ k < 0)).
Proof.
  intros ord sets L Ho HL. split.
  - intros Hbad. destruct (first_bad L sets Hbad) as (k & s & Hk & Hb & Hp). unfold convert_sets_to_matrix, py_range.
    assert (Hlt : (k < length sets)%nat) by (by eapply lookup_lt_Some).
    assert (Happ : forall (B St : Type) (f : St -> B -> result St) l l' st, rfold f st (l ++ l') = let! st' := rfold f st l in rfold f st' l').
    { intros B St f l l'. induction l as [|x l IHl]; intros st; [done|]. cbn [rfold app]. destruct (f st x); [apply IHl|done]. }
    replace (zlen sets) with (Z.of_nat k + (1 + (zlen sets - Z.of_nat k - 1))) at 2 by lia.
    rewrite seqZ_app by (unfold zlen; lia). rewrite (seqZ_app _ 1) by (unfold zlen; lia). rewrite Happ, sets_loop; [|done|lia|done]. cbn [rbind].
    change (seqZ (0 + Z.of_nat k) 1) with [0 + Z.of_nat k]. cbn [rfold app]. rewrite Z.add_0_l.
    destruct (py_index_in_range sets (Z.of_nat k)) as (s' & -> & Hs'); [unfold zlen; lia|].
    rewrite Nat2Z.id in Hs'. assert (s' = s) by congruence. subst s'. cbn [rbind]. rewrite lil_set_list_err; [done|..].
    + destruct Hb as (j & Hj & Hr). exists j. rewrite (Ho s). by rewrite elem_of_elements.
    + unfold to_rows, zlen. rewrite app_length, map_length, take_length, replicate_length. lia.
  - intros Hr. unfold convert_sets_to_matrix, py_range. change (zlen sets) with (Z.of_nat (length sets)) at 2.
    pose proof (sets_loop ord L sets Ho (length sets) ltac:(lia)) as H. rewrite firstn_all in H. rewrite (H Hr). cbn [rbind].
    rewrite Nat.sub_diag. cbn [replicate]. rewrite app_nil_r. eexists. split; [done|].
    destruct (lil_tocsr_facts L (to_rows L ord sets) HL) as (_ & _ & _ & Hcell & _).
    { intros r j Hr' Hj. apply elem_of_map in Hr' as (s & -> & Hs). apply elem_of_py_set, elem_of_map in Hj as (k & -> & Hk).
      rewrite (Ho s) in Hk. apply elem_of_elements in Hk. specialize (Hr s k Hs Hk). unfold wrap. destruct (Z.ltb_spec k 0); lia. }
    intros i j. rewrite Hcell. unfold to_rows. rewrite list_lookup_fmap. split; intros [Hi Hx]; (split; [done|]).
    + destruct Hx as (r & Hr' & Hj). apply fmap_Some in Hr' as (s & Hs & ->). apply elem_of_py_set, elem_of_map in Hj as (k & -> & Hk).
      rewrite (Ho s) in Hk. apply elem_of_elements in Hk. exists s, k. split_and!; try done. unfold wrap. destruct (Z.ltb_spec k 0); [by right|by left].
    + destruct Hx as (s & k & Hs & Hk & Hj). rewrite Hs. eexists. split; [done|]. apply elem_of_py_set, elem_of_map. exists k.
      split; [|rewrite (Ho s); by apply elem_of_elements]. unfold wrap. destruct (Z.ltb_spec k 0); lia.
Qed.


Lemma C53_versions_proof : forall (X : csr), wf_cmat (csr_mat X) = true ->
  exists v2, convert_matrix_to_sets_v2 X = Ok v2 /\ zlen v2 = csr_rows X /\ zlen (convert_matrix_to_sets X) = csr_rows X /\
    (forall i F, 0 <= i -> convert_matrix_to_sets X !! Z.to_nat i = Some F -> forall f, f ∈ F <-> nonzero_at (csr_mat X) i f) /\
    (forall i F, 0 <= i -> v2 !! Z.to_nat i = Some F -> forall f, f ∈ F <-> stored (csr_mat X) i f) /\
    (convert_matrix_to_sets X = v2 <-> forall i f, stored (csr_mat X) i f -> nonzero_at (csr_mat X) i f).
Proof.
  intros X Hwf. destruct (convert_v2_ok X Hwf) as (v2 & -> & Hl & Hs). exists v2. split; [done|]. split; [done|].
  pose proof (convert_v1_length X Hwf) as Hl1. split; [done|].
  assert (H1 : forall i F, 0 <= i -> convert_matrix_to_sets X !! Z.to_nat i = Some F -> forall f, f ∈ F <-> nonzero_at (csr_mat X) i f) by (intros i F Hi HF; by apply convert_v1_lookup).
  split_and!; [done|done|]. split.
  - intros E i f Hst. destruct (stored_range _ _ _ Hwf Hst) as [Hi _]. destruct (lookup_lt_is_Some_2 v2 (Z.to_nat i)) as [F HF]; [unfold csr_rows, zlen in *; lia|].
    apply (H1 i F); [lia|by rewrite E|]. apply (Hs i F); [lia|done|done].
  - intros Hst. apply list_eq_same_length with (n := length v2); [done|unfold zlen in *; lia|]. intros i s s' Hi Es Es'.
    rewrite <- (Nat2Z.id i) in Es, Es'. apply set_eq. intros f. rewrite (H1 (Z.of_nat i) s ltac:(lia) Es), (Hs (Z.of_nat i) s' ltac:(lia) Es'). split; [|apply Hst].
    intros (k & v & Hk & _). by exists k, v.
Qed.


Lemma C54_explicit_zero_proof : forall (X : csr) (i f : Z),
  wf_cmat (csr_mat X) = true -> stored (csr_mat X) i f -> ~ nonzero_at (csr_mat X) i f ->
  (exists v2 F1 F2, convert_matrix_to_sets_v2 X = Ok v2 /\ convert_matrix_to_sets X !! Z.to_nat i = Some F1 /\ v2 !! Z.to_nat i = Some F2 /\
     f ∉ F1 /\ f ∈ F2) /\
  (forall (P : Type) (e : est P) (nl t : Z) (r : srule), e_num_labels e = Some nl ->
     (forall r j, r ∈ e_rules e -> j ∈ r_tail (sr_rule r) -> 0 <= j < nl) ->
     r ∈ e_rules e -> r_head (sr_rule r) = [f] -> t ∈ r_tail (sr_rule r) ->
     exists m, predict e X = Ok m /\ csr_has m i t).
Proof.
  intros X i f Hwf Hst Hnz. destruct (stored_range _ _ _ Hwf Hst) as [Hi _].
  destruct (convert_v2_ok X Hwf) as (v2 & E2 & Hl & Hs). pose proof (convert_v1_length X Hwf) as Hl1.
  destruct (lookup_lt_is_Some_2 v2 (Z.to_nat i)) as [F2 HF2]; [unfold csr_rows, zlen in *; lia|].
  destruct (lookup_lt_is_Some_2 (convert_matrix_to_sets X) (Z.to_nat i)) as [F1 HF1]; [unfold csr_rows, zlen in *; lia|].
  split.
  - exists v2, F1, F2. split_and!; try done.
    + intros Hf. apply Hnz. apply convert_v1_lookup in HF1 as [_ HF1]; [by apply HF1|done|lia].
    + apply (Hs i F2); [lia|done|done].
  - intros P e nl t r Hnl Hrng Hr Hh Ht. destruct (predict_ok e X nl Hnl Hwf Hrng) as (sets & E & ->). assert (sets = v2) as -> by congruence.
    eexists. split; [done|]. unfold pred_csr.
    assert (Hnl0 : 0 <= nl) by (specialize (Hrng r t Hr Ht); lia).
    apply (lil_tocsr_facts nl); [done| |].
    + intros s j Hs' Hj. apply elem_of_map in Hs' as (F & -> & _). apply elem_of_pred_set in Hj as (r' & Hr' & _ & Hj).
      apply elem_of_map in Hr' as (s' & -> & Hs'). by apply (Hrng s').
    + split; [lia|]. exists (pred_set (map sr_rule (e_rules e)) F2). rewrite list_lookup_fmap, HF2. split; [done|].
      apply elem_of_pred_set. exists (sr_rule r). split_and!; [apply elem_of_map; by exists r| |done].
      rewrite Hh. intros f' Hf'. apply elem_of_list_singleton in Hf' as ->. apply (Hs i F2); [lia|done|done].
Qed.


Lemma C55_powerset_proof : forall (ord : gset Z -> list Z) (S : gset Z) (exclude_empty : bool),
  set_order ord ->
  let ps := powerset (ord S) exclude_empty in
  (forall T : gset Z, T ∈ map py_set ps <-> T ⊆ S /\ (exclude_empty = true -> T <> ∅)) /\
  NoDup (map py_set ps) /\ (forall p, p ∈ ps -> NoDup p) /\
  zlen ps = 2 ^ Z.of_nat (size S) - (if exclude_empty then 1 else 0) /\
  (forall (i j : nat) (p q : list Z), (i <= j)%nat -> ps !! i = Some p -> ps !! j = Some q -> (length p <= length q)%nat).
Proof.
  intros ord S ex Ho ps. assert (Hnd : NoDup (ord S)) by (by apply set_order_NoDup).
  assert (Eset : py_set (ord S) = S) by (apply set_eq; intros x; rewrite elem_of_py_set; by apply set_order_elem).
  assert (Hlen : length (ord S) = size S) by (rewrite (Ho S); done).
  split_and!.
  - intros T. rewrite elem_of_map. split.
    + intros (p & -> & Hp). apply elem_of_powerset in Hp as [Hp Hne]. split.
      * rewrite <- Eset. intros x. rewrite !elem_of_py_set. by apply sublist_elem.
      * intros Hex E. specialize (Hne Hex). destruct p as [|x p]; [done|]. assert (x ∈ py_set (x :: p)) as Hx by (apply elem_of_py_set; left). rewrite E in Hx. set_solver.
    + intros [Hs Hne]. destruct (subset_sublist (ord S) T) as (p & Hp & <-); [intros x Hx; apply set_order_elem; [done|by apply Hs]|].
      exists p. split; [done|]. apply elem_of_powerset. split; [done|]. intros Hex ->. by apply (Hne Hex).
  - apply NoDup_map_inj; [|by apply NoDup_powerset]. intros p q Hp Hq. apply elem_of_powerset in Hp as [Hp _], Hq as [Hq _]. by apply (sublist_set_inj (ord S)).
  - intros p Hp. apply elem_of_powerset in Hp as [Hp _]. by eapply sublist_NoDup.
  - assert (H2 : Z.of_nat (length (subs (ord S))) = 2 ^ Z.of_nat (size S)) by (rewrite length_subs, Hlen, Nat2Z.inj_pow; done).
    unfold ps. destruct ex.
    + rewrite (powerset_perm_ex _ Hnd) in H2. unfold zlen. simpl length in H2. lia.
    + unfold zlen. rewrite (powerset_perm _ Hnd). lia.
  - unfold ps, powerset. set (st := if ex then 1%nat else 0%nat). generalize (length (ord S) + 1 - st)%nat as n. intros n. clearbody st. revert st.
    induction n as [|n IH]; intros st i j p q Hij Hi Hj; [done|]. cbn [seq map concat] in Hi, Hj.
    assert (Hge : forall st n p, p ∈ concat (map (combinations (ord S)) (seq st n)) -> (st <= length p)%nat).
    { clear. intros st n p Hp. apply elem_of_concat in Hp as (l & Hl & Hp). apply elem_of_map in Hl as (r & -> & Hr). apply elem_of_seq in Hr.
      apply elem_of_combinations in Hp as [_ E]. lia. }
    apply lookup_app_Some in Hi as [Hi|[Hi Hi']], Hj as [Hj|[Hj Hj']].
    + apply elem_of_list_lookup_2, elem_of_combinations in Hi as [_ Hi], Hj as [_ Hj]. lia.
    + apply elem_of_list_lookup_2, elem_of_combinations in Hi as [_ Hi]. apply elem_of_list_lookup_2, Hge in Hj'. lia.
    + apply lookup_lt_Some in Hj. lia.
    + eapply (IH _ _ _ p q); [|exact Hi'|exact Hj']. lia.
Qed.
