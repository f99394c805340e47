(** Proofs of the property theorems of Properties/P_Data.v. *)
From Coq Require Import String Qround.
From stdpp Require Import strings.
From Verif.Model Require Import PyBase Sparse Utils Rand Graph PyState Data.
From Verif.Spec Require Import SMatrix SGraph SData.
Open Scope string_scope.
Open Scope list_scope.
Open Scope Z_scope.
From Verif.Proofs Require Import PBase PSparse PUtils PRand PGraph T_Graph.
Open Scope Z_scope.

(** ** Shapes *)
Lemma check_shapes_ok a b c d : shapes_ok a b c d -> check_shapes a b c d = Ok tt.
Proof.
  intros (H1 & H2 & H3 & H4). unfold check_shapes, py_assert. rewrite H1, H2, H3, H4, !Z.eqb_refl. done.
Qed.

Lemma check_shapes_err a b c d : ~ shapes_ok a b c d -> check_shapes a b c d = Err AssertionError.
Proof.
  intros H. unfold check_shapes, py_assert. destruct (Z.eqb_spec (csr_rows a) (csr_rows b)); [|done]. cbn [rbind].
  destruct (Z.eqb_spec (csr_rows c) (csr_rows d)); [|done]. cbn [rbind].
  destruct (Z.eqb_spec (csr_cols a) (csr_cols c)); [|done]. cbn [rbind].
  destruct (Z.eqb_spec (csr_cols b) (csr_cols d)); [|done]. exfalso. by apply H.
Qed.

(** ** Splits *)
Lemma take_rows_of m idx : wf_cmat (csr_mat m) = true -> (forall i, i ∈ idx -> 0 <= i < csr_rows m) -> rows_of (csr_take m idx) m idx.
Proof.
  intros Hwf Hi. pose proof Hwf as F. apply wf_cmat_facts in F as [].
  assert (Hr : lines_in_range (csr_cols m) (map (line (csr_mat m)) idx)).
  { intros l j v Hl Hj. apply elem_of_map in Hl as (i & -> & Hin). specialize (Hi i Hin).
    apply elem_of_line in Hj as [k Hj]; [|done|done]. apply slot_range in Hj; [|done]. unfold csr_cols. tauto. }
  assert (Hw : wf_cmat (csr_mat (csr_take m idx)) = true) by by apply of_lines_wf.
  assert (Hrows : csr_rows (csr_take m idx) = zlen idx) by (unfold csr_take, csr_rows; cbn [csr_mat of_lines n_major]; apply zlen_map).
  split; [done|]. split; [done|]. split; [done|].
  intros k i Hk j v. assert (Hin : i ∈ idx) by by eapply elem_of_list_lookup_2. specialize (Hi i Hin).
  assert (El : line (csr_mat (csr_take m idx)) (Z.of_nat k) = line (csr_mat m) i).
  { apply line_of_lines; [lia|]. rewrite Nat2Z.id. apply list_lookup_fmap_Some. by exists i. }
  rewrite <- !elem_of_line, El; try done.
  change (0 <= Z.of_nat k < csr_rows (csr_take m idx)). rewrite Hrows. apply lookup_lt_Some in Hk. unfold zlen. lia.
Qed.

Lemma floor_bounds (q : Qc) (z : Z) : z = Qfloor (this q) <-> (Qc_of_Z z <= q)%Qc /\ (q < Qc_of_Z (z + 1))%Qc.
Proof.
  assert (Hth : forall a, (this (Qc_of_Z a) == inject_Z a)%Q) by (intros a; reflexivity).
  unfold Qcle, Qclt. rewrite !Hth. split.
  - intros ->. split; [apply Qfloor_le|apply Qlt_floor].
  - intros [H1 H2]. pose proof (Qfloor_le (this q)) as F1. pose proof (Qlt_floor (this q)) as F2.
    assert (inject_Z z < inject_Z (Qfloor (this q) + 1))%Q as L1 by (eapply Qle_lt_trans; [exact H1|exact F2]).
    assert (inject_Z (Qfloor (this q)) < inject_Z (z + 1))%Q as L2 by (eapply Qle_lt_trans; [exact F1|exact H2]).
    rewrite <- Zlt_Qlt in L1, L2. lia.
Qed.

(** when a split is possible *)
Definition splittable (ratio : Qc) (n n_train : Z) : Prop :=
  (0 < ratio)%Qc /\ (ratio < 1)%Qc /\ 1 <= n_train /\ (Qc_of_Z n_train <= ratio * Qc_of_Z n)%Qc /\ (ratio * Qc_of_Z n < Qc_of_Z (n_train + 1))%Qc.

Lemma split_ok perm X Y ratio nt : csr_rows X = csr_rows Y -> splittable ratio (csr_rows X) nt ->
  train_test_split perm X Y ratio =
    let n := csr_rows X in
    let ind_test := take (Z.to_nat (n - nt)) (perm n) in
    let ind_train := take (Z.to_nat nt) (drop (Z.to_nat (n - nt)) (perm n)) in
    Ok (csr_take X ind_train, csr_take X ind_test, csr_take Y ind_train, csr_take Y ind_test).
Proof.
  intros Hr (H1 & H2 & H3 & H4 & H5). unfold train_test_split. rewrite <- Hr, Z.eqb_refl. cbn [negb].
  rewrite (bool_decide_eq_false_2 (ratio <= 0)%Qc) by by apply Qclt_not_le.
  rewrite (bool_decide_eq_false_2 (1 <= ratio)%Qc) by by apply Qclt_not_le. cbn [orb].
  rewrite <- (proj2 (floor_bounds _ nt)) by done. destruct (Z.eqb_spec nt 0); [lia|]. done.
Qed.

Lemma split_err perm X Y ratio : csr_rows X = csr_rows Y -> 0 <= csr_rows X -> (forall nt, ~ splittable ratio (csr_rows X) nt) ->
  train_test_split perm X Y ratio = Err ValueError.
Proof.
  intros Hr Hn Hs. unfold train_test_split. rewrite <- Hr, Z.eqb_refl. cbn [negb].
  destruct (decide (ratio <= 0)%Qc) as [H1|H1]; [rewrite bool_decide_eq_true_2 by done; done|].
  destruct (decide (1 <= ratio)%Qc) as [H2|H2]; [rewrite (bool_decide_eq_true_2 (1 <= ratio)%Qc) by done; by rewrite orb_true_r|].
  rewrite !bool_decide_eq_false_2 by done. cbn [orb]. apply Qcnot_le_lt in H1, H2.
  destruct (Z.eqb_spec (Qfloor (this (ratio * Qc_of_Z (csr_rows X))%Qc)) 0) as [|E]; [done|]. exfalso.
  apply (Hs (Qfloor (this (ratio * Qc_of_Z (csr_rows X))%Qc))).
  destruct (proj1 (floor_bounds (ratio * Qc_of_Z (csr_rows X)) _) eq_refl) as [B1 B2].
  split_and!; try done. set (fl := Qfloor _) in *.
  assert (0 <= ratio * Qc_of_Z (csr_rows X))%Qc as Hpos.
  { replace 0%Qc with (0 * Qc_of_Z (csr_rows X))%Qc by ring. apply Qcmult_le_compat_r; [by apply Qclt_le_weak|by apply Qc_of_Z_nonneg]. }
  assert (0 < Qc_of_Z (fl + 1))%Qc as H by (eapply Qcle_lt_trans; [exact Hpos|exact B2]).
  rewrite <- Z2Qc_inj_0 in H. apply (proj2 (Z2Qc_inj_lt _ _)) in H. lia.
Qed.

Lemma splittable_lt ratio n nt : 0 <= n -> splittable ratio n nt -> nt <= n.
Proof.
  intros Hn (H1 & H2 & H3 & H4 & H5). assert (ratio * Qc_of_Z n <= 1 * Qc_of_Z n)%Qc as H.
  { apply Qcmult_le_compat_r; [by apply Qclt_le_weak|by apply Qc_of_Z_nonneg]. }
  rewrite Qcmult_1_l in H. assert (Qc_of_Z nt <= Qc_of_Z n)%Qc as H6 by (eapply Qcle_trans; done). by apply (proj2 (Z2Qc_inj_le _ _)) in H6.
Qed.

(** the outcome of load and set_data after the shapes were checked *)
Lemma split_state perm d tX tY sX sY : ds_trn d = Some (tX, tY) -> ds_tst d = Some (sX, sY) -> csr_rows tX = csr_rows tY ->
  wf_cmat (csr_mat tX) = true -> wf_cmat (csr_mat tY) = true -> (forall n, 0 <= n -> perm n ≡ₚ py_range n) ->
  (ds_split_train d = false -> split_train_if_needed perm d = (Ok tt, set_dev None d)) /\
  (ds_split_train d = true ->
     (forall nt, splittable (ds_train_ratio d) (csr_rows tX) nt ->
        exists itr idev tX' tY' dX dY,
          split_train_if_needed perm d = (Ok tt, set_dev (Some (dX, dY)) (set_trn (tX', tY') d)) /\
          itr ++ idev ≡ₚ py_range (csr_rows tX) /\ zlen itr = nt /\
          rows_of tX' tX itr /\ rows_of tY' tY itr /\ rows_of dX tX idev /\ rows_of dY tY idev) /\
     ((forall nt, ~ splittable (ds_train_ratio d) (csr_rows tX) nt) -> split_train_if_needed perm d = (Err ValueError, d))).
Proof.
  intros Ht Hs Hr HwX HwY Hperm. assert (Hn : 0 <= csr_rows tX) by (apply wf_cmat_facts in HwX as []; done).
  assert (E : ds_split_train d = true -> split_train_if_needed perm d =
    match train_test_split perm tX tY (ds_train_ratio d) with
    | Ok (trn_X, dev_X, trn_Y, dev_Y) => (Ok tt, set_dev (Some (dev_X, dev_Y)) (set_trn (trn_X, trn_Y) d))
    | Err e => (Err e, d)
    end).
  { intros H. unfold split_train_if_needed, sbind, sget, get_trn, sbind, sget, slift, smod. rewrite H, Ht. cbn [sret fst snd].
    destruct (train_test_split perm tX tY (ds_train_ratio d)) as [[[[]]]|]; done. }
  split; [|split].
  - intros H. unfold split_train_if_needed, sbind, sget. by rewrite H.
  - intros nt Hnt. rewrite (E H), (split_ok perm tX tY _ nt Hr Hnt). cbv zeta.
    pose proof (splittable_lt _ _ _ Hn Hnt) as Hle. pose proof (Hperm _ Hn) as Hp.
    set (p := perm (csr_rows tX)) in *. set (n := csr_rows tX) in *.
    assert (Hlen : length p = Z.to_nat n) by (rewrite Hp; apply length_py_range).
    assert (Hnt1 : 1 <= nt) by apply Hnt.
    set (itr := take (Z.to_nat nt) (drop (Z.to_nat (n - nt)) p)). set (idev := take (Z.to_nat (n - nt)) p).
    assert (Hcat : idev ++ itr = p).
    { unfold idev, itr. rewrite (take_ge (drop _ p)) by (rewrite drop_length; lia). apply take_drop. }
    assert (Hin : forall i, i ∈ itr \/ i ∈ idev -> 0 <= i < n).
    { intros i Hi. apply elem_of_py_range. rewrite <- Hp, <- Hcat, elem_of_app. tauto. }
    exists itr, idev. do 4 eexists. split; [reflexivity|].
    split; [by rewrite (Permutation_app_comm itr idev), Hcat|].
    split; [unfold itr, zlen; rewrite take_length, drop_length; lia|].
    split_and!; apply take_rows_of; try done; intros i Hi; try (rewrite <- Hr); apply Hin; tauto.
  - intros Hno. by rewrite (E H), (split_err perm tX tY _ Hr Hn Hno).
Qed.

Lemma C51_shapes_proof : forall (perm : Z -> list Z) (d : dataset) (trn_X trn_Y tst_X tst_Y : csr) (ln fn : list string)
    (op : sx dataset unit),
  ds_split_train d = false ->
  op = load perm trn_X trn_Y tst_X tst_Y ln fn \/ op = set_data perm trn_X trn_Y tst_X tst_Y ->
  ds_trn (snd (op d)) = Some (trn_X, trn_Y) /\ ds_tst (snd (op d)) = Some (tst_X, tst_Y) /\
  (shapes_ok trn_X trn_Y tst_X tst_Y -> fst (op d) = Ok tt /\ ds_dev (snd (op d)) = None) /\
  (~ shapes_ok trn_X trn_Y tst_X tst_Y -> fst (op d) = Err AssertionError).
Proof.
  intros perm d a b c e ln fn op Hs Hop.
  assert (Hc : shapes_ok a b c e \/ ~ shapes_ok a b c e).
  { unfold shapes_ok. destruct (decide (csr_rows a = csr_rows b)), (decide (csr_rows c = csr_rows e)),
      (decide (csr_cols a = csr_cols c)), (decide (csr_cols b = csr_cols e)); tauto. }
  destruct Hop as [->| ->]; unfold load, set_data, sbind, smod, slift;
    (destruct Hc as [Hc|Hc]; [rewrite (check_shapes_ok a b c e Hc)|rewrite (check_shapes_err a b c e Hc)]);
    unfold split_train_if_needed, sbind, sget, smod; cbn [ds_split_train set_maps set_matrices set_names]; rewrite ?Hs; cbn; tauto.
Qed.


Lemma C51_split_proof : forall (perm : Z -> list Z) (d : dataset) (trn_X trn_Y tst_X tst_Y : csr) (ln fn : list string)
    (op : sx dataset unit),
  (forall n, 0 <= n -> perm n ≡ₚ py_range n) ->
  wf_cmat (csr_mat trn_X) = true -> wf_cmat (csr_mat trn_Y) = true ->
  ds_split_train d = true -> shapes_ok trn_X trn_Y tst_X tst_Y ->
  op = load perm trn_X trn_Y tst_X tst_Y ln fn \/ op = set_data perm trn_X trn_Y tst_X tst_Y ->
  let n := csr_rows trn_X in
  let splits (n_train : Z) := (0 < ds_train_ratio d)%Qc /\ (ds_train_ratio d < 1)%Qc /\ 1 <= n_train /\
    (Qc_of_Z n_train <= ds_train_ratio d * Qc_of_Z n)%Qc /\ (ds_train_ratio d * Qc_of_Z n < Qc_of_Z (n_train + 1))%Qc in
  ds_tst (snd (op d)) = Some (tst_X, tst_Y) /\
  (forall n_train, splits n_train ->
     fst (op d) = Ok tt /\
     exists train dev tX tY dX dY,
       ds_trn (snd (op d)) = Some (tX, tY) /\ ds_dev (snd (op d)) = Some (dX, dY) /\
       train ++ dev ≡ₚ py_range n /\ zlen train = n_train /\
       rows_of tX trn_X train /\ rows_of tY trn_Y train /\ rows_of dX trn_X dev /\ rows_of dY trn_Y dev) /\
  ((forall n_train, ~ splits n_train) -> fst (op d) = Err ValueError /\ ds_trn (snd (op d)) = Some (trn_X, trn_Y)).
Proof.
  intros perm d a b c e ln fn op Hperm Hwa Hwb Hs Hsh Hop n splits.
  assert (Hgen : exists d0, op d = split_train_if_needed perm d0 /\ ds_trn d0 = Some (a, b) /\ ds_tst d0 = Some (c, e) /\
    ds_split_train d0 = true /\ ds_train_ratio d0 = ds_train_ratio d).
  { destruct Hop as [->| ->]; unfold load, set_data, sbind, smod, slift; rewrite (check_shapes_ok a b c e Hsh);
      (eexists; split; [reflexivity|]); cbn [ds_trn ds_tst ds_split_train ds_train_ratio set_maps set_matrices set_names]; done. }
  destruct Hgen as (d0 & -> & H1 & H2 & H3 & H4).
  destruct (split_state perm d0 a b c e H1 H2 (proj1 Hsh) Hwa Hwb Hperm) as (_ & Hsp). specialize (Hsp H3) as [Hok Herr].
  rewrite H4 in Hok, Herr. fold n in Hok, Herr.
  assert (Hdec : (exists nt, splits nt) \/ forall nt, ~ splits nt).
  { set (nt := Qfloor (this (ds_train_ratio d * Qc_of_Z n)%Qc)). destruct (decide (0 < ds_train_ratio d)%Qc) as [D1|D1]; [|right; intros ? (? & _); done].
    destruct (decide (ds_train_ratio d < 1)%Qc) as [D2|D2]; [|right; intros ? (_ & ? & _); done].
    destruct (decide (1 <= nt)) as [D3|D3].
    - left. exists nt. destruct (proj1 (floor_bounds (ds_train_ratio d * Qc_of_Z n) nt) eq_refl). done.
    - right. intros nt' (_ & _ & D4 & D5 & D6). assert (nt' = nt) as -> by by apply floor_bounds. done. }
  split_and!.
  - destruct Hdec as [[nt Hnt]|Hno].
    + destruct (Hok nt Hnt) as (itr & idev & tX & tY & dX & dY & -> & _). done.
    + by rewrite (Herr Hno).
  - intros nt Hnt. destruct (Hok nt Hnt) as (itr & idev & tX & tY & dX & dY & E & Hrest). rewrite E. split; [done|].
    exists itr, idev, tX, tY, dX, dY. done.
  - intros Hno. by rewrite (Herr Hno).
Qed.


(** ** Names *)
Lemma name_map_app names name : name_map (names ++ [name]) = <[name := zlen names]> (name_map names).
Proof.
  unfold name_map, enumerate. rewrite zlen_app. change (zlen [name]) with 1.
  unfold py_range. rewrite seqZ_app by (pose proof (zlen_nonneg names); lia).
  rewrite zip_with_app by (rewrite seqZ_length; unfold zlen; lia). rewrite foldl_app. cbn. done.
Qed.

Lemma name_map_spec names name i : name_map names !! name = Some i <->
  0 <= i /\ names !! Z.to_nat i = Some name /\ forall k : nat, (Z.to_nat i < k)%nat -> names !! k <> Some name.
Proof.
  revert i. induction names as [|x names IH] using rev_ind; intros i.
  - split; [done|]. intros (_ & H & _). done.
  - rewrite name_map_app. destruct (decide (x = name)) as [->|Hne].
    + rewrite lookup_insert. split.
      * intros [= <-]. split; [apply zlen_nonneg|]. unfold zlen. rewrite Nat2Z.id. split; [by rewrite list_lookup_middle|].
        intros k Hk H. apply lookup_lt_Some in H. rewrite app_length in H. cbn in H. lia.
      * intros (Hi & Hl & Hk). f_equal. apply lookup_lt_Some in Hl as Hlt. rewrite app_length in Hlt. cbn in Hlt.
        destruct (decide (Z.to_nat i = length names)) as [|Hn]; [unfold zlen; lia|]. exfalso. apply (Hk (length names)); [lia|].
        by rewrite list_lookup_middle.
    + rewrite lookup_insert_ne by done. rewrite IH. split.
      * intros (Hi & Hl & Hk). split; [done|]. split; [by apply lookup_app_l_Some|]. intros k Hkk H.
        apply lookup_app_Some in H as [H|[Hge H]]; [by apply (Hk k)|]. apply list_lookup_singleton_Some in H as [_ H]. done.
      * intros (Hi & Hl & Hk). split; [done|]. split.
        -- apply lookup_app_Some in Hl as [Hl|[_ Hl]]; [done|]. apply list_lookup_singleton_Some in Hl as [_ Hl]. done.
        -- intros k Hkk H. apply (Hk k Hkk). by apply lookup_app_l_Some.
Qed.

Lemma C51_names_proof : forall (perm : Z -> list Z) (d : dataset) (trn_X trn_Y tst_X tst_Y : csr) (ln fn : list string),
  let d1 := snd (load perm trn_X trn_Y tst_X tst_Y ln fn d) in
  ds_label_names d1 = Some ln /\ ds_feature_names d1 = Some fn /\
  exists l2i f2i freq, ds_label2id d1 = Some l2i /\ ds_feature2id d1 = Some f2i /\ ds_label_freq d1 = Some freq /\
    (forall names m, (names, m) ∈ [(ln, l2i); (fn, f2i)] ->
       (forall name i, m !! name = Some i <->
          0 <= i /\ names !! Z.to_nat i = Some name /\ forall k : nat, (Z.to_nat i < k)%nat -> names !! k <> Some name) /\
       (NoDup names -> forall name (i : nat), m !! name = Some (Z.of_nat i) <-> names !! i = Some name)) /\
    (wf_cmat (csr_mat trn_Y) = true -> binary (csr_mat trn_Y) ->
       zlen freq = csr_cols trn_Y /\
       forall j (B : gset Z), 0 <= j < csr_cols trn_Y -> (forall i, i ∈ B <-> csr_has trn_Y i j) ->
         freq !! Z.to_nat j = Some (Z.of_nat (size B))).
Proof.
  intros perm d a b c e ln fn d1.
  assert (Hd : ds_label_names d1 = Some ln /\ ds_feature_names d1 = Some fn /\ ds_label2id d1 = Some (name_map ln) /\
    ds_feature2id d1 = Some (name_map fn) /\ ds_label_freq d1 = Some (label_freq (tocsc b))).
  { unfold d1, load, sbind, smod, slift. destruct (check_shapes a b c e) as [[]|]; [|done].
    unfold split_train_if_needed, sbind, sget, get_trn, sbind, sget, slift, smod.
    cbn [ds_split_train ds_trn ds_train_ratio set_maps set_matrices sret fst snd]. destruct (ds_split_train d); [|done].
    cbn. destruct (train_test_split perm a b (ds_train_ratio d)) as [[[[]]]|]; done. }
  destruct Hd as (H1 & H2 & H3 & H4 & H5). split; [done|]. split; [done|].
  exists (name_map ln), (name_map fn), (label_freq (tocsc b)). split; [done|]. split; [done|]. split; [done|]. split.
  - intros names m Hin.
    assert (m = name_map names) as ->.
    { rewrite !elem_of_cons in Hin. destruct Hin as [[= -> ->]|[[= -> ->]|Hin]]; [done|done|inversion Hin]. }
    split; [intros name i; apply name_map_spec|].
    intros Hn name i. rewrite name_map_spec, Nat2Z.id. split; [tauto|]. intros Hl. split; [lia|]. split; [done|].
    intros k Hk H. pose proof (NoDup_lookup names i k name Hn Hl H). lia.
  - intros Hwf Hb.
    destruct (C21_confidence_graph_proof (tocsc b)) as (g & freq & E & _ & _ & _ & _ & Hlen & Hfr);
      [by apply flip_wf|by apply flip_binary|].
    assert (freq = label_freq (tocsc b)) as ->.
    { unfold construct_confidence_graph in E. destruct (rfold _ _ _); [|done]. cbn [rbind] in E. congruence. }
    pose proof Hwf as F. apply wf_cmat_facts in F as [].
    assert (Ec : csc_cols (tocsc b) = csr_cols b).
    { unfold csc_cols, tocsc, flip_cmat. cbn [csc_mat of_lines n_major]. by apply length_transpose_lines. }
    rewrite Ec in Hlen, Hfr. split; [done|]. intros j B Hj HB. apply Hfr; [done|]. intros i. rewrite HB. symmetry. by apply tocsc_has.
Qed.


Lemma C51_set_data_proof : forall (perm : Z -> list Z) (d : dataset) (trn_X trn_Y tst_X tst_Y : csr),
  (forall n, 0 <= n -> perm n ≡ₚ py_range n) ->
  wf_cmat (csr_mat trn_X) = true -> wf_cmat (csr_mat trn_Y) = true ->
  let d1 := snd (set_data perm trn_X trn_Y tst_X tst_Y d) in
  ds_label_names d1 = None /\ ds_label2id d1 = ds_label2id d /\ ds_feature_names d1 = ds_feature_names d /\
  ds_feature2id d1 = ds_feature2id d /\ ds_label_freq d1 = ds_label_freq d /\ ds_g d1 = ds_g d /\
  (ds_split_train d = false -> fst (ndev d1) = Err AttributeError /\ fst (ntrn d1) = Ok (csr_rows trn_X)) /\
  (ds_split_train d = true -> fst (set_data perm trn_X trn_Y tst_X tst_Y d) = Ok tt ->
     exists a b, fst (ntrn d1) = Ok a /\ fst (ndev d1) = Ok b /\ a + b = csr_rows trn_X /\ 1 <= a).
Proof.
  intros perm d a b c e Hperm Hwa Hwb d1.
  assert (Hd : ds_label_names d1 = None /\ ds_label2id d1 = ds_label2id d /\ ds_feature_names d1 = ds_feature_names d /\
    ds_feature2id d1 = ds_feature2id d /\ ds_label_freq d1 = ds_label_freq d /\ ds_g d1 = ds_g d /\ ds_split_train d1 = ds_split_train d).
  { unfold d1, set_data, sbind, smod, slift. destruct (check_shapes a b c e) as [[]|]; [|done].
    unfold split_train_if_needed, sbind, sget, get_trn, sbind, sget, slift, smod.
    cbn [ds_split_train ds_trn ds_train_ratio set_names set_matrices sret fst snd]. destruct (ds_split_train d) eqn:E; [|done].
    cbn. destruct (train_test_split perm a b (ds_train_ratio d)) as [[[[]]]|]; done. }
  destruct Hd as (D1 & D2 & D3 & D4 & D5 & D6 & D7). split_and!; try done.
  - intros Hs. unfold ndev, sbind, sget. rewrite D7, Hs. split; [done|].
    destruct (C51_shapes_proof perm d a b c e [] [] (set_data perm a b c e) Hs) as (T & _); [by right|].
    fold d1 in T. unfold ntrn, get_trn, sbind, sget. by rewrite T.
  - intros Hs Hok.
    assert (Hsh : shapes_ok a b c e).
    { destruct (decide (csr_rows a = csr_rows b /\ csr_rows c = csr_rows e /\ csr_cols a = csr_cols c /\ csr_cols b = csr_cols e)) as [|Hn]; [done|].
      unfold set_data, sbind, smod, slift in Hok. rewrite (check_shapes_err a b c e Hn) in Hok. done. }
    destruct (C51_split_proof perm d a b c e [] [] (set_data perm a b c e) Hperm Hwa Hwb Hs Hsh) as (_ & Hsp & Hno); [by right|].
    cbv zeta in Hsp, Hno. fold d1 in Hsp.
    set (nt := Qfloor (this (ds_train_ratio d * Qc_of_Z (csr_rows a))%Qc)).
    destruct (proj1 (floor_bounds (ds_train_ratio d * Qc_of_Z (csr_rows a)) nt) eq_refl) as [F1 F2].
    destruct (decide ((0 < ds_train_ratio d)%Qc /\ (ds_train_ratio d < 1)%Qc /\ 1 <= nt)) as [(S1 & S2 & S3)|Hn].
    + destruct (Hsp nt) as (_ & tr & dv & tX & tY & dX & dY & T1 & T2 & P & L & R1 & R2 & R3 & R4); [done|].
      exists (zlen tr), (zlen dv). unfold ntrn, ndev, get_trn, sbind, sget. rewrite D7, Hs, T1, T2. cbn [sret fst].
      destruct R1 as (_ & -> & _). destruct R3 as (_ & -> & _).
      split; [done|]. split; [done|]. split; [|lia].
      rewrite <- zlen_app. unfold zlen. rewrite (Permutation_length P), length_py_range.
      apply wf_cmat_facts in Hwa as []. unfold csr_rows. lia.
    + exfalso. destruct Hno as [Hno _]; [|congruence]. intros nt' (S1 & S2 & S3 & S4 & S5).
      assert (nt' = nt) as -> by by apply floor_bounds. tauto.
Qed.


Lemma C51_graph_proof : forall (d : dataset) (X Y : csr) (which : string),
  ds_trn d = Some (X, Y) -> wf_cmat (csr_mat X) = true -> binary (csr_mat X) -> wf_cmat (csr_mat Y) = true -> binary (csr_mat Y) ->
  (which <> "Y" -> which <> "X" -> build_confidence_graph which d = (Err UnboundLocalError, d)) /\
  (forall M, (which = "Y" /\ M = Y) \/ (which = "X" /\ M = X) ->
     exists g d1, build_confidence_graph which d = (Ok g, d1) /\ ds_g d1 = Some g /\ ds_trn d1 = ds_trn d /\
       g_nodes g = py_range (csr_cols M) /\
       forall u v, is_edge g u v <-> u <> v /\ exists i, csr_has M i u /\ csr_has M i v).
Proof.
  intros d X Y which Ht HwX HbX HwY HbY. split.
  - intros H1 H2. unfold build_confidence_graph, sbind, get_trn, sbind, sget. rewrite Ht. cbn [sret].
    destruct (String.eqb_spec which "Y"); [done|]. destruct (String.eqb_spec which "X"); [done|]. done.
  - intros M HM.
    assert (HwM : wf_cmat (csr_mat M) = true /\ binary (csr_mat M)) by (destruct HM as [[_ ->]|[_ ->]]; done). destruct HwM as [HwM HbM].
    destruct (C21_confidence_graph_proof (tocsc M)) as (g & freq & E & Hn & He & _); [by apply flip_wf|by apply flip_binary|].
    assert (Ec : csc_cols (tocsc M) = csr_cols M).
    { pose proof HwM as F. apply wf_cmat_facts in F as []. unfold csc_cols, tocsc, flip_cmat. cbn [csc_mat of_lines n_major]. by apply length_transpose_lines. }
    exists g, (set_g g d).
    assert (Hb : build_confidence_graph which d = (Ok g, set_g g d)).
    { unfold build_confidence_graph, sbind, get_trn, sbind, sget. rewrite Ht. cbn [sret].
      destruct HM as [[-> ->]|[-> ->]]; cbn [String.eqb sret fst snd Ascii.eqb Bool.eqb]; unfold slift; rewrite E; done. }
    split; [done|]. split; [done|]. split; [done|]. split; [by rewrite Hn, Ec|].
    intros u v. rewrite He. split; intros [Hne (i & A & B)]; (split; [done|]); exists i; [by rewrite <- !tocsc_has|by rewrite !tocsc_has].
Qed.


(** ** The random split of utils_data *)
Lemma expect_uniform {A} (xs : list A) f : xs <> [] ->
  expect (np_choice_uniform xs) f = (qsum (map (fun x => f (Ok x)) xs) / Qc_of_Z (zlen xs))%Qc.
Proof.
  intros Hne. unfold np_choice_uniform. assert (0 < length xs)%nat by (destruct xs; [done|cbn; lia]).
  destruct (uniform_valid (length xs) H) as [Hq Hs].
  rewrite expect_np_choice; [|done|apply replicate_length|intros p Hp; by apply Qclt_le_weak, Hq|done].
  set (c := (1 / Qc_of_Z (zlen xs))%Qc).
  assert (Hc : forall z, (z / Qc_of_Z (zlen xs))%Qc = (z * c)%Qc) by (intros z; unfold c, Qcdiv; ring). clearbody c.
  rewrite Hc, <- qsum_map_mult_r. clear.
  induction xs as [|x xs IH]; [done|]. cbn [length replicate zip zip_with map qsum foldr fst snd]. fold (qsum (map (fun xp => (snd xp * f (Ok (fst xp)))%Qc) (zip xs (replicate (length xs) c)))).
  rewrite IH. unfold qsum. ring.
Qed.

Lemma can_uniform {A} (xs : list A) o : xs <> [] -> can (np_choice_uniform xs) o <-> exists x, x ∈ xs /\ o = Ok x.
Proof.
  intros Hne. unfold np_choice_uniform. assert (0 < length xs)%nat by (destruct xs; [done|cbn; lia]).
  destruct (uniform_valid (length xs) H) as [Hq Hs].
  rewrite can_np_choice; [|done|apply replicate_length|intros p Hp; by apply Qclt_le_weak, Hq|done]. split.
  - intros (i & x & p & Hx & Hp & _ & ->). exists x. split; [by eapply elem_of_list_lookup_2|done].
  - intros (x & Hx & ->). apply elem_of_list_lookup in Hx as [i Hx]. exists i, x, (1 / Qc_of_Z (zlen xs))%Qc.
    split; [done|]. split; [apply lookup_replicate; split; [done|by apply lookup_lt_Some in Hx]|]. split; [|done].
    intros E. assert (0 < 1 / Qc_of_Z (zlen xs))%Qc as H1.
    { apply Qcdiv_pos; [done|]. apply Qc_of_Z_pos. unfold zlen. lia. }
    rewrite E in H1. by apply (irreflexivity Qclt) in H1.
Qed.

Lemma qsum_concat {A B} (F : B -> Qc) (g : A -> list B) (xs : list A) :
  qsum (map F (concat (map g xs))) = qsum (map (fun x => qsum (map F (g x))) xs).
Proof. induction xs as [|x l IHl]; [done|]. cbn [map concat]. rewrite map_app, qsum_app, IHl. done. Qed.

Lemma expect_choices (xs : list Z) k (f : result (list Z) -> Qc) : xs <> [] ->
  expect (choices_with_replacement xs k) f = (qsum (map (fun l => f (Ok l)) (sequences xs k)) / Qc_of_Z (zlen xs ^ Z.of_nat k))%Qc.
Proof.
  intros Hne. assert (Hx : Qc_of_Z (zlen xs) <> 0%Qc).
  { intros E. apply Qc_of_Z_inj_0 in E. unfold zlen in E. by destruct xs. }
  revert f. induction k as [|k IH]; intros f.
  - cbn [choices_with_replacement expect sequences map]. change (Z.of_nat 0) with 0. rewrite Z.pow_0_r, Z2Qc_inj_1. unfold qsum, foldr. field. done.
  - cbn [choices_with_replacement sequences]. rewrite expect_bind, expect_uniform by done.
    assert (E : map (fun x => match Ok x with
        | Ok a => expect (let? l := choices_with_replacement xs k in Ret (a :: l)) f | Err e => f (Err e) end) xs =
      map (fun x => (qsum (map (fun l => f (Ok l)) (map (cons x) (sequences xs k))) * / Qc_of_Z (zlen xs ^ Z.of_nat k))%Qc) xs).
    { apply map_ext. intros x. rewrite expect_bind, IH. cbn [expect]. by rewrite qdiv_mult, map_map. }
    rewrite E, qsum_map_mult_r, Nat2Z.inj_succ, Z.pow_succ_r, Qc_of_Z_mult by lia.
    assert (E2 : qsum (map (fun l => f (Ok l)) (concat (map (fun x => map (cons x) (sequences xs k)) xs))) =
      qsum (map (fun x => qsum (map (fun l => f (Ok l)) (map (cons x) (sequences xs k)))) xs)).
    { apply qsum_concat. }
    rewrite E2, !qdiv_mult.
    assert (Hp : Qc_of_Z (zlen xs ^ Z.of_nat k) <> 0%Qc).
    { intros E3. apply Qc_of_Z_inj_0 in E3. assert (0 < zlen xs ^ Z.of_nat k); [|lia]. apply Z.pow_pos_nonneg; [|lia].
      unfold zlen. destruct xs; [done|cbn; lia]. }
    field. done.
Qed.

Lemma elem_of_sequences xs k l : l ∈ sequences xs k <-> length l = k /\ forall x, x ∈ l -> x ∈ xs.
Proof.
  revert l. induction k as [|k IH]; intros l; cbn [sequences].
  - rewrite elem_of_list_singleton. split; [intros ->; split; [done|intros x Hx; inversion Hx]|].
    intros [H _]. by apply nil_length_inv in H.
  - rewrite elem_of_list_In, in_concat. split.
    + intros (y & Hy & Hl). apply in_map_iff in Hy as (x & <- & Hx). apply in_map_iff in Hl as (l' & <- & Hl').
      apply elem_of_list_In, IH in Hl' as [Hlen Hall]. split; [cbn; lia|]. intros z Hz. apply elem_of_cons in Hz as [->|Hz]; [by apply elem_of_list_In|by apply Hall].
    + intros [Hlen Hall]. destruct l as [|x l]; [done|]. exists (map (cons x) (sequences xs k)). split.
      * apply in_map_iff. exists x. split; [done|]. apply elem_of_list_In, Hall. left.
      * apply in_map. apply elem_of_list_In, IH. split; [cbn in Hlen; lia|]. intros z Hz. apply Hall. by right.
Qed.

Lemma can_choices (xs : list Z) k o : xs <> [] ->
  can (choices_with_replacement xs k) o <-> exists l, o = Ok l /\ length l = k /\ forall x, x ∈ l -> x ∈ xs.
Proof.
  intros Hne. revert o. induction k as [|k IH]; intros o; cbn [choices_with_replacement can].
  - split; [intros ->; exists []; split; [done|]; split; [done|]; intros x Hx; inversion Hx|].
    intros (l & -> & H & _). by apply nil_length_inv in H as ->.
  - rewrite can_bind. split.
    + intros ([x|e] & Hx & Hb); apply can_uniform in Hx as (x' & Hx & E); try done. injection E as <-.
      apply can_bind in Hb as ([l|e] & Hl & Hb); apply IH in Hl as (l' & E & Hlen & Hall); try done. injection E as <-.
      cbn in Hb. exists (x :: l). split; [done|]. split; [cbn; lia|].
      intros z Hz. apply elem_of_cons in Hz as [->|Hz]; [done|by apply Hall].
    + intros (l & -> & Hlen & Hall). destruct l as [|x l]; [done|]. exists (Ok x). split.
      * apply can_uniform; [done|]. exists x. split; [|done]. apply Hall. left.
      * apply can_bind. exists (Ok l). split; [|done]. apply IH. exists l. split; [done|]. split; [cbn in Hlen; lia|].
        intros z Hz. apply Hall. by right.
Qed.

Lemma index_at {A} (m : list A) i j x : (i = j \/ i + zlen m = j /\ i < 0) -> 0 <= j -> m !! Z.to_nat j = Some x -> py_index m i = Ok x.
Proof.
  intros Hij Hj Hx. apply lookup_lt_Some in Hx as Hlt. unfold py_index, zlen in *. cbv zeta.
  assert ((if i <? 0 then i + Z.of_nat (length m) else i) = j) as -> by (destruct (Z.ltb_spec i 0); lia).
  destruct (Z.ltb_spec j 0); [lia|]. destruct (Z.leb_spec (Z.of_nat (length m)) j); [lia|]. cbn [orb]. by rewrite Hx.
Qed.

Lemma take_rows_select {A} (m : list A) idx : (forall i, i ∈ idx -> 0 <= i < zlen m) -> take_rows m idx = Ok (select m idx).
Proof.
  intros H. unfold take_rows, select. induction idx as [|i idx IH]; [done|].
  cbn [rmap omap list_omap]. specialize (H i (elem_of_list_here _ _)) as Hi. unfold zlen in Hi.
  destruct (lookup_lt_is_Some_2 m (Z.to_nat i)) as [x Hx]; [lia|]. rewrite (index_at m i i x), Hx by (tauto || lia || done). cbn [rbind].
  rewrite IH by (intros j Hj; apply H; by right). done.
Qed.

Lemma take_rows_mirror {A} (m : list A) idx : (forall i, i ∈ idx -> 0 <= i < zlen m) ->
  take_rows m (map Z.lnot idx) = Ok (select m (mirror (zlen m) idx)).
Proof.
  intros H. unfold take_rows, select, mirror. induction idx as [|i idx IH]; [done|].
  cbn [map rmap omap list_omap]. specialize (H i (elem_of_list_here _ _)) as Hi.
  assert (Hn : Z.lnot i = - i - 1) by (unfold Z.lnot; lia).
  destruct (lookup_lt_is_Some_2 m (Z.to_nat (zlen m - 1 - i))) as [x Hx]; [unfold zlen in *; lia|].
  rewrite (index_at m (Z.lnot i) (zlen m - 1 - i) x), Hx by (lia || done). cbn [rbind].
  rewrite IH by (intros j Hj; apply H; by right). done.
Qed.

Lemma length_select {A} (m : list A) idx : (forall i, i ∈ idx -> 0 <= i < zlen m) -> length (select m idx) = length idx.
Proof.
  intros H. unfold select. induction idx as [|i idx IH]; [done|]. cbn [omap list_omap]. specialize (H i (elem_of_list_here _ _)) as Hi. unfold zlen in Hi.
  destruct (lookup_lt_is_Some_2 m (Z.to_nat i)) as [x Hx]; [lia|]. rewrite Hx. cbn [length]. f_equal. apply IH. intros j Hj. apply H. by right.
Qed.

Lemma py_int_quot (p : Qc) (n k : Z) : 0 <= k -> (Qc_of_Z k <= p * Qc_of_Z n)%Qc -> (p * Qc_of_Z n < Qc_of_Z (k + 1))%Qc -> py_int (p * Qc_of_Z n) = k.
Proof.
  intros Hk H1 H2. rewrite (proj2 (floor_bounds (p * Qc_of_Z n) k)) by done. unfold py_int, Qfloor.
  assert (0 <= p * Qc_of_Z n)%Qc as Hp by (eapply Qcle_trans; [by apply Qc_of_Z_nonneg|exact H1]).
  set (q := (p * Qc_of_Z n)%Qc) in *. clearbody q. unfold Qcle in Hp. destruct q as [[a b] Hc]. cbn [this Qnum Qden] in *.
  change (0 * Zpos b <= a * 1) in Hp. apply Z.quot_div_nonneg; lia.
Qed.

Lemma split_run {A B} (X : list A) (y : list B) (p : Qc) (k : Z) : zlen X = zlen y -> X <> [] ->
  0 <= k -> (Qc_of_Z k <= p * Qc_of_Z (zlen X))%Qc -> (p * Qc_of_Z (zlen X) < Qc_of_Z (k + 1))%Qc ->
  shuffle_split_data X y p = let? idx := choices_with_replacement (py_range (zlen X)) (Z.to_nat k) in
    let? D_train := lift (take_rows X idx) in
    let? labels_train := lift (take_rows y idx) in
    let? D_test := lift (take_rows X (map Z.lnot idx)) in
    let? labels_test := lift (take_rows y (map Z.lnot idx)) in
    Ret (D_train, labels_train, D_test, labels_test).
Proof.
  intros Hl Hne Hk H1 H2. unfold shuffle_split_data, np_choice_many. rewrite (py_int_quot p _ k) by done.
  destruct (Z.ltb_spec k 0); [lia|]. assert (zlen (py_range (zlen X)) <> 0).
  { unfold zlen at 1. rewrite length_py_range. unfold zlen. destruct X; [done|cbn; lia]. }
  destruct (Z.eqb_spec (zlen (py_range (zlen X))) 0); [done|]. done.
Qed.

Lemma py_range_nonempty {A} (X : list A) : X <> [] -> py_range (zlen X) <> [].
Proof. intros Hne E. apply (f_equal length) in E. rewrite length_py_range in E. unfold zlen in E. destruct X; [done|]. cbn in E. lia. Qed.

Lemma C52_mirror_proof : forall (A B : Type) (X : list A) (y : list B) (p : Qc) (k : Z) o,
  zlen X = zlen y -> X <> [] ->
  0 <= k -> (Qc_of_Z k <= p * Qc_of_Z (zlen X))%Qc -> (p * Qc_of_Z (zlen X) < Qc_of_Z (k + 1))%Qc ->
  can (shuffle_split_data X y p) o <->
  exists idx, zlen idx = k /\ (forall i, i ∈ idx -> 0 <= i < zlen X) /\
    zlen (select X idx) = k /\ zlen (select X (mirror (zlen X) idx)) = k /\
    o = Ok (select X idx, select y idx, select X (mirror (zlen X) idx), select y (mirror (zlen X) idx)).
Proof.
  intros A B X y p k o Hl Hne Hk H1 H2. rewrite (split_run X y p k) by done.
  assert (Hr : py_range (zlen X) <> []) by by apply py_range_nonempty.
  assert (Hlift : forall idx, (forall i, i ∈ idx -> 0 <= i < zlen X) -> forall o',
    can (let? D_train := lift (take_rows X idx) in
    let? labels_train := lift (take_rows y idx) in
    let? D_test := lift (take_rows X (map Z.lnot idx)) in
    let? labels_test := lift (take_rows y (map Z.lnot idx)) in
    Ret (D_train, labels_train, D_test, labels_test)) o' <->
    o' = Ok (select X idx, select y idx, select X (mirror (zlen X) idx), select y (mirror (zlen X) idx))).
  { intros idx Hi o'. assert (Hy : forall i, i ∈ idx -> 0 <= i < zlen y) by (intros i Hin; rewrite <- Hl; by apply Hi).
    rewrite (take_rows_select X idx Hi), (take_rows_select y idx Hy), (take_rows_mirror X idx Hi), (take_rows_mirror y idx Hy), <- Hl. done. }
  assert (Hm : forall idx, (forall i, i ∈ idx -> 0 <= i < zlen X) -> forall i, i ∈ mirror (zlen X) idx -> 0 <= i < zlen X).
  { intros idx Hi i Hin. apply elem_of_map in Hin as (i' & -> & Hin). specialize (Hi i' Hin). lia. }
  rewrite can_bind. split.
  - intros ([idx|e] & Hidx & Ho); apply can_choices in Hidx as (idx' & E & Hlen & Hall); try done.
    + injection E as <-. assert (Hi : forall i, i ∈ idx -> 0 <= i < zlen X) by (intros i Hin; apply elem_of_py_range; by apply Hall).
      exists idx. split; [unfold zlen; lia|]. split; [done|]. unfold zlen at 1 2.
      rewrite (length_select X idx Hi), (length_select X (mirror (zlen X) idx)) by by apply Hm.
      split; [lia|]. split; [unfold mirror; rewrite map_length; lia|]. by apply Hlift.
  - intros (idx & Hlen & Hi & _ & _ & ->). exists (Ok idx). split; [|by apply Hlift].
    apply can_choices; [done|]. exists idx. split; [done|]. split; [unfold zlen in Hlen; lia|]. intros i Hin. apply elem_of_py_range. by apply Hi.
Qed.


Lemma C52_law_proof : forall (A B : Type) (X : list A) (y : list B) (p : Qc) (k : nat) (F : result (list A * list B * list A * list B) -> Qc),
  zlen X = zlen y -> X <> [] ->
  (Qc_of_Z (Z.of_nat k) <= p * Qc_of_Z (zlen X))%Qc -> (p * Qc_of_Z (zlen X) < Qc_of_Z (Z.of_nat k + 1))%Qc ->
  expect (shuffle_split_data X y p) F =
  (qsum (map (fun idx => F (Ok (select X idx, select y idx, select X (mirror (zlen X) idx), select y (mirror (zlen X) idx))))
             (sequences (py_range (zlen X)) k)) / Qc_of_Z (zlen X ^ Z.of_nat k))%Qc.
Proof.
  intros A B X y p k F Hl Hne H1 H2. rewrite (split_run X y p (Z.of_nat k)) by (done || lia).
  rewrite expect_bind, expect_choices, Nat2Z.id by by apply py_range_nonempty.
  assert (zlen (py_range (zlen X)) = zlen X) as -> by (unfold zlen at 1; rewrite length_py_range; unfold zlen; lia).
  f_equal. apply qsum_map_ext. intros idx Hidx. apply elem_of_sequences in Hidx as [Hlen Hall].
  assert (Hi : forall i, i ∈ idx -> 0 <= i < zlen X) by (intros i Hin; apply elem_of_py_range; by apply Hall).
  assert (Hy : forall i, i ∈ idx -> 0 <= i < zlen y) by (intros i Hin; rewrite <- Hl; by apply Hi).
  rewrite (take_rows_select X idx Hi), (take_rows_select y idx Hy), (take_rows_mirror X idx Hi), (take_rows_mirror y idx Hy), <- Hl. done.
Qed.


Lemma C52_not_held_out_proof : forall (n : Z) (idx : list Z),
  0 <= n -> (forall i, i ∈ idx -> 0 <= i < n) ->
  (forall j, j ∈ idx /\ j ∈ mirror n idx <-> j ∈ idx /\ n - 1 - j ∈ idx) /\
  (forall j, j ∉ idx ++ mirror n idx <-> j ∉ idx /\ n - 1 - j ∉ idx) /\
  (idx ++ mirror n idx ≡ₚ py_range n <->
     NoDup idx /\ (forall i, i ∈ idx -> n - 1 - i ∉ idx) /\ 2 * zlen idx = n) /\
  (Z.odd n = true -> ~ idx ++ mirror n idx ≡ₚ py_range n).
Proof.
  intros n idx Hn Hi.
  assert (Hm : forall j, j ∈ mirror n idx <-> n - 1 - j ∈ idx).
  { intros j. unfold mirror. rewrite elem_of_map. split; [intros (i & -> & H); by replace (n - 1 - (n - 1 - i)) with i by lia|].
    intros H. exists (n - 1 - j). split; [lia|done]. }
  assert (Hp : idx ++ mirror n idx ≡ₚ py_range n <-> NoDup idx /\ (forall i, i ∈ idx -> n - 1 - i ∉ idx) /\ 2 * zlen idx = n).
  { split.
    - intros P. assert (Hnd : NoDup (idx ++ mirror n idx)) by (rewrite P; apply NoDup_py_range).
      apply NoDup_app in Hnd as (H1 & H2 & _). split; [done|]. split; [intros i Hin Hc; apply (H2 i Hin); by apply Hm|].
      apply Permutation_length in P. rewrite app_length, length_py_range in P. unfold mirror in P. rewrite map_length in P. unfold zlen. lia.
    - intros (H1 & H2 & H3). assert (Hnd : NoDup (idx ++ mirror n idx)).
      { apply NoDup_app. split; [done|]. split; [intros i Hin Hc; apply (H2 i Hin); by apply Hm|].
        apply NoDup_fmap_2; [|done]. intros a b E. lia. }
      apply submseteq_Permutation_length_le.
      + rewrite length_py_range, app_length. unfold mirror. rewrite map_length. unfold zlen in H3. lia.
      + apply NoDup_submseteq; [done|]. intros j Hj. apply elem_of_py_range. apply elem_of_app in Hj as [Hj|Hj]; [by apply Hi|].
        apply Hm, Hi in Hj. lia. }
  split_and!.
  - intros j. by rewrite Hm.
  - intros j. rewrite elem_of_app, Hm. tauto.
  - done.
  - intros Ho P. apply Hp in P as (_ & _ & E). rewrite <- E, Z.odd_mul in Ho. done.
Qed.


Lemma C52_errors_proof : forall (A B : Type) (X : list A) (y : list B) (p : Qc),
  (p * Qc_of_Z (zlen X) <= Qc_of_Z (-1))%Qc \/ X = [] ->
  forall o, can (shuffle_split_data X y p) o <-> o = Err ValueError.
Proof.
  intros A B X y p H o. unfold shuffle_split_data, np_choice_many.
  destruct H as [H| ->]; [|cbn [zlen length]; change (zlen (py_range (Z.of_nat 0))) with 0; rewrite Z.eqb_refl, orb_true_r; done].
  assert (py_int (p * Qc_of_Z (zlen X)) < 0) as Hlt; [|destruct (Z.ltb_spec (py_int (p * Qc_of_Z (zlen X))) 0); [done|lia]].
  set (q := (p * Qc_of_Z (zlen X))%Qc) in *. clearbody q. unfold Qcle in H. destruct q as [[a b] Hc]. unfold py_int. cbn [this Qnum Qden] in *.
  change (a * 1 <= - 1 * Zpos b) in H. assert (a <= - Z.pos b) by lia.
  assert (1 <= Z.quot (- a) (Z.pos b)); [|rewrite Z.quot_opp_l in *; lia].
  apply Z.quot_le_lower_bound; lia.
Qed.
