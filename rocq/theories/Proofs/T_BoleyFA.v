(** Proofs of the property theorems of Properties/P_BoleyFA.v. *)
From Coq Require Import Lra Sorted.
From Verif.Model Require Import PyBase PyReal Sparse Utils Graph Cliques Trie Assign Rand RandR Cftp Boley.
From Verif.Spec Require Import SMatrix SAssign SCftp SBoley.
Open Scope Z_scope.
From Verif.Proofs Require Import PBase PSets PSparse PUtils PTrie PAssign PGraph PCliques PSubsets PGreedyBase PRand PRandR PUncovered T_Assign T_Graph T_Uncovered PCftp T_Cftp T_Convert PBoley T_Boley.
Open Scope Z_scope.

Lemma rset_range (rows : list (gset Z)) : map (rset rows) (py_range (zlen rows)) = rows.
Proof.
  apply list_eq. intros k. change (map (rset rows) (py_range (zlen rows))) with (rset rows <$> py_range (zlen rows)). rewrite list_lookup_fmap.
  destruct (rows !! k) as [r|] eqn:E.
  - pose proof (lookup_lt_Some _ _ _ E). pose proof (lookup_py_range (zlen rows) (Z.of_nat k)) as H'. rewrite Nat2Z.id in H'. rewrite H' by (unfold zlen; lia).
    simpl. unfold rset. by rewrite Nat2Z.id, E.
  - apply lookup_ge_None in E. rewrite lookup_ge_None_2; [done|]. pose proof (zlen_py_range (zlen rows) (zlen_nonneg rows)). unfold zlen in *. lia.
Qed.

Lemma rset_sum (f : gset Z -> Z) rows : zsum (map (fun i => f (rset rows i)) (py_range (zlen rows))) = zsum (map f rows).
Proof. rewrite <- (map_map (rset rows) f), rset_range. done. Qed.

Lemma convert_rowset Y (rowset : Z -> gset Z) : wf_cmat (csr_mat Y) = true ->
  (forall i a, 0 <= i < csr_rows Y -> (a ∈ rowset i <-> nonzero_at (csr_mat Y) i a)) ->
  convert_matrix_to_sets Y = map rowset (py_range (csr_rows Y)).
Proof.
  intros Hwf Hr. rewrite <- (rset_range (convert_matrix_to_sets Y)). rewrite (convert_v1_length Y Hwf). apply map_ext_in. intros i Hi.
  apply elem_of_list_In, elem_of_py_range in Hi. destruct (py_index_in_range (convert_matrix_to_sets Y) i) as (F & _ & EF); [by rewrite convert_v1_length|].
  rewrite (rset_lookup _ _ _ EF). apply set_eq. intros a. rewrite Hr by done. apply (convert_v1_lookup Y i F Hwf); [lia|done].
Qed.

(** ** frequency *)
Definition fw (rows : list (gset Z)) : R := rsum (map (fun r : gset Z => 2 ^ size r)%R rows).
Definition flaw (ord : gset Z -> list Z) (rows : list (gset Z)) : list (R * gset Z) :=
  concat (map (fun r : gset Z => map (fun s => (/ fw rows, py_set s)%R) (subs (ord r))) rows).

Lemma fw_pos rows : rows <> [] -> (0 < fw rows)%R.
Proof.
  destruct rows as [|r rows]; [done|]. intros _. unfold fw. cbn [map]. rewrite rsum_cons. pose proof (pow_lt 2 (size r) ltac:(lra)).
  assert (0 <= rsum (map (fun r : gset Z => 2 ^ size r) rows))%R; [|lra]. apply rsum_nonneg. intros. apply pow_le. lra.
Qed.

Lemma bf_fit_eq Y : bf_fit Y = (convert_matrix_to_sets Y, rnormalize (map (fun i => 2 ^ size (rset (convert_matrix_to_sets Y) i))%R (py_range (zlen (convert_matrix_to_sets Y))))).
Proof.
  unfold bf_fit. f_equal. f_equal. rewrite <- (map_map (rset (convert_matrix_to_sets Y)) (fun r : gset Z => 2 ^ size r)%R), rset_range. apply map_ext. intros r. apply IZR_pow2.
Qed.

Lemma fw_range rows : rsum (map (fun i => 2 ^ size (rset rows i))%R (py_range (zlen rows))) = fw rows.
Proof. unfold fw. rewrite <- (map_map (rset rows) (fun r : gset Z => 2 ^ size r)%R), rset_range. done. Qed.

Lemma bf_round_expect ord rows f : set_order ord -> rows <> [] ->
  hexpect f (bf_round ord (rows, rnormalize (map (fun i => 2 ^ size (rset rows i))%R (py_range (zlen rows)))))
    (rsum (map (fun x => x.1 * f (Ok x.2)) (flaw ord rows)))%R.
Proof.
  intros Ho Hne. pose proof (fw_pos rows Hne) as Hw. unfold bf_round.
  set (g := fun o : result Z => match o with Ok i => (rsum (map (fun s => f (Ok (py_set s))) (subs (ord (rset rows i)))) / 2 ^ size (rset rows i))%R | Err e => f (Err e) end).
  apply (hbind _ _ _ g).
  - assert (E : rsum (map (fun x : R * gset Z => x.1 * f (Ok x.2))%R (flaw ord rows)) =
       rsum (map (fun xp : Z * R => xp.2 * g (Ok xp.1))%R (zip (py_range (zlen rows)) (rnormalize (map (fun i => 2 ^ size (rset rows i))%R (py_range (zlen rows))))))).
    { unfold flaw. rewrite rsum_concat. etransitivity; [|symmetry; rewrite (zip_norm (fun i => 2 ^ size (rset rows i))%R), fw_range, map_map; reflexivity].
      match goal with |- rsum (map ?H rows) = _ => transitivity (rsum (map H (map (rset rows) (py_range (zlen rows))))); [by rewrite rset_range|] end.
      rewrite map_map. apply rsum_map_ext. intros i _. cbn [fst snd g]. rewrite map_map. cbn [fst snd]. rewrite rsum_scal.
      assert (0 < 2 ^ size (rset rows i))%R by (apply pow_lt; lra). field. lra. }
    rewrite E. apply hexpect_rchoice; [by rewrite norm_length, map_length|].
    apply (norm_distr (fun i => 2 ^ size (rset rows i))%R); [intros; apply pow_le; lra|]. by rewrite fw_range.
  - intros i Hi. apply rcan_rchoice in Hi as (x & p & Hin & _ & [= <-]).
    2:{ by rewrite norm_length, map_length. }
    2:{ apply (norm_distr (fun i => 2 ^ size (rset rows i))%R); [intros; apply pow_le; lra|]. by rewrite fw_range. }
    rewrite (zip_norm (fun i => 2 ^ size (rset rows i))%R) in Hin. apply elem_of_map in Hin as (i' & [= <- _] & Hi). apply elem_of_py_range in Hi.
    rewrite (rset_ok rows i Hi). cbn [rlift rrbind]. destruct (ord_NoDup ord (rset rows i) Ho) as (_ & _ & El).
    apply (hbind _ _ _ (fun o => match o with Ok us => f (Ok (py_set (keep (ord (rset rows i)) us))) | Err e => f (Err e) end)); [|intros us _; constructor|done].
    apply hexpect_runiform. unfold g. rewrite <- El. apply (vec_expect (ord (rset rows i)) (fun s => f (Ok (py_set s)))).
  - intros e He. done.
Qed.

Lemma bf_round_can ord rows o : set_order ord -> rows <> [] ->
  rcan (bf_round ord (rows, rnormalize (map (fun i => 2 ^ size (rset rows i))%R (py_range (zlen rows))))) o -> exists r T, r ∈ rows /\ o = Ok T /\ T ⊆ r.
Proof.
  intros Ho Hne Hc. pose proof (fw_pos rows Hne) as Hw. unfold bf_round in Hc.
  assert (Hd : distr (rnormalize (map (fun i => 2 ^ size (rset rows i))%R (py_range (zlen rows))))).
  { apply (norm_distr (fun i => 2 ^ size (rset rows i))%R); [intros; apply pow_le; lra|]. by rewrite fw_range. }
  apply rcan_bind in Hc as [(i & Hi & Hc)|(e & He & ->)].
  2:{ apply rcan_rchoice in He as (? & ? & _ & _ & ?); [done|by rewrite norm_length, map_length|done]. }
  apply rcan_rchoice in Hi as (x & p & Hin & _ & [= <-]); [|by rewrite norm_length, map_length|done].
  rewrite (zip_norm (fun i => 2 ^ size (rset rows i))%R) in Hin. apply elem_of_map in Hin as (i' & [= <- _] & Hi). apply elem_of_py_range in Hi.
  rewrite (rset_ok rows i Hi) in Hc. cbn [rlift rrbind] in Hc. destruct (ord_NoDup ord (rset rows i) Ho) as (_ & Es & _).
  apply rcan_bind in Hc as [(us & _ & Hc)|(e & He & ->)]; [|apply rcan_runiform in He as (? & ? & _); done].
  simpl in Hc. subst o. exists (rset rows i). eexists. split_and!; [|reflexivity|].
  - destruct (py_index_in_range rows i Hi) as (r & _ & E). rewrite (rset_lookup _ _ _ E). by eapply elem_of_list_lookup_2.
  - fold (keep (ord (rset rows i)) us). intros x Hx. rewrite elem_of_py_set in Hx. apply (sublist_elem _ _ _ (keep_sublist _ us)) in Hx. by rewrite <- Es, elem_of_py_set.
Qed.

Lemma fw_Z rows : fw rows = IZR (zsum (map (fun r : gset Z => 2 ^ Z.of_nat (size r)) rows)).
Proof. unfold fw. rewrite <- rsum_IZR. apply rsum_map_ext. intros r _. symmetry. apply IZR_pow2. Qed.

Lemma flaw_sum ord rows (f : gset Z -> R) : set_order ord ->
  rsum (map (fun x => x.1 * f x.2) (flaw ord rows))%R = (/ fw rows * rsum (map (fun r => rsum (map f (map py_set (subs (ord r))))) rows))%R.
Proof.
  intros Ho. unfold flaw. rewrite rsum_concat, <- rsum_scal. apply rsum_map_ext. intros r _. rewrite !map_map. cbn [fst snd]. by rewrite rsum_scal.
Qed.

Lemma flaw_indicator ord rows (T : gset Z) : set_order ord ->
  rsum (map (fun x : R * gset Z => x.1 * (if decide (x.2 = T) then 1 else 0)) (flaw ord rows))%R = (IZR (zsum (map (fun r : gset Z => if decide (T ⊆ r) then 1%Z else 0%Z) rows)) / fw rows)%R.
Proof.
  intros Ho. pose proof (flaw_sum ord rows (fun x => if decide (x = T) then 1 else 0)%R Ho) as E. cbn beta in E. etransitivity; [exact E|]. clear E. unfold Rdiv. rewrite Rmult_comm. f_equal. rewrite <- rsum_IZR. apply rsum_map_ext.
  intros r _. destruct (ord_NoDup ord r Ho) as (Hnd & Es & _). destruct (decide (T ⊆ r)) as [HT|HT].
  - rewrite (rsum_map_ext _ (fun x => 1 * (if decide (x = T) then 1 else 0))%R) by (intros; lra).
    rewrite (rsum_indicator (fun _ => 1%R)); [done|by apply NoDup_subsets|]. apply elem_of_subsets. by rewrite Es.
  - apply rsum_zero. intros x Hx. rewrite decide_False; [done|]. intros ->. apply HT. rewrite <- Es. by apply elem_of_subsets.
Qed.

Lemma bf_loop_S n ord fit : bf_sample_once (S n) ord fit = (let* res := bf_round ord fit in if (0 <? size res)%nat then RRet res else bf_sample_once n ord fit).
Proof. done. Qed.

Lemma C39_frequency_proof : forall (ord : gset Z -> list Z) (fuel : nat) (Y : csr) (rowset : Z -> gset Z),
  set_order ord -> wf_cmat (csr_mat Y) = true ->
  (forall i a, 0 <= i < csr_rows Y -> (a ∈ rowset i <-> nonzero_at (csr_mat Y) i a)) ->
  let rng := py_range (csr_rows Y) in
  let supp (T : gset Z) := zsum (map (fun i => if decide (T ⊆ rowset i) then 1 else 0) rng) in
  let total := zsum (map (fun i => 2 ^ Z.of_nat (size (rowset i)) - 1) rng) in
  let weight := zsum (map (fun i => 2 ^ Z.of_nat (size (rowset i))) rng) in
  let q := (IZR (csr_rows Y) / IZR weight)%R in
  let s := bf_sample_once fuel ord (bf_fit Y) in
  (csr_rows Y = 0 -> (0 < fuel)%nat -> hprob s (Err ValueError) 1) /\
  (0 < csr_rows Y ->
     (0 <= q <= 1)%R /\ ((q < 1)%R <-> exists i a, 0 <= i < csr_rows Y /\ a ∈ rowset i) /\
     hprob s (Err OutOfFuel) (q ^ fuel) /\
     (forall T, T <> ∅ -> hprob s (Ok T) (IZR (supp T) / IZR total * (1 - q ^ fuel))) /\
     (forall o, rcan s o -> o = Err OutOfFuel \/ exists T, o = Ok T /\ T <> ∅ /\ 0 < supp T)).
Proof.
  intros ord fuel Y rowset Ho Hwf Hr rng supp total weight q s.
  pose proof (convert_rowset Y rowset Hwf Hr) as Ec. fold rng in Ec.
  set (rows := convert_matrix_to_sets Y) in *.
  assert (Hlen : zlen rows = csr_rows Y) by (by apply convert_v1_length).
  unfold s. rewrite bf_fit_eq. fold rows. set (fit := (rows, _)). split.
  - intros Hz Hf. destruct fuel as [|n]; [lia|]. rewrite bf_loop_S. unfold hprob, fit, bf_round, rchoice. rewrite Hlen, Hz. simpl. 
    match goal with |- hexpect ?f _ _ => replace 1%R with (f (Err ValueError)) by (by rewrite decide_True) end. constructor.
  - intros Hpos. assert (Hne : rows <> []) by (intros E; rewrite E in Hlen; unfold zlen in Hlen; simpl in Hlen; lia).
    pose proof (fw_pos rows Hne) as Hw.
    assert (Hfw : IZR weight = fw rows).
    { unfold weight. rewrite fw_Z, Ec, map_map. done. }
    assert (Htot : IZR total = (fw rows - IZR (csr_rows Y))%R).
    { unfold total. rewrite fw_Z, <- minus_IZR. f_equal. rewrite Ec, map_map, <- Hlen, Ec, zlen_map. clear. induction rng as [|i l IH]; [done|]. cbn [map]. rewrite !zsum_cons, IH. unfold zlen. cbn [length]. lia. }
    assert (Hq' : q = (/ fw rows * IZR (csr_rows Y))%R) by (unfold q; rewrite Hfw; unfold Rdiv; ring).
    assert (Htn : 0 <= total).
    { unfold total. apply zsum_nonneg. apply list.Forall_forall. intros v Hv. apply elem_of_map in Hv as (i & -> & _). pose proof (pow2_pos (size (rowset i))). lia. }
    assert (Hq1 : (1 - q = IZR total / fw rows)%R) by (rewrite Hq', Htot; field; lra).
    assert (Htp : (0 < IZR total)%R <-> exists i a, 0 <= i < csr_rows Y /\ a ∈ rowset i).
    { split.
      - intros H. destruct (decide (Exists (fun i => rowset i <> ∅) rng)) as [He|He].
        + apply list.Exists_exists in He as (i & Hi & He). apply elem_of_py_range in Hi. apply set_choose_L in He as [a Ha]. eauto.
        + exfalso. assert (total = 0); [|rewrite H0 in H; lra]. unfold total. rewrite (zsum_map_ext' _ (fun _ => 0)).
          * clear. induction rng as [|i l IH]; [done|]. cbn [map]. by rewrite zsum_cons, IH.
          * intros i Hi. destruct (decide (rowset i = ∅)) as [->|Hn]; [by rewrite size_empty|]. exfalso. apply He. apply list.Exists_exists. eauto.
      - intros (i & a & Hi & Ha). apply (IZR_lt 0). assert (Hge : 2 ^ Z.of_nat (size (rowset i)) - 1 <= total).
        { unfold total. apply elem_of_py_range in Hi. fold rng in Hi. clear - Hi. induction Hi as [x l|x y l Hi IH]; cbn [map]; rewrite zsum_cons.
          - assert (0 <= zsum (map (fun i => 2 ^ Z.of_nat (size (rowset i)) - 1) l)); [|lia]. apply zsum_nonneg, list.Forall_forall. intros v Hv. apply elem_of_map in Hv as (j & -> & _). pose proof (pow2_pos (size (rowset j))). lia.
          - pose proof (pow2_pos (size (rowset y))). lia. }
        assert (2 ^ 1 <= 2 ^ Z.of_nat (size (rowset i))); [|lia]. apply Z.pow_le_mono_r; [lia|]. pose proof (size_pos_ne (rowset i) ltac:(set_solver)). lia. }
    assert (Hq01 : (0 <= q <= 1)%R).
    { split; [rewrite Hq'; apply Rmult_le_pos; [left; by apply Rinv_0_lt_compat|apply (IZR_le 0); lia]|].
      assert (0 <= 1 - q)%R; [|lra]. rewrite Hq1. apply div_nonneg; [by apply (IZR_le 0)|lra]. }
    split; [done|]. split.
    { rewrite <- Htp. split.
      - intros H. assert (0 < IZR total / fw rows)%R as H' by lra. apply (Rmult_lt_compat_r (fw rows)) in H'; [|done]. unfold Rdiv in H'. rewrite Rmult_assoc, Rinv_l in H' by lra. lra.
      - intros H. assert (0 < 1 - q)%R; [|lra]. rewrite Hq1. by apply Rdiv_lt_0_compat. }
    pose proof (fun f => bf_round_expect ord rows f Ho Hne) as Honce.
    assert (Hrej : rejq (flaw ord rows) = q).
    { unfold rejq. rewrite (rsum_map_ext _ (fun x : R * gset Z => x.1 * (if decide (x.2 = ∅) then 1 else 0))%R) by (intros x _; destruct (decide _); lra).
      rewrite flaw_indicator by done. rewrite Hq'. unfold Rdiv. rewrite Rmult_comm. f_equal. f_equal. rewrite <- Hlen. clear. induction rows as [|r l IH]; [done|].
      cbn [map]. rewrite zsum_cons, IH. rewrite decide_True by set_solver. unfold zlen. cbn [length]. lia. }
    pose proof (retry_expect (bf_round ord fit) (fun n => bf_sample_once n ord fit) (flaw ord rows) Honce eq_refl (fun n => bf_loop_S n ord fit) fuel) as HE.
    rewrite Hrej in HE.
    assert (Hsupp : forall T : gset Z, zsum (map (fun r : gset Z => if decide (T ⊆ r) then 1 else 0) rows) = supp T).
    { intros T. unfold supp. rewrite Ec, map_map. done. }
    split_and!.
    + unfold hprob. pose proof (HE (fun o => if decide (o = Err OutOfFuel) then 1 else 0)%R) as H. cbn beta in H. rewrite decide_True in H by done.
      rewrite (rsum_zero) in H; [by rewrite Rmult_0_r, Rplus_0_l, Rmult_1_r in H|]. intros x _. destruct (decide (x.2 = ∅)); [lra|]. rewrite decide_False by done. lra.
    + intros T HT. unfold hprob. pose proof (HE (fun o => if decide (o = Ok T) then 1 else 0)%R) as H. cbn beta in H.
      match type of H with hexpect _ _ (_ + _ * ?z)%R => assert (Ez : z = 0%R) by (by rewrite decide_False) end. rewrite Ez, Rmult_0_r, Rplus_0_r in H. clear Ez.
      rewrite (rsum_map_ext _ (fun x : R * gset Z => x.1 * (if decide (x.2 = T) then 1 else 0))%R) in H.
      2:{ intros x _. f_equal. destruct (decide (x.2 = ∅)) as [E|E], (decide (x.2 = T)) as [E'|E']; try done; [congruence|by rewrite decide_True by congruence|rewrite decide_False; [done|congruence]]. }
      rewrite flaw_indicator, Hsupp in H by done.
      assert (Ev : (geo q fuel * (IZR (supp T) / fw rows) = IZR (supp T) / IZR total * (1 - q ^ fuel))%R); [|by rewrite <- Ev].
      rewrite <- geo_eq, Hq1. destruct (Z.eq_dec total 0) as [Hz|Hz].
      * assert (supp T = 0) as ->; [|unfold Rdiv; lra]. unfold supp. rewrite (zsum_map_ext' _ (fun _ => 0)); [clear; induction rng as [|i l IH]; [done|]; cbn [map]; by rewrite zsum_cons, IH|].
        intros i Hi. rewrite decide_False; [done|]. intros Hs. apply set_choose_L in HT as [a Ha]. apply elem_of_py_range in Hi.
        assert (0 < IZR total)%R; [|rewrite Hz in *; lra]. apply Htp. exists i, a. split; [done|]. by apply Hs.
      * assert (IZR total <> 0)%R by (intros E; by apply eq_IZR in E). field. lra.
    + intros o Ho'. destruct (retry_can (bf_round ord fit) (fun n => bf_sample_once n ord fit) eq_refl (fun n => bf_loop_S n ord fit) fuel o Ho') as [?|[(e & He & ->)|(T & HT & Hn & ->)]]; [by left|..].
      * apply bf_round_can in He as (? & ? & _ & ? & _); done.
      * right. exists T. split; [done|]. split; [done|]. apply bf_round_can in HT as (r & T' & Hr' & [= <-] & Hs'); [|done|done].
        rewrite <- Hsupp. clear - Hr' Hs'. induction Hr' as [r l|r r' l Hr' IH]; cbn [map]; rewrite zsum_cons.
        -- rewrite decide_True by done. assert (0 <= zsum (map (fun r : gset Z => if decide (T ⊆ r) then 1 else 0) l)); [|lia]. apply zsum_nonneg, list.Forall_forall. intros v Hv. apply elem_of_map in Hv as (j & -> & _). destruct (decide _); lia.
        -- specialize (IH Hs'). destruct (decide (T ⊆ r')); lia.
Qed.


(** ** area *)
Lemma binom_gt n : forall k, (n < k)%nat -> binom n k = 0.
Proof. induction n as [|n IH]; intros [|k] Hk; try lia; [done|]. simpl. rewrite !IH by lia. done. Qed.
Lemma binom_0 n : binom n 0 = 1.
Proof. by destruct n. Qed.
Lemma binom_SS n k : binom (S n) (S k) = binom n k + binom n (S k).
Proof. done. Qed.
Lemma binom_absorb n : forall k, Z.of_nat (S k) * binom (S n) (S k) = Z.of_nat (S n) * binom n k.
Proof.
  induction n as [|n IH]; intros k.
  - rewrite binom_SS. destruct k as [|k]; [reflexivity|]. rewrite !binom_gt by lia. lia.
  - rewrite binom_SS. destruct k as [|j].
    + rewrite !binom_0. pose proof (IH 0%nat) as H. rewrite binom_0 in H. lia.
    + pose proof (IH (S j)) as H1. pose proof (IH j) as H2. pose proof (binom_SS n j) as H3. rewrite Nat2Z.inj_succ in *. nia.
Qed.
Lemma binom_pos n : forall k, (k <= n)%nat -> 0 < binom n k.
Proof. induction n as [|n IH]; intros [|k] Hk; try lia; [done|done|]. rewrite binom_SS. pose proof (IH k ltac:(lia)). destruct (decide (S k <= n)%nat) as [H'|H']; [pose proof (IH _ H'); lia|rewrite (binom_gt n (S k)); lia]. Qed.

Lemma zsum_app' l l' : zsum (l ++ l') = zsum l + zsum l'.
Proof. apply zsum_app. Qed.

Lemma zsum_plus {A} (f g : A -> Z) l : zsum (map (fun x => f x + g x) l) = zsum (map f l) + zsum (map g l).
Proof. induction l as [|x l IH]; [done|]. cbn [map]. rewrite !zsum_cons, IH. lia. Qed.
Lemma zsum_scal {A} (c : Z) (f : A -> Z) l : zsum (map (fun x => c * f x) l) = c * zsum (map f l).
Proof. induction l as [|x l IH]; [simpl; lia|]. cbn [map]. rewrite !zsum_cons, IH. lia. Qed.

Lemma binom_sum n : zsum (map (binom n) (seq 0 (S n))) = 2 ^ Z.of_nat n.
Proof.
  induction n as [|n IH]; [reflexivity|]. rewrite <- cons_seq. cbn [map]. rewrite zsum_cons, binom_0, <- seq_shift, map_map.
  rewrite (zsum_map_ext' _ (fun k => binom n k + binom n (S k))) by (intros; done). rewrite zsum_plus.
  assert (E : zsum (map (fun k => binom n (S k)) (seq 0 (S n))) = 2 ^ Z.of_nat n - 1).
  { rewrite seq_S, map_app, zsum_app. cbn [map]. rewrite zsum_cons. rewrite (binom_gt n (S (0 + n))) by lia.
    assert (E : zsum (map (binom n) (seq 0 (S n))) = 1 + zsum (map (fun k => binom n (S k)) (seq 0 n))).
    { rewrite <- cons_seq. cbn [map]. by rewrite zsum_cons, binom_0, <- seq_shift, map_map. }
    simpl (zsum []). lia. }
  rewrite IH, E. rewrite Nat2Z.inj_succ, Z.pow_succ_r by lia. lia.
Qed.

Lemma binom_weight_sum n : zsum (map (fun k => binom n k * Z.of_nat k) (seq 1 n)) = 2 ^ (Z.of_nat n - 1) * Z.of_nat n.
Proof.
  destruct n as [|m]; [reflexivity|]. rewrite <- seq_shift, map_map.
  rewrite (zsum_map_ext' _ (fun k => Z.of_nat (S m) * binom m k)) by (intros k _; rewrite <- binom_absorb; lia).
  rewrite zsum_scal, binom_sum. replace (Z.of_nat (S m) - 1) with (Z.of_nat m) by lia. lia.
Qed.

(** *** permutations *)
Lemma perm_can {A} n : forall (l : list A) o, length l = n -> can (np_permutation_aux n l) o -> exists p, o = Ok p /\ p ≡ₚ l.
Proof.
  induction n as [|n IH]; intros l o Hl H.
  - destruct l; [|done]. simpl in H. subst. by exists [].
  - cbn [np_permutation_aux can] in H. destruct H as (i & p & Hi & _ & H). apply lookup_lt_Some in Hi. rewrite replicate_length in Hi.
    destruct (l !! i) as [x|] eqn:Ex; [|apply lookup_ge_None in Ex; lia].
    apply can_bind in H as (r & Hr & H). assert (Hd : length (delete i l) = n) by (rewrite length_delete; [lia|by eexists]).
    destruct (IH _ _ Hd Hr) as (q & -> & Hq). simpl in H. subst o. exists (x :: q). split; [done|]. rewrite Hq. symmetry. by apply delete_Permutation.
Qed.

Lemma py_set_cons x l : py_set (x :: l) = {[x]} ∪ py_set l.
Proof. done. Qed.

Lemma count_in (l : list Z) (T : gset Z) : NoDup l -> T ⊆ py_set l -> zsum (map (fun x => if decide (x ∈ T) then 1 else 0) l) = Z.of_nat (size T).
Proof.
  intros Hnd. revert T. induction Hnd as [|x l Hx Hnd IH]; intros T HT.
  - assert (T = ∅) as -> by (apply set_eq; set_solver). by rewrite size_empty.
  - rewrite py_set_cons in HT. cbn [map]. rewrite zsum_cons. assert (x ∉ py_set l) by (by rewrite elem_of_py_set).
    rewrite (zsum_map_ext' _ (fun y => if decide (y ∈ T ∖ {[x]}) then 1 else 0)).
    + rewrite IH by set_solver. destruct (decide (x ∈ T)) as [Hin|Hin].
      * rewrite (size_split T {[x]}). assert (T ∩ {[x]} = {[x]}) as -> by (apply set_eq; set_solver). rewrite size_singleton. lia.
      * assert (T ∖ {[x]} = T) as -> by (apply set_eq; set_solver). lia.
    + intros y Hy. assert (y <> x) by congruence. destruct (decide (y ∈ T)); [rewrite decide_True by set_solver|rewrite decide_False by set_solver]; done.
Qed.

Lemma expect_choose_uniform {A B} (l : list B) (k : nat -> rand A) f (h : B -> Qc) :
  (forall i x, l !! i = Some x -> expect (k i) f = h x) ->
  expect (Choose (replicate (length l) (1 / Qc_of_Z (zlen l))%Qc) k) f = (1 / Qc_of_Z (zlen l) * qsum (map h l))%Qc.
Proof.
  intros H. cbn [expect]. generalize (1 / Qc_of_Z (zlen l))%Qc. intros c.
  rewrite (imap_zip l (replicate (length l) c) _ (fun x p => p * h x)%Qc).
  - rewrite <- qsum_map_mult. f_equal. clear. induction l as [|x l IH]; [done|]. simpl. by rewrite IH.
  - by rewrite replicate_length.
  - intros i x p Hx Hp. by rewrite (H i x Hx).
Qed.

Definition ptake (k : nat) (T : gset Z) (o : result (list Z)) : Qc :=
  match o with Ok p => if decide (py_set (take k p) = T) then 1%Qc else 0%Qc | Err _ => 0%Qc end.

Lemma qsum_const {A} (l : list A) c : qsum (map (fun _ => c) l) = (Qc_of_Z (zlen l) * c)%Qc.
Proof.
  induction l as [|x l IH]; [change (zlen []) with 0; simpl; rewrite Z2Qc_inj_0; ring|]. simpl. rewrite IH. unfold zlen. cbn [length]. rewrite Nat2Z.inj_succ, <- Z.add_1_r, Qc_of_Z_plus.
  replace (Qc_of_Z 1) with 1%Qc by (by rewrite Z2Qc_inj_1). ring.
Qed.

Lemma Qc_of_Z_ne a : a <> 0 -> Qc_of_Z a <> 0%Qc.
Proof. intros H E. by apply Qc_of_Z_inj_0 in E. Qed.

Lemma perm_prefix n : forall (l : list Z) k (T : gset Z), NoDup l -> length l = n -> (k <= n)%nat ->
  expect (np_permutation_aux n l) (ptake k T) = if decide (size T = k /\ T ⊆ py_set l) then (1 / Qc_of_Z (binom n k))%Qc else 0%Qc.
Proof.
  induction n as [|n IH]; intros l k T Hnd Hl Hk.
  - destruct l; [|done]. destruct k; [|lia]. cbn [np_permutation_aux expect ptake take]. change (py_set []) with (∅ : gset Z).
    destruct (decide (∅ = T)) as [<-|HT].
    + rewrite decide_True by (split; [apply size_empty|done]). reflexivity.
    + rewrite decide_False; [done|]. intros [_ Hs]. apply HT. apply set_eq. set_solver.
  - cbn [np_permutation_aux].
    assert (Hn0 : Qc_of_Z (zlen l) <> 0%Qc) by (apply Qc_of_Z_ne; unfold zlen; lia).
    assert (Hdel : forall i x, l !! i = Some x -> NoDup (delete i l) /\ length (delete i l) = n /\ py_set (delete i l) = py_set l ∖ {[x]} /\ x ∈ py_set l).
    { intros i x Hx. pose proof (delete_Permutation _ _ _ Hx) as Hp. assert (Hnd' : NoDup (x :: delete i l)) by (by rewrite <- Hp). apply stdpp.list.NoDup_cons in Hnd' as [Hxn Hnd'].
      split_and!; [done|rewrite length_delete; [lia|by eexists]|..].
      - apply set_eq. intros a. assert (Ha' : a ∈ l <-> a = x \/ a ∈ delete i l) by (rewrite Hp at 1; apply elem_of_cons).
        rewrite elem_of_difference, elem_of_singleton, !elem_of_py_set, Ha'. split; [|tauto]. intros Ha. split; [by right|]. by intros ->.
      - rewrite elem_of_py_set. by eapply elem_of_list_lookup_2. }
    rewrite (expect_choose_uniform l _ _ (fun x => match k with
       | O => if decide (size T = 0%nat) then 1 else 0
       | S k' => if decide (size T = k /\ T ⊆ py_set l) then (if decide (x ∈ T) then 1 / Qc_of_Z (binom n k') else 0) else 0 end)%Qc).
    + destruct k as [|k'].
      * rewrite qsum_const, binom_0. destruct (decide (size T = 0%nat)) as [E|E].
        -- apply size_empty_inv in E. rewrite decide_True by (split; [rewrite E; apply size_empty|set_solver]).
           replace (Qc_of_Z 1) with 1%Qc by (by rewrite Z2Qc_inj_1). field. split; [|done]. done.
        -- rewrite decide_False by tauto. ring.
      * destruct (decide (size T = S k' /\ T ⊆ py_set l)) as [[HsT HT]|Hno]; [|rewrite qsum_zero by done; ring].
        rewrite (qsum_map_ext _ (fun x => (1 / Qc_of_Z (binom n k')) * Qc_of_Z (if decide (x ∈ T) then 1 else 0))%Qc).
        2:{ intros x _. destruct (decide (x ∈ T)); [replace (Qc_of_Z 1) with 1%Qc by (by rewrite Z2Qc_inj_1); ring|rewrite Z2Qc_inj_0; ring]. }
        rewrite qsum_map_mult, qsum_Z, count_in by done. rewrite HsT. unfold zlen. rewrite Hl.
        assert (H1 : Qc_of_Z (binom n k') <> 0%Qc) by (apply Qc_of_Z_ne; pose proof (binom_pos n k' ltac:(lia)); lia).
        assert (H2 : Qc_of_Z (binom (S n) (S k')) <> 0%Qc) by (apply Qc_of_Z_ne; pose proof (binom_pos (S n) (S k') ltac:(lia)); lia).
        assert (H3 : Qc_of_Z (Z.of_nat (S n)) <> 0%Qc) by (apply Qc_of_Z_ne; lia).
        pose proof (f_equal Qc_of_Z (binom_absorb n k')) as E. rewrite !Qc_of_Z_mult in E.
        field_simplify_eq; [|done..]. first [exact E | rewrite <- E; ring | rewrite E; ring | (etransitivity; [|exact E]); ring | (symmetry; etransitivity; [|exact E]); ring].
    + intros i x Hx. destruct (Hdel i x Hx) as (Hnd' & Hl' & Es & Hxl). rewrite Hx, expect_bind.
      destruct k as [|k'].
      * rewrite (expect_ext _ _ (ptake 0 T)).
        2:{ intros o Ho. apply perm_can in Ho as (p & -> & _); done. }
        rewrite IH by (done || lia). rewrite binom_0. destruct (decide (size T = 0%nat)) as [E|E]; [|by rewrite decide_False by tauto].
        apply size_empty_inv in E. rewrite decide_True by (split; [rewrite E; apply size_empty|set_solver]). reflexivity.
      * rewrite (expect_ext _ _ (fun o => if decide (x ∈ T) then ptake k' (T ∖ {[x]}) o else 0%Qc)).
        -- destruct (decide (x ∈ T)) as [HxT|HxT].
           ++ rewrite IH by (done || lia). rewrite Es.
              assert (Hsz : size T = S (size (T ∖ {[x]}))).
              { rewrite (size_split T {[x]}) at 1. assert (T ∩ {[x]} = {[x]}) as -> by (apply set_eq; set_solver). rewrite size_singleton. lia. }
              destruct (decide (size T = S k' /\ T ⊆ py_set l)) as [[H1 H2]|Hn].
              ** rewrite decide_True; [done|]. split; [lia|set_solver].
              ** rewrite decide_False; [done|]. intros [H1 H2]. apply Hn. split; [lia|]. intros y Hy. destruct (decide (y = x)) as [->|]; [done|]. set_solver.
           ++ rewrite <- (Qcmult_0_l 0), expect_mult. destruct (decide _); ring.
        -- intros o Ho. apply perm_can in Ho as (p & -> & Hp); [|done]. cbn [expect ptake take]. rewrite py_set_cons.
           assert (x ∉ py_set (take k' p)).
           { intros Hin. rewrite elem_of_py_set in Hin. assert (x ∈ p) as Hxp by (rewrite <- (take_drop k' p); set_solver).
             rewrite Hp, <- elem_of_py_set, Es in Hxp. set_solver. }
           destruct (decide (x ∈ T)) as [HxT|HxT].
           ++ cbn [ptake]. destruct (decide (py_set (take k' p) = T ∖ {[x]})) as [E|E].
              ** rewrite decide_True; [done|]. rewrite E. apply set_eq. intros y. destruct (decide (y = x)); set_solver.
              ** rewrite decide_False; [done|]. intros E'. apply E. rewrite <- E'. apply set_eq. set_solver.
           ++ rewrite decide_False; [done|]. intros <-. set_solver.
Qed.

(** *** the rows kept *)
Definition lset (l : list (Z * Z)) : gset Z := py_set (map fst (filter (fun e => snd e <> 0) l)).
Lemma convert_lines m : convert_matrix_to_sets m = map lset (lines (csr_mat m)).
Proof. unfold convert_matrix_to_sets, lines. rewrite map_map. done. Qed.

Lemma mask_lines Y : convert_matrix_to_sets (mask_rows (rows_mask Y) Y) = map lset (List.filter (fun l => 0 <? zsum (map snd l)) (lines (csr_mat Y))).
Proof.
  rewrite convert_lines. unfold mask_rows. cbn [csr_mat]. rewrite lines_of_lines. f_equal. unfold rows_mask.
  change (csr_rows Y) with (n_major (csr_mat Y)). rewrite <- (map_map (line (csr_mat Y)) (fun l => 0 <? zsum (map snd l))). fold (lines (csr_mat Y)).
  induction (lines (csr_mat Y)) as [|l ls IH]; [done|]. simpl. destruct (0 <? zsum (map snd l)); simpl; by rewrite IH.
Qed.

Lemma line_positive (l : list (Z * Z)) : (forall e, e ∈ l -> 0 <= snd e) -> (0 <? zsum (map snd l)) = (0 <? size (lset l))%nat.
Proof.
  intros Hl. assert (H : 0 <= zsum (map snd l)).
  { apply zsum_nonneg, list.Forall_forall. intros v Hv. apply elem_of_map in Hv as (e & -> & He). by apply Hl. }
  destruct (Z.ltb_spec 0 (zsum (map snd l))) as [Hp|Hp].
  - symmetry. apply Nat.ltb_lt, size_pos_ne. intros E.
    assert (Hz : forall e, e ∈ l -> snd e = 0).
    { intros e He. destruct (decide (snd e = 0)) as [|Hne]; [done|]. exfalso. assert (fst e ∈ lset l); [|set_solver].
      unfold lset. rewrite elem_of_py_set. apply elem_of_map. exists e. split; [done|]. by apply elem_of_list_filter. }
    rewrite (zsum_map_ext' _ (fun _ => 0)) in Hp by done. assert (E0 : zsum (map (fun _ : Z * Z => 0) l) = 0) by (clear; induction l as [|e l IH]; [done|]; cbn [map]; by rewrite zsum_cons, IH). lia.
  - symmetry. apply Nat.ltb_ge. assert (lset l = ∅) as ->; [|by rewrite size_empty].
    apply set_eq. intros a. split; [|set_solver]. unfold lset. rewrite elem_of_py_set. intros Ha. exfalso. apply elem_of_map in Ha as ([j v] & -> & He).
    apply elem_of_list_filter in He as [Hne He]. cbn [snd] in Hne. pose proof (Hl _ He) as Hv. cbn [snd] in Hv. clear - He Hne Hv Hl Hp.
    assert (Hge : v <= zsum (map snd l)); [|lia]. clear Hp. remember (j, v) as e eqn:Ee. induction He as [e l|e e' l He IH]; cbn [map]; rewrite zsum_cons.
    + assert (0 <= zsum (map snd l)); [|subst; simpl; lia]. apply zsum_nonneg, list.Forall_forall. intros w Hw. apply elem_of_map in Hw as (e' & -> & He'). apply Hl. by right.
    + pose proof (Hl e' ltac:(left)). assert (v <= zsum (map snd l)); [|lia]. apply IH; [|done]. intros. apply Hl. by right.
Qed.

Lemma mask_nonempty Y : wf_cmat (csr_mat Y) = true -> (forall i j k v, slot (csr_mat Y) i j k v -> 0 <= v) ->
  convert_matrix_to_sets (mask_rows (rows_mask Y) Y) = List.filter (fun r : gset Z => (0 <? size r)%nat) (convert_matrix_to_sets Y).
Proof.
  intros Hwf Hnn. rewrite mask_lines, convert_lines.
  assert (H : forall l, l ∈ lines (csr_mat Y) -> (0 <? zsum (map snd l)) = (0 <? size (lset l))%nat).
  { intros l Hl. apply line_positive. intros [j v] He. unfold lines in Hl. apply elem_of_map in Hl as (i & -> & Hi). apply elem_of_py_range in Hi.
    apply elem_of_line in He as (k & Hk); [|done|done]. by eapply Hnn. }
  induction (lines (csr_mat Y)) as [|l ls IH]; [done|]. cbn [List.filter map]. rewrite H by left. specialize (IH (fun l' Hl' => H l' (elem_of_list_further _ _ _ Hl'))).
  destruct (0 <? size (lset l))%nat; cbn [map]; by rewrite IH.
Qed.

Definition aw (r : gset Z) : Z := 2 ^ (Z.of_nat (size r) - 1) * Z.of_nat (size r).
Lemma aw_pos (r : gset Z) : (0 < size r)%nat -> 0 < aw r.
Proof. intros H. unfold aw. apply Z.mul_pos_pos; [|lia]. apply Z.pow_pos_nonneg; lia. Qed.
Lemma aw_empty (r : gset Z) : size r = 0%nat -> aw r = 0.
Proof. intros H. unfold aw. rewrite H. lia. Qed.
Lemma aw_nonneg (r : gset Z) : 0 <= aw r.
Proof. destruct (size r) as [|n] eqn:E; [by rewrite aw_empty|]. pose proof (aw_pos r ltac:(lia)). lia. Qed.

Definition asize (ord : gset Z -> list Z) (r : gset Z) : rand (gset Z) :=
  let tuple := ord r in
  let size_ := length tuple in
  let ks := seq 1 size_ in
  let? k := np_choice ks (normalize (map (fun k => binom size_ k * Z.of_nat k) ks)) in
  let? p := np_permutation tuple in
  let itemset := py_set (take k p) in
  if bool_decide (size itemset = k) then Ret itemset else Fail AssertionError.

Lemma size_take_perm (p l : list Z) k : NoDup l -> p ≡ₚ l -> (k <= length l)%nat -> size (py_set (take k p)) = k.
Proof.
  intros Hnd Hp Hk. assert (Hnd' : NoDup p) by (by rewrite Hp). unfold py_set. rewrite size_list_to_set.
  - rewrite take_length, Hp. lia.
  - rewrite <- (take_drop k p) in Hnd'. by apply NoDup_app in Hnd' as [? _].
Qed.

Lemma asize_can ord (r : gset Z) o : set_order ord -> (0 < size r)%nat -> can (asize ord r) o -> exists T, o = Ok T /\ T <> ∅ /\ T ⊆ r.
Proof.
  intros Ho Hr H. destruct (ord_NoDup ord r Ho) as (Hnd & Es & El). unfold asize in H. apply can_bind in H as (a & Ha & H).
  apply (can_weighted (fun k => binom (length (ord r)) k * Z.of_nat k)) in Ha as (k & Hk & Hw & ->).
  2:{ intros k Hk. apply elem_of_seq in Hk. pose proof (binom_pos (length (ord r)) k ltac:(lia)). nia. }
  2:{ rewrite binom_weight_sum, El. by apply aw_pos. }
  apply elem_of_seq in Hk. apply can_bind in H as (a & Ha & H). apply perm_can in Ha as (p & -> & Hp); [|done].
  rewrite bool_decide_eq_true_2 in H by (eapply size_take_perm; [exact Hnd|done|lia]). simpl in H. subst o. eexists. split; [reflexivity|]. split.
  - intros E. pose proof (size_take_perm p (ord r) k Hnd Hp ltac:(lia)) as Hs. rewrite E, size_empty in Hs. lia.
  - intros x Hx. rewrite elem_of_py_set in Hx. rewrite <- Es, elem_of_py_set, <- Hp, <- (take_drop k p). set_solver.
Qed.

Lemma asize_prob ord (r : gset Z) (T : gset Z) : set_order ord -> (0 < size r)%nat -> T <> ∅ ->
  prob (asize ord r) (Ok T) = if decide (T ⊆ r) then (Qc_of_Z (Z.of_nat (size T)) / Qc_of_Z (aw r))%Qc else 0%Qc.
Proof.
  intros Ho Hr HT. destruct (ord_NoDup ord r Ho) as (Hnd & Es & El). unfold prob, asize. rewrite expect_bind.
  rewrite (expect_weighted (fun k => binom (length (ord r)) k * Z.of_nat k)).
  2:{ intros k Hk. apply elem_of_seq in Hk. pose proof (binom_pos (length (ord r)) k ltac:(lia)). nia. }
  2:{ rewrite binom_weight_sum, El. by apply aw_pos. }
  rewrite binom_weight_sum, El. fold (aw r). pose proof (size_pos_ne T HT) as HT0.
  rewrite (qsum_map_ext _ (fun k => (if decide (T ⊆ r) then Qc_of_Z (Z.of_nat (size T)) else 0) * Qc_of_Z (if decide (k = size T) then 1 else 0))%Qc).
  - rewrite qsum_map_mult, qsum_Z. destruct (decide (T ⊆ r)) as [Hs|Hs]; [|field; apply Qc_of_Z_ne; pose proof (aw_pos r Hr); lia].
    assert (E : zsum (map (fun k => if decide (k = size T) then 1 else 0) (seq 1 (size r))) = 1); [|rewrite E; replace (Qc_of_Z 1) with 1%Qc by (by rewrite Z2Qc_inj_1); field; apply Qc_of_Z_ne; pose proof (aw_pos r Hr); lia].
    apply eq_IZR. rewrite <- rsum_IZR. rewrite (rsum_map_ext _ (fun k => 1 * (if decide (k = size T) then 1 else 0))%R) by (intros; destruct (decide _); lra).
    rewrite (rsum_indicator (fun _ => 1%R)); [done|apply NoDup_seq|]. apply elem_of_seq. pose proof (subseteq_size T r Hs). lia.
  - intros k Hk. apply elem_of_seq in Hk. rewrite expect_bind. unfold np_permutation.
    rewrite (expect_ext _ _ (ptake k T)).
    2:{ intros o Hc. apply perm_can in Hc as (p & -> & Hp); [|done]. rewrite bool_decide_eq_true_2 by (eapply size_take_perm; [exact Hnd|done|lia]).
        cbn [expect ptake]. destruct (decide (py_set (take k p) = T)) as [E|E]; [by rewrite decide_True by (by rewrite E)|rewrite decide_False; [done|congruence]]. }
    rewrite perm_prefix by (done || lia). rewrite Es, El.
    assert (Hb : Qc_of_Z (binom (size r) k) <> 0%Qc) by (apply Qc_of_Z_ne; pose proof (binom_pos (size r) k ltac:(lia)); lia).
    destruct (decide (k = size T)) as [->|Hne].
    + replace (Qc_of_Z 1) with 1%Qc by (by rewrite Z2Qc_inj_1). destruct (decide (T ⊆ r)); [rewrite decide_True by done|rewrite decide_False by tauto; ring].
      rewrite Qc_of_Z_mult. field. done.
    + rewrite decide_False by (intros [? _]; congruence). rewrite Z2Qc_inj_0. ring.
Qed.

Lemma C39_area_proof : forall (ord : gset Z -> list Z) (Y : csr) (rowset : Z -> gset Z),
  set_order ord -> wf_cmat (csr_mat Y) = true -> (forall i j k v, slot (csr_mat Y) i j k v -> 0 <= v) ->
  (forall i a, 0 <= i < csr_rows Y -> (a ∈ rowset i <-> nonzero_at (csr_mat Y) i a)) ->
  let rng := py_range (csr_rows Y) in
  let supp (T : gset Z) := zsum (map (fun i => if decide (T ⊆ rowset i) then 1 else 0) rng) in
  let total := zsum (map (fun i => 2 ^ (Z.of_nat (size (rowset i)) - 1) * Z.of_nat (size (rowset i))) rng) in
  exists fit, ba_fit Y = Ok fit /\
  ((forall i a, 0 <= i < csr_rows Y -> a ∉ rowset i) -> prob (ba_sample_once ord fit) (Err ValueError) = 1%Qc) /\
  ((exists i a, 0 <= i < csr_rows Y /\ a ∈ rowset i) -> 0 < total /\
     (forall T, T <> ∅ -> prob (ba_sample_once ord fit) (Ok T) = (Qc_of_Z (supp T * Z.of_nat (size T)) / Qc_of_Z total)%Qc) /\
     (forall o, can (ba_sample_once ord fit) o -> exists T, o = Ok T /\ T <> ∅ /\ 0 < supp T)).
Proof.
  intros ord Y rowset Ho Hwf Hnn Hr rng supp total.
  pose proof (convert_rowset Y rowset Hwf Hr) as Ec. fold rng in Ec.
  set (rows := List.filter (fun r : gset Z => (0 <? size r)%nat) (convert_matrix_to_sets Y)).
  assert (Hrows : forall r, r ∈ rows <-> r <> ∅ /\ exists i, 0 <= i < csr_rows Y /\ r = rowset i).
  { intros r. unfold rows. rewrite elem_of_list_In, filter_In, <- elem_of_list_In, Nat.ltb_lt, Ec, elem_of_map. split.
    - intros [(i & -> & Hi) Hs]. apply elem_of_py_range in Hi. split; [|eauto]. intros E. rewrite E, size_empty in Hs. lia.
    - intros [Hne (i & Hi & ->)]. split; [|by apply size_pos_ne]. exists i. split; [done|]. by apply elem_of_py_range. }
  assert (Hfs : forall f : gset Z -> Z, (forall r : gset Z, size r = 0%nat -> f r = 0) -> zsum (map f rows) = zsum (map (fun i => f (rowset i)) rng)).
  { intros f Hf. rewrite <- (map_map rowset f), <- Ec. unfold rows. generalize (convert_matrix_to_sets Y). intros l. induction l as [|r l IH]; [done|]. cbn [List.filter map].
    destruct (Nat.ltb_spec 0 (size r)); cbn [map]; rewrite !zsum_cons, IH; [done|]. rewrite (Hf r) by lia. lia. }
  exists (rows, normalize (map (fun i => aw (rset rows i)) (py_range (zlen rows)))). split.
  { unfold ba_fit. rewrite mask_nonempty by done. fold rows. rewrite <- (map_map (rset rows) aw), rset_range.
    assert (forallb (fun r : gset Z => (0 <? size r)%nat) rows = true) as ->; [|done]. apply forallb_forall. intros r Hin. unfold rows in Hin. by apply filter_In in Hin as [_ ?]. }
  assert (Htot : zsum (map (fun i => aw (rset rows i)) (py_range (zlen rows))) = total).
  { rewrite <- (map_map (rset rows) aw), rset_range. apply (Hfs aw), aw_empty. }
  assert (Hin : forall i, i ∈ py_range (zlen rows) -> rset rows i ∈ rows).
  { intros i Hi. apply elem_of_py_range in Hi. destruct (py_index_in_range rows i Hi) as (r & _ & E). rewrite (rset_lookup _ _ _ E). by eapply elem_of_list_lookup_2. }
  split.
  - intros Hno. assert (Er : rows = []).
    { destruct rows as [|r l]; [done|]. exfalso. destruct (proj1 (Hrows r) ltac:(left)) as [Hne (i & Hi & ->)]. apply set_choose_L in Hne as [a Ha]. by eapply Hno. }
    rewrite Er. unfold ba_sample_once, np_choice, prob. reflexivity.
  - intros (i0 & a0 & Hi0 & Ha0).
    assert (Hr0 : rowset i0 ∈ rows) by (apply Hrows; split; [set_solver|eauto]).
    assert (Htp : 0 < total).
    { rewrite <- Htot, <- (map_map (rset rows) aw), rset_range. clear - Hr0 Hrows. assert (Hp : forall r, r ∈ rows -> 0 < aw r) by (intros r Hin; apply aw_pos, size_pos_ne; by apply Hrows in Hin as [? _]).
      clear Hrows. clearbody rows. induction Hr0 as [r l|r r' l Hr0 IH]; cbn [map]; rewrite zsum_cons.
      - pose proof (Hp r ltac:(left)). assert (0 <= zsum (map aw l)); [|lia]. apply zsum_nonneg, list.Forall_forall. intros v Hv. apply elem_of_map in Hv as (j & -> & _). apply aw_nonneg.
      - pose proof (aw_nonneg r'). assert (0 < zsum (map aw l)); [|lia]. apply IH. intros. apply Hp. by right. }
    split; [done|].
    assert (Hsum : forall T : gset Z, T <> ∅ -> zsum (map (fun r : gset Z => if decide (T ⊆ r) then 1 else 0) rows) = supp T).
    { intros T HT. apply (Hfs (fun r : gset Z => if decide (T ⊆ r) then 1 else 0)). intros r Hz. apply size_empty_inv in Hz. rewrite decide_False; [done|]. intros Hs. apply HT. apply set_eq. set_solver. }
    assert (Hstep : forall i, i ∈ py_range (zlen rows) -> py_index rows i = Ok (rset rows i) /\ (0 < size (rset rows i))%nat).
    { intros i Hi. split; [apply rset_ok; by apply elem_of_py_range|]. apply size_pos_ne. apply Hin in Hi. by apply Hrows in Hi as [? _]. }
    split.
    + intros T HT. unfold prob, ba_sample_once. rewrite expect_bind, (expect_weighted (fun i => aw (rset rows i))).
      2:{ intros; apply aw_nonneg. } 2:{ by rewrite Htot. }
      rewrite Htot, Qc_of_Z_mult. f_equal.
      assert (Es : supp T = zsum (map (fun i => if decide (T ⊆ rset rows i) then 1 else 0) (py_range (zlen rows)))).
      { rewrite <- (Hsum T HT). symmetry. pose proof (rset_sum (fun r : gset Z => if decide (T ⊆ r) then 1 else 0) rows) as E. cbn beta in E. exact E. }
      rewrite Es.
      rewrite (qsum_map_ext _ (fun i => Qc_of_Z (if decide (T ⊆ rset rows i) then 1 else 0) * Qc_of_Z (Z.of_nat (size T)))%Qc).
      * rewrite qsum_map_mult_r, qsum_Z. done.
      * intros i Hi. destruct (Hstep i Hi) as [-> Hs]. cbn [lift bind].
        match goal with |- (_ * ?e)%Qc = _ => replace e with (prob (asize ord (rset rows i)) (Ok T)) by reflexivity end. rewrite asize_prob by done.
        destruct (decide (T ⊆ rset rows i)); [|rewrite Z2Qc_inj_0; ring]. replace (Qc_of_Z 1) with 1%Qc by (by rewrite Z2Qc_inj_1). field.
        apply Qc_of_Z_ne. pose proof (aw_pos _ Hs). lia.
    + intros o Hc. unfold ba_sample_once in Hc. apply can_bind in Hc as (a & Ha & Hc).
      apply (can_weighted (fun i => aw (rset rows i))) in Ha as (i & Hi & Hw & ->); [|intros; apply aw_nonneg|by rewrite Htot].
      destruct (Hstep i Hi) as [E Hs]. rewrite E in Hc. cbn [lift bind] in Hc. apply asize_can in Hc as (T & -> & HT & Hsub); [|done|done].
      exists T. split; [done|]. split; [done|]. rewrite <- (Hsum T HT). pose proof (Hin i Hi) as Hri. clear - Hri Hsub. revert Hri Hsub. generalize (rset rows i). intros r Hri Hsub.
      induction Hri as [r l|r r' l Hr' IH]; cbn [map]; rewrite zsum_cons.
      * rewrite decide_True by done. assert (0 <= zsum (map (fun r : gset Z => if decide (T ⊆ r) then 1 else 0) l)); [|lia]. apply zsum_nonneg, list.Forall_forall. intros v Hv. apply elem_of_map in Hv as (j & -> & _). destruct (decide _); lia.
      * specialize (IH Hsub). destruct (decide (T ⊆ r')); lia.
Qed.
