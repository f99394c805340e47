(** Proofs of the property theorems of Properties/P_Uncovered.v. *)
From Verif.Model Require Import PyBase Sparse Utils Graph Cliques Trie Assign Rand Uncovered.
From Verif.Spec Require Import SMatrix SUncovered.
Open Scope Z_scope.
From Verif.Spec Require Import SAssign SGraph.
From Verif.Proofs Require Import PBase PSparse PUtils PTrie PAssign PGraph PCliques PRand PUncovered T_Assign T_Graph.

Lemma allclose_refl a : allclose a a = true.
Proof. unfold allclose. rewrite Z.sub_diag. simpl. apply Z.leb_le. lia. Qed.

Lemma map_enumerate {A B} (f : Z * A -> B) (d : B) (l : list A) :
  map f (enumerate l) = map (fun i => match l !! Z.to_nat i with Some r => f (i, r) | None => d end) (py_range (zlen l)).
Proof.
  apply list_eq. intros k. rewrite !list_lookup_fmap, lookup_enumerate.
  destruct (l !! k) as [x|] eqn:E.
  - assert (py_range (zlen l) !! k = Some (Z.of_nat k)) as ->.
    { rewrite <- (Nat2Z.id k) at 1. apply lookup_py_range. apply lookup_lt_Some in E. unfold zlen. lia. }
    simpl. rewrite Nat2Z.id, E. done.
  - apply lookup_ge_None in E. rewrite lookup_ge_None_2; [done|]. rewrite length_py_range. unfold zlen. lia.
Qed.

Section row.
  Context (ord : gset Z -> list Z) (space : list (gset Z)) (rows : list (list Z)).
  Context (ups : list (list Z * gset Z)) (st : ua).
  Hypothesis Ho : set_order ord.
  Hypothesis Hv : valid_rows space rows.
  Hypothesis Hinv : ua_inv ord space rows [] ups st.

  Definition karea (i k : Z) : Z := match space !! Z.to_nat k with Some s => area ups i s | None => 0 end.

  Lemma map_karea i row : row ∈ rows -> map (area ups i) (samples space row) = map (karea i) row.
  Proof. intros Hr. apply samples_map. intros k Hk. by apply (Hv row k). Qed.

  Lemma karea_nonneg i k : 0 <= karea i k.
  Proof. unfold karea. destruct (space !! _); [apply area_nonneg|lia]. Qed.

  Lemma weights_lookup i row : 0 <= i -> rows !! Z.to_nat i = Some row ->
    py_index (ua_weights st) i = Ok (row_area space ups i row).
  Proof.
    intros Hi Hr. apply py_index_ok; [done|]. rewrite (inv_weights _ _ _ _ _ _ Hinv).
    rewrite list_lookup_fmap, lookup_enumerate, Hr. simpl. by rewrite Z2Nat.id.
  Qed.

  Lemma from_row_eq i row : 0 <= i -> rows !! Z.to_nat i = Some row ->
    ua_sample_from_row st i =
      (if row_area space ups i row =? 0 then Fail NoMoreSamples
       else bind (np_choice row (normalize (map (karea i) row))) (fun k => lift (py_index space k))).
  Proof.
    intros Hi Hr. pose proof (elem_of_list_lookup_2 _ _ _ Hr) as Hin. unfold ua_sample_from_row.
    pose proof Hinv as (Hs & Hrows & Hh & _ & _). rewrite Hrows, Hs, Hh. simpl app.
    rewrite (proj2 (py_index_ok _ _ _ Hi) Hr). simpl bind at 1.
    rewrite row_samples_ok by (intros k Hk; by apply (Hv row k)). simpl bind at 1.
    rewrite (weights_lookup i row Hi Hr). simpl bind at 1.
    assert (Hm : map (fun s : gset Z => Z.of_nat (size s) - Z.of_nat (size (s ∩ covered_elems ups i))) (samples space row)
            = map (area ups i) (samples space row)).
    { apply map_ext. intros s. by rewrite area_diff. }
    rewrite !Hm. fold (row_area space ups i row). rewrite allclose_refl. simpl negb. cbv iota.
    rewrite <- map_karea by done. done.
  Qed.

  Lemma zsum_karea i row : row ∈ rows -> zsum (map (karea i) row) = row_area space ups i row.
  Proof. intros Hr. unfold row_area. by rewrite map_karea. Qed.

  Lemma from_row_expect i row f : 0 <= i -> rows !! Z.to_nat i = Some row ->
    expect (ua_sample_from_row st i) f =
      (if row_area space ups i row =? 0 then f (Err NoMoreSamples)
       else qsum (map (fun s => Qc_of_Z (area ups i s) * f (Ok s))%Qc (samples space row)) / Qc_of_Z (row_area space ups i row))%Qc.
  Proof.
    intros Hi Hr. pose proof (elem_of_list_lookup_2 _ _ _ Hr) as Hin. rewrite (from_row_eq i row Hi Hr).
    destruct (Z.eqb_spec (row_area space ups i row) 0) as [|Hne]; [done|].
    pose proof (row_area_nonneg space ups i row) as Hnn.
    rewrite expect_bind, expect_weighted; [|intros; apply karea_nonneg|rewrite zsum_karea by done; lia].
    rewrite zsum_karea by done. f_equal. f_equal.
    rewrite (samples_map space row (fun s => Qc_of_Z (area ups i s) * f (Ok s))%Qc 0%Qc) by (intros k Hk; by apply (Hv row k)).
    apply map_ext_in. intros k Hk. apply elem_of_list_In in Hk. destruct (py_index_in_range space k) as (s & E1 & E2); [by apply (Hv row k)|].
    unfold karea. rewrite E1, E2. simpl. done.
  Qed.

  Lemma from_row_can i row o : 0 <= i -> rows !! Z.to_nat i = Some row ->
    (can (ua_sample_from_row st i) o <->
      (row_area space ups i row = 0 /\ o = Err NoMoreSamples) \/
      exists s, s ∈ samples space row /\ 0 < area ups i s /\ o = Ok s).
  Proof.
    intros Hi Hr. pose proof (elem_of_list_lookup_2 _ _ _ Hr) as Hin. rewrite (from_row_eq i row Hi Hr).
    pose proof (row_area_nonneg space ups i row) as Hnn.
    assert (Hpos : (exists s, s ∈ samples space row /\ 0 < area ups i s) -> 0 < row_area space ups i row).
    { intros (s & Hs & Ha). destruct (Z.eq_dec (row_area space ups i row) 0) as [E|]; [|lia]. exfalso.
      unfold row_area in E. apply zsum_zero with (x := area ups i s) in E; [lia| |].
      - apply list.Forall_forall. intros w Hw. apply elem_of_map in Hw as (t & -> & _). apply area_nonneg.
      - apply elem_of_map. eauto. }
    destruct (Z.eqb_spec (row_area space ups i row) 0) as [E|Hne].
    - simpl. split; [auto|]. intros [[_ ?]|(s & H1 & H2 & ->)]; [done|]. exfalso. lapply Hpos; [lia|eauto].
    - rewrite can_bind. setoid_rewrite can_weighted; [|intros; apply karea_nonneg|rewrite zsum_karea by done; lia].
      split.
      + intros (a & (k & Hk & Hw & ->) & Ho'). right. unfold karea in Hw.
        destruct (py_index_in_range space k) as (s & E1 & E2); [by apply (Hv row k)|]. rewrite E1 in Ho'. rewrite E2 in Hw.
        exists s. split_and!; try done. unfold samples. apply elem_of_list_omap. eauto.
      + intros [[? _]|(s & Hs & Ha & ->)]; [lia|]. unfold samples in Hs. apply elem_of_list_omap in Hs as (k & Hk & E).
        exists (Ok k). split; [|].
        * exists k. unfold karea. rewrite E. done.
        * assert (py_index space k = Ok s) as ->; [|done]. apply py_index_ok; [|done]. by apply (Hv row k).
  Qed.

  Definition rarea (i : Z) : Z := match rows !! Z.to_nat i with Some row => row_area space ups i row | None => 0 end.

  Lemma weights_rarea : ua_weights st = map rarea (py_range (zlen rows)).
  Proof.
    rewrite (inv_weights _ _ _ _ _ _ Hinv). apply (map_enumerate (fun ir => row_area space ups (fst ir) (snd ir)) 0).
  Qed.

  Lemma rarea_nonneg i : 0 <= rarea i.
  Proof. unfold rarea. destruct (rows !! _); [apply row_area_nonneg|lia]. Qed.

  Lemma total_rarea : total_area space ups rows = zsum (map rarea (py_range (zlen rows))).
  Proof. unfold total_area. f_equal. apply (map_enumerate (fun ir => row_area space ups (fst ir) (snd ir)) 0). Qed.

  Lemma sample_once_expect f : 0 < total_area space ups rows ->
    expect (ua_sample_once st) f =
      (qsum (map (fun ir => qsum (map (fun s => Qc_of_Z (area ups (fst ir) s) * f (Ok s))%Qc (samples space (snd ir)))) (enumerate rows))
       / Qc_of_Z (total_area space ups rows))%Qc.
  Proof.
    intros HT. unfold ua_sample_once, surs_sample_once. rewrite expect_bind.
    pose proof Hinv as (_ & Hr & _ & Hp & _). rewrite Hr, Hp. unfold row_probas. rewrite weights_rarea, <- total_rarea.
    destruct (Z.eqb_spec (total_area space ups rows) 0); [lia|]. rewrite total_rarea in HT.
    rewrite expect_weighted; [|intros; apply rarea_nonneg|done]. rewrite <- total_rarea. f_equal.
    rewrite (map_enumerate (fun ir => qsum (map (fun s => Qc_of_Z (area ups (fst ir) s) * f (Ok s))%Qc (samples space (snd ir)))) 0%Qc).
    apply qsum_map_ext. intros i Hi. apply elem_of_py_range in Hi. unfold rarea.
    destruct (rows !! Z.to_nat i) as [row|] eqn:E.
    2:{ rewrite Z2Qc_inj_0. ring. }
    rewrite (from_row_expect i row f) by (done || lia). simpl.
    destruct (Z.eqb_spec (row_area space ups i row) 0) as [E0|Hne].
    - rewrite E0, Z2Qc_inj_0. rewrite qsum_zero; [ring|]. intros s Hs.
      assert (area ups i s = 0) as ->; [|rewrite Z2Qc_inj_0; ring].
      unfold row_area in E0. apply zsum_zero with (x := area ups i s) in E0; [done| |].
      + apply list.Forall_forall. intros w Hw. apply elem_of_map in Hw as (t & -> & _). apply area_nonneg.
      + apply elem_of_map. eauto.
    - assert (Qc_of_Z (row_area space ups i row) <> 0%Qc) as Hq by (intros Hq; by apply Qc_of_Z_inj_0 in Hq).
      unfold Qcdiv. rewrite Qcmult_comm, <- Qcmult_assoc, Qcmult_inv_l by done. ring.
  Qed.

  Lemma sample_once_can o : rows <> [] ->
    (can (ua_sample_once st) o <->
      (total_area space ups rows = 0 /\ o = Err NoMoreSamples) \/
      exists i row s, 0 <= i /\ rows !! Z.to_nat i = Some row /\ s ∈ samples space row /\ 0 < area ups i s /\ o = Ok s).
  Proof.
    intros Hne. unfold ua_sample_once, surs_sample_once. rewrite can_bind.
    pose proof Hinv as (_ & Hr & _ & Hp & _). rewrite Hr, Hp. unfold row_probas. rewrite weights_rarea, <- total_rarea.
    assert (HTn : 0 <= total_area space ups rows).
    { rewrite total_rarea. apply zsum_nonneg. apply list.Forall_forall. intros w Hw.
      apply elem_of_map in Hw as (i & -> & _). apply rarea_nonneg. }
    assert (Hz : total_area space ups rows = 0 -> forall i row, 0 <= i -> rows !! Z.to_nat i = Some row -> row_area space ups i row = 0).
    { intros HT i row Hi E. rewrite total_rarea in HT. apply zsum_zero with (x := row_area space ups i row) in HT; [done| |].
      - apply list.Forall_forall. intros w Hw. apply elem_of_map in Hw as (j & -> & _). apply rarea_nonneg.
      - apply elem_of_map. exists i. unfold rarea. rewrite E. split; [done|]. apply elem_of_py_range.
        apply lookup_lt_Some in E. unfold zlen. lia. }
    assert (Hlen : 0 < zlen rows).
    { pose proof (zlen_nonneg rows). destruct (Z.eq_dec (zlen rows) 0) as [H0|]; [by apply zlen_0 in H0|lia]. }
    destruct (Z.eqb_spec (total_area space ups rows) 0) as [HT|HT].
    - destruct (uniform_valid (length (map rarea (py_range (zlen rows))))) as [Hu1 Hu2].
      { rewrite map_length, length_py_range. lia. }
      setoid_rewrite can_np_choice; [|intros H; apply (f_equal zlen) in H; rewrite zlen_py_range in H by lia; change (zlen (@nil Z)) with 0 in H; lia
        |rewrite replicate_length, map_length; done|intros p Hp'; by apply Qclt_le_weak, Hu1|done].
      split.
      + intros (a & (k & i & p & Ei & _ & _ & ->) & Hc). left. split; [done|].
        apply elem_of_list_lookup_2, elem_of_py_range in Ei. destruct (lookup_lt_is_Some_2 rows (Z.to_nat i)) as [row Er]; [unfold zlen in Ei; lia|].
        apply (from_row_can i row) in Hc; [|lia|done]. destruct Hc as [[_ ->]|(s & Hs & Ha & ->)]; [done|].
        exfalso. specialize (Hz HT i row ltac:(lia) Er). unfold row_area in Hz.
        apply zsum_zero with (x := area ups i s) in Hz; [lia| |].
        * apply list.Forall_forall. intros w Hw. apply elem_of_map in Hw as (t & -> & _). apply area_nonneg.
        * apply elem_of_map. eauto.
      + intros [[_ ->]|(i & row & s & Hi & Er & Hs & Ha & ->)].
        * exists (Ok 0). destruct (lookup_lt_is_Some_2 rows 0%nat) as [row Er]; [unfold zlen in Hlen; lia|]. split.
          -- assert (is_Some (replicate (length (map rarea (py_range (zlen rows)))) (1 / Qc_of_Z (zlen (map rarea (py_range (zlen rows)))))%Qc !! 0%nat)) as [p Ep].
             { apply lookup_lt_is_Some. rewrite replicate_length, map_length, length_py_range. lia. }
             exists 0%nat, 0, p. split_and!; try done.
             ++ by apply (lookup_py_range (zlen rows) 0).
             ++ intros ->. apply elem_of_list_lookup_2, Hu1 in Ep. by apply Qclt_not_eq in Ep.
          -- apply (from_row_can 0 row); [lia|done|]. left. split; [|done]. apply Hz; [done|lia|done].
        * exfalso. specialize (Hz HT i row ltac:(lia) Er). unfold row_area in Hz.
          apply zsum_zero with (x := area ups i s) in Hz; [lia| |].
          -- apply list.Forall_forall. intros w Hw. apply elem_of_map in Hw as (t & -> & _). apply area_nonneg.
          -- apply elem_of_map. eauto.
    - rewrite total_rarea in HT, HTn. setoid_rewrite can_weighted; [|intros; apply rarea_nonneg|lia]. split.
      + intros (a & (i & Hi & Hw & ->) & Hc). right. apply elem_of_py_range in Hi. unfold rarea in Hw.
        destruct (rows !! Z.to_nat i) as [row|] eqn:Er; [|lia].
        apply (from_row_can i row) in Hc; [|lia|done]. destruct Hc as [[? _]|(s & Hs & Ha & ->)]; [lia|].
        exists i, row, s. split_and!; try done. lia.
      + intros [[HT' _]|(i & row & s & Hi & Er & Hs & Ha & ->)]; [rewrite <- total_rarea in HT; lia|].
        exists (Ok i). split.
        * exists i. split; [|split; [|done]].
          -- apply elem_of_py_range. apply lookup_lt_Some in Er. unfold zlen. lia.
          -- unfold rarea. rewrite Er. destruct (Z.eq_dec (row_area space ups i row) 0) as [E0|]; [|pose proof (row_area_nonneg space ups i row); lia].
             exfalso. unfold row_area in E0. apply zsum_zero with (x := area ups i s) in E0; [lia| |].
             ++ apply list.Forall_forall. intros w Hw. apply elem_of_map in Hw as (t & -> & _). apply area_nonneg.
             ++ apply elem_of_map. eauto.
        * apply (from_row_can i row); [done..|]. right. eauto.
  Qed.
End row.

Lemma area_pos ups i s : 0 < area ups i s <-> exists x, x ∈ s /\ ~ covered ups i x.
Proof.
  unfold area. split.
  - intros H. destruct (set_choose_L (uncovered ups i s)) as [x Hx].
    { intros E. rewrite E, size_empty in H. lia. }
    unfold uncovered in Hx. apply elem_of_filter in Hx as [? ?]. eauto.
  - intros (x & Hx & Hn). assert (x ∈ uncovered ups i s) as Hin by (by apply elem_of_filter).
    assert (size (uncovered ups i s) <> 0%nat); [|lia]. intros E. apply size_empty_inv in E. set_solver.
Qed.

Lemma run_inv ord space rows ups : set_order ord -> valid_rows space rows -> valid_updates (zlen rows) ups ->
  exists st0 st, assign_row_weights ord space rows [] = Ok st0 /\ rfold (update_row_weights ord) st0 ups = Ok st /\
    ua_inv ord space rows [] ups st.
Proof.
  intros Ho Hv Hu. destruct (assign_ok ord space rows [] Ho Hv) as (st0 & E0 & H0).
  destruct (updates_ok ord space rows [] Ho ups [] st0 Hu H0) as (st & E & H). eauto.
Qed.

Lemma C27_weights_exact_proof : forall (ord : gset Z -> list Z) (space : list (gset Z)) (rows : list (list Z))
    (ups : list (list Z * gset Z)),
  set_order ord -> valid_rows space rows -> valid_updates (zlen rows) ups ->
  exists st0 st, assign_row_weights ord space rows [] = Ok st0 /\ rfold (update_row_weights ord) st0 ups = Ok st /\
    zlen (ua_weights st) = zlen rows /\
    forall i row, 0 <= i -> rows !! Z.to_nat i = Some row ->
      (exists w, ua_weights st !! Z.to_nat i = Some w /\ 0 <= w /\
         w = zsum (map (fun s => Z.of_nat (size (uncovered ups i s))) (samples space row))) /\
      (forall e, can (ua_sample_from_row st i) (Err e) -> e = NoMoreSamples).
Proof.
  intros ord space rows ups Ho Hv Hu. destruct (run_inv ord space rows ups Ho Hv Hu) as (st0 & st & E0 & E & Hinv).
  exists st0, st. split_and!; try done.
  - rewrite (inv_weights _ _ _ _ _ _ Hinv), zlen_map. unfold zlen. by rewrite length_enumerate.
  - intros i row Hi Hr. split.
    + exists (row_area space ups i row). split_and!; [|apply row_area_nonneg|done].
      apply (py_index_ok _ _ _ Hi). by apply (weights_lookup ord space rows).
    + intros e He. apply (from_row_can ord space rows ups st Hv Hinv i row) in He; [|done..].
      destruct He as [[_ ?]|(s & _ & _ & ?)]; congruence.
Qed.


Lemma C28_stops_when_covered_proof : forall (ord : gset Z -> list Z) (space : list (gset Z)) (rows : list (list Z))
    (ups : list (list Z * gset Z)),
  set_order ord -> valid_rows space rows -> valid_updates (zlen rows) ups -> rows <> [] ->
  exists st0 st, assign_row_weights ord space rows [] = Ok st0 /\ rfold (update_row_weights ord) st0 ups = Ok st /\
    let all_covered := forall i row s x, 0 <= i -> rows !! Z.to_nat i = Some row -> s ∈ samples space row ->
                         x ∈ (s : gset Z) -> covered ups i x in
    (can (ua_sample_once st) (Err NoMoreSamples) <-> all_covered) /\
    (all_covered -> forall o, can (ua_sample_once st) o -> o = Err NoMoreSamples) /\
    (forall e, can (ua_sample_once st) (Err e) -> e = NoMoreSamples) /\
    (forall s, can (ua_sample_once st) (Ok s) <->
       exists i row x, 0 <= i /\ rows !! Z.to_nat i = Some row /\ s ∈ samples space row /\ x ∈ s /\ ~ covered ups i x) /\
    (forall i row s, 0 <= i -> rows !! Z.to_nat i = Some row -> can (ua_sample_from_row st i) (Ok s) ->
       s ∈ samples space row /\ exists x, x ∈ s /\ ~ covered ups i x).
Proof.
  intros ord space rows ups Ho Hv Hu Hne. destruct (run_inv ord space rows ups Ho Hv Hu) as (st0 & st & E0 & E & Hinv).
  exists st0, st. split; [done|]. split; [done|]. cbv zeta.
  pose proof (fun o => sample_once_can ord space rows ups st Hv Hinv o Hne) as Hcan.
  assert (Hall : (forall i row s x, 0 <= i -> rows !! Z.to_nat i = Some row -> s ∈ samples space row ->
                         x ∈ (s : gset Z) -> covered ups i x) <-> total_area space ups rows = 0).
  { split.
    - intros H. unfold total_area. rewrite (map_enumerate _ 0).
      assert (forall l : list Z, (forall w, w ∈ l -> w = 0) -> zsum l = 0) as Hz.
      { induction l as [|w l IH]; intros Hl; [done|]. simpl. rewrite (Hl w), IH; [done| |left]. intros; apply Hl; by right. }
      apply Hz. intros w Hw. apply elem_of_map in Hw as (i & -> & Hi). apply elem_of_py_range in Hi.
      destruct (rows !! Z.to_nat i) as [row|] eqn:Er; [|done]. simpl. unfold row_area. apply Hz. intros w Hw.
      apply elem_of_map in Hw as (s & -> & Hs). destruct (Z.eq_dec (area ups i s) 0) as [|Hn]; [done|]. exfalso.
      pose proof (area_nonneg ups i s). assert (0 < area ups i s) as Hp by lia. apply area_pos in Hp as (x & Hx & Hc).
      apply Hc. by apply (H i row s x); [lia|..].
    - intros HT i row s x Hi Er Hs Hx. destruct (decide (covered ups i x)) as [|Hc]; [done|]. exfalso.
      assert (Hok : can (ua_sample_once st) (Err NoMoreSamples)) by (apply Hcan; auto).
      assert (Ha : 0 < area ups i s) by (apply area_pos; eauto).
      assert (Hra : 0 < row_area space ups i row).
      { pose proof (row_area_nonneg space ups i row). destruct (Z.eq_dec (row_area space ups i row) 0) as [E1|]; [|lia].
        unfold row_area in E1. apply zsum_zero with (x := area ups i s) in E1; [lia| |].
        - apply list.Forall_forall. intros w Hw. apply elem_of_map in Hw as (t & -> & _). apply area_nonneg.
        - apply elem_of_map. eauto. }
      unfold total_area in HT. apply zsum_zero with (x := row_area space ups i row) in HT; [lia| |].
      + apply list.Forall_forall. intros w Hw. apply elem_of_map in Hw as (t & -> & _). apply row_area_nonneg.
      + apply elem_of_map. exists (i, row). split; [done|]. by apply elem_of_enumerate. }
  split_and!.
  - rewrite Hall, Hcan. split; [|auto]. intros [[? _]|(? & ? & ? & _ & _ & _ & _ & ?)]; done.
  - rewrite Hall. intros HT o Hc. apply Hcan in Hc as [[_ ?]|(i & row & s & Hi & Er & Hs & Ha & ->)]; [done|].
    apply area_pos in Ha as (x & Hx & Hn). exfalso. apply Hn. by apply (proj2 Hall HT i row s x).
  - intros e Hc. apply Hcan in Hc as [[_ ?]|(i & row & s & Hi & Er & Hs & Ha & ?)]; congruence.
  - intros s. rewrite Hcan. split.
    + intros [[_ ?]|(i & row & s' & Hi & Er & Hs & Ha & [= <-])]; [done|]. apply area_pos in Ha as (x & ? & ?). eauto 10.
    + intros (i & row & x & Hi & Er & Hs & Hx & Hn). right. exists i, row, s. split_and!; try done. apply area_pos. eauto.
  - intros i row s Hi Er Hc. apply (from_row_can ord space rows ups st Hv Hinv i row) in Hc; [|done..].
    destruct Hc as [[_ ?]|(s' & Hs & Ha & [= <-])]; [done|]. split; [done|]. by apply area_pos.
Qed.


Lemma indicator_sum (l : list (gset Z)) (w : gset Z -> Z) (s : gset Z) :
  qsum (map (fun t => Qc_of_Z (w t) * (if decide (@Ok (gset Z) t = Ok s) then 1 else 0))%Qc l)
  = Qc_of_Z (zsum (map (fun t => if decide (t = s) then w t else 0) l)).
Proof.
  induction l as [|t l IH]; simpl; [by rewrite Z2Qc_inj_0|]. rewrite IH, Qc_of_Z_plus. f_equal.
  destruct (decide (t = s)) as [->|Hne].
  - rewrite decide_True by done. ring.
  - rewrite decide_False by congruence. rewrite Z2Qc_inj_0. ring.
Qed.

Lemma C29_proportional_proof : forall (ord : gset Z -> list Z) (space : list (gset Z)) (rows : list (list Z))
    (ups : list (list Z * gset Z)) (s : gset Z),
  set_order ord -> valid_rows space rows -> valid_updates (zlen rows) ups -> 0 < total_area space ups rows ->
  exists st0 st, assign_row_weights ord space rows [] = Ok st0 /\ rfold (update_row_weights ord) st0 ups = Ok st /\
    prob (ua_sample_once st) (Ok s)
    = (Qc_of_Z (sample_area space ups rows s) / Qc_of_Z (total_area space ups rows))%Qc.
Proof.
  intros ord space rows ups s Ho Hv Hu HT. destruct (run_inv ord space rows ups Ho Hv Hu) as (st0 & st & E0 & E & Hinv).
  exists st0, st. split_and!; try done. unfold prob.
  rewrite (sample_once_expect ord space rows ups st Hv Hinv) by done. f_equal. unfold sample_area.
  rewrite <- qsum_Z. apply qsum_map_ext. intros ir _. apply indicator_sum.
Qed.


(** ** the fitted sampler *)

Lemma pretti_rows_ok ord space (Y : csr) : set_order ord -> wf_cmat (csr_mat Y) = true -> binary (csr_mat Y) ->
  (forall s a, s ∈ space -> a ∈ s -> 0 <= a < csr_cols Y) ->
  exists rows, pretti_new_rows ord space Y = Ok rows /\ zlen rows = csr_rows Y /\ valid_rows space rows /\
    forall i row, 0 <= i -> rows !! Z.to_nat i = Some row ->
      NoDup row /\ forall k, k ∈ row <-> contained_id space (csr_has Y i) k.
Proof.
  intros Ho Hwf Hb Hr. destruct (C19_pretti_exact_proof ord space Y Ho Hwf Hr) as (rows & E & Hlen & Hrows).
  exists rows. split; [done|]. split; [done|].
  assert (H : forall i row, 0 <= i -> rows !! Z.to_nat i = Some row ->
      NoDup row /\ forall k, k ∈ row <-> contained_id space (csr_has Y i) k).
  { intros i row Hi Er. destruct (Hrows i row Hi Er) as [Hs Hk]. split; [by apply sorted_NoDup|]. intros k. rewrite Hk.
    unfold contained_id. split; intros (H0 & s & Es & Ha); (split; [done|]); exists s; (split; [done|]); intros a Has.
    - destruct (Ha a Has) as (j & v & Hsl & _). by exists j, v.
    - destruct (Ha a Has) as (j & v & Hsl). exists j, v. split; [done|]. destruct Hb as [Hb _]. apply Hb in Hsl. lia. }
  split; [|done]. intros row k Hrow Hk. apply elem_of_list_lookup in Hrow as [n En].
  destruct (H (Z.of_nat n) row) as [_ Hk']; [lia|by rewrite Nat2Z.id|]. apply Hk' in Hk as (H0 & s & Es & _).
  apply lookup_lt_Some in Es. unfold zlen. lia.
Qed.

Lemma fit_ok ord prune alpha b h (Y : csr) : set_order ord -> wf_cmat (csr_mat Y) = true -> binary (csr_mat Y) -> b <> OtherBackend ->
  exists g space rows st, build_graph Y = Ok g /\ build_sample_space ord g prune alpha b = Ok space /\ NoDup space /\
    pretti_new_rows ord space Y = Ok rows /\ assign_row_weights ord space rows h = Ok st /\
    ua_fit ord prune alpha b h Y = Ok st /\ zlen rows = csr_rows Y /\ valid_rows space rows /\
    ua_inv ord space rows h [] st /\
    (forall i row, 0 <= i -> rows !! Z.to_nat i = Some row ->
      NoDup row /\ forall k, k ∈ row <-> contained_id space (csr_has Y i) k).
Proof.
  intros Ho Hwf Hb Hbe.
  destruct (C25_sample_space_proof ord Y prune alpha b Ho Hwf Hb Hbe) as (g & space & Eg & Es & Hnd & _ & _ & Hr & _).
  destruct (pretti_rows_ok ord space Y Ho Hwf Hb Hr) as (rows & Er & Hlen & Hval & Hrows).
  destruct (assign_ok ord space rows h Ho Hval) as (st & Ea & Hinv).
  exists g, space, rows, st. unfold ua_fit. rewrite Eg. cbn [rbind]. rewrite Es. cbn [rbind]. rewrite Er. cbn [rbind]. done.
Qed.

Lemma sample_once_in_row space row (has : Z -> Prop) s (w : Z) : NoDup space -> NoDup row ->
  (forall k, k ∈ row <-> contained_id space has k) -> s ∈ space ->
  zsum (map (fun t : gset Z => if decide (t = s) then w else 0) (samples space row))
  = if bool_decide (s ∈ samples space row) then w else 0.
Proof.
  intros Hnd Hndr Hk Hs.
  assert (Hns : NoDup (samples space row)).
  { assert (Hk' : forall k, k ∈ row -> 0 <= k) by (intros k Hin; apply Hk in Hin as [? _]; done).
    clear Hk. unfold samples. induction Hndr as [|k row Hni Hndr IH]; [constructor|]. simpl.
    destruct (space !! Z.to_nat k) as [t|] eqn:E; [|apply IH; intros; apply Hk'; by right].
    constructor; [|apply IH; intros; apply Hk'; by right]. intros Hin. apply elem_of_list_omap in Hin as (k' & Hin & E').
    assert (Z.to_nat k = Z.to_nat k') as Eq by exact (NoDup_lookup space _ _ t Hnd E E').
    assert (k = k') as -> by (apply Z2Nat.inj; [apply Hk'; left|apply Hk'; by right|done]). done. }
  clear Hk. induction Hns as [|t l Ht Hns IH]; [done|]. simpl. rewrite IH. destruct (decide (t = s)) as [->|Hne].
  - rewrite bool_decide_eq_false_2 by done. rewrite bool_decide_eq_true_2 by left. lia.
  - rewrite Z.add_0_l. rewrite (bool_decide_ext (s ∈ t :: l) (s ∈ l)); [done|]. rewrite elem_of_cons. naive_solver.
Qed.

Lemma zsum_swap {A B} (f : A -> B -> Z) l l' :
  zsum (map (fun a => zsum (map (f a) l')) l) = zsum (map (fun b => zsum (map (fun a => f a b) l)) l').
Proof.
  induction l as [|a l IH]; simpl.
  - induction l' as [|b l' IH]; simpl; [done|]. rewrite <- IH. done.
  - rewrite IH. clear. induction l' as [|b l' IH]; simpl; [done|]. rewrite <- IH. lia.
Qed.

Lemma zsum_partition (space l : list (gset Z)) (w : gset Z -> Z) : NoDup space -> (forall t, t ∈ l -> t ∈ space) ->
  zsum (map (fun s => zsum (map (fun t => if decide (t = s) then w t else 0) l)) space) = zsum (map w l).
Proof.
  intros Hnd Hin. rewrite zsum_swap. f_equal. apply map_ext_in. intros t Ht. apply elem_of_list_In, Hin in Ht.
  clear Hin. induction Hnd as [|s space Hs Hnd IH]; [inversion Ht|]. simpl. apply elem_of_cons in Ht as [->|Ht].
  - rewrite decide_True by done.
    assert (zsum (map (fun b => if decide (s = b) then w s else 0) space) = 0) as ->; [|lia].
    clear -Hs. induction space as [|b space IH]; [done|]. simpl.
    rewrite decide_False by (intros ->; apply Hs; left). rewrite IH; [done|]. intros H; apply Hs; by right.
  - rewrite decide_False by (by intros ->). rewrite IH by done. lia.
Qed.

Lemma C29_fitted_proof : forall (ord : gset Z -> list Z) (Y : csr) (prune : bool) (alpha : Qc) (b : backend)
    (ups : list (list Z * gset Z)) (rowset : Z -> gset Z),
  set_order ord -> wf_cmat (csr_mat Y) = true -> binary (csr_mat Y) -> b <> OtherBackend ->
  valid_updates (csr_rows Y) ups ->
  (forall i a, 0 <= i < csr_rows Y -> (a ∈ rowset i <-> csr_has Y i a)) ->
  exists st0 st, ua_fit ord prune alpha b [] Y = Ok st0 /\ rfold (update_row_weights ord) st0 ups = Ok st /\
    let area_of s := zsum (map (fun i => if decide (s ⊆ rowset i) then area ups i s else 0) (py_range (csr_rows Y))) in
    let total := zsum (map area_of (ua_space st)) in
    0 < total ->
    forall s, s ∈ ua_space st -> prob (ua_sample_once st) (Ok s) = (Qc_of_Z (area_of s) / Qc_of_Z total)%Qc.
Proof.
  intros ord Y prune alpha b ups rowset Ho Hwf Hb Hbe Hu Hrs.
  destruct (fit_ok ord prune alpha b [] Y Ho Hwf Hb Hbe) as (g & space & rows & st0 & Eg & Es & Hnd & Er & Ea & Ef & Hlen & Hval & Hinv0 & Hrows).
  rewrite <- Hlen in Hu. destruct (updates_ok ord space rows [] Ho ups [] st0 Hu Hinv0) as (st & E & Hinv). simpl in Hinv.
  exists st0, st. split; [done|]. split; [done|]. cbv zeta.
  pose proof Hinv as (Hsp & _). rewrite Hsp.
  assert (Hmem : forall i row s, 0 <= i -> rows !! Z.to_nat i = Some row -> s ∈ space -> (s ∈ samples space row <-> s ⊆ rowset i)).
  { intros i row s Hi Ei Hs. destruct (Hrows i row Hi Ei) as [_ Hk]. unfold samples. rewrite elem_of_list_omap.
    assert (Hi' : 0 <= i < csr_rows Y) by (apply lookup_lt_Some in Ei; unfold zlen in Hlen; lia). split.
    - intros (k & Hkr & Ek). apply Hk in Hkr as (_ & s' & Es' & Ha). assert (s' = s) as -> by congruence.
      intros a Has. apply Hrs; auto.
    - intros Hsub. apply elem_of_list_lookup in Hs as [n En]. exists (Z.of_nat n). rewrite Nat2Z.id. split; [|done].
      apply Hk. split; [lia|]. exists s. rewrite Nat2Z.id. split; [done|]. intros a Has. apply Hrs; [done|]. by apply Hsub. }
  assert (Harea : forall s, s ∈ space -> sample_area space ups rows s =
     zsum (map (fun i => if decide (s ⊆ rowset i) then area ups i s else 0) (py_range (csr_rows Y)))).
  { intros s Hs. unfold sample_area. rewrite (map_enumerate _ 0), Hlen. f_equal. apply map_ext_in. intros i Hi.
    apply elem_of_list_In, elem_of_py_range in Hi. rewrite <- Hlen in Hi.
    destruct (rows !! Z.to_nat i) as [row|] eqn:Ei; [|apply lookup_ge_None in Ei; unfold zlen in Hi; lia]. simpl.
    destruct (Hrows i row ltac:(lia) Ei) as [Hndr Hk].
    rewrite (map_ext (fun t => if decide (t = s) then area ups i t else 0) (fun t => if decide (t = s) then area ups i s else 0)).
    2:{ intros t. by destruct (decide (t = s)) as [->|]. }
    rewrite (sample_once_in_row space row (csr_has Y i)) by done.
    destruct (decide (s ⊆ rowset i)) as [Hsub|Hsub].
    - by rewrite bool_decide_eq_true_2 by (by apply (Hmem i row s); [lia|..]).
    - rewrite bool_decide_eq_false_2; [done|]. intros H. apply Hsub. by apply (Hmem i row s); [lia|..]. }
  assert (Htot : zsum (map (fun s => zsum (map (fun i => if decide (s ⊆ rowset i) then area ups i s else 0) (py_range (csr_rows Y)))) space)
     = total_area space ups rows).
  { rewrite <- (map_ext_in (sample_area space ups rows)) by (intros s Hs; apply Harea; by apply elem_of_list_In).
    unfold sample_area, total_area. rewrite zsum_swap. f_equal. apply map_ext. intros [i row]. simpl.
    unfold row_area. apply (zsum_partition space (samples space row) (area ups i)); [done|].
    intros t Ht. unfold samples in Ht. apply elem_of_list_omap in Ht as (k & _ & Ek). by eapply elem_of_list_lookup_2. }
  rewrite Htot. intros HT s Hs. rewrite <- Harea by done. unfold prob.
  rewrite (sample_once_expect ord space rows ups st Hval Hinv) by done. f_equal. unfold sample_area.
  rewrite <- qsum_Z. apply qsum_map_ext. intros ir _. apply indicator_sum.
Qed.


(** ** naive updates *)

Lemma sum_elements (P : Z -> Prop) `{!forall x, Decision (P x)} (s : gset Z) :
  Z.of_nat (size (filter P s)) = zsum (map (fun x => if decide (P x) then 1 else 0) (elements s)).
Proof.
  assert (elements (filter P s) ≡ₚ filter P (elements s)) as Hp.
  { apply NoDup_Permutation; [apply NoDup_elements|apply list.NoDup_filter, NoDup_elements|]. intros x.
    rewrite elem_of_list_filter, !elem_of_elements, elem_of_filter. done. }
  assert (size (filter P s) = length (filter P (elements s))) as -> by (rewrite <- Hp; done).
  clear Hp. induction (elements s) as [|x l IH]; [done|]. rewrite filter_cons. simpl.
  destruct (decide (P x)); cbn [length]; rewrite ?Nat2Z.inj_succ, IH; lia.
Qed.

Lemma alter_length_Z (f : Z -> Z) i (l : list Z) : length (alter f i l) = length l.
Proof. apply alter_length. Qed.

Lemma sub_step (ws : list Z) i d : 0 <= i < zlen ws ->
  (let! w := py_index ws i in py_setitem ws i (w - d)) = Ok (alter (fun w => w - d) (Z.to_nat i) ws).
Proof.
  intros Hi. destruct (py_index_in_range ws i Hi) as (w & -> & Ew). cbn [rbind]. rewrite py_setitem_ok by done. f_equal.
  apply list_eq. intros k. destruct (decide (k = Z.to_nat i)) as [->|].
  - rewrite list_lookup_alter, Ew. simpl. apply list_lookup_insert. unfold zlen in Hi. lia.
  - by rewrite list_lookup_insert_ne, list_lookup_alter_ne.
Qed.

Lemma alter_0 (ws : list Z) n : alter (fun w => w - 0) n ws = ws.
Proof. apply list_eq. intros k. destruct (decide (k = n)) as [->|]; [|by rewrite list_lookup_alter_ne]. rewrite list_lookup_alter. destruct (ws !! n); simpl; [f_equal; lia|done]. Qed.

Lemma alter_sub_sub (ws : list Z) n a b : alter (fun w => w - b) n (alter (fun w => w - a) n ws) = alter (fun w => w - (a + b)) n ws.
Proof.
  apply list_eq. intros k. destruct (decide (k = n)) as [->|]; [|by rewrite !list_lookup_alter_ne].
  rewrite !list_lookup_alter. destruct (ws !! n); simpl; [f_equal; lia|done].
Qed.

Lemma rfold_sub {A} (f : list Z -> A -> result (list Z)) (d : A -> Z) n (l : list A) N :
  (forall ws x, x ∈ l -> length ws = N -> f ws x = Ok (alter (fun w => w - d x) n ws)) ->
  forall ws, length ws = N -> rfold f ws l = Ok (alter (fun w => w - zsum (map d l)) n ws).
Proof.
  induction l as [|x l IH]; intros Hf ws Hl; simpl; [by rewrite alter_0|].
  rewrite Hf by (done || left). cbn [rbind]. rewrite IH; [by rewrite alter_sub_sub| |by rewrite alter_length].
  intros ws' y Hy. apply Hf. by right.
Qed.

Definition naive_D (space : list (gset Z)) (T : gset Z) (row : list Z) : Z :=
  zsum (map (fun s => Z.of_nat (size (s ∩ T))) (samples space row)).

Lemma naive_row ord space (T : gset Z) row i ws : set_order ord -> (forall k, k ∈ row -> 0 <= k < zlen space) -> 0 <= i < zlen ws ->
  rfold (fun ws k =>
        rfold (fun ws el =>
          let! s := py_index space k in
          if bool_decide (el ∈ s) then
            let! w := py_index ws i in py_setitem ws i (w - 1)
          else Ok ws) ws (ord T)) ws row = Ok (alter (fun w => w - naive_D space T row) (Z.to_nat i) ws).
Proof.
  intros Ho Hk Hi.
  rewrite (rfold_sub _ (fun k => match space !! Z.to_nat k with Some s => Z.of_nat (size (s ∩ T)) | None => 0 end) (Z.to_nat i) row (length ws)); [|
    |done].
  - unfold naive_D. by rewrite (samples_map space row _ 0) by done.
  - intros ws' k Hkr Hl. destruct (py_index_in_range space k) as (s & E1 & E2); [auto|]. rewrite E1, E2.
    rewrite (rfold_sub _ (fun el => if bool_decide (el ∈ s) then 1 else 0) (Z.to_nat i) (ord T) (length ws)); [| |done].
    + assert (Hs : zsum (map (fun el => if bool_decide (el ∈ s) then 1 else 0) (ord T)) = Z.of_nat (size (s ∩ T))).
      { assert (s ∩ T = filter (fun x => x ∈ s) T) as -> by (apply set_eq; set_solver). rewrite sum_elements.
        rewrite (zsum_perm _ (map (fun el => if bool_decide (el ∈ s) then 1 else 0) (elements T))) by (apply Permutation_map, Ho).
        f_equal. apply map_ext. intros x. case_bool_decide; by case_decide. }
      by rewrite Hs.
    + intros ws'' el _ Hl'. cbn [rbind]. case_bool_decide.
      * apply sub_step. unfold zlen in *. lia.
      * by rewrite alter_0.
Qed.

Lemma naive_update_ok ord st (u : list Z * gset Z) : set_order ord -> valid_rows (ua_space st) (ua_rows st) ->
  (forall i, i ∈ fst u -> 0 <= i < zlen (ua_rows st)) -> length (ua_weights st) = length (ua_rows st) ->
  exists st', update_row_weights_naive ord st u = Ok st' /\ ua_space st' = ua_space st /\ ua_rows st' = ua_rows st /\
    length (ua_weights st') = length (ua_rows st) /\
    forall i row w, 0 <= i -> ua_rows st !! Z.to_nat i = Some row -> ua_weights st !! Z.to_nat i = Some w ->
      ua_weights st' !! Z.to_nat i = Some (w - count_in i (fst u) * naive_D (ua_space st) (snd u) row).
Proof.
  intros Ho Hv Hi Hl. destruct u as [A T]. simpl in *. unfold update_row_weights_naive. simpl.
  enough (forall ws, length ws = length (ua_rows st) -> exists ws',
    rfold (fun ws row_id => let! row := py_index (ua_rows st) row_id in
      rfold (fun ws k => rfold (fun ws el => let! s := py_index (ua_space st) k in
          if bool_decide (el ∈ s) then let! w := py_index ws row_id in py_setitem ws row_id (w - 1) else Ok ws) ws (ord T)) ws row) ws A = Ok ws' /\
    length ws' = length (ua_rows st) /\
    forall i row w, 0 <= i -> ua_rows st !! Z.to_nat i = Some row -> ws !! Z.to_nat i = Some w ->
      ws' !! Z.to_nat i = Some (w - count_in i A * naive_D (ua_space st) T row)) as H.
  { destruct (H _ Hl) as (ws' & -> & Hl' & Hw). cbn [rbind]. eexists. split; [reflexivity|]. done. }
  clear Hl. induction A as [|j A IH]; intros ws Hl; simpl.
  - exists ws. split_and!; try done. intros i row w _ _ Ew. rewrite Ew. f_equal. unfold count_in. simpl. change (zlen []) with 0. lia.
  - assert (Hj : 0 <= j < zlen (ua_rows st)) by (apply Hi; left).
    destruct (py_index_in_range (ua_rows st) j Hj) as (row & E1 & E2). rewrite E1. cbn [rbind].
    rewrite (naive_row ord (ua_space st) T row j ws Ho); [| |unfold zlen in *; lia].
    2:{ intros k Hk. apply (Hv row k); [by eapply elem_of_list_lookup_2|done]. }
    cbn [rbind]. destruct (IH ltac:(intros; apply Hi; by right) (alter (fun w => w - naive_D (ua_space st) T row) (Z.to_nat j) ws)) as (ws' & E & Hl' & Hw).
    { by rewrite alter_length. }
    exists ws'. split_and!; try done. intros i row' w Hi0 Er Ew. rewrite count_in_cons.
    destruct (Z.eqb_spec i j) as [->|Hne].
    + assert (row' = row) as -> by congruence. rewrite (Hw j row (w - naive_D (ua_space st) T row)); [f_equal; lia|done|done|].
      rewrite list_lookup_alter, Ew. done.
    + rewrite (Hw i row' w); [f_equal; lia|done|done|]. rewrite list_lookup_alter_ne; [done|]. lia.
Qed.

Lemma naive_updates_ok ord : set_order ord -> forall ups st, valid_rows (ua_space st) (ua_rows st) ->
  valid_updates (zlen (ua_rows st)) ups -> length (ua_weights st) = length (ua_rows st) ->
  exists st', rfold (update_row_weights_naive ord) st ups = Ok st' /\
    forall i row w, 0 <= i -> ua_rows st !! Z.to_nat i = Some row -> ua_weights st !! Z.to_nat i = Some w ->
      ua_weights st' !! Z.to_nat i =
        Some (w - zsum (map (fun u => count_in i (fst u) * naive_D (ua_space st) (snd u) row) ups)).
Proof.
  intros Ho. induction ups as [|u ups IH]; intros st Hv Hu Hl; simpl.
  - exists st. split; [done|]. intros i row w _ _ Ew. rewrite Ew. f_equal. lia.
  - destruct (naive_update_ok ord st u Ho Hv) as (st1 & -> & Hs & Hr & Hl1 & Hw1); [|done|].
    { intros i Hin. destruct u as [A T]. apply (Hu A T i); [left|done]. }
    cbn [rbind]. destruct (IH st1) as (st2 & E & Hw2).
    { by rewrite Hs, Hr. }
    { rewrite Hr. intros A T i Hin. apply (Hu A T i). by right. }
    { by rewrite Hr. }
    exists st2. split; [done|]. intros i row w Hi Er Ew.
    rewrite (Hw2 i row _ Hi ltac:(by rewrite Hr) (Hw1 i row w Hi Er Ew)). rewrite Hs. f_equal. lia.
Qed.

Lemma times_nonneg ups i x : 0 <= times_covered ups i x.
Proof.
  unfold times_covered. apply zsum_nonneg. apply list.Forall_forall. intros w Hw. apply elem_of_map in Hw as (u & -> & _).
  case_decide; [apply zlen_nonneg|lia].
Qed.

Lemma times_pos ups i x : 0 < times_covered ups i x <-> covered ups i x.
Proof.
  unfold times_covered, covered. induction ups as [|u ups IH]; simpl; [rewrite Exists_nil; done|].
  rewrite Exists_cons, <- IH. pose proof (times_nonneg ups i x) as Hn. unfold times_covered in Hn.
  fold (count_in i (fst u)). pose proof (count_in_nonneg i (fst u)). pose proof (count_in_pos i (fst u)) as Hc.
  set (z := zsum _) in *. clearbody z. destruct (decide (x ∈ snd u)); [|intuition lia].
  rewrite <- Hc. split; [intros; destruct (Z.eq_dec z 0); [left; split; [lia|done]|right; lia]|]. intros [[? _]|?]; lia.
Qed.

Lemma zsum_map_plus {A} (f g : A -> Z) l : zsum (map (fun x => f x + g x) l) = zsum (map f l) + zsum (map g l).
Proof. induction l; simpl; lia. Qed.
Lemma zsum_map_mult {A} c (f : A -> Z) l : zsum (map (fun x => c * f x) l) = c * zsum (map f l).
Proof. induction l; simpl; lia. Qed.

Lemma naive_weight_eq (ss : list (gset Z)) ups i :
  zsum (map (fun s => Z.of_nat (size s)) ss) - zsum (map (fun u => count_in i (fst u) * zsum (map (fun s => Z.of_nat (size (s ∩ snd u))) ss)) ups)
  = zsum (map (fun s => zsum (map (fun x => 1 - times_covered ups i x) (elements s))) ss).
Proof.
  induction ss as [|s ss IH]; simpl.
  - assert (zsum (map (fun u => count_in i (fst u) * 0) ups) = 0) as ->; [|lia]. induction ups; simpl; lia.
  - rewrite <- IH. clear IH.
    rewrite (map_ext (fun u => count_in i (fst u) * (Z.of_nat (size (s ∩ snd u)) + zsum (map (fun s0 : gset Z => Z.of_nat (size (s0 ∩ snd u))) ss)))
       (fun u => count_in i (fst u) * Z.of_nat (size (s ∩ snd u)) + count_in i (fst u) * zsum (map (fun s0 : gset Z => Z.of_nat (size (s0 ∩ snd u))) ss))) by (intros; lia).
    rewrite zsum_map_plus.
    assert (Z.of_nat (size s) - zsum (map (fun u => count_in i (fst u) * Z.of_nat (size (s ∩ snd u))) ups)
      = zsum (map (fun x => 1 - times_covered ups i x) (elements s))) as H; [|lia].
    rewrite (map_ext (fun u => count_in i (fst u) * Z.of_nat (size (s ∩ snd u)))
       (fun u => zsum (map (fun x => if decide (x ∈ snd u) then count_in i (fst u) else 0) (elements s)))).
    2:{ intros u. assert (s ∩ snd u = filter (fun x => x ∈ snd u) s) as -> by (apply set_eq; set_solver).
        rewrite sum_elements, <- zsum_map_mult. f_equal. apply map_ext. intros x. case_decide; lia. }
    rewrite zsum_swap.
    rewrite (map_ext (fun x => zsum (map (fun u => if decide (x ∈ snd u) then count_in i (fst u) else 0) ups)) (times_covered ups i)) by done.
    assert (Z.of_nat (size s) = zsum (map (fun _ => 1) (elements s))) as ->.
    { unfold size, set_size, compose. simpl. induction (elements s); simpl; lia. }
    induction (elements s) as [|x l IH]; simpl; lia.
Qed.

Lemma area_sum ups i s : area ups i s = zsum (map (fun x => if decide (0 < times_covered ups i x) then 0 else 1) (elements s)).
Proof.
  unfold area, uncovered. rewrite sum_elements. f_equal. apply map_ext. intros x. pose proof (times_pos ups i x).
  repeat case_decide; tauto.
Qed.

Lemma C30_naive_vs_fast_proof : forall (ord : gset Z -> list Z) (space : list (gset Z)) (rows : list (list Z))
    (ups : list (list Z * gset Z)),
  set_order ord -> valid_rows space rows -> valid_updates (zlen rows) ups ->
  exists st0 fast naive, assign_row_weights ord space rows [] = Ok st0 /\
    rfold (update_row_weights ord) st0 ups = Ok fast /\ rfold (update_row_weights_naive ord) st0 ups = Ok naive /\
    forall i row, 0 <= i -> rows !! Z.to_nat i = Some row ->
      exists wf wn, ua_weights fast !! Z.to_nat i = Some wf /\ ua_weights naive !! Z.to_nat i = Some wn /\
        wn <= wf /\
        (wn = wf <-> forall s x, s ∈ samples space row -> x ∈ (s : gset Z) -> times_covered ups i x <= 1) /\
        wn = zsum (map (fun s => zsum (map (fun x => 1 - times_covered ups i x) (elements s))) (samples space row)).
Proof.
  intros ord space rows ups Ho Hv Hu. destruct (run_inv ord space rows ups Ho Hv Hu) as (st0 & st & E0 & E & Hinv).
  destruct (assign_ok ord space rows [] Ho Hv) as (st0' & E0' & Hinv0). assert (st0' = st0) as -> by congruence.
  pose proof Hinv0 as (Hs & Hr & _).
  destruct (naive_updates_ok ord Ho ups st0) as (naive & En & Hn).
  { by rewrite Hs, Hr. }
  { by rewrite Hr. }
  { rewrite (inv_weights _ _ _ _ _ _ Hinv0), map_length, length_enumerate, Hr. done. }
  exists st0, st, naive. split_and!; try done. intros i row Hi Er.
  exists (row_area space ups i row).
  eexists. split; [apply (py_index_ok _ _ _ Hi); by apply (weights_lookup ord space rows)|].
  split.
  { apply Hn; [done|by rewrite Hr|]. apply (py_index_ok _ _ _ Hi). by apply (weights_lookup ord space rows []). }
  rewrite Hs.
  assert (Hw : row_area space [] i row - zsum (map (fun u => count_in i (fst u) * naive_D space (snd u) row) ups) =
    zsum (map (fun s => zsum (map (fun x => 1 - times_covered ups i x) (elements s))) (samples space row))).
  { unfold row_area, naive_D. rewrite <- naive_weight_eq. f_equal. f_equal. apply map_ext. intros s. unfold area. f_equal. f_equal.
    apply set_eq. intros x. unfold uncovered. rewrite elem_of_filter. unfold covered. rewrite Exists_nil. tauto. }
  rewrite Hw. unfold row_area. clear Hw. split; [|split; [|done]].
  - induction (samples space row) as [|s ss IH]; simpl; [done|]. rewrite area_sum.
    assert (zsum (map (fun x => 1 - times_covered ups i x) (elements s))
         <= zsum (map (fun x => if decide (0 < times_covered ups i x) then 0 else 1) (elements s))); [|lia].
    induction (elements s) as [|x l IHl]; simpl; [done|]. pose proof (times_nonneg ups i x). case_decide; lia.
  - assert (Hel : forall l : list Z, zsum (map (fun x => 1 - times_covered ups i x) l)
         <= zsum (map (fun x => if decide (0 < times_covered ups i x) then 0 else 1) l) /\
       (zsum (map (fun x => 1 - times_covered ups i x) l)
         = zsum (map (fun x => if decide (0 < times_covered ups i x) then 0 else 1) l) <-> forall x, x ∈ l -> times_covered ups i x <= 1)).
    { induction l as [|x l [IH1 IH2]]; simpl.
      - split; [done|]. split; [|done]. intros _ x Hx. inversion Hx.
      - pose proof (times_nonneg ups i x) as Ht. split; [case_decide; lia|]. split.
        + intros Heq y Hy. apply elem_of_cons in Hy as [->|Hy].
          * case_decide; lia.
          * apply IH2; [|done]. case_decide; lia.
        + intros H. pose proof (H x ltac:(left)). assert (Hl : forall y, y ∈ l -> times_covered ups i y <= 1) by (intros; apply H; by right).
          apply IH2 in Hl. case_decide; lia. }
    assert (Hle : forall ss : list (gset Z), zsum (map (fun s => zsum (map (fun x => 1 - times_covered ups i x) (elements s))) ss) <= zsum (map (area ups i) ss)).
    { induction ss as [|s ss IH]; simpl; [done|]. rewrite area_sum. destruct (Hel (elements s)). lia. }
    induction (samples space row) as [|s ss IH]; simpl.
    + split; [|done]. intros _ s x Hs'. inversion Hs'.
    + specialize (Hle ss). rewrite area_sum. destruct (Hel (elements s)) as [H1 H2]. split.
      * intros Heq t x Ht Hx. apply elem_of_cons in Ht as [->|Ht].
        -- apply H2; [lia|]. by apply elem_of_elements.
        -- apply IH with t; [lia|done|done].
      * intros H. f_equal.
        -- apply H2. intros x Hx. apply (H s); [left|]. by apply elem_of_elements.
        -- apply IH. intros t x Ht. apply H. by right.
Qed.


Lemma C31_refit_breaks_proof : forall (ord : gset Z -> list Z) (prune : bool) (alpha : Qc) (b : backend) (Y Y' : csr)
    (ups : list (list Z * gset Z)),
  set_order ord -> b <> OtherBackend ->
  wf_cmat (csr_mat Y) = true -> binary (csr_mat Y) -> wf_cmat (csr_mat Y') = true -> binary (csr_mat Y') ->
  valid_updates (csr_rows Y) ups ->
  exists st0 st1 st2, ua_fit ord prune alpha b [] Y = Ok st0 /\ rfold (update_row_weights ord) st0 ups = Ok st1 /\
    ua_fit ord prune alpha b (ua_history st1) Y' = Ok st2 /\
    forall i row s x w, 0 <= i -> ua_rows st2 !! Z.to_nat i = Some row -> ua_weights st2 !! Z.to_nat i = Some w ->
      s ∈ samples (ua_space st2) row -> x ∈ (s : gset Z) -> covered ups i x -> w < 100000 ->
      (forall o, can (ua_sample_from_row st2 i) o <-> o = Err GenericException) /\
      can (ua_sample_once st2) (Err GenericException).
Proof.
  intros ord prune alpha b Y Y' ups Ho Hbe Hwf Hb Hwf' Hb' Hu.
  destruct (fit_ok ord prune alpha b [] Y Ho Hwf Hb Hbe) as (g & space & rows & st0 & _ & _ & _ & _ & _ & Ef & Hlen & Hval & Hinv0 & _).
  rewrite <- Hlen in Hu. destruct (updates_ok ord space rows [] Ho ups [] st0 Hu Hinv0) as (st1 & E & Hinv). simpl in Hinv.
  pose proof Hinv as (_ & _ & Hh & _). simpl in Hh.
  destruct (fit_ok ord prune alpha b (ua_history st1) Y' Ho Hwf' Hb' Hbe) as (g' & space' & rows' & st2 & _ & _ & _ & _ & _ & Ef' & Hlen' & Hval' & Hinv2 & _).
  exists st0, st1, st2. split_and!; try done. rewrite Hh in *. clear Hh E Hinv Ef Hinv0.
  intros i row s x w Hi Er Ew Hs Hx Hc Hw.
  pose proof Hinv2 as (Hsp & Hr & Hhis & Hp & _). rewrite Hsp in Hs. rewrite Hr in Er. rewrite app_nil_r in Hhis.
  pose proof (elem_of_list_lookup_2 _ _ _ Er) as Hin.
  assert (Hww : w = row_area space' [] i row).
  { pose proof (inv_weights _ _ _ _ _ _ Hinv2) as Hwt. rewrite Hwt, list_lookup_fmap, lookup_enumerate, Er in Ew. simpl in Ew.
    injection Ew as <-. by rewrite Z2Nat.id. }
  assert (H0 : forall t, area [] i t = Z.of_nat (size t)).
  { intros t. rewrite area_diff. unfold covered_elems. simpl. rewrite intersection_empty_r_L, size_empty. lia. }
  assert (Hlt : row_area space' ups i row < w).
  { rewrite Hww. unfold row_area. clear Hin Er Ew Hww Hw.
    assert (Hle : forall ss, zsum (map (area ups i) ss) <= zsum (map (area [] i) ss)).
    { induction ss as [|t ss IH]; simpl; [done|]. rewrite H0. assert (area ups i t <= Z.of_nat (size t)); [|lia].
      rewrite area_diff. lia. }
    assert (Hs1 : area ups i s < area [] i s).
    { rewrite H0, area_diff. assert (x ∈ s ∩ covered_elems ups i) as Hxi by (apply elem_of_intersection; split; [done|by apply elem_of_covered_elems]).
      assert (size (s ∩ covered_elems ups i) <> 0%nat); [|lia]. intros E0. apply size_empty_inv in E0. set_solver. }
    induction (samples space' row) as [|t ss IH]; [inversion Hs|]. simpl. apply elem_of_cons in Hs as [<-|Hs].
    - specialize (Hle ss). lia.
    - specialize (IH Hs). rewrite H0. assert (area ups i t <= Z.of_nat (size t)) by (rewrite area_diff; lia). lia. }
  pose proof (row_area_nonneg space' ups i row) as Hnn.
  assert (Hrow : ua_sample_from_row st2 i = Fail GenericException).
  { unfold ua_sample_from_row. rewrite Hr, Hsp, Hhis. rewrite (proj2 (py_index_ok _ _ _ Hi) Er). simpl bind at 1.
    rewrite row_samples_ok by (intros k Hk; by apply (Hval' row k)). simpl bind at 1.
    rewrite (proj2 (py_index_ok _ _ _ Hi) Ew). simpl bind at 1.
    assert (Hm : map (fun s : gset Z => Z.of_nat (size s) - Z.of_nat (size (s ∩ covered_elems ups i))) (samples space' row)
            = map (area ups i) (samples space' row)).
    { apply map_ext. intros t. by rewrite area_diff. }
    rewrite Hm. fold (row_area space' ups i row).
    assert (allclose (row_area space' ups i row) w = false) as ->; [|done].
    unfold allclose. apply Z.leb_gt. lia. }
  split.
  - intros o. rewrite Hrow. done.
  - unfold ua_sample_once, surs_sample_once. apply can_bind. exists (Ok i). split; [|by rewrite Hrow].
    rewrite Hr, Hp. unfold row_probas.
    pose proof (inv_weights _ _ _ _ _ _ Hinv2) as Hwt.
    rewrite (map_enumerate (fun ir => row_area space' [] (fst ir) (snd ir)) 0) in Hwt. rewrite Hwt.
    set (f := fun i => match rows' !! Z.to_nat i with Some r => row_area space' [] (fst (i, r)) (snd (i, r)) | None => 0 end) in *.
    assert (Hf : forall j, 0 <= f j) by (intros j; unfold f; destruct (rows' !! Z.to_nat j); [apply row_area_nonneg|lia]).
    assert (Hfi : f i = w) by (unfold f; rewrite Er; done).
    assert (Hir : i ∈ py_range (zlen rows')) by (apply elem_of_py_range; apply lookup_lt_Some in Er; unfold zlen; lia).
    assert (Hpos : 0 < zsum (map f (py_range (zlen rows')))).
    { destruct (Z.eq_dec (zsum (map f (py_range (zlen rows')))) 0) as [E0|].
      - apply zsum_zero with (x := w) in E0; [lia| |].
        + apply list.Forall_forall. intros y Hy. apply elem_of_map in Hy as (j & -> & _). auto.
        + apply elem_of_map. eauto.
      - assert (0 <= zsum (map f (py_range (zlen rows')))); [|lia]. apply zsum_nonneg. apply list.Forall_forall.
        intros y Hy. apply elem_of_map in Hy as (j & -> & _). auto. }
    destruct (Z.eqb_spec (zsum (map f (py_range (zlen rows')))) 0); [lia|].
    apply can_weighted; [auto|done|]. exists i. split_and!; try done. lia.
Qed.


(** ** the frequency sampler *)

Lemma zsum_map_nonneg {A} (f : A -> Z) l : (forall x, x ∈ l -> 0 <= f x) -> 0 <= zsum (map f l).
Proof.
  intros H. apply zsum_nonneg. apply list.Forall_forall. intros w Hw. apply elem_of_map in Hw as (x & -> & Hx). auto.
Qed.

Lemma zsum_pos {A} (f : A -> Z) l x : (forall x, x ∈ l -> 0 <= f x) -> x ∈ l -> 0 < f x -> 0 < zsum (map f l).
Proof.
  induction l as [|y l IH]; intros Hf Hx Hp; [inversion Hx|]. simpl.
  assert (Hl : 0 <= zsum (map f l)) by (apply zsum_map_nonneg; intros; apply Hf; by right).
  assert (Hy : 0 <= f y) by (apply Hf; left).
  apply elem_of_cons in Hx as [<-|Hx]; [lia|]. specialize (IH ltac:(intros; apply Hf; by right) Hx Hp). lia.
Qed.

Lemma C61_frequency_proof : forall (ord : gset Z -> list Z) (hord : hits -> list (option (list Z))) (Y : csr) (prune : bool)
    (alpha : Qc) (b : backend) (rowset : Z -> gset Z),
  set_order ord -> (forall h, hord h ≡ₚ elements h) -> wf_cmat (csr_mat Y) = true -> binary (csr_mat Y) -> b <> OtherBackend ->
  (forall i a, 0 <= i < csr_rows Y -> (a ∈ rowset i <-> csr_has Y i a)) ->
  (exists i a, csr_has Y i a) ->
  exists space rows probas, pcf_fit ord hord prune alpha b Y = Ok (space, rows, probas) /\
    let supp s := zsum (map (fun i => if decide (s ⊆ rowset i) then 1 else 0) (py_range (csr_rows Y))) in
    let total := zsum (map supp space) in
    0 < total /\
    (forall s, s ∈ space -> prob (pcf_sample_once (space, rows, probas)) (Ok s) = (Qc_of_Z (supp s) / Qc_of_Z total)%Qc) /\
    (forall o, can (pcf_sample_once (space, rows, probas)) o -> exists s, o = Ok s /\ s ∈ space /\ 0 < supp s).
Proof.
  intros ord hord Y prune alpha b rowset Ho Hh Hwf Hb Hbe Hrs (i0 & a0 & Hia).
  destruct (C25_sample_space_proof ord Y prune alpha b Ho Hwf Hb Hbe) as (g & space & Eg & Es & Hnd & Hne & Hsing & Hr & _).
  destruct (C20_trie_exact_proof ord hord space Y Ho Hh Hwf) as (rows & Er & Hlen & Hrows).
  exists space, rows, (normalize (map zlen rows)). unfold pcf_fit. rewrite Eg. cbn [rbind]. rewrite Es. cbn [rbind]. rewrite Er. cbn [rbind].
  split; [done|]. cbv zeta.
  assert (Hrows' : forall i row, 0 <= i -> rows !! Z.to_nat i = Some row ->
     NoDup row /\ forall k, k ∈ row <-> contained_id space (csr_has Y i) k).
  { intros i row Hi Ei. destruct (Hrows i row Hi Ei) as [H1 H2]. split; [done|]. intros k. rewrite H2. split; [tauto|].
    intros Hc. split; [done|]. destruct Hc as (Hk & s & Ek & _). exists s. split; [done|]. split.
    - intros ->. apply Hne. by eapply elem_of_list_lookup_2.
    - intros k' Hlt E'. assert (Z.to_nat k = Z.to_nat k') by exact (NoDup_lookup space _ _ s Hnd Ek E'). lia. }
  assert (Hval : valid_rows space rows).
  { intros row k Hrow Hk. apply elem_of_list_lookup in Hrow as [n En].
    destruct (Hrows' (Z.of_nat n) row) as [_ Hk']; [lia|by rewrite Nat2Z.id|]. apply Hk' in Hk as (H0 & s & Ek & _).
    apply lookup_lt_Some in Ek. unfold zlen. lia. }
  assert (Hmem : forall i row s, 0 <= i -> rows !! Z.to_nat i = Some row -> s ∈ space -> (s ∈ samples space row <-> s ⊆ rowset i)).
  { intros i row s Hi Ei Hs. destruct (Hrows' i row Hi Ei) as [_ Hk]. unfold samples. rewrite elem_of_list_omap.
    assert (Hi' : 0 <= i < csr_rows Y) by (apply lookup_lt_Some in Ei; unfold zlen in Hlen; lia). split.
    - intros (k & Hkr & Ek). apply Hk in Hkr as (_ & s' & Es' & Ha). assert (s' = s) as -> by congruence.
      intros a Has. apply Hrs; auto.
    - intros Hsub. apply elem_of_list_lookup in Hs as [n En]. exists (Z.of_nat n). rewrite Nat2Z.id. split; [|done].
      apply Hk. split; [lia|]. exists s. rewrite Nat2Z.id. split; [done|]. intros a Has. apply Hrs; [done|]. by apply Hsub. }
  assert (Hsin : forall i row t, 0 <= i -> rows !! Z.to_nat i = Some row -> t ∈ samples space row -> t ∈ space).
  { intros i row t _ _ Ht. unfold samples in Ht. apply elem_of_list_omap in Ht as (k & _ & Ek). by eapply elem_of_list_lookup_2. }
  assert (Hlook : forall i, 0 <= i < csr_rows Y -> exists row, rows !! Z.to_nat i = Some row).
  { intros i Hi. apply lookup_lt_is_Some_2. unfold zlen in Hlen. lia. }
  set (S1 := fun (s : gset Z) => zsum (map (fun ir => zsum (map (fun t => if decide (t = s) then 1 else 0) (samples space (snd ir)))) (enumerate rows))).
  assert (Hsupp : forall s, s ∈ space -> S1 s = zsum (map (fun i => if decide (s ⊆ rowset i) then 1 else 0) (py_range (csr_rows Y)))).
  { intros s Hs. unfold S1. rewrite (map_enumerate _ 0), Hlen. f_equal. apply map_ext_in. intros i Hi.
    apply elem_of_list_In, elem_of_py_range in Hi. destruct (Hlook i Hi) as [row Ei]. rewrite Ei. simpl.
    destruct (Hrows' i row ltac:(lia) Ei) as [Hndr Hk]. rewrite (sample_once_in_row space row (csr_has Y i)) by done.
    destruct (decide (s ⊆ rowset i)) as [Hsub|Hsub].
    - by rewrite bool_decide_eq_true_2 by (by apply (Hmem i row s); [lia|..]).
    - rewrite bool_decide_eq_false_2; [done|]. intros H. apply Hsub. by apply (Hmem i row s); [lia|..]. }
  assert (Htot : zsum (map (fun s => zsum (map (fun i => if decide (s ⊆ rowset i) then 1 else 0) (py_range (csr_rows Y)))) space)
     = zsum (map (fun ir : Z * list Z => zlen (snd ir)) (enumerate rows))).
  { rewrite <- (map_ext_in S1) by (intros s Hs; apply Hsupp; by apply elem_of_list_In).
    unfold S1. rewrite zsum_swap. f_equal. apply map_ext_in. intros [i row] Hir. simpl.
    apply elem_of_list_In, elem_of_enumerate in Hir as [Hi Ei].
    rewrite (zsum_partition space (samples space row) (fun _ => 1)); [|done|].
    - assert (length (samples space row) = length row) as Hl.
      { apply samples_length. intros k Hk. apply (Hval row k); [by eapply elem_of_list_lookup_2|done]. }
      unfold zlen. rewrite <- Hl. clear. induction (samples space row); simpl; lia.
    - intros t Ht. by apply (Hsin i row). }
  assert (Hwn : map zlen rows = map (fun ir : Z * list Z => zlen (snd ir)) (enumerate rows)).
  { apply list_eq. intros k. rewrite !list_lookup_fmap, lookup_enumerate. by destruct (rows !! k). }
  rewrite Htot. rewrite (map_enumerate (fun ir : Z * list Z => zlen (snd ir)) 0) in *.
  set (w := fun i => match rows !! Z.to_nat i with Some r => zlen (snd (i, r)) | None => 0 end) in *.
  assert (Hw0 : forall i, 0 <= w i) by (intros i; unfold w; destruct (rows !! Z.to_nat i); [apply zlen_nonneg|lia]).
  assert (Hpos : 0 < zsum (map w (py_range (zlen rows)))).
  { destruct (stored_range _ _ _ Hwf Hia) as [Ha Hi]. rewrite <- Htot.
    assert (HinS : {[ a0 ]} ∈ space) by (apply Hsing; unfold csr_cols; lia).
    apply (zsum_pos _ _ {[ a0 ]}); [|done|].
    - intros s _. apply zsum_map_nonneg. intros i _. case_decide; lia.
    - apply (zsum_pos _ _ i0); [|apply elem_of_py_range; unfold csr_rows; lia|].
      + intros i _. case_decide; lia.
      + rewrite decide_True; [lia|]. intros x Hx. apply elem_of_singleton in Hx as ->. apply Hrs; [unfold csr_rows; lia|done]. }
  split; [done|].
  assert (Hrow : forall i row f, 0 <= i -> rows !! Z.to_nat i = Some row -> row <> [] ->
     expect (pcf_sample_from_row space rows i) f = (qsum (map (fun s => f (Ok s)) (samples space row)) / Qc_of_Z (zlen row))%Qc).
  { intros i row f Hi Ei Hn. unfold pcf_sample_from_row. rewrite (proj2 (py_index_ok _ _ _ Hi) Ei). simpl bind at 1.
    rewrite expect_bind. unfold np_choice_uniform. destruct (uniform_valid (length row)) as [Hu1 Hu2].
    { destruct row; [done|simpl; lia]. }
    fold (zlen row) in Hu1, Hu2.
    rewrite expect_np_choice; [|done|by rewrite replicate_length|intros p Hp; by apply Qclt_le_weak, Hu1|done].
    rewrite (samples_map space row (fun s => f (Ok s)) 0%Qc).
    2:{ intros k Hk. apply (Hval row k); [by eapply elem_of_list_lookup_2|done]. }
    unfold Qcdiv at 2. rewrite <- qsum_map_mult_r. clear Hu1 Hu2 Hn. set (c := Qc_of_Z (zlen row)).
    assert (Hk : forall k, k ∈ row -> 0 <= k < zlen space) by (intros k Hk; apply (Hval row k); [by eapply elem_of_list_lookup_2|done]).
    clear Ei. clearbody c. induction row as [|k row IH]; simpl; [done|]. unfold qsum in *. simpl. rewrite IH by (intros; apply Hk; by right). f_equal.
    destruct (py_index_in_range space k) as (s & E1 & E2); [apply Hk; left|]. rewrite E1, E2. simpl. unfold Qcdiv. ring. }
  split.
  - intros s Hs. unfold prob, pcf_sample_once, surs_sample_once. rewrite expect_bind, Hwn.
    rewrite expect_weighted; [|auto|done]. f_equal. rewrite <- Hsupp by done. unfold S1. rewrite <- qsum_Z.
    rewrite (map_enumerate _ 0%Qc). apply qsum_map_ext. intros i Hi. apply elem_of_py_range in Hi. rewrite Hlen in Hi.
    destruct (Hlook i Hi) as [row Ei]. unfold w. rewrite Ei. simpl. destruct (decide (row = [])) as [->|Hn].
    + change (zlen (@nil Z)) with 0. simpl. rewrite Z2Qc_inj_0. ring.
    + rewrite (Hrow i row) by (done || lia).
      rewrite (qsum_map_ext _ (fun t => Qc_of_Z 1 * (if decide (@Ok (gset Z) t = Ok s) then 1 else 0))%Qc).
      2:{ intros t _. rewrite Z2Qc_inj_1. ring. }
      rewrite (indicator_sum (samples space row) (fun _ => 1) s).
      assert (Qc_of_Z (zlen row) <> 0%Qc) as Hq by (intros Hq; apply Qc_of_Z_inj_0, zlen_0 in Hq; done).
      unfold Qcdiv. rewrite Qcmult_comm, <- Qcmult_assoc, Qcmult_inv_l by done. ring.
  - intros o Hc. unfold pcf_sample_once, surs_sample_once in Hc. apply can_bind in Hc as (r & Hr' & Hc). rewrite Hwn in Hr'.
    apply can_weighted in Hr' as (i & Hi & Hwi & ->); [|auto|done]. apply elem_of_py_range in Hi. rewrite Hlen in Hi.
    destruct (Hlook i Hi) as [row Ei]. unfold w in Hwi. rewrite Ei in Hwi. simpl in Hwi.
    unfold pcf_sample_from_row in Hc. rewrite (proj2 (py_index_ok rows i row ltac:(lia)) Ei) in Hc. simpl bind in Hc at 1.
    apply can_bind in Hc as (k & Hk & Hc). unfold np_choice_uniform in Hk.
    assert (Hn : row <> []) by (intros ->; change (zlen (@nil Z)) with 0 in Hwi; lia).
    destruct (uniform_valid (length row)) as [Hu1 Hu2]; [destruct row; [done|simpl; lia]|]. fold (zlen row) in Hu1, Hu2.
    apply can_np_choice in Hk; [|done|by rewrite replicate_length|intros p Hp; by apply Qclt_le_weak, Hu1|done].
    destruct Hk as (n & k' & p & Ek' & _ & _ & ->). apply elem_of_list_lookup_2 in Ek'.
    assert (Hk : 0 <= k' < zlen space) by (apply (Hval row k'); [by eapply elem_of_list_lookup_2|done]).
    destruct (py_index_in_range space k' Hk) as (s & E1 & E2). rewrite E1 in Hc. simpl in Hc. subst o.
    assert (HsS : s ∈ space) by (by eapply elem_of_list_lookup_2). exists s. split; [done|]. split; [done|].
    assert (Hsub : s ⊆ rowset i).
    { apply (Hmem i row s); [lia|done|done|]. unfold samples. apply elem_of_list_omap. eauto. }
    apply (zsum_pos _ _ i); [|by apply elem_of_py_range|by rewrite decide_True by done].
    intros j _. case_decide; lia.
Qed.
