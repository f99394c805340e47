(** Proofs of the property theorems of Properties/P_Graph.v. *)
From Verif.Model Require Import PyBase Sparse Utils Graph Cliques.
From Verif.Spec Require Import SMatrix SGraph.
Open Scope Z_scope.
From Verif.Proofs Require Import PBase PSparse PUtils PTrie PAssign PGraph PCliques.

Lemma C21_confidence_graph_proof : forall (Y : csc),
  wf_cmat (csc_mat Y) = true -> binary (csc_mat Y) ->
  exists g freq, construct_confidence_graph Y = Ok (g, freq) /\
    g_nodes g = py_range (csc_cols Y) /\
    (forall u v, is_edge g u v <-> u <> v /\ exists i, csc_has Y i u /\ csc_has Y i v) /\
    (forall u v, is_edge g u v -> is_edge g v u) /\
    (forall u v w (A B : gset Z), g_wt g !! (u, v) = Some w ->
       (forall i, i ∈ A <-> csc_has Y i u /\ csc_has Y i v) -> (forall i, i ∈ B <-> csc_has Y i u) ->
       w = (Qc_of_Z (Z.of_nat (size A)) / Qc_of_Z (Z.of_nat (size B)))%Qc /\ (0 < w)%Qc /\ (w <= 1)%Qc) /\
    zlen freq = csc_cols Y /\
    (forall u (B : gset Z), 0 <= u < csc_cols Y -> (forall i, i ∈ B <-> csc_has Y i u) ->
       freq !! Z.to_nat u = Some (Z.of_nat (size B))).
Proof.
  intros Y Hwf Hb. unfold construct_confidence_graph.
  destruct (rfold_insert_map (fun uv => confidence Y (fst uv) (snd uv)) (cooccurring Y) ∅) as (m & -> & Hm).
  { intros [u v] Huv. apply elem_of_cooccurring in Huv; [|done..].
    destruct (confidence_ok Y u v Hwf Huv) as (w & E & _). eauto. }
  cbn [rbind]. eexists _, _. split; [reflexivity|]. simpl. split; [done|].
  assert (Hlk : forall u v w, filter (fun e : Z * Z * Qc => fst (fst e) <> snd (fst e)) m !! (u, v) = Some w <->
     u <> v /\ (exists i, csc_has Y i u /\ csc_has Y i v) /\ confidence Y u v = Ok w).
  { intros u v w. rewrite map_filter_lookup_Some, Hm. simpl. rewrite elem_of_cooccurring by done.
    rewrite lookup_empty. split.
    - intros [[[? ?]|[_ ?]] ?]; [auto|done].
    - intros (? & ? & ?). auto. }
  assert (Hedge : forall u v, is_edge (Graph (py_range (csc_cols Y)) (filter (fun e : Z * Z * Qc => fst (fst e) <> snd (fst e)) m)) u v
     <-> u <> v /\ exists i, csc_has Y i u /\ csc_has Y i v).
  { intros u v. unfold is_edge. simpl. split.
    - intros [w E]. apply Hlk in E. tauto.
    - intros [Hne Hi]. destruct (confidence_ok Y u v Hwf Hi) as (w & E & _). exists w. apply Hlk. auto. }
  split; [exact Hedge|]. split.
  { intros u v H. apply Hedge in H as [Hne (i & H1 & H2)]. apply Hedge. split; [done|]. eauto. }
  split.
  { intros u v w A B E HA HB. apply Hlk in E as (Hne & Hi & E).
    destruct (confidence_ok Y u v Hwf Hi) as (w' & E' & H01 & Hw). assert (w' = w) as -> by congruence.
    split; [by apply Hw|done]. }
  split.
  { unfold label_freq. rewrite zlen_map. apply zlen_py_range. apply wf_dims in Hwf. unfold csc_cols. lia. }
  intros u B Hu HB. unfold label_freq. rewrite list_lookup_fmap, lookup_py_range by done. simpl. f_equal.
  pose proof (binary_line_NoDup _ u Hwf Hb Hu) as Hnd.
  assert (Hsum : zsum (map snd (line (csc_mat Y) u)) = zlen (line (csc_mat Y) u)).
  { assert (Hone : forall e, e ∈ line (csc_mat Y) u -> snd e = 1).
    { intros [j v] He. by eapply binary_line_value. }
    revert Hone. generalize (line (csc_mat Y) u). induction l as [|e l IH]; intros Hone; [done|].
    simpl. rewrite zlen_cons, IH by (intros; apply Hone; by right). rewrite (Hone e) by left. lia. }
  rewrite Hsum. unfold zlen. f_equal.
  assert (B = list_to_set (map fst (line (csc_mat Y) u))) as ->.
  { apply set_eq. intros i. rewrite HB, elem_of_list_to_set. symmetry. by apply elem_of_line_fst. }
  rewrite size_list_to_set by done. by rewrite map_length.
Qed.


Lemma C22_noisy_or_proof : forall (g : graph),
  (forall u v, is_edge g u v -> is_edge g v u) ->
  exists c, convert_to_connectivity_graph g = Ok c /\ g_nodes c = g_nodes g /\
    (forall u v w, g_wt c !! (u, v) = Some w <->
       u <> v /\ exists p q, g_wt g !! (u, v) = Some p /\ g_wt g !! (v, u) = Some q /\
         w = (1 - (1 - p) * (1 - q))%Qc) /\
    (forall u v w, g_wt c !! (u, v) = Some w -> g_wt c !! (v, u) = Some w) /\
    (forall u v w p q, g_wt c !! (u, v) = Some w -> g_wt g !! (u, v) = Some p -> g_wt g !! (v, u) = Some q ->
       (0 < p)%Qc -> (p <= 1)%Qc -> (0 < q)%Qc -> (q <= 1)%Qc ->
       (0 < w)%Qc /\ (w <= 1)%Qc /\ (p <= w)%Qc /\ (q <= w)%Qc).
Proof.
  intros g Hbi. unfold convert_to_connectivity_graph.
  destruct (conn_fold g (edges g)) as (m & E & Hm).
  { intros u v Huv. unfold edges in Huv. apply elem_of_elements, elem_of_dom in Huv. split; [done|]. by apply Hbi. }
  fold (conn_step g). rewrite E. cbn [rbind]. eexists. split; [reflexivity|]. simpl. split; [done|].
  assert (Hlk : forall u v w, m !! (u, v) = Some w <->
       u <> v /\ exists p q, g_wt g !! (u, v) = Some p /\ g_wt g !! (v, u) = Some q /\ w = (1 - (1 - p) * (1 - q))%Qc).
  { intros u v w. rewrite Hm. unfold edges. rewrite !elem_of_elements, !elem_of_dom. split.
    - intros [Hor Hpq]. split; [|done]. intros ->. lia.
    - intros [Hne (p & q & Hp & Hq & Hw)]. split; [|eauto 10]. assert (u < v \/ v < u) as [?|?] by lia; [left|right]; eauto. }
  split; [exact Hlk|]. split.
  { intros u v w Hw. apply Hlk in Hw as (Hne & p & q & Hp & Hq & ->). apply Hlk. split; [done|].
    exists q, p. split_and!; try done. ring. }
  intros u v w p q Hw Hp Hq Hp0 Hp1 Hq0 Hq1. apply Hlk in Hw as (_ & p' & q' & Hp' & Hq' & Hw).
  assert (p' = p) as -> by congruence. assert (q' = q) as -> by congruence. clear Hp' Hq'.
  assert (Hsub : forall x : Qc, (x <= 1)%Qc -> (0 <= 1 - x)%Qc).
  { intros x Hx. replace 0%Qc with (x - x)%Qc by ring. unfold Qcminus. apply Qcplus_le_compat; [done|]. apply Qcle_refl. }
  assert (Hpw : (p <= w)%Qc).
  { replace w with (p + q * (1 - p))%Qc by (subst w; ring). replace p with (p + 0)%Qc at 1 by ring.
    apply Qcplus_le_compat; [apply Qcle_refl|]. replace 0%Qc with (0 * (1 - p))%Qc by ring.
    apply Qcmult_le_compat_r; [by apply Qclt_le_weak|auto]. }
  assert (Hqw : (q <= w)%Qc).
  { replace w with (q + p * (1 - q))%Qc by (subst w; ring). replace q with (q + 0)%Qc at 1 by ring.
    apply Qcplus_le_compat; [apply Qcle_refl|]. replace 0%Qc with (0 * (1 - q))%Qc by ring.
    apply Qcmult_le_compat_r; [by apply Qclt_le_weak|auto]. }
  split_and!; try done.
  - by apply Qclt_le_trans with p.
  - assert (Hz : (0 <= (1 - p) * (1 - q))%Qc).
    { replace 0%Qc with (0 * (1 - q))%Qc by ring. apply Qcmult_le_compat_r; auto. }
    replace 1%Qc with (w + (1 - p) * (1 - q))%Qc by (subst w; ring). replace w with (w + 0)%Qc at 1 by ring.
    apply Qcplus_le_compat; [apply Qcle_refl|done].
Qed.


Lemma C22_one_way_edge_fails_proof : forall (g : graph) (u v : Z),
  u < v -> is_edge g u v -> ~ is_edge g v u -> convert_to_connectivity_graph g = Err KeyError.
Proof.
  intros g u v Hlt He Hn. unfold convert_to_connectivity_graph. fold (conn_step g).
  rewrite (conn_fold_err g (edges g) u v); try done.
  - intros a b Hab. unfold edges in Hab. by apply elem_of_elements, elem_of_dom in Hab.
  - unfold edges. apply elem_of_elements, elem_of_dom. done.
Qed.


(** the graph the samplers work on *)
Lemma build_graph_ok (Y : csr) : wf_cmat (csr_mat Y) = true -> binary (csr_mat Y) ->
  exists g, build_graph Y = Ok g /\ undirected g /\ weights01 g /\ g_nodes g = py_range (csr_cols Y) /\
    forall u v, is_edge g u v <-> u <> v /\ exists i, csr_has Y i u /\ csr_has Y i v.
Proof.
  intros Hwf Hb. unfold build_graph.
  assert (Hwf' : wf_cmat (csc_mat (tocsc Y)) = true) by by apply flip_wf.
  assert (Hcols : csc_cols (tocsc Y) = csr_cols Y).
  { unfold csc_cols, csr_cols, tocsc. simpl. rewrite length_transpose_lines; [done|]. by apply wf_dims in Hwf as [_ ?]. }
  destruct (C21_confidence_graph_proof (tocsc Y)) as (ug & freq & -> & Hn & He & Hbi & Hw & _ & _);
    [done|by apply flip_binary|].
  cbn [rbind fst]. destruct (C22_noisy_or_proof ug Hbi) as (g & -> & Hn' & Hwt & Hsym & Hb01).
  exists g. split; [done|].
  assert (Hedge : forall u v, is_edge g u v <-> u <> v /\ exists i, csr_has Y i u /\ csr_has Y i v).
  { intros u v. unfold is_edge. split.
    - intros [w Ew]. apply Hwt in Ew as (Hne & p & q & Hp & _). split; [done|].
      destruct (proj1 (He u v)) as [_ (i & H1 & H2)]; [by exists p|]. exists i. rewrite !tocsc_has in * by done. done.
    - intros [Hne (i & H1 & H2)].
      assert (E1 : is_edge ug u v) by (apply He; split; [done|]; exists i; rewrite !tocsc_has by done; done).
      assert (E2 : is_edge ug v u) by (by apply Hbi). destruct E1 as [p Ep], E2 as [q Eq].
      eexists. apply Hwt. split; [done|]. exists p, q. done. }
  assert (Hno : g_nodes g = py_range (csr_cols Y)) by (rewrite Hn', Hn, Hcols; done).
  assert (Hr : forall u v, is_edge g u v -> u ∈ g_nodes g).
  { intros u v H. apply Hedge in H as [_ (i & H1 & _)]. rewrite Hno. apply elem_of_py_range.
    by destruct (stored_range _ _ _ Hwf H1). }
  split_and!; try done.
  - split; [rewrite Hno; apply NoDup_py_range|]. intros u v w E. pose proof (Hsym _ _ _ E) as E'. split_and!; try done.
    + apply (Hr u v). by exists w.
    + apply (Hr v u). by exists w.
  - intros u v w E. pose proof E as E0. apply Hwt in E as (Hne & p & q & Hp & Hq & _).
    assert (Hcard : forall u v x, g_wt ug !! (u, v) = Some x -> (0 < x)%Qc /\ (x <= 1)%Qc).
    { intros a b x Hx. assert (Ha : 0 <= a < csc_cols (tocsc Y) /\ 0 <= b < csc_cols (tocsc Y)).
      { destruct (proj1 (He a b)) as [_ (i & H1 & H2)]; [by exists x|].
        destruct (stored_range _ _ _ Hwf' H1) as [? _], (stored_range _ _ _ Hwf' H2) as [? _]. done. }
      apply (Hw a b x (label_rows (tocsc Y) a ∩ label_rows (tocsc Y) b) (label_rows (tocsc Y) a) Hx).
      - intros i. rewrite elem_of_intersection, !elem_of_label_rows by (done || tauto). done.
      - intros i. apply elem_of_label_rows; [done|tauto]. }
    destruct (Hcard _ _ _ Hp), (Hcard _ _ _ Hq).
    destruct (Hb01 u v w p q E0 Hp Hq) as (? & ? & _); try done. split; [by apply Qclt_le_weak|done].
Qed.


(** ** enumeration *)

Definition wt0 (g : graph) (u v : Z) : Qc := match g_wt g !! (u, v) with Some w => w | None => 0%Qc end.

Lemma elem_of_all_pairs S u v : StronglySorted Z.lt S ->
  ((u, v) ∈ all_pairs S <-> u ∈ S /\ v ∈ S /\ u < v).
Proof.
  induction S as [|x S IH]; intros Hs; simpl.
  - split; [intros H; inversion H|]. intros (H & _). inversion H.
  - apply sorted_cons_inv in Hs as [Hs Hx]. rewrite elem_of_app, IH by done. rewrite elem_of_map, !elem_of_cons. split.
    + intros [(y & E & Hy)|(H1 & H2 & H3)]; [|auto]. simplify_eq. split_and!; auto.
    + intros ([->|H1] & [->|H2] & H3); [lia| | |auto].
      * left. eauto.
      * specialize (Hx u H1). lia.
Qed.

Lemma clique_proba_iff g (nbr : Z -> gset Z) S p : StronglySorted Z.lt S ->
  (forall u v, v ∈ nbr u <-> is_edge g u v) ->
  (clique_proba g S p <-> (forall u v, u ∈ S -> v ∈ S -> u < v -> v ∈ nbr u) /\ p = pprod (wt0 g) S).
Proof.
  intros Hs Hn. unfold clique_proba, pprod, pw. split.
  - intros (ws & HF & ->). split.
    + intros u v Hu Hv Hlt. apply Hn. assert (Huv : (u, v) ∈ all_pairs S) by (by apply elem_of_all_pairs).
      apply elem_of_list_lookup in Huv as [k Hk]. destruct (Forall2_lookup_l _ _ _ _ _ HF Hk) as (w & _ & E). by exists w.
    + f_equal. clear Hs. induction HF as [|[u v] w l l' E HF IH]; [done|]. simpl. unfold wt0 at 1. rewrite E. by f_equal.
  - intros [He ->]. exists (map (fun uv => wt0 g (fst uv) (snd uv)) (all_pairs S)). split; [|done].
    assert (Hall : forall u v, (u, v) ∈ all_pairs S -> is_edge g u v).
    { intros u v Huv. apply elem_of_all_pairs in Huv as (? & ? & ?); [|done]. apply Hn. auto. }
    revert Hall. generalize (all_pairs S). clear. induction l as [|[u v] l IH]; intros Hall; simpl; constructor.
    + destruct (Hall u v ltac:(left)) as [w E]. unfold wt0. by rewrite E.
    + apply IH. intros. apply Hall. by right.
Qed.

Lemma enum_probable g ord alpha nodes nbr (w : Z -> Z -> result Qc) n :
  set_order ord -> undirected g -> weights01 g -> nodes = g_nodes g -> (length nodes <= n)%nat ->
  (forall u v, u ∈ nodes -> v ∈ nbr u <-> is_edge g u v) -> (forall u v, u ∉ nodes -> v ∉ nbr u) ->
  (forall u v x, g_wt g !! (u, v) = Some x -> w u v = Ok x) ->
  exists l, for_append (fun u => dfs_from ord nbr w alpha n [u] 1%Qc (nbr u)) nodes = Ok l /\
    NoDup (map fst l) /\ forall S p, (S, p) ∈ l <-> probable_clique g alpha S p.
Proof.
  intros Ho [Hnd Hu] H01 -> Hn Hnbr Hout Hw.
  assert (Hn' : forall u v, v ∈ nbr u <-> is_edge g u v).
  { intros u v. destruct (decide (u ∈ g_nodes g)); [by apply Hnbr|]. split.
    - intros H. exfalso. by apply (Hout u v).
    - intros [x Hx]. apply Hu in Hx. tauto. }
  destruct (enum_spec ord (g_nodes g) nbr w (wt0 g) alpha) with (n := n) as (l & E & Hndl & Hl); try done.
  - intros u v H. apply Hn' in H as [x Hx]. apply Hn'. exists x. by apply Hu.
  - intros u v H. apply Hn' in H as [x Hx]. by apply Hu in Hx as (_ & ? & _).
  - intros u v H. apply Hn' in H as [x Hx]. unfold wt0. rewrite Hx. eauto.
  - intros u v H. apply Hn' in H as [x Hx]. unfold wt0. rewrite Hx. apply Hu in Hx as (_ & _ & Hx'). by rewrite Hx'.
  - intros u v H. apply Hn' in H as [x Hx]. unfold wt0. rewrite Hx. by apply (H01 u v).
  - exists l. split; [done|]. split; [done|]. intros S p. rewrite Hl. unfold probable_clique, valid. simpl. split.
    + intros (H1 & (H2 & H3 & H4) & -> & H5). split_and!; try done. by apply (clique_proba_iff g nbr).
    + intros (H1 & H2 & H3 & H4 & H5). apply (clique_proba_iff g nbr) in H4 as [H4 ->]; [|done..]. done.
Qed.

Lemma C23_enumeration_exact_proof : forall (ord : gset Z -> list Z) (g : graph) (alpha : Qc) (b : backend),
  set_order ord -> undirected g -> weights01 g ->
  (b = Dfs \/ (b = DfsV2 /\ g_nodes g = py_range (zlen (g_nodes g)))) ->
  exists l, enumerate_probable_cliques ord g alpha b = Ok l /\ NoDup (map fst l) /\
    forall S p, (S, p) ∈ l <-> probable_clique g alpha S p.
Proof.
  intros ord g alpha b Ho Hu H01 Hb. destruct Hb as [->|[-> Hr]]; simpl.
  - apply enum_probable; try done; [lia| | |].
    + intros u v _. apply elem_of_neighbors.
    + intros u v Hn H. apply elem_of_neighbors in H as [x Hx]. apply Hu in Hx. tauto.
    + intros u v x Hx. unfold edge_weight. by rewrite Hx.
  - unfold enum_dfs_v2.
    assert (Hat : forall i, 0 <= i < zlen (g_nodes g) -> node_at g i = Some i).
    { intros i Hi. unfold node_at. rewrite Hr. by apply lookup_py_range. }
    assert (Hout : forall i, ~ 0 <= i < zlen (g_nodes g) -> 0 <= i -> node_at g i = None).
    { intros i Hi Hi'. unfold node_at. apply lookup_ge_None_2. unfold zlen in Hi. lia. }
    assert (Hmem : forall i, i ∈ g_nodes g <-> 0 <= i < zlen (g_nodes g)).
    { intros i. rewrite Hr at 1. apply elem_of_py_range. }
    assert (Hnb : forall u v, 0 <= u < zlen (g_nodes g) -> (v ∈ wrap_nbr g u <-> is_edge g u v)).
    { intros u v Hu0. unfold wrap_nbr. rewrite elem_of_py_set, elem_of_lfilter, elem_of_py_range. split.
      - intros [H Hv]. rewrite !Hat in H by done. unfold has_edge in H. by apply bool_decide_eq_true in H.
      - intros [x Hx]. destruct Hu as [_ Hu]. pose proof (Hu _ _ _ Hx) as (_ & Hv & _). apply Hmem in Hv.
        split; [|done]. rewrite !Hat by done. unfold has_edge. apply bool_decide_eq_true. by exists x. }
    pose (nbr := fun u => if decide (0 <= u < zlen (g_nodes g)) then wrap_nbr g u else ∅).
    assert (Hdfs : forall f S p sh, (forall x, x ∈ sh -> 0 <= x < zlen (g_nodes g)) ->
       dfs_from ord (wrap_nbr g) (wrap_wt g) alpha f S p sh = dfs_from ord nbr (wrap_wt g) alpha f S p sh).
    { induction f as [|f IH]; intros S p sh Hsh; [done|]. simpl.
      assert (Hall : forall x, x ∈ ord sh -> 0 <= x < zlen (g_nodes g)).
      { intros x Hx. apply set_order_elem in Hx; auto. }
      match goal with |- (let! l := for_append ?F _ in _) = (let! l2 := for_append ?G _ in _) =>
        assert (forall us, (forall x, x ∈ us -> 0 <= x < zlen (g_nodes g)) -> for_append F us = for_append G us) as HH end.
      { induction us as [|x us IHu]; intros Hus; [done|]. cbn [for_append].
        rewrite IHu by (intros; apply Hus; by right). f_equal. destruct (_ <? x); [|done].
        destruct (extend_proba _ _ _ _) as [[p'|]|]; [|done|done]. cbn [rbind].
        assert (nbr x = wrap_nbr g x) as -> by (unfold nbr; rewrite decide_True; [done|]; apply Hus; left).
        apply IH. intros y Hy. apply elem_of_intersection in Hy as [Hy _]. auto. }
      rewrite HH by done. done. }
    rewrite <- Hr.
    assert (Htop : forall us, (forall x, x ∈ us -> 0 <= x < zlen (g_nodes g)) ->
      for_append (fun u => dfs_from ord (wrap_nbr g) (wrap_wt g) alpha (S (length (g_nodes g))) [u] 1%Qc (wrap_nbr g u)) us =
      for_append (fun u => dfs_from ord nbr (wrap_wt g) alpha (S (length (g_nodes g))) [u] 1%Qc (nbr u)) us).
    { induction us as [|x us IHu]; intros Hus; [done|]. cbn [for_append].
      rewrite IHu by (intros; apply Hus; by right). f_equal.
      assert (nbr x = wrap_nbr g x) as -> by (unfold nbr; rewrite decide_True; [done|]; apply Hus; left).
      apply Hdfs. intros y Hy. apply Hnb in Hy; [|apply Hus; left]. destruct Hy as [z Hz]. destruct Hu as [_ Hu].
      apply Hu in Hz as (_ & Hy & _). by apply Hmem. }
    rewrite Htop by (intros; by apply Hmem).
    apply enum_probable; try done; [lia| | |].
    + intros u v Hu0. apply Hmem in Hu0. unfold nbr. rewrite decide_True by done. by apply Hnb.
    + intros u v Hu0 Hv. unfold nbr in Hv. rewrite decide_False in Hv; [set_solver|]. by rewrite <- Hmem.
    + intros u v x Hx. unfold wrap_wt. destruct Hu as [_ Hu]. pose proof (Hu _ _ _ Hx) as (H1 & H2 & _).
      rewrite !Hat by (by apply Hmem). by rewrite Hx.
Qed.


Lemma qprod_le_elem l x : Forall (fun x => 0 <= x <= 1)%Qc l -> x ∈ l -> (qprod l <= x)%Qc.
Proof.
  induction 1 as [|y l [Hy0 Hy1] Hl IH]; intros Hx; [inversion Hx|]. simpl.
  pose proof (qprod_01 l Hl) as [Hq0 Hq1].
  apply elem_of_cons in Hx as [->|Hx].
  - replace y with (1 * y)%Qc at 2 by ring. rewrite Qcmult_comm. by apply Qcmult_le_compat_r.
  - apply Qcle_trans with (qprod l); [|auto]. replace (qprod l) with (1 * qprod l)%Qc at 2 by ring.
    by apply Qcmult_le_compat_r.
Qed.

Lemma prune_undirected g a : undirected g -> undirected (prune_edges g a).
Proof.
  intros [H1 H2]. split; [done|]. intros u v w E. simpl in *. rewrite map_filter_lookup_Some in *.
  destruct E as [E Hw]. apply H2 in E as (? & ? & ?). simpl in *. auto.
Qed.

Lemma prune_weights01 g a : weights01 g -> weights01 (prune_edges g a).
Proof.
  intros H u v w E. simpl in E. rewrite map_filter_lookup_Some in E. destruct E as [E _]. by apply (H u v).
Qed.

Lemma prune_probable g alpha S p : weights01 g ->
  (probable_clique (prune_edges g alpha) alpha S p <-> probable_clique g alpha S p).
Proof.
  intros H01. unfold probable_clique. split.
  - intros (H1 & H2 & H3 & (ws & HF & Hp) & H5). split_and!; try done. exists ws. split; [|done].
    eapply Forall2_impl; [exact HF|]. intros uv w E. simpl in E. by rewrite map_filter_lookup_Some in E; destruct E.
  - intros (H1 & H2 & H3 & (ws & HF & Hp) & H5). split_and!; try done. exists ws. split; [|done].
    destruct H5 as [H5|H5].
    + destruct S as [|x [|y S]]; simpl in H5; [done| |lia]. simpl in *. by inversion HF.
    + apply Forall2_same_length_lookup. split; [by eapply Forall2_length|]. intros k uv w E1 E2.
      pose proof (Forall2_lookup_lr _ _ _ _ _ _ HF E1 E2) as E. simpl. rewrite map_filter_lookup_Some. split; [done|]. simpl.
      apply Qcle_trans with p; [done|]. subst p. apply qprod_le_elem; [|by eapply elem_of_list_lookup_2].
      apply list.Forall_forall. intros w' Hw'. apply elem_of_list_lookup in Hw' as [k' Hk'].
      destruct (Forall2_lookup_r _ _ _ _ _ HF Hk') as ([a b] & _ & E'). by apply (H01 a b).
Qed.

Lemma NoDup_map_fst {A B} (l : list (A * B)) : NoDup (map fst l) -> NoDup l.
Proof. intros H. apply (NoDup_fmap_1 fst). exact H. Qed.

Lemma C24_same_cliques_proof : forall (ord1 ord2 : gset Z -> list Z) (g : graph) (alpha : Qc) (prune : bool) (b1 b2 : backend),
  set_order ord1 -> set_order ord2 -> undirected g -> weights01 g ->
  g_nodes g = py_range (zlen (g_nodes g)) -> b1 <> OtherBackend -> b2 <> OtherBackend ->
  exists l1 l2,
    enumerate_probable_cliques ord1 g alpha b1 = Ok l1 /\
    enumerate_probable_cliques ord2 (if prune then prune_edges g alpha else g) alpha b2 = Ok l2 /\
    l1 ≡ₚ l2.
Proof.
  intros ord1 ord2 g alpha prune b1 b2 Ho1 Ho2 Hu H01 Hr Hb1 Hb2.
  assert (Hb : forall b g, b <> OtherBackend -> g_nodes g = py_range (zlen (g_nodes g)) ->
     b = Dfs \/ (b = DfsV2 /\ g_nodes g = py_range (zlen (g_nodes g)))) by (intros []; auto; done).
  destruct (C23_enumeration_exact_proof ord1 g alpha b1) as (l1 & E1 & N1 & M1); [done..|auto|].
  destruct (C23_enumeration_exact_proof ord2 (if prune then prune_edges g alpha else g) alpha b2) as (l2 & E2 & N2 & M2); [done| | | |].
  - destruct prune; [by apply prune_undirected|done].
  - destruct prune; [by apply prune_weights01|done].
  - apply Hb; [done|]. by destruct prune.
  - exists l1, l2. split_and!; try done. apply NoDup_Permutation; [by apply NoDup_map_fst..|].
    intros [S p]. rewrite M1, M2. destruct prune; [|done]. symmetry. by apply prune_probable.
Qed.



(** ** the reduced sample space *)

Lemma space_spec ord g prune alpha b :
  set_order ord -> undirected g -> weights01 g -> g_nodes g = py_range (zlen (g_nodes g)) -> b <> OtherBackend ->
  exists space, build_sample_space ord g prune alpha b = Ok space /\ NoDup space /\
    forall s : gset Z, s ∈ space <-> exists S p, probable_clique g alpha S p /\ s = py_set S.
Proof.
  intros Ho Hu H01 Hr Hb. unfold build_sample_space.
  destruct (C23_enumeration_exact_proof ord (if prune then prune_edges g alpha else g) alpha b) as (l & -> & Hnd & Hl); [done| | | |].
  - destruct prune; [by apply prune_undirected|done].
  - destruct prune; [by apply prune_weights01|done].
  - destruct b; [by left|right; split; [done|]; by destruct prune|done].
  - cbn [rbind]. eexists. split; [reflexivity|].
    assert (Hl' : forall S p, (S, p) ∈ l <-> probable_clique g alpha S p).
    { intros S p. rewrite Hl. destruct prune; [by apply prune_probable|done]. }
    split.
    + rewrite <- (map_map fst py_set).
      assert (Hs : forall S, S ∈ map fst l -> StronglySorted Z.lt S).
      { intros S HS. apply elem_of_map in HS as ([S' p] & -> & HS). apply Hl' in HS as (_ & ? & _). done. }
      revert Hnd Hs. generalize (map fst l). induction l0 as [|S l0 IH]; intros Hnd Hs; simpl; [constructor|].
      inversion Hnd as [|? ? HS Hnd']; subst. constructor.
      * intros H. apply elem_of_map in H as (S' & E & HS'). apply HS.
        assert (S = S') as ->; [|done]. apply sorted_unique; [apply Hs; left|apply Hs; by right|].
        intros x. rewrite <- (elem_of_py_set S), <- (elem_of_py_set S'), E. done.
      * apply IH; [done|]. intros. apply Hs. by right.
    + intros s. rewrite elem_of_map. split.
      * intros ([S p] & -> & HS). apply Hl' in HS. eauto.
      * intros (S & p & HS & ->). exists (S, p). split; [done|]. by apply Hl'.
Qed.

Lemma all_pairs_sublist T S : T `sublist_of` S -> all_pairs T `sublist_of` all_pairs S.
Proof.
  induction 1 as [|x T S H IH|x T S H IH]; simpl; [constructor| |].
  - apply sublist_app; [|done]. clear IH. induction H; simpl; constructor; done.
  - by apply sublist_inserts_l.
Qed.

Lemma qprod_sublist l l' : l `sublist_of` l' -> Forall (fun x => 0 <= x <= 1)%Qc l' -> (qprod l' <= qprod l)%Qc.
Proof.
  induction 1 as [|x l l' H IH|x l l' H IH]; intros HF; simpl; [apply Qcle_refl| |].
  - inversion HF as [|? ? [Hx0 Hx1] HF']; subst. rewrite !(Qcmult_comm x). apply Qcmult_le_compat_r; auto.
  - inversion HF as [|? ? [Hx0 Hx1] HF']; subst. apply Qcle_trans with (qprod l'); [|auto].
    pose proof (qprod_01 l' HF') as [Hq0 Hq1]. replace (qprod l') with (1 * qprod l')%Qc at 2 by ring.
    by apply Qcmult_le_compat_r.
Qed.

Lemma Forall2_sublist {A B} (P : A -> B -> Prop) l l' k : l `sublist_of` l' -> Forall2 P l' k ->
  exists k', k' `sublist_of` k /\ Forall2 P l k'.
Proof.
  intros H. revert k. induction H as [|x l l' H IH|x l l' H IH]; intros k HF.
  - exists []. inversion HF. split; constructor.
  - inversion HF as [|? y ? k0 Hy HF']; subst. destruct (IH _ HF') as (k' & Hs & HF0).
    exists (y :: k'). split; constructor; done.
  - inversion HF as [|? y ? k0 Hy HF']; subst. destruct (IH _ HF') as (k' & Hs & HF0).
    exists k'. split; [by constructor|done].
Qed.

Lemma probable_sub g alpha S p T : weights01 g -> probable_clique g alpha S p -> T `sublist_of` S -> T <> [] ->
  StronglySorted Z.lt T -> exists p', probable_clique g alpha T p'.
Proof.
  intros H01 (H1 & H2 & H3 & (ws & HF & ->) & H5) Hsub HT HsT.
  destruct (Forall2_sublist _ _ _ _ (all_pairs_sublist T S Hsub) HF) as (ws' & Hws & HF').
  exists (qprod ws'). split_and!; try done.
  - intros u Hu. apply H3. by eapply sublist_elem_of.
  - by exists ws'.
  - destruct H5 as [H5|H5].
    + left. apply sublist_length in Hsub. destruct T; [done|]. simpl in *. lia.
    + right. apply Qcle_trans with (qprod ws); [done|]. apply qprod_sublist; [done|].
      apply list.Forall_forall. intros w' Hw'. apply elem_of_list_lookup in Hw' as [k' Hk'].
      destruct (Forall2_lookup_r _ _ _ _ _ HF Hk') as ([a b] & _ & E'). by apply (H01 a b).
Qed.

Lemma C25_sample_space_proof : forall (ord : gset Z -> list Z) (Y : csr) (prune : bool) (alpha : Qc) (b : backend),
  set_order ord -> wf_cmat (csr_mat Y) = true -> binary (csr_mat Y) -> b <> OtherBackend ->
  exists g space, build_graph Y = Ok g /\ build_sample_space ord g prune alpha b = Ok space /\
    NoDup space /\ ∅ ∉ space /\
    (forall u, 0 <= u < csr_cols Y -> {[ u ]} ∈ space) /\
    (forall (s : gset Z) a, s ∈ space -> a ∈ s -> 0 <= a < csr_cols Y) /\
    (forall (s : gset Z) a b, s ∈ space -> a ∈ s -> b ∈ s -> a <> b -> exists i, csr_has Y i a /\ csr_has Y i b) /\
    (forall s t : gset Z, s ∈ space -> t ⊆ s -> t <> ∅ -> t ∈ space).
Proof.
  intros ord Y prune alpha b Ho Hwf Hb Hbe.
  destruct (build_graph_ok Y Hwf Hb) as (g & Eg & Hu & H01 & Hn & He).
  assert (Hr : g_nodes g = py_range (zlen (g_nodes g))).
  { rewrite Hn, zlen_py_range; [done|]. by apply wf_dims in Hwf as [_ ?]. }
  destruct (space_spec ord g prune alpha b Ho Hu H01 Hr Hbe) as (space & Es & Hnd & Hs).
  exists g, space. split; [done|]. split; [done|]. split; [done|]. split_and!.
  - intros H. apply Hs in H as (S & p & (HS & _) & E). destruct S as [|x S]; [done|].
    assert (x ∈ (∅ : gset Z)) as Hx; [|set_solver]. rewrite E. apply elem_of_py_set. left.
  - intros u Hu0. apply Hs. exists [u], 1%Qc. split.
    + split_and!; try done.
      * repeat constructor.
      * intros x Hx. apply elem_of_list_singleton in Hx as ->. rewrite Hn. by apply elem_of_py_range.
      * exists []. split; [constructor|done].
      * by left.
    + apply set_eq. intros x. rewrite elem_of_py_set, elem_of_singleton, elem_of_list_singleton. done.
  - intros s a Hin Ha. apply Hs in Hin as (S & p & (_ & _ & HS & _) & ->). apply elem_of_py_set in Ha.
    apply HS in Ha. rewrite Hn in Ha. by apply elem_of_py_range in Ha.
  - intros s x y Hin Hx Hy Hne. apply Hs in Hin as (S & p & (_ & Hsort & _ & (ws & HF & _) & _) & ->).
    apply elem_of_py_set in Hx. apply elem_of_py_set in Hy.
    assert (Hlt : forall x y, x ∈ S -> y ∈ S -> x < y -> is_edge g x y).
    { intros x' y' Hx' Hy' Hxy. assert (Hp : (x', y') ∈ all_pairs S) by (by apply elem_of_all_pairs).
      apply elem_of_list_lookup in Hp as [k Hk]. destruct (Forall2_lookup_l _ _ _ _ _ HF Hk) as (w & _ & E). by exists w. }
    assert (x < y \/ y < x) as [Hxy|Hxy] by lia.
    + apply (proj1 (He x y)). by apply Hlt.
    + destruct (proj1 (He y x)) as [_ (i & ? & ?)]; [by apply Hlt|]. eauto.
  - intros s t Hin Hsub Hne. apply Hs in Hin as (S & p & HS & ->).
    assert (HT : StronglySorted Z.lt (py_sorted (elements t))) by (apply py_sorted_lt, NoDup_elements).
    assert (Hmem : forall x, x ∈ py_sorted (elements t) <-> x ∈ t).
    { intros x. by rewrite py_sorted_perm, elem_of_elements. }
    destruct (probable_sub g alpha S p (py_sorted (elements t)) H01 HS) as (p' & HT').
    + apply sorted_sublist_subset; [done|by destruct HS as (_ & ? & _)|]. intros x Hx. apply Hmem in Hx.
      apply Hsub in Hx. by apply elem_of_py_set in Hx.
    + intros E. apply Hne. apply set_eq. intros x. rewrite <- Hmem, E. set_solver.
    + done.
    + apply Hs. exists (py_sorted (elements t)), p'. split; [done|]. apply set_eq. intros x.
      by rewrite elem_of_py_set, Hmem.
Qed.


Lemma C25_shrinks_proof : forall (ord ord' : gset Z -> list Z) (Y : csr) (prune prune' : bool) (alpha alpha' : Qc) (b b' : backend),
  set_order ord -> set_order ord' -> wf_cmat (csr_mat Y) = true -> binary (csr_mat Y) ->
  b <> OtherBackend -> b' <> OtherBackend -> (alpha <= alpha')%Qc ->
  exists g space space', build_graph Y = Ok g /\
    build_sample_space ord g prune alpha b = Ok space /\
    build_sample_space ord' g prune' alpha' b' = Ok space' /\
    forall s, s ∈ space' -> s ∈ space.
Proof.
  intros ord ord' Y prune prune' alpha alpha' b b' Ho Ho' Hwf Hb Hbe Hbe' Hle.
  destruct (build_graph_ok Y Hwf Hb) as (g & Eg & Hu & H01 & Hn & He).
  assert (Hr : g_nodes g = py_range (zlen (g_nodes g))).
  { rewrite Hn, zlen_py_range; [done|]. by apply wf_dims in Hwf as [_ ?]. }
  destruct (space_spec ord g prune alpha b Ho Hu H01 Hr Hbe) as (space & Es & _ & Hs).
  destruct (space_spec ord' g prune' alpha' b' Ho' Hu H01 Hr Hbe') as (space' & Es' & _ & Hs').
  exists g, space, space'. split_and!; try done. intros s Hin. apply Hs' in Hin as (S & p & (? & ? & ? & ? & Hp) & ->).
  apply Hs. exists S, p. split; [|done]. split_and!; try done. destruct Hp as [?|Hp]; [by left|right].
  by apply Qcle_trans with alpha'.
Qed.



(** ** sample_clique *)

Definition closed (g : graph) : Prop := forall u v, is_edge g u v -> v ∈ g_nodes g.

Lemma clique_round_ok ord g S u d : set_order ord -> (forall n, (0 < n)%nat -> (d_pick d n < n)%nat) ->
  exists r, clique_round ord g S u d = Ok r /\
    forall v, r = Some v -> is_edge g u v /\ forall s, s ∈ S -> is_edge g s v.
Proof.
  intros Ho Hp. unfold clique_round. set (nbrs := ord (neighbors g u)).
  destruct (Z.eqb_spec (zlen nbrs) 0); [by exists None|].
  assert (Hn : forall v, v ∈ nbrs -> is_edge g u v).
  { intros v Hv. apply set_order_elem in Hv; [|done]. by apply elem_of_neighbors. }
  assert (exists ps, rmap (edge_weight g u) nbrs = Ok ps) as [ps ->].
  { clear n. induction nbrs as [|v vs IH]; simpl; [eauto|]. unfold edge_weight at 1.
    destruct (Hn v ltac:(left)) as [w ->]. simpl. destruct IH as [ps ->]; [intros; apply Hn; by right|]. simpl. eauto. }
  cbn [rbind]. set (cands := map fst _). destruct (Z.eqb_spec (zlen cands) 0) as [|Hne]; [by exists None|].
  destruct (cands !! d_pick d (length cands)) as [v|] eqn:Ev.
  2:{ exfalso. apply lookup_ge_None_1 in Ev. unfold zlen in Hne. specialize (Hp (length cands)). lia. }
  assert (Hv : is_edge g u v).
  { apply elem_of_list_lookup_2 in Ev. unfold cands in Ev. apply elem_of_map in Ev as ([x y] & -> & Hin).
    apply elem_of_lfilter in Hin as [_ Hin]. apply elem_of_zip_l in Hin. auto. }
  destruct (forms_clique g S v) eqn:Ef; [|by exists None].
  exists (Some v). split; [done|]. intros v' E. simplify_eq. split; [done|]. intros s Hs.
  unfold forms_clique in Ef. rewrite forallb_forall in Ef. specialize (Ef s (proj1 (elem_of_list_In _ _) Hs)).
  unfold has_edge in Ef. by apply bool_decide_eq_true in Ef.
Qed.

Lemma clique_loop_ok ord g rnd : set_order ord -> closed g -> (forall u, ~ is_edge g u u) -> NoDup (g_nodes g) ->
  (forall k n, (0 < n)%nat -> (d_pick (rnd k) n < n)%nat) ->
  forall fuel k S u, (length (g_nodes g) < fuel + length S)%nat -> NoDup S -> (forall x, x ∈ S -> x ∈ g_nodes g) ->
    (forall a b, a ∈ S -> b ∈ S -> a <> b -> is_edge g a b \/ is_edge g b a) ->
  exists C, clique_loop ord g rnd fuel k S u = Ok C /\ NoDup C /\ (forall x, x ∈ S -> x ∈ C) /\
    (forall x, x ∈ C -> x ∈ g_nodes g) /\
    (forall a b, a ∈ C -> b ∈ C -> a <> b -> is_edge g a b \/ is_edge g b a).
Proof.
  intros Ho Hc Hl Hnd Hp. induction fuel as [|f IH]; intros k S u Hf HS Hin He.
  - exfalso. assert (length S <= length (g_nodes g))%nat; [|lia].
    apply NoDup_incl_length; [by apply NoDup_ListNoDup|]. intros x Hx. apply elem_of_list_In. apply Hin.
    by apply elem_of_list_In.
  - simpl. destruct (clique_round_ok ord g S u (rnd k) Ho (Hp k)) as (r & -> & Hr). cbn [rbind].
    destruct r as [v|]; [|exists S; done]. destruct (Hr v eq_refl) as [Huv Hsv].
    rewrite bool_decide_eq_false_2.
    2:{ intros Hv. exact (Hl v (Hsv v Hv)). }
    destruct (IH (Datatypes.S k) (S ++ [v]) v) as (C & E & HC1 & HC2 & HC3 & HC4).
    + rewrite app_length. simpl. lia.
    + apply NoDup_app. split; [done|]. split; [|apply NoDup_singleton]. intros x Hx Hx'.
      apply elem_of_list_singleton in Hx' as ->. exact (Hl v (Hsv v Hx)).
    + intros x Hx. apply elem_of_app in Hx as [?|Hx]; [auto|]. apply elem_of_list_singleton in Hx as ->. by apply (Hc u).
    + intros a b Ha Hb Hab. apply elem_of_app in Ha as [Ha|Ha]; apply elem_of_app in Hb as [Hb|Hb];
        try (apply elem_of_list_singleton in Ha as ->); try (apply elem_of_list_singleton in Hb as ->); auto. done.
    + exists C. split; [done|]. split; [done|]. split; [|done]. intros x Hx. apply HC2. apply elem_of_app. auto.
Qed.

Lemma C26_sample_clique_proof : forall (ord : gset Z -> list Z) (g : graph) (rnd : nat -> draws) (fuel : nat) (u : Z),
  set_order ord -> NoDup (g_nodes g) -> (forall a b, is_edge g a b -> b ∈ g_nodes g) -> (forall a, ~ is_edge g a a) ->
  (forall k n, (0 < n)%nat -> (d_pick (rnd k) n < n)%nat) ->
  u ∈ g_nodes g -> (length (g_nodes g) <= fuel)%nat ->
  exists C, sample_clique ord g rnd fuel u = Ok C /\ StronglySorted Z.lt C /\ u ∈ C /\
    (forall a, a ∈ C -> a ∈ g_nodes g) /\
    (forall a b, a ∈ C -> b ∈ C -> a <> b -> is_edge g a b \/ is_edge g b a) /\
    ((forall a b, is_edge g a b -> is_edge g b a) -> forall a b, a ∈ C -> b ∈ C -> a <> b -> is_edge g a b).
Proof.
  intros ord g rnd fuel u Ho Hnd Hc Hl Hp Hu Hf. unfold sample_clique. rewrite bool_decide_eq_true_2 by done.
  destruct (clique_loop_ok ord g rnd Ho Hc Hl Hnd Hp fuel 0 [u] u) as (C & -> & HC1 & HC2 & HC3 & HC4).
  - simpl. lia.
  - apply NoDup_singleton.
  - intros x Hx. by apply elem_of_list_singleton in Hx as ->.
  - intros a b Ha Hb. apply elem_of_list_singleton in Ha as ->. by apply elem_of_list_singleton in Hb as ->.
  - cbn [rbind]. exists (py_sorted C). split; [done|]. split; [by apply py_sorted_lt|].
    assert (Hm : forall x, x ∈ py_sorted C <-> x ∈ C) by (intros; by rewrite py_sorted_perm).
    setoid_rewrite Hm. split_and!; try done.
    + apply HC2. by left.
    + intros Hbi a b Ha Hb Hab. destruct (HC4 a b Ha Hb Hab); auto.
Qed.


Lemma C26_selfloop_diverges_proof : forall (rnd : nat -> draws) (fuel : nat),
  (forall k, d_pick (rnd k) 1 = 0%nat) -> (forall k, d_rand (rnd k) 0 < 1)%Qc ->
  sample_clique elements (Graph [0] {[ (0, 0) := 1%Qc ]}) rnd fuel 0 = Err OutOfFuel.
Proof.
  intros rnd fuel Hp Hr. unfold sample_clique. rewrite bool_decide_eq_true_2 by left.
  enough (forall k, clique_loop elements (Graph [0] {[ (0, 0) := 1%Qc ]}) rnd fuel k [0] 0 = Err OutOfFuel) as H by (by rewrite H).
  induction fuel as [|f IH]; intros k; [done|]. simpl.
  assert (clique_round elements (Graph [0] {[ (0, 0) := 1%Qc ]}) [0] 0 (rnd k) = Ok (Some 0)) as ->.
  { unfold clique_round. assert (neighbors (Graph [0] {[ (0, 0) := 1%Qc ]}) 0 = {[0]}) as -> by by_compute.
    rewrite elements_singleton. simpl. unfold edge_weight. simpl. rewrite lookup_singleton. simpl.
    rewrite bool_decide_eq_true_2 by apply Hr. simpl. rewrite Hp. simpl.
    unfold has_edge. simpl. rewrite bool_decide_eq_true_2; [done|]. exists 1%Qc. by rewrite lookup_singleton. }
  simpl. apply IH.
Qed.
