(** Lemmas on the label graphs. *)
From Verif.Model Require Import PyBase Sparse Utils Graph.
From Verif.Spec Require Import SMatrix SGraph.
From Verif.Proofs Require Import PBase PSparse PUtils PTrie PAssign.
Open Scope Z_scope.

(** ** transposition keeps 0/1 matrices *)

Lemma filter_fst_length (l : list (Z * Z)) j : NoDup (map fst l) ->
  (length (filter (fun e => fst e = j) l) <= 1)%nat.
Proof.
  induction l as [|[a v] l IH]; simpl; intros H; [lia|]. inversion H as [|? ? Ha Hl]; subst.
  rewrite filter_cons. case_decide as E; [|auto]. simpl in E. subst a. simpl.
  assert (filter (fun e : Z * Z => fst e = j) l = []) as ->; [|simpl; lia].
  destruct (filter (fun e : Z * Z => fst e = j) l) as [|e l'] eqn:Ef; [done|]. exfalso.
  assert (He : e ∈ filter (fun e : Z * Z => fst e = j) l) by (rewrite Ef; left).
  apply elem_of_list_filter in He as [E He]. apply Ha. apply elem_of_map. eauto.
Qed.

Lemma NoDup_keyed_concat (F : Z -> list (Z * Z)) (ks : list Z) :
  NoDup ks -> (forall k, k ∈ ks -> (length (F k) <= 1)%nat) -> (forall k e, e ∈ F k -> fst e = k) ->
  NoDup (map fst (concat (map F ks))).
Proof.
  intros Hnd Hlen Hkey. induction Hnd as [|k ks Hk Hnd IH]; simpl; [constructor|].
  rewrite map_app. apply NoDup_app. split; [|split].
  - specialize (Hlen k ltac:(left)). destruct (F k) as [|e [|e' l]]; simpl in *; [constructor| |lia].
    apply NoDup_singleton.
  - intros x Hx Hx'. apply elem_of_map in Hx as (e & -> & He). apply Hkey in He.
    apply elem_of_map in Hx' as (e' & E & He'). apply elem_of_concat in He' as (l & Hl & He').
    apply elem_of_map in Hl as (k' & -> & Hk'). apply Hkey in He'. congruence.
  - apply IH. intros k' Hk'. apply Hlen. by right.
Qed.

Lemma flip_binary m : wf_cmat m = true -> binary m -> binary (flip_cmat m).
Proof.
  intros Hwf Hb. apply binary_b_ok; [by apply flip_wf|]. unfold binary_b. apply andb_true_iff. split.
  - apply forallb_forall. intros v Hv. apply elem_of_list_In in Hv. apply Z.eqb_eq.
    unfold flip_cmat, of_lines in Hv. simpl in Hv. apply elem_of_map in Hv as ([i v'] & -> & Hv). simpl.
    apply elem_of_concat in Hv as (l & Hl & Hv). unfold transpose_lines in Hl.
    apply elem_of_map in Hl as (j & -> & Hj). apply elem_of_transpose_line in Hv as [Hi Hv].
    by eapply binary_line_value.
  - apply forallb_forall. intros j Hj. apply elem_of_list_In in Hj. apply bool_decide_eq_true.
    unfold flip_cmat in Hj. simpl in Hj. rewrite length_transpose_lines in Hj.
    2:{ apply wf_cmat_facts in Hwf. destruct Hwf. lia. }
    apply elem_of_py_range in Hj. unfold flip_cmat.
    rewrite (line_of_lines _ _ j _ (proj1 Hj) (lookup_transpose_lines m j Hj)).
    apply NoDup_keyed_concat.
    + apply NoDup_py_range.
    + intros i Hi. apply elem_of_py_range in Hi. rewrite map_length. apply filter_fst_length.
      by apply binary_line_NoDup.
    + intros i e He. apply elem_of_map in He as (e' & -> & _). done.
Qed.

(** ** confidence graph *)

Lemma elem_of_label_rows (Y : csc) l i : wf_cmat (csc_mat Y) = true -> 0 <= l < csc_cols Y ->
  (i ∈ label_rows Y l <-> csc_has Y i l).
Proof. intros Hwf Hl. unfold label_rows. rewrite elem_of_py_set. by apply elem_of_line_fst. Qed.

Lemma zsum_nonneg_zero (f : Z -> Z) l : (forall i, i ∈ l -> 0 <= f i) ->
  (zsum (map f l) <> 0 <-> exists i, i ∈ l /\ f i <> 0) /\ 0 <= zsum (map f l).
Proof.
  induction l as [|x l IH]; intros H; simpl.
  - split; [|lia]. split; [done|]. intros (i & Hi & _). inversion Hi.
  - destruct IH as [IH1 IH2]; [intros; apply H; by right|]. pose proof (H x ltac:(left)). split; [|lia]. split.
    + intros Hne. destruct (decide (f x = 0)) as [E|E]; [|exists x; split; [left|done]].
      destruct IH1 as [IH1 _]. destruct IH1 as (i & Hi & Hf); [lia|]. exists i. split; [by right|done].
    + intros (i & Hi & Hf). apply elem_of_cons in Hi as [->|Hi]; [lia|].
      assert (zsum (map f l) <> 0) by (apply IH1; eauto). lia.
Qed.

Lemma cooccurrence_nonzero (Y : csc) u v : wf_cmat (csc_mat Y) = true -> binary (csc_mat Y) ->
  0 <= u < csc_cols Y -> 0 <= v < csc_cols Y ->
  (cooccurrence Y u v <> 0 <-> exists i, csc_has Y i u /\ csc_has Y i v).
Proof.
  intros Hwf Hb Hu Hv. unfold cooccurrence.
  assert (Hval : forall l i, 0 <= l < csc_cols Y ->
    (csc_has Y i l /\ line_value (csc_mat Y) l i = 1) \/ (~ csc_has Y i l /\ line_value (csc_mat Y) l i = 0)).
  { intros l i Hl. destruct (line_value_binary (csc_mat Y) l i Hwf Hb Hl) as [H1 H0].
    destruct (stored_dec (csc_mat Y) l i Hwf Hl) as [Hs|Hs]; [left|right]; auto. }
  destruct (zsum_nonneg_zero (fun i => line_value (csc_mat Y) u i * line_value (csc_mat Y) v i) (py_range (csc_rows Y))) as [H _].
  { intros i _. destruct (Hval u i Hu) as [[_ ->]|[_ ->]], (Hval v i Hv) as [[_ ->]|[_ ->]]; lia. }
  rewrite H. split.
  - intros (i & _ & Hne). exists i.
    destruct (Hval u i Hu) as [[? E]|[? E]], (Hval v i Hv) as [[? E']|[? E']]; rewrite E, E' in Hne; done.
  - intros (i & H1 & H2). exists i. split.
    + apply elem_of_py_range. destruct (stored_range _ _ _ Hwf H1). done.
    + destruct (Hval u i Hu) as [[? E]|[? E]], (Hval v i Hv) as [[? E']|[? E']]; try done. rewrite E, E'. done.
Qed.

Lemma elem_of_cooccurring (Y : csc) u v : wf_cmat (csc_mat Y) = true -> binary (csc_mat Y) ->
  ((u, v) ∈ cooccurring Y <-> exists i, csc_has Y i u /\ csc_has Y i v).
Proof.
  intros Hwf Hb. unfold cooccurring. rewrite elem_of_lfilter. simpl.
  rewrite elem_of_concat. setoid_rewrite elem_of_map. split.
  - intros [Hne (l & (u' & -> & Hu') & Hin)]. apply elem_of_map in Hin as (v' & E & Hv'). injection E as <- <-.
    apply elem_of_py_range in Hu'. apply elem_of_py_range in Hv'.
    apply cooccurrence_nonzero; try done. destruct (Z.eqb_spec (cooccurrence Y u v) 0); done.
  - intros (i & H1 & H2). pose proof (stored_range _ _ _ Hwf H1) as [Hu _]. pose proof (stored_range _ _ _ Hwf H2) as [Hv _].
    split.
    + destruct (Z.eqb_spec (cooccurrence Y u v) 0) as [E|]; [|done]. exfalso.
      revert E. apply cooccurrence_nonzero; try done. eauto.
    + exists (map (pair u) (py_range (csc_cols Y))). split.
      * exists u. split; [done|]. by apply elem_of_py_range.
      * apply elem_of_map. exists v. split; [done|]. by apply elem_of_py_range.
Qed.

Lemma rfold_insert_map {K} `{Countable K} {V} (f : K -> result V) l m0 :
  (forall k, k ∈ l -> exists v, f k = Ok v) ->
  exists m : gmap K V, rfold (fun (m : gmap K V) k => let! p := f k in Ok (<[k := p]> m)) m0 l = Ok m /\
    forall k v, m !! k = Some v <-> (k ∈ l /\ f k = Ok v) \/ (k ∉ l /\ m0 !! k = Some v).
Proof.
  revert m0. induction l as [|k l IH]; intros m0 Hf; simpl.
  - exists m0. split; [done|]. intros k v. split; [intros; right; split; [intros Hx; inversion Hx|done]|].
    intros [[Hx _]|[_ ?]]; [inversion Hx|done].
  - destruct (Hf k) as [v Ev]; [left|]. rewrite Ev. simpl.
    destruct (IH (<[k := v]> m0)) as (m & -> & Hm); [intros; apply Hf; by right|].
    exists m. split; [done|]. intros k' v'. rewrite Hm, elem_of_cons.
    destruct (decide (k' ∈ l)) as [Hin|Hin].
    + split; [intros [?|[? _]]; [left; tauto|done]|]. intros [[_ ?]|[Hn _]]; [auto|]. tauto.
    + destruct (decide (k' = k)) as [->|Hne].
      * rewrite lookup_insert. split; [intros [[? _]|[_ ?]]; [done|]; simplify_eq; auto|].
        intros [[_ ?]|[Hn _]]; [right; split; [done|congruence]|tauto].
      * rewrite lookup_insert_ne by done. tauto.
Qed.

Lemma confidence_ok (Y : csc) u v : wf_cmat (csc_mat Y) = true ->
  (exists i, csc_has Y i u /\ csc_has Y i v) ->
  exists w, confidence Y u v = Ok w /\ ((0 < w)%Qc /\ (w <= 1)%Qc) /\
    forall A B : gset Z, (forall i, i ∈ A <-> csc_has Y i u /\ csc_has Y i v) -> (forall i, i ∈ B <-> csc_has Y i u) ->
      w = (Qc_of_Z (Z.of_nat (size A)) / Qc_of_Z (Z.of_nat (size B)))%Qc.
Proof.
  intros Hwf (i & H1 & H2).
  pose proof (stored_range _ _ _ Hwf H1) as [Hu _]. pose proof (stored_range _ _ _ Hwf H2) as [Hv _].
  unfold confidence.
  assert (Hpos : forall A B : gset Z, A ⊆ B -> i ∈ A ->
     (0 < Z.of_nat (size A) <= Z.of_nat (size B))).
  { intros A B Hsub Hi. pose proof (subseteq_size A B Hsub).
    assert (size A <> 0)%nat by (apply size_non_empty_iff; set_solver). lia. }
  destruct (Hpos (label_rows Y u ∩ label_rows Y v) (label_rows Y u)) as [Hn Hd].
  { set_solver. }
  { apply elem_of_intersection. split; by apply elem_of_label_rows. }
  set (n := Z.of_nat (size (label_rows Y u ∩ label_rows Y v))) in *.
  set (d := Z.of_nat (size (label_rows Y u))) in *.
  destruct (Z.eqb_spec d 0); [lia|]. eexists. split; [reflexivity|].
  assert (Hdq : (0 < Qc_of_Z d)%Qc) by (rewrite <- Z2Qc_inj_0, <- Z2Qc_inj_lt; lia).
  assert (Hnq : (0 < Qc_of_Z n)%Qc) by (rewrite <- Z2Qc_inj_0, <- Z2Qc_inj_lt; lia).
  assert (Hdne : Qc_of_Z d <> 0%Qc) by (intros E; rewrite E in Hdq; by apply Qclt_not_eq in Hdq).
  assert (E : (Qc_of_Z n / Qc_of_Z d * Qc_of_Z d)%Qc = Qc_of_Z n) by (field; done).
  split.
  - split.
    + apply (Qcmult_lt_mono_pos_r _ _ (Qc_of_Z d) Hdq). rewrite E. by replace (0 * Qc_of_Z d)%Qc with 0%Qc by ring.
    + apply (Qcmult_le_mono_pos_r _ _ (Qc_of_Z d) Hdq). rewrite E, Qcmult_1_l. apply (proj1 (Z2Qc_inj_le n d)). exact Hd.
  - intros A B HA HB. f_equal.
    + unfold n. do 3 f_equal. apply set_eq. intros x. rewrite elem_of_intersection, !elem_of_label_rows by done. by rewrite HA.
    + unfold d. do 4 f_equal. apply set_eq. intros x. rewrite elem_of_label_rows by done. by rewrite HB.
Qed.

(** ** connectivity graph *)

Definition conn_step (g : graph) (m : gmap (Z * Z) Qc) (uv : Z * Z) : result (gmap (Z * Z) Qc) :=
  let '(u, v) := uv in
  if u <? v then
    let! p := edge_weight g u v in
    let! q := edge_weight g v u in
    Ok (<[(u, v) := noisy_or p q]> (<[(v, u) := noisy_or p q]> m))
  else Ok m.

Lemma noisy_or_comm p q : noisy_or p q = noisy_or q p.
Proof. unfold noisy_or. ring. Qed.

Lemma conn_fold g l : (forall u v, (u, v) ∈ l -> is_edge g u v /\ is_edge g v u) ->
  exists m, rfold (conn_step g) ∅ l = Ok m /\
    forall u v w, m !! (u, v) = Some w <->
      ((u < v /\ (u, v) ∈ l) \/ (v < u /\ (v, u) ∈ l)) /\
      exists p q, g_wt g !! (u, v) = Some p /\ g_wt g !! (v, u) = Some q /\ w = noisy_or p q.
Proof.
  induction l as [|[a b] l IH] using rev_ind; intros H.
  - exists ∅. split; [done|]. intros u v w. rewrite lookup_empty. split; [done|].
    intros [[[_ Hx]|[_ Hx]] _]; inversion Hx.
  - destruct IH as (m & E & Hm); [intros; apply H, elem_of_app; auto|].
    rewrite rfold_snoc, E. cbn [rbind]. unfold conn_step at 1.
    destruct (H a b) as [[p Ep] [q Eq]]; [apply elem_of_app; right; by apply elem_of_list_singleton|].
    destruct (Z.ltb_spec a b) as [Hlt|Hge].
    + unfold edge_weight. rewrite Ep, Eq. cbn [rbind]. eexists. split; [reflexivity|]. intros u v w.
      rewrite !elem_of_app, !elem_of_list_singleton.
      destruct (decide ((u, v) = (a, b))) as [E1|N1].
      * simplify_eq. rewrite lookup_insert. split.
        -- intros E0. assert (w = noisy_or p q) as -> by congruence. split; [auto|]. eauto 10.
        -- intros [_ (p' & q' & ? & ? & ->)]. congruence.
      * rewrite lookup_insert_ne by congruence. destruct (decide ((u, v) = (b, a))) as [E2|N2].
        -- simplify_eq. rewrite lookup_insert. split.
           ++ intros E0. assert (w = noisy_or p q) as -> by congruence. split; [auto|]. exists q, p. rewrite (noisy_or_comm q p). auto.
           ++ intros [_ (p' & q' & ? & ? & ->)]. rewrite (noisy_or_comm p' q'). congruence.
        -- rewrite lookup_insert_ne by congruence. rewrite Hm. apply and_iff_compat_r. split.
           ++ intros [[? ?]|[? ?]]; auto.
           ++ intros [[? [?|?]]|[? [?|?]]]; auto; simplify_eq.
    + exists m. split; [done|]. intros u v w. rewrite Hm. apply and_iff_compat_r.
      rewrite !elem_of_app, !elem_of_list_singleton. split.
      * intros [[? ?]|[? ?]]; auto.
      * intros [[? [?|?]]|[? [?|?]]]; auto; simplify_eq; lia.
Qed.

Lemma conn_fold_err g l u v : (forall a b, (a, b) ∈ l -> is_edge g a b) ->
  (u, v) ∈ l -> u < v -> ~ is_edge g v u -> forall m, rfold (conn_step g) m l = Err KeyError.
Proof.
  induction l as [|[a b] l IH]; intros H Hin Hlt Hn m; [inversion Hin|]. simpl.
  destruct (decide ((u, v) = (a, b))) as [E|N].
  - simplify_eq. destruct (Z.ltb_spec a b); [|lia]. unfold edge_weight.
    destruct (H a b ltac:(left)) as [p ->]. simpl. unfold is_edge in Hn.
    destruct (g_wt g !! (b, a)); [|done]. exfalso. eauto.
  - apply elem_of_cons in Hin as [?|Hin]; [done|].
    assert (Hl : forall a b, (a, b) ∈ l -> is_edge g a b) by (intros; apply H; by right).
    destruct (Z.ltb_spec a b); [|by apply IH]. unfold edge_weight.
    destruct (H a b ltac:(left)) as [p ->]. simpl. destruct (g_wt g !! (b, a)); [|done]. simpl. by apply IH.
Qed.
