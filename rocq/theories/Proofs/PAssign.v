(** Lemmas on the sample-assignment strategies. *)
From Verif.Model Require Import PyBase Sparse Utils Trie Assign.
From Verif.Spec Require Import SMatrix STrie SAssign.
From Verif.Proofs Require Import PBase PSparse PUtils PTrie.
Open Scope Z_scope.

Lemma lookup_enumerate {A} (l : list A) k : enumerate l !! k = (pair (Z.of_nat k)) <$> l !! k.
Proof.
  unfold enumerate. destruct (l !! k) as [x|] eqn:E; simpl.
  - apply lookup_lt_Some in E as Hlt. apply lookup_zip_with_Some. exists (Z.of_nat k), x.
    split_and!; try done. rewrite <- (Nat2Z.id k) at 1. apply lookup_py_range. unfold zlen. lia.
  - apply lookup_ge_None_2. rewrite zip_with_length. apply lookup_ge_None_1 in E. lia.
Qed.

Lemma elem_of_enumerate {A} (l : list A) k x : (k, x) ∈ enumerate l <-> 0 <= k /\ l !! Z.to_nat k = Some x.
Proof.
  rewrite elem_of_list_lookup. setoid_rewrite lookup_enumerate. split.
  - intros (i & E). apply fmap_Some in E as (y & E & Eq). simplify_eq. rewrite Nat2Z.id. auto with lia.
  - intros [Hk E]. exists (Z.to_nat k). rewrite E. simpl. rewrite Z2Nat.id by lia. done.
Qed.

Lemma length_enumerate {A} (l : list A) : length (enumerate l) = length l.
Proof. unfold enumerate. rewrite zip_with_length, length_py_range. unfold zlen. lia. Qed.

Lemma enumerate_snoc {A} (l : list A) x : enumerate (l ++ [x]) = enumerate l ++ [(zlen l, x)].
Proof.
  apply list_eq. intros i. rewrite lookup_enumerate.
  destruct (decide (i < length l)%nat) as [Hi|Hi].
  - rewrite !lookup_app_l by (rewrite ?length_enumerate; done). by rewrite lookup_enumerate.
  - rewrite !lookup_app_r by (rewrite ?length_enumerate; lia). rewrite length_enumerate.
    destruct (decide (i = length l)) as [->|Hne].
    + rewrite Nat.sub_diag. done.
    + rewrite !lookup_ge_None_2; [done|simpl; lia..].
Qed.

Lemma map_fst_enumerate {A} (l : list A) : map fst (enumerate l) = py_range (zlen l).
Proof.
  unfold enumerate. apply fst_zip. rewrite length_py_range. unfold zlen. lia.
Qed.

Lemma rfold_snoc {A S} (f : S -> A -> result S) s l x :
  rfold f s (l ++ [x]) = (let! s' := rfold f s l in f s' x).
Proof.
  revert s. induction l as [|y l IH]; intros s; simpl.
  - by destruct (f s x).
  - destruct (f s y); simpl; [apply IH|done].
Qed.

Lemma py_range_sorted n : StronglySorted Z.lt (py_range n).
Proof.
  unfold py_range. destruct (decide (0 <= n)) as [H|H].
  - rewrite <- (Z2Nat.id n) by done. generalize (Z.to_nat n). clear. induction n as [|n IH]; [constructor|].
    rewrite seqZ_S. apply StronglySorted_app_intro; [done|repeat constructor|].
    intros a b Ha Hb. apply elem_of_seqZ in Ha. apply elem_of_list_singleton in Hb. lia.
  - rewrite seqZ_nil by lia. constructor.
Qed.

Lemma sorted_lfilter (f : Z -> bool) l : StronglySorted Z.lt l -> StronglySorted Z.lt (List.filter f l).
Proof.
  induction 1 as [|x l Hl IH Hx]; simpl; [constructor|]. destruct (f x); [|done]. constructor; [done|].
  apply Forall_forall. intros y Hy. apply elem_of_lfilter in Hy as [_ Hy].
  rewrite Forall_forall in Hx. auto.
Qed.

Lemma map_fst_filter_sorted {A} (f : Z * A -> bool) l :
  StronglySorted Z.lt (map fst l) -> StronglySorted Z.lt (map fst (List.filter f l)).
Proof.
  induction l as [|x l IH]; simpl; intros H; [constructor|].
  apply sorted_cons_inv in H as [Hl Hx]. destruct (f x); simpl; [|auto]. constructor; [auto|].
  apply Forall_forall. intros y Hy. apply elem_of_map in Hy as (p & -> & Hp). apply elem_of_lfilter in Hp as [_ Hp].
  apply Hx. apply elem_of_map. eauto.
Qed.

(** ** ordering *)

Lemma elem_of_first_occs seen l x : x ∈ first_occs seen l <-> x ∈ l /\ x ∉ seen.
Proof.
  revert seen. induction l as [|y l IH]; intros seen; simpl.
  - split; [intros H; inversion H|]. intros [H _]. inversion H.
  - destruct (existsb (Z.eqb y) seen) eqn:E.
    + rewrite IH, elem_of_cons. apply existsb_exists in E as (z & Hz & Ez). apply elem_of_list_In in Hz.
      apply Z.eqb_eq in Ez as ->. split; [tauto|]. intros [[->|?] ?]; [done|auto].
    + assert (Hy : y ∉ seen).
      { intros Hy. apply elem_of_list_In in Hy.
        assert (existsb (Z.eqb y) seen = true) by (apply existsb_exists; exists y; split; [done|lia]). congruence. }
      rewrite elem_of_cons, IH, !elem_of_cons. destruct (decide (x = y)) as [->|]; [tauto|]. tauto.
Qed.

Lemma elem_of_insert_common items x l y : y ∈ insert_common items x l <-> y = x \/ y ∈ l.
Proof.
  induction l as [|z l IH]; simpl; [by rewrite elem_of_list_singleton, elem_of_nil; tauto|].
  destruct (_ <? _); rewrite !elem_of_cons; [done|]. rewrite IH. tauto.
Qed.

Lemma elem_of_most_common items x : x ∈ most_common items <-> x ∈ items.
Proof.
  unfold most_common.
  assert (H : forall l acc, x ∈ fold_left (fun l x => insert_common items x l) l acc <-> x ∈ l \/ x ∈ acc).
  { induction l as [|y l IH]; intros acc; simpl; [rewrite elem_of_nil; tauto|].
    rewrite IH, elem_of_insert_common, elem_of_cons. tauto. }
  rewrite H, elem_of_first_occs, elem_of_nil. set_solver.
Qed.

Lemma elem_of_find_ordering ord space x : set_order ord ->
  (x ∈ find_ordering ord space <-> exists s : gset Z, s ∈ space /\ x ∈ s).
Proof.
  intros Ho. unfold find_ordering. rewrite elem_of_most_common, elem_of_concat. split.
  - intros (l & Hl & Hx). apply elem_of_map in Hl as (s & -> & Hs). exists s. split; [done|].
    by apply (set_order_elem ord s x Ho).
  - intros (s & Hs & Hx). exists (ord s). split; [apply elem_of_map; eauto|]. by apply set_order_elem.
Qed.

(** ** The PRETTI walk *)

Inductive pok (inv : list (gset Z)) : gset Z -> pnode -> Prop :=
| pok_intro s cs : (forall a c, (a, c) ∈ cs -> exists t, py_index inv a = Ok t /\ pok inv (t ∩ s) c) ->
    pok inv s (PNode s cs).

Lemma pfind_elem a cs c : pfind a cs = Some c -> (a, c) ∈ cs.
Proof.
  induction cs as [|[b d] cs IH]; simpl; [done|]. destruct (Z.eqb_spec b a) as [->|]; intros; simplify_eq.
  - left.
  - right. auto.
Qed.

Lemma preplace_elem a c cs b d : (b, d) ∈ preplace a c cs -> (b = a /\ d = c) \/ (b, d) ∈ cs.
Proof.
  induction cs as [|[b' d'] cs IH]; simpl; [auto|]. destruct (Z.eqb_spec b' a) as [->|].
  - rewrite !elem_of_cons. intros [?|?]; simplify_eq; auto.
  - rewrite !elem_of_cons. intros [?|?]; simplify_eq; auto. destruct IH; auto.
Qed.

Lemma py_index_err_kind {A} (l : list A) i e : py_index l i = Err e -> e = IndexError.
Proof.
  unfold py_index. destruct (_ || _); [intros; congruence|].
  destruct (l !! _); intros; congruence.
Qed.

Lemma pwalk_spec inv l n s : pok inv s n ->
  (exists n' v, pwalk inv n l = Ok (n', v) /\ pok inv s n' /\
     (forall a, a ∈ l -> exists t, py_index inv a = Ok t) /\
     forall r, r ∈ v <-> r ∈ s /\ forall a, a ∈ l -> exists t, py_index inv a = Ok t /\ r ∈ t) \/
  (pwalk inv n l = Err IndexError /\ exists a, a ∈ l /\ py_index inv a = Err IndexError).
Proof.
  revert n s. induction l as [|a l IH]; intros n s Hn.
  - left. exists n, (v_list n). split; [done|]. split; [done|]. inversion Hn; subst. simpl.
    split; [intros a Ha; inversion Ha|]. intros r.
    split; [|tauto]. intros ?. split; [done|]. intros a Ha. inversion Ha.
  - inversion Hn as [s' cs Hcs]; subst. simpl. destruct (pfind a cs) as [c|] eqn:E.
    + apply pfind_elem in E. destruct (Hcs a c E) as (t & Et & Hc).
      destruct (IH c (t ∩ s) Hc) as [(n' & v & -> & Hn' & Hok & Hv)|[-> (b & Hb & Eb)]]; simpl.
      * left. eexists _, v. split; [reflexivity|]. split.
        -- constructor. intros b d Hb. apply preplace_elem in Hb as [[-> ->]|Hb]; eauto.
        -- split; [intros b Hb; apply elem_of_cons in Hb as [->|Hb]; eauto|].
           intros r. rewrite Hv, elem_of_intersection. split.
           ++ intros [[Ht Hs] Hl]. split; [done|]. intros b Hb. apply elem_of_cons in Hb as [->|Hb]; eauto.
           ++ intros [Hs Hl]. split; [|intros b Hb; apply Hl; by right]. split; [|done].
              destruct (Hl a) as (t' & Et' & Ht'); [left|]. congruence.
      * right. split; [done|]. exists b. split; [by right|done].
    + destruct (py_index inv a) as [t|e] eqn:Et; simpl.
      * destruct (IH (PNode (t ∩ s) []) (t ∩ s)) as [(n' & v & -> & Hn' & Hok & Hv)|[-> (b & Hb & Eb)]]; simpl.
        -- constructor. intros b d Hb. inversion Hb.
        -- left. eexists _, v. split; [reflexivity|]. split.
           ++ constructor. intros b d Hb. apply elem_of_app in Hb as [Hb|Hb]; [eauto|].
              apply elem_of_list_singleton in Hb. simplify_eq. eauto.
           ++ split; [intros b Hb; apply elem_of_cons in Hb as [->|Hb]; eauto|].
              intros r. rewrite Hv, elem_of_intersection. split.
              ** intros [[Ht Hs] Hl]. split; [done|]. intros b Hb. apply elem_of_cons in Hb as [->|Hb]; eauto.
              ** intros [Hs Hl]. split; [|intros b Hb; apply Hl; by right]. split; [|done].
                 destruct (Hl a) as (t' & Et' & Ht'); [left|]. congruence.
        -- right. split; [done|]. exists b. split; [by right|done].
      * right. apply py_index_err_kind in Et as He. subst e. split; [done|]. exists a. split; [left|done].
Qed.

Lemma append_ids_ok k rows l : NoDup l -> (forall i, i ∈ l -> 0 <= i < zlen rows) ->
  exists rows', rfold (append_id k) rows l = Ok rows' /\ length rows' = length rows /\
    forall i row, 0 <= i -> rows !! Z.to_nat i = Some row ->
      rows' !! Z.to_nat i = Some (if bool_decide (i ∈ l) then row ++ [k] else row).
Proof.
  revert rows. induction l as [|x l IH]; intros rows Hnd Hr.
  - exists rows. split; [done|]. split; [done|]. intros i row Hi E.
    rewrite bool_decide_eq_false_2; [done|]. intros H. inversion H.
  - inversion Hnd as [|? ? Hx Hnd']; subst. simpl. unfold append_id at 1.
    assert (0 <= x < zlen rows) as Hxr by (apply Hr; left).
    destruct (py_index_in_range rows x Hxr) as (r & -> & Er). simpl. rewrite py_setitem_ok by done. simpl.
    destruct (IH (<[Z.to_nat x := r ++ [k]]> rows)) as (rows' & E & Hlen & Hrows); [done| |].
    { intros i Hi. unfold zlen. rewrite insert_length. apply Hr. by right. }
    exists rows'. split; [done|]. rewrite insert_length in Hlen. split; [done|].
    intros i row Hi Ei. destruct (decide (i = x)) as [->|Hne].
    + rewrite (Hrows x (r ++ [k])); [|done|].
      * rewrite (bool_decide_eq_false_2 (x ∈ l)) by done. rewrite bool_decide_eq_true_2 by left. congruence.
      * apply list_lookup_insert. apply lookup_lt_Some in Er. done.
    + rewrite (Hrows i row); [|done|].
      * f_equal. assert (i ∈ x :: l <-> i ∈ l) as Hiff by (rewrite elem_of_cons; tauto).
        destruct (decide (i ∈ l)); [rewrite !bool_decide_eq_true_2 by tauto|rewrite !bool_decide_eq_false_2 by tauto]; done.
      * rewrite list_lookup_insert_ne; [done|]. intros E'. apply Hne. lia.
Qed.

(** ** the inverted index *)

Lemma build_index_lookup (Y : csr) j : wf_cmat (csr_mat Y) = true -> 0 <= j < csr_cols Y ->
  exists t, py_index (build_index Y) j = Ok t /\
    forall i, i ∈ t <-> nonzero_at (csr_mat Y) i j.
Proof.
  intros Hwf Hj. unfold build_index.
  eexists. split.
  - apply py_index_ok; [lia|]. rewrite list_lookup_fmap, lookup_py_range by lia. simpl. reflexivity.
  - intros i. rewrite elem_of_py_set, elem_of_lfilter, elem_of_py_range, existsb_exists. split.
    + intros [([j' v] & Hin & Hb) Hi]. apply elem_of_list_In in Hin. simpl in Hb.
      apply andb_true_iff in Hb as [E1 E2]. apply Z.eqb_eq in E1 as ->.
      apply elem_of_line in Hin as (k & Hk); [|done..]. exists k, v. split; [done|].
      destruct (Z.eqb_spec v 0); [done|]. done.
    + intros (k & v & Hk & Hv). destruct (slot_range _ _ _ _ _ Hwf Hk) as [Hi _].
      split; [|done]. exists (j, v). split.
      * apply elem_of_list_In. apply elem_of_line; eauto.
      * simpl. rewrite Z.eqb_refl. destruct (Z.eqb_spec v 0); done.
Qed.

Lemma length_build_index (Y : csr) : 0 <= csr_cols Y -> zlen (build_index Y) = csr_cols Y.
Proof. intros H. unfold build_index. rewrite zlen_map, zlen_py_range; done. Qed.

Lemma wf_dims m : wf_cmat m = true -> 0 <= n_major m /\ 0 <= n_minor m.
Proof. intros H. apply wf_cmat_facts in H. destruct H. lia. Qed.

Definition pretti_state_ok (Y : csr) (pre : list (gset Z)) (st : pnode * list (list Z)) : Prop :=
  pok (build_index Y) (py_set (py_range (csr_rows Y))) (fst st) /\
  zlen (snd st) = csr_rows Y /\
  forall i row, 0 <= i -> snd st !! Z.to_nat i = Some row ->
    StronglySorted Z.lt row /\ forall k, k ∈ row <-> contained_id pre (nonzero_at (csr_mat Y) i) k.

Lemma contained_id_snoc pre s has k :
  contained_id (pre ++ [s]) has k <-> contained_id pre has k \/ (k = zlen pre /\ forall a, a ∈ s -> has a).
Proof.
  unfold contained_id, zlen. split.
  - intros [Hk (s' & E & H)]. apply lookup_app_Some in E as [E|[Hl E]]; [left; eauto|].
    destruct (Z.to_nat k - length pre)%nat eqn:En; simpl in E; [|done]. simplify_eq. right. split; [lia|done].
  - intros [[Hk (s' & E & H)]|[-> H]].
    + split; [done|]. exists s'. split; [|done]. by apply lookup_app_l_Some.
    + split; [lia|]. exists s. split; [|done]. rewrite lookup_app_r by lia. rewrite Nat2Z.id, Nat.sub_diag. done.
Qed.

Lemma pretti_prefix ord (Y : csr) ordering pre :
  set_order ord -> wf_cmat (csr_mat Y) = true ->
  (forall (s : gset Z) a, s ∈ pre -> a ∈ s -> 0 <= a < csr_cols Y) ->
  (forall (s : gset Z) a, s ∈ pre -> a ∈ s -> a ∈ ordering) ->
  exists st, rfold (process_record ord (build_index Y) ordering)
     (PNode (py_set (py_range (csr_rows Y))) [], replicate (Z.to_nat (csr_rows Y)) []) (enumerate pre) = Ok st /\
   pretti_state_ok Y pre st.
Proof.
  intros Ho Hwf. induction pre as [|s pre IH] using rev_ind; intros Hr Hord.
  - eexists. split; [reflexivity|]. split; [|split].
    + constructor. intros a c H. inversion H.
    + simpl. unfold zlen. rewrite replicate_length. destruct (wf_dims _ Hwf). unfold csr_rows. lia.
    + simpl. intros i row Hi E. apply lookup_replicate in E as [-> _]. split; [constructor|].
      intros k. split; [intros H; inversion H|]. intros [_ (s & E & _)]. done.
  - destruct IH as ([root rows] & E & Hroot & Hlen & Hrows).
    { intros s' a Hs'. apply Hr. apply elem_of_app. auto. }
    { intros s' a Hs'. apply Hord. apply elem_of_app. auto. }
    assert (Hs : s ∈ pre ++ [s]) by (apply elem_of_app; right; by apply elem_of_list_singleton).
    rewrite enumerate_snoc, rfold_snoc, E. cbn [rbind]. unfold process_record. cbn [fst snd].
    set (l := List.filter _ ordering).
    assert (Hl : forall a, a ∈ l <-> a ∈ s).
    { intros a. unfold l. rewrite elem_of_lfilter, bool_decide_eq_true. split; [tauto|]. intros Ha. eauto. }
    simpl in Hroot.
    destruct (pwalk_spec _ l _ _ Hroot) as [(n' & v & -> & Hn' & _ & Hv)|[_ (a & Ha & Ea)]].
    2:{ apply Hl in Ha. destruct (build_index_lookup Y a Hwf) as (t & Et & _); [eauto|]. congruence. }
    cbn [rbind].
    assert (Hvn : forall r, r ∈ v <-> 0 <= r < csr_rows Y /\ forall a, a ∈ s -> nonzero_at (csr_mat Y) r a).
    { intros r. rewrite Hv, elem_of_py_set, elem_of_py_range. apply and_iff_compat_l. split.
      - intros H a Ha. destruct (H a) as (t & Et & Hrt); [by apply Hl|].
        destruct (build_index_lookup Y a Hwf) as (t' & Et' & Ht'); [eauto|]. apply Ht'. congruence.
      - intros H a Ha. apply Hl in Ha. destruct (build_index_lookup Y a Hwf) as (t' & Et' & Ht'); [eauto|].
        exists t'. split; [done|]. apply Ht'. auto. }
    simpl in Hlen.
    destruct (append_ids_ok (zlen pre) rows (ord v)) as (rows' & -> & Hlen' & Hrows').
    { by apply set_order_NoDup. }
    { intros i Hi. apply set_order_elem in Hi; [|done]. apply Hvn in Hi. lia. }
    cbn [rbind]. eexists. split; [reflexivity|]. split; [done|]. simpl. split; [unfold zlen in *; lia|].
    intros i row' Hi Ei'.
    assert (exists row, rows !! Z.to_nat i = Some row) as [row Ei].
    { apply lookup_lt_is_Some_2. apply lookup_lt_Some in Ei'. lia. }
    rewrite (Hrows' i row Hi Ei) in Ei'. simplify_eq.
    destruct (Hrows i row Hi Ei) as [Hsort Hk].
    assert (Hiv : i ∈ ord v <-> forall a, a ∈ s -> nonzero_at (csr_mat Y) i a).
    { rewrite set_order_elem by done. rewrite Hvn. split; [tauto|]. intros ?. split; [|done].
      apply lookup_lt_Some in Ei. unfold zlen in Hlen. lia. }
    case_bool_decide as Hb.
    + split.
      * apply StronglySorted_app_intro; [done|repeat constructor|]. intros a b Ha Hb'.
        apply elem_of_list_singleton in Hb' as ->. apply Hk in Ha as [Hge (s' & Es' & _)].
        apply lookup_lt_Some in Es'. unfold zlen. lia.
      * intros k. rewrite elem_of_app, elem_of_list_singleton, contained_id_snoc, Hk. tauto.
    + split; [done|]. intros k. rewrite contained_id_snoc, Hk. tauto.
Qed.
