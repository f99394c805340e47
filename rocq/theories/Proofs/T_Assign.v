(** Proofs of the property theorems of Properties/P_Assign.v. *)
From Verif.Model Require Import PyBase Sparse Utils Trie Assign.
From Verif.Spec Require Import SMatrix SAssign.
Open Scope Z_scope.
From Verif.Spec Require Import STrie.
From Verif.Proofs Require Import PBase PSparse PUtils PTrie PGreedyBase PAssign T_Trie.

Lemma C19_pretti_exact_proof : forall (ord : gset Z -> list Z) (space : list (gset Z)) (Y : csr),
  set_order ord -> wf_cmat (csr_mat Y) = true ->
  (forall s a, s ∈ space -> a ∈ s -> 0 <= a < csr_cols Y) ->
  exists rows, pretti_new_rows ord space Y = Ok rows /\ zlen rows = csr_rows Y /\
    forall i row, 0 <= i -> rows !! Z.to_nat i = Some row ->
      StronglySorted Z.lt row /\
      forall k, k ∈ row <-> contained_id space (nonzero_at (csr_mat Y) i) k.
Proof.
  intros ord space Y Ho Hwf Hr. unfold pretti_new_rows.
  destruct (pretti_prefix ord Y (find_ordering ord space) space Ho Hwf Hr) as ([root rows] & -> & _ & Hlen & Hrows).
  { intros s a Hs Ha. apply elem_of_find_ordering; eauto. }
  simpl. eauto.
Qed.


Lemma process_record_bad ord (Y : csr) ordering st k (s : gset Z) :
  set_order ord -> wf_cmat (csr_mat Y) = true ->
  pok (build_index Y) (py_set (py_range (csr_rows Y))) (fst st) -> zlen (snd st) = csr_rows Y ->
  (forall a, a ∈ s -> 0 <= a) -> (forall a, a ∈ s -> a ∈ ordering) ->
  (process_record ord (build_index Y) ordering st (k, s) = Err IndexError) \/
  ((forall a, a ∈ s -> a < csr_cols Y) /\
   exists st', process_record ord (build_index Y) ordering st (k, s) = Ok st' /\
    pok (build_index Y) (py_set (py_range (csr_rows Y))) (fst st') /\ zlen (snd st') = csr_rows Y).
Proof.
  intros Ho Hwf Hp Hlen Hpos Hord. unfold process_record. simpl.
  set (l := List.filter _ ordering).
  assert (Hl : forall a, a ∈ l <-> a ∈ s).
  { intros a. unfold l. rewrite elem_of_lfilter, bool_decide_eq_true. split; [tauto|]. intros Ha. eauto. }
  destruct (pwalk_spec _ l _ _ Hp) as [(n' & v & -> & Hn' & Hok & Hv)|[-> _]]; [|by left].
  right. split.
  - intros a Ha. destruct (Hok a) as [t Et]; [by apply Hl|].
    destruct (Z.lt_ge_cases a (csr_cols Y)) as [|Hge]; [done|].
    rewrite py_index_high in Et; [done|]. rewrite length_build_index; [done|]. by apply wf_dims in Hwf as [_ ?].
  - cbn [rbind]. destruct (append_ids_ok k (snd st) (ord v)) as (rows' & -> & Hlen' & _).
    { by apply set_order_NoDup. }
    { intros i Hi. apply set_order_elem in Hi; [|done]. apply Hv in Hi as [Hi _].
      apply elem_of_py_set, elem_of_py_range in Hi. lia. }
    cbn [rbind]. eexists. split; [reflexivity|]. split; [done|]. simpl. unfold zlen in *. lia.
Qed.

Lemma C19_pretti_out_of_range_proof : forall (ord : gset Z -> list Z) (space : list (gset Z)) (Y : csr),
  set_order ord -> wf_cmat (csr_mat Y) = true ->
  (forall s a, s ∈ space -> a ∈ s -> 0 <= a) ->
  (exists s a, s ∈ space /\ a ∈ s /\ csr_cols Y <= a) ->
  pretti_new_rows ord space Y = Err IndexError.
Proof.
  intros ord space Y Ho Hwf Hpos (s & a & Hs & Ha & Hbad). unfold pretti_new_rows.
  set (ordering := find_ordering ord space).
  assert (H : forall recs st,
    (forall k s, (k, s) ∈ recs -> s ∈ space) -> (exists k, (k, s) ∈ recs) ->
    pok (build_index Y) (py_set (py_range (csr_rows Y))) (fst st) -> zlen (snd st) = csr_rows Y ->
    rfold (process_record ord (build_index Y) ordering) st recs = Err IndexError).
  { induction recs as [|[k s'] recs IH]; intros st Hin [k' Hk'] Hp Hlen; [inversion Hk'|]. simpl.
    assert (s' ∈ space) as Hs' by (apply (Hin k); left).
    destruct (process_record_bad ord Y ordering st k s' Ho Hwf Hp Hlen) as [->|[Hok (st' & -> & Hp' & Hlen')]].
    - intros b Hb. eauto.
    - intros b Hb. apply elem_of_find_ordering; eauto.
    - done.
    - simpl. apply IH; try done.
      + intros k0 s0 H0. apply (Hin k0). by right.
      + exists k'. apply elem_of_cons in Hk' as [E|?]; [|done]. simplify_eq. specialize (Hok a Ha). lia. }
  rewrite H; [done| | | |].
  - intros k s' Hk. apply elem_of_enumerate in Hk as [_ Hk]. by eapply elem_of_list_lookup_2.
  - apply elem_of_list_lookup in Hs as [k Hk]. exists (Z.of_nat k). apply elem_of_enumerate.
    rewrite Nat2Z.id. auto with lia.
  - constructor. intros b c Hb. inversion Hb.
  - simpl. unfold zlen. rewrite replicate_length. destruct (wf_dims _ Hwf). unfold csr_rows. lia.
Qed.


(** ** naive *)

Lemma naive_ok space (Y : csr) : wf_cmat (csr_mat Y) = true ->
  exists rows, naive_new_rows space Y = Ok rows /\ zlen rows = csr_rows Y /\
    forall i row, 0 <= i -> rows !! Z.to_nat i = Some row ->
      StronglySorted Z.lt row /\ forall k, k ∈ row <-> contained_id space (csr_has Y i) k.
Proof.
  intros Hwf. destruct (convert_v2_ok Y Hwf) as (sets & E & Hlen & Hsets).
  unfold naive_new_rows. rewrite E. simpl. eexists. split; [reflexivity|]. rewrite zlen_map. split; [done|].
  intros i row Hi Ei. rewrite list_lookup_fmap in Ei. apply fmap_Some in Ei as (F & EF & ->).
  specialize (Hsets i F Hi EF). split.
  - apply map_fst_filter_sorted. rewrite map_fst_enumerate. apply py_range_sorted.
  - intros k. rewrite elem_of_map. unfold contained_id. split.
    + intros ([k' s] & -> & Hin). apply elem_of_lfilter in Hin as [Hb Hin]. apply elem_of_enumerate in Hin as [Hk Es].
      simpl in *. apply bool_decide_eq_true in Hb. split; [done|]. exists s. split; [done|].
      intros a Ha. apply Hsets. set_solver.
    + intros [Hk (s & Es & Hs)]. exists (k, s). split; [done|]. apply elem_of_lfilter. split.
      * apply bool_decide_eq_true. intros a Ha. apply Hsets. auto.
      * by apply elem_of_enumerate.
Qed.

(** ** trie *)

Definition hits_order (hord : hits -> list (option (list Z))) : Prop := forall h, hord h ≡ₚ elements h.

Lemma sample_ids_lookup tuples t k : sample_ids tuples !! t = Some k <->
  0 <= k /\ tuples !! Z.to_nat k = Some t /\ forall k', k < k' -> tuples !! Z.to_nat k' <> Some t.
Proof.
  revert k. induction tuples as [|u tuples IH] using rev_ind; intros k.
  - unfold sample_ids. simpl. rewrite lookup_empty. split; [done|]. intros (_ & ? & _). done.
  - unfold sample_ids. rewrite enumerate_snoc, fold_left_app. simpl.
    rewrite lookup_insert_Some. change (fold_left _ (enumerate tuples) ∅) with (sample_ids tuples). rewrite IH.
    unfold zlen. split.
    + intros [[-> <-]|[Hne (Hk & E & Hlast)]].
      * split; [lia|]. split.
        -- rewrite lookup_app_r by lia. rewrite Nat2Z.id, Nat.sub_diag. done.
        -- intros k' Hk' E. apply lookup_lt_Some in E. rewrite app_length in E. simpl in E. lia.
      * split; [done|]. split; [by apply lookup_app_l_Some|]. intros k' Hk' E'.
        apply lookup_app_Some in E' as [E'|[Hl E']]; [by apply (Hlast k')|].
        destruct (Z.to_nat k' - length tuples)%nat; simpl in E'; [|done]. congruence.
    + intros (Hk & E & Hlast). apply lookup_app_Some in E as [E|[Hl E]].
      * right. split.
        -- intros ->. apply (Hlast (Z.of_nat (length tuples))).
           ++ apply lookup_lt_Some in E. lia.
           ++ rewrite lookup_app_r by lia. rewrite Nat2Z.id, Nat.sub_diag. done.
        -- split_and!; try done. intros k' Hk' E'. apply (Hlast k' Hk'). by apply lookup_app_l_Some.
      * left. destruct (Z.to_nat k - length tuples)%nat eqn:En; simpl in E; [|done]. simplify_eq.
        split; [done|]. lia.
Qed.

Lemma sorted_ord_inj ord (s s' : gset Z) : set_order ord ->
  py_sorted (ord s) = py_sorted (ord s') -> s = s'.
Proof.
  intros Ho E. apply set_eq. intros x. rewrite <- (set_order_elem ord s x Ho), <- (set_order_elem ord s' x Ho).
  rewrite <- (py_sorted_perm (ord s)), E, py_sorted_perm. done.
Qed.

Lemma rmap_in_ok {A B} (f : A -> result B) l : (forall x, x ∈ l -> exists y, f x = Ok y) ->
  exists ys, rmap f l = Ok ys.
Proof.
  induction l as [|x l IH]; intros H; simpl; [eauto|].
  destruct (H x) as [y ->]; [left|]. simpl. destruct IH as [ys ->]; [intros; apply H; by right|]. simpl. eauto.
Qed.

Lemma C20_trie_exact_proof : forall (ord : gset Z -> list Z) (hord : hits -> list (option (list Z)))
    (space : list (gset Z)) (Y : csr),
  set_order ord -> (forall h, hord h ≡ₚ elements h) -> wf_cmat (csr_mat Y) = true ->
  exists rows, trie_new_rows ord hord space Y = Ok rows /\ zlen rows = csr_rows Y /\
    forall i row, 0 <= i -> rows !! Z.to_nat i = Some row ->
      NoDup row /\
      forall k, k ∈ row <->
        contained_id space (csr_has Y i) k /\
        exists s, space !! Z.to_nat k = Some s /\ s <> ∅ /\ forall k', k < k' -> space !! Z.to_nat k' <> Some s.
Proof.
  intros ord hord space Y Ho Hh Hwf. destruct (convert_v2_ok Y Hwf) as (sets & E & Hlen & Hsets).
  unfold trie_new_rows. rewrite E. cbn [rbind]. set (tuples := map _ space).
  assert (Hso : sets_only ([] ++ [InsertBatch tuples])).
  { intros l Hl. unfold inserted in Hl. simpl in Hl. rewrite app_nil_r in Hl. unfold tuples in Hl.
    apply elem_of_map in Hl as (s & -> & _). rewrite py_sorted_perm. by apply set_order_NoDup. }
  assert (Htup : forall s tup, tuples !! Z.to_nat s = Some tup <->
     exists x, space !! Z.to_nat s = Some x /\ tup = py_sorted (ord x)).
  { intros s tup. unfold tuples. rewrite list_lookup_fmap, fmap_Some. done. }
  destruct (C15_subsets_exact_proof [] tuples [] Hso) as (t & Et & _); [constructor|].
  assert (insert_batch trie_empty tuples = Ok t) as ->.
  { unfold run_trie in Et. simpl in Et. by destruct (insert_batch trie_empty tuples). }
  cbn [rbind].
  assert (Hhit : forall F x, x ∈ hord (search_subsets t (ord F)) <->
     exists s tup, s ∈ space /\ s <> ∅ /\ s ⊆ F /\ tup = py_sorted (ord s) /\ x = Some tup).
  { intros F x. rewrite Hh, elem_of_elements.
    destruct (C15_subsets_exact_proof [] tuples (ord F) Hso) as (t' & Et' & Hx); [by apply set_order_NoDup|].
    assert (t' = t) as -> by congruence. rewrite Hx. unfold inserted. simpl. rewrite app_nil_r. split.
    - intros (l & tup & Hl & Hne & Hsub & Ht & ->). unfold tuples in Hl.
      apply elem_of_map in Hl as (s & -> & Hs). exists s, tup. split_and!; try done.
      + intros ->. apply Hne. apply Permutation_nil. rewrite py_sorted_perm, (Ho ∅). by rewrite elements_empty.
      + intros a Ha. apply (set_order_elem ord F a Ho). apply Hsub. rewrite py_sorted_perm. by apply set_order_elem.
      + destruct Ht as [H1 H2]. apply sorted_unique; [done|apply py_sorted_lt; by apply set_order_NoDup|].
        intros a. symmetry. apply H2.
    - intros (s & tup & Hs & Hne & Hsub & -> & ->). exists (py_sorted (ord s)), (py_sorted (ord s)). split_and!; try done.
      + unfold tuples. apply elem_of_map. eauto.
      + intros E0. apply Hne. apply set_eq. intros a. rewrite <- (set_order_elem ord s a Ho), <- (py_sorted_perm (ord s)), E0.
        set_solver.
      + intros a Ha. rewrite py_sorted_perm in Ha. apply set_order_elem; [done|]. apply Hsub. by apply (set_order_elem ord s a Ho).
      + split; [|done]. apply py_sorted_lt. by apply set_order_NoDup. }
  assert (Hid : forall F x, x ∈ hord (search_subsets t (ord F)) -> exists k, sample_id (sample_ids tuples) x = Ok k).
  { intros F x Hx. apply Hhit in Hx as (s & tup & Hs & _ & _ & -> & ->). simpl.
    apply elem_of_list_lookup in Hs as [n Hn].
    assert (exists k, sample_ids tuples !! py_sorted (ord s) = Some k) as [k ->]; [|eauto].
    destruct (sample_ids tuples !! py_sorted (ord s)) as [k|] eqn:Ek; [eauto|]. exfalso.
    assert (Hex : forall tl u, u ∈ tl -> exists k, sample_ids tl !! u = Some k).
    { clear. induction tl as [|u' tl IH] using rev_ind; intros u Hu; [inversion Hu|].
      unfold sample_ids. rewrite enumerate_snoc, fold_left_app. simpl.
      change (fold_left _ (enumerate tl) ∅) with (sample_ids tl).
      destruct (decide (u = u')) as [->|Hne]; [rewrite lookup_insert; eauto|].
      rewrite lookup_insert_ne by done. apply IH. apply elem_of_app in Hu as [?|Hu]; [done|].
      by apply elem_of_list_singleton in Hu. }
    destruct (Hex tuples (py_sorted (ord s))) as [k Hk]; [|congruence].
    apply elem_of_map. exists s. split; [done|]. by eapply elem_of_list_lookup_2. }
  destruct (rmap_in_ok (fun labelset => rmap (sample_id (sample_ids tuples)) (hord (search_subsets t (ord labelset)))) sets)
    as [rows Erows].
  { intros F _. apply rmap_in_ok. intros x Hx. eauto. }
  exists rows. split; [done|]. apply rmap_ok in Erows. split.
  { apply Forall2_length in Erows. unfold zlen in *. lia. }
  intros i row Hi Ei. destruct (Forall2_lookup_r _ _ _ _ _ Erows Ei) as (F & EF & Erow).
  specialize (Hsets i F Hi EF). apply rmap_ok in Erow.
  assert (Hinj : forall x y k, sample_id (sample_ids tuples) x = Ok k -> sample_id (sample_ids tuples) y = Ok k -> x = y).
  { intros [x|] [y|] k Hx Hy; simpl in *; try done. destruct (sample_ids tuples !! x) eqn:Ex; [|done].
    destruct (sample_ids tuples !! y) eqn:Ey; [|done]. simplify_eq.
    apply sample_ids_lookup in Ex as (_ & Ex & _). apply sample_ids_lookup in Ey as (_ & Ey & _). congruence. }
  split.
  - assert (Hnd : NoDup (hord (search_subsets t (ord F)))) by (rewrite Hh; apply NoDup_elements).
    clear -Hnd Erow Hinj. induction Erow as [|x k xs ks Hk Hxs IH]; [constructor|].
    inversion Hnd as [|? ? Hx Hnd']; subst. constructor; [|auto]. intros Hin. apply Hx.
    apply elem_of_list_lookup in Hin as [p Hp]. destruct (Forall2_lookup_r _ _ _ _ _ Hxs Hp) as (y & Hy & Ey).
    rewrite (Hinj x y k Hk Ey). by eapply elem_of_list_lookup_2.
  - intros k. transitivity (exists x, x ∈ hord (search_subsets t (ord F)) /\ sample_id (sample_ids tuples) x = Ok k).
    { split.
      - intros Hin. apply elem_of_list_lookup in Hin as [p Hp].
        destruct (Forall2_lookup_r _ _ _ _ _ Erow Hp) as (x & Hx & Ex). exists x. split; [|done]. by eapply elem_of_list_lookup_2.
      - intros (x & Hx & Ex). apply elem_of_list_lookup in Hx as [p Hp].
        destruct (Forall2_lookup_l _ _ _ _ _ Erow Hp) as (k' & Hk' & Ek'). assert (k' = k) as -> by congruence.
        by eapply elem_of_list_lookup_2. }
    unfold contained_id. split.
    + intros (x & Hx & Ex). apply Hhit in Hx as (s & tup & Hs & Hne & Hsub & -> & ->). simpl in Ex.
      destruct (sample_ids tuples !! py_sorted (ord s)) as [k'|] eqn:Ek; [|done]. simplify_eq.
      apply sample_ids_lookup in Ek as (Hk & Ek & Hlast). apply Htup in Ek as (s' & Es' & Eq).
      apply sorted_ord_inj in Eq; [|done]. subst s'. split.
      * split; [done|]. exists s. split; [done|]. intros a Ha. apply Hsets. set_solver.
      * exists s. split_and!; try done. intros k' Hk' E'. apply (Hlast k' Hk'). apply Htup. eauto.
    + intros [[Hk (s' & Es' & Hhas)] (s & Es & Hne & Hlast)]. assert (s' = s) as -> by congruence. clear Es'.
      exists (Some (py_sorted (ord s))). split.
      * apply Hhit. exists s, (py_sorted (ord s)). split_and!; try done.
        -- by eapply elem_of_list_lookup_2.
        -- intros a Ha. apply Hsets. auto.
      * simpl. assert (sample_ids tuples !! py_sorted (ord s) = Some k) as ->; [|done].
        apply sample_ids_lookup. split_and!; try done.
        -- apply Htup. eauto.
        -- intros k' Hk' E'. apply Htup in E' as (s' & Es' & Eq). apply sorted_ord_inj in Eq; [|done]. subst s'.
           by apply (Hlast k' Hk').
Qed.


Lemma C20_strategies_agree_proof : forall (ord : gset Z -> list Z) (hord : hits -> list (option (list Z)))
    (space : list (gset Z)) (Y : csr),
  set_order ord -> (forall h, hord h ≡ₚ elements h) ->
  wf_cmat (csr_mat Y) = true -> no_explicit_zeros (csr_mat Y) ->
  NoDup space -> ∅ ∉ space -> (forall s a, s ∈ space -> a ∈ s -> 0 <= a < csr_cols Y) ->
  exists rows trows, naive_new_rows space Y = Ok rows /\ pretti_new_rows ord space Y = Ok rows /\
    trie_new_rows ord hord space Y = Ok trows /\
    Forall2 (fun row trow => row ≡ₚ trow /\ NoDup row) rows trows.
Proof.
  intros ord hord space Y Ho Hh Hwf Hz Hnd Hne Hr.
  destruct (naive_ok space Y Hwf) as (r1 & E1 & L1 & H1).
  destruct (C19_pretti_exact_proof ord space Y Ho Hwf Hr) as (r2 & E2 & L2 & H2).
  destruct (C20_trie_exact_proof ord hord space Y Ho Hh Hwf) as (r3 & E3 & L3 & H3).
  assert (Hhas : forall i a, nonzero_at (csr_mat Y) i a <-> csr_has Y i a).
  { intros i a. unfold nonzero_at, csr_has, stored. split.
    - intros (k & v & Hs & _). eauto.
    - intros (k & v & Hs). exists k, v. split; [done|]. by eapply Hz. }
  assert (Hcid : forall i k, contained_id space (nonzero_at (csr_mat Y) i) k <-> contained_id space (csr_has Y i) k).
  { intros i k. unfold contained_id. setoid_rewrite Hhas. done. }
  assert (r2 = r1) as ->.
  { apply list_eq. intros n. destruct (r2 !! n) as [row2|] eqn:Ea.
    - assert (exists row1, r1 !! n = Some row1) as [row1 Eb].
      { apply lookup_lt_is_Some_2. apply lookup_lt_Some in Ea. unfold zlen in *. lia. }
      rewrite Eb. f_equal.
      destruct (H1 (Z.of_nat n) row1) as [S1 K1]; [lia|by rewrite Nat2Z.id|].
      destruct (H2 (Z.of_nat n) row2) as [S2 K2]; [lia|by rewrite Nat2Z.id|].
      apply sorted_unique; [done..|]. intros k. rewrite K2, K1. apply Hcid.
    - symmetry. apply lookup_ge_None_2. apply lookup_ge_None_1 in Ea. unfold zlen in *. lia. }
  exists r1, r3. split_and!; try done. apply Forall2_same_length_lookup. split; [unfold zlen in *; lia|].
  intros n row trow Ea Eb.
  destruct (H1 (Z.of_nat n) row) as [S1 K1]; [lia|by rewrite Nat2Z.id|].
  destruct (H3 (Z.of_nat n) trow) as [S3 K3]; [lia|by rewrite Nat2Z.id|].
  assert (NoDup row) by by apply sorted_NoDup.
  split; [|done]. apply NoDup_Permutation; [done..|]. intros k. rewrite K1, K3. split; [|tauto].
  intros Hk. split; [done|]. destruct Hk as [Hk (s & Es & _)]. exists s. split_and!; try done.
  - intros ->. apply Hne. by eapply elem_of_list_lookup_2.
  - intros k' Hk' E'. assert (Z.to_nat k = Z.to_nat k') by exact (NoDup_lookup _ _ _ _ Hnd Es E'). lia.
Qed.
