(** Lemmas about the uncovered-area sampler. *)
From Verif.Model Require Import PyBase Sparse Utils Graph Cliques Assign Rand Uncovered.
From Verif.Spec Require Import SUncovered.
From Verif.Proofs Require Import PBase PAssign PRand.
Open Scope Z_scope.

Lemma elem_of_covered_elems h i x : x ∈ covered_elems h i <-> covered h i x.
Proof.
  unfold covered_elems, covered.
  assert (forall c : gset Z, x ∈ fold_left (fun c u => if bool_decide (i ∈ fst u) then c ∪ snd u else c) h c
            <-> x ∈ c \/ Exists (fun u => i ∈ fst u /\ x ∈ snd u) h) as H.
  { induction h as [|u h IH]; intros c; simpl.
    - rewrite Exists_nil. tauto.
    - rewrite IH, Exists_cons. case_bool_decide; set_solver. }
  rewrite H. set_solver.
Qed.

Lemma covered_elems_snoc h u i :
  covered_elems (h ++ [u]) i = (if bool_decide (i ∈ fst u) then covered_elems h i ∪ snd u else covered_elems h i).
Proof. unfold covered_elems. rewrite fold_left_app. done. Qed.

Lemma uncovered_diff h i s : uncovered h i s = s ∖ covered_elems h i.
Proof.
  apply set_eq. intros x. unfold uncovered. rewrite elem_of_filter, elem_of_difference, elem_of_covered_elems. tauto.
Qed.

Lemma area_diff h i s : area h i s = Z.of_nat (size s) - Z.of_nat (size (s ∩ covered_elems h i)).
Proof.
  unfold area. rewrite uncovered_diff, size_difference_alt.
  assert (size (s ∩ covered_elems h i) <= size s)%nat by (apply subseteq_size; set_solver). lia.
Qed.

Lemma area_nonneg h i s : 0 <= area h i s.
Proof. unfold area. lia. Qed.

Lemma row_area_nonneg space h i row : 0 <= row_area space h i row.
Proof.
  unfold row_area. apply zsum_nonneg. apply list.Forall_forall. intros w Hw. apply elem_of_map in Hw as (s & -> & _).
  apply area_nonneg.
Qed.

Lemma row_samples_ok space row : (forall k, k ∈ row -> 0 <= k < zlen space) ->
  row_samples space row = Ok (samples space row).
Proof.
  unfold row_samples, samples. induction row as [|k row IH]; intros H; [done|]. simpl.
  destruct (py_index_in_range space k) as (s & E1 & E2); [apply H; left|]. rewrite E1, E2. simpl.
  rewrite IH; [done|]. intros. apply H. by right.
Qed.

Lemma samples_length space row : (forall k, k ∈ row -> 0 <= k < zlen space) ->
  length (samples space row) = length row.
Proof.
  intros H. pose proof (row_samples_ok space row H) as E. apply rmap_ok in E. symmetry. by eapply Forall2_length.
Qed.

Lemma samples_map {B} space row (f : gset Z -> B) (d : B) : (forall k, k ∈ row -> 0 <= k < zlen space) ->
  map f (samples space row) = map (fun k => match space !! Z.to_nat k with Some s => f s | None => d end) row.
Proof.
  unfold samples. induction row as [|k row IH]; intros H; [done|]. simpl.
  destruct (py_index_in_range space k) as (s & E1 & E2); [apply H; left|]. rewrite E2. simpl. f_equal.
  apply IH. intros. apply H. by right.
Qed.

(** ** counters *)

Lemma count_in_cons x y l : count_in x (y :: l) = (if x =? y then 1 else 0) + count_in x l.
Proof. unfold count_in. simpl. destruct (x =? y); rewrite ?zlen_cons; lia. Qed.
Lemma count_in_app x l l' : count_in x (l ++ l') = count_in x l + count_in x l'.
Proof. unfold count_in. rewrite List.filter_app, zlen_app. lia. Qed.
Lemma count_in_pos x l : 0 < count_in x l <-> x ∈ l.
Proof.
  induction l as [|y l IH].
  - unfold count_in. split; [done|intros H; inversion H].
  - rewrite count_in_cons, elem_of_cons. pose proof (zlen_nonneg (List.filter (Z.eqb x) l)) as H.
    unfold count_in in *. destruct (Z.eqb_spec x y); [split; [auto|lia]|]. rewrite Z.add_0_l, IH. naive_solver.
Qed.
Lemma count_in_nonneg x l : 0 <= count_in x l.
Proof. apply zlen_nonneg. Qed.
Lemma count_in_perm x l l' : l ≡ₚ l' -> count_in x l = count_in x l'.
Proof. induction 1; rewrite ?count_in_cons; lia. Qed.
Lemma count_in_NoDup x l : NoDup l -> count_in x l = if decide (x ∈ l) then 1 else 0.
Proof.
  induction 1 as [|y l Hy Hn IH]; [done|]. rewrite count_in_cons, IH.
  destruct (Z.eqb_spec x y) as [->|Hne]; repeat case_decide; try lia; set_solver.
Qed.

Lemma counter_lookup l x : counter l !! x = if decide (x ∈ l) then Some (count_in x l) else None.
Proof.
  unfold counter.
  induction l as [|y l IH] using rev_ind; [by rewrite decide_False by set_solver|].
  rewrite fold_left_app. simpl. rewrite count_in_app.
  destruct (decide (y = x)) as [->|Hne].
  - rewrite lookup_insert, decide_True by set_solver. rewrite IH, count_in_cons, Z.eqb_refl.
    change (count_in x []) with 0.
    case_decide as Hx; [done|]. f_equal. pose proof (count_in_nonneg x l).
    assert (~ 0 < count_in x l) by (by rewrite count_in_pos). lia.
  - rewrite lookup_insert_ne by done. rewrite IH, count_in_cons. change (count_in x []) with 0.
    destruct (Z.eqb_spec x y); [done|].
    repeat case_decide; try set_solver. f_equal. lia.
Qed.

Lemma count_in_concat ord ss x : set_order ord ->
  count_in x (concat (map ord ss)) = zsum (map (fun s : gset Z => if decide (x ∈ s) then 1 else 0) ss).
Proof.
  intros Ho. induction ss as [|s ss IH]; [done|]. simpl. rewrite count_in_app, IH. f_equal.
  rewrite count_in_NoDup by (by apply set_order_NoDup). pose proof (set_order_elem ord s x Ho).
  repeat case_decide; tauto.
Qed.

(** ** one row *)

Definition row_ok (ord : gset Z -> list Z) (ss : list (gset Z)) (C : gset Z) (w : Z) (cnt : gmap Z Z) : Prop :=
  w = zsum (map (fun s => Z.of_nat (size (s ∖ C))) ss) /\
  forall x, cnt !! x = if decide (x ∈ C) then None else counter (concat (map ord ss)) !! x.

Lemma size_diff_add (s C : gset Z) el : el ∉ C ->
  Z.of_nat (size (s ∖ (C ∪ {[el]}))) = Z.of_nat (size (s ∖ C)) - if decide (el ∈ s) then 1 else 0.
Proof.
  intros Hel. case_decide as Hs.
  - assert (s ∖ C = {[el]} ∪ (s ∖ (C ∪ {[el]}))) as E.
    { apply set_eq. intros x. destruct (decide (x = el)); set_solver. }
    rewrite E. rewrite (size_union (C:=gset Z) {[el]} (s ∖ (C ∪ {[el]}))) by set_solver.
    rewrite (size_singleton (C:=gset Z)). lia.
  - assert (s ∖ (C ∪ {[el]}) = s ∖ C) as -> by (apply set_eq; set_solver). lia.
Qed.

Lemma row_ok_add ord ss C w cnt el : set_order ord -> row_ok ord ss C w cnt ->
  match cnt !! el with
  | None => row_ok ord ss (C ∪ {[el]}) w cnt
  | Some c => row_ok ord ss (C ∪ {[el]}) (w - c) (delete el cnt)
  end.
Proof.
  intros Ho [Hw Hc]. pose proof (Hc el) as Hel. case_decide as HC.
  - rewrite Hel. replace (C ∪ {[el]}) with C by (apply set_eq; set_solver). done.
  - assert (Hsum : zsum (map (fun s => Z.of_nat (size (s ∖ (C ∪ {[el]})))) ss)
              = w - count_in el (concat (map ord ss))).
    { rewrite count_in_concat by done. rewrite Hw. clear -HC. induction ss as [|s ss IH]; [done|]. simpl.
      rewrite IH, size_diff_add by done. lia. }
    rewrite counter_lookup in Hel. rewrite Hel. case_decide as Hin.
    + split; [done|]. intros x. destruct (decide (x = el)) as [->|Hne].
      * rewrite lookup_delete, decide_True by set_solver. done.
      * rewrite lookup_delete_ne by done. rewrite Hc. repeat case_decide; try done; set_solver.
    + split.
      * rewrite Hsum. assert (~ 0 < count_in el (concat (map ord ss))) by (by rewrite count_in_pos).
        pose proof (count_in_nonneg el (concat (map ord ss))). lia.
      * intros x. destruct (decide (x = el)) as [->|Hne].
        -- rewrite Hel, decide_True by set_solver. done.
        -- rewrite Hc. repeat case_decide; try done; set_solver.
Qed.

(** ** all rows *)

Definition st_ok (ord : gset Z -> list Z) (ssl : list (list (gset Z))) (C : nat -> gset Z)
    (wc : list Z * list (gmap Z Z)) : Prop :=
  length (fst wc) = length ssl /\ length (snd wc) = length ssl /\
  forall j ss, ssl !! j = Some ss -> exists w c, fst wc !! j = Some w /\ snd wc !! j = Some c /\ row_ok ord ss (C j) w c.

Lemma st_ok_ext ord ssl C C' wc : (forall j, C j = C' j) -> st_ok ord ssl C wc -> st_ok ord ssl C' wc.
Proof.
  intros HC (H1 & H2 & H3). split_and!; [done..|]. intros j ss Hj. rewrite <- HC. auto.
Qed.

Lemma cover_elem_ok ord ssl C wc i el : set_order ord -> st_ok ord ssl C wc -> 0 <= i < zlen ssl ->
  exists wc', cover_elem i wc el = Ok wc' /\
    st_ok ord ssl (fun j => if decide (Z.of_nat j = i) then C j ∪ {[el]} else C j) wc'.
Proof.
  intros Ho (Hl1 & Hl2 & Hok) Hi. unfold cover_elem.
  destruct (lookup_lt_is_Some_2 ssl (Z.to_nat i)) as [ss Hss]; [unfold zlen in Hi; lia|].
  destruct (Hok _ _ Hss) as (w & c & Ew & Ec & Hr).
  assert (py_index (snd wc) i = Ok c) as -> by (apply py_index_ok; [lia|done]). cbn [rbind].
  pose proof (row_ok_add ord ss (C (Z.to_nat i)) w c el Ho Hr) as Hr'.
  destruct (c !! el) as [n|] eqn:E.
  - assert (py_index (fst wc) i = Ok w) as -> by (apply py_index_ok; [lia|done]). cbn [rbind].
    rewrite !py_setitem_ok by (unfold zlen in *; lia). cbn [rbind]. eexists. split; [reflexivity|].
    split_and!; [simpl; by rewrite insert_length..|].
    intros j ss' Hj. simpl. destruct (decide (Z.of_nat j = i)) as [<-|Hne].
    + rewrite Nat2Z.id in *. assert (ss' = ss) as -> by congruence.
      rewrite !list_lookup_insert by (apply lookup_lt_Some in Hj; lia). eauto.
    + rewrite !list_lookup_insert_ne by lia. destruct (Hok _ _ Hj) as (w' & c' & ? & ? & ?). eauto.
  - exists wc. split; [done|]. split_and!; [done..|]. intros j ss' Hj.
    destruct (decide (Z.of_nat j = i)) as [<-|Hne]; [|auto].
    rewrite Nat2Z.id in *. assert (ss' = ss) as -> by congruence. eauto.
Qed.

Lemma cover_elems_ok ord ssl i : set_order ord -> 0 <= i < zlen ssl -> forall els C wc, st_ok ord ssl C wc ->
  exists wc', rfold (cover_elem i) wc els = Ok wc' /\
    st_ok ord ssl (fun j => if decide (Z.of_nat j = i) then C j ∪ py_set els else C j) wc'.
Proof.
  intros Ho Hi. induction els as [|el els IH]; intros C wc H; simpl.
  - exists wc. split; [done|]. eapply st_ok_ext; [|exact H]. intros j. simpl. case_decide; [|done].
    apply set_eq. unfold py_set. set_solver.
  - destruct (cover_elem_ok ord ssl C wc i el Ho H Hi) as (wc1 & -> & H1). cbn [rbind].
    destruct (IH _ _ H1) as (wc2 & -> & H2). exists wc2. split; [done|].
    eapply st_ok_ext; [|exact H2]. intros j. simpl. case_decide; [|done]. unfold py_set. simpl. apply set_eq. set_solver.
Qed.

Lemma cover_rows_ok ord ssl T : set_order ord -> forall A C wc, (forall i, i ∈ A -> 0 <= i < zlen ssl) -> st_ok ord ssl C wc ->
  exists wc', rfold (fun wc i => rfold (cover_elem i) wc (ord T)) wc A = Ok wc' /\
    st_ok ord ssl (fun j => if bool_decide (Z.of_nat j ∈ A) then C j ∪ T else C j) wc'.
Proof.
  intros Ho. induction A as [|i A IH]; intros C wc HA H; simpl.
  - exists wc. split; [done|]. eapply st_ok_ext; [|exact H]. intros j. done.
  - destruct (cover_elems_ok ord ssl i Ho ltac:(apply HA; left) (ord T) C wc H) as (wc1 & -> & H1). cbn [rbind].
    destruct (IH _ _ ltac:(intros; apply HA; by right) H1) as (wc2 & -> & H2). exists wc2. split; [done|].
    eapply st_ok_ext; [|exact H2]. intros j. simpl.
    assert (py_set (ord T) = T) as -> by (apply set_eq; intros x; rewrite elem_of_py_set; by apply set_order_elem).
    destruct (decide (Z.of_nat j = i)) as [->|Hne].
    + rewrite (bool_decide_eq_true_2 (i ∈ i :: A)) by left. case_bool_decide; apply set_eq; set_solver.
    + rewrite (bool_decide_ext (Z.of_nat j ∈ i :: A) (Z.of_nat j ∈ A)) by (rewrite elem_of_cons; naive_solver). done.
Qed.

(** The invariant of a fitted sampler after the updates [ups]; its history may start with older entries. *)
Definition ua_inv (ord : gset Z -> list Z) (space : list (gset Z)) (rows : list (list Z))
    (h0 ups : list (list Z * gset Z)) (st : ua) : Prop :=
  ua_space st = space /\ ua_rows st = rows /\ ua_history st = h0 ++ ups /\
  ua_probas st = row_probas (ua_weights st) /\
  st_ok ord (map (samples space) rows) (fun j => covered_elems ups (Z.of_nat j)) (ua_weights st, ua_counters st).

Lemma assign_ok ord space rows h0 : set_order ord -> valid_rows space rows ->
  exists st, assign_row_weights ord space rows h0 = Ok st /\ ua_inv ord space rows h0 [] st.
Proof.
  intros Ho Hv. unfold assign_row_weights.
  assert (forall {B} (f : list (gset Z) -> B), rmap (fun row => let! ss := row_samples space row in Ok (f ss)) rows
            = Ok (map (fun row => f (samples space row)) rows)) as H.
  { intros B f. rewrite <- rmap_ok_map. apply rmap_ext. intros row Hrow.
    rewrite row_samples_ok; [done|]. intros k Hk. by apply (Hv row k). }
  rewrite !H. cbn [rbind]. eexists. split; [reflexivity|]. split_and!; simpl; try done.
  - by rewrite app_nil_r.
  - split_and!; simpl; [by rewrite !map_length..|]. intros j ss Hj. rewrite list_lookup_fmap in Hj.
    destruct (rows !! j) as [row|] eqn:E; [|done]. simpl in Hj. injection Hj as <-.
    rewrite !list_lookup_fmap, E. simpl. do 2 eexists. split; [done|]. split; [done|]. split.
    + f_equal. apply map_ext. intros s. f_equal. f_equal. apply set_eq. unfold covered_elems. simpl. set_solver.
    + intros x. unfold covered_elems. simpl. rewrite decide_False by set_solver. done.
Qed.

Lemma update_ok ord space rows h0 ups st u : set_order ord -> (forall i, i ∈ fst u -> 0 <= i < zlen rows) ->
  ua_inv ord space rows h0 ups st ->
  exists st', update_row_weights ord st u = Ok st' /\ ua_inv ord space rows h0 (ups ++ [u]) st'.
Proof.
  intros Ho Hu (H1 & H2 & H3 & H4 & H5). unfold update_row_weights.
  assert (Hu' : forall i, i ∈ fst u -> 0 <= i < zlen (map (samples space) rows)) by (intros; rewrite zlen_map; auto).
  destruct (cover_rows_ok ord _ (snd u) Ho (fst u) _ _ Hu' H5) as ([ws cs] & -> & H).
  cbn [rbind]. eexists. split; [reflexivity|]. split_and!; simpl; try done.
  - rewrite H3. by rewrite app_assoc.
  - eapply st_ok_ext; [|exact H]. intros j. simpl. rewrite covered_elems_snoc. done.
Qed.

Lemma updates_ok ord space rows h0 : set_order ord -> forall ups' ups st, valid_updates (zlen rows) ups' ->
  ua_inv ord space rows h0 ups st ->
  exists st', rfold (update_row_weights ord) st ups' = Ok st' /\ ua_inv ord space rows h0 (ups ++ ups') st'.
Proof.
  intros Ho. induction ups' as [|u ups' IH]; intros ups st Hv Hi; simpl.
  - exists st. rewrite app_nil_r. done.
  - destruct (update_ok ord space rows h0 ups st u Ho) as (st1 & -> & H1).
    { intros i Hin. destruct u as [A T]. apply (Hv A T i); [left|done]. }
    { done. }
    cbn [rbind]. destruct (IH (ups ++ [u]) st1) as (st2 & E & H2).
    { intros A T i Hin. apply (Hv A T i). by right. }
    { done. }
    exists st2. rewrite <- app_assoc in H2. done.
Qed.

Lemma inv_weights ord space rows h0 ups st : ua_inv ord space rows h0 ups st ->
  ua_weights st = map (fun ir => row_area space ups (fst ir) (snd ir)) (enumerate rows).
Proof.
  intros (_ & _ & _ & _ & H1 & _ & H3). simpl in *. rewrite map_length in H1. apply list_eq_same_length with (length rows);
    [|done|].
  { unfold enumerate. rewrite map_length, zip_with_length, length_py_range. unfold zlen. lia. }
  intros i x y Hi Hx Hy. destruct (lookup_lt_is_Some_2 rows i Hi) as [row Er].
  destruct (H3 i (samples space row)) as (w & c & Ew & _ & [Hw _]); [by rewrite list_lookup_fmap, Er|].
  assert (x = w) as -> by congruence. rewrite list_lookup_fmap in Hy.
  assert (enumerate rows !! i = Some (Z.of_nat i, row)) as E.
  { by rewrite lookup_enumerate, Er. }
  rewrite E in Hy. simpl in Hy. injection Hy as <-. subst w. unfold row_area. f_equal. apply map_ext. intros s.
  unfold area. by rewrite uncovered_diff.
Qed.

Lemma zsum_zero x l : zsum l = 0 -> Forall (fun x => 0 <= x) l -> x ∈ l -> x = 0.
Proof.
  intros H HF Hx. induction HF as [|y l Hy HF IH]; [inversion Hx|]. simpl in H. pose proof (zsum_nonneg _ HF).
  apply elem_of_cons in Hx as [->|Hx]; [lia|]. apply IH; [lia|done].
Qed.
