(** Proofs of the property theorems of Properties/P_Trie.v. *)
From Verif.Model Require Import PyBase Trie.
From Verif.Spec Require Import STrie.
Open Scope Z_scope.
From Verif.Proofs Require Import PBase PTrie.

(** all inserted sets, and those present at the last insert_batch *)
Definition hist_step (st : list (list Z) * list (list Z)) (op : trie_op) :=
  match op with
  | Insert s => (fst st ++ [s], snd st)
  | InsertBatch ss => (fst st ++ ss, fst st ++ ss)
  end.
Definition hist (ops : list trie_op) := fold_left hist_step ops ([], []).

Lemma hist_snoc ops op : hist (ops ++ [op]) = hist_step (hist ops) op.
Proof. unfold hist. by rewrite fold_left_app. Qed.

Lemma inserted_snoc ops op : inserted (ops ++ [op]) =
  inserted ops ++ match op with Insert s => [s] | InsertBatch ss => ss end.
Proof. unfold inserted. rewrite map_app, concat_app. simpl. by rewrite app_nil_r. Qed.

Lemma hist_inserted ops : fst (hist ops) = inserted ops.
Proof.
  induction ops as [|op ops IH] using rev_ind; [done|]. rewrite hist_snoc, inserted_snoc, <- IH.
  by destruct op.
Qed.

Lemma batched_snoc ops op s : batched (ops ++ [op]) s <->
  match op with Insert _ => batched ops s | InsertBatch ss => s ∈ inserted ops ++ ss end.
Proof.
  split.
  - intros (ops1 & ss & ops2 & E & Hs). destruct ops2 as [|op2 ops2 _] using rev_ind.
    + apply app_inj_tail in E as [-> ->]. done.
    + rewrite app_comm_cons, (assoc_L app) in E. apply app_inj_tail in E as [-> ->].
      destruct op2 as [s2|ss2].
      * exists ops1, ss, ops2. done.
      * unfold inserted in *. rewrite map_app, concat_app. simpl.
        rewrite !elem_of_app in *. destruct Hs; auto.
  - destruct op as [s'|ss].
    + intros (ops1 & ss & ops2 & -> & Hs). exists ops1, ss, (ops2 ++ [Insert s']).
      rewrite <- (assoc_L app). done.
    + intros Hs. exists ops, ss, []. done.
Qed.

Lemma hist_batched ops s : s ∈ snd (hist ops) <-> batched ops s.
Proof.
  induction ops as [|op ops IH] using rev_ind.
  - split; [intros H; inversion H|]. intros (ops1 & ss & ops2 & E & _). by destruct ops1.
  - rewrite hist_snoc, batched_snoc. destruct op; simpl; [done|]. by rewrite hist_inserted.
Qed.

(** I: sorted tuples inserted, B: those already populated *)
Record trie_inv (I B : list (list Z)) (t : node) : Prop := {
  ti_ord : ordered None t;
  ti_sub : forall q, q ∈ B -> q ∈ I;
  ti_last : forall q, (exists ca, view t q = Some (true, ca)) <-> q ∈ I /\ q <> [];
  ti_cache : forall q la ca, view t q = Some (la, ca) ->
    ca = if bool_decide (la = true /\ q ∈ B) then Some q else None
}.

Lemma trie_inv_empty : trie_inv [] [] trie_empty.
Proof.
  constructor.
  - apply ordered_empty.
  - done.
  - intros q. split; [|intros [H _]; inversion H]. intros [ca Hv]. by destruct q.
  - intros q la ca Hv. destruct q as [|x q]; [|done]. rewrite view_nil in Hv.
    unfold info in Hv. simpl in Hv. simplify_eq. done.
Qed.

Lemma trie_inv_insert I B t s : trie_inv I B t -> NoDup s ->
  exists t', insert t s = Ok t' /\ trie_inv (I ++ [py_sorted s]) B t'.
Proof.
  intros [Ho Hsub Hlast Hcache] Hnd. unfold insert.
  destruct (trie_insert_ok None t (py_sorted s) Ho) as (t' & -> & Ho' & Hv); [by apply py_sorted_lt|done|].
  exists t'. split; [done|]. constructor; [done| | |].
  - intros q Hq. apply elem_of_app. auto.
  - intros q. rewrite Hv. unfold ins_view. rewrite elem_of_app, elem_of_list_singleton.
    destruct (decide (q `prefix_of` py_sorted s)) as [Hp|Hnp].
    + destruct (view t q) as [[la ca]|] eqn:E; simpl.
      * split.
        -- intros [ca' E']. injection E' as Eb _. apply orb_true_iff in Eb as [->|Eb].
           ++ destruct (proj1 (Hlast q)) as [? ?]; [eauto|]. auto.
           ++ apply bool_decide_eq_true in Eb as [-> ?]. auto.
        -- intros [[Hq| ->] Hne].
           ++ destruct (proj2 (Hlast q)) as [ca' Hca]; [done|]. rewrite E in Hca. simplify_eq. eauto.
           ++ rewrite bool_decide_eq_true_2 by done. rewrite orb_true_r. eauto.
      * split.
        -- intros [ca' E']. injection E' as Eb _.
           apply bool_decide_eq_true in Eb as [-> ?]. auto.
        -- intros [[Hq| ->] Hne].
           ++ destruct (proj2 (Hlast q)) as [ca' Hca]; [done|]. rewrite E in Hca. done.
           ++ rewrite bool_decide_eq_true_2 by done. eauto.
    + rewrite Hlast. split; [tauto|]. intros [[?| ->] ?]; [done|]. exfalso. apply Hnp. done.
  - intros q la ca. rewrite Hv. unfold ins_view.
    destruct (decide (q `prefix_of` py_sorted s)) as [Hp|Hnp]; [|apply Hcache].
    assert (HB : q ∈ B -> q <> [] -> exists ca, view t q = Some (true, ca)).
    { intros Hb Hne. apply Hlast. auto. }
    destruct (view t q) as [[la0 ca0]|] eqn:E; simpl; intros Heq; injection Heq as <- <-.
    + rewrite (Hcache q la0 ca0 E).
      destruct (decide (q ∈ B)) as [Hb|Hb].
      * destruct q as [|x q].
        -- rewrite (bool_decide_eq_false_2 (_ = _ /\ [] <> [])) by tauto. by rewrite orb_false_r.
        -- destruct HB as [ca' Hca']; [done..|]. simplify_eq. simpl. done.
      * rewrite !bool_decide_eq_false_2; [done|tauto|tauto].
    + rewrite bool_decide_eq_false_2; [done|]. intros [Hl Hb]. apply bool_decide_eq_true in Hl as [_ Hne].
      destruct HB as [? ?]; done.
Qed.

Lemma trie_inv_insert_all I B t ss : trie_inv I B t -> (forall s, s ∈ ss -> NoDup s) ->
  exists t', rfold insert t ss = Ok t' /\ trie_inv (I ++ map py_sorted ss) B t'.
Proof.
  revert I t. induction ss as [|s ss IH]; intros I t Hi Hnd; simpl.
  - exists t. by rewrite app_nil_r.
  - destruct (trie_inv_insert I B t s Hi) as (t' & -> & Hi'); [apply Hnd; left|]. simpl.
    destruct (IH _ t' Hi') as (t'' & E & Hi''); [intros; apply Hnd; by right|].
    exists t''. split; [done|]. rewrite <- (assoc_L app) in Hi''. done.
Qed.

Lemma trie_inv_populate I B t : trie_inv I B t -> trie_inv I I (populate [] t).
Proof.
  intros [Ho Hsub Hlast Hcache]. constructor.
  - by apply ordered_populate.
  - done.
  - intros q. rewrite <- Hlast, view_populate. destruct (view t q) as [[la ca]|]; simpl.
    + split; intros [ca' E]; injection E as -> _; eauto.
    + split; intros [ca' E]; done.
  - intros q la ca. rewrite view_populate. destruct (view t q) as [[la0 ca0]|] eqn:E; simpl; [|done].
    intros Heq. injection Heq as <- <-. rewrite (Hcache q la0 ca0 E).
    destruct la0.
    + assert (q ∈ I) by (apply Hlast; eauto). rewrite (bool_decide_eq_true_2 (true = true /\ q ∈ I)) by done.
      case_bool_decide; done.
    + rewrite !bool_decide_eq_false_2; [done|naive_solver|naive_solver].
Qed.

Lemma sets_only_snoc ops op : sets_only (ops ++ [op]) ->
  sets_only ops /\ forall s, s ∈ match op with Insert s => [s] | InsertBatch ss => ss end -> NoDup s.
Proof.
  unfold sets_only. rewrite inserted_snoc. intros H. split; intros s Hs; apply H, elem_of_app; auto.
Qed.

Lemma run_trie_inv ops : sets_only ops ->
  exists t, run_trie ops = Ok t /\ trie_inv (map py_sorted (fst (hist ops))) (map py_sorted (snd (hist ops))) t.
Proof.
  induction ops as [|op ops IH] using rev_ind; intros Hs.
  - exists trie_empty. split; [done|]. apply trie_inv_empty.
  - apply sets_only_snoc in Hs as [Hs Hnd]. destruct (IH Hs) as (t & Et & Hi).
    assert (run_trie (ops ++ [op]) = trie_step t op) as ->.
    { unfold run_trie in *. revert Et. generalize trie_empty. induction ops as [|o ops IHo]; intros t0 Et; simpl in *.
      - simplify_eq. by destruct (trie_step t op).
      - destruct (trie_step t0 o) as [t1|]; simpl in *; [|done].
        (* the induction hypothesis of the outer induction is not needed here *)
        clear -Et. revert t1 Et. induction ops as [|o' ops IH]; intros t1 Et; simpl in *.
        + simplify_eq. by destruct (trie_step t op).
        + destruct (trie_step t1 o'); simpl in *; [|done]. auto. }
    rewrite hist_snoc. destruct op as [s|ss]; simpl in *.
    + rewrite map_app. simpl. apply trie_inv_insert; [done|]. apply Hnd. by apply elem_of_list_singleton.
    + unfold insert_batch. destruct (trie_inv_insert_all _ _ t ss Hi Hnd) as (t' & -> & Hi').
      simpl. eexists. split; [reflexivity|]. rewrite map_app. by eapply trie_inv_populate.
Qed.

(** what search_subsets / search_supersets can report, by content *)
Lemma hit_cases ops t q x : sets_only ops ->
  trie_inv (map py_sorted (fst (hist ops))) (map py_sorted (snd (hist ops))) t ->
  (view t q = Some (true, x) <->
    (exists s, batched ops s /\ s <> [] /\ sorted_tuple_of s q /\ x = Some q) \/
    (x = None /\ exists s, s ∈ inserted ops /\ s <> [] /\ sorted_tuple_of s q /\
       ~ exists s', batched ops s' /\ same_set s s')).
Proof.
  intros Hso [Ho Hsub Hlast Hcache].
  assert (Hnn : forall s, py_sorted s = q -> q <> [] -> s <> []).
  { intros s <- Hq ->. done. }
  assert (Hnn' : forall s, py_sorted s = q -> s <> [] -> q <> []).
  { intros s E Hs Hq. rewrite Hq in E. apply Hs. apply Permutation_nil. rewrite <- E.
    apply py_sorted_perm. }
  assert (Hbi : forall s, batched ops s -> s ∈ inserted ops).
  { intros s (ops1 & ss & ops2 & -> & Hs). unfold inserted in *. rewrite map_app, concat_app. simpl.
    rewrite !elem_of_app in *. destruct Hs; auto. }
  assert (HB : q ∈ map py_sorted (snd (hist ops)) <-> exists s, batched ops s /\ sorted_tuple_of s q).
  { rewrite elem_of_map. split.
    - intros (s & -> & Hs). apply hist_batched in Hs. exists s. split; [done|].
      apply sorted_tuple_py_sorted; [|done]. apply Hso. auto.
    - intros (s & Hs & Ht). exists s. split; [|by apply hist_batched]. symmetry.
      apply sorted_tuple_py_sorted; [|done]. apply Hso. auto. }
  assert (HI : q ∈ map py_sorted (fst (hist ops)) <-> exists s, s ∈ inserted ops /\ sorted_tuple_of s q).
  { rewrite elem_of_map, hist_inserted. split.
    - intros (s & -> & Hs). exists s. split; [done|].
      apply sorted_tuple_py_sorted; [|done]. apply Hso. auto.
    - intros (s & Hs & Ht). exists s. split; [|done]. symmetry.
      apply sorted_tuple_py_sorted; [|done]. apply Hso. auto. }
  assert (Hne : forall s, sorted_tuple_of s q -> (s <> [] <-> q <> [])).
  { intros s [_ Hsame]. split; intros Hs E; apply Hs; destruct s as [|z s], q as [|y q]; try done; exfalso.
    - specialize (Hsame z). set_solver.
    - specialize (Hsame y). set_solver. }
  split.
  - intros Hv. assert (Hc := Hcache _ _ _ Hv).
    destruct (proj1 (Hlast q)) as [Hq Hqne]; [eauto|].
    case_bool_decide as Hb.
    + destruct Hb as [_ Hb]. apply HB in Hb as (s & Hs & Ht). left. exists s. split_and!; try done.
      by apply (Hne s Ht).
    + right. split; [done|]. apply HI in Hq as (s & Hs & Ht). exists s. split_and!; try done.
      * by apply (Hne s Ht).
      * intros (s' & Hs' & Hsame). apply Hb. split; [done|]. apply HB. exists s'. split; [done|].
        destruct Ht as [Hq' Hsq]. split; [done|]. intros y. rewrite <- (Hsame y). apply Hsq.
  - intros [(s & Hs & Hsn & Ht & ->)|(-> & s & Hs & Hsn & Ht & Hnb)].
    + destruct (proj2 (Hlast q)) as [ca Hv].
      { split; [apply HI; exists s; auto|]. by apply (Hne s Ht). }
      rewrite Hv. assert (Hc := Hcache _ _ _ Hv). rewrite bool_decide_eq_true_2 in Hc; [by subst|].
      split; [done|]. apply HB. eauto.
    + destruct (proj2 (Hlast q)) as [ca Hv].
      { split; [apply HI; exists s; auto|]. by apply (Hne s Ht). }
      rewrite Hv. assert (Hc := Hcache _ _ _ Hv). rewrite bool_decide_eq_false_2 in Hc; [by subst|].
      intros [_ Hb]. apply HB in Hb as (s' & Hs' & Ht'). apply Hnb. exists s'. split; [done|].
      destruct Ht as [_ H1], Ht' as [_ H2]. intros y. rewrite (H1 y), (H2 y). done.
Qed.

Lemma C14_search_exact_proof : forall (ops : list trie_op) (q : list Z),
  sets_only ops -> NoDup q ->
  exists t b, run_trie ops = Ok t /\ search t q = Ok b /\
    (b = true <-> q <> [] /\ exists s, s ∈ inserted ops /\ same_set s q).
Proof.
  intros ops q Hso Hq. destruct (run_trie_inv ops Hso) as (t & Et & Hi).
  exists t. unfold search. destruct (Z.eqb_spec (zlen q) 0) as [E|E].
  - apply zlen_0 in E as ->. exists false. split_and!; try done. split; [done|]. intros [? _]. done.
  - assert (q <> []) as Hne by (intros ->; done).
    assert (py_sorted q <> []) as Hne'.
    { intros E'. apply Hne. apply Permutation_nil. rewrite <- E'. apply py_sorted_perm. }
    rewrite trie_search_view by done. eexists. split; [done|]. split; [reflexivity|].
    destruct Hi as [Ho Hsub Hlast Hcache].
    transitivity (exists ca, view t (py_sorted q) = Some (true, ca)).
    { destruct (view t (py_sorted q)) as [[[] ca]|]; naive_solver. }
    rewrite Hlast, elem_of_map, hist_inserted. split.
    + intros [(s & E' & Hs) _]. split; [done|]. exists s. split; [done|]. intros y.
      rewrite <- (py_sorted_perm s), <- E', py_sorted_perm. done.
    + intros [_ (s & Hs & Hsame)]. split; [|done]. exists s. split; [|done].
      apply sorted_unique; [by apply py_sorted_lt|apply py_sorted_lt; by apply Hso|].
      intros y. rewrite !py_sorted_perm. symmetry. apply Hsame.
Qed.



Lemma subsets_general ops q : sets_only ops -> NoDup q ->
  exists t, run_trie ops = Ok t /\ forall x, x ∈ search_subsets t q <->
    (exists s tup, batched ops s /\ s <> [] /\ (forall y, y ∈ s -> y ∈ q) /\ sorted_tuple_of s tup /\ x = Some tup) \/
    (x = None /\ exists s, s ∈ inserted ops /\ s <> [] /\ (forall y, y ∈ s -> y ∈ q) /\
       ~ exists s', batched ops s' /\ same_set s s').
Proof.
  intros Hso Hq. destruct (run_trie_inv ops Hso) as (t & Et & Hi). exists t. split; [done|]. intros x.
  assert (Hmain : x ∈ search_subsets t q <-> exists l, l <> [] /\ l `sublist_of` py_sorted q /\ view t l = Some (true, x)).
  { unfold search_subsets. destruct (Z.ltb_spec 0 (zlen q)) as [Hlt|Hge].
    - rewrite search_subsets_aux_spec. split; [intros [?|?]; [set_solver|done]|auto].
    - assert (q = []) as -> by (apply zlen_0; pose proof (zlen_nonneg q); lia).
      split; [set_solver|]. intros (l & Hl & Hsub & _). apply sublist_nil_r in Hsub. done. }
  assert (Hsubq : forall l, StronglySorted Z.lt l -> (l `sublist_of` py_sorted q <-> forall y, y ∈ l -> y ∈ q)).
  { intros l Hl. rewrite sorted_sublist_subset by (done || by apply py_sorted_lt).
    setoid_rewrite py_sorted_perm. done. }
  rewrite Hmain. split.
  - intros (l & Hl & Hsub & Hv). apply (hit_cases ops t l x Hso Hi) in Hv
      as [(s & Hs & Hsn & Ht & ->)|(-> & s & Hs & Hsn & Ht & Hnb)].
    + left. exists s, l. split_and!; try done. intros y Hy. destruct Ht as [Hls Hsame].
      apply (proj1 (Hsubq l Hls)); [done|]. by apply Hsame.
    + right. split; [done|]. exists s. split_and!; try done. intros y Hy. destruct Ht as [Hls Hsame].
      apply (proj1 (Hsubq l Hls)); [done|]. by apply Hsame.
  - assert (Hne : forall s l, sorted_tuple_of s l -> s <> [] -> l <> []).
    { intros s l [_ Hsame] Hs ->. destruct s as [|z s]; [done|]. specialize (Hsame z). set_solver. }
    intros [(s & l & Hs & Hsn & Hsq & Ht & ->)|(-> & s & Hs & Hsn & Hsq & Hnb)].
    + exists l. split; [by apply (Hne s)|]. split.
      * apply Hsubq; [by destruct Ht|]. intros y Hy. apply Hsq. by apply Ht.
      * apply (hit_cases ops t l _ Hso Hi). left. eauto 10.
    + exists (py_sorted s). assert (Ht : sorted_tuple_of s (py_sorted s)).
      { apply sorted_tuple_py_sorted; [by apply Hso|done]. }
      split; [by apply (Hne s)|]. split.
      * apply Hsubq; [by destruct Ht|]. intros y Hy. apply Hsq. by apply Ht.
      * apply (hit_cases ops t _ _ Hso Hi). right. split; [done|]. exists s. done.
Qed.

Lemma supersets_general ops q : sets_only ops -> NoDup q -> q <> [] ->
  exists t r, run_trie ops = Ok t /\ search_supersets t q = Ok r /\ forall x, x ∈ r <->
    (exists s tup, batched ops s /\ (forall y, y ∈ q -> y ∈ s) /\ sorted_tuple_of s tup /\ x = Some tup) \/
    (x = None /\ exists s, s ∈ inserted ops /\ (forall y, y ∈ q -> y ∈ s) /\
       ~ exists s', batched ops s' /\ same_set s s').
Proof.
  intros Hso Hq Hqne. destruct (run_trie_inv ops Hso) as (t & Et & Hi). exists t.
  assert (py_sorted q <> []) as Hne'.
  { intros E'. apply Hqne. apply Permutation_nil. rewrite <- E'. apply py_sorted_perm. }
  unfold search_supersets. destruct (Z.eqb_spec (zlen q) 0) as [E|E]; [apply zlen_0 in E; done|].
  destruct (search_supersets_spec None t (py_sorted q) (ti_ord _ _ _ Hi) Hne') as (r & -> & Hr).
  exists r. split; [done|]. split; [done|]. intros x. rewrite Hr.
  assert (Hsubq : forall l, StronglySorted Z.lt l -> (py_sorted q `sublist_of` l <-> forall y, y ∈ q -> y ∈ l)).
  { intros l Hl. rewrite sorted_sublist_subset by (done || by apply py_sorted_lt).
    setoid_rewrite py_sorted_perm. done. }
  assert (Hsne : forall s : list Z, (forall y, y ∈ q -> y ∈ s) -> s <> []).
  { intros s Hs ->. destruct q as [|z q]; [done|]. specialize (Hs z). set_solver. }
  split.
  - intros (l & Hv & Hsub). apply (hit_cases ops t l x Hso Hi) in Hv
      as [(s & Hs & Hsn & Ht & ->)|(-> & s & Hs & Hsn & Ht & Hnb)].
    + left. exists s, l. split_and!; try done. intros y Hy. destruct Ht as [Hls Hsame].
      apply Hsame. by apply (proj1 (Hsubq l Hls)).
    + right. split; [done|]. exists s. split_and!; try done. intros y Hy. destruct Ht as [Hls Hsame].
      apply Hsame. by apply (proj1 (Hsubq l Hls)).
  - intros [(s & l & Hs & Hsq & Ht & ->)|(-> & s & Hs & Hsq & Hnb)].
    + exists l. split.
      * apply (hit_cases ops t l _ Hso Hi). left. eauto 10.
      * apply Hsubq; [by destruct Ht|]. intros y Hy. apply Ht. auto.
    + exists (py_sorted s). assert (Ht : sorted_tuple_of s (py_sorted s)).
      { apply sorted_tuple_py_sorted; [by apply Hso|done]. }
      split.
      * apply (hit_cases ops t _ _ Hso Hi). right. split; [done|]. exists s. split_and!; auto.
      * apply Hsubq; [by destruct Ht|]. intros y Hy. apply Ht. auto.
Qed.

Lemma C15_subsets_exact_proof : forall (ops : list trie_op) (ss : list (list Z)) (q : list Z),
  let h := ops ++ [InsertBatch ss] in
  sets_only h -> NoDup q ->
  exists t, run_trie h = Ok t /\ forall x, x ∈ search_subsets t q <->
    exists s tup, s ∈ inserted h /\ s <> [] /\ (forall y, y ∈ s -> y ∈ q) /\
      sorted_tuple_of s tup /\ x = Some tup.
Proof.
  intros ops ss q h Hso Hq. destruct (subsets_general h q Hso Hq) as (t & Et & Hx).
  exists t. split; [done|]. intros x. rewrite Hx.
  assert (Hb : forall s, batched h s <-> s ∈ inserted h).
  { intros s. unfold h. rewrite batched_snoc, inserted_snoc. done. }
  split.
  - intros [(s & tup & Hs & H)|(_ & s & Hs & _ & _ & Hnb)].
    + exists s, tup. split; [by apply Hb|done].
    + exfalso. apply Hnb. exists s. split; [by apply Hb|]. done.
  - intros (s & tup & Hs & H). left. exists s, tup. split; [by apply Hb|done].
Qed.


Lemma C16_supersets_exact_proof : forall (ops : list trie_op) (ss : list (list Z)) (q : list Z),
  let h := ops ++ [InsertBatch ss] in
  sets_only h -> NoDup q ->
  exists t, run_trie h = Ok t /\
    (q = [] -> search_supersets t q = Err ValueError) /\
    (q <> [] -> exists r, search_supersets t q = Ok r /\ forall x, x ∈ r <->
      exists s tup, s ∈ inserted h /\ (forall y, y ∈ q -> y ∈ s) /\ sorted_tuple_of s tup /\ x = Some tup).
Proof.
  intros ops ss q h Hso Hq. destruct (run_trie_inv h Hso) as (t & Et & _).
  exists t. split; [done|]. split; [intros ->; done|]. intros Hne.
  destruct (supersets_general h q Hso Hq Hne) as (t' & r & Et' & Er & Hx).
  assert (t' = t) as -> by congruence. exists r. split; [done|]. intros x. rewrite Hx.
  assert (Hb : forall s, batched h s <-> s ∈ inserted h).
  { intros s. unfold h. rewrite batched_snoc, inserted_snoc. done. }
  split.
  - intros [(s & tup & Hs & H)|(_ & s & Hs & _ & Hnb)].
    + exists s, tup. split; [by apply Hb|done].
    + exfalso. apply Hnb. exists s. split; [by apply Hb|]. done.
  - intros (s & tup & Hs & H). left. exists s, tup. split; [by apply Hb|done].
Qed.


Lemma C17_unpopulated_as_None_proof : forall (ops : list trie_op) (q : list Z),
  sets_only ops -> NoDup q ->
  exists t, run_trie ops = Ok t /\
    (forall x, x ∈ search_subsets t q <->
      (exists s tup, batched ops s /\ s <> [] /\ (forall y, y ∈ s -> y ∈ q) /\
         sorted_tuple_of s tup /\ x = Some tup) \/
      (x = None /\ exists s, s ∈ inserted ops /\ s <> [] /\ (forall y, y ∈ s -> y ∈ q) /\
         ~ exists s', batched ops s' /\ same_set s s')) /\
    (q <> [] -> exists r, search_supersets t q = Ok r /\ forall x, x ∈ r <->
      (exists s tup, batched ops s /\ (forall y, y ∈ q -> y ∈ s) /\ sorted_tuple_of s tup /\ x = Some tup) \/
      (x = None /\ exists s, s ∈ inserted ops /\ (forall y, y ∈ q -> y ∈ s) /\
         ~ exists s', batched ops s' /\ same_set s s')).
Proof.
  intros ops q Hso Hq. destruct (subsets_general ops q Hso Hq) as (t & Et & Hx).
  exists t. split; [done|]. split; [done|]. intros Hne.
  destruct (supersets_general ops q Hso Hq Hne) as (t' & r & Et' & Er & Hr).
  assert (t' = t) as -> by congruence. eauto.
Qed.


Lemma C17_late_insert_lost_proof : forall (ops : list trie_op) (s q tup : list Z),
  sets_only (ops ++ [Insert s]) -> s <> [] -> NoDup q -> (forall y, y ∈ s -> y ∈ q) ->
  (~ exists s', s' ∈ inserted ops /\ same_set s s') -> sorted_tuple_of s tup ->
  exists t, run_trie (ops ++ [Insert s]) = Ok t /\
    None ∈ search_subsets t q /\ Some tup ∉ search_subsets t q.
Proof.
  intros ops s q tup Hso Hs Hq Hsub Hnew Htup.
  destruct (subsets_general _ q Hso Hq) as (t & Et & Hx). exists t. split; [done|]. rewrite !Hx.
  assert (Hbi : forall s, batched ops s -> s ∈ inserted ops).
  { intros s0 (ops1 & ss & ops2 & -> & Hs0). unfold inserted in *. rewrite map_app, concat_app. simpl.
    rewrite !elem_of_app in *. destruct Hs0; auto. }
  split.
  - right. split; [done|]. exists s. split_and!; try done.
    + rewrite inserted_snoc, elem_of_app, elem_of_list_singleton. auto.
    + intros (s' & Hb & Hsame). apply batched_snoc in Hb. apply Hnew. eauto.
  - intros [(s' & tup' & Hb & _ & _ & Ht & E)|[E _]]; [|done]. simplify_eq.
    apply batched_snoc in Hb. apply Hnew. exists s'. split; [auto|].
    intros y. destruct Htup as [_ H1], Ht as [_ H2]. rewrite (H1 y), (H2 y). done.
Qed.



(** ** C18 *)

Record node_ok {C} (n : fnode C) : Prop := {
  no_sorted : StronglySorted Z.lt (fn_items n);
  no_items : map fst (fn_children n) = fn_items n
}.

Definition dict_ok {C} (n : fnode2 C) : Prop :=
  forall x c, f2_dict n !! x = Some c <-> (x, c) ∈ fn_children (f2_node n).

Lemma fn_lookup_unique {C} (l : list (Z * C)) x c c' :
  NoDup (map fst l) -> (x, c) ∈ l -> (x, c') ∈ l -> c = c'.
Proof.
  induction l as [|[y d] l IH]; intros Hnd H1 H2; [inversion H1|].
  simpl in Hnd. inversion Hnd as [|? ? Hy Hnd']; subst.
  apply elem_of_cons in H1 as [E1|H1]; apply elem_of_cons in H2 as [E2|H2]; simplify_eq; auto.
  - exfalso. apply Hy, elem_of_map. exists (y, c'). done.
  - exfalso. apply Hy, elem_of_map. exists (y, c). done.
Qed.

Lemma agree_queries {C} (n : fnode C) (m : fnode2 C) :
  f2_node m = n -> node_ok n -> dict_ok m ->
  forall x, has_child1 n x = has_child2 m x /\ get_child1 n x = get_child2 m x.
Proof.
  intros E [Hs Hi] Hd x. unfold dict_ok in Hd. rewrite E in Hd.
  unfold has_child1, has_child2, get_child1, get_child2.
  rewrite Hi. destruct (binary_search_ok (fn_items n) x Hs) as (p & -> & Hp). simpl.
  destruct Hp as [[Hp Hl]|[-> Hx]].
  - destruct (Z.eqb_spec p (-1)); [lia|]. simpl.
    rewrite <- Hi in Hl. rewrite list_lookup_fmap in Hl. apply fmap_Some in Hl as ([y c] & Hl & E').
    simpl in E'. subst y.
    assert (f2_dict m !! x = Some c) as Ed by (apply Hd; by eapply elem_of_list_lookup_2).
    rewrite Ed. split; [by rewrite bool_decide_eq_true_2 by eauto|].
    rewrite (proj2 (py_index_ok _ p (x, c) Hp)) by done. done.
  - destruct (f2_dict m !! x) as [c|] eqn:Ed.
    + exfalso. apply Hx. rewrite <- Hi. apply elem_of_map. exists (x, c). split; [done|]. by apply Hd.
    + done.
Qed.

Lemma agree_add {C} (n : fnode C) (m : fnode2 C) x c :
  f2_node m = n -> node_ok n -> dict_ok m ->
  (exists e, add_child1 n x c = Err e /\ add_child2 m x c = Err e) \/
  (exists n' m', add_child1 n x c = Ok n' /\ add_child2 m x c = Ok m' /\
     f2_node m' = n' /\ node_ok n' /\ dict_ok m').
Proof.
  intros E Hn Hd. destruct (agree_queries n m E Hn Hd x) as [Hh _].
  unfold add_child1, add_child2. rewrite E. destruct (too_small (fn_item n) x); [left; eauto|].
  rewrite Hh. unfold has_child2. simpl. case_bool_decide as Hp; [left; eauto|]. right.
  destruct Hn as [Hs Hi]. unfold link_child.
  destruct (bisect_left_ok (fn_items n) x Hs) as (p & Ep & _). rewrite Ep. simpl.
  eexists _, _. split; [reflexivity|]. split; [reflexivity|]. simpl. split; [done|].
  unfold dict_ok in Hd. rewrite E in Hd.
  assert (Hx : x ∉ fn_items n).
  { rewrite <- Hi. intros H. apply elem_of_map in H as ([y d] & E' & H). simpl in E'. subst y.
    apply Hp. exists d. by apply Hd. }
  split.
  - constructor; simpl; [by apply bisect_insert_sorted|]. rewrite py_insert_map, Hi. done.
  - intros y d. simpl. rewrite py_insert_perm, elem_of_cons, lookup_insert_Some, <- Hd. split.
    + intros [[-> ->]|[? ?]]; auto.
    + intros [E'|H]; [simplify_eq; auto|]. right. split; [|done]. intros ->. apply Hp. eauto.
Qed.

Lemma C18_binary_search_proof : forall (arr : list Z) (x : Z),
  StronglySorted Z.lt arr ->
  exists p, binary_search arr x = Ok p /\
    (x ∈ arr -> 0 <= p < zlen arr /\ arr !! Z.to_nat p = Some x) /\ (x ∉ arr -> p = -1).
Proof.
  intros arr x Hs. destruct (binary_search_ok arr x Hs) as (p & E & Hp). exists p. split; [done|].
  destruct Hp as [[Hp Hl]|[-> Hx]]; split; intros Hin.
  - split; [|done]. apply lookup_lt_Some in Hl. unfold zlen. lia.
  - exfalso. apply Hin. by eapply elem_of_list_lookup_2.
  - done.
  - done.
Qed.


Lemma C18_nodes_agree_proof : forall (C : Type) (item : option Z) (calls : list (Z * C)),
  let r1 := add_children1 (fnode_new item) calls in
  let r2 := add_children2 (fnode2_new item) calls in
  snd r1 = snd r2 /\
  forall x, has_child1 (fst r1) x = has_child2 (fst r2) x /\ get_child1 (fst r1) x = get_child2 (fst r2) x.
Proof.
  intros C item calls.
  assert (H : forall n m, f2_node m = n -> node_ok n -> dict_ok m ->
    snd (add_children1 n calls) = snd (add_children2 m calls) /\
    forall x, has_child1 (fst (add_children1 n calls)) x = has_child2 (fst (add_children2 m calls)) x /\
              get_child1 (fst (add_children1 n calls)) x = get_child2 (fst (add_children2 m calls)) x).
  { induction calls as [|[x c] calls IH]; intros n m E Hn Hd; simpl.
    - split; [done|]. by apply agree_queries.
    - destruct (agree_add n m x c E Hn Hd) as [(e & -> & ->)|(n' & m' & -> & -> & E' & Hn' & Hd')].
      + specialize (IH n m E Hn Hd).
        destruct (add_children1 n calls), (add_children2 m calls). simpl in *. destruct IH as [-> ?]. done.
      + specialize (IH n' m' E' Hn' Hd').
        destruct (add_children1 n' calls), (add_children2 m' calls). simpl in *. destruct IH as [-> ?]. done. }
  apply H; [done| |].
  - constructor; [constructor|done].
  - intros x c. simpl. rewrite lookup_empty. split; [done|]. intros Hx. inversion Hx.
Qed.


Lemma C18_has_child_exact_proof : forall (C : Type) (item : option Z) (calls : list (Z * C)) (x : Z),
  let n := fst (add_children2 (fnode2_new item) calls) in
  has_child2 n x = Ok true <->
  x ∈ map fst calls /\ (forall i, item = Some i -> i < x).
Proof.
  intros C item calls x.
  assert (H : forall n m, f2_node m = n -> node_ok n -> dict_ok m -> fn_item n = item ->
    (has_child2 (fst (add_children2 m calls)) x = Ok true <->
     has_child2 m x = Ok true \/ (x ∈ map fst calls /\ (forall i, item = Some i -> i < x)))).
  { induction calls as [|[y c] calls IH]; intros n m E Hn Hd Hitem; simpl.
    - split; [auto|]. intros [?|[H _]]; [done|]. inversion H.
    - rewrite elem_of_cons.
      destruct (agree_add n m y c E Hn Hd) as [(e & E1 & E2)|(n' & m' & E1 & E2 & E' & Hn' & Hd')]; rewrite E2.
      + specialize (IH n m E Hn Hd Hitem). destruct (add_children2 m calls) as [m0 rs]. simpl in *.
        rewrite IH. split; [tauto|]. intros [?|[[->|?] Hi]]; auto. left.
        unfold add_child2 in E2. rewrite E, Hitem in E2.
        destruct item as [i|]; simpl in E2.
        * specialize (Hi i eq_refl). destruct (Z.leb_spec y i); [lia|].
          unfold has_child2 in *. simpl in E2. case_bool_decide; [done|].
          exfalso. unfold link_child in E2. destruct Hn as [Hs _].
          destruct (bisect_left_ok (fn_items n) y Hs) as (p & Ep & _). rewrite Ep in E2. done.
        * unfold has_child2 in *. simpl in E2. case_bool_decide; [done|].
          exfalso. unfold link_child in E2. destruct Hn as [Hs _].
          destruct (bisect_left_ok (fn_items n) y Hs) as (p & Ep & _). rewrite Ep in E2. done.
      + assert (Hitem' : fn_item n' = item).
        { rewrite <- E'. unfold add_child2 in E2. destruct (too_small _ _); [done|].
          unfold has_child2 in E2. simpl in E2. case_bool_decide; [done|]. unfold link_child in E2.
          destruct (bisect_left _ _); simpl in E2; [|done]. simplify_eq. simpl. done. }
        assert (Hdict : f2_dict m' = <[y := c]> (f2_dict m) /\ (forall i, item = Some i -> i < y)).
        { unfold add_child2 in E2. rewrite E, Hitem in E2.
          destruct (too_small item y) eqn:Et; [done|].
          unfold has_child2 in E2. simpl in E2. case_bool_decide; [done|]. unfold link_child in E2.
          destruct (bisect_left _ _); simpl in E2; [|done]. simplify_eq. simpl. split; [done|].
          intros i Hi. rewrite Hi in Et. simpl in Et. lia. }
        specialize (IH n' m' E' Hn' Hd' Hitem'). destruct (add_children2 m' calls) as [m0 rs]. simpl in *.
        rewrite IH. destruct Hdict as [Hdict Hlt]. unfold has_child2. rewrite Hdict.
        destruct (decide (x = y)) as [->|Hne].
        * rewrite lookup_insert. split; [auto|]. intros _. left. done.
        * rewrite lookup_insert_ne by done. tauto. }
  intros n. unfold n. rewrite (H (fnode_new item) (fnode2_new item)); try done.
  - split; [|auto]. intros [Hx|?]; [|done]. done.
  - constructor; [constructor|done].
  - intros y c. simpl. rewrite lookup_empty. split; [done|]. intros Hx. inversion Hx.
Qed.
