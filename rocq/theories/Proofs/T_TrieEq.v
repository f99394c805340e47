(** Proofs of the property theorems of Properties/P_TrieEq.v. *)
From Verif.Model Require Import PyBase Trie TrieEq.
From Verif.Spec Require Import STrie STrieEq.
From Verif.Proofs Require Import PBase PTrie T_Trie.
Open Scope Z_scope.

(** ** Equality seen through views *)

Definition agree {T} (g : bool * option (list Z) -> T) (a b : node) : Prop := forall q, g <$> view a q = g <$> view b q.

Definition agree_cs {T} (g : bool * option (list Z) -> T) (cs1 cs2 : list (Z * node)) : Prop :=
  Forall2 (fun x y : Z * node => fst x = fst y /\ agree g (snd x) (snd y)) cs1 cs2.

Lemma agree_keys {T} (g : bool * option (list Z) -> T) cs1 cs2 : agree_cs g cs1 cs2 -> map fst cs1 = map fst cs2.
Proof. induction 1 as [|x y l k [E _] _ IH]; [done|]. simpl. by rewrite E, IH. Qed.

Lemma agree_find {T} (g : bool * option (list Z) -> T) cs1 cs2 x : agree_cs g cs1 cs2 ->
  match find_child x cs1, find_child x cs2 with
  | Some c1, Some c2 => agree g c1 c2 | None, None => True | _, _ => False end.
Proof.
  induction 1 as [|[y1 c1] [y2 c2] l k [E Ha] _ IH]; simpl in *; [done|]. subst y2. by destruct (y1 =? x).
Qed.

Lemma cs_of_keys {T} (g : bool * option (list Z) -> T) (cs1 cs2 : list (Z * node)) :
  map fst cs1 = map fst cs2 -> NoDup (map fst cs1) ->
  (forall x c1 c2, find_child x cs1 = Some c1 -> find_child x cs2 = Some c2 -> agree g c1 c2) ->
  agree_cs g cs1 cs2.
Proof.
  revert cs2. induction cs1 as [|[y c] cs1 IH]; intros [|[y' c'] cs2] E Hnd H; simpl in *; try discriminate.
  - constructor.
  - injection E as -> E. apply list.NoDup_cons in Hnd as [Hni Hnd]. constructor.
    + split; [done|]. simpl. apply (H y'); by rewrite Z.eqb_refl.
    + apply IH; [done..|]. intros x c1 c2 H1 H2. apply (H x).
      * destruct (Z.eqb_spec y' x) as [->|_]; [|done]. exfalso. apply Hni.
        destruct (find_child_None x cs1) as [_ Hn]. destruct (decide (x ∈ map fst cs1)) as [Hi|Hi]; [done|].
        by rewrite (Hn Hi) in H1.
      * destruct (Z.eqb_spec y' x) as [->|_]; [|done]. exfalso. apply Hni. rewrite E.
        destruct (find_child_None x cs2) as [_ Hn]. destruct (decide (x ∈ map fst cs2)) as [Hi|Hi]; [done|].
        by rewrite (Hn Hi) in H2.
Qed.

Lemma key_view n x : x ∈ map fst (children n) <-> is_Some (view n [x]).
Proof.
  rewrite view_cons. split.
  - intros Hx. destruct (find_child x (children n)) as [c|] eqn:E; [rewrite view_nil; eauto|].
    by apply find_child_None in E.
  - intros [v Hv]. destruct (decide (x ∈ map fst (children n))) as [Hi|Hi]; [done|].
    apply find_child_None in Hi. by rewrite Hi in Hv.
Qed.

Lemma agree_some {T} (g : bool * option (list Z) -> T) a b q : agree g a b -> (is_Some (view a q) <-> is_Some (view b q)).
Proof. intros H. specialize (H q). destruct (view a q), (view b q); simpl in H; split; intros [? ?]; eauto; discriminate. Qed.

Lemma agree_node {T} (g : bool * option (list Z) -> T) lo a b : ordered lo a -> ordered lo b ->
  (agree g a b <-> g (info a) = g (info b) /\ agree_cs g (children a) (children b)).
Proof.
  intros Ha Hb. destruct (ordered_inv _ _ Ha) as (Sa & Na & _), (ordered_inv _ _ Hb) as (Sb & Nb & _). split.
  - intros H. split.
    + specialize (H []). rewrite !view_nil in H. by injection H.
    + apply cs_of_keys; [|done|].
      * apply sorted_unique; [done..|]. intros x. rewrite !key_view. by apply (agree_some g).
      * intros x c1 c2 H1 H2 q. specialize (H (x :: q)). rewrite !view_cons, H1, H2 in H. done.
  - intros [Hi Hc] [|x q].
    + rewrite !view_nil. simpl. by rewrite Hi.
    + rewrite !view_cons. pose proof (agree_find g _ _ x Hc) as Hf.
      destruct (find_child x (children a)), (find_child x (children b)); done || apply Hf.
Qed.

Lemma ordered_children lo n y c : ordered lo n -> (y, c) ∈ children n -> ordered (Some y) c.
Proof.
  intros Ho Hin. destruct (ordered_inv _ _ Ho) as (_ & Hn & Hc). apply (Hc y c). by apply find_child_Some.
Qed.

(** ** __eq__ *)

Definition eq_cs : list (Z * node) -> list (Z * node) -> bool :=
  fix go (cs1 cs2 : list (Z * node)) {struct cs1} : bool :=
         match cs1, cs2 with
         | (y1, c1) :: cs1', (y2, c2) :: cs2' => (y1 =? y2) && node_eq c1 c2 && go cs1' cs2'
         | _, _ => true
         end.

Lemma node_eq_unfold a b :
  node_eq a b = Bool.eqb (is_last a) (is_last b) && (zlen (children a) =? zlen (children b)) && eq_cs (children a) (children b).
Proof. destruct a, b. reflexivity. Qed.

Lemma eq_cs_spec (cs1 cs2 : list (Z * node)) :
  (zlen cs1 =? zlen cs2) && eq_cs cs1 cs2 = true <->
  Forall2 (fun x y : Z * node => fst x = fst y /\ node_eq (snd x) (snd y) = true) cs1 cs2.
Proof.
  revert cs2. induction cs1 as [|[y c] cs1 IH]; intros [|[y' c'] cs2].
  - split; [constructor|done].
  - split; [|intros H; inversion H]. unfold zlen. simpl. discriminate.
  - split; [|intros H; inversion H]. unfold zlen. simpl. discriminate.
  - rewrite list.Forall2_cons, <- IH, !zlen_cons.
    change (eq_cs ((y, c) :: cs1) ((y', c') :: cs2)) with ((y =? y') && node_eq c c' && eq_cs cs1 cs2).
    cbn [fst snd]. rewrite !andb_true_iff, !Z.eqb_eq. split.
    + intros (Hl & (-> & Hn) & Hc). split_and!; [done..|lia|done].
    + intros ((-> & Hn) & Hl & Hc). split_and!; [lia|done..].
Qed.

Lemma node_eq_agree a : forall lo b, ordered lo a -> ordered lo b -> (node_eq a b = true <-> agree fst a b).
Proof.
  induction a as [l s cs IH] using node_ind'. intros lo b Ha Hb.
  rewrite (agree_node fst lo _ _ Ha Hb), node_eq_unfold. cbn [is_last children info fst].
  rewrite <- andb_assoc, andb_true_iff, eqb_true_iff, eq_cs_spec. unfold agree_cs.
  assert (Hab : forall y c, (y, c) ∈ cs -> ordered (Some y) c) by (intros y c; apply (ordered_children lo _ y c Ha)).
  assert (Hbb : forall y c, (y, c) ∈ children b -> ordered (Some y) c) by (intros y c; apply (ordered_children lo _ y c Hb)).
  assert (Hiff : forall x y : Z * node, x ∈ cs -> y ∈ children b ->
    (fst x = fst y /\ node_eq (snd x) (snd y) = true <-> fst x = fst y /\ agree fst (snd x) (snd y))).
  { intros [y1 c1] [y2 c2] H1 H2. simpl. split; intros [-> H]; (split; [done|]);
      apply (IH y2 c1 H1 (Some y2) c2); auto. }
  apply and_iff_compat_l.
  clear -Hiff. revert Hiff. generalize (children b). intros k Hiff. split; intros H.
  - induction H as [|x y l k Hxy Hlk IH]; constructor.
    + apply Hiff; [left|left|done].
    + apply IH. intros; apply Hiff; by right.
  - induction H as [|x y l k Hxy Hlk IH]; constructor.
    + apply Hiff; [left|left|done].
    + apply IH. intros; apply Hiff; by right.
Qed.

(** ** as_nested_tuple *)

Definition nested_cs : list (Z * node) -> list ptuple :=
  fix go (cs : list (Z * node)) : list ptuple :=
    match cs with [] => [] | (y, c) :: cs' => as_nested_tuple (Some y) c :: go cs' end.

Lemma nested_shape i n : exists r, as_nested_tuple i n = PTuple (PItem i :: r) /\ r <> [] /\
  (r = nested_cs (children n) \/ children n = [] /\ r = [PTuple []]).
Proof.
  destruct n as [l s [|[y c] cs]]; simpl.
  - exists [PTuple []]. split_and!; [done..|by right].
  - eexists. split; [reflexivity|]. split; [done|by left].
Qed.

Lemma nested_inj i j a b : as_nested_tuple i a = as_nested_tuple j b <->
  i = j /\ nested_cs (children a) = nested_cs (children b).
Proof.
  split.
  - destruct a as [l s cs], b as [l' s' cs'].
    destruct cs as [|[y c] cs], cs' as [|[y' c'] cs']; simpl; intros E.
    + by injection E.
    + exfalso. destruct (nested_shape (Some y') c') as (r & Er & _). rewrite Er in E. simplify_eq.
    + exfalso. destruct (nested_shape (Some y) c) as (r & Er & _). rewrite Er in E. simplify_eq.
    + injection E as -> E1 E2. split; [done|]. exact (f_equal2 cons E1 E2).
  - intros [-> E]. destruct a as [l s cs], b as [l' s' cs']. destruct cs as [|[y c] cs], cs' as [|[y' c'] cs']; simpl in *; try done.
    injection E as E1 E2. exact (f_equal PTuple (f_equal (cons (PItem j)) (f_equal2 cons E1 E2))).
Qed.

Lemma nested_cs_spec cs1 cs2 : nested_cs cs1 = nested_cs cs2 <->
  Forall2 (fun x y : Z * node => fst x = fst y /\ as_nested_tuple (Some (fst x)) (snd x) = as_nested_tuple (Some (fst y)) (snd y)) cs1 cs2.
Proof.
  revert cs2. induction cs1 as [|[y c] cs1 IH]; intros [|[y' c'] cs2].
  - split; [constructor|done].
  - split; [done|]. intros H; inversion H.
  - split; [done|]. intros H; inversion H.
  - rewrite list.Forall2_cons, <- IH. simpl. split.
    + intros E. injection E as E1 E2. split; [|done]. split; [|done]. apply nested_inj in E1 as [E1 _]. congruence.
    + intros [[_ ->] ->]. done.
Qed.

Lemma nested_agree a : forall lo b i, ordered lo a -> ordered lo b ->
  (as_nested_tuple i a = as_nested_tuple i b <-> agree (fun _ => tt) a b).
Proof.
  induction a as [l s cs IH] using node_ind'. intros lo b i Ha Hb.
  rewrite (agree_node _ lo _ _ Ha Hb), nested_inj. cbn [children]. rewrite nested_cs_spec. unfold agree_cs.
  assert (Hab : forall y c, (y, c) ∈ cs -> ordered (Some y) c) by (intros y c; apply (ordered_children lo _ y c Ha)).
  assert (Hbb : forall y c, (y, c) ∈ children b -> ordered (Some y) c) by (intros y c; apply (ordered_children lo _ y c Hb)).
  assert (Hiff : forall x y : Z * node, x ∈ cs -> y ∈ children b ->
    (fst x = fst y /\ as_nested_tuple (Some (fst x)) (snd x) = as_nested_tuple (Some (fst y)) (snd y) <->
     fst x = fst y /\ agree (fun _ => tt) (snd x) (snd y))).
  { intros [y1 c1] [y2 c2] H1 H2. simpl. split; intros [-> H]; (split; [done|]);
      apply (IH y2 c1 H1 (Some y2) c2 (Some y2)); auto. }
  split; (intros [_ H]; split; [done|]); revert Hiff H; clear; generalize (children b); intros k Hiff H;
    induction H as [|x y l k Hxy Hlk IH]; constructor; try (apply Hiff; [left|left|done]); apply IH; intros; apply Hiff; by right.
Qed.

(** ** Which nodes exist *)

Definition shape_inv (I : list (list Z)) (t : node) : Prop :=
  ordered None t /\ forall q, is_Some (view t q) <-> q = [] \/ exists l, l ∈ I /\ q `prefix_of` l.

Lemma shape_insert I t s : shape_inv I t -> NoDup s ->
  exists t', insert t s = Ok t' /\ shape_inv (I ++ [py_sorted s]) t'.
Proof.
  intros [Ho Hv] Hnd. unfold insert.
  destruct (trie_insert_ok None t (py_sorted s) Ho) as (t' & -> & Ho' & Hv'); [by apply py_sorted_lt|done|].
  exists t'. split; [done|]. split; [done|]. intros q. rewrite Hv'. unfold ins_view.
  destruct (decide _) as [Hp|Hp].
  - split; [intros _|eauto]. right. exists (py_sorted s). split; [|done]. apply elem_of_app. right. left.
  - rewrite Hv. split; (intros [->|(l & Hl & Hql)]; [by left|right; exists l; split; [|done]]).
    + apply elem_of_app. by left.
    + apply elem_of_app in Hl as [Hl|Hl]; [done|]. apply elem_of_list_singleton in Hl as ->. done.
Qed.

Lemma shape_insert_all I t ss : shape_inv I t -> (forall s, s ∈ ss -> NoDup s) ->
  exists t', rfold insert t ss = Ok t' /\ shape_inv (I ++ map py_sorted ss) t'.
Proof.
  revert I t. induction ss as [|s ss IH]; intros I t Hi Hnd; simpl.
  - exists t. by rewrite app_nil_r.
  - destruct (shape_insert I t s Hi) as (t' & -> & Hi'); [apply Hnd; left|]. simpl.
    destruct (IH _ t' Hi') as (t'' & E & Hi''); [intros; apply Hnd; by right|].
    exists t''. split; [done|]. rewrite <- (assoc_L app) in Hi''. done.
Qed.

Lemma shape_populate I t : shape_inv I t -> shape_inv I (populate [] t).
Proof.
  intros [Ho Hv]. split; [by apply ordered_populate|]. intros q. rewrite view_populate, <- Hv.
  destruct (view t q) as [[la ca]|]; simpl; [|done]. split; eauto.
Qed.

Lemma run_snoc ops op : run_trie (ops ++ [op]) = (let! t := run_trie ops in trie_step t op).
Proof.
  unfold run_trie. generalize trie_empty. induction ops as [|o ops IH]; intros t; simpl.
  - by destruct (trie_step t op).
  - destruct (trie_step t o); simpl; [apply IH|done].
Qed.

Lemma run_shape ops : sets_only ops -> exists t, run_trie ops = Ok t /\ shape_inv (map py_sorted (inserted ops)) t.
Proof.
  induction ops as [|op ops IH] using rev_ind; intros Hs.
  - exists trie_empty. split; [done|]. split; [apply ordered_empty|]. intros [|x q]; simpl.
    + split; [by left|]. intros _. eauto.
    + split; [by intros [? ?]|]. intros [?|(l & Hl & _)]; [done|]. inversion Hl.
  - apply sets_only_snoc in Hs as [Hs Hnd]. destruct (IH Hs) as (t & Et & Hi).
    rewrite run_snoc, Et, inserted_snoc, map_app. simpl. destruct op as [s|ss]; simpl.
    + apply shape_insert; [done|]. apply Hnd. left.
    + unfold insert_batch. destruct (shape_insert_all _ t ss Hi Hnd) as (t' & -> & Hi').
      simpl. eexists. split; [done|]. by apply shape_populate.
Qed.

Lemma run_last ops t : sets_only ops -> run_trie ops = Ok t ->
  ordered None t /\ forall q, (fst <$> view t q = Some true <-> q <> [] /\ exists s, s ∈ inserted ops /\ sorted_tuple_of s q).
Proof.
  intros Hs Et. destruct (run_trie_inv ops Hs) as (t' & Et' & Hi). assert (t' = t) as -> by congruence.
  destruct Hi as [Ho Hsub Hlast Hcache]. split; [done|]. intros q.
  transitivity (exists c, view t q = Some (true, c)).
  { split; [|by intros [c ->]]. destruct (view t q) as [[la ca]|]; simpl; intros E; [|done]. exists ca. congruence. }
  rewrite Hlast, hist_inserted. split.
  - intros [Hin Hq]. split; [done|]. apply elem_of_map in Hin as (s & -> & Hin). exists s. split; [done|].
    apply sorted_tuple_py_sorted; [by apply Hs|done].
  - intros [Hq (s & Hin & Hst)]. split; [|done]. apply elem_of_map. exists s. split; [|done].
    symmetry. apply sorted_tuple_py_sorted; [by apply Hs|done].
Qed.

Lemma initial_spec ops p : sets_only ops ->
  (initial_part ops p <-> exists l, l ∈ map py_sorted (inserted ops) /\ p `prefix_of` l).
Proof.
  intros Hs. split.
  - intros (s & tup & Hin & Hst & Hp). exists tup. split; [|done]. apply elem_of_map. exists s. split; [|done].
    symmetry. apply sorted_tuple_py_sorted; [by apply Hs|done].
  - intros (l & Hl & Hp). apply elem_of_map in Hl as (s & -> & Hin). exists s, (py_sorted s). split_and!; [done| |done].
    apply sorted_tuple_py_sorted; [by apply Hs|done].
Qed.

Lemma run_view_some ops t q : sets_only ops -> run_trie ops = Ok t ->
  (is_Some (view t q) <-> q = [] \/ initial_part ops q).
Proof.
  intros Hs Et. destruct (run_shape ops Hs) as (t' & Et' & _ & Hv). assert (t' = t) as -> by congruence.
  by rewrite Hv, initial_spec.
Qed.

Lemma initial_closed ops p r : initial_part ops r -> p `prefix_of` r -> initial_part ops p.
Proof. intros (s & tup & H1 & H2 & H3) Hp. exists s, tup. split_and!; [done..|]. by transitivity r. Qed.

Lemma C81_equal_proof : forall (ops1 ops2 : list trie_op),
  sets_only ops1 -> sets_only ops2 ->
  exists t1 t2, run_trie ops1 = Ok t1 /\ run_trie ops2 = Ok t2 /\
    (node_eq t1 t2 = true <-> same_inserted ops1 ops2).
Proof.
  intros ops1 ops2 Hs1 Hs2. destruct (run_shape ops1 Hs1) as (t1 & E1 & _), (run_shape ops2 Hs2) as (t2 & E2 & _).
  exists t1, t2. split_and!; [done..|].
  destruct (run_last ops1 t1 Hs1 E1) as [Ho1 L1], (run_last ops2 t2 Hs2 E2) as [Ho2 L2].
  rewrite (node_eq_agree t1 None t2 Ho1 Ho2).
  assert (Hsame : forall s q : list Z, sorted_tuple_of s q -> s <> [] <-> q <> []).
  { intros s q [_ H]. split; intros Hn ->; apply Hn.
    - destruct s as [|x s]; [done|]. exfalso. specialize (H x). destruct H as [H _]. specialize (H ltac:(left)). inversion H.
    - destruct q as [|x q]; [done|]. exfalso. specialize (H x). destruct H as [_ H]. specialize (H ltac:(left)). inversion H. }
  split.
  - intros Ha s Hne. set (q := py_sorted (remove_dups s)).
    assert (Hq : sorted_tuple_of s q).
    { unfold q. assert (sorted_tuple_of (remove_dups s) (py_sorted (remove_dups s))) as [H1 H2].
      { apply sorted_tuple_py_sorted; [apply NoDup_remove_dups|done]. }
      split; [done|]. intros x. rewrite <- (H2 x). by rewrite elem_of_remove_dups. }
    assert (Hqne : q <> []) by (by apply (Hsame s)).
    assert (Hst : forall ops, (exists s1, s1 ∈ inserted ops /\ same_set s1 s) <-> (exists s1, s1 ∈ inserted ops /\ sorted_tuple_of s1 q)).
    { intros ops. split; intros (s1 & Hin & H); exists s1; (split; [done|]).
      - destruct Hq as [Hq1 Hq2]. split; [done|]. intros x. by rewrite (H x), (Hq2 x).
      - destruct Hq as [Hq1 Hq2], H as [_ H]. intros x. by rewrite (H x), (Hq2 x). }
    rewrite !Hst. specialize (L1 q). specialize (L2 q). rewrite (Ha q) in L1. rewrite L1 in L2. tauto.
  - intros Hsm.
    assert (Hlast : forall q, fst <$> view t1 q = Some true <-> fst <$> view t2 q = Some true).
    { intros q. rewrite L1, L2. split; intros [Hq (s & Hin & Hst)]; (split; [done|]).
      - destruct (Hsm s) as [H _]; [by apply (Hsame s q)|]. destruct H as (s2 & Hin2 & H2); [by exists s|].
        exists s2. split; [done|]. destruct Hst as [Hst1 Hst2]. split; [done|]. intros x. by rewrite (H2 x), (Hst2 x).
      - destruct (Hsm s) as [_ H]; [by apply (Hsame s q)|]. destruct H as (s2 & Hin2 & H2); [by exists s|].
        exists s2. split; [done|]. destruct Hst as [Hst1 Hst2]. split; [done|]. intros x. by rewrite (H2 x), (Hst2 x). }
    assert (Himp : forall opsa opsb ta tb, sets_only opsa -> sets_only opsb -> run_trie opsa = Ok ta -> run_trie opsb = Ok tb ->
      (forall q, fst <$> view ta q = Some true -> fst <$> view tb q = Some true) ->
      (forall q, fst <$> view ta q = Some true <-> q <> [] /\ exists s, s ∈ inserted opsa /\ sorted_tuple_of s q) ->
      (forall q, fst <$> view tb q = Some true <-> q <> [] /\ exists s, s ∈ inserted opsb /\ sorted_tuple_of s q) ->
      forall q, is_Some (view ta q) -> is_Some (view tb q)).
    { intros opsa opsb ta tb Ha Hb Ea Eb Hi La Lb q. rewrite (run_view_some opsa ta q Ha Ea), (run_view_some opsb tb q Hb Eb).
      intros [->|(s & tup & Hin & Hst & Hp)]; [by left|]. destruct (decide (q = [])) as [->|Hq]; [by left|]. right.
      assert (Htne : tup <> []) by (intros ->; apply prefix_nil_inv in Hp; done).
      destruct (Lb tup) as [Hlb _]. destruct Hlb as (_ & s' & Hin' & Hst').
      { apply Hi, La. split; [done|]. by exists s. }
      by exists s', tup. }
    intros q.
    assert (Hsome : is_Some (view t1 q) <-> is_Some (view t2 q)).
    { split.
      - apply (Himp ops1 ops2); try done. intros q0 H0. by apply Hlast.
      - apply (Himp ops2 ops1); try done. intros q0 H0. by apply Hlast. }
    specialize (Hlast q).
    destruct (view t1 q) as [[l1 c1]|], (view t2 q) as [[l2 c2]|]; simpl in *.
    + f_equal. destruct l1, l2; try done.
      * destruct Hlast as [H _]. specialize (H eq_refl). congruence.
      * destruct Hlast as [_ H]. specialize (H eq_refl). congruence.
    + destruct Hsome as [H _]. destruct H as [? ?]; [eauto|done].
    + destruct Hsome as [_ H]. destruct H as [? ?]; [eauto|done].
    + done.
Qed.


Lemma C81_nested_tuple_proof : forall (ops1 ops2 : list trie_op),
  sets_only ops1 -> sets_only ops2 ->
  exists t1 t2, run_trie ops1 = Ok t1 /\ run_trie ops2 = Ok t2 /\
    (as_nested_tuple None t1 = as_nested_tuple None t2 <->
     forall p, p <> [] -> (initial_part ops1 p <-> initial_part ops2 p)) /\
    (node_eq t1 t2 = true -> as_nested_tuple None t1 = as_nested_tuple None t2).
Proof.
  intros ops1 ops2 Hs1 Hs2. destruct (run_shape ops1 Hs1) as (t1 & E1 & Ho1 & _), (run_shape ops2 Hs2) as (t2 & E2 & Ho2 & _).
  exists t1, t2. split_and!; [done..| |].
  - rewrite (nested_agree t1 None t2 None Ho1 Ho2). split.
    + intros Ha p Hp. pose proof (agree_some _ _ _ p Ha) as H.
      rewrite (run_view_some ops1 t1 p Hs1 E1), (run_view_some ops2 t2 p Hs2 E2) in H. tauto.
    + intros Hi q.
      assert (H : is_Some (view t1 q) <-> is_Some (view t2 q)).
      { rewrite (run_view_some ops1 t1 q Hs1 E1), (run_view_some ops2 t2 q Hs2 E2).
        destruct (decide (q = [])) as [->|Hq]; [tauto|]. specialize (Hi q Hq). tauto. }
      destruct (view t1 q), (view t2 q); simpl; try done.
      * destruct H as [H _]. destruct H as [? ?]; [eauto|done].
      * destruct H as [_ H]. destruct H as [? ?]; [eauto|done].
  - rewrite (nested_agree t1 None t2 None Ho1 Ho2), (node_eq_agree t1 None t2 Ho1 Ho2). intros Ha q. specialize (Ha q).
    destruct (view t1 q) as [[]|], (view t2 q) as [[]|]; simpl in *; congruence.
Qed.


Lemma C81_tuple_misses_end_marks_proof : forall (ops : list trie_op) (p : list Z),
  sets_only ops -> p <> [] -> initial_part ops p -> (~ exists s, s ∈ inserted ops /\ same_set s p) ->
  exists t1 t2, run_trie ops = Ok t1 /\ run_trie (ops ++ [Insert p]) = Ok t2 /\
    as_nested_tuple None t1 = as_nested_tuple None t2 /\ node_eq t1 t2 = false.
Proof.
  intros ops p Hs Hp Hip Hni.
  assert (Hsp : StronglySorted Z.lt p).
  { destruct Hip as (s & tup & _ & [Hst _] & [k ->]). by apply StronglySorted_app_inv in Hst as (? & _). }
  assert (Hs2 : sets_only (ops ++ [Insert p])).
  { intros s. rewrite inserted_snoc. intros [H|H]%elem_of_app; [by apply Hs|].
    apply elem_of_list_singleton in H as ->. by apply sorted_NoDup. }
  destruct (C81_nested_tuple_proof ops (ops ++ [Insert p]) Hs Hs2) as (t1 & t2 & E1 & E2 & Hn & _).
  destruct (C81_equal_proof ops (ops ++ [Insert p]) Hs Hs2) as (t1' & t2' & E1' & E2' & He).
  assert (t1' = t1) as -> by congruence. assert (t2' = t2) as -> by congruence.
  exists t1, t2. split_and!; [done..| |].
  - apply Hn. intros q Hq. split.
    + intros (s & tup & Hin & H). exists s, tup. split; [|done]. rewrite inserted_snoc. apply elem_of_app. by left.
    + intros (s & tup & Hin & Hst & Hpr). rewrite inserted_snoc in Hin. apply elem_of_app in Hin as [Hin|Hin].
      * by exists s, tup.
      * apply elem_of_list_singleton in Hin as ->. destruct Hst as [Hst1 Hst2].
        assert (p = tup) as <- by (by apply sorted_unique). by apply (initial_closed ops q p).
  - destruct (node_eq t1 t2) eqn:E; [|done]. exfalso. destruct He as [He _]. specialize (He eq_refl p Hp). apply Hni.
    apply He. exists p. split; [|done]. rewrite inserted_snoc. apply elem_of_app. right. left.
Qed.
