(** Proofs of the property theorems of Properties/P_GreedyArea.v. *)
From Verif.Model Require Import PyBase Rand GreedyArea.
From Verif.Spec Require Import SGreedyArea.
Open Scope Z_scope.
From Verif.Model Require Import Plot.
From Verif.Proofs Require Import PBase PAssign PRand T_Plot T_Data.
Open Scope Z_scope.

(** ** Rows *)
Lemma elem_of_ones row l : l ∈ ones row <-> has_one row l.
Proof.
  unfold ones, has_one. split.
  - intros H. apply elem_of_map in H as ([i v] & -> & H). apply elem_of_list_In, filter_In in H as [H1 H2].
    apply elem_of_list_In, elem_of_enumerate in H1. apply Z.eqb_eq in H2. simpl in *. subst. done.
  - intros H. apply elem_of_map. exists (l, 1). split; [done|]. apply elem_of_list_In, filter_In. split; [|done].
    apply elem_of_list_In, elem_of_enumerate. done.
Qed.

Lemma NoDup_map_filter {A} (f : A -> bool) (g : A -> Z) l : NoDup (map g l) -> NoDup (map g (List.filter f l)).
Proof.
  induction l as [|x l IH]; [done|]. cbn. intros H. apply list.NoDup_cons in H as [H1 H2]. destruct (f x); [|auto].
  cbn. apply list.NoDup_cons. split; [|auto]. intros Hin. apply H1. apply elem_of_map in Hin as (y & -> & Hy).
  apply elem_of_map. exists y. split; [done|]. apply elem_of_list_In, filter_In in Hy as [Hy _]. by apply elem_of_list_In.
Qed.

Lemma NoDup_ones row : NoDup (ones row).
Proof. apply NoDup_map_filter. rewrite map_fst_enumerate. apply NoDup_py_range. Qed.

Lemma zlen_ones row : zlen (ones row) = n_ones row.
Proof.
  unfold ones, n_ones. rewrite zlen_map. induction row as [|x row IH] using rev_ind; [done|].
  rewrite enumerate_snoc, !filter_app, !zlen_app, IH. cbn. by destruct (x =? 1).
Qed.

Lemma size_ones row : Z.of_nat (size (py_set (ones row))) = n_ones row.
Proof. rewrite <- zlen_ones. unfold py_set. rewrite size_list_to_set by apply NoDup_ones. done. Qed.

Lemma ord_elem ord (s : gset Z) x : set_order ord -> x ∈ ord s <-> x ∈ s.
Proof. intros Hord. rewrite (Hord s). apply elem_of_elements. Qed.
Lemma ord_NoDup ord (s : gset Z) : set_order ord -> NoDup (ord s).
Proof. intros Hord. rewrite (Hord s). apply NoDup_elements. Qed.

(** ** Counting *)
Lemma count_incr_get {K} `{Countable K} (m : gmap K Z) k k' :
  count_get (count_incr m k) k' = count_get m k' + (if decide (k' = k) then 1 else 0).
Proof.
  unfold count_incr, count_get. destruct (decide (k' = k)) as [->|Hk]; [by rewrite lookup_insert|].
  rewrite lookup_insert_ne by done. lia.
Qed.

Fixpoint pairs_rec (bag : list Z) (m : gmap (Z * Z) Z) : gmap (Z * Z) Z :=
  match bag with
  | [] => m
  | a :: l => pairs_rec l (foldl (fun m b => count_incr (count_incr m (a, b)) (b, a)) m l)
  end.

Lemma index_mid {A} (pre : list A) x l : py_index (pre ++ x :: l) (zlen pre) = Ok x.
Proof. apply py_index_ok; [apply zlen_nonneg|]. unfold zlen. rewrite Nat2Z.id. by apply list_lookup_middle. Qed.

Lemma inner_pairs (bag pre : list Z) (a : Z) (l : list Z) : forall (mid l2 : list Z) (m : gmap (Z * Z) Z), bag = pre ++ a :: mid ++ l2 -> l = mid ++ l2 ->
  rfold (fun m j => let! x := py_index bag (zlen pre) in let! b := py_index bag j in
      Ok (count_incr (count_incr m (x, b)) (b, x))) m (seqZ (zlen pre + 1 + zlen mid) (zlen l2))
  = Ok (foldl (fun m b => count_incr (count_incr m (a, b)) (b, a)) m l2).
Proof.
  intros mid l2. revert mid. induction l2 as [|b l2 IH]; intros mid m E El; [done|].
  rewrite zlen_cons, seqZ_cons by (pose proof (zlen_nonneg l2); lia). cbn [rfold foldl].
  assert (py_index bag (zlen pre) = Ok a) as Hpa by (rewrite E; apply index_mid). rewrite Hpa in IH |- *. cbn [rbind] in IH |- *.
  assert (py_index bag (zlen pre + 1 + zlen mid) = Ok b) as ->.
  { rewrite E. replace (pre ++ a :: mid ++ b :: l2) with ((pre ++ a :: mid) ++ b :: l2) by by rewrite <- app_assoc.
    replace (zlen pre + 1 + zlen mid) with (zlen (pre ++ a :: mid)) by (rewrite zlen_app, zlen_cons; lia). apply index_mid. }
  cbn [rbind]. replace (Z.succ (zlen pre + 1 + zlen mid)) with (zlen pre + 1 + zlen (mid ++ [b])) by (rewrite zlen_app, zlen_cons; change (zlen []) with 0; lia).
  replace (Z.pred (zlen l2 + 1)) with (zlen l2) by lia. apply IH; rewrite E || rewrite El; by rewrite <- app_assoc.
Qed.

Lemma pair_counts_rec (bag : list Z) (m : gmap (Z * Z) Z) : pair_counts bag m = Ok (pairs_rec bag m).
Proof.
  unfold pair_counts. assert (H : forall (suf pre : list Z) (m : gmap (Z * Z) Z), bag = pre ++ suf ->
    rfold (fun m i => rfold (fun m j => let! a := py_index bag i in let! b := py_index bag j in
      Ok (count_incr (count_incr m (a, b)) (b, a))) m (seqZ (i + 1) (zlen bag - (i + 1)))) m (seqZ (zlen pre) (zlen suf))
    = Ok (pairs_rec suf m)).
  { induction suf as [|a l IH]; intros pre m0 E; [done|].
    rewrite zlen_cons, seqZ_cons by (pose proof (zlen_nonneg l); lia). cbn [rfold].
    replace (zlen bag - (zlen pre + 1)) with (zlen l) by (rewrite E, zlen_app, zlen_cons; lia).
    pose proof (inner_pairs bag pre a l [] l m0 E eq_refl) as Hi. change (zlen (@nil Z)) with 0 in Hi. rewrite Z.add_0_r in Hi.
    rewrite Hi. cbn [rbind pairs_rec]. replace (Z.succ (zlen pre)) with (zlen (pre ++ [a])) by (rewrite zlen_app, zlen_cons; change (zlen []) with 0; lia).
    replace (Z.pred (zlen l + 1)) with (zlen l) by lia. apply IH. by rewrite E, <- app_assoc. }
  apply (H bag [] m). done.
Qed.

Definition b2z (b : bool) : Z := if b then 1 else 0.

Lemma inner_count (a : Z) (l : list Z) : forall (m : gmap (Z * Z) Z) (p q : Z), a ∉ l -> NoDup l ->
  count_get (foldl (fun m b => count_incr (count_incr m (a, b)) (b, a)) m l) (p, q)
  = count_get m (p, q) + b2z (bool_decide (p = a /\ q ∈ l \/ q = a /\ p ∈ l)).
Proof.
  induction l as [|b l IH]; intros m p q Ha Hl; cbn [foldl].
  { rewrite bool_decide_eq_false_2; [cbn; lia|]. set_solver. }
  apply not_elem_of_cons in Ha as [Hab Ha]. apply list.NoDup_cons in Hl as [Hb Hl]. rewrite IH by done. rewrite !count_incr_get.
  assert (Ex : p = a /\ q ∈ b :: l \/ q = a /\ p ∈ b :: l <-> (p = a /\ q ∈ l \/ q = a /\ p ∈ l) \/ (p, q) = (a, b) \/ (p, q) = (b, a)).
  { rewrite !elem_of_cons. split.
    - intros [[-> [->|H]]|[-> [->|H]]]; auto.
    - intros [[H|H]|[H|H]]; [tauto|tauto|injection H as -> ->; auto|injection H as -> ->; auto]. }
  destruct (decide ((p, q) = (a, b))) as [E1|E1].
  { destruct (decide ((p, q) = (b, a))) as [E2|E2]; [rewrite E1 in E2; injection E2; intros; subst; done|].
    injection E1 as -> ->. rewrite (bool_decide_eq_true_2 (a = a /\ b ∈ b :: l \/ _)) by (left; split; [done|left]).
    rewrite bool_decide_eq_false_2; [cbn; lia|]. intros [[_ H]|[H _]]; [done|]. by subst. }
  destruct (decide ((p, q) = (b, a))) as [E2|E2].
  { injection E2 as -> ->. rewrite (bool_decide_eq_true_2 (b = a /\ a ∈ b :: l \/ _)) by (right; split; [done|left]).
    rewrite bool_decide_eq_false_2; [cbn; lia|]. intros [[H _]|[_ H]]; [|done]. by subst. }
  rewrite (bool_decide_ext (p = a /\ q ∈ b :: l \/ q = a /\ p ∈ b :: l) (p = a /\ q ∈ l \/ q = a /\ p ∈ l)); [lia|]. tauto.
Qed.

Lemma pairs_count (bag : list Z) : forall (m : gmap (Z * Z) Z) (p q : Z), NoDup bag ->
  count_get (pairs_rec bag m) (p, q) = count_get m (p, q) + b2z (bool_decide (p ∈ bag /\ q ∈ bag /\ p <> q)).
Proof.
  induction bag as [|a l IH]; intros m p q Hn; cbn [pairs_rec].
  { rewrite bool_decide_eq_false_2; [cbn; lia|]. set_solver. }
  apply list.NoDup_cons in Hn as [Ha Hn]. rewrite IH, inner_count by done.
  destruct (decide (p = a)) as [->|Hp].
  - rewrite (bool_decide_eq_false_2 (a ∈ l /\ _)) by tauto. rewrite Z.add_0_r. f_equal. f_equal. apply bool_decide_ext.
    rewrite !elem_of_cons. split; [intros [[_ H]|[_ H]]|]; [|done|].
    + split; [auto|]. split; [auto|]. intros ->. done.
    + intros (_ & [->|H] & Hne); [done|auto].
  - destruct (decide (q = a)) as [->|Hq].
    + rewrite (bool_decide_eq_false_2 (p ∈ l /\ _)) by tauto. rewrite Z.add_0_r. f_equal. f_equal. apply bool_decide_ext.
      rewrite !elem_of_cons. split; [intros [[-> _]|[_ H]]; [done|auto]|]. intros ([->|H] & _); [done|auto].
    + rewrite (bool_decide_eq_false_2 (p = a /\ _ \/ _)) by tauto. rewrite (bool_decide_ext (p ∈ a :: l /\ q ∈ a :: l /\ p <> q) (p ∈ l /\ q ∈ l /\ p <> q)); [cbn; lia|].
      rewrite !elem_of_cons. tauto.
Qed.

(** ** Insertion-ordered dictionaries *)
Definition upd {V} (f : V -> V) (v0 : V) (d : list (Z * V)) (k : Z) : list (Z * V) :=
  if bool_decide (k ∈ map fst d) then map (fun e => if decide (fst e = k) then (k, f (snd e)) else e) d else d ++ [(k, f v0)].
Definition asmap {V} (d : list (Z * V)) : gmap Z V := list_to_map d.

Lemma upd_keys {V} (f : V -> V) v0 d k : map fst (upd f v0 d k) = if bool_decide (k ∈ map fst d) then map fst d else map fst d ++ [k].
Proof.
  unfold upd. destruct (bool_decide_reflect (k ∈ map fst d)); [|by rewrite map_app].
  rewrite map_map. apply map_ext. intros [k' v]. by destruct (decide _).
Qed.

Lemma upd_NoDup {V} (f : V -> V) v0 d k : NoDup (map fst d) -> NoDup (map fst (upd f v0 d k)).
Proof.
  intros H. rewrite upd_keys. destruct (bool_decide_reflect (k ∈ map fst d)); [done|]. apply NoDup_app. split; [done|].
  split; [|apply NoDup_singleton]. intros x Hx Hin. apply elem_of_list_singleton in Hin as ->. done.
Qed.

Lemma asmap_elem {V} (d : list (Z * V)) k v : NoDup (map fst d) -> (k, v) ∈ d <-> asmap d !! k = Some v.
Proof. intros H. unfold asmap. by rewrite elem_of_list_to_map. Qed.
Lemma asmap_none {V} (d : list (Z * V)) k : k ∉ map fst d <-> asmap d !! k = None.
Proof. apply not_elem_of_list_to_map. Qed.

Lemma upd_map {V} (f : V -> V) v0 d k : NoDup (map fst d) ->
  asmap (upd f v0 d k) = <[k := f (default v0 (asmap d !! k))]> (asmap d).
Proof.
  intros Hn. pose proof (upd_NoDup f v0 d k Hn) as Hn'. apply map_eq. intros k'. apply option_eq. intros v.
  rewrite <- asmap_elem by done. unfold upd. destruct (bool_decide_reflect (k ∈ map fst d)) as [Hk|Hk].
  - apply elem_of_map in Hk as ([k0 v1] & -> & Hv). cbn [fst]. pose proof Hv as Hm. apply asmap_elem in Hm; [|done]. rewrite Hm. cbn [default].
    destruct (decide (k' = k0)) as [->|Hne].
    + rewrite lookup_insert. split.
      * intros H. apply elem_of_map in H as ([k2 v2] & E & H). cbn in E. destruct (decide (k2 = k0)) as [->|].
        -- injection E as ->. apply asmap_elem in H; [|done]. rewrite H in Hm. injection Hm as ->. done.
        -- injection E as <- <-. done.
      * intros H. injection H as <-. apply elem_of_map. exists (k0, v1). cbn. by rewrite decide_True by done.
    + rewrite lookup_insert_ne by done. rewrite <- asmap_elem by done. split.
      * intros H. apply elem_of_map in H as ([k2 v2] & E & H). cbn in E. destruct (decide (k2 = k0)) as [->|]; injection E as -> ->; done.
      * intros H. apply elem_of_map. exists (k', v). cbn. rewrite decide_False by done. done.
  - pose proof Hk as Hm. apply asmap_none in Hm. rewrite Hm. cbn [default]. rewrite elem_of_app, elem_of_list_singleton.
    destruct (decide (k' = k)) as [->|Hne].
    + rewrite lookup_insert. split; [intros [H|H]|intros H; right].
      * exfalso. apply Hk. apply elem_of_map. by exists (k, v).
      * by injection H as ->.
      * by injection H as ->.
    + rewrite lookup_insert_ne by done. rewrite <- asmap_elem by done. split; [intros [H|H]; [done|by injection H as -> ->]|auto].
Qed.

Lemma items_incr_upd d k : items_incr d k = upd (Z.add 1) 0 d k.
Proof.
  unfold items_incr, upd. destruct (bool_decide _); [|done]. apply map_ext. intros [k' v]. cbn. destruct (decide _); [|done]. f_equal. lia.
Qed.
Lemma nested_incr_upd d l a : nested_incr d l a = upd (fun i => items_incr i a) [] d l.
Proof. done. Qed.

Definition iget (d : list (Z * Z)) (k : Z) : Z := default 0 (asmap d !! k).
Definition nget (d : list (Z * list (Z * Z))) (l a : Z) : Z := iget (default [] (asmap d !! l)) a.
Definition wf_items (d : list (Z * Z)) : Prop := NoDup (map fst d) /\ forall a c, (a, c) ∈ d -> 0 < c.
Definition wf_nested (d : list (Z * list (Z * Z))) : Prop :=
  NoDup (map fst d) /\ forall l i, (l, i) ∈ d -> i <> [] /\ wf_items i.

Lemma iget_nonneg d k : wf_items d -> 0 <= iget d k.
Proof. intros [H1 H2]. unfold iget. destruct (asmap d !! k) as [c|] eqn:E; cbn; [|lia]. apply asmap_elem in E; [|done]. apply H2 in E. lia. Qed.

Lemma items_incr_wf d k : wf_items d -> items_incr d k <> [] /\ wf_items (items_incr d k).
Proof.
  intros [H1 H2]. rewrite items_incr_upd. split; [|split; [by apply upd_NoDup|]].
  - unfold upd. destruct (bool_decide_reflect (k ∈ map fst d)) as [Hk|]; [|by destruct d]. by destruct d; [apply elem_of_nil in Hk|].
  - intros a c H. apply asmap_elem in H; [|by apply upd_NoDup]. rewrite upd_map in H by done. destruct (decide (a = k)) as [->|Hne].
    + rewrite lookup_insert in H. injection H as <-. pose proof (iget_nonneg d k (conj H1 H2)) as Hi. unfold iget in Hi. lia.
    + rewrite lookup_insert_ne in H by done. apply asmap_elem in H; [|done]. by apply H2 in H.
Qed.

Lemma items_incr_get d k k' : wf_items d -> iget (items_incr d k) k' = iget d k' + b2z (bool_decide (k' = k)).
Proof.
  intros [H1 H2]. unfold iget. rewrite items_incr_upd, upd_map by done. destruct (decide (k' = k)) as [->|Hne].
  - rewrite lookup_insert, bool_decide_eq_true_2 by done. cbn. lia.
  - rewrite lookup_insert_ne, bool_decide_eq_false_2 by done. cbn. lia.
Qed.

Lemma nested_default_wf d l : wf_nested d -> wf_items (default [] (asmap d !! l)).
Proof.
  intros [H1 H2]. destruct (asmap d !! l) as [i|] eqn:E; cbn.
  - apply asmap_elem in E; [|done]. by apply H2 in E as [_ ?].
  - split; [constructor|]. intros a c H. by apply elem_of_nil in H.
Qed.

Lemma nested_incr_wf d l a : wf_nested d -> wf_nested (nested_incr d l a).
Proof.
  intros Hw. pose proof Hw as [H1 H2]. rewrite nested_incr_upd. split; [by apply upd_NoDup|]. intros l' i H.
  apply asmap_elem in H; [|by apply upd_NoDup]. rewrite upd_map in H by done. destruct (decide (l' = l)) as [->|Hne].
  - rewrite lookup_insert in H. injection H as <-. apply items_incr_wf. by apply nested_default_wf.
  - rewrite lookup_insert_ne in H by done. apply asmap_elem in H; [|done]. by apply H2 in H.
Qed.

Lemma nested_incr_get d l a l' a' : wf_nested d ->
  nget (nested_incr d l a) l' a' = nget d l' a' + b2z (bool_decide (l' = l /\ a' = a)).
Proof.
  intros Hw. pose proof Hw as [H1 _]. unfold nget. rewrite nested_incr_upd, upd_map by done. destruct (decide (l' = l)) as [->|Hne].
  - rewrite lookup_insert. cbn [default from_option id]. rewrite items_incr_get by by apply nested_default_wf. do 2 f_equal. apply bool_decide_ext. tauto.
  - rewrite lookup_insert_ne by done. rewrite (bool_decide_eq_false_2 (l' = l /\ _)) by tauto. cbn. lia.
Qed.

Lemma attrs_fold attrs l : forall d, wf_nested d -> NoDup attrs ->
  wf_nested (foldl (fun d a => nested_incr d l a) d attrs) /\
  forall l' a', nget (foldl (fun d a => nested_incr d l a) d attrs) l' a' = nget d l' a' + b2z (bool_decide (l' = l /\ a' ∈ attrs)).
Proof.
  induction attrs as [|a attrs IH]; intros d Hw Hn; cbn [foldl].
  - split; [done|]. intros l' a'. rewrite bool_decide_eq_false_2; [cbn; lia|]. intros [_ H]. by apply elem_of_nil in H.
  - apply list.NoDup_cons in Hn as [Ha Hn]. destruct (IH (nested_incr d l a)) as [H1 H2]; [by apply nested_incr_wf|done|].
    split; [done|]. intros l' a'. rewrite H2, nested_incr_get by done. rewrite <- Z.add_assoc. f_equal.
    destruct (decide (l' = l)) as [->|Hl]; [|rewrite !bool_decide_eq_false_2 by tauto; done].
    destruct (decide (a' = a)) as [->|Hne].
    + rewrite (bool_decide_eq_true_2 (_ /\ a = a)) by done. rewrite (bool_decide_eq_false_2 (l = l /\ a ∈ attrs)) by tauto.
      rewrite bool_decide_eq_true_2 by (split; [done|left]). done.
    + rewrite (bool_decide_eq_false_2 (_ /\ a' = a)) by tauto. cbn [b2z]. rewrite Z.add_0_l. f_equal. apply bool_decide_ext. rewrite elem_of_cons. tauto.
Qed.

Lemma labels_fold attrs labels : forall d, wf_nested d -> NoDup attrs -> NoDup labels ->
  let d' := foldl (fun d label => foldl (fun d attr => nested_incr d label attr) d attrs) d labels in
  wf_nested d' /\ forall l a, nget d' l a = nget d l a + b2z (bool_decide (l ∈ labels /\ a ∈ attrs)).
Proof.
  induction labels as [|l labels IH]; intros d Hw Ha Hn; cbn [foldl].
  - split; [done|]. intros l' a'. rewrite bool_decide_eq_false_2; [cbn; lia|]. intros [H _]. by apply elem_of_nil in H.
  - apply list.NoDup_cons in Hn as [Hl Hn]. destruct (attrs_fold attrs l d Hw Ha) as [H1 H2].
    destruct (IH _ H1 Ha Hn) as [H3 H4]. split; [done|]. intros l' a'. rewrite H4, H2. rewrite <- Z.add_assoc. f_equal.
    destruct (decide (a' ∈ attrs)) as [Hin|Hin]; [|rewrite !bool_decide_eq_false_2 by tauto; done].
    destruct (decide (l' = l)) as [->|Hne].
    + rewrite (bool_decide_eq_true_2 (l = l /\ _)) by done. rewrite (bool_decide_eq_false_2 (l ∈ labels /\ _)) by tauto.
      rewrite bool_decide_eq_true_2 by (split; [left|done]). done.
    + rewrite (bool_decide_eq_false_2 (l' = l /\ _)) by tauto. cbn [b2z]. rewrite Z.add_0_l. f_equal. apply bool_decide_ext. rewrite elem_of_cons. tauto.
Qed.

(** ** compute_frequencies *)
Lemma cooc_snoc M row a b : cooc (M ++ [row]) a b = cooc M a b + b2z (bool_decide (has_one row a /\ has_one row b)).
Proof. unfold cooc. rewrite filter_app, zlen_app. f_equal. cbn. by destruct (bool_decide _). Qed.
Lemma cross_snoc X Y x y a l : length X = length Y ->
  cross (X ++ [x]) (Y ++ [y]) a l = cross X Y a l + b2z (bool_decide (has_one x a /\ has_one y l)).
Proof. intros H. unfold cross. rewrite zip_with_app by done. rewrite filter_app, zlen_app. f_equal. cbn. by destruct (bool_decide _). Qed.

Definition freqs_inv (X Y : list (list Z)) (f : freqs) : Prop :=
  (forall a b, count_get (fq_dlabel f) (a, b) = if decide (a = b) then 0 else cooc Y a b) /\
  (forall a b, count_get (fq_dattr f) (a, b) = if decide (a = b) then 0 else cooc X a b) /\
  (forall l, zlen (List.filter (fun x => x =? l) (fq_labels f)) = cooc Y l l) /\
  wf_nested (fq_d f) /\ forall l a, nget (fq_d f) l a = cross X Y a l.

Lemma elem_bag ord row a : set_order ord -> a ∈ ord (py_set (ones row)) <-> has_one row a.
Proof. intros Hord. rewrite ord_elem by done. unfold py_set. rewrite elem_of_list_to_set. apply elem_of_ones. Qed.

Lemma filter_eq_NoDup (l : list Z) x : NoDup l -> zlen (List.filter (fun y => y =? x) l) = b2z (bool_decide (x ∈ l)).
Proof.
  induction l as [|y l IH]; intros Hn; cbn [List.filter].
  - rewrite bool_decide_eq_false_2; [done|]. intros H. by apply elem_of_nil in H.
  - apply list.NoDup_cons in Hn as [Hy Hn]. destruct (Z.eqb_spec y x) as [->|Hne].
    + rewrite zlen_cons, IH by done. rewrite bool_decide_eq_false_2 by done. rewrite bool_decide_eq_true_2 by left. done.
    + rewrite IH by done. f_equal. apply bool_decide_ext. rewrite elem_of_cons. split; [auto|]. intros [->|H]; [done|done].
Qed.

Lemma pairs_bag ord row m (M : list (list Z)) : set_order ord ->
  (forall a b, count_get m (a, b) = if decide (a = b) then 0 else cooc M a b) ->
  exists m', pair_counts (ord (py_set (ones row))) m = Ok m' /\
    forall a b, count_get m' (a, b) = if decide (a = b) then 0 else cooc (M ++ [row]) a b.
Proof.
  intros Hord Hm. eexists. split; [apply pair_counts_rec|]. intros a b. rewrite pairs_count by by apply ord_NoDup. rewrite Hm, cooc_snoc.
  destruct (decide (a = b)) as [->|Hne].
  - rewrite bool_decide_eq_false_2 by tauto. done.
  - f_equal. f_equal. apply bool_decide_ext. rewrite !elem_bag by done. tauto.
Qed.

Lemma take_snoc {A} (l1 : list A) x l2 : take (length l1 + 1) (l1 ++ x :: l2) = l1 ++ [x].
Proof. rewrite take_app_ge by lia. f_equal. by replace (length l1 + 1 - length l1)%nat with 1%nat by lia. Qed.

Lemma count_row_step ord X Y x y f i : set_order ord -> length X = length Y -> freqs_inv X Y f ->
  forall X0 Y0, py_index X0 i = Ok x -> py_index Y0 i = Ok y ->
  exists f', count_row ord X0 Y0 f i = Ok f' /\ freqs_inv (X ++ [x]) (Y ++ [y]) f'.
Proof.
  intros Hord Hlen (I1 & I2 & I3 & I4 & I5) X0 Y0 Ex Ey. unfold count_row. rewrite Ex, Ey. cbn [rbind].
  destruct (pairs_bag ord y (fq_dlabel f) Y Hord I1) as (dl & -> & Hdl). cbn [rbind].
  destruct (pairs_bag ord x (fq_dattr f) X Hord I2) as (da & -> & Hda). cbn [rbind].
  eexists. split; [reflexivity|]. split; [done|]. split; [done|]. cbn [fq_labels fq_d].
  split.
  - intros l. rewrite filter_app, zlen_app, I3, cooc_snoc. f_equal. rewrite filter_eq_NoDup by by apply ord_NoDup.
    f_equal. apply bool_decide_ext. rewrite elem_bag by done. tauto.
  - destruct (labels_fold (ord (py_set (ones x))) (ord (py_set (ones y))) (fq_d f) I4) as [W1 W2]; [by apply ord_NoDup..|].
    split; [exact W1|]. intros l a. rewrite W2, I5, cross_snoc by done. f_equal. f_equal. apply bool_decide_ext.
    rewrite !elem_bag by done. tauto.
Qed.

Lemma freqs_empty : freqs_inv [] [] (Freqs [] [] ∅ ∅).
Proof.
  split; [|split; [|split; [done|split]]].
  - intros a b. unfold count_get. cbn [fq_dlabel fq_dattr]. rewrite lookup_empty. by destruct (decide _).
  - intros a b. unfold count_get. cbn [fq_dlabel fq_dattr]. rewrite lookup_empty. by destruct (decide _).
  - split; [constructor|]. intros l i H. by apply elem_of_nil in H.
  - done.
Qed.

Lemma freqs_ok ord X Y : set_order ord -> length X = length Y ->
  exists f, rfold (count_row ord X Y) (Freqs [] [] ∅ ∅) (py_range (zlen X)) = Ok f /\ freqs_inv X Y f.
Proof.
  intros Hord Hlen.
  destruct (rfold_inv (count_row ord X Y) (fun l f => freqs_inv (take (length l) X) (take (length l) Y) f)
    (py_range (zlen X)) (Freqs [] [] ∅ ∅)) as (f & Hf & Hi).
  - apply freqs_empty.
  - intros l1 i l2 f E Hi.
    assert (Hi' : i = zlen l1 /\ (length l1 < length X)%nat).
    { assert (py_range (zlen X) !! length l1 = Some i) as Hl by (rewrite E; by apply list_lookup_middle).
      unfold py_range in Hl. apply lookup_seqZ in Hl. unfold zlen in *. lia. }
    destruct Hi' as [-> Hlt].
    destruct (lookup_lt_is_Some_2 X (length l1) Hlt) as [x Hx]. destruct (lookup_lt_is_Some_2 Y (length l1)) as [y Hy]; [lia|].
    rewrite app_length. cbn [length]. rewrite Nat.add_1_r. rewrite (take_S_r X _ x), (take_S_r Y _ y) by done.
    apply count_row_step; [done|rewrite !take_length; lia|done|..].
    + apply py_index_ok; [apply zlen_nonneg|]. unfold zlen. by rewrite Nat2Z.id.
    + apply py_index_ok; [apply zlen_nonneg|]. unfold zlen. by rewrite Nat2Z.id.
  - exists f. split; [done|]. rewrite length_py_range in Hi. unfold zlen in Hi. rewrite Nat2Z.id in Hi.
    rewrite (take_ge X), (take_ge Y) in Hi by lia. done.
Qed.

Lemma counter_get l : forall (m : gmap Z Z) x, count_get (foldl count_incr m l) x = count_get m x + zlen (List.filter (fun y => y =? x) l).
Proof.
  induction l as [|y l IH]; intros m x; cbn [foldl List.filter]; [change (zlen (@nil Z)) with 0; lia|].
  rewrite IH, count_incr_get. destruct (Z.eqb_spec y x) as [->|Hne].
  - rewrite decide_True by done. rewrite zlen_cons. lia.
  - rewrite decide_False by done. lia.
Qed.

Lemma insert_key_stable {A} k (x : A) l :
  StronglySorted (fun e e' : Z * A => fst e <= fst e') l ->
  StronglySorted (fun e e' : Z * A => fst e <= fst e') (insert_key k x l).
Proof.
  induction 1 as [|[k' y] l Hs IH Hf]; cbn [insert_key]; [repeat constructor|].
  destruct (Z.leb_spec k k').
  - constructor; [by constructor|]. constructor; [done|]. eapply list.Forall_impl; [exact Hf|]. intros e He. cbn in *. lia.
  - constructor; [done|]. apply list.Forall_forall. intros e He. rewrite (insert_key_perm k x l) in He. apply elem_of_cons in He as [->|He]; [cbn; lia|].
    by apply (proj1 (list.Forall_forall _ _) Hf).
Qed.

Lemma insert_key_filter {A} k (x : A) l c :
  List.filter (fun e : Z * A => fst e =? c) (insert_key k x l) = List.filter (fun e : Z * A => fst e =? c) ((k, x) :: l).
Proof.
  induction l as [|[k' y] l IH]; cbn [insert_key]; [done|]. destruct (Z.leb_spec k k'); [done|].
  cbn [List.filter fst] in *. rewrite IH. destruct (Z.eqb_spec k' c), (Z.eqb_spec k c); try done. lia.
Qed.

Lemma sort_items (items : list (Z * Z)) : let s := sort_keyed (map (fun kv => (snd kv, kv)) items) in
  s ≡ₚ items /\ StronglySorted (fun e e' : Z * Z => snd e <= snd e') s /\
  forall c, List.filter (fun e : Z * Z => snd e =? c) s = List.filter (fun e : Z * Z => snd e =? c) items.
Proof.
  intros s. split; [unfold s; rewrite sort_keyed_perm, map_map, map_id; done|].
  unfold s, sort_keyed. set (t := foldr _ _ _).
  assert (Ht : StronglySorted (fun e e' : Z * (Z * Z) => fst e <= fst e') t /\ (forall e, e ∈ t -> fst e = snd (snd e)) /\
    forall c, List.filter (fun e : Z * (Z * Z) => fst e =? c) t = List.filter (fun e : Z * (Z * Z) => fst e =? c) (map (fun kv => (snd kv, kv)) items)).
  { unfold t. clear. induction items as [|kv items IH]; [split; [constructor|split; [|done]]; intros e He; by apply elem_of_nil in He|].
    cbn [map foldr fst snd]. destruct IH as (H1 & H2 & H3). split; [by apply insert_key_stable|]. split.
    - intros e He. rewrite insert_key_perm in He. apply elem_of_cons in He as [->|He]; [done|by apply H2].
    - intros c. rewrite insert_key_filter. cbn [List.filter fst]. by rewrite H3. }
  destruct Ht as (H1 & H2 & H3). split.
  - clear H3. induction H1 as [|e t0 Hs IH Hf]; cbn [map]; constructor.
    + apply IH. intros e' He'. apply H2. by right.
    + apply list.Forall_forall. intros p Hp. apply elem_of_map in Hp as (e' & -> & He').
      rewrite <- (H2 e) by left. rewrite <- (H2 e') by by right. by apply (proj1 (list.Forall_forall _ _) Hf).
  - intros c. specialize (H3 c). transitivity (map snd (List.filter (fun e : Z * (Z * Z) => fst e =? c) t)).
    + clear -H2. induction t as [|e t IH]; [done|]. cbn [map List.filter]. rewrite (H2 e) by left.
      rewrite IH by (intros e' He'; apply H2; by right). by destruct (_ =? _).
    + rewrite H3. clear. induction items as [|kv items IH]; [done|]. cbn [map List.filter fst]. rewrite <- IH. by destruct (_ =? _).
Qed.

Lemma C64_frequencies_proof : forall (ord : gset Z -> list Z) (X Y : list (list Z)),
  set_order ord -> length X = length Y ->
  exists f formatted counts, compute_frequencies ord X Y = Ok (f, formatted, counts) /\
    (forall a b : Z, a <> b -> count_get (fq_dlabel f) (a, b) = cooc Y a b /\ count_get (fq_dattr f) (a, b) = cooc X a b) /\
    (forall a : Z, count_get (fq_dlabel f) (a, a) = 0 /\ count_get (fq_dattr f) (a, a) = 0) /\
    (forall l : Z, count_get counts l = cooc Y l l) /\
    NoDup (map fst (fq_d f)) /\
    (forall l : Z, l ∈ map fst (fq_d f) <-> exists a, 0 < cross X Y a l) /\
    (forall (l : Z) (items : list (Z * Z)), (l, items) ∈ fq_d f ->
       NoDup (map fst items) /\ forall a c : Z, (a, c) ∈ items <-> c = cross X Y a l /\ 0 < c) /\
    Forall2 (fun e s : Z * list (Z * Z) => fst s = fst e /\ snd s ≡ₚ snd e /\
       StronglySorted (fun p q : Z * Z => snd p <= snd q) (snd s) /\
       forall c : Z, List.filter (fun p : Z * Z => snd p =? c) (snd s) = List.filter (fun p : Z * Z => snd p =? c) (snd e))
      (fq_d f) formatted.
Proof.
  intros ord X Y Hord Hlen. unfold compute_frequencies. destruct (freqs_ok ord X Y Hord Hlen) as (f & -> & I1 & I2 & I3 & I4 & I5).
  cbn [rbind]. eexists _, _, _. split; [reflexivity|].
  assert (Hitems : forall (l : Z) (items : list (Z * Z)), (l, items) ∈ fq_d f ->
       NoDup (map fst items) /\ forall a c : Z, (a, c) ∈ items <-> c = cross X Y a l /\ 0 < c).
  { intros l items H. pose proof I4 as [W1 W2]. pose proof (W2 _ _ H) as [_ [V1 V2]]. split; [done|]. intros a c.
    apply asmap_elem in H; [|done]. specialize (I5 l a). unfold nget, iget in I5. rewrite H in I5. cbn [default from_option id] in I5.
    rewrite <- I5. split.
    - intros Hc. pose proof (V2 _ _ Hc). apply asmap_elem in Hc; [|done]. rewrite Hc. done.
    - intros [-> Hc]. apply asmap_elem; [done|]. by destruct (asmap items !! a); cbn in *. }
  split; [intros a b Hab; rewrite I1, I2, !decide_False by done; done|].
  split; [intros a; rewrite I1, I2, !decide_True by done; done|].
  split; [intros l; rewrite counter_get, I3; unfold count_get; by rewrite lookup_empty|].
  split; [apply I4|]. split; [|split; [exact Hitems|]].
  - intros l. split.
    + intros H. apply elem_of_map in H as ([l' items] & -> & H). pose proof (proj2 I4 _ _ H) as [Hne [V1 V2]]. cbn [fst].
      destruct items as [|[a c] items]; [done|]. exists a. destruct (Hitems _ _ H) as [_ Hi]. destruct (proj1 (Hi a c)) as [-> Hc]; [left|done].
    + intros [a Ha]. rewrite <- I5 in Ha. unfold nget in Ha. destruct (asmap (fq_d f) !! l) as [items|] eqn:E; [|unfold iget in Ha; change (asmap (default [] (@None (list (Z * Z))))) with (∅ : gmap Z Z) in Ha; rewrite lookup_empty in Ha; cbn in Ha; lia].
      apply asmap_elem in E; [|apply I4]. apply elem_of_map. by exists (l, items).
  - apply Forall2_fmap_r, Forall_Forall2_diag. apply list.Forall_forall. intros [l items] _. cbn [fst snd]. split; [done|]. apply sort_items.
Qed.


(** ** Weighted draws *)
Lemma qsum_nonneg (l : list Qc) : (forall p, p ∈ l -> (0 <= p)%Qc) -> (0 <= qsum l)%Qc.
Proof.
  induction l as [|x l IH]; intros H; cbn; [apply Qcle_refl|]. replace 0%Qc with (0 + 0)%Qc by ring.
  apply Qcplus_le_compat; [apply H; left|apply IH; intros; apply H; by right].
Qed.

Lemma rc_pos {A} py39 (w : A -> Qc) xs : (0 < qsum (map w xs))%Qc ->
  random_choices py39 xs (map w xs) = np_choice xs (map (fun x => w x / qsum (map w xs))%Qc xs).
Proof.
  intros Hs. unfold random_choices. rewrite zlen_map, Z.eqb_refl. cbn [negb].
  destruct (Z.eqb_spec (zlen xs) 0) as [H|_]; [apply zlen_0 in H; subst; exfalso; by apply (irreflexivity Qclt _ Hs)|].
  rewrite bool_decide_eq_false_2 by by apply Qclt_not_le. by rewrite map_map.
Qed.

Lemma rc_valid {A} (w : A -> Qc) xs : (forall x, x ∈ xs -> (0 <= w x)%Qc) -> (0 < qsum (map w xs))%Qc ->
  xs <> [] /\ (forall p, p ∈ map (fun x => w x / qsum (map w xs))%Qc xs -> (0 <= p)%Qc) /\ qsum (map (fun x => w x / qsum (map w xs))%Qc xs) = 1%Qc.
Proof.
  intros Hw Hs. split; [intros ->; by apply (irreflexivity Qclt _ Hs)|]. split.
  - intros p Hp. apply elem_of_map in Hp as (x & -> & Hx). apply Qcdiv_nonneg; auto.
  - unfold Qcdiv. rewrite (qsum_map_mult_r (/ qsum (map w xs))%Qc w). apply Qcmult_inv_r. intros E. rewrite E in Hs. by apply (irreflexivity Qclt _ Hs).
Qed.

Lemma rc_expect {A} py39 (w : A -> Qc) xs f : (forall x, x ∈ xs -> (0 <= w x)%Qc) -> (0 < qsum (map w xs))%Qc ->
  expect (random_choices py39 xs (map w xs)) f = (qsum (map (fun x => w x * f (Ok x)) xs) / qsum (map w xs))%Qc.
Proof.
  intros Hw Hs. destruct (rc_valid w xs Hw Hs) as (H1 & H2 & H3). rewrite rc_pos by done.
  rewrite expect_np_choice; [|done|by rewrite map_length|done|done].
  transitivity (qsum (map (fun x => w x * f (Ok x) * / qsum (map w xs))%Qc xs)).
  - f_equal. generalize (qsum (map w xs)). intros q. clear. induction xs as [|x xs IH]; [done|]. cbn. rewrite IH. f_equal. unfold Qcdiv. ring.
  - by rewrite (qsum_map_mult_r (/ qsum (map w xs))%Qc).
Qed.

Lemma rc_can {A} py39 (w : A -> Qc) xs o : (forall x, x ∈ xs -> (0 <= w x)%Qc) -> (0 < qsum (map w xs))%Qc ->
  can (random_choices py39 xs (map w xs)) o <-> exists x, x ∈ xs /\ w x <> 0%Qc /\ o = Ok x.
Proof.
  intros Hw Hs. destruct (rc_valid w xs Hw Hs) as (H1 & H2 & H3). rewrite rc_pos by done.
  assert (Hq : (qsum (map w xs) <> 0)%Qc) by (intros E; rewrite E in Hs; by apply (irreflexivity Qclt _ Hs)).
  rewrite can_np_choice; [|done|by rewrite map_length|done|done]. split.
  - intros (i & x & p & Hx & Hp & Hne & ->). exists x. split; [by eapply elem_of_list_lookup_2|]. split; [|done].
    intros E. apply Hne. rewrite list_lookup_fmap, Hx in Hp. cbn in Hp. injection Hp as <-. rewrite E. unfold Qcdiv. ring.
  - intros (x & Hx & Hne & ->). apply elem_of_list_lookup in Hx as [i Hi]. exists i, x, (w x / qsum (map w xs))%Qc.
    split; [done|]. split; [by rewrite list_lookup_fmap, Hi|]. split; [|done]. intros E. apply Hne.
    apply (f_equal (fun z => z * qsum (map w xs))%Qc) in E. unfold Qcdiv in E. rewrite <- Qcmult_assoc, (Qcmult_comm (/ _)), Qcmult_inv_r in E by done.
    rewrite Qcmult_1_r in E. rewrite E. ring.
Qed.

Lemma rc_zero {A} py39 (w : A -> Qc) xs x : qsum (map w (xs ++ [x])) = 0%Qc ->
  random_choices py39 (xs ++ [x]) (map w (xs ++ [x])) = if py39 then Fail ValueError else Ret x.
Proof.
  intros Hs. unfold random_choices. rewrite zlen_map, Z.eqb_refl. cbn [negb].
  rewrite zlen_app. change (zlen [x]) with 1. pose proof (zlen_nonneg xs). destruct (Z.eqb_spec (zlen xs + 1) 0); [lia|].
  rewrite bool_decide_eq_true_2 by (rewrite Hs; apply Qcle_refl). destruct py39; [done|].
  replace (zlen xs + 1 - 1) with (zlen xs) by lia. by rewrite index_mid.
Qed.

(** ** Weights *)
Lemma pow2_pos k : (0 < pow2 k)%Qc.
Proof.
  unfold pow2. destruct (Z.leb_spec 0 k); [apply Qc_of_Z_pos; lia|]. apply Qcdiv_pos; [done|]. apply Qc_of_Z_pos. lia.
Qed.

Lemma n_ones_nonneg row : 0 <= n_ones row.
Proof. apply zlen_nonneg. Qed.

Lemma Qcmult_pos a b : (0 < a)%Qc -> (0 < b)%Qc -> (0 < a * b)%Qc.
Proof. intros Ha Hb. replace 0%Qc with (0 * b)%Qc by ring. by apply Qcmult_lt_compat_r. Qed.

Lemma row_weight_pos row : (n_ones row = 0 -> row_weight row = 0%Qc) /\ (0 < n_ones row -> (0 < row_weight row)%Qc).
Proof.
  unfold row_weight. rewrite zlen_ones. split.
  - intros ->. rewrite Z2Qc_inj_0. ring.
  - intros H. apply Qcmult_pos; [by apply Qc_of_Z_pos|apply pow2_pos].
Qed.

Lemma row_weight_nonneg row : (0 <= row_weight row)%Qc.
Proof.
  destruct (row_weight_pos row) as [H1 H2]. pose proof (n_ones_nonneg row). destruct (decide (n_ones row = 0)) as [E|E]; [rewrite H1 by done; apply Qcle_refl|].
  apply Qclt_le_weak, H2. lia.
Qed.

Lemma row_weight_zero row : row_weight row <> 0%Qc <-> 0 < n_ones row.
Proof.
  destruct (row_weight_pos row) as [H1 H2]. pose proof (n_ones_nonneg row). split.
  - intros Hne. destruct (decide (n_ones row = 0)) as [E|E]; [by rewrite H1 in Hne|lia].
  - intros Hp E. specialize (H2 Hp). rewrite E in H2. by apply (irreflexivity Qclt _ H2).
Qed.

Lemma row_sum row : (forall v, v ∈ row -> v = 0 \/ v = 1) -> zsum row = n_ones row.
Proof.
  unfold n_ones. induction row as [|v row IH]; intros H; [done|]. cbn [zsum foldr List.filter].
  change (foldr Z.add 0 row) with (zsum row). rewrite IH by (intros; apply H; by right). destruct (H v) as [->| ->]; [left|done|].
  cbn. rewrite zlen_cons. lia.
Qed.

Lemma row_weight_area row : (forall v, v ∈ row -> v = 0 \/ v = 1) -> row_weight row = Qc_of_Z (area_weight row).
Proof.
  intros H. unfold row_weight, area_weight. rewrite zlen_ones, row_sum by done. pose proof (n_ones_nonneg row).
  destruct (decide (n_ones row = 0)) as [-> |E]; [rewrite Z.mul_0_l, Z2Qc_inj_0; ring|]. unfold pow2. destruct (Z.leb_spec 0 (n_ones row - 1)); [|lia].
  by rewrite Qc_of_Z_mult.
Qed.

Lemma map_over_range {A B} `{Inhabited A} (g : A -> B) (Y : list A) : map (fun i => g (Y !!! Z.to_nat i)) (py_range (zlen Y)) = map g Y.
Proof.
  apply list_eq. intros i. rewrite !list_lookup_fmap. unfold py_range. destruct (decide (i < length Y)%nat) as [Hi|Hi].
  - destruct (lookup_lt_is_Some_2 Y i Hi) as [y Hy]. rewrite Hy. assert (seqZ 0 (zlen Y) !! i = Some (Z.of_nat i)) as ->.
    { apply lookup_seqZ. unfold zlen. lia. }
    cbn. rewrite Nat2Z.id. by rewrite (list_lookup_total_correct _ _ _ Hy).
  - rewrite (lookup_ge_None_2 Y) by lia. rewrite lookup_ge_None_2; [done|]. rewrite seqZ_length. unfold zlen. lia.
Qed.

Lemma index_total {A} `{Inhabited A} (Y : list A) i : 0 <= i < zlen Y -> py_index Y i = Ok (Y !!! Z.to_nat i) /\ Y !!! Z.to_nat i ∈ Y.
Proof.
  intros Hi. destruct (py_index_in_range Y i Hi) as (y & E1 & E2). rewrite (list_lookup_total_correct _ _ _ E2). split; [done|]. by eapply elem_of_list_lookup_2.
Qed.

(** ** The greedy loop *)
Lemma foldl_min l : forall x, (foldl Z.min x l = x \/ foldl Z.min x l ∈ l) /\ foldl Z.min x l <= x /\ forall y, y ∈ l -> foldl Z.min x l <= y.
Proof.
  induction l as [|z l IH]; intros x; cbn [foldl].
  - split; [auto|]. split; [lia|]. intros y H. by apply elem_of_nil in H.
  - destruct (IH (Z.min x z)) as (H1 & H2 & H3). split; [|split; [lia|]].
    + destruct H1 as [H1|H1]; [|right; by right]. destruct (Z.min_spec x z) as [[_ E]|[_ E]]; rewrite E in *; [auto|]. right. rewrite H1. left.
    + intros y Hy. apply elem_of_cons in Hy as [->|Hy]; [lia|auto].
Qed.

Lemma py_min_spec {A} (f : A -> Z) l : l <> [] -> exists m, py_min (map f l) = Ok m /\ (exists z, z ∈ l /\ m = f z) /\ forall z, z ∈ l -> m <= f z.
Proof.
  destruct l as [|a l]; [done|]. intros _. cbn [map py_min]. eexists. split; [reflexivity|].
  destruct (foldl_min (map f l) (f a)) as (H1 & H2 & H3). split.
  - destruct H1 as [H1|H1]; [exists a; split; [left|done]|]. apply elem_of_map in H1 as (z & E & Hz). exists z. split; [by right|done].
  - intros z Hz. apply elem_of_cons in Hz as [->|Hz]; [done|]. apply H3. apply elem_of_map. eauto.
Qed.

Lemma greedy_pick_ok ord co (T cur : gset Z) c : set_order ord -> T <> ∅ -> cur <> ∅ ->
  exists x, greedy_pick ord co T cur c = Ok (Some x) /\ x ∈ cur /\
    forall y, y ∈ cur -> exists z, z ∈ T /\ forall z', z' ∈ T -> count_get co (y, z) <= count_get co (x, z').
Proof.
  intros Hord HT Hcur. unfold greedy_pick.
  assert (HT' : ord T <> []).
  { intros E. apply HT. apply leibniz_equiv, elements_empty_inv. pose proof (Hord T) as Hp. rewrite E in Hp. by apply Permutation_nil in Hp. }
  set (mn := fun y m => (exists z, z ∈ ord T /\ m = count_get co (y, z)) /\ forall z, z ∈ ord T -> m <= count_get co (y, z)).
  match goal with |- exists x, (let! r := rfold ?g ?s ?l in _) = _ /\ _ =>
    destruct (rfold_inv g (fun done st => match fst st with
      | None => done = []
      | Some m => exists x, snd st = Some x /\ x ∈ done /\ mn x m /\ forall y my, y ∈ done -> mn y my -> my <= m end) l s) as ([b ch] & Hr & Hi) end.
  - done.
  - intros l1 e l2 [b ch] E Hi. destruct (py_min_spec (fun s => count_get co (e, s)) (ord T) HT') as (m & -> & Hm). cbn [rbind].
    assert (Hu : forall m', mn e m' -> m' = m).
    { intros m' [(z & Hz & ->) H2]. destruct Hm as [(z0 & Hz0 & ->) H4]. specialize (H2 z0 Hz0). specialize (H4 z Hz). cbn in *. lia. }
    destruct b as [b|]; cbn [fst snd] in Hi.
    + destruct Hi as (x & E1 & Hx & Hmx & Hall). destruct (Z.ltb_spec b m) as [Hlt|Hge].
      * eexists. split; [reflexivity|]. cbn [fst snd]. exists e. split; [done|]. split; [apply elem_of_app; right; left|]. split; [exact Hm|].
        intros y my Hy Hmy. apply elem_of_app in Hy as [Hy|Hy]; [specialize (Hall y my Hy Hmy); lia|].
        apply elem_of_list_singleton in Hy as ->. rewrite (Hu _ Hmy). lia.
      * eexists. split; [reflexivity|]. cbn [fst snd]. exists x. split; [done|]. split; [apply elem_of_app; by left|]. split; [done|].
        intros y my Hy Hmy. apply elem_of_app in Hy as [Hy|Hy]; [by apply (Hall y)|].
        apply elem_of_list_singleton in Hy as ->. rewrite (Hu _ Hmy). lia.
    + subst l1. eexists. split; [reflexivity|]. cbn [fst snd]. exists e. split; [done|]. split; [left|]. split; [exact Hm|].
      intros y my Hy Hmy. apply elem_of_list_singleton in Hy as ->. rewrite (Hu _ Hmy). lia.
  - rewrite Hr. cbn [rbind snd]. destruct b as [m|]; cbn [fst snd] in Hi.
    + destruct Hi as (x & -> & Hx & Hmx & Hall). exists x. split; [done|]. split; [by apply (ord_elem ord)|]. intros y Hy.
      destruct (py_min_spec (fun s => count_get co (y, s)) (ord T) HT') as (my & _ & (z & Hz & ->) & Hmin).
      exists z. split; [by apply (ord_elem ord)|]. intros z' Hz'. apply (ord_elem ord) in Hz'; [|done].
      transitivity m; [|by apply Hmx]. apply (Hall y); [by apply (ord_elem ord)|]. split; [eauto|done].
    + exfalso. apply Hcur. apply leibniz_equiv, elements_empty_inv. pose proof (Hord cur) as Hp. rewrite Hi in Hp. by apply Permutation_nil in Hp.
Qed.

Lemma greedy_tail_ok ord co Y row : set_order ord ->
  (forall a b, count_get co (a, b) = if decide (a = b) then 0 else cooc Y a b) ->
  forall fuel n xs c, greedy_chain Y row xs -> xs <> [] -> zlen xs <= n <= n_ones row -> n - zlen xs <= Z.of_nat fuel ->
  exists ys, greedy_tail fuel ord co n (list_to_set xs) (py_set (ones row) ∖ list_to_set xs) c = Ok (list_to_set (xs ++ ys)) /\
    greedy_chain Y row (xs ++ ys) /\ zlen (xs ++ ys) = n.
Proof.
  intros Hord Hco fuel. induction fuel as [|fuel IH]; intros n xs c Hch Hne Hn Hf.
  - exists []. rewrite app_nil_r. assert (zlen xs = n) as <- by lia. split; [|done]. cbn [greedy_tail].
    rewrite size_list_to_set by apply Hch. change (Z.of_nat (length xs)) with (zlen xs). by rewrite Z.ltb_irrefl.
  - destruct (decide (zlen xs = n)) as [<-|Hlt].
    { exists []. rewrite app_nil_r. split; [|done]. cbn [greedy_tail].
      rewrite size_list_to_set by apply Hch. change (Z.of_nat (length xs)) with (zlen xs). by rewrite Z.ltb_irrefl. }
    cbn [greedy_tail]. rewrite size_list_to_set by apply Hch. change (Z.of_nat (length xs)) with (zlen xs).
    destruct (Z.ltb_spec (zlen xs) n); [|lia].
    destruct Hch as (Hnd & Hin & Hgr).
    assert (Hsub : (list_to_set xs : gset Z) ⊆ py_set (ones row)).
    { intros x Hx. apply elem_of_list_to_set in Hx. unfold py_set. apply elem_of_list_to_set, elem_of_ones. auto. }
    destruct (greedy_pick_ok ord co (list_to_set xs) (py_set (ones row) ∖ list_to_set xs) c Hord) as (x & -> & Hx & Hmax).
    { intros E. destruct xs as [|x xs]; [done|]. assert (x ∈ (list_to_set (x :: xs) : gset Z)) as Hx by (apply elem_of_list_to_set; left).
      rewrite E in Hx. by apply elem_of_empty in Hx. }
    { intros E. assert (size (py_set (ones row) ∖ list_to_set xs) = 0%nat) as E0 by (rewrite E; apply size_empty).
      rewrite size_difference in E0 by done. rewrite size_list_to_set in E0 by done. pose proof (size_ones row). unfold zlen in *. lia. }
    cbn [rbind]. rewrite bool_decide_eq_true_2 by done. apply elem_of_difference in Hx as [Hx1 Hx2].
    assert (Hxo : has_one row x) by (unfold py_set in Hx1; by apply elem_of_list_to_set, elem_of_ones in Hx1).
    rewrite elem_of_list_to_set in Hx2.
    assert (Hch' : greedy_chain Y row (xs ++ [x])).
    { split; [|split].
      - apply NoDup_app. split; [done|]. split; [|apply NoDup_singleton]. intros y Hy Hy'. apply elem_of_list_singleton in Hy' as ->. done.
      - intros y Hy. apply elem_of_app in Hy as [Hy|Hy]; [auto|]. by apply elem_of_list_singleton in Hy as ->.
      - intros pre u post E Hpre y Hy Hyn. destruct post as [|p post] using rev_ind.
        + apply app_inj_tail in E as [-> ->]. destruct (Hmax y) as (z & Hz & Hle).
          { apply elem_of_difference. split; [unfold py_set; by apply elem_of_list_to_set, elem_of_ones|]. by rewrite elem_of_list_to_set. }
          apply elem_of_list_to_set in Hz. exists z. split; [done|]. intros z' Hz'. specialize (Hle z'). rewrite elem_of_list_to_set in Hle.
          specialize (Hle Hz'). rewrite !Hco in Hle. rewrite decide_False in Hle by (intros ->; done). rewrite decide_False in Hle by (intros ->; done). done.
        + clear IHpost. rewrite app_comm_cons, app_assoc in E. apply app_inj_tail in E as [-> _]. by apply (Hgr pre u post). }
    destruct (IH n (xs ++ [x]) (Some x)) as (ys & E & H1 & H2); [done|by destruct xs|rewrite zlen_app; change (zlen [x]) with 1; lia|rewrite zlen_app; change (zlen [x]) with 1; lia|].
    exists (x :: ys). rewrite <- app_assoc in E, H1, H2. split; [|done]. etransitivity; [|exact E]. f_equal.
    + rewrite list_to_set_app_L. cbn. by rewrite union_empty_r_L.
    + rewrite list_to_set_app_L. cbn. rewrite union_empty_r_L. clear. set_solver.
Qed.

(** ** One row *)
Definition row_tail (py39 : bool) (ord : gset Z -> list Z) (co : gmap (Z * Z) Z) (row : list Z) : rand (option (gset Z)) :=
  let labels := ones row in
  if zlen labels =? 0 then Ret None
  else
    let? n := random_choices py39 (seqZ 1 (zlen labels)) (map Qc_of_Z (py_range (zlen labels))) in
    let? first := np_choice_uniform labels in
    let? T := lift (greedy_tail (Z.to_nat n) ord co n {[first]} (py_set labels ∖ {[first]}) None) in
    Ret (Some T).

Lemma sample_once_rows py39 ord s : gas_sample_once py39 ord s =
  (let? i := random_choices py39 (py_range (zlen (gas_Y s))) (gas_W s) in
   let? row := lift (py_index (gas_Y s) i) in row_tail py39 ord (fq_dlabel (gas_freqs s)) row).
Proof. done. Qed.

Lemma greedy_from ord co Y row n first : set_order ord ->
  (forall a b, count_get co (a, b) = if decide (a = b) then 0 else cooc Y a b) ->
  first ∈ ones row -> 1 <= n <= n_ones row ->
  exists ys, greedy_tail (Z.to_nat n) ord co n {[first]} (py_set (ones row) ∖ {[first]}) None = Ok (list_to_set (first :: ys)) /\
    greedy_chain Y row (first :: ys) /\ zlen (first :: ys) = n.
Proof.
  intros Hord Hco Hf Hn. replace ({[first]} : gset Z) with (list_to_set [first] : gset Z) by (cbn; by rewrite union_empty_r_L).
  apply (greedy_tail_ok ord co Y row Hord Hco (Z.to_nat n) n [first] None); [|done|change (zlen [first]) with 1; lia|change (zlen [first]) with 1; lia].
  split; [apply NoDup_singleton|]. split.
  - intros x Hx. apply elem_of_list_singleton in Hx as ->. by apply elem_of_ones.
  - intros pre x post E Hpre. destruct pre as [|p pre]; [done|]. destruct pre; done.
Qed.

Lemma seq_weights n : map Qc_of_Z (py_range n) = map (fun k => Qc_of_Z (k - 1)) (seqZ 1 n).
Proof.
  unfold py_range. replace (seqZ 1 n) with (Z.add 1 <$> seqZ 0 n) by (rewrite fmap_add_seqZ; f_equal; lia).
  change (Z.add 1 <$> seqZ 0 n) with (map (Z.add 1) (seqZ 0 n)). rewrite map_map. apply map_ext. intros k. f_equal. lia.
Qed.

Lemma sum_range n : 2 * zsum (py_range (Z.of_nat n)) = Z.of_nat n * (Z.of_nat n - 1).
Proof.
  induction n as [|n IH]; [done|]. replace (Z.of_nat (S n)) with (Z.of_nat n + 1) by lia. unfold py_range in *.
  rewrite seqZ_app by lia. rewrite zsum_app. change (seqZ (0 + Z.of_nat n) 1) with [0 + Z.of_nat n]. cbn [zsum foldr]. lia.
Qed.

Lemma seq_weights_sum n : 0 <= n -> qsum (map (fun k => Qc_of_Z (k - 1)) (seqZ 1 n)) = (Qc_of_Z (n * (n - 1)) / Qc_of_Z 2)%Qc.
Proof.
  intros Hn. rewrite <- seq_weights, (qsum_Z (fun x => x)), map_id. pose proof (sum_range (Z.to_nat n)) as H. rewrite Z2Nat.id in H by done.
  rewrite <- H, Qc_of_Z_mult. field. done.
Qed.

Lemma seq_weights_pos n : 2 <= n -> (0 < qsum (map (fun k => Qc_of_Z (k - 1)) (seqZ 1 n)))%Qc.
Proof. intros Hn. rewrite seq_weights_sum by lia. apply Qcdiv_pos; apply Qc_of_Z_pos; nia. Qed.

Lemma size_draw py39 n : random_choices py39 (seqZ 1 n) (map Qc_of_Z (py_range n)) = random_choices py39 (seqZ 1 n) (map (fun k => Qc_of_Z (k - 1)) (seqZ 1 n)).
Proof. by rewrite seq_weights. Qed.

Lemma size_draw_one py39 : random_choices py39 (seqZ 1 1) (map Qc_of_Z (py_range 1)) = if py39 then Fail ValueError else Ret 1.
Proof.
  rewrite size_draw. change (seqZ 1 1) with ([] ++ [1]). apply rc_zero. change (Qc_of_Z 0 + 0 = 0)%Qc. rewrite Z2Qc_inj_0. ring.
Qed.

Lemma weights_nonneg n k : k ∈ seqZ 1 n -> (0 <= Qc_of_Z (k - 1))%Qc.
Proof. intros Hk. apply elem_of_seqZ in Hk. apply Qc_of_Z_nonneg. lia. Qed.

Lemma size_draw_can py39 n o : 2 <= n ->
  can (random_choices py39 (seqZ 1 n) (map Qc_of_Z (py_range n))) o <-> exists k, 2 <= k <= n /\ o = Ok k.
Proof.
  intros Hn. rewrite size_draw, rc_can; [|apply weights_nonneg|by apply seq_weights_pos]. split.
  - intros (k & Hk & Hne & ->). exists k. split; [|done]. apply elem_of_seqZ in Hk. destruct (decide (k = 1)) as [->|]; [|lia].
    exfalso. apply Hne. apply Z2Qc_inj_0.
  - intros (k & Hk & ->). exists k. split; [apply elem_of_seqZ; lia|]. split; [|done]. intros E. apply Qc_of_Z_inj_0 in E. lia.
Qed.

Lemma row_tail_can py39 ord co Y row : set_order ord ->
  (forall a b, count_get co (a, b) = if decide (a = b) then 0 else cooc Y a b) -> 0 < n_ones row ->
  (forall o, can (row_tail py39 ord co row) o ->
     (n_ones row = 1 /\ py39 = true /\ o = Err ValueError) \/
     exists xs, o = Ok (Some (list_to_set xs)) /\ greedy_chain Y row xs /\ 1 <= zlen xs <= n_ones row /\ (2 <= n_ones row -> 2 <= zlen xs)) /\
  (forall k x, 2 <= k <= n_ones row -> has_one row x ->
     exists xs, can (row_tail py39 ord co row) (Ok (Some (list_to_set (x :: xs)))) /\ greedy_chain Y row (x :: xs) /\ zlen (x :: xs) = k).
Proof.
  intros Hord Hco Hpos. assert (Hne : ones row <> []) by (intros E; apply zlen_0 in E; rewrite zlen_ones in E; lia).
  split.
  - intros o. unfold row_tail. cbv zeta. rewrite zlen_ones. destruct (Z.eqb_spec (n_ones row) 0); [lia|]. intros H.
    assert (Hstep : forall k, 1 <= k <= n_ones row ->
      can (let? first := np_choice_uniform (ones row) in
           let? T := lift (greedy_tail (Z.to_nat k) ord co k {[first]} (py_set (ones row) ∖ {[first]}) None) in Ret (Some T)) o ->
      exists xs, o = Ok (Some (list_to_set xs)) /\ greedy_chain Y row xs /\ zlen xs = k).
    { intros k Hk Hc. apply can_bind in Hc as (a & Ha & Hc). apply can_uniform in Ha; [|done]. destruct Ha as (x & Hx & ->).
      destruct (greedy_from ord co Y row k x Hord Hco Hx Hk) as (ys & E & H1 & H2). rewrite E in Hc. cbn in Hc. exists (x :: ys). done. }
    destruct (decide (n_ones row = 1)) as [E1|E1].
    + rewrite E1 in H. rewrite size_draw_one in H. destruct py39; cbn in H; [left; done|]. right.
      destruct (Hstep 1) as (xs & -> & H1 & H2); [lia|done|]. exists xs. split; [done|]. split; [done|]. lia.
    + right. apply can_bind in H as (a & Ha & Hc). apply size_draw_can in Ha; [|lia]. destruct Ha as (k & Hk & ->).
      destruct (Hstep k) as (xs & -> & H1 & H2); [lia|done|]. exists xs. split; [done|]. split; [done|]. lia.
  - intros k x Hk Hx. apply elem_of_ones in Hx. destruct (greedy_from ord co Y row k x Hord Hco Hx) as (ys & E & H1 & H2); [lia|].
    exists ys. split; [|done]. unfold row_tail. cbv zeta. rewrite zlen_ones. destruct (Z.eqb_spec (n_ones row) 0); [lia|].
    apply can_bind. exists (Ok k). split; [apply size_draw_can; [lia|eauto]|]. apply can_bind. exists (Ok x). split; [apply can_uniform; eauto|].
    rewrite E. done.
Qed.

(** Expectation of a function that sees only the size of the tail or the exception. *)
Lemma row_tail_expect py39 ord co Y row f g e : set_order ord ->
  (forall a b, count_get co (a, b) = if decide (a = b) then 0 else cooc Y a b) -> 0 < n_ones row ->
  (forall T : gset Z, f (Ok (Some T)) = g (Z.of_nat (size T))) -> f (Err ValueError) = e ->
  expect (row_tail py39 ord co row) f =
    if decide (n_ones row = 1) then (if py39 then e else g 1)
    else (qsum (map (fun k => Qc_of_Z (k - 1) * g k) (seqZ 1 (n_ones row))) * (Qc_of_Z 2 / Qc_of_Z (n_ones row * (n_ones row - 1))))%Qc.
Proof.
  intros Hord Hco Hpos Hf He. assert (Hne : ones row <> []) by (intros E; apply zlen_0 in E; rewrite zlen_ones in E; lia).
  unfold row_tail. cbv zeta. rewrite zlen_ones. destruct (Z.eqb_spec (n_ones row) 0); [lia|].
  assert (Hstep : forall k, 1 <= k <= n_ones row ->
      expect (let? first := np_choice_uniform (ones row) in
           let? T := lift (greedy_tail (Z.to_nat k) ord co k {[first]} (py_set (ones row) ∖ {[first]}) None) in Ret (Some T)) f = g k).
  { intros k Hk. rewrite expect_bind, expect_uniform by done.
    rewrite (qsum_map_ext _ (fun _ => (g k * 1))%Qc).
    - rewrite (qsum_map_mult (g k) (fun _ => 1%Qc)).
      assert (qsum (map (fun _ : Z => 1%Qc) (ones row)) = Qc_of_Z (zlen (ones row))) as ->.
      { clear. induction (ones row) as [|x l IH]; [change (zlen (@nil Z)) with 0; by rewrite Z2Qc_inj_0|]. cbn [map]. rewrite zlen_cons, Qc_of_Z_plus, <- IH, Z2Qc_inj_1.
        cbn [qsum foldr]. fold (qsum (map (fun _ : Z => 1%Qc) l)). ring. }
      field. intros E. apply Qc_of_Z_inj_0 in E. rewrite zlen_ones in E. lia.
    - intros x Hx. destruct (greedy_from ord co Y row k x Hord Hco Hx Hk) as (ys & E & H1 & H2). rewrite E. cbn [lift bind expect]. rewrite Hf.
      rewrite size_list_to_set by apply H1. change (Z.of_nat (length (x :: ys))) with (zlen (x :: ys)). rewrite H2. ring. }
  destruct (decide (n_ones row = 1)) as [E1|E1].
  - rewrite E1 at 1 2. rewrite size_draw_one. destruct py39; cbn [bind expect]; [done|]. apply Hstep. lia.
  - rewrite expect_bind, size_draw, rc_expect; [|apply weights_nonneg|apply seq_weights_pos; lia]. rewrite seq_weights_sum by lia.
    rewrite (qsum_map_ext _ (fun k => Qc_of_Z (k - 1) * g k)%Qc) by (intros k Hk; apply elem_of_seqZ in Hk; rewrite Hstep by lia; done).
    field. split; [|done]. intros E. apply Qc_of_Z_inj_0 in E. nia.
Qed.

(** ** The sampler *)
Lemma gas_fit_ok ord X Y : set_order ord -> length X = length Y ->
  exists s, gas_fit ord X Y = Ok s /\ gas_Y s = Y /\ gas_W s = map row_weight Y /\
    forall a b, count_get (fq_dlabel (gas_freqs s)) (a, b) = if decide (a = b) then 0 else cooc Y a b.
Proof.
  intros Hord Hlen. unfold gas_fit, compute_frequencies. destruct (freqs_ok ord X Y Hord Hlen) as (f & -> & I1 & _).
  cbn [rbind]. eexists. split; [reflexivity|]. done.
Qed.

Lemma row_draw py39 (Y : list (list Z)) : random_choices py39 (py_range (zlen Y)) (map row_weight Y)
  = random_choices py39 (py_range (zlen Y)) (map (fun i => row_weight (Y !!! Z.to_nat i)) (py_range (zlen Y))).
Proof. by rewrite (map_over_range row_weight). Qed.

Lemma total_weight (Y : list (list Z)) : (exists row, row ∈ Y /\ 0 < n_ones row) -> (0 < qsum (map row_weight Y))%Qc.
Proof.
  intros (row & Hr & Hp). apply elem_of_list_split in Hr as (Y1 & Y2 & ->). rewrite map_app. cbn [map]. rewrite qsum_app.
  cbn [qsum foldr]. fold (qsum (map row_weight Y2)).
  assert (forall Y0, 0 <= qsum (map row_weight Y0))%Qc as Hn.
  { intros Y0. apply qsum_nonneg. intros p Hp0. apply elem_of_map in Hp0 as (r & -> & _). apply row_weight_nonneg. }
  pose proof (Hn Y1) as H1. pose proof (Hn Y2) as H2. pose proof (proj2 (row_weight_pos row) Hp) as H3.
  apply Qclt_le_trans with (row_weight row); [done|]. replace (row_weight row) with (0 + (row_weight row + 0))%Qc at 1 by ring.
  apply Qcplus_le_compat; [done|]. apply Qcplus_le_compat; [apply Qcle_refl|done].
Qed.

Lemma no_weight (Y : list (list Z)) : (forall row, row ∈ Y -> n_ones row = 0) -> qsum (map row_weight Y) = 0%Qc.
Proof. intros H. apply qsum_zero. intros row Hr. apply row_weight_pos. auto. Qed.

Lemma has_labels_dec (Y : list (list Z)) : {exists row, row ∈ Y /\ 0 < n_ones row} + {forall row, row ∈ Y -> n_ones row = 0}.
Proof.
  destruct (decide (Exists (fun row => 0 < n_ones row) Y)) as [H|H].
  - left. apply list.Exists_exists in H as (row & H1 & H2). eauto.
  - right. intros row Hr. pose proof (n_ones_nonneg row). destruct (decide (0 < n_ones row)); [|lia]. exfalso. apply H. apply list.Exists_exists. eauto.
Qed.

Lemma sample_can py39 ord s o : (exists row, row ∈ gas_Y s /\ 0 < n_ones row) -> gas_W s = map row_weight (gas_Y s) ->
  can (gas_sample_once py39 ord s) o <-> exists row, row ∈ gas_Y s /\ 0 < n_ones row /\ can (row_tail py39 ord (fq_dlabel (gas_freqs s)) row) o.
Proof.
  intros Hex HW. rewrite sample_once_rows, HW, row_draw, can_bind.
  assert (Hnn : forall i, i ∈ py_range (zlen (gas_Y s)) -> (0 <= row_weight (gas_Y s !!! Z.to_nat i))%Qc) by (intros; apply row_weight_nonneg).
  assert (Hpos : (0 < qsum (map (fun i => row_weight (gas_Y s !!! Z.to_nat i)) (py_range (zlen (gas_Y s)))))%Qc).
  { rewrite (map_over_range row_weight). by apply total_weight. }
  split.
  - intros (a & Ha & Hc). apply rc_can in Ha; [|done|done]. destruct Ha as (i & Hi & Hne & ->). apply elem_of_py_range in Hi.
    destruct (index_total (gas_Y s) i Hi) as [E Hin]. apply can_bind in Hc as (b & Hb & Hc). rewrite E in Hb. cbn in Hb. subst b.
    eexists. split; [exact Hin|]. split; [by apply row_weight_zero|done].
  - intros (row & Hr & Hp & Hc). apply elem_of_list_lookup in Hr as [i Hi]. exists (Ok (Z.of_nat i)).
    assert (Hir : 0 <= Z.of_nat i < zlen (gas_Y s)) by (apply lookup_lt_Some in Hi; unfold zlen; lia).
    destruct (index_total (gas_Y s) _ Hir) as [E Hin]. rewrite Nat2Z.id in E. rewrite (list_lookup_total_correct _ _ _ Hi) in E.
    split.
    + apply rc_can; [done|done|]. exists (Z.of_nat i). split; [by apply elem_of_py_range|]. split; [|done].
      rewrite Nat2Z.id, (list_lookup_total_correct _ _ _ Hi). by apply row_weight_zero.
    + apply can_bind. exists (Ok row). rewrite E. done.
Qed.

Lemma sample_expect py39 ord s f : (exists row, row ∈ gas_Y s /\ 0 < n_ones row) -> gas_W s = map row_weight (gas_Y s) ->
  expect (gas_sample_once py39 ord s) f =
  (qsum (map (fun row => row_weight row * expect (row_tail py39 ord (fq_dlabel (gas_freqs s)) row) f) (gas_Y s)) / qsum (map row_weight (gas_Y s)))%Qc.
Proof.
  intros Hex HW. rewrite sample_once_rows, HW, row_draw, expect_bind.
  rewrite rc_expect; [|intros; apply row_weight_nonneg|rewrite (map_over_range row_weight); by apply total_weight].
  rewrite (map_over_range row_weight). f_equal.
  rewrite <- (map_over_range (fun row => row_weight row * expect (row_tail py39 ord (fq_dlabel (gas_freqs s)) row) f)%Qc).
  f_equal. apply map_ext_in. intros i Hi. apply elem_of_list_In, elem_of_py_range in Hi. destruct (index_total (gas_Y s) i Hi) as [E _].
  rewrite expect_bind, E. done.
Qed.

Lemma C58_greedy_proof : forall (py39 : bool) (ord : gset Z -> list Z) (X Y : list (list Z)),
  set_order ord -> length X = length Y -> (exists row, row ∈ Y /\ 0 < n_ones row) ->
  exists s, gas_fit ord X Y = Ok s /\
  forall o, can (gas_sample_once py39 ord s) o ->
    exists row, row ∈ Y /\ 0 < n_ones row /\
      ((n_ones row = 1 /\ py39 = true /\ o = Err ValueError) \/
       exists xs, o = Ok (Some (list_to_set xs)) /\ greedy_chain Y row xs /\
         1 <= zlen xs <= n_ones row /\ (2 <= n_ones row -> 2 <= zlen xs)).
Proof.
  intros py39 ord X Y Hord Hlen Hex. destruct (gas_fit_ok ord X Y Hord Hlen) as (s & E & HY & HW & Hco). exists s. split; [done|].
  intros o Ho. subst Y. apply sample_can in Ho; [|done|done]. destruct Ho as (row & Hr & Hp & Hc). exists row. split; [done|]. split; [done|].
  by apply (row_tail_can py39 ord _ (gas_Y s) row Hord Hco Hp).
Qed.


Lemma C58_reachable_proof : forall (py39 : bool) (ord : gset Z -> list Z) (X Y : list (list Z)) (row : list Z) (k x : Z),
  set_order ord -> length X = length Y -> row ∈ Y -> 2 <= k <= n_ones row -> has_one row x ->
  exists s xs, gas_fit ord X Y = Ok s /\ can (gas_sample_once py39 ord s) (Ok (Some (list_to_set (x :: xs)))) /\
    greedy_chain Y row (x :: xs) /\ zlen (x :: xs) = k.
Proof.
  intros py39 ord X Y row k x Hord Hlen Hr Hk Hx. destruct (gas_fit_ok ord X Y Hord Hlen) as (s & E & HY & HW & Hco). exists s. subst Y.
  assert (Hp : 0 < n_ones row) by lia.
  destruct (proj2 (row_tail_can py39 ord _ (gas_Y s) row Hord Hco Hp) k x Hk Hx) as (xs & H1 & H2 & H3). exists xs. split; [done|]. split; [|done].
  apply sample_can; [eauto|done|eauto].
Qed.


Lemma size_sum (n k : Z) : 2 <= n -> (qsum (map (fun j => Qc_of_Z (j - 1) * (if decide (j = k) then 1 else 0)) (seqZ 1 n)) * (Qc_of_Z 2 / Qc_of_Z (n * (n - 1))))%Qc
  = size_prob false n k.
Proof.
  intros Hn. assert (Hs : qsum (map (fun j => Qc_of_Z (j - 1) * (if decide (j = k) then 1 else 0))%Qc (seqZ 1 n)) = if decide (1 <= k <= n) then Qc_of_Z (k - 1) else 0%Qc).
  { destruct (decide (1 <= k <= n)) as [Hk|Hk].
    - replace n with ((k - 1) + ((n - k) + 1)) by lia. rewrite seqZ_app by lia. replace (1 + (k - 1)) with k by lia. rewrite (seqZ_cons k) by lia.
      rewrite map_app. cbn [map]. rewrite qsum_app. cbn [qsum foldr]. rewrite decide_True by done.
      rewrite qsum_zero; [|intros j Hj; apply elem_of_seqZ in Hj; rewrite decide_False by lia; ring].
      change (foldr Qcplus 0%Qc ?l) with (qsum l). rewrite qsum_zero; [by rewrite Qcmult_1_r, Qcplus_0_l, Qcplus_0_r|]. intros j Hj; apply elem_of_seqZ in Hj; rewrite decide_False by lia; ring.
    - apply qsum_zero. intros j Hj. apply elem_of_seqZ in Hj. rewrite decide_False by lia. ring. }
  rewrite Hs. unfold size_prob. destruct (Z.eqb_spec n 1); [lia|]. cbn [andb].
  destruct (Z.leb_spec 2 k); cbn [andb].
  - destruct (Z.leb_spec k n); [rewrite decide_True by lia|rewrite decide_False by lia; ring]. rewrite (Qc_of_Z_mult 2 (k - 1)). unfold Qcdiv. ring.
  - destruct (decide (1 <= k <= n)); [|ring]. assert (k = 1) as -> by lia. change (1 - 1) with 0. rewrite Z2Qc_inj_0. ring.
Qed.

Lemma C58_law_proof : forall (py39 : bool) (ord : gset Z -> list Z) (X Y : list (list Z)) (s : gas) (k : Z),
  set_order ord -> length X = length Y -> zero_one Y -> (exists row, row ∈ Y /\ 0 < n_ones row) -> gas_fit ord X Y = Ok s ->
  let W := Qc_of_Z (zsum (map area_weight Y)) in
  expect (gas_sample_once py39 ord s)
    (fun o => match o with Ok (Some T) => if decide (Z.of_nat (size T) = k) then 1%Qc else 0%Qc | _ => 0%Qc end)
  = (qsum (map (fun row => Qc_of_Z (area_weight row) * size_prob py39 (n_ones row) k) Y) / W)%Qc /\
  expect (gas_sample_once py39 ord s) (fun o => match o with Err ValueError => 1%Qc | _ => 0%Qc end)
  = (qsum (map (fun row => if py39 && (n_ones row =? 1) then Qc_of_Z (area_weight row) else 0%Qc) Y) / W)%Qc.
Proof.
  intros py39 ord X Y s k Hord Hlen H01 Hex Hfit W. destruct (gas_fit_ok ord X Y Hord Hlen) as (s' & E & HY & HW & Hco).
  rewrite Hfit in E. injection E as <-. rewrite <- HY in HW. assert (Hex' : exists row, row ∈ gas_Y s /\ 0 < n_ones row) by by rewrite HY.
  rewrite !sample_expect by done. rewrite HY.
  assert (qsum (map row_weight Y) = W) as ->.
  { unfold W. rewrite <- (qsum_Z area_weight). apply qsum_map_ext. intros row Hr. apply row_weight_area. intros v Hv. by apply (H01 row). }
  split; f_equal; apply qsum_map_ext; intros row Hr; rewrite row_weight_area by (intros v Hv; by apply (H01 row)).
  - destruct (decide (n_ones row = 0)) as [E0|E0].
    { unfold area_weight. rewrite E0, Z.mul_0_l, Z2Qc_inj_0. ring. }
    pose proof (n_ones_nonneg row). f_equal.
    rewrite (row_tail_expect py39 ord _ Y row _ (fun n => if decide (n = k) then 1%Qc else 0%Qc) 0%Qc Hord Hco) by (lia || done).
    destruct (decide (n_ones row = 1)) as [E1|E1].
    + rewrite E1. unfold size_prob. destruct (Z.leb_spec 2 k); cbn [andb]; [destruct (Z.leb_spec k 1); [lia|]|].
      * cbn. destruct (Z.eqb_spec k 1); [lia|]. cbn. rewrite decide_False by lia. by destruct py39.
      * cbn. destruct (Z.eqb_spec k 1) as [->|]; cbn; [by destruct py39|]. rewrite decide_False by lia. by destruct py39.
    + rewrite size_sum by lia. unfold size_prob. destruct (Z.eqb_spec (n_ones row) 1); [lia|]. done.
  - destruct (decide (n_ones row = 0)) as [E0|E0].
    { unfold area_weight. rewrite E0, Z.mul_0_l, Z2Qc_inj_0. cbn. rewrite andb_false_r. ring. }
    pose proof (n_ones_nonneg row).
    rewrite (row_tail_expect py39 ord _ Y row _ (fun n => 0%Qc) 1%Qc Hord Hco) by (lia || done).
    destruct (decide (n_ones row = 1)) as [E1|E1].
    + rewrite E1. cbn. rewrite andb_true_r. destruct py39; ring.
    + destruct (Z.eqb_spec (n_ones row) 1); [lia|]. rewrite andb_false_r. rewrite qsum_zero by (intros; ring). ring.
Qed.


Lemma C58_no_labels_proof : forall (py39 : bool) (ord : gset Z -> list Z) (X Y : list (list Z)),
  set_order ord -> length X = length Y -> (forall row, row ∈ Y -> n_ones row = 0) ->
  exists s, gas_fit ord X Y = Ok s /\
    gas_sample_once py39 ord s = match Y with [] => Fail IndexError | _ => if py39 then Fail ValueError else Ret None end.
Proof.
  intros py39 ord X Y Hord Hlen H0. destruct (gas_fit_ok ord X Y Hord Hlen) as (s & E & HY & HW & Hco). exists s. split; [done|].
  rewrite sample_once_rows, HW, HY, row_draw. destruct Y as [|r0 Y] using rev_ind; [done|]. clear IHY.
  assert (py_range (zlen (Y ++ [r0])) = py_range (zlen Y) ++ [zlen Y]) as ->.
  { rewrite zlen_app. change (zlen [r0]) with 1. unfold py_range. rewrite seqZ_app by (pose proof (zlen_nonneg Y); lia). done. }
  rewrite rc_zero.
  - destruct py39; [by destruct Y|]. cbn [bind]. rewrite index_mid. cbn [lift bind]. unfold row_tail. rewrite zlen_ones, H0; [by destruct Y|].
    apply elem_of_app. right. left.
  - replace (py_range (zlen Y) ++ [zlen Y]) with (py_range (zlen (Y ++ [r0]))).
    + rewrite (map_over_range row_weight). by apply no_weight.
    + rewrite zlen_app. change (zlen [r0]) with 1. unfold py_range. rewrite seqZ_app by (pose proof (zlen_nonneg Y); lia). done.
Qed.
