(** Lemmas on the set trie. *)
From Verif.Model Require Import PyBase Trie.
From Verif.Spec Require Import STrie.
From Verif.Proofs Require Import PBase.
Open Scope Z_scope.

(** ** strictly increasing lists *)

Lemma sublist_elem_of {A} (x : A) l k : x ∈ l -> l `sublist_of` k -> x ∈ k.
Proof. intros Hx Hs. eapply elem_of_submseteq; [done|]. by apply sublist_submseteq. Qed.


Lemma sorted_lookup_lt (l : list Z) i j a b :
  StronglySorted Z.lt l -> l !! i = Some a -> l !! j = Some b -> (i < j)%nat -> a < b.
Proof.
  intros Hs. revert i j. induction Hs as [|x l Hs IH Hall]; intros i j Hi Hj Hij; [done|].
  destruct j as [|j]; [lia|]. destruct i as [|i]; simpl in *.
  - simplify_eq. rewrite Forall_forall in Hall. apply Hall. by eapply elem_of_list_lookup_2.
  - eapply IH; eauto. lia.
Qed.

Lemma sorted_NoDup (l : list Z) : StronglySorted Z.lt l -> NoDup l.
Proof.
  induction 1 as [|x l Hs IH Hall]; constructor; [|done].
  intros Hx. rewrite Forall_forall in Hall. apply Hall in Hx. lia.
Qed.

Lemma sorted_lt_of_le (l : list Z) : StronglySorted Z.le l -> NoDup l -> StronglySorted Z.lt l.
Proof.
  induction 1 as [|x l Hs IH Hall]; intros Hnd; constructor; inversion Hnd; subst; auto.
  rewrite Forall_forall in *. intros y Hy. specialize (Hall y Hy).
  assert (x <> y) by (intros ->; done). lia.
Qed.

Lemma py_sorted_lt l : NoDup l -> StronglySorted Z.lt (py_sorted l).
Proof. intros H. apply sorted_lt_of_le; [apply py_sorted_sorted|]. by rewrite py_sorted_perm. Qed.

Lemma sorted_cons_inv x l : StronglySorted Z.lt (x :: l) ->
  StronglySorted Z.lt l /\ forall y, y ∈ l -> x < y.
Proof. inversion 1; subst. split; [done|]. by apply Forall_forall. Qed.

Lemma sorted_unique l l' : StronglySorted Z.lt l -> StronglySorted Z.lt l' -> same_set l l' -> l = l'.
Proof.
  intros Hl. revert l'. induction Hl as [|x l Hs IH Hall]; intros l' Hl' Hsame.
  - destruct l' as [|y l']; [done|]. exfalso. specialize (Hsame y). set_solver.
  - destruct Hl' as [|y l' Hs' Hall']; [exfalso; specialize (Hsame x); set_solver|].
    rewrite Forall_forall in *. assert (x = y) as ->.
    { assert (Hx := proj1 (Hsame x)). assert (Hy := proj2 (Hsame y)).
      rewrite !elem_of_cons in *. destruct (Hx (or_introl eq_refl)) as [?|Hx']; [done|].
      destruct (Hy (or_introl eq_refl)) as [?|Hy']; [done|].
      specialize (Hall y Hy'). specialize (Hall' x Hx'). lia. }
    f_equal. apply IH; [done|]. intros z. specialize (Hsame z). rewrite !elem_of_cons in Hsame.
    split; intros Hz.
    + destruct (proj1 Hsame) as [->|?]; auto. specialize (Hall y Hz). lia.
    + destruct (proj2 Hsame) as [->|?]; auto. specialize (Hall' y Hz). lia.
Qed.

Lemma sorted_tuple_py_sorted s l : NoDup s -> (sorted_tuple_of s l <-> py_sorted s = l).
Proof.
  intros Hnd. split.
  - intros [Hl Hsame]. apply sorted_unique; [by apply py_sorted_lt|done|].
    intros x. rewrite py_sorted_perm. apply Hsame.
  - intros <-. split; [by apply py_sorted_lt|]. intros x. by rewrite py_sorted_perm.
Qed.

Lemma sorted_sublist_subset (l q : list Z) :
  StronglySorted Z.lt l -> StronglySorted Z.lt q -> (l `sublist_of` q <-> forall x, x ∈ l -> x ∈ q).
Proof.
  intros Hl Hq. split.
  - intros Hsub x Hx. by eapply sublist_elem_of.
  - revert l Hl. induction Hq as [|y q Hq IH Hall]; intros l Hl Hsub.
    + destruct l as [|x l]; [constructor|]. exfalso. specialize (Hsub x). set_solver.
    + rewrite Forall_forall in Hall. destruct Hl as [|x l Hl Hall'].
      * apply sublist_nil_l.
      * rewrite Forall_forall in Hall'. destruct (decide (x = y)) as [->|Hne].
        -- apply sublist_skip. apply IH; [done|]. intros z Hz.
           assert (z ∈ y :: q) as Hz' by (apply Hsub; by right).
           apply elem_of_cons in Hz' as [->|?]; [|done]. specialize (Hall' y Hz). lia.
        -- apply sublist_cons. apply IH; [by constructor; [|apply Forall_forall]|].
           assert (x ∈ q) as Hx.
           { assert (x ∈ y :: q) as Hx by (apply Hsub; left). apply elem_of_cons in Hx as [?|?]; done. }
           intros z Hz. assert (z ∈ y :: q) as Hz' by (by apply Hsub).
           apply elem_of_cons in Hz' as [->|?]; [|done].
           apply elem_of_cons in Hz as [?|Hz]; [done|].
           specialize (Hall' y Hz). specialize (Hall x Hx). lia.
Qed.

(** ** bisect and binary search *)

Lemma bisect_aux_ok fuel arr x lo hi :
  StronglySorted Z.lt arr -> 0 <= lo <= hi -> hi <= zlen arr -> hi - lo < Z.of_nat fuel ->
  (forall k v, Z.of_nat k < lo -> arr !! k = Some v -> v < x) ->
  (forall k v, hi <= Z.of_nat k -> arr !! k = Some v -> x <= v) ->
  exists p, bisect_aux fuel arr x lo hi = Ok p /\ 0 <= p <= zlen arr /\
    (forall k v, Z.of_nat k < p -> arr !! k = Some v -> v < x) /\
    (forall k v, p <= Z.of_nat k -> arr !! k = Some v -> x <= v).
Proof.
  intros Hs. revert lo hi. induction fuel as [|f IH]; intros lo hi Hlo Hhi Hf Hl Hh; [lia|].
  simpl. destruct (Z.ltb_spec lo hi) as [Hlt|Hge].
  - set (mid := (lo + hi) / 2). assert (lo <= mid < hi) as Hmid.
    { unfold mid. split; [apply Z.div_le_lower_bound; lia|apply Z.div_lt_upper_bound; lia]. }
    destruct (py_index_in_range arr mid) as (v & -> & Hv); [lia|]. simpl.
    destruct (Z.ltb_spec v x) as [Hvx|Hvx].
    + apply IH; try lia; [|done]. intros k w Hk Hw.
      destruct (decide (k = Z.to_nat mid)) as [->|]; [by simplify_eq|].
      assert (w < v); [|lia]. eapply (sorted_lookup_lt arr k (Z.to_nat mid)); eauto. lia.
    + apply IH; try lia; [done|]. intros k w Hk Hw.
      destruct (decide (k = Z.to_nat mid)) as [->|]; [by simplify_eq|].
      assert (v < w); [|lia]. eapply (sorted_lookup_lt arr (Z.to_nat mid) k); eauto. lia.
  - assert (lo = hi) as -> by lia. exists hi. split; [done|]. split; [lia|]. done.
Qed.

Lemma bisect_left_ok arr x : StronglySorted Z.lt arr ->
  exists p, bisect_left arr x = Ok p /\ 0 <= p <= zlen arr /\
    (forall k v, Z.of_nat k < p -> arr !! k = Some v -> v < x) /\
    (forall k v, p <= Z.of_nat k -> arr !! k = Some v -> x <= v).
Proof.
  intros Hs. apply bisect_aux_ok; [done| | | | |].
  - pose proof (zlen_nonneg arr). lia.
  - lia.
  - unfold zlen. lia.
  - intros. lia.
  - intros k v Hk Hv. apply lookup_lt_Some in Hv. unfold zlen in Hk. lia.
Qed.

Lemma binary_search_aux_ok fuel arr x low high :
  StronglySorted Z.lt arr -> 0 <= low -> high < zlen arr -> high - low + 1 < Z.of_nat fuel ->
  (forall k, arr !! k = Some x -> low <= Z.of_nat k <= high) -> low <= high + 1 ->
  exists p, binary_search_aux fuel arr low high x = Ok p /\
    ((0 <= p /\ arr !! Z.to_nat p = Some x) \/ (p = -1 /\ x ∉ arr)).
Proof.
  intros Hs. revert low high. induction fuel as [|f IH]; intros low high Hlo Hhi Hf Hin Hlh; [lia|].
  simpl. destruct (Z.leb_spec low high) as [Hle|Hgt].
  - set (mid := (high + low) / 2). assert (low <= mid <= high) as Hmid.
    { unfold mid. split; [apply Z.div_le_lower_bound; lia|].
      apply Z.lt_succ_r. apply Z.div_lt_upper_bound; lia. }
    destruct (py_index_in_range arr mid) as (v & -> & Hv); [lia|]. simpl.
    destruct (Z.eqb_spec v x) as [->|Hne].
    + exists mid. split; [done|]. left. split; [lia|done].
    + destruct (Z.ltb_spec x v) as [Hxv|Hxv].
      * apply IH; try lia. intros k Hk. specialize (Hin k Hk).
        assert (Z.of_nat k < mid); [|lia].
        destruct (decide (k = Z.to_nat mid)) as [->|]; [congruence|].
        destruct (decide (k < Z.to_nat mid)%nat); [lia|].
        assert (v < x); [|lia]. eapply (sorted_lookup_lt arr (Z.to_nat mid) k); eauto. lia.
      * apply IH; try lia. intros k Hk. specialize (Hin k Hk).
        assert (mid < Z.of_nat k); [|lia].
        destruct (decide (k = Z.to_nat mid)) as [->|]; [congruence|].
        destruct (decide (Z.to_nat mid < k)%nat); [lia|].
        assert (x < v); [|lia]. eapply (sorted_lookup_lt arr k (Z.to_nat mid)); eauto. lia.
  - exists (-1). split; [done|]. right. split; [done|]. intros Hx.
    apply elem_of_list_lookup in Hx as [k Hk]. specialize (Hin k Hk). lia.
Qed.

Lemma binary_search_ok arr x : StronglySorted Z.lt arr ->
  exists p, binary_search arr x = Ok p /\
    ((0 <= p /\ arr !! Z.to_nat p = Some x) \/ (p = -1 /\ x ∉ arr)).
Proof.
  intros Hs. apply binary_search_aux_ok; [done|lia|lia|unfold zlen; lia| |pose proof (zlen_nonneg arr); lia].
  intros k Hk. apply lookup_lt_Some in Hk. unfold zlen. lia.
Qed.

(** ** inserting at the bisect position *)

Lemma py_insert_perm {A} (l : list A) p v : py_insert l p v ≡ₚ v :: l.
Proof.
  unfold py_insert. rewrite <- Permutation_middle. by rewrite take_drop.
Qed.

Lemma py_insert_map {A B} (f : A -> B) l p v : map f (py_insert l p v) = py_insert (map f l) p (f v).
Proof. unfold py_insert. rewrite map_app. simpl. by rewrite firstn_map, skipn_map. Qed.

Lemma StronglySorted_app_intro (l1 l2 : list Z) :
  StronglySorted Z.lt l1 -> StronglySorted Z.lt l2 -> (forall a b, a ∈ l1 -> b ∈ l2 -> a < b) ->
  StronglySorted Z.lt (l1 ++ l2).
Proof.
  induction 1 as [|x l1 Hs IH Hall]; intros H2 Hc; simpl; [done|]. constructor.
  - apply IH; [done|]. intros a b Ha Hb. apply Hc; [by right|done].
  - apply Forall_app. split; [done|]. apply Forall_forall. intros b Hb. apply Hc; [left|done].
Qed.

Lemma StronglySorted_app_inv (l1 l2 : list Z) :
  StronglySorted Z.lt (l1 ++ l2) ->
  StronglySorted Z.lt l1 /\ StronglySorted Z.lt l2 /\ (forall a b, a ∈ l1 -> b ∈ l2 -> a < b).
Proof.
  induction l1 as [|x l1 IH]; simpl; intros H.
  - split_and!; [constructor|done|]. intros a b Ha. inversion Ha.
  - apply sorted_cons_inv in H as [H Hall]. destruct IH as (H1 & H2 & H3); [done|]. split_and!; [|done|].
    + constructor; [done|]. apply Forall_forall. intros y Hy. apply Hall, elem_of_app. by left.
    + intros a b Ha Hb. apply elem_of_cons in Ha as [->|Ha]; [|auto]. apply Hall, elem_of_app. by right.
Qed.

Lemma bisect_insert_sorted arr x p :
  StronglySorted Z.lt arr -> x ∉ arr -> bisect_left arr x = Ok p ->
  StronglySorted Z.lt (py_insert arr p x).
Proof.
  intros Hs Hx Hb. destruct (bisect_left_ok arr x Hs) as (p' & Hb' & Hp & Hlo & Hhi).
  rewrite Hb in Hb'. simplify_eq. unfold py_insert.
  assert (Hs' := Hs). rewrite <- (take_drop (Z.to_nat p') arr) in Hs'.
  apply StronglySorted_app_inv in Hs' as (H1 & H2 & _).
  assert (Hgt : forall b, b ∈ drop (Z.to_nat p') arr -> x < b).
  { intros b Hb1. assert (Hb2 := Hb1). apply elem_of_list_lookup in Hb1 as [k Hk]. rewrite lookup_drop in Hk.
    assert (x <= b) by (eapply Hhi; [|exact Hk]; lia).
    assert (x <> b); [|lia]. intros ->. apply Hx. by eapply elem_of_list_lookup_2. }
  apply StronglySorted_app_intro; [done| |].
  - constructor; [done|]. by apply Forall_forall.
  - intros a b Ha Hb1. assert (a < x).
    { apply elem_of_list_lookup in Ha as [k Hk]. apply lookup_take_Some in Hk as [Hk Hlt].
      eapply Hlo; [|exact Hk]. lia. }
    apply elem_of_cons in Hb1 as [->|Hb1]; [done|]. specialize (Hgt b Hb1). lia.
Qed.

(** ** find_child *)

Lemma find_child_Some x cs c : NoDup (map fst cs) -> (find_child x cs = Some c <-> (x, c) ∈ cs).
Proof.
  induction cs as [|[y d] cs IH]; simpl; intros Hnd.
  - split; [done|]. intros H. inversion H.
  - inversion Hnd as [|? ? Hy Hnd']; subst. rewrite elem_of_cons.
    destruct (Z.eqb_spec y x) as [->|Hne].
    + split; [intros; simplify_eq; auto|]. intros [H|H]; [by simplify_eq|].
      exfalso. apply Hy. apply elem_of_map. exists (x, c). done.
    + rewrite IH by done. split; [auto|]. intros [H|H]; [by simplify_eq|done].
Qed.

Lemma find_child_None x cs : find_child x cs = None <-> x ∉ map fst cs.
Proof.
  induction cs as [|[y d] cs IH]; simpl.
  - split; [|done]. intros _ H. inversion H.
  - rewrite not_elem_of_cons. destruct (Z.eqb_spec y x) as [->|Hne].
    + split; [done|]. intros [? _]. done.
    + rewrite IH. split; [intros; split; auto|tauto].
Qed.

Lemma find_child_perm x cs cs' : NoDup (map fst cs) -> cs ≡ₚ cs' -> find_child x cs = find_child x cs'.
Proof.
  intros Hnd Hp. assert (NoDup (map fst cs')) as Hnd'.
  { by rewrite <- Hp. }
  destruct (find_child x cs) as [c|] eqn:E.
  - apply find_child_Some in E; [|done]. rewrite Hp in E. symmetry. by apply find_child_Some.
  - symmetry. apply find_child_None. apply find_child_None in E. by rewrite <- Hp.
Qed.

Lemma find_child_replace x y c cs :
  find_child y (map (fun yc => if fst yc =? x then (fst yc, c) else yc) cs) =
  if y =? x then match find_child x cs with Some _ => Some c | None => None end else find_child y cs.
Proof.
  induction cs as [|[z d] cs IH]; simpl.
  - by destruct (y =? x).
  - destruct (Z.eqb_spec z x) as [->|Hzx]; simpl.
    + destruct (Z.eqb_spec x y) as [->|Hxy].
      * by rewrite Z.eqb_refl.
      * destruct (Z.eqb_spec y x) as [->|]; [done|]. by rewrite IH.
    + destruct (Z.eqb_spec z y) as [->|Hzy].
      * destruct (Z.eqb_spec y x); [done|done].
      * rewrite IH. done.
Qed.

Lemma map_fst_replace x c (cs : list (Z * node)) :
  map fst (map (fun yc => if fst yc =? x then (fst yc, c) else yc) cs) = map fst cs.
Proof. rewrite map_map. apply map_ext. intros [y d]. simpl. by destruct (y =? x). Qed.

(** ** the tree as a map from paths *)

Section node_ind.
  Context (P : node -> Prop).
  Context (H : forall l s cs, (forall y c, (y, c) ∈ cs -> P c) -> P (Node l s cs)).
  Fixpoint node_ind' (n : node) : P n.
  Proof.
    destruct n as [l s cs]. apply H. induction cs as [|[y c] cs IH]; intros y' c' Hin.
    - inversion Hin.
    - apply elem_of_cons in Hin. destruct Hin as [E|Hin].
      + injection E as _ ->. apply node_ind'.
      + exact (IH y' c' Hin).
  Qed.
End node_ind.

Fixpoint get (n : node) (q : list Z) : option node :=
  match q with
  | [] => Some n
  | x :: q' => match find_child x (children n) with Some c => get c q' | None => None end
  end.

Definition info (n : node) : bool * option (list Z) := (is_last n, cached n).
Definition view (n : node) (q : list Z) : option (bool * option (list Z)) := info <$> get n q.

Inductive ordered : option Z -> node -> Prop :=
| ordered_intro lo l s cs :
    StronglySorted Z.lt (map fst cs) ->
    (forall y c, (y, c) ∈ cs -> too_small lo y = false) ->
    (forall y c, (y, c) ∈ cs -> ordered (Some y) c) ->
    ordered lo (Node l s cs).

Lemma ordered_inv lo n : ordered lo n ->
  StronglySorted Z.lt (map fst (children n)) /\ NoDup (map fst (children n)) /\
  forall x c, find_child x (children n) = Some c -> too_small lo x = false /\ ordered (Some x) c.
Proof.
  destruct 1 as [lo l s cs Hs Ht Ho]. simpl. assert (Hnd := sorted_NoDup _ Hs). split_and!; try done.
  intros x c Hf. apply find_child_Some in Hf; [|done]. eauto.
Qed.

Lemma ordered_fields lo n l s : ordered lo n -> ordered lo (Node l s (children n)).
Proof. destruct 1. by constructor. Qed.

Lemma ordered_set_child lo n x c :
  ordered lo n -> ordered (Some x) c -> ordered lo (set_child x c n).
Proof.
  destruct 1 as [lo l s cs Hs Ht Ho]. intros Hc. unfold set_child. simpl. constructor.
  - by rewrite map_fst_replace.
  - intros y d Hin. apply elem_of_map in Hin as ([y' d'] & E & Hin). simpl in E.
    destruct (Z.eqb_spec y' x); simplify_eq; eauto.
  - intros y d Hin. apply elem_of_map in Hin as ([y' d'] & E & Hin). simpl in E.
    destruct (Z.eqb_spec y' x); simplify_eq; eauto.
Qed.

Lemma ordered_empty lo : ordered lo (Node false None []).
Proof.
  constructor.
  - constructor.
  - intros y c H. inversion H.
  - intros y c H. inversion H.
Qed.

Lemma add_child_ok lo n x :
  ordered lo n -> too_small lo x = false -> find_child x (children n) = None ->
  exists n', add_child lo n x = Ok n' /\ ordered lo n' /\ info n' = info n /\
    forall y, find_child y (children n') =
      if y =? x then Some (Node false None []) else find_child y (children n).
Proof.
  intros Ho Ht Hf. unfold add_child. rewrite Ht, Hf.
  destruct Ho as [lo l s cs Hs Hts Hord]. simpl in *.
  destruct (bisect_left_ok (map fst cs) x Hs) as (p & Hp & Hpr & _). rewrite Hp. simpl.
  apply find_child_None in Hf.
  assert (Hperm := py_insert_perm cs p (x, Node false None [])).
  assert (Hsorted : StronglySorted Z.lt (map fst (py_insert cs p (x, Node false None [])))).
  { rewrite py_insert_map. by apply bisect_insert_sorted. }
  eexists. split; [reflexivity|]. split_and!.
  - constructor; [done| |].
    + intros y c Hin. rewrite Hperm in Hin. apply elem_of_cons in Hin as [E|Hin]; [by simplify_eq|eauto].
    + intros y c Hin. rewrite Hperm in Hin. apply elem_of_cons in Hin as [E|Hin];
        [simplify_eq; apply ordered_empty|eauto].
  - done.
  - intros y. rewrite (find_child_perm y _ ((x, Node false None []) :: cs)); [|by apply sorted_NoDup|done].
    simpl. rewrite (Z.eqb_sym x y). done.
Qed.

(** view after inserting the sorted list l *)
Definition ins_view (v : option (bool * option (list Z))) (l q : list Z) : option (bool * option (list Z)) :=
  if decide (q `prefix_of` l) then
    let lc := default (false, None) v in
    Some (fst lc || bool_decide (q = l /\ q <> []), snd lc)
  else v.

Lemma view_nil n : view n [] = Some (info n).
Proof. done. Qed.
Lemma view_cons n x q : view n (x :: q) = match find_child x (children n) with Some c => view c q | None => None end.
Proof. unfold view. simpl. by destruct (find_child x (children n)). Qed.

Lemma view_mark_last n q : view (mark_last n) q = if decide (q = []) then Some (true, cached n) else view n q.
Proof. destruct q; simpl; [done|]. rewrite !view_cons. done. Qed.

Lemma view_set_child x c n q :
  is_Some (find_child x (children n)) ->
  view (set_child x c n) q =
  match q with y :: q' => if y =? x then view c q' else view n q | [] => view n q end.
Proof.
  intros [d Hd]. destruct q as [|y q]; [done|]. rewrite !view_cons. unfold set_child. simpl.
  rewrite find_child_replace, Hd. by destruct (y =? x).
Qed.

Lemma trie_insert_ok lo n l :
  ordered lo n -> StronglySorted Z.lt l -> (forall x, x ∈ l -> too_small lo x = false) ->
  exists n', trie_insert lo n l = Ok n' /\ ordered lo n' /\ forall q, view n' q = ins_view (view n q) l q.
Proof.
  revert lo n. induction l as [|x l IH]; intros lo n Ho Hs Ht; simpl.
  - exists n. split_and!; try done. intros q. unfold ins_view. destruct (decide _) as [Hp|]; [|done].
    apply prefix_nil_inv in Hp as ->. rewrite view_nil.
    rewrite bool_decide_eq_false_2 by tauto. rewrite orb_false_r. by destruct (info n).
  - apply sorted_cons_inv in Hs as [Hs Hgt].
    assert (exists n1 child, (match find_child x (children n) with
                 | None => add_child lo n x | Some _ => Ok n end) = Ok n1 /\
        ordered lo n1 /\ info n1 = info n /\ find_child x (children n1) = Some child /\
        ordered (Some x) child /\
        (forall q, default (false, None) (view child q) = default (false, None) (view n (x :: q))) /\
        (forall q, q <> [] -> view child q = view n (x :: q)) /\
        (forall y, y <> x -> find_child y (children n1) = find_child y (children n)))
      as (n1 & child & -> & Ho1 & Hinfo & Hf1 & Hoc & Hv & Hv' & Hother).
    { destruct (find_child x (children n)) as [c|] eqn:Ef.
      - exists n, c. split_and!; try done.
        + by apply (ordered_inv lo n Ho).
        + intros q. by rewrite view_cons, Ef.
        + intros q _. by rewrite view_cons, Ef.
      - destruct (add_child_ok lo n x Ho) as (n' & Ha & Ho' & Hinfo & Hfc); [apply Ht; left|done|].
        exists n', (Node false None []). rewrite Hfc, Z.eqb_refl. split_and!; try done.
        + apply ordered_empty.
        + intros q. rewrite view_cons, Ef. destruct q; done.
        + intros q Hq. rewrite view_cons, Ef. destruct q; done.
        + intros y Hy. rewrite Hfc. destruct (Z.eqb_spec y x); done. }
    cbn [rbind]. unfold get_child. rewrite Hf1. cbn [rbind].
    destruct (IH (Some x) child Hoc Hs) as (child' & -> & Hoc' & Hvc).
    { intros y Hy. simpl. specialize (Hgt y Hy). lia. }
    cbn [rbind]. eexists. split; [reflexivity|]. split.
    { apply ordered_set_child; [done|]. destruct l; [by apply ordered_fields|done]. }
    intros q. rewrite view_set_child by (rewrite Hf1; eauto).
    destruct q as [|y q].
    + rewrite !view_nil, Hinfo. unfold ins_view. rewrite decide_True by apply prefix_nil.
      rewrite bool_decide_eq_false_2 by tauto. rewrite orb_false_r. by destruct (info n).
    + destruct (Z.eqb_spec y x) as [->|Hne].
      * transitivity (ins_view (view n (x :: q)) (x :: l) (x :: q)); [|done].
        unfold ins_view at 1.
        destruct (decide (x :: q `prefix_of` x :: l)) as [Hp|Hnp].
        -- apply prefix_cons_inv_2 in Hp.
           destruct l as [|z l].
           ++ apply prefix_nil_inv in Hp as ->. rewrite view_mark_last. rewrite decide_True by done.
              rewrite bool_decide_eq_true_2 by done. rewrite orb_true_r. f_equal. f_equal.
              specialize (Hvc []). rewrite view_nil in Hvc. unfold ins_view in Hvc.
              rewrite decide_True in Hvc by done.
              rewrite bool_decide_eq_false_2 in Hvc by tauto.
              injection Hvc as _ Hc. rewrite Hc. specialize (Hv []). simpl in Hv. rewrite <- Hv. done.
           ++ rewrite Hvc. unfold ins_view. rewrite decide_True by done. rewrite Hv. f_equal. f_equal.
              f_equal. apply bool_decide_ext. split; [intros [-> _]; done|intros [E _]; by simplify_eq].
        -- assert (~ q `prefix_of` l) as Hnp'.
           { intros Hp. apply Hnp. by apply prefix_cons. }
           assert (q <> []) as Hq by (intros ->; apply Hnp', prefix_nil).
           assert (view (match l with [] => mark_last child' | _ => child' end) q = view child' q) as ->.
           { destruct l; [|done]. rewrite view_mark_last. by rewrite decide_False. }
           rewrite Hvc. unfold ins_view. rewrite decide_False by done. by apply Hv'.
      * rewrite !view_cons, Hother by done. unfold ins_view. rewrite decide_False; [done|].
        intros Hp. apply prefix_cons_inv_1 in Hp. done.
Qed.

(** ** populate *)

Definition pop_list (path : list Z) (cs : list (Z * node)) : list (Z * node) :=
  map (fun yc => (fst yc, populate (path ++ [fst yc]) (snd yc))) cs.

Lemma populate_eq path l s cs :
  populate path (Node l s cs) =
  Node l (match s with Some _ => s | None => if l then Some path else None end) (pop_list path cs).
Proof. simpl. f_equal. induction cs as [|[y c] cs IH]; simpl; [done|]. by rewrite IH. Qed.

Lemma find_child_pop path x cs :
  find_child x (pop_list path cs) = populate (path ++ [x]) <$> find_child x cs.
Proof.
  induction cs as [|[y c] cs IH]; simpl; [done|]. destruct (Z.eqb_spec y x) as [->|]; done.
Qed.

Lemma view_populate path n q :
  view (populate path n) q =
  (fun lc => (fst lc, match snd lc with Some s => Some s | None => if fst lc : bool then Some (path ++ q) else None end))
    <$> view n q.
Proof.
  revert path n. induction q as [|x q IH]; intros path [l s cs]; rewrite populate_eq.
  - rewrite !view_nil. unfold info. simpl. rewrite app_nil_r. by destruct s.
  - rewrite !view_cons. simpl. rewrite find_child_pop. destruct (find_child x cs) as [c|]; simpl; [|done].
    rewrite IH. rewrite <- (assoc_L app). done.
Qed.

Lemma ordered_populate lo n path : ordered lo n -> ordered lo (populate path n).
Proof.
  intros Ho. revert path. induction Ho as [lo l s cs Hs Ht Hord IH]; intros path. rewrite populate_eq.
  constructor.
  - unfold pop_list. rewrite map_map. simpl. done.
  - intros y c Hin. apply elem_of_map in Hin as ([y' c'] & E & Hin). simpl in E. simplify_eq. eauto.
  - intros y c Hin. apply elem_of_map in Hin as ([y' c'] & E & Hin). simpl in E. simplify_eq. eauto.
Qed.

(** ** searching *)

Lemma trie_search_view n q : q <> [] ->
  trie_search n q = Ok (match view n q with Some (l, _) => l | None => false end).
Proof.
  revert n. induction q as [|x q IH]; intros n Hq; [done|]. simpl. unfold get_child.
  rewrite view_cons. destruct (find_child x (children n)) as [c|]; [|done].
  destruct q as [|y q]; [done|]. by apply IH.
Qed.

Lemma search_subsets_aux_spec n q acc x :
  x ∈ search_subsets_aux n q acc <->
  x ∈ acc \/ exists l, l <> [] /\ l `sublist_of` q /\ view n l = Some (true, x).
Proof.
  revert n acc. induction q as [|y q IH]; intros n acc; simpl.
  - split; [auto|]. intros [?|(l & Hl & Hsub & _)]; [done|]. apply sublist_nil_r in Hsub. done.
  - rewrite IH. unfold get_child.
    assert (Hsplit : (exists l, l <> [] /\ l `sublist_of` y :: q /\ view n l = Some (true, x)) <->
      (exists l, l `sublist_of` q /\ view n (y :: l) = Some (true, x)) \/
      (exists l, l <> [] /\ l `sublist_of` q /\ view n l = Some (true, x))).
    { split.
      - intros (l & Hl & Hsub & Hv). apply sublist_cons_r in Hsub as [Hsub|(l' & -> & Hsub)]; eauto.
      - intros [(l & Hsub & Hv)|(l & Hl & Hsub & Hv)].
        + exists (y :: l). split_and!; try done. by apply sublist_skip.
        + exists l. split_and!; try done. by apply sublist_cons. }
    rewrite Hsplit. setoid_rewrite view_cons.
    destruct (find_child y (children n)) as [c|].
    + rewrite IH.
      assert (Hc : (exists l, l `sublist_of` q /\ view c l = Some (true, x)) <->
         (info c = (true, x)) \/ (exists l, l <> [] /\ l `sublist_of` q /\ view c l = Some (true, x))).
      { split.
        - intros ([|z l] & Hsub & Hv); [left; rewrite view_nil in Hv; congruence|right; exists (z :: l); done].
        - intros [Hv|(l & Hl & Hsub & Hv)]; [exists []; rewrite view_nil, Hv; split; [apply sublist_nil_l|done]|eauto]. }
      rewrite Hc. unfold info. destruct (is_last c).
      * rewrite elem_of_union, elem_of_singleton. split.
        -- intros [[[->|?]|?]|?]; auto.
        -- intros [?|[[E|?]|?]]; auto. injection E as ->. auto.
      * split; [tauto|]. intros [?|[[E|?]|?]]; try tauto. done.
    + split; [tauto|]. intros [?|[(l & _ & E)|?]]; try tauto. done.
Qed.

Lemma all_sets_spec lo n x : ordered lo n -> (x ∈ all_sets n <-> exists l, view n l = Some (true, x)).
Proof.
  intros Ho. induction Ho as [lo l s cs Hs Ht Hord IH]. simpl.
  set (go := fix go (cs : list (Z * node)) : hits :=
         match cs with [] => ∅ | (_, c) :: cs' => all_sets c ∪ go cs' end).
  assert (Hgo : forall cs, x ∈ go cs <-> exists y c, (y, c) ∈ cs /\ x ∈ all_sets c).
  { clear. induction cs as [|[y c] cs IH]; simpl.
    - split; [set_solver|]. intros (y & c & H & _). inversion H.
    - rewrite elem_of_union, IH. split.
      + intros [H|(y' & c' & H & H')]; [exists y, c|exists y', c']; rewrite elem_of_cons; auto.
      + intros (y' & c' & H & H'). apply elem_of_cons in H as [E|H]; [simplify_eq; auto|eauto]. }
  rewrite elem_of_union, Hgo. assert (Hnd := sorted_NoDup _ Hs). split.
  - intros [H|(y & c & Hin & H)].
    + exists []. rewrite view_nil. unfold info. simpl. destruct l; [|set_solver].
      apply elem_of_singleton in H as ->. done.
    + apply (IH y c Hin) in H as [p Hp]. exists (y :: p). rewrite view_cons. simpl.
      rewrite (proj2 (find_child_Some y cs c Hnd)) by done. done.
  - intros ([|y p] & Hv).
    + left. rewrite view_nil in Hv. unfold info in Hv. simpl in Hv. simplify_eq. set_solver.
    + right. rewrite view_cons in Hv. simpl in Hv. destruct (find_child y cs) as [c|] eqn:E; [|done].
      apply find_child_Some in E; [|done]. exists y, c. split; [done|]. apply (IH y c E). eauto.
Qed.

Lemma ordered_path_sorted lo n q v : ordered lo n -> view n q = Some v ->
  StronglySorted Z.lt q /\ forall x, x ∈ q -> too_small lo x = false.
Proof.
  revert lo n. induction q as [|y q IH]; intros lo n Ho Hv.
  - split; [constructor|]. intros x Hx. inversion Hx.
  - rewrite view_cons in Hv. destruct (find_child y (children n)) as [c|] eqn:E; [|done].
    destruct (ordered_inv lo n Ho) as (_ & _ & H). destruct (H y c E) as [Ht Hoc].
    destruct (IH (Some y) c Hoc Hv) as [Hs Hgt]. simpl in Hgt. split.
    + constructor; [done|]. apply Forall_forall. intros z Hz. specialize (Hgt z Hz). lia.
    + intros x Hx. apply elem_of_cons in Hx as [->|Hx]; [done|].
      destruct lo as [lo|]; simpl in *; [|done]. specialize (Hgt x Hx). lia.
Qed.

Lemma search_supersets_spec lo n q : ordered lo n -> q <> [] ->
  exists r, search_supersets_aux n q = Ok r /\
    forall x, x ∈ r <-> exists l, view n l = Some (true, x) /\ q `sublist_of` l.
Proof.
  intros Ho. revert q. induction Ho as [lo l s cs Hs Ht Hord IH]; intros q Hq.
  destruct q as [|item q]; [done|]. simpl. clear Hq.
  set (go := fix go (cs : list (Z * node)) : result hits :=
         match cs with
         | [] => Ok ∅
         | (y, c) :: cs' =>
             if y <=? item then
               if y =? item then
                 match q with
                 | [] => let! r := go cs' in Ok (all_sets c ∪ r)
                 | _ => search_supersets_aux c q
                 end
               else
                 let! r1 := search_supersets_aux c (item :: q) in
                 let! r2 := go cs' in
                 Ok (r1 ∪ r2)
             else go cs'
         end).
  assert (Hbelow : forall y c x p, (y, c) ∈ cs -> view c p = Some (true, x) -> forall z, z ∈ p -> y < z).
  { intros y c x p Hin Hv z Hz. apply Hord in Hin.
    destruct (ordered_path_sorted (Some y) c p _ Hin Hv) as [_ H]. specialize (H z Hz). simpl in H. lia. }
  assert (Hgo : forall cs', (forall y c, (y, c) ∈ cs' -> (y, c) ∈ cs) -> StronglySorted Z.lt (map fst cs') ->
    exists r, go cs' = Ok r /\ forall x, x ∈ r <-> exists y c p, (y, c) ∈ cs' /\ view c p = Some (true, x) /\
       item :: q `sublist_of` y :: p).
  { induction cs' as [|[y c] cs' IHc]; intros Hsub Hs'; simpl.
    - exists ∅. split; [done|]. intros x. split; [set_solver|]. intros (y & c & p & H & _). inversion H.
    - simpl in Hs'. apply sorted_cons_inv in Hs' as [Hs' Hgt].
      assert (Hin : (y, c) ∈ cs) by (apply Hsub; left).
      destruct IHc as (r & Er & Hr); [intros y' c' H; apply Hsub; by right|done|].
      assert (Hcons : forall x, (exists y0 c0 p, (y0, c0) ∈ (y, c) :: cs' /\ view c0 p = Some (true, x) /\
            item :: q `sublist_of` y0 :: p) <->
          (exists p, view c p = Some (true, x) /\ item :: q `sublist_of` y :: p) \/ x ∈ r).
      { intros x. rewrite Hr. split.
        - intros (y0 & c0 & p & H & Hv & Hsl). apply elem_of_cons in H as [E|H]; [simplify_eq; eauto|].
          right. eauto 10.
        - intros [(p & Hv & Hsl)|(y0 & c0 & p & H & Hv & Hsl)].
          + exists y, c, p. rewrite elem_of_cons. auto.
          + exists y0, c0, p. rewrite elem_of_cons. auto. }
      destruct (Z.leb_spec y item) as [Hle|Hgt'].
      + destruct (Z.eqb_spec y item) as [->|Hne].
        * assert (Hskip : forall p, item :: q `sublist_of` item :: p <-> q `sublist_of` p).
          { intros p. split; [|by apply sublist_skip]. intros H.
            apply sublist_cons_r in H as [H|(l' & E & H)]; [|by simplify_eq].
            by apply sublist_cons_l in H as (k1 & k2 & -> & H); apply sublist_inserts_l, sublist_cons. }
          destruct q as [|z q].
          -- rewrite Er. simpl. eexists. split; [reflexivity|]. intros x.
             rewrite elem_of_union, Hcons. f_equiv.
             rewrite (all_sets_spec (Some item) c x) by (by apply Hord).
             split.
             ++ intros [p Hp]. exists p. split; [done|]. apply Hskip, sublist_nil_l.
             ++ intros (p & Hp & _). eauto.
          -- destruct (IH item c Hin (z :: q)) as (r' & Er' & Hr'); [done|].
             exists r'. split; [exact Er'|]. intros x. rewrite Hr', Hcons. split.
             ++ intros (p & Hv & Hsl). left. exists p. split; [done|]. by apply Hskip.
             ++ intros [(p & Hv & Hsl)|Hx]; [exists p; split; [done|]; by apply Hskip|].
                exfalso. apply Hr in Hx as (y0 & c0 & p & H & Hv & Hsl).
                assert (item < y0) by (apply Hgt, elem_of_map; exists (y0, c0); done).
                assert (item ∈ y0 :: p) as Hi by (eapply sublist_elem_of; [|exact Hsl]; left).
                apply elem_of_cons in Hi as [->|Hi]; [lia|].
                assert (y0 < item); [|lia].
                eapply (Hbelow y0 c0 x p); [|done|done]. apply Hsub. by right.
        * destruct (IH y c Hin (item :: q)) as (r1 & Er1 & Hr1); [done|].
          rewrite Er1, Er. simpl. eexists. split; [reflexivity|]. intros x.
          rewrite elem_of_union, Hr1, Hcons. f_equiv.
          split.
          -- intros (p & Hv & Hsl). exists p. split; [done|]. by apply sublist_cons.
          -- intros (p & Hv & Hsl). exists p. split; [done|].
             apply sublist_cons_r in Hsl as [?|(l' & E & _)]; [done|]. by simplify_eq.
      + exists r. split; [exact Er|]. intros x. rewrite Hcons. split; [auto|].
        intros [(p & Hv & Hsl)|?]; [|done]. exfalso.
        assert (item ∈ y :: p) as Hi by (eapply sublist_elem_of; [|exact Hsl]; left).
        apply elem_of_cons in Hi as [->|Hi]; [lia|].
        specialize (Hbelow y c x p Hin Hv item Hi). lia. }
  destruct (Hgo cs) as (r & Er & Hr); [done|done|].
  exists r. split; [exact Er|]. intros x. rewrite Hr. assert (Hnd := sorted_NoDup _ Hs). split.
  - intros (y & c & p & Hin & Hv & Hsl). exists (y :: p). split; [|done].
    rewrite view_cons. simpl. by rewrite (proj2 (find_child_Some y cs c Hnd)).
  - intros ([|y p] & Hv & Hsl); [apply sublist_nil_r in Hsl; done|].
    rewrite view_cons in Hv. simpl in Hv. destruct (find_child y cs) as [c|] eqn:E; [|done].
    apply find_child_Some in E; [|done]. exists y, c, p. done.
Qed.
