(** Lemmas on the Python base model. *)
From Verif.Model Require Import PyBase.

Lemma zlen_nonneg {A} (l : list A) : 0 <= zlen l.
Proof. unfold zlen. lia. Qed.

Lemma zlen_app {A} (l l' : list A) : zlen (l ++ l') = zlen l + zlen l'.
Proof. unfold zlen. rewrite app_length. lia. Qed.

Lemma zlen_cons {A} x (l : list A) : zlen (x :: l) = zlen l + 1.
Proof. unfold zlen. simpl. lia. Qed.

Lemma zlen_map {A B} (f : A -> B) l : zlen (map f l) = zlen l.
Proof. unfold zlen. rewrite map_length. done. Qed.

Lemma zlen_0 {A} (l : list A) : zlen l = 0 <-> l = [].
Proof. unfold zlen. destruct l; simpl; split; intros; try lia; done. Qed.

Lemma rbind_ok {A B} (r : result A) (f : A -> result B) b :
  rbind r f = Ok b <-> exists a, r = Ok a /\ f a = Ok b.
Proof.
  split.
  - destruct r as [a|e]; simpl; intros H; [eauto | done].
  - intros (a & -> & H). done.
Qed.

Lemma rmap_ok {A B} (f : A -> result B) l ys :
  rmap f l = Ok ys <-> Forall2 (fun x y => f x = Ok y) l ys.
Proof.
  revert ys. induction l as [|x l IH]; intros ys; simpl.
  - split; [intros [= <-]; constructor | inversion 1; done].
  - split.
    + intros H. destruct (f x) as [y|e] eqn:Hx; simpl in H; [|done].
      destruct (rmap f l) as [zs|e] eqn:Hl; simpl in H; [|done].
      injection H as <-. constructor; [done|]. by apply IH.
    + inversion 1 as [|? y ? zs Hx Hl]; subst. rewrite Hx. simpl.
      apply IH in Hl. rewrite Hl. done.
Qed.

Lemma rmap_ext {A B} (f g : A -> result B) l :
  (forall x, x ∈ l -> f x = g x) -> rmap f l = rmap g l.
Proof.
  induction l as [|x l IH]; intros H; simpl; [done|].
  rewrite H by set_solver. destruct (g x); simpl; [|done].
  rewrite IH; [done|]. intros y Hy. apply H. set_solver.
Qed.

Lemma rmap_ok_map {A B} (f : A -> B) l : rmap (fun x => Ok (f x)) l = Ok (map f l).
Proof. induction l as [|x l IH]; simpl; [done|]. rewrite IH. done. Qed.

Lemma py_index_ok {A} (l : list A) i a :
  0 <= i -> (py_index l i = Ok a <-> l !! Z.to_nat i = Some a).
Proof.
  intros Hi. unfold py_index.
  assert (i <? 0 = false) as -> by lia.
  assert (i <? 0 = false) as -> by lia. simpl.
  destruct (zlen l <=? i) eqn:E.
  - split; [done|]. intros H. apply lookup_lt_Some in H. unfold zlen in E. lia.
  - destruct (l !! Z.to_nat i); split; congruence.
Qed.

Lemma py_index_in_range {A} (l : list A) i :
  0 <= i < zlen l -> exists a, py_index l i = Ok a /\ l !! Z.to_nat i = Some a.
Proof.
  intros Hi. destruct (lookup_lt_is_Some_2 l (Z.to_nat i)) as [a Ha].
  { unfold zlen in Hi. lia. }
  exists a. split; [|done]. apply py_index_ok; [lia|done].
Qed.

Lemma py_index_high {A} (l : list A) i : zlen l <= i -> py_index l i = Err IndexError.
Proof.
  intros Hi. unfold py_index. pose proof (zlen_nonneg l).
  destruct (i <? 0) eqn:E; [lia|]. rewrite E. simpl.
  destruct (zlen l <=? i) eqn:E2; [done|lia].
Qed.

Lemma py_setitem_ok {A} (l : list A) i v :
  0 <= i < zlen l -> py_setitem l i v = Ok (<[Z.to_nat i := v]> l).
Proof.
  intros Hi. unfold py_setitem.
  assert (i <? 0 = false) as -> by lia.
  assert (i <? 0 = false) as -> by lia.
  assert (zlen l <=? i = false) as -> by lia. done.
Qed.

Lemma py_clamp_id n i : 0 <= i <= n -> py_clamp n i = i.
Proof. unfold py_clamp. intros. destruct (i <? 0) eqn:E; lia. Qed.

Lemma py_slice_in {A} (l : list A) a b :
  0 <= a <= b -> b <= zlen l ->
  py_slice l a b = take (Z.to_nat (b - a)) (drop (Z.to_nat a) l).
Proof. intros. unfold py_slice. rewrite !py_clamp_id by lia. done. Qed.

Lemma elem_of_py_slice {A} (l : list A) a b x :
  0 <= a <= b -> b <= zlen l ->
  (x ∈ py_slice l a b <-> exists k, a <= k < b /\ l !! Z.to_nat k = Some x).
Proof.
  intros Ha Hb. rewrite py_slice_in by lia. rewrite elem_of_list_lookup. split.
  - intros [i Hi]. apply lookup_take_Some in Hi. destruct Hi as [Hi Hlt].
    rewrite lookup_drop in Hi. exists (a + Z.of_nat i). split; [lia|].
    rewrite <- Hi. f_equal. lia.
  - intros (k & Hk & Hl). exists (Z.to_nat (k - a)).
    rewrite lookup_take by lia. rewrite lookup_drop. rewrite <- Hl. f_equal. lia.
Qed.

Lemma elem_of_py_set l x : x ∈ py_set l <-> x ∈ l.
Proof. unfold py_set. apply elem_of_list_to_set. Qed.

Lemma elem_of_py_range n x : x ∈ py_range n <-> 0 <= x < n.
Proof. unfold py_range. rewrite elem_of_seqZ. lia. Qed.

Lemma NoDup_py_range n : NoDup (py_range n).
Proof. apply NoDup_seqZ. Qed.

Lemma length_py_range n : length (py_range n) = Z.to_nat n.
Proof. apply seqZ_length. Qed.

Lemma zlen_py_range n : 0 <= n -> zlen (py_range n) = n.
Proof. intros. unfold zlen. rewrite length_py_range. lia. Qed.

Lemma lookup_py_range n k : 0 <= k < n -> py_range n !! Z.to_nat k = Some k.
Proof. intros. unfold py_range. rewrite lookup_seqZ. lia. Qed.

Lemma py_sorted_perm l : py_sorted l ≡ₚ l.
Proof. apply merge_sort_Permutation. Qed.

Lemma py_sorted_sorted l : StronglySorted Z.le (py_sorted l).
Proof. apply (StronglySorted_merge_sort Z.le). Qed.

Lemma py_sorted_unique l l' : l ≡ₚ l' -> py_sorted l = py_sorted l'.
Proof.
  intros H. apply (StronglySorted_unique Z.le).
  - apply py_sorted_sorted.
  - apply py_sorted_sorted.
  - rewrite !py_sorted_perm. done.
Qed.

Lemma set_order_elem ord s x : set_order ord -> (x ∈ ord s <-> x ∈ s).
Proof. intros H. rewrite (H s). apply elem_of_elements. Qed.

Lemma set_order_NoDup ord s : set_order ord -> NoDup (ord s).
Proof. intros H. rewrite (H s). apply NoDup_elements. Qed.

Lemma zsum_app l l' : zsum (l ++ l') = zsum l + zsum l'.
Proof. induction l; simpl; lia. Qed.

Lemma zsum_perm l l' : l ≡ₚ l' -> zsum l = zsum l'.
Proof. induction 1; simpl; lia. Qed.

Lemma zsum_nonneg l : Forall (fun x => 0 <= x) l -> 0 <= zsum l.
Proof. induction 1; simpl; lia. Qed.

Lemma elem_of_map {A B} (f : A -> B) l y : y ∈ map f l <-> exists x, y = f x /\ x ∈ l.
Proof. exact (elem_of_list_fmap f l y). Qed.

Lemma elem_of_concat {A} (ls : list (list A)) x :
  x ∈ concat ls <-> exists l, l ∈ ls /\ x ∈ l.
Proof.
  induction ls as [|l ls IH]; simpl.
  - split; [intros H; inversion H | intros (l & H & _); inversion H].
  - rewrite elem_of_app, IH. split.
    + intros [H|(l' & H1 & H2)]; [exists l|exists l']; set_solver.
    + intros (l' & H1 & H2). apply elem_of_cons in H1 as [->|H1]; [auto|right; eauto].
Qed.

Lemma elem_of_lfilter {A} (f : A -> bool) l x : x ∈ List.filter f l <-> f x = true /\ x ∈ l.
Proof. rewrite !elem_of_list_In, filter_In. tauto. Qed.

Lemma NoDup_lfilter {A} (f : A -> bool) l : NoDup l -> NoDup (List.filter f l).
Proof. rewrite !NoDup_ListNoDup. apply List.NoDup_filter. Qed.

Lemma zlen_lfilter_le {A} (f : A -> bool) l : zlen (List.filter f l) <= zlen l.
Proof. induction l as [|x l IH]; simpl; [lia|]. destruct (f x); rewrite ?zlen_cons; lia. Qed.
