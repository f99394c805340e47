(** Finite-set counting lemmas. *)
From Coq Require Import Reals Lra.
From Verif.Model Require Import PyBase.
From Verif.Spec Require Import SRule.
From Verif.Proofs Require Import PBase.
Open Scope Z_scope.

Lemma NoDup_concat_map_pair (l : list Z) (t : list Z) :
  NoDup l -> NoDup t -> NoDup (concat (map (fun i => map (pair i) t) l)).
Proof.
  intros Hl Ht. induction Hl as [|x l Hx Hl IH]; simpl; [constructor|].
  apply NoDup_app. repeat split.
  - apply (NoDup_fmap_2 (pair x)). exact Ht.
  - intros [a b] Hab Hin. apply elem_of_map in Hab as (y & [= -> ->] & Hy).
    apply elem_of_concat in Hin as (l' & Hl' & Hin).
    apply elem_of_map in Hl' as (i & -> & Hi). apply elem_of_map in Hin as (z & [= -> ->] & _).
    done.
  - exact IH.
Qed.

Lemma length_concat_map_pair (l : list Z) (t : list Z) :
  length (concat (map (fun i => map (pair i) t) l)) = (length l * length t)%nat.
Proof.
  induction l as [|x l IH]; simpl; [done|]. rewrite app_length, map_length, IH. done.
Qed.

Lemma elem_of_product (l t : list Z) i j :
  (i, j) ∈ concat (map (fun i => map (pair i) t) l) <-> i ∈ l /\ j ∈ t.
Proof.
  rewrite elem_of_concat. split.
  - intros (l' & Hl' & H). apply elem_of_map in Hl' as (i' & -> & Hi).
    apply elem_of_map in H as (j' & [= -> ->] & Hj). done.
  - intros [Hi Hj]. eexists. split.
    + apply elem_of_map. exists i. done.
    + apply elem_of_map. exists j. done.
Qed.

Lemma size_product (S : gset Z) (T : gset Z) (P : gset (Z * Z)) :
  (forall i j, (i, j) ∈ P <-> i ∈ S /\ j ∈ T) -> size P = (size S * size T)%nat.
Proof.
  intros H.
  assert (P = list_to_set (concat (map (fun i => map (pair i) (elements T)) (elements S)))) as ->.
  { apply set_eq. intros [i j]. rewrite H, elem_of_list_to_set, elem_of_product, !elem_of_elements.
    done. }
  rewrite size_list_to_set by (apply NoDup_concat_map_pair; apply NoDup_elements).
  apply length_concat_map_pair.
Qed.

Section Count.
  Context {A : Type} `{Countable A}.
  Implicit Types S T U : gset A.

  Lemma size_split S T : size S = (size (S ∩ T) + size (S ∖ T))%nat.
  Proof.
    rewrite <- size_union by set_solver. f_equal. apply set_eq. intros x.
    destruct (decide (x ∈ T)); set_solver.
  Qed.

  Lemma size_union_inter S T : (size (S ∪ T) + size (S ∩ T) = size S + size T)%nat.
  Proof.
    rewrite (size_split (S ∪ T) T), (size_split S T).
    replace ((S ∪ T) ∩ T) with T by set_solver.
    replace ((S ∪ T) ∖ T) with (S ∖ T) by set_solver. lia.
  Qed.

  Lemma size_0_iff S : size S = 0%nat <-> S = ∅.
  Proof. split; [intros E; apply leibniz_equiv, size_empty_inv, E|intros ->; apply size_empty]. Qed.

  Lemma subset_same_size S T : S ⊆ T -> (size T <= size S)%nat -> S = T.
  Proof.
    intros Hs Hsz. apply set_eq. intros x. split; [set_solver|]. intros Hx.
    destruct (decide (x ∈ S)) as [?|Hn]; [done|]. exfalso.
    pose proof (size_split T S) as E. replace (T ∩ S) with S in E by set_solver.
    assert (size (T ∖ S) = 0%nat) as E0 by lia. apply size_0_iff in E0. set_solver.
  Qed.

  Lemma jaccard_diff S T : S ∪ T <> ∅ ->
    jaccard S T = (INR (size ((S ∖ T) ∪ (T ∖ S))) / INR (size (S ∪ T)))%R.
  Proof.
    intros Hne. unfold jaccard.
    assert (E : size (S ∪ T) = (size (S ∩ T) + size ((S ∖ T) ∪ (T ∖ S)))%nat).
    { rewrite <- size_union by set_solver. f_equal. apply set_eq. intros x.
      destruct (decide (x ∈ T)); destruct (decide (x ∈ S)); set_solver. }
    assert (Hp : (0 < INR (size (S ∪ T)))%R).
    { apply lt_0_INR. destruct (size (S ∪ T)) eqn:E0; [|lia]. by apply size_0_iff in E0. }
    rewrite E, plus_INR in *. field. lra.
  Qed.

  Lemma jaccard_range S T : S ∪ T <> ∅ -> (0 <= jaccard S T <= 1)%R.
  Proof.
    intros Hne. rewrite jaccard_diff by done.
    assert (Hp : (0 < INR (size (S ∪ T)))%R).
    { apply lt_0_INR. destruct (size (S ∪ T)) eqn:E0; [|lia]. by apply size_0_iff in E0. }
    assert (INR (size ((S ∖ T) ∪ (T ∖ S))) <= INR (size (S ∪ T)))%R.
    { apply le_INR, subseteq_size. set_solver. }
    pose proof (pos_INR (size ((S ∖ T) ∪ (T ∖ S)))). split.
    - apply Rmult_le_pos; [lra|]. left. by apply Rinv_0_lt_compat.
    - apply (Rmult_le_reg_r (INR (size (S ∪ T)))); [done|].
      unfold Rdiv. rewrite Rmult_assoc, Rinv_l by lra. lra.
  Qed.

  Lemma jaccard_sym S T : jaccard S T = jaccard T S.
  Proof.
    unfold jaccard.
    assert (T ∪ S = S ∪ T) as -> by (apply set_eq; set_solver).
    assert (T ∩ S = S ∩ T) as -> by (apply set_eq; set_solver). done.
  Qed.

  Lemma jaccard_zero S T : S ∪ T <> ∅ -> (jaccard S T = 0%R <-> S = T).
  Proof.
    intros Hne. rewrite jaccard_diff by done.
    assert (Hp : (0 < INR (size (S ∪ T)))%R).
    { apply lt_0_INR. destruct (size (S ∪ T)) eqn:E0; [|lia]. by apply size_0_iff in E0. }
    split.
    - intros E. assert (INR (size ((S ∖ T) ∪ (T ∖ S))) = 0%R) as E0.
      { apply (Rmult_eq_reg_r (/ INR (size (S ∪ T)))).
        - unfold Rdiv in E. lra.
        - apply Rinv_neq_0_compat. lra. }
      change 0%R with (INR 0) in E0. apply INR_eq, size_0_iff in E0.
      apply set_eq. intros x. destruct (decide (x ∈ T)); destruct (decide (x ∈ S)); set_solver.
    - intros ->. replace ((T ∖ T) ∪ (T ∖ T)) with (∅ : gset A) by set_solver.
      rewrite size_empty. simpl. unfold Rdiv. lra.
  Qed.

  (** Triangle inequality. *)
  Lemma frac_add_mono (x y z : R) :
    (0 <= z)%R -> (0 < y)%R -> (x <= y)%R -> (x / y <= (x + z) / (y + z))%R.
  Proof.
    intros Hz Hy Hx. apply (Rmult_le_reg_r (y * (y + z))); [nra|].
    replace (x / y * (y * (y + z)))%R with (x * (y + z))%R by (field; lra).
    replace ((x + z) / (y + z) * (y * (y + z)))%R with ((x + z) * y)%R by (field; lra).
    nra.
  Qed.

  Lemma frac_den_anti (x y y' : R) :
    (0 <= x)%R -> (0 < y)%R -> (y <= y')%R -> (x / y' <= x / y)%R.
  Proof.
    intros Hx Hy Hyy. apply Rmult_le_compat_l; [done|]. apply Rinv_le_contravar; lra.
  Qed.

  Lemma jaccard_triangle S T U :
    S ∪ T <> ∅ -> T ∪ U <> ∅ -> S ∪ U <> ∅ ->
    (jaccard S U <= jaccard S T + jaccard T U)%R.
  Proof.
    intros H1 H2 H3. rewrite !jaccard_diff by done.
    assert (Hp : forall V : gset A, V <> ∅ -> (0 < INR (size V))%R).
    { intros V HV. apply lt_0_INR. destruct (size V) eqn:E0; [|lia]. by apply size_0_iff in E0. }
    pose proof (Hp _ H1) as P1. pose proof (Hp _ H2) as P2. pose proof (Hp _ H3) as P3.
    set (dSU := size ((S ∖ U) ∪ (U ∖ S))). set (dST := size ((S ∖ T) ∪ (T ∖ S))).
    set (dTU := size ((T ∖ U) ∪ (U ∖ T))).
    set (r := size (T ∖ (S ∪ U))).
    assert (Hu : size (S ∪ T ∪ U) = (size (S ∪ U) + r)%nat).
    { unfold r. rewrite <- size_union by set_solver. f_equal. apply set_eq. intros x.
      destruct (decide (x ∈ S)); destruct (decide (x ∈ U)); set_solver. }
    assert (Hd : (dSU + r <= dST + dTU)%nat).
    { unfold dSU, r. rewrite <- size_union by set_solver.
      transitivity (size (((S ∖ T) ∪ (T ∖ S)) ∪ ((T ∖ U) ∪ (U ∖ T)))).
      - apply subseteq_size. intros x Hx. destruct (decide (x ∈ T)); set_solver.
      - pose proof (size_union_inter ((S ∖ T) ∪ (T ∖ S)) ((T ∖ U) ∪ (U ∖ T))).
        unfold dST, dTU. lia. }
    assert (L1 : (INR (size (S ∪ T)) <= INR (size (S ∪ T ∪ U)))%R)
      by (apply le_INR, subseteq_size; set_solver).
    assert (L2 : (INR (size (T ∪ U)) <= INR (size (S ∪ T ∪ U)))%R)
      by (apply le_INR, subseteq_size; set_solver).
    assert (L3 : (INR dSU <= INR (size (S ∪ U)))%R)
      by (apply le_INR, subseteq_size; set_solver).
    apply le_INR in Hd. rewrite !plus_INR in Hd.
    assert (Hu' : INR (size (S ∪ T ∪ U)) = (INR (size (S ∪ U)) + INR r)%R)
      by (rewrite Hu, plus_INR; done).
    pose proof (pos_INR r). pose proof (pos_INR dST). pose proof (pos_INR dTU).
    apply Rle_trans with ((INR dSU + INR r) / INR (size (S ∪ T ∪ U)))%R.
    { rewrite Hu'. apply frac_add_mono; lra. }
    apply Rle_trans with ((INR dST + INR dTU) / INR (size (S ∪ T ∪ U)))%R.
    { apply Rmult_le_compat_r; [|lra]. left. apply Rinv_0_lt_compat. lra. }
    unfold Rdiv. rewrite Rmult_plus_distr_r.
    apply Rplus_le_compat; apply frac_den_anti; lra.
  Qed.
End Count.
