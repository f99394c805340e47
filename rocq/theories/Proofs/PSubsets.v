(** Enumerations of the subsets of a finite set. *)
From Verif.Model Require Import PyBase Utils.
From Verif.Proofs Require Import PBase.
Open Scope Z_scope.

(** all sublists of a list *)
Fixpoint subs {A} (l : list A) : list (list A) :=
  match l with
  | [] => [[]]
  | x :: l' => subs l' ++ map (cons x) (subs l')
  end.

Lemma length_subs {A} (l : list A) : length (subs l) = (2 ^ length l)%nat.
Proof. induction l as [|x l IH]; [done|]. simpl. rewrite app_length, map_length, IH. lia. Qed.

Lemma elem_of_subs {A} (l p : list A) : p ∈ subs l <-> p `sublist_of` l.
Proof.
  revert p. induction l as [|x l IH]; intros p.
  - simpl. rewrite elem_of_list_singleton. split; [intros ->; constructor|]. intros H. by apply sublist_nil_r in H.
  - simpl. rewrite elem_of_app, elem_of_map, IH. split.
    + intros [H|(q & -> & H)]; [by apply sublist_cons|apply sublist_skip; by apply IH].
    + intros H. apply sublist_cons_r in H as [H|(q & -> & H)]; [by left|]. right. exists q. split; [done|]. by apply IH.
Qed.

Lemma sublist_NoDup {A} (p l : list A) : p `sublist_of` l -> NoDup l -> NoDup p.
Proof.
  induction 1 as [|x p l Hs IH|x p l Hs IH]; intros Hnd; [done|..]; apply NoDup_cons in Hnd as [Hx Hnd].
  - apply NoDup_cons. split; [|by apply IH]. intros Hp. apply Hx. by eapply sublist_submseteq, elem_of_submseteq in Hs.
  - by apply IH.
Qed.

Lemma sublist_elem {A} (p l : list A) x : p `sublist_of` l -> x ∈ p -> x ∈ l.
Proof. intros Hs Hx. apply sublist_submseteq in Hs. by eapply elem_of_submseteq. Qed.

Lemma sublist_set_inj (l p q : list Z) : NoDup l -> p `sublist_of` l -> q `sublist_of` l -> py_set p = py_set q -> p = q.
Proof.
  intros Hnd. revert p q. induction Hnd as [|x l Hx Hnd IH]; intros p q Hp Hq E.
  - apply sublist_nil_r in Hp, Hq. by subst.
  - assert (Hin : forall y, y ∈ p <-> y ∈ q) by (intros y; rewrite <- !elem_of_py_set; by rewrite E).
    apply sublist_cons_r in Hp as [Hp|(p' & -> & Hp)], Hq as [Hq|(q' & -> & Hq)].
    + by apply IH.
    + exfalso. apply Hx. apply (sublist_elem p l); [done|]. apply Hin. left.
    + exfalso. apply Hx. apply (sublist_elem q l); [done|]. apply Hin. left.
    + f_equal. apply IH; try done. apply set_eq. intros y. rewrite !elem_of_py_set. specialize (Hin y). rewrite !elem_of_cons in Hin.
      assert (y ∈ p' -> y <> x) by (intros Hy ->; apply Hx; exact (sublist_elem _ _ _ Hp Hy)).
      assert (y ∈ q' -> y <> x) by (intros Hy ->; apply Hx; exact (sublist_elem _ _ _ Hq Hy)). tauto.
Qed.

Lemma NoDup_map_inj {A B} (f : A -> B) l : (forall x y, x ∈ l -> y ∈ l -> f x = f y -> x = y) -> NoDup l -> NoDup (map f l).
Proof.
  intros Hf Hnd. induction Hnd as [|x l Hx Hnd IH]; [constructor|]. simpl. constructor.
  - intros H. apply elem_of_map in H as (y & E & Hy). apply Hx. assert (x = y) as ->; [|done]. apply Hf; [left|by right|done].
  - apply IH. intros y z Hy Hz. apply Hf; by right.
Qed.

Lemma NoDup_subs {A} (l : list A) : NoDup l -> NoDup (subs l).
Proof.
  induction 1 as [|x l Hx Hnd IH]; simpl; [apply NoDup_singleton|]. apply NoDup_app. split_and!; [done|..].
  - intros p Hp H. apply elem_of_map in H as (q & -> & Hq). apply Hx. apply elem_of_subs in Hp. apply (sublist_elem _ _ _ Hp). left.
  - apply NoDup_map_inj; [|done]. congruence.
Qed.

(** the subsets of S, listed along an order l of its elements *)
Lemma subset_sublist (l : list Z) (T : gset Z) : (forall x, x ∈ T -> x ∈ l) -> exists p, p `sublist_of` l /\ py_set p = T.
Proof.
  intros Hs. exists (List.filter (fun x => bool_decide (x ∈ T)) l). split.
  - clear Hs. induction l as [|x l IH]; simpl; [constructor|]. case_bool_decide; [by apply sublist_skip|by apply sublist_cons].
  - apply set_eq. intros x. rewrite elem_of_py_set, elem_of_lfilter, bool_decide_eq_true. naive_solver.
Qed.

Lemma elem_of_subsets (l : list Z) (T : gset Z) : T ∈ map py_set (subs l) <-> T ⊆ py_set l.
Proof.
  rewrite elem_of_map. split.
  - intros (p & -> & Hp). apply elem_of_subs in Hp. intros x. rewrite !elem_of_py_set. by apply sublist_elem.
  - intros Hs. destruct (subset_sublist l T) as (p & Hp & E); [intros x Hx; apply elem_of_py_set; by apply Hs|]. exists p. split; [done|]. by apply elem_of_subs.
Qed.

Lemma NoDup_subsets (l : list Z) : NoDup l -> NoDup (map py_set (subs l)).
Proof.
  intros Hnd. apply NoDup_map_inj; [|by apply NoDup_subs]. intros p q Hp Hq. apply elem_of_subs in Hp, Hq. by apply (sublist_set_inj l).
Qed.

(** ** itertools.combinations and powerset *)

Lemma elem_of_combinations {A} (s : list A) r p : p ∈ combinations s r <-> p `sublist_of` s /\ length p = r.
Proof.
  revert r p. induction s as [|x s IH]; intros r p.
  - destruct r as [|r]; simpl.
    + rewrite elem_of_list_singleton. split; [intros ->; split; [constructor|done]|]. intros [H _]. by apply sublist_nil_r in H.
    + split; [intros H; inversion H|]. intros [H E]. apply sublist_nil_r in H as ->. done.
  - destruct r as [|r]; simpl.
    + rewrite elem_of_list_singleton. split; [intros ->; split; [apply sublist_nil_l|done]|]. intros [_ E]. by apply nil_length_inv in E.
    + rewrite elem_of_app, elem_of_map. rewrite IH. split.
      * intros [(q & -> & Hq)|[H E]].
        -- apply IH in Hq as [Hq E]. split; [by apply sublist_skip|simpl; lia].
        -- split; [by apply sublist_cons|done].
      * intros [H E]. apply sublist_cons_r in H as [H|(q & -> & H)]; [by right|]. left. exists q. split; [done|]. apply IH. split; [done|]. simpl in E. lia.
Qed.

Lemma NoDup_combinations {A} (s : list A) r : NoDup s -> NoDup (combinations s r).
Proof.
  intros Hnd. revert r. induction Hnd as [|x s Hx Hnd IH]; intros [|r]; simpl; try apply NoDup_singleton; [constructor|].
  apply NoDup_app. split_and!; [|..|apply IH].
  - apply NoDup_map_inj; [congruence|apply IH].
  - intros p Hp H. apply elem_of_map in Hp as (q & -> & _). apply elem_of_combinations in H as [H _]. apply Hx. apply (sublist_elem _ _ _ H). left.
Qed.

Lemma elem_of_powerset {A} (s : list A) ex p : p ∈ powerset s ex <-> p `sublist_of` s /\ (ex = true -> p <> []).
Proof.
  unfold powerset. rewrite elem_of_concat. split.
  - intros (l & Hl & Hp). apply elem_of_map in Hl as (r & -> & Hr). apply elem_of_combinations in Hp as [Hp E]. split; [done|].
    intros -> ->. apply elem_of_seq in Hr. simpl in E. lia.
  - intros [Hs Hn]. exists (combinations s (length p)). split.
    + apply elem_of_map. exists (length p). split; [done|]. apply elem_of_seq. pose proof (sublist_length _ _ Hs).
      destruct ex; [|lia]. assert (length p <> 0%nat); [|lia]. intros E. apply nil_length_inv in E. by apply Hn.
    + by apply elem_of_combinations.
Qed.

Lemma NoDup_concat {A} (ls : list (list A)) : (forall l, l ∈ ls -> NoDup l) ->
  (forall i j l l' x, ls !! i = Some l -> ls !! j = Some l' -> x ∈ l -> x ∈ l' -> i = j) -> NoDup (concat ls).
Proof.
  induction ls as [|l ls IH]; intros Hn Hd; simpl; [constructor|]. apply NoDup_app. split_and!.
  - apply Hn. left.
  - intros x Hx H. apply elem_of_concat in H as (l' & Hl' & Hx'). apply elem_of_list_lookup in Hl' as [j Hj].
    specialize (Hd 0%nat (S j) l l' x eq_refl Hj Hx Hx'). lia.
  - apply IH; [intros; apply Hn; by right|]. intros i j l1 l2 x H1 H2 Hx1 Hx2. specialize (Hd (S i) (S j) l1 l2 x H1 H2 Hx1 Hx2). lia.
Qed.

Lemma NoDup_powerset {A} (s : list A) ex : NoDup s -> NoDup (powerset s ex).
Proof.
  intros Hnd. unfold powerset. apply NoDup_concat.
  - intros l Hl. apply elem_of_map in Hl as (r & -> & _). by apply NoDup_combinations.
  - intros i j l l' x Hi Hj Hx Hx'. rewrite list_lookup_fmap in Hi, Hj.
    apply fmap_Some in Hi as (r & Hr & ->), Hj as (r' & Hr' & ->). apply elem_of_combinations in Hx as [_ E1], Hx' as [_ E2].
    apply lookup_seq in Hr as [-> _], Hr' as [-> _]. lia.
Qed.

Lemma powerset_perm (l : list Z) : NoDup l -> powerset l false ≡ₚ subs l.
Proof.
  intros Hnd. apply NoDup_Permutation; [by apply NoDup_powerset|by apply NoDup_subs|]. intros p. rewrite elem_of_powerset, elem_of_subs. naive_solver.
Qed.

Lemma powerset_perm_ex (l : list Z) : NoDup l -> subs l ≡ₚ [] :: powerset l true.
Proof.
  intros Hnd. apply NoDup_Permutation; [by apply NoDup_subs|..].
  - constructor; [|by apply NoDup_powerset]. rewrite elem_of_powerset. intros [_ H]. by apply H.
  - intros p. rewrite elem_of_cons, elem_of_powerset, elem_of_subs. split.
    + intros Hp. destruct p; [by left|right; done].
    + intros [->|[H _]]; [apply sublist_nil_l|done].
Qed.
