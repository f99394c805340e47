(** Lemmas about sums of rationals and randomised computations. *)
From Verif.Model Require Import PyBase Rand.
From Verif.Proofs Require Import PBase.
Open Scope Z_scope.

Lemma qsum_app l l' : qsum (l ++ l') = (qsum l + qsum l')%Qc.
Proof. induction l as [|x l IH]; simpl; [ring|]. unfold qsum in *. simpl. rewrite IH. ring. Qed.

Lemma qsum_map_mult {A} (c : Qc) (f : A -> Qc) l : qsum (map (fun x => c * f x)%Qc l) = (c * qsum (map f l))%Qc.
Proof. induction l as [|x l IH]; simpl; [ring|]. rewrite IH. ring. Qed.

Lemma qsum_map_mult_r {A} (c : Qc) (f : A -> Qc) l : qsum (map (fun x => f x * c)%Qc l) = (qsum (map f l) * c)%Qc.
Proof. induction l as [|x l IH]; simpl; [ring|]. rewrite IH. ring. Qed.

Lemma qsum_map_plus {A} (f g : A -> Qc) l : qsum (map (fun x => f x + g x)%Qc l) = (qsum (map f l) + qsum (map g l))%Qc.
Proof. induction l as [|x l IH]; simpl; [ring|]. rewrite IH. ring. Qed.

Lemma qsum_map_ext {A} (f g : A -> Qc) l : (forall x, x ∈ l -> f x = g x) -> qsum (map f l) = qsum (map g l).
Proof.
  induction l as [|x l IH]; intros H; simpl; [done|]. rewrite (H x) by left.
  rewrite IH; [done|]. intros. apply H. by right.
Qed.

Lemma qsum_zero {A} (f : A -> Qc) l : (forall x, x ∈ l -> f x = 0%Qc) -> qsum (map f l) = 0%Qc.
Proof.
  induction l as [|x l IH]; intros H; simpl; [done|]. rewrite (H x) by left.
  rewrite IH; [ring|]. intros. apply H. by right.
Qed.

Lemma Qc_of_Z_plus a b : Qc_of_Z (a + b) = (Qc_of_Z a + Qc_of_Z b)%Qc.
Proof. apply Z2Qc_inj_add. Qed.
Lemma Qc_of_Z_mult a b : Qc_of_Z (a * b) = (Qc_of_Z a * Qc_of_Z b)%Qc.
Proof. apply Z2Qc_inj_mul. Qed.
Lemma Qc_of_Z_inj_0 a : Qc_of_Z a = 0%Qc -> a = 0.
Proof. rewrite <- Z2Qc_inj_0. apply Z2Qc_inj. Qed.
Lemma Qc_of_Z_nonneg a : 0 <= a -> (0 <= Qc_of_Z a)%Qc.
Proof. rewrite <- Z2Qc_inj_0. apply Z2Qc_inj_le. Qed.
Lemma Qc_of_Z_pos a : 0 < a -> (0 < Qc_of_Z a)%Qc.
Proof. rewrite <- Z2Qc_inj_0. apply Z2Qc_inj_lt. Qed.

Lemma qsum_Z {A} (f : A -> Z) l : qsum (map (fun x => Qc_of_Z (f x)) l) = Qc_of_Z (zsum (map f l)).
Proof. induction l as [|x l IH]; simpl; [by rewrite Z2Qc_inj_0|]. by rewrite IH, Qc_of_Z_plus. Qed.

Lemma qdiv_mult a b : (a / b)%Qc = (a * / b)%Qc.
Proof. done. Qed.

Lemma Qcinv_pos b : (0 < b)%Qc -> (0 < / b)%Qc.
Proof.
  intros Hb. apply Qcnot_le_lt. intros H. assert (1 <= 0)%Qc as H1; [|by apply H1].
  replace 1%Qc with (/ b * b)%Qc by (apply Qcmult_inv_l; intros ->; by apply Qclt_not_eq in Hb).
  replace 0%Qc with (0 * b)%Qc by ring. apply Qcmult_le_compat_r; [done|by apply Qclt_le_weak].
Qed.
Lemma Qcdiv_nonneg a b : (0 <= a)%Qc -> (0 < b)%Qc -> (0 <= a / b)%Qc.
Proof.
  intros Ha Hb. replace 0%Qc with (0 * / b)%Qc by ring. unfold Qcdiv.
  apply Qcmult_le_compat_r; [done|]. by apply Qclt_le_weak, Qcinv_pos.
Qed.
Lemma Qcdiv_pos a b : (0 < a)%Qc -> (0 < b)%Qc -> (0 < a / b)%Qc.
Proof.
  intros Ha Hb. replace 0%Qc with (0 * / b)%Qc by ring. unfold Qcdiv.
  apply Qcmult_lt_compat_r; [by apply Qcinv_pos|done].
Qed.

(** ** expectation *)

Lemma expect_bind {A B} (m : rand A) (f : A -> rand B) g :
  expect (bind m f) g = expect m (fun o => match o with Ok a => expect (f a) g | Err e => g (Err e) end).
Proof.
  induction m as [a|e|ps k IH]; simpl; [done..|]. f_equal. apply imap_ext. intros i p _. by rewrite IH.
Qed.

Lemma expect_ext {A} (m : rand A) f g : (forall o, can m o -> f o = g o) -> expect m f = expect m g.
Proof.
  induction m as [a|e|ps k IH]; simpl; intros H; [by apply H..|]. f_equal. apply imap_ext. intros i p Hi.
  destruct (decide (p = 0%Qc)) as [->|Hp]; [ring|]. f_equal. apply IH. intros o Ho. apply H. eauto.
Qed.


Lemma imap_seq {A B} (f : nat -> A -> B) (l : list A) : imap f l = zip_with f (seq 0 (length l)) l.
Proof.
  assert (forall n, imap (fun i => f (n + i)%nat) l = zip_with f (seq n (length l)) l) as H; [|apply (H 0%nat)].
  induction l as [|x l IH]; intros n; simpl; [done|]. rewrite Nat.add_0_r. f_equal.
  rewrite <- IH. apply imap_ext. intros i y _. unfold compose. f_equal. lia.
Qed.

Lemma expect_mult {A} (m : rand A) c f : expect m (fun o => c * f o)%Qc = (c * expect m f)%Qc.
Proof.
  induction m as [a|e|ps k IH]; simpl; [done..|].
  rewrite (imap_ext _ (fun i p => c * (p * expect (k i) f))%Qc) by (intros; rewrite IH; ring).
  rewrite !imap_seq. generalize (seq 0 (length ps)). clear.
  induction ps as [|p ps IH]; intros [|n l]; simpl; try ring.
  unfold qsum in *. simpl. rewrite IH. ring.
Qed.

Lemma imap_zip {A B C} (xs : list A) (ps : list B) (f : nat -> B -> C) (h : A -> B -> C) :
  length ps = length xs -> (forall i x p, xs !! i = Some x -> ps !! i = Some p -> f i p = h x p) ->
  imap f ps = map (fun xp => h (fst xp) (snd xp)) (zip xs ps).
Proof.
  revert xs f. induction ps as [|p ps IH]; intros [|x xs] f Hl H; try done. simpl. f_equal.
  - by apply (H 0%nat).
  - apply IH; [simpl in Hl; lia|]. intros i y q H1 H2. by apply (H (S i)).
Qed.

Lemma expect_np_choice {A} (xs : list A) (ps : list Qc) f :
  xs <> [] -> length ps = length xs -> (forall p, p ∈ ps -> (0 <= p)%Qc) -> qsum ps = 1%Qc ->
  expect (np_choice xs ps) f = qsum (map (fun xp => snd xp * f (Ok (fst xp)))%Qc (zip xs ps)).
Proof.
  intros Hx Hl Hp Hs. unfold np_choice.
  destruct (Z.eqb_spec (zlen xs) 0) as [H|_]; [destruct xs; [done|rewrite zlen_cons in H; pose proof (zlen_nonneg xs); lia]|].
  destruct (Z.eqb_spec (zlen ps) (zlen xs)) as [_|H]; [|unfold zlen in H; lia].
  rewrite (bool_decide_eq_true_2 _ Hs).
  assert (existsb (fun p => bool_decide (p < 0)%Qc) ps = false) as ->.
  { apply not_true_iff_false. rewrite existsb_exists. intros (p & Hin & Hlt). apply bool_decide_eq_true in Hlt.
    apply elem_of_list_In, Hp in Hin. by apply Qclt_not_le in Hlt. }
  simpl. f_equal. apply (imap_zip xs ps _ (fun x p => p * f (Ok x))%Qc); [done|]. intros i x p Hx' Hp'. by rewrite Hx'.
Qed.

Lemma can_np_choice {A} (xs : list A) (ps : list Qc) o :
  xs <> [] -> length ps = length xs -> (forall p, p ∈ ps -> (0 <= p)%Qc) -> qsum ps = 1%Qc ->
  (can (np_choice xs ps) o <-> exists i x p, xs !! i = Some x /\ ps !! i = Some p /\ p <> 0%Qc /\ o = Ok x).
Proof.
  intros Hx Hl Hp Hs. unfold np_choice.
  destruct (Z.eqb_spec (zlen xs) 0) as [H|_]; [destruct xs; [done|rewrite zlen_cons in H; pose proof (zlen_nonneg xs); lia]|].
  destruct (Z.eqb_spec (zlen ps) (zlen xs)) as [_|H]; [|unfold zlen in H; lia].
  rewrite (bool_decide_eq_true_2 _ Hs).
  assert (existsb (fun p => bool_decide (p < 0)%Qc) ps = false) as ->.
  { apply not_true_iff_false. rewrite existsb_exists. intros (p & Hin & Hlt). apply bool_decide_eq_true in Hlt.
    apply elem_of_list_In, Hp in Hin. by apply Qclt_not_le in Hlt. }
  simpl. split.
  - intros (i & p & Hi & Hp0 & Ho). assert (is_Some (xs !! i)) as [x Ex].
    { apply lookup_lt_is_Some. rewrite <- Hl. by eapply lookup_lt_Some. }
    rewrite Ex in Ho. simpl in Ho. eauto 10.
  - intros (i & x & p & Ex & Ep & Hp0 & ->). exists i, p. rewrite Ex. done.
Qed.

Lemma can_bind {A B} (m : rand A) (f : A -> rand B) o :
  can (bind m f) o <-> exists a, can m a /\ match a with Ok a => can (f a) o | Err e => o = Err e end.
Proof.
  induction m as [a|e|ps k IH]; simpl.
  - split; [intros H; exists (Ok a); done|]. intros (a' & -> & H). done.
  - split; [intros H; exists (Err e); done|]. intros (a' & -> & H). done.
  - split.
    + intros (i & p & Hi & Hp & H). apply IH in H as (a & Ha & H). exists a. split; [|done]. eauto.
    + intros (a & (i & p & Hi & Hp & Ha) & H). exists i, p. split_and!; try done. apply IH. eauto.
Qed.

Lemma can_lift {A} (r : result A) o : can (lift r) o <-> o = r.
Proof. destruct r; done. Qed.

Lemma normalize_length ws : length (normalize ws) = length ws.
Proof. apply map_length. Qed.

Lemma normalize_valid ws : (forall w, w ∈ ws -> 0 <= w) -> 0 < zsum ws ->
  (forall p, p ∈ normalize ws -> (0 <= p)%Qc) /\ qsum (normalize ws) = 1%Qc.
Proof.
  intros Hn Hs. split.
  - intros p Hp. apply elem_of_map in Hp as (w & -> & Hw). apply Qcdiv_nonneg; [apply Qc_of_Z_nonneg; auto|by apply Qc_of_Z_pos].
  - unfold normalize. rewrite (qsum_map_ext _ (fun w => Qc_of_Z w * / Qc_of_Z (zsum ws))%Qc) by done.
    rewrite qsum_map_mult_r. rewrite (qsum_Z (fun w => w)), map_id. apply Qcmult_inv_r.
    intros H. apply Qc_of_Z_inj_0 in H. lia.
Qed.

Lemma uniform_valid n : (0 < n)%nat ->
  (forall p, p ∈ replicate n (1 / Qc_of_Z (Z.of_nat n))%Qc -> (0 < p)%Qc) /\
  qsum (replicate n (1 / Qc_of_Z (Z.of_nat n))%Qc) = 1%Qc.
Proof.
  intros Hn. assert (H0 : (0 < Qc_of_Z (Z.of_nat n))%Qc) by (apply Qc_of_Z_pos; lia).
  assert (Hne : Qc_of_Z (Z.of_nat n) <> 0%Qc) by (intros H; apply Qc_of_Z_inj_0 in H; lia).
  split.
  - intros p Hp. apply elem_of_replicate in Hp as [-> _].
    by apply Qcdiv_pos.
  - assert (forall m c, qsum (replicate m c) = (Qc_of_Z (Z.of_nat m) * c)%Qc) as ->.
    { intros m c. induction m as [|m IH]; [change (Z.of_nat 0) with 0; rewrite Z2Qc_inj_0; cbn [replicate qsum foldr]; ring|].
      cbn [replicate qsum foldr]. fold (qsum (replicate m c)). rewrite IH.
      replace (Z.of_nat (S m)) with (1 + Z.of_nat m) by lia. rewrite Qc_of_Z_plus.
      rewrite Z2Qc_inj_1. ring. }
    unfold Qcdiv. rewrite Qcmult_1_l. by apply Qcmult_inv_r.
Qed.

(** A draw with probabilities normalize (map w xs). *)
Lemma expect_weighted {A} (w : A -> Z) xs f : (forall x, x ∈ xs -> 0 <= w x) -> 0 < zsum (map w xs) ->
  expect (np_choice xs (normalize (map w xs))) f
  = (qsum (map (fun x => Qc_of_Z (w x) * f (Ok x)) xs) / Qc_of_Z (zsum (map w xs)))%Qc.
Proof.
  intros Hn Hs. destruct (normalize_valid (map w xs)) as [Hp H1].
  { intros y Hy. apply elem_of_map in Hy as (x & -> & Hx). auto. }
  { done. }
  rewrite expect_np_choice; [|by intros ->|by rewrite normalize_length, map_length|done|done].
  unfold Qcdiv. rewrite <- qsum_map_mult_r. set (W := zsum (map w xs)). f_equal.
  assert (normalize (map w xs) = map (fun x => (Qc_of_Z (w x) / Qc_of_Z W)%Qc) xs) as ->.
  { unfold normalize. by rewrite map_map. }
  clear. generalize (Qc_of_Z W). intros c. induction xs as [|x xs IH]; simpl; [done|]. rewrite IH. f_equal. unfold Qcdiv; simpl; ring.
Qed.

Lemma can_weighted {A} (w : A -> Z) xs o : (forall x, x ∈ xs -> 0 <= w x) -> 0 < zsum (map w xs) ->
  (can (np_choice xs (normalize (map w xs))) o <-> exists x, x ∈ xs /\ 0 < w x /\ o = Ok x).
Proof.
  intros Hn Hs. destruct (normalize_valid (map w xs)) as [Hp H1].
  { intros y Hy. apply elem_of_map in Hy as (x & -> & Hx). auto. }
  { done. }
  rewrite can_np_choice; [|by intros ->|by rewrite normalize_length, map_length|done|done].
  assert (HW : Qc_of_Z (zsum (map w xs)) <> 0%Qc) by (intros H; apply Qc_of_Z_inj_0 in H; lia).
  split.
  - intros (i & x & p & Ex & Ep & Hp0 & ->). exists x. pose proof (elem_of_list_lookup_2 _ _ _ Ex) as Hx. split; [done|].
    split; [|done]. unfold normalize in Ep. rewrite map_map, list_lookup_fmap, Ex in Ep. simpl in Ep. simplify_option_eq.
    specialize (Hn x Hx). destruct (Z.eq_dec (w x) 0) as [E|]; [|lia]. exfalso. apply Hp0. rewrite E. unfold Qcdiv.
    rewrite Z2Qc_inj_0. ring.
  - intros (x & Hx & Hw & ->). apply elem_of_list_lookup in Hx as [i Hi].
    exists i, x, (Qc_of_Z (w x) / Qc_of_Z (zsum (map w xs)))%Qc. split_and!; try done.
    + unfold normalize. by rewrite map_map, list_lookup_fmap, Hi.
    + intros E. assert (Qc_of_Z (w x) = 0)%Qc as H; [|apply Qc_of_Z_inj_0 in H; lia].
      transitivity (Qc_of_Z (w x) / Qc_of_Z (zsum (map w xs)) * Qc_of_Z (zsum (map w xs)))%Qc; [field; done|].
      rewrite E. ring.
Qed.
