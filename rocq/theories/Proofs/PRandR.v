(** Lemmas about sums of reals and computations with real randomness. *)
From Coq Require Import Lra.
From Verif.Model Require Import PyBase PyReal RandR.
From Verif.Proofs Require Import PBase.
Import Coquelicot.Hierarchy Coquelicot.RInt.
Open Scope R_scope.

Notation isR := (is_RInt (V := R_NormedModule)).

(** ** sums *)

Lemma rsum_app l l' : rsum (l ++ l') = rsum l + rsum l'.
Proof. induction l as [|x l IH]; simpl; [lra|]. unfold rsum in *. simpl. rewrite IH. lra. Qed.

Lemma rsum_map_ext {A} (f g : A -> R) l : (forall x, x ∈ l -> f x = g x) -> rsum (map f l) = rsum (map g l).
Proof.
  intros H. f_equal. apply map_ext_in. intros x Hx. apply H. by apply elem_of_list_In.
Qed.

Lemma rsum_plus {A} (f g : A -> R) l : rsum (map (fun x => f x + g x) l) = rsum (map f l) + rsum (map g l).
Proof. induction l as [|x l IH]; simpl; [lra|]. unfold rsum in *. simpl. rewrite IH. lra. Qed.

Lemma rsum_scal {A} c (f : A -> R) l : rsum (map (fun x => c * f x) l) = c * rsum (map f l).
Proof. induction l as [|x l IH]; simpl; [lra|]. unfold rsum in *. simpl. rewrite IH. lra. Qed.

Lemma rsum_scal_r {A} c (f : A -> R) l : rsum (map (fun x => f x * c) l) = rsum (map f l) * c.
Proof. induction l as [|x l IH]; simpl; [lra|]. unfold rsum in *. simpl. rewrite IH. lra. Qed.

Lemma rsum_zero {A} (f : A -> R) l : (forall x, x ∈ l -> f x = 0) -> rsum (map f l) = 0.
Proof.
  induction l as [|x l IH]; intros H; simpl; [done|]. unfold rsum in *. simpl. rewrite (H x), IH; [lra| |left].
  intros; apply H; by right.
Qed.

Lemma rsum_nonneg {A} (f : A -> R) l : (forall x, x ∈ l -> 0 <= f x) -> 0 <= rsum (map f l).
Proof.
  induction l as [|x l IH]; intros H; simpl; [lra|]. unfold rsum in *. simpl.
  pose proof (H x ltac:(left)). pose proof (IH ltac:(intros; apply H; by right)). lra.
Qed.

Lemma rsum_le {A} (f g : A -> R) l : (forall x, x ∈ l -> f x <= g x) -> rsum (map f l) <= rsum (map g l).
Proof.
  induction l as [|x l IH]; intros H; simpl; [lra|]. unfold rsum in *. simpl.
  pose proof (H x ltac:(left)). pose proof (IH ltac:(intros; apply H; by right)). lra.
Qed.

Lemma rsum_swap {A B} (f : A -> B -> R) l l' :
  rsum (map (fun a => rsum (map (f a) l')) l) = rsum (map (fun b => rsum (map (fun a => f a b) l)) l').
Proof.
  induction l as [|a l IH]; simpl.
  - rewrite rsum_zero; [done|]. done.
  - unfold rsum at 1. simpl. fold (rsum (map (fun a => rsum (map (f a) l')) l)). rewrite IH.
    rewrite <- rsum_plus. done.
Qed.

Lemma rsum_cons x l : rsum (x :: l) = x + rsum l.
Proof. done. Qed.

Lemma rsum_concat {A B} (f : A -> list B) (g : B -> R) l :
  rsum (map g (concat (map f l))) = rsum (map (fun a => rsum (map g (f a))) l).
Proof.
  induction l as [|a l IH]; simpl; [done|]. rewrite map_app, rsum_app, IH. done.
Qed.

Lemma rsum_zero_iff {A} (f : A -> R) l x : (forall x, x ∈ l -> 0 <= f x) -> rsum (map f l) = 0 -> x ∈ l -> f x = 0.
Proof.
  induction l as [|y l IH]; intros Hf Hs Hx; [inversion Hx|]. cbn [map] in Hs. rewrite rsum_cons in Hs.
  pose proof (rsum_nonneg f l ltac:(intros; apply Hf; by right)). pose proof (Hf y ltac:(left)).
  apply elem_of_cons in Hx as [->|Hx]; [lra|]. apply IH; [intros; apply Hf; by right|lra|done].
Qed.

Lemma rsum_IZR {A} (f : A -> Z) l : rsum (map (fun x => IZR (f x)) l) = IZR (zsum (map f l)).
Proof. induction l as [|x l IH]; cbn [map]; [done|]. rewrite rsum_cons, IH. change (zsum (f x :: map f l)) with (f x + zsum (map f l))%Z. by rewrite plus_IZR. Qed.

Lemma rsum_const {A} (c : R) (l : list A) : rsum (map (fun _ => c) l) = c * IZR (zlen l).
Proof.
  induction l as [|x l IH]; cbn [map]; [change (0 = c * 0); lra|]. rewrite rsum_cons, IH.
  unfold zlen. cbn [length]. rewrite Nat2Z.inj_succ, succ_IZR. lra.
Qed.

(** sum of an indicator over a list without duplicates *)
Lemma rsum_indicator {A} `{EqDecision A} (f : A -> R) (l : list A) (a : A) : NoDup l -> a ∈ l ->
  rsum (map (fun x => f x * (if decide (x = a) then 1 else 0)) l) = f a.
Proof.
  induction 1 as [|x l Hx Hnd IH]; intros Ha; [inversion Ha|]. cbn [map]. rewrite rsum_cons.
  apply elem_of_cons in Ha as [->|Ha].
  - rewrite decide_True by done. rewrite rsum_zero; [lra|]. intros y Hy. rewrite decide_False; [lra|]. by intros ->.
  - rewrite decide_False by (by intros ->). rewrite IH by done. lra.
Qed.

(** ** integrals of step functions *)

Lemma isR_const c : isR (fun _ => c) 0 1 c.
Proof.
  pose proof (is_RInt_const (V := R_NormedModule) 0 1 c) as H.
  replace (scal (1 - 0) c) with c in H; [done|]. unfold scal. simpl. unfold mult. simpl. lra.
Qed.

Lemma isR_step r a b : 0 <= r -> isR (fun u => if Rltb u r then a else b) 0 1 (Rmin 1 r * a + (1 - Rmin 1 r) * b).
Proof.
  intros Hr. destruct (Rle_dec 1 r) as [H1|H1].
  - rewrite Rmin_left by done. replace (1 * a + (1 - 1) * b) with a by lra.
    apply (is_RInt_ext (V := R_NormedModule) (fun _ => a)); [|apply isR_const].
    intros x [_ Hx]. rewrite Rmax_right in Hx by lra. unfold Rltb. destruct (Rlt_dec x r); [done|lra].
  - apply Rnot_le_lt in H1. rewrite Rmin_right by lra.
    replace (r * a + (1 - r) * b) with (plus (scal (r - 0) a) (scal (1 - r) b)).
    2:{ unfold plus, scal, mult. simpl. unfold mult. simpl. lra. }
    apply (is_RInt_Chasles (V := R_NormedModule) _ 0 r 1).
    + apply (is_RInt_ext (V := R_NormedModule) (fun _ => a)); [|apply is_RInt_const].
      intros x [_ Hx]. rewrite Rmax_right in Hx by lra. unfold Rltb. destruct (Rlt_dec x r); [done|lra].
    + apply (is_RInt_ext (V := R_NormedModule) (fun _ => b)); [|apply is_RInt_const].
      intros x [Hx _]. rewrite Rmin_left in Hx by lra. unfold Rltb. destruct (Rlt_dec x r); [lra|done].
Qed.

Lemma isR_scal c f v : isR f 0 1 v -> isR (fun u => c * f u) 0 1 (c * v).
Proof. intros H. apply (is_RInt_scal (V := R_NormedModule) f 0 1 c v H). Qed.

Lemma isR_plus f g v w : isR f 0 1 v -> isR g 0 1 w -> isR (fun u => f u + g u) 0 1 (v + w).
Proof. intros H1 H2. apply (is_RInt_plus (V := R_NormedModule) f g 0 1 v w H1 H2). Qed.

Lemma isR_rsum {A} (f : A -> R -> R) (v : A -> R) l : (forall a, a ∈ l -> isR (f a) 0 1 (v a)) ->
  isR (fun u => rsum (map (fun a => f a u) l)) 0 1 (rsum (map v l)).
Proof.
  induction l as [|a l IH]; intros H; simpl; [apply isR_const|].
  apply isR_plus; [apply H; left|]. apply IH. intros; apply H; by right.
Qed.

(** ** expectations *)

Lemma hexpect_unique {A} (f : result A -> R) m v v' : hexpect f m v -> hexpect f m v' -> v = v'.
Proof.
  intros H. revert v'. induction H as [a|e|ps k g v Hk IH ->|k g v Hk IH Hv]; intros v' H'; inversion H'; subst; try done.
  - f_equal. apply imap_ext. intros i p Hp. simpl. destruct (Req_dec p 0) as [->|Hn]; [lra|].
    f_equal. eapply IH; [done|done|]. eauto.
  - assert (RInt (V := R_CompleteNormedModule) g 0 1 = v) as <- by (by apply is_RInt_unique).
    apply is_RInt_unique. eapply is_RInt_ext; [|done]. intros u Hu. rewrite Rmin_left, Rmax_right in Hu by lra.
    symmetry. eapply IH; [lra|]. apply H0. lra.
Qed.

Lemma hbind {A B} (m : rrand A) (k : A -> rrand B) f g v : hexpect g m v ->
  (forall a, rcan m (Ok a) -> hexpect f (k a) (g (Ok a))) ->
  (forall e, rcan m (Err e) -> f (Err e) = g (Err e)) ->
  hexpect f (rrbind m k) v.
Proof.
  induction 1 as [a|e|ps k' g' v Hk IH ->|k' g' v Hk IH Hv]; intros Ha He; simpl.
  - by apply Ha.
  - simpl in He. rewrite <- He by done. constructor.
  - apply (HChoose _ _ _ g'); [|done]. intros i p Hp Hn. apply (IH i p Hp Hn).
    + intros a Hc. apply Ha. simpl. eauto.
    + intros e Hc. apply He. simpl. eauto.
  - apply (HUnif _ _ g'); [|done]. intros u Hu. apply (IH u Hu).
    + intros a Hc. apply Ha. simpl. eauto.
    + intros e Hc. apply He. simpl. eauto.
Qed.

Lemma hexpect_ext {A} (f g : result A -> R) m v : (forall o, rcan m o -> f o = g o) -> hexpect g m v -> hexpect f m v.
Proof.
  intros Hfg H. induction H as [a|e|ps k g' v Hk IH ->|k g' v Hk IH Hv].
  - rewrite <- Hfg by done. constructor.
  - rewrite <- Hfg by done. constructor.
  - apply (HChoose _ _ _ g'); [|done]. intros i p Hp Hn. apply (IH i p Hp Hn). intros o Ho. apply Hfg. simpl. eauto.
  - apply (HUnif _ _ g'); [|done]. intros u Hu. apply (IH u Hu). intros o Ho. apply Hfg. simpl. eauto.
Qed.

Lemma rcan_bind {A B} (m : rrand A) (k : A -> rrand B) o :
  rcan (rrbind m k) o <-> (exists a, rcan m (Ok a) /\ rcan (k a) o) \/ (exists e, rcan m (Err e) /\ o = Err e).
Proof.
  induction m as [a|e|ps k' IH|k' IH]; simpl.
  - split; [eauto|]. intros [(a' & [= ->] & H)|(e & ? & _)]; [done|congruence].
  - split; [eauto|]. intros [(a' & ? & _)|(e' & [= ->] & ->)]; [congruence|done].
  - split.
    + intros (i & p & Hp & Hn & Hc). apply IH in Hc as [(a & H1 & H2)|(e & H1 & H2)]; [left|right]; eauto 10.
    + intros [(a & (i & p & Hp & Hn & H1) & H2)|(e & (i & p & Hp & Hn & H1) & H2)]; exists i, p; (split_and!; [done|done|]);
        apply IH; [left|right]; eauto.
  - split.
    + intros (u & Hu & Hc). apply IH in Hc as [(a & H1 & H2)|(e & H1 & H2)]; [left|right]; eauto 10.
    + intros [(a & (u & Hu & H1) & H2)|(e & (u & Hu & H1) & H2)]; exists u; (split; [done|]); apply IH; [left|right]; eauto.
Qed.

Lemma rcan_lift {A} (r : result A) o : rcan (rlift r) o <-> o = r.
Proof. by destruct r. Qed.

(** valid distributions *)
Definition distr (ps : list R) : Prop := (forall p, p ∈ ps -> 0 <= p) /\ rsum ps = 1.

Lemma rchoice_ok {A} (xs : list A) ps : length ps = length xs -> distr ps ->
  rchoice xs ps = RChoose ps (fun i => match xs !! i with Some x => RRet x | None => RFail IndexError end).
Proof.
  intros Hl [Hp Hs]. unfold rchoice.
  assert (zlen xs <> 0)%Z.
  { intros E. apply zlen_0 in E as ->. destruct ps; [|done]. unfold rsum in Hs. simpl in Hs. lra. }
  destruct (Z.eqb_spec (zlen xs) 0); [done|]. unfold zlen. rewrite Hl, Z.eqb_refl. simpl.
  assert (existsb (fun p => Rltb p 0) ps = false) as ->.
  { apply not_true_is_false. intros E. apply existsb_exists in E as (p & Hin & E). unfold Rltb in E.
    destruct (Rlt_dec p 0); [|done]. apply elem_of_list_In, Hp in Hin. lra. }
  destruct (Req_EM_T (rsum ps) 1); done.
Qed.

Lemma imap_zip_r {A} (xs : list A) (ps : list R) (h : nat -> R) (f : A -> R) : length ps = length xs ->
  (forall i x, xs !! i = Some x -> h i = f x) ->
  imap (fun i p => p * h i) ps = map (fun xp => snd xp * f (fst xp)) (zip xs ps).
Proof.
  revert ps h. induction xs as [|x xs IH]; intros [|p ps] h Hl Hh; try done. simpl. f_equal.
  - by rewrite (Hh 0%nat x).
  - apply IH; [simpl in Hl; lia|]. intros i y Hy. unfold compose. by apply Hh.
Qed.

Lemma hexpect_rchoice {A} (xs : list A) ps f : length ps = length xs -> distr ps ->
  hexpect f (rchoice xs ps) (rsum (map (fun xp => snd xp * f (Ok (fst xp))) (zip xs ps))).
Proof.
  intros Hl Hd. rewrite rchoice_ok by done.
  apply (HChoose _ _ _ (fun i => match xs !! i with Some x => f (Ok x) | None => 0 end)).
  - intros i p Hp _. apply lookup_lt_Some in Hp. destruct (lookup_lt_is_Some_2 xs i) as [x Hx]; [lia|]. rewrite Hx. constructor.
  - f_equal. symmetry. apply (imap_zip_r xs ps _ (fun x => f (Ok x))); [done|]. intros i x ->. done.
Qed.

Lemma rcan_rchoice {A} (xs : list A) ps o : length ps = length xs -> distr ps ->
  (rcan (rchoice xs ps) o <-> exists x p, (x, p) ∈ zip xs ps /\ p <> 0 /\ o = Ok x).
Proof.
  intros Hl Hd. rewrite rchoice_ok by done. simpl. split.
  - intros (i & p & Hp & Hn & Hc). pose proof Hp as Hlt. apply lookup_lt_Some in Hlt. destruct (lookup_lt_is_Some_2 xs i) as [x Hx]; [lia|].
    rewrite Hx in Hc. simpl in Hc. exists x, p. split_and!; try done. apply elem_of_list_lookup. exists i.
    rewrite lookup_zip_with, Hx, Hp. done.
  - intros (x & p & Hin & Hn & ->). apply elem_of_list_lookup in Hin as [i Hi]. rewrite lookup_zip_with in Hi.
    destruct (xs !! i) as [y|] eqn:Ey; [|done]. destruct (ps !! i) as [p'|] eqn:Ep; [|done]. simpl in Hi. injection Hi as -> ->.
    exists i, p. rewrite Ey. done.
Qed.

Lemma py_choice_expect {A} (xs : list A) f : xs <> [] ->
  hexpect f (py_choice xs) (rsum (map (fun x => f (Ok x)) xs) / IZR (zlen xs)).
Proof.
  intros Hne. destruct xs as [|x0 xs'] eqn:E; [done|]. rewrite <- E in *. clear x0 xs' E.
  assert (py_choice xs = RChoose (replicate (length xs) (1 / IZR (zlen xs)))
           (fun i => match xs !! i with Some x => RRet x | None => RFail IndexError end)) as -> by (by destruct xs).
  apply (HChoose _ _ _ (fun i => match xs !! i with Some x => f (Ok x) | None => 0 end)).
  - intros i p Hp _. apply lookup_lt_Some in Hp. rewrite replicate_length in Hp.
    destruct (lookup_lt_is_Some_2 xs i) as [x Hx]; [lia|]. rewrite Hx. constructor.
  - rewrite (imap_zip_r xs (replicate (length xs) (1 / IZR (zlen xs))) _ (fun x => f (Ok x)));
      [|by rewrite replicate_length|by intros i x ->].
    set (c := IZR (zlen xs)). clearbody c. clear Hne. unfold Rdiv. rewrite <- rsum_scal_r. f_equal.
    induction xs as [|x xs IH]; simpl; [done|]. f_equal; [lra|apply IH].
Qed.

Lemma rcan_py_choice {A} (xs : list A) o : xs <> [] -> (rcan (py_choice xs) o <-> exists x, x ∈ xs /\ o = Ok x).
Proof.
  intros Hne. destruct xs as [|x0 xs'] eqn:E; [done|]. rewrite <- E in *. clear x0 xs' E.
  assert (py_choice xs = RChoose (replicate (length xs) (1 / IZR (zlen xs)))
           (fun i => match xs !! i with Some x => RRet x | None => RFail IndexError end)) as -> by (by destruct xs).
  simpl. split.
  - intros (i & p & Hp & _ & Hc). apply lookup_lt_Some in Hp. rewrite replicate_length in Hp.
    destruct (lookup_lt_is_Some_2 xs i) as [x Hx]; [lia|]. rewrite Hx in Hc. simpl in Hc. exists x. split; [|done].
    by eapply elem_of_list_lookup_2.
  - intros (x & Hx & ->). apply elem_of_list_lookup in Hx as [i Hi]. exists i, (1 / IZR (zlen xs)). rewrite Hi.
    split_and!; [|..|done].
    + apply lookup_replicate_2. by eapply lookup_lt_Some.
    + intros E0. assert (0 < IZR (zlen xs)) as Hz.
      { apply IZR_lt. pose proof (zlen_nonneg xs). destruct (Z.eq_dec (zlen xs) 0) as [E1|]; [by apply zlen_0 in E1|lia]. }
      apply Rinv_0_lt_compat in Hz. unfold Rdiv in E0. lra.
Qed.

(** ** repeated draws *)

Fixpoint IntL (m : nat) (g : list R -> R) (v : R) : Prop :=
  match m with
  | O => v = g []
  | Datatypes.S m' => exists h, (forall u, 0 <= u < 1 -> IntL m' (fun l => g (u :: l)) (h u)) /\ isR h 0 1 v
  end.

Fixpoint SumL {A} (m : nat) (q : list (A * R)) (g : list A -> R) : R :=
  match m with
  | O => g []
  | Datatypes.S m' => rsum (map (fun xp => snd xp * SumL m' q (fun l => g (fst xp :: l))) q)
  end.

Lemma IntL_ext m : forall g g' v, (forall l, length l = m -> Forall (fun u => 0 <= u < 1) l -> g l = g' l) -> IntL m g v -> IntL m g' v.
Proof.
  induction m as [|m IH]; intros g g' v Hg; simpl.
  - intros ->. by apply Hg.
  - intros (h & Hh & Hv). exists h. split; [|done]. intros u Hu. apply (IH (fun l => g (u :: l))); [|by apply Hh].
    intros l Hl Hf. apply Hg; [simpl; lia|by constructor].
Qed.

Lemma SumL_ext {A} m (q : list (A * R)) : forall g g',
  (forall l, length l = m -> Forall (fun x => exists p, (x, p) ∈ q /\ p <> 0) l -> g l = g' l) -> SumL m q g = SumL m q g'.
Proof.
  induction m as [|m IH]; intros g g' Hg; simpl; [by apply Hg|]. apply rsum_map_ext. intros [x p] Hx. simpl.
  destruct (Req_dec p 0) as [->|Hn]; [lra|]. f_equal. apply IH. intros l Hl Hf. apply Hg; [simpl; lia|].
  constructor; eauto.
Qed.

Lemma SumL_sum {A B} m (q : list (A * R)) (a : B -> R) (H : B -> list A -> R) (bs : list B) :
  SumL m q (fun l => rsum (map (fun b => a b * H b l) bs)) = rsum (map (fun b => a b * SumL m q (H b)) bs).
Proof.
  revert H. induction m as [|m IH]; intros H; simpl; [done|].
  rewrite (rsum_map_ext (fun xp : A * R => xp.2 * SumL m q (fun l => rsum (map (fun b => a b * H b (xp.1 :: l)) bs)))
            (fun xp => rsum (map (fun b => a b * (xp.2 * SumL m q (fun l => H b (xp.1 :: l)))) bs))).
  - rewrite rsum_swap. apply rsum_map_ext. intros b _. rewrite rsum_scal. done.
  - intros xp _. rewrite (IH (fun b l => H b (xp.1 :: l))). rewrite <- rsum_scal. apply rsum_map_ext. intros; lra.
Qed.

Lemma hexpect_runiform m : forall f v, IntL m (fun l => f (Ok l)) v -> hexpect f (runiform m) v.
Proof.
  unfold runiform. induction m as [|m IH]; intros f v; simpl.
  - intros ->. constructor.
  - intros (h & Hh & Hv). apply (HUnif _ _ h); [|done]. intros u Hu.
    apply (hbind _ _ _ (fun o => match o with Ok l => f (Ok (u :: l)) | Err e => f (Err e) end)); [|intros; constructor|done].
    apply IH. by apply Hh.
Qed.

Lemma rcan_runiform m o : rcan (runiform m) o <-> exists l, o = Ok l /\ length l = m /\ Forall (fun u => 0 <= u < 1) l.
Proof.
  revert o. induction m as [|m IH]; intros o.
  - simpl. split; [intros ->; exists []; done|]. intros (l & -> & Hl & _). destruct l; done.
  - unfold runiform. simpl. setoid_rewrite rcan_bind. fold (runiform m). setoid_rewrite IH. split.
    + intros (u & Hu & [(l & (l' & [= <-] & Hl & Hf) & ->)|(e & (l & ? & _) & _)]); [|done].
      exists (u :: l). split_and!; [done|simpl; lia|by constructor].
    + intros ([|u l] & -> & Hl & Hf); [done|]. inversion Hf; subst. exists u. split; [done|]. left. exists l. split; [|done].
      exists l. split_and!; [done|simpl in Hl; lia|done].
Qed.

Lemma hexpect_rchoices {A} m (xs : list A) ps : length ps = length xs -> distr ps -> forall f,
  hexpect f (rchoices m xs ps) (SumL m (zip xs ps) (fun l => f (Ok l))).
Proof.
  intros Hl Hd. unfold rchoices. induction m as [|m IH]; intros f; [constructor|]. cbn [rrepeat SumL].
  apply (hbind _ _ _ (fun o => match o with Ok x => SumL m (zip xs ps) (fun l => f (Ok (x :: l))) | Err e => f (Err e) end)).
  - apply (hexpect_rchoice xs ps (fun o => match o with Ok x => SumL m (zip xs ps) (fun l => f (Ok (x :: l))) | Err e => f (Err e) end)); done.
  - intros x _. apply (hbind _ _ _ (fun o => match o with Ok l => f (Ok (x :: l)) | Err e => f (Err e) end)); [|intros; constructor|done].
    apply (IH (fun o => match o with Ok l => f (Ok (x :: l)) | Err e => f (Err e) end)).
  - done.
Qed.

Lemma rcan_rchoices {A} m (xs : list A) ps o : length ps = length xs -> distr ps ->
  (rcan (rchoices m xs ps) o <->
    exists l, o = Ok l /\ length l = m /\ Forall (fun x => exists p, (x, p) ∈ zip xs ps /\ p <> 0) l).
Proof.
  intros Hl Hd. revert o. induction m as [|m IH]; intros o.
  - simpl. split; [intros ->; exists []; done|]. intros (l & -> & Hl' & _). destruct l; done.
  - unfold rchoices. simpl. rewrite rcan_bind. setoid_rewrite rcan_bind. fold (rchoices m xs ps). setoid_rewrite IH.
    setoid_rewrite (rcan_rchoice xs ps); [|done..]. split.
    + intros [(x & (x' & p & Hx & Hn & [= <-]) & [(l & (l' & [= <-] & Hl' & Hf) & ->)|(e & (l & ? & _) & _)])|(e & (? & ? & _ & _ & ?) & _)]; [|done..].
      exists (x :: l). split_and!; [done|simpl; lia|constructor; eauto].
    + intros ([|x l] & -> & Hl' & Hf); [done|]. inversion Hf as [|? ? (p & Hx & Hn) Hf']; subst. left. exists x. split; [eauto|]. left. exists l.
      split; [|done]. exists l. split_and!; [done|simpl in Hl'; lia|done].
Qed.
