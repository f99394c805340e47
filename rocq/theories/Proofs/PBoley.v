(** Lemmas about Bernoulli subsets and rejection loops. *)
From Coq Require Import Lra.
From Verif.Model Require Import PyBase PyReal Sparse Utils Rand RandR Cftp Boley.
From Verif.Spec Require Import SCftp SBoley.
From Verif.Proofs Require Import PBase PSets PSubsets PRand PRandR PCftp T_Cftp.
Open Scope R_scope.

Lemma isR_half a b : isR (fun u => if Rltb u (1 / 2) then a else b) 0 1 ((a + b) / 2).
Proof.
  pose proof (isR_step (1 / 2) a b ltac:(lra)) as H. rewrite Rmin_right in H by lra.
  replace ((a + b) / 2) with (1 / 2 * a + (1 - 1 / 2) * b) by lra. exact H.
Qed.

Lemma bern_once_expect l : forall res f,
  hexpect f (bernoulli_once l res) (rsum (map (fun s => f (Ok (res ∪ py_set s))) (subs l)) / 2 ^ length l).
Proof.
  induction l as [|x l IH]; intros res f.
  - cbn [subs map]. rewrite rsum_cons. change (rsum []) with 0. change (2 ^ length []) with 1.
    replace (res ∪ py_set []) with res by (apply set_eq; intros; unfold py_set; set_solver).
    replace ((f (Ok res) + 0) / 1) with (f (Ok res)) by lra. apply HRet.
  - cbn [bernoulli_once subs length].
    apply (HUnif _ _ (fun u => if Rltb u (1 / 2)
      then rsum (map (fun s => f (Ok ((res ∪ {[x]}) ∪ py_set s))) (subs l)) / 2 ^ length l
      else rsum (map (fun s => f (Ok (res ∪ py_set s))) (subs l)) / 2 ^ length l)).
    + intros u _. destruct (Rltb u (1 / 2)); apply IH.
    + rewrite map_app, rsum_app, map_map.
      rewrite (rsum_map_ext (fun s => f (Ok (res ∪ py_set (x :: s)))) (fun s => f (Ok ((res ∪ {[x]}) ∪ py_set s)))).
      2:{ intros s _. do 2 f_equal. apply set_eq. intros; unfold py_set; set_solver. }
      set (A := rsum (map (fun s => f (Ok ((res ∪ {[x]}) ∪ py_set s))) (subs l))). set (B := rsum (map (fun s => f (Ok (res ∪ py_set s))) (subs l))).
      replace ((B + A) / 2 ^ S (length l)) with ((A / 2 ^ length l + B / 2 ^ length l) / 2).
      2:{ simpl. pose proof (pow_lt 2 (length l) ltac:(lra)). field. lra. }
      apply isR_half.
Qed.

Lemma bern_once_can l : forall res o, rcan (bernoulli_once l res) o <-> exists s, s `sublist_of` l /\ o = Ok (res ∪ py_set s).
Proof.
  induction l as [|x l IH]; intros res o.
  - simpl. split.
    + intros ->. exists []. split; [constructor|]. f_equal. apply set_eq; intros; unfold py_set; set_solver.
    + intros (s & Hs & ->). apply sublist_nil_r in Hs as ->. f_equal. apply set_eq; intros; unfold py_set; set_solver.
  - simpl. split.
    + intros (u & _ & H). apply IH in H as (s & Hs & ->). destruct (Rltb u (1 / 2)).
      * exists (x :: s). split; [by apply sublist_skip|]. f_equal. apply set_eq; intros; unfold py_set; set_solver.
      * exists s. split; [by apply sublist_cons|done].
    + intros (s & Hs & ->). apply sublist_cons_r in Hs as [Hs|(s' & -> & Hs)].
      * exists (1 / 2). split; [lra|]. apply IH. exists s. split; [done|]. unfold Rltb. destruct (Rlt_dec (1/2) (1/2)); [lra|done].
      * exists 0. split; [lra|]. apply IH. exists s'. split; [done|]. unfold Rltb. destruct (Rlt_dec 0 (1/2)); [|lra].
        f_equal. apply set_eq; intros; unfold py_set; set_solver.
Qed.

Definition keep (l : list Z) (us : list R) : list Z := map fst (List.filter (fun xu : Z * R => Rltb (snd xu) (1 / 2)) (zip l us)).

Lemma vec_expect l : forall F : list Z -> R,
  IntL (length l) (fun us => F (keep l us)) (rsum (map F (subs l)) / 2 ^ length l).
Proof.
  induction l as [|x l IH]; intros F.
  - cbn [length IntL subs map]. change (2 ^ 0) with 1. rewrite rsum_cons. change (rsum []) with 0. unfold keep. simpl. lra.
  - cbn [length IntL]. exists (fun u => if Rltb u (1 / 2) then rsum (map (fun s => F (x :: s)) (subs l)) / 2 ^ length l else rsum (map F (subs l)) / 2 ^ length l).
    split.
    + intros u _. destruct (Rltb u (1 / 2)) eqn:E.
      * eapply (IntL_ext _ (fun us => F (x :: keep l us))); [|apply (IH (fun s => F (x :: s)))]. intros us _ _. unfold keep. simpl. rewrite E. done.
      * eapply (IntL_ext _ (fun us => F (keep l us))); [|apply IH]. intros us _ _. unfold keep. simpl. rewrite E. done.
    + cbn [subs]. rewrite map_app, rsum_app, map_map.
      replace ((rsum (map F (subs l)) + rsum (map (fun s => F (x :: s)) (subs l))) / 2 ^ S (length l))
        with ((rsum (map (fun s => F (x :: s)) (subs l)) / 2 ^ length l + rsum (map F (subs l)) / 2 ^ length l) / 2).
      2:{ simpl. pose proof (pow_lt 2 (length l) ltac:(lra)). field. lra. }
      apply isR_half.
Qed.

Lemma keep_sublist l us : keep l us `sublist_of` l.
Proof.
  revert us. induction l as [|x l IH]; intros us; [constructor|]. destruct us as [|u us]; [apply sublist_nil_l|].
  unfold keep. cbn [zip_with List.filter snd]. simpl. destruct (Rltb u (1 / 2)); [apply sublist_skip|apply sublist_cons]; apply IH.
Qed.

(** rejection: repeat until non-empty *)
Fixpoint geo (q : R) (n : nat) : R := match n with O => 0 | S n' => 1 + q * geo q n' end.
Lemma geo_eq q n : (1 - q) * geo q n = 1 - q ^ n.
Proof. induction n as [|n IH]; simpl; [lra|]. replace ((1 - q) * (1 + q * geo q n)) with ((1 - q) + q * ((1 - q) * geo q n)) by ring. rewrite IH. ring. Qed.

Section retry.
  Context (once : rrand (gset Z)) (loop : nat -> rrand (gset Z)) (L : list (R * gset Z)).
  Hypothesis Honce : forall f, hexpect f once (rsum (map (fun x => x.1 * f (Ok x.2)) L)).
  Hypothesis Hloop0 : loop 0%nat = RFail OutOfFuel.
  Hypothesis HloopS : forall n, loop (S n) = let* res := once in if (0 <? size res)%nat then RRet res else loop n.
  Definition rejq : R := rsum (map (fun x : R * gset Z => if decide (x.2 = ∅) then x.1 else 0) L).

  Lemma size_ltb (T : gset Z) : (0 <? size T)%nat = negb (bool_decide (T = ∅)).
  Proof.
    case_bool_decide as H; simpl.
    - subst. by rewrite size_empty.
    - apply Nat.ltb_lt. by apply size_pos_ne.
  Qed.

  Lemma retry_expect n : forall f,
    hexpect f (loop n) (geo rejq n * rsum (map (fun x => x.1 * (if decide (x.2 = ∅) then 0 else f (Ok x.2))) L) + rejq ^ n * f (Err OutOfFuel)).
  Proof.
    induction n as [|n IH]; intros f.
    - rewrite Hloop0. simpl. replace (0 * _ + 1 * f (Err OutOfFuel)) with (f (Err OutOfFuel)) by lra. constructor.
    - rewrite HloopS. set (V := rsum _). set (v := geo rejq n * V + rejq ^ n * f (Err OutOfFuel)).
      replace (geo rejq (S n) * V + rejq ^ S n * f (Err OutOfFuel)) with (V + rejq * v) by (unfold v; simpl; ring).
      apply (hbind _ _ _ (fun o => match o with Ok T => if decide (T = ∅) then v else f (Ok T) | Err e => f (Err e) end)).
      + assert (E : V + rejq * v = rsum (map (fun x : R * gset Z => x.1 * (if decide (x.2 = ∅) then v else f (Ok x.2))) L)).
        { unfold V, rejq. rewrite <- rsum_scal_r, <- rsum_plus. apply rsum_map_ext. intros x _. destruct (decide (x.2 = ∅)); lra. }
        rewrite E. apply (Honce (fun o => match o with Ok T => if decide (T = ∅) then v else f (Ok T) | Err e => f (Err e) end)).
      + intros T _. rewrite size_ltb. destruct (decide (T = ∅)) as [->|Hne].
        * rewrite bool_decide_eq_true_2 by done. apply IH.
        * rewrite bool_decide_eq_false_2 by done. constructor.
      + done.
  Qed.

  Lemma retry_can n o : rcan (loop n) o -> o = Err OutOfFuel \/ (exists e, rcan once (Err e) /\ o = Err e) \/ exists T, rcan once (Ok T) /\ T <> ∅ /\ o = Ok T.
  Proof.
    revert o. induction n as [|n IH]; intros o; [rewrite Hloop0; simpl; tauto|]. rewrite HloopS. intros H.
    apply rcan_bind in H as [(T & HT & H)|(e & He & ->)]; [|right; left; eauto]. rewrite size_ltb in H. case_bool_decide as E; simpl in H.
    - auto.
    - subst o. right. right. eauto.
  Qed.
End retry.

Lemma rsum_scal1 {A} c (f : A -> R) l : rsum (map (fun x => c * f x) l) = c * rsum (map f l).
Proof. apply rsum_scal. Qed.

(** subs without the empty list *)
Lemma ord_NoDup (ord : gset Z -> list Z) (S : gset Z) : set_order ord -> NoDup (ord S) /\ py_set (ord S) = S /\ length (ord S) = size S.
Proof.
  intros Ho. pose proof (Ho S) as H. split_and!.
  - rewrite H. apply NoDup_elements.
  - apply set_eq. intros x. rewrite elem_of_py_set, H. apply elem_of_elements.
  - rewrite H. done.
Qed.

Lemma py_set_nil_iff (s : list Z) : py_set s = ∅ <-> s = [].
Proof.
  split; [|by intros ->]. intros H. destruct s as [|x s]; [done|]. exfalso. assert (x ∈ py_set (x :: s)) by (apply elem_of_py_set; left). set_solver.
Qed.

Lemma rsum_perm' {A} (f : A -> R) l l' : l ≡ₚ l' -> rsum (map f l) = rsum (map f l').
Proof. intros H. apply rsum_perm. by rewrite H. Qed.

(** the law of draw_bernoulli_elementwise *)
Lemma bern_loop_expect ord fuel S f : set_order ord -> S <> ∅ ->
  hexpect f (bernoulli_loop fuel (ord S))
    ((1 - (/ 2 ^ size S) ^ fuel) / (2 ^ size S - 1) * rsum (map (fun s => f (Ok (py_set s))) (powerset (ord S) true)) + (/ 2 ^ size S) ^ fuel * f (Err OutOfFuel)).
Proof.
  intros Ho HS. destruct (ord_NoDup ord S Ho) as (Hnd & Es & El).
  set (L := map (fun s => (/ 2 ^ size S, py_set s)) (subs (ord S))).
  assert (Hq : rejq L = / 2 ^ size S).
  { unfold rejq, L. rewrite map_map. cbn [fst snd].
    rewrite (rsum_perm' _ _ _ (powerset_perm_ex _ Hnd)). cbn [map]. rewrite rsum_cons.
    rewrite decide_True by done. rewrite rsum_zero; [lra|]. intros s Hs. apply elem_of_powerset in Hs as [_ Hs].
    rewrite decide_False; [done|]. rewrite py_set_nil_iff. by apply Hs. }
  pose proof (retry_expect (bernoulli_once (ord S) ∅) (fun n => bernoulli_loop n (ord S)) L) as H.
  rewrite Hq in H.
  assert (Hpow : 2 <= 2 ^ size S).
  { pose proof (size_pos_ne S HS) as Hs. destruct (size S) as [|m]; [lia|]. simpl. pose proof (pow_R1_Rle 2 m ltac:(lra)). lra. }
  replace ((1 - (/ 2 ^ size S) ^ fuel) / (2 ^ size S - 1) * rsum (map (fun s => f (Ok (py_set s))) (powerset (ord S) true)))
    with (geo (/ 2 ^ size S) fuel * rsum (map (fun x : R * gset Z => x.1 * (if decide (x.2 = ∅) then 0 else f (Ok x.2))) L)).
  - apply H; try done. intros g. unfold L. rewrite map_map. cbn [fst snd]. rewrite rsum_scal.
    pose proof (bern_once_expect (ord S) ∅ g) as Hb. rewrite El in Hb. unfold Rdiv in Hb. rewrite Rmult_comm in Hb.
    rewrite (rsum_map_ext _ (fun s => g (Ok (py_set s)))) in Hb; [exact Hb|]. intros s _. do 2 f_equal. apply set_eq; set_solver.
  - unfold L. rewrite map_map. cbn [fst snd]. rewrite rsum_scal.
    rewrite (rsum_perm' _ _ _ (powerset_perm_ex _ Hnd)). cbn [map]. rewrite rsum_cons. rewrite decide_True by done. rewrite Rplus_0_l.
    rewrite (rsum_map_ext _ (fun s => f (Ok (py_set s)))).
    2:{ intros s Hs. apply elem_of_powerset in Hs as [_ Hs]. rewrite decide_False; [done|]. rewrite py_set_nil_iff. by apply Hs. }
    rewrite <- Rmult_assoc. f_equal. rewrite <- geo_eq. field. lra.
Qed.

(** all patterns of P that are not patterns of N *)
Definition pats (ord : gset Z -> list Z) (P N : gset Z) : list (gset Z) :=
  concat (map (fun s1 => map (fun s2 => py_set s1 ∪ py_set s2) (subs (ord (P ∩ N)))) (powerset (ord (P ∖ N)) true)).

Lemma elem_of_pats ord P N T : set_order ord -> T ∈ pats ord P N <-> discriminates P N T.
Proof.
  intros Ho. destruct (ord_NoDup ord (P ∖ N) Ho) as (Hnd1 & E1 & _), (ord_NoDup ord (P ∩ N) Ho) as (Hnd2 & E2 & _).
  unfold pats. rewrite elem_of_concat. split.
  - intros (l & Hl & HT). apply elem_of_map in Hl as (s1 & -> & H1). apply elem_of_map in HT as (s2 & -> & H2).
    apply elem_of_powerset in H1 as [H1 Hn]. apply elem_of_subs in H2.
    assert (H1' : py_set s1 ⊆ P ∖ N). { rewrite <- E1. apply elem_of_subsets. apply elem_of_map. exists s1. by rewrite elem_of_subs. }
    assert (H2' : py_set s2 ⊆ P ∩ N). { rewrite <- E2. apply elem_of_subsets. apply elem_of_map. exists s2. by rewrite elem_of_subs. }
    specialize (Hn eq_refl). split; [set_solver|]. intros Hs. destruct s1 as [|x s1]; [done|].
    assert (x ∈ py_set (x :: s1)) by (apply elem_of_py_set; left). set_solver.
  - intros [HP HN]. destruct (subset_sublist (ord (P ∖ N)) (T ∖ N)) as (s1 & Hs1 & Es1).
    { intros x Hx. rewrite <- elem_of_py_set, E1. set_solver. }
    destruct (subset_sublist (ord (P ∩ N)) (T ∩ N)) as (s2 & Hs2 & Es2).
    { intros x Hx. rewrite <- elem_of_py_set, E2. set_solver. }
    eexists. split.
    + apply elem_of_map. exists s1. split; [reflexivity|]. apply elem_of_powerset. split; [done|]. intros _ ->. apply HN.
      change (py_set []) with (∅ : gset Z) in Es1. set_solver.
    + apply elem_of_map. exists s2. split; [|by apply elem_of_subs]. rewrite Es1, Es2. apply set_eq. intros x. destruct (decide (x ∈ N)); set_solver.
Qed.

Lemma NoDup_pats ord P N : set_order ord -> NoDup (pats ord P N).
Proof.
  intros Ho. destruct (ord_NoDup ord (P ∖ N) Ho) as (Hnd1 & E1 & _), (ord_NoDup ord (P ∩ N) Ho) as (Hnd2 & E2 & _).
  assert (H1' : forall s1, s1 `sublist_of` ord (P ∖ N) -> py_set s1 ⊆ P ∖ N).
  { intros s1 H1. rewrite <- E1. apply elem_of_subsets. apply elem_of_map. exists s1. by rewrite elem_of_subs. }
  assert (H2' : forall s2, s2 `sublist_of` ord (P ∩ N) -> py_set s2 ⊆ P ∩ N).
  { intros s2 H2. rewrite <- E2. apply elem_of_subsets. apply elem_of_map. exists s2. by rewrite elem_of_subs. }
  unfold pats. apply NoDup_concat.
  - intros l Hl. apply elem_of_map in Hl as (s1 & -> & H1). apply elem_of_powerset in H1 as [H1 _]. apply NoDup_map_inj; [|by apply NoDup_subs].
    intros a b Ha Hb E. apply elem_of_subs in Ha, Hb. apply (sublist_set_inj (ord (P ∩ N))); try done.
    apply set_eq. intros x. pose proof (H1' _ H1 x) as K1. pose proof (H2' _ Ha x) as K2. pose proof (H2' _ Hb x) as K3.
    assert (x ∈ py_set s1 ∪ py_set a <-> x ∈ py_set s1 ∪ py_set b) as K4 by (by rewrite E).
    clear -K1 K2 K3 K4. rewrite elem_of_difference in K1. rewrite elem_of_intersection in K2, K3. rewrite !elem_of_union in K4. tauto.
  - intros i j l l' T Hi Hj HT HT'. rewrite list_lookup_fmap in Hi, Hj.
    destruct (powerset (ord (P ∖ N)) true !! i) as [a|] eqn:Ea; [|done]. destruct (powerset (ord (P ∖ N)) true !! j) as [b|] eqn:Eb; [|done].
    injection Hi as <-. injection Hj as <-. apply elem_of_map in HT as (a2 & -> & Ha2), HT' as (b2 & E & Hb2).
    pose proof (elem_of_list_lookup_2 _ _ _ Ea) as Ha. pose proof (elem_of_list_lookup_2 _ _ _ Eb) as Hb.
    apply elem_of_powerset in Ha as [Ha _], Hb as [Hb _]. apply elem_of_subs in Ha2, Hb2.
    assert (a = b) as ->.
    { apply (sublist_set_inj (ord (P ∖ N))); try done. apply set_eq. intros x.
      pose proof (H1' _ Ha x) as K1. pose proof (H1' _ Hb x) as K2. pose proof (H2' _ Ha2 x) as K3. pose proof (H2' _ Hb2 x) as K4.
      assert (x ∈ py_set a ∪ py_set a2 <-> x ∈ py_set b ∪ py_set b2) as K5 by (by rewrite E).
      clear -K1 K2 K3 K4 K5. rewrite elem_of_difference in K1, K2. rewrite elem_of_intersection in K3, K4. rewrite !elem_of_union in K5. tauto. }
    pose proof (NoDup_powerset (ord (P ∖ N)) true Hnd1) as Hp. by apply (NoDup_lookup _ _ _ _ Hp Ea).
Qed.

Lemma length_pats ord P N : set_order ord -> zlen (pats ord P N) = ((2 ^ Z.of_nat (size (P ∖ N)) - 1) * 2 ^ Z.of_nat (size (P ∩ N)))%Z.
Proof.
  intros Ho. destruct (ord_NoDup ord (P ∖ N) Ho) as (Hnd1 & _ & L1), (ord_NoDup ord (P ∩ N) Ho) as (Hnd2 & _ & L2).
  unfold pats, zlen.
  assert (H : length (concat (map (fun s1 => map (fun s2 => py_set s1 ∪ py_set s2) (subs (ord (P ∩ N)))) (powerset (ord (P ∖ N)) true)))
     = (length (powerset (ord (P ∖ N)) true) * 2 ^ size (P ∩ N))%nat).
  { induction (powerset (ord (P ∖ N)) true) as [|a l IH]; [done|]. simpl. rewrite app_length, IH, map_length, length_subs, L2. done. }
  rewrite H, Nat2Z.inj_mul, Nat2Z.inj_pow. f_equal. pose proof (powerset_perm_ex _ Hnd1) as Hp. apply Permutation_length in Hp.
  rewrite length_subs, L1 in Hp. cbn [length] in Hp. rewrite <- (Nat2Z.inj_pow 2). lia.
Qed.

Lemma disc_pos (P N : gset Z) : ~ P ⊆ N -> P ∖ N <> ∅.
Proof. intros H E. apply H. intros x Hx. destruct (decide (x ∈ N)); [done|]. assert (x ∈ P ∖ N) by set_solver. set_solver. Qed.

Lemma IZR_pow2 n : IZR (2 ^ Z.of_nat n) = 2 ^ n.
Proof. rewrite <- pow_IZR. done. Qed.

(** the law of the pattern drawn from a pair *)
Lemma pattern_expect ord fuel P N f : set_order ord -> ~ P ⊆ N ->
  hexpect f (bds_pattern fuel ord P N)
    ((1 - (/ 2 ^ size (P ∖ N)) ^ fuel) / IZR (zlen (pats ord P N)) * rsum (map (fun T => f (Ok T)) (pats ord P N)) + (/ 2 ^ size (P ∖ N)) ^ fuel * f (Err OutOfFuel)).
Proof.
  intros Ho HPN. pose proof (disc_pos P N HPN) as Hne. destruct (ord_NoDup ord (P ∩ N) Ho) as (Hnd2 & _ & L2).
  unfold bds_pattern, draw_bernoulli_elementwise.
  set (k := size (P ∩ N)) in *. set (m := size (P ∖ N)) in *.
  apply (hbind _ _ _ (fun o => match o with Ok p1 => rsum (map (fun s => f (Ok (p1 ∪ py_set s))) (subs (ord (P ∩ N)))) / 2 ^ k | Err e => f (Err e) end)).
  - pose proof (bern_loop_expect ord fuel (P ∖ N) (fun o => match o with Ok p1 => rsum (map (fun s => f (Ok (p1 ∪ py_set s))) (subs (ord (P ∩ N)))) / 2 ^ k | Err e => f (Err e) end) Ho Hne) as H.
    fold m in H. replace ((1 - (/ 2 ^ m) ^ fuel) / IZR (zlen (pats ord P N)) * rsum (map (fun T => f (Ok T)) (pats ord P N)))
      with ((1 - (/ 2 ^ m) ^ fuel) / (2 ^ m - 1) * rsum (map (fun s1 => rsum (map (fun s => f (Ok (py_set s1 ∪ py_set s))) (subs (ord (P ∩ N)))) / 2 ^ k) (powerset (ord (P ∖ N)) true))); [exact H|].
    rewrite length_pats by done. fold m k. rewrite mult_IZR, minus_IZR, !IZR_pow2. unfold pats. rewrite rsum_concat. unfold Rdiv.
    rewrite rsum_scal_r.
    rewrite (rsum_map_ext (fun a => rsum (map (fun T => f (Ok T)) (map (fun s2 => py_set a ∪ py_set s2) (subs (ord (P ∩ N))))))
      (fun s1 => rsum (map (fun s => f (Ok (py_set s1 ∪ py_set s))) (subs (ord (P ∩ N)))))) by (intros; by rewrite map_map).
    pose proof (pow_lt 2 k ltac:(lra)). assert (2 <= 2 ^ m).
    { pose proof (size_pos_ne _ Hne) as Hs. fold m in Hs. destruct m as [|m']; [lia|]. simpl. pose proof (pow_R1_Rle 2 m' ltac:(lra)). lra. }
    field. lra.
  - intros p1 _. apply (hbind _ _ _ (fun o => match o with Ok p2 => f (Ok (p1 ∪ p2)) | Err e => f (Err e) end)).
    + pose proof (bern_once_expect (ord (P ∩ N)) ∅ (fun o => match o with Ok p2 => f (Ok (p1 ∪ p2)) | Err e => f (Err e) end)) as H.
      rewrite L2 in H. rewrite (rsum_map_ext _ (fun s => f (Ok (p1 ∪ py_set s)))) in H; [exact H|].
      intros s _. do 2 f_equal. apply set_eq. set_solver.
    + intros p2 _. constructor.
    + done.
  - done.
Qed.

Lemma pattern_can ord fuel P N o : set_order ord -> rcan (bds_pattern fuel ord P N) o -> o = Err OutOfFuel \/ exists T, o = Ok T /\ discriminates P N T.
Proof.
  intros Ho H. destruct (ord_NoDup ord (P ∖ N) Ho) as (Hnd1 & E1 & _), (ord_NoDup ord (P ∩ N) Ho) as (Hnd2 & E2 & _).
  unfold bds_pattern, draw_bernoulli_elementwise in H.
  assert (Hl : forall o, rcan (bernoulli_loop fuel (ord (P ∖ N))) o -> o = Err OutOfFuel \/ exists s, o = Ok (py_set s) /\ s `sublist_of` ord (P ∖ N) /\ s <> []).
  { intros o' Ho'. apply (retry_can (bernoulli_once (ord (P ∖ N)) ∅) (fun n => bernoulli_loop n (ord (P ∖ N)))) in Ho' as [->|[(e & He & ->)|(T & HT & Hn & ->)]]; try done; [by left|..].
    - apply bern_once_can in He as (s & _ & ?). done.
    - apply bern_once_can in HT as (s & Hs & [= ->]). right. exists s. replace (∅ ∪ py_set s) with (py_set s) in * by (apply set_eq; set_solver).
      split_and!; try done. intros ->. done. }
  apply rcan_bind in H as [(p1 & H1 & H)|(e & He & ->)].
  - apply Hl in H1 as [?|(s1 & [= ->] & Hs1 & Hn)]; [done|]. apply rcan_bind in H as [(p2 & H2 & H)|(e & He & ->)].
    + apply bern_once_can in H2 as (s2 & Hs2 & [= ->]). simpl in H. subst o. right. eexists. split; [done|].
      apply (elem_of_pats ord); [done|]. unfold pats. apply elem_of_concat. eexists. split.
      * apply elem_of_map. exists s1. split; [reflexivity|]. apply elem_of_powerset. done.
      * apply elem_of_map. exists s2. split; [|by apply elem_of_subs]. apply set_eq; set_solver.
    + apply bern_once_can in He as (s & _ & ?). done.
  - apply Hl in He as [->|(s & ? & _)]; [by left|done].
Qed.
