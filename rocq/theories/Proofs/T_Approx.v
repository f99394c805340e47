(** Proofs of the property theorems of Properties/P_Approx.v. *)
From Coq Require Import Reals Lra.
From Verif.Model Require Import PyBase PyReal Sparse Utils Rule GreedyBase PyState Greedy.
From Verif.Spec Require Import SMatrix SRule SGreedy SApprox.
Open Scope Z_scope.
From Verif.Proofs Require Import PBase PSparse PUtils PRule PSets PRuleMetric PGreedyBase PRandR T_Rule T_GreedyBase PGreedy T_Greedy.
From Verif.Proofs Require T_Exp.
Open Scope R_scope.

(** ** sums of gains *)
Definition gsum (gain : list scored -> scored -> R) (l : list scored) : R :=
  rsum (imap (fun i s => gain (take i l) s) l).

Lemma gsum_snoc gain l s : gsum gain (l ++ [s]) = gsum gain l + gain l s.
Proof.
  unfold gsum. rewrite imap_app, rsum_app. cbn [imap]. rewrite rsum_cons, Nat.add_0_r.
  rewrite take_app_le, take_ge by lia. cbn [rsum foldr]. f_equal.
  - f_equal. apply imap_ext. intros i x Hi. apply lookup_lt_Some in Hi. by rewrite take_app_le by lia.
  - unfold rsum. cbn. lra.
Qed.

Lemma gsum_nil gain : gsum gain [] = 0.
Proof. done. Qed.

(** ** distances *)
Lemma jaccard_nonneg (A B : gset (Z * Z)) : 0 <= jaccard A B.
Proof.
  destruct (decide (A ∪ B = ∅)) as [E|E]; [|by apply jaccard_range].
  unfold jaccard. replace (A ∩ B) with (∅ : gset (Z * Z)) by set_solver. rewrite size_empty. cbn [INR].
  unfold Rdiv. lra.
Qed.

Lemma jaccard_empty (B : gset (Z * Z)) : jaccard ∅ B = 1.
Proof. unfold jaccard. replace (∅ ∩ B) with (∅ : gset (Z * Z)) by set_solver. rewrite size_empty. cbn [INR]. unfold Rdiv. lra. Qed.

Lemma jaccard_triangle' (A B C : gset (Z * Z)) : jaccard A C <= jaccard A B + jaccard B C.
Proof.
  destruct (decide (A ∪ B = ∅)) as [E|E].
  { assert (A = ∅) as -> by set_solver. rewrite !jaccard_empty. pose proof (jaccard_nonneg B C). lra. }
  destruct (decide (B ∪ C = ∅)) as [E'|E'].
  { assert (C = ∅) as -> by set_solver. rewrite (jaccard_sym A), (jaccard_sym B), !jaccard_empty. pose proof (jaccard_nonneg A B). lra. }
  destruct (decide (A ∪ C = ∅)) as [E''|E''].
  { assert (A = ∅) as -> by set_solver. rewrite !jaccard_empty. pose proof (jaccard_nonneg B C). lra. }
  by apply jaccard_triangle.
Qed.

Lemma pair_diversity_snoc As A : pair_diversity (As ++ [A]) = pair_diversity As + rsum (map (jaccard A) As).
Proof.
  induction As as [|B As IH]; [unfold pair_diversity; cbn; lra|]. cbn [app map]. rewrite !pair_diversity_cons, IH, map_app, rsum_app.
  cbn [map]. rewrite !rsum_cons, (jaccard_sym B A). unfold rsum at 2. cbn [foldr]. lra.
Qed.

Lemma pair_diversity_nonneg As : 0 <= pair_diversity As.
Proof.
  induction As as [|A As IH]; [unfold pair_diversity; cbn; lra|]. rewrite pair_diversity_cons.
  pose proof (rsum_nonneg (jaccard A) As (fun B _ => jaccard_nonneg A B)). lra.
Qed.

(** every point has large total distance to a diverse set *)
Lemma diversity_star As B : pair_diversity As <= (INR (length As) - 1) * rsum (map (fun A => jaccard A B) As).
Proof.
  induction As as [|A As IH]; [unfold pair_diversity; cbn; lra|]. rewrite pair_diversity_cons. cbn [map length]. rewrite S_INR, rsum_cons.
  assert (rsum (map (jaccard A) As) <= INR (length As) * jaccard A B + rsum (map (fun A => jaccard A B) As)) as H.
  { clear. induction As as [|C As IH]; [cbn; lra|]. cbn [map length]. rewrite !rsum_cons, S_INR.
    pose proof (jaccard_triangle' A B C). rewrite (jaccard_sym B C) in H. lra. }
  lra.
Qed.

(** ** the value of a list is the sum of its gains *)
Definition dgain (h : R -> R) (lambd : R) (sel : list scored) (s : scored) : R :=
  h (fresh s.1 (map fst sel)) * s.2 + lambd * rsum (map (jaccard s.1) (map fst sel)).
Definition qgain (h : R -> R) (sel : list scored) (s : scored) : R := h (fresh s.1 (map fst sel)) * s.2.

Lemma quality_gsum h l : quality_sum h l = gsum (qgain h) l.
Proof. done. Qed.

Lemma value_gsum h lambd l : value h lambd l = gsum (dgain h lambd) l.
Proof.
  unfold value, diversity. rewrite quality_gsum. induction l as [|s l IH] using rev_ind.
  - unfold gsum, pair_diversity. cbn. lra.
  - rewrite !gsum_snoc, <- IH, map_app. cbn [map]. rewrite pair_diversity_snoc. unfold qgain, dgain. lra.
Qed.

Definition sgain (lambd : R) (sel : list scored) (s : scored) : R :=
  (if decide (s.1 ⊆ all_cells (map fst sel)) then 0 else s.2) + lambd * fresh s.1 (map fst sel).

Lemma all_cells_snoc As A : all_cells (As ++ [A]) = all_cells As ∪ A.
Proof. unfold all_cells. rewrite union_list_app_L. cbn. set_solver. Qed.

Lemma coverage_snoc l s : coverage (l ++ [s]) = coverage l + fresh s.1 (map fst l).
Proof.
  unfold coverage, fresh. rewrite map_app, <- plus_INR. cbn [fst map]. rewrite all_cells_snoc. f_equal.
  rewrite size_union_alt. done.
Qed.

Lemma submod_gsum lambd l : submod_value lambd l = gsum (sgain lambd) l.
Proof.
  unfold submod_value.
  change (rsum (imap _ l)) with (gsum (fun sel s => if decide (s.1 ⊆ all_cells (map fst sel)) then 0 else s.2) l).
  induction l as [|s l IH] using rev_ind.
  - unfold gsum, coverage. cbn. rewrite size_empty. cbn. lra.
  - rewrite !gsum_snoc, <- IH, coverage_snoc. unfold sgain. lra.
Qed.

(** ** greedy traces *)
Definition greedy (gain : list scored -> scored -> R) (opt picks : list scored) : Prop :=
  forall i s, picks !! i = Some s -> forall o, o ∈ opt -> gain (take i picks) o <= gain (take i picks) s.

Lemma greedy_snoc gain opt l s : greedy gain opt (l ++ [s]) <-> greedy gain opt l /\ forall o, o ∈ opt -> gain l o <= gain l s.
Proof.
  unfold greedy. split.
  - intros H. split.
    + intros i t Hi. specialize (H i t). rewrite lookup_app_l in H by (by eapply lookup_lt_Some). specialize (H Hi).
      rewrite take_app_le in H by (apply lookup_lt_Some in Hi; lia). done.
    + specialize (H (length l) s). rewrite lookup_app_r, Nat.sub_diag, take_app in H by done. by apply H.
  - intros [H H'] i t Hi. apply lookup_app_Some in Hi as [Hi|[Hle Hi]].
    + rewrite take_app_le by (apply lookup_lt_Some in Hi; lia). by apply H.
    + destruct (i - length l)%nat eqn:E; [|done]. injection Hi as <-. assert (i = length l) as -> by lia. by rewrite take_app.
Qed.

Lemma sum_le_max {A} (f : A -> R) (l : list A) (m : R) : (forall x, x ∈ l -> f x <= m) -> rsum (map f l) <= INR (length l) * m.
Proof.
  induction l as [|x l IH]; intros H; [cbn; lra|]. cbn [map length]. rewrite rsum_cons, S_INR.
  pose proof (H x ltac:(left)). pose proof (IH (fun y Hy => H y (elem_of_list_further _ _ _ Hy))). lra.
Qed.

(** fresh cells shrink as more is selected *)
Lemma fresh_anti (A : gset (Z * Z)) (As Bs : list (gset (Z * Z))) : all_cells As ⊆ all_cells Bs -> fresh A Bs <= fresh A As.
Proof. intros H. unfold fresh. apply le_INR, subseteq_size. set_solver. Qed.

Lemma fresh_nonneg A As : 0 <= fresh A As.
Proof. apply pos_INR. Qed.

Lemma all_cells_take (i : nat) (l : list scored) : all_cells (map fst (take i l)) ⊆ all_cells (map fst l).
Proof.
  rewrite <- (take_drop i l) at 2. rewrite map_app. unfold all_cells. rewrite union_list_app_L. set_solver.
Qed.

(** the averaging argument: [C] bounds the total quality gain of [opt] at every step, [delta] its distance to any rule *)
Lemma greedy_average h lambd opt picks (C delta : R) : 0 <= lambd ->
  greedy (dgain h lambd) opt picks ->
  (forall i, (i < length picks)%nat -> C <= rsum (map (qgain h (take i picks)) opt)) ->
  (forall B, delta <= rsum (map (fun o : scored => jaccard o.1 B) opt)) ->
  INR (length picks) * C + lambd * (INR (length picks) * (INR (length picks) - 1) / 2) * delta
    <= INR (length opt) * gsum (dgain h lambd) picks.
Proof.
  intros Hl Hg HC Hd. induction picks as [|s l IH] using rev_ind; [rewrite gsum_nil; cbn; lra|].
  apply greedy_snoc in Hg as [Hg Hs]. rewrite gsum_snoc, app_length. cbn [length]. rewrite Nat.add_1_r, S_INR.
  assert (C <= rsum (map (qgain h l) opt)) as HCl.
  { specialize (HC (length l)). rewrite take_app in HC. apply HC. rewrite app_length. cbn. lia. }
  specialize (IH Hg). feed specialize IH.
  { intros i Hi. specialize (HC i). rewrite take_app_le in HC by lia. apply HC. rewrite app_length. lia. }
  pose proof (sum_le_max (dgain h lambd l) opt _ Hs) as Hm.
  assert (rsum (map (dgain h lambd l) opt) = rsum (map (qgain h l) opt)
            + lambd * rsum (map (fun o : scored => rsum (map (jaccard o.1) (map fst l))) opt)) as E.
  { rewrite <- rsum_scal, <- rsum_plus. done. }
  assert (INR (length l) * delta <= rsum (map (fun o : scored => rsum (map (jaccard o.1) (map fst l))) opt)) as Hdl.
  { rewrite (rsum_swap (fun (o : scored) B => jaccard o.1 B)). clear - Hd. induction l as [|s l IHl]; [cbn; lra|].
    cbn [length map]. rewrite S_INR, rsum_cons. specialize (Hd s.1). lra. }
  assert (lambd * (INR (length l) * delta) <= lambd * rsum (map (fun o : scored => rsum (map (jaccard o.1) (map fst l))) opt))
    by (by apply Rmult_le_compat_l).
  nra.
Qed.

Definition mono (h : R -> R) : Prop := (forall x, 0 <= x -> 0 <= h x) /\ forall x y, 0 <= x -> x <= y -> h x <= h y.

Lemma mono_id : mono (fun x => x).
Proof. split; auto. Qed.
Lemma mono_sqrt : mono R_sqrt.sqrt.
Proof. split; intros; [apply R_sqrt.sqrt_pos|by apply R_sqrt.sqrt_le_1_alt]. Qed.

Lemma qgain_nonneg h sel s : mono h -> 0 <= s.2 -> 0 <= qgain h sel s.
Proof. intros [H _] Hs. apply Rmult_le_pos; [|done]. apply H, fresh_nonneg. Qed.
Lemma dgain_nonneg h lambd sel s : mono h -> 0 <= lambd -> 0 <= s.2 -> 0 <= dgain h lambd sel s.
Proof.
  intros Hm Hl Hs. unfold dgain. pose proof (qgain_nonneg h sel s Hm Hs). unfold qgain in *.
  pose proof (rsum_nonneg (jaccard s.1) (map fst sel) (fun B _ => jaccard_nonneg s.1 B)). nra.
Qed.

Lemma gsum_nonneg gain l : (forall sel s, s ∈ l -> 0 <= gain sel s) -> 0 <= gsum gain l.
Proof.
  induction l as [|s l IH] using rev_ind; intros H; [rewrite gsum_nil; lra|]. rewrite gsum_snoc.
  pose proof (H l s ltac:(set_solver)). assert (0 <= gsum gain l) by (apply IH; intros; apply H; set_solver). lra.
Qed.

(** a first pick is worth at least as much as any single rule *)
Lemma gsum_first gain opt picks : (forall sel s, s ∈ picks -> 0 <= gain sel s) -> greedy gain opt picks -> picks <> [] ->
  forall o, o ∈ opt -> gain [] o <= gsum gain picks.
Proof.
  induction picks as [|s l IH] using rev_ind; intros Hn Hg Hne o Ho; [done|].
  apply greedy_snoc in Hg as [Hg Hs]. rewrite gsum_snoc.
  destruct l as [|t l]; [rewrite gsum_nil; specialize (Hs o Ho); lra|].
  pose proof (IH (fun sel s' Hs' => Hn sel s' ltac:(set_solver)) Hg ltac:(done) o Ho) as H1.
  pose proof (Hn (t :: l) s ltac:(set_solver)). lra.
Qed.

Lemma gsum_le_first gain l : (forall i s, l !! i = Some s -> gain (take i l) s <= gain [] s) -> gsum gain l <= rsum (map (gain []) l).
Proof.
  induction l as [|s l IH] using rev_ind; intros H; [rewrite gsum_nil; cbn; lra|].
  rewrite gsum_snoc, map_app, rsum_app. cbn [map]. rewrite rsum_cons.
  pose proof (H (length l) s) as H1. rewrite lookup_app_r, Nat.sub_diag, take_app in H1 by done. specialize (H1 eq_refl).
  assert (gsum gain l <= rsum (map (gain []) l)).
  { apply IH. intros i t Hi. specialize (H i t). rewrite lookup_app_l in H by (by eapply lookup_lt_Some).
    specialize (H Hi). rewrite take_app_le in H by (apply lookup_lt_Some in Hi; lia). done. }
  unfold rsum at 2. cbn [foldr]. lra.
Qed.

Lemma qgain_first h sel s : mono h -> 0 <= s.2 -> qgain h sel s <= qgain h [] s.
Proof.
  intros [_ Hm] Hs. unfold qgain. apply Rmult_le_compat_r; [done|]. apply Hm; [apply fresh_nonneg|].
  apply fresh_anti. unfold all_cells. cbn. set_solver.
Qed.

(** the three bounds *)
Lemma bound_quality h lambd opt picks : mono h -> 0 <= lambd -> length opt = length picks ->
  (forall s, s ∈ picks ++ opt -> 0 <= s.2) -> greedy (dgain h lambd) opt picks ->
  quality_sum h opt <= INR (length picks) * value h lambd picks.
Proof.
  intros Hh Hl Hlen Hk Hg. rewrite value_gsum, quality_gsum. destruct picks as [|p picks].
  { destruct opt; [|done]. rewrite !gsum_nil. lra. }
  eapply Rle_trans; [apply gsum_le_first|].
  - intros i s Hi. apply qgain_first; [done|]. apply Hk, elem_of_app. right. by eapply elem_of_list_lookup_2.
  - rewrite <- Hlen. apply sum_le_max. intros o Ho.
    assert (qgain h [] o = dgain h lambd [] o) as ->.
    { unfold dgain, qgain. cbn [map]. unfold rsum. cbn [foldr]. lra. }
    apply (gsum_first _ opt); try done. intros sel s Hs. apply dgain_nonneg; [done|done|]. apply Hk. set_solver.
Qed.

Lemma diversity_star' (opt : list scored) B : diversity opt <= (INR (length opt) - 1) * rsum (map (fun o : scored => jaccard o.1 B) opt).
Proof.
  unfold diversity. eapply Rle_trans; [apply (diversity_star _ B)|]. rewrite map_length, map_map. lra.
Qed.

Lemma bound_average h lambd opt picks C : 0 <= lambd -> length opt = length picks -> picks <> [] ->
  greedy (dgain h lambd) opt picks ->
  (forall i, (i < length picks)%nat -> C <= rsum (map (qgain h (take i picks)) opt)) ->
  C + lambd / 2 * diversity opt <= value h lambd picks.
Proof.
  intros Hl Hlen Hne Hg HC. rewrite value_gsum. set (n := INR (length picks)).
  assert (1 <= n) as Hn.
  { unfold n. change 1 with (INR 1). apply le_INR. destruct picks; [done|]. cbn. lia. }
  destruct (Req_dec n 1) as [E1|E1].
  - pose proof (greedy_average h lambd opt picks C 0 Hl Hg HC) as H. feed specialize H.
    { intros B. apply rsum_nonneg. intros; apply jaccard_nonneg. }
    rewrite Hlen in H. fold n in H. rewrite E1 in H.
    pose proof (diversity_star' opt ∅) as Hd. rewrite Hlen in Hd. fold n in Hd. rewrite E1 in Hd.
    pose proof (pair_diversity_nonneg (map fst opt)). fold (diversity opt) in *. assert (diversity opt = 0) as -> by lra. lra.
  - assert (1 < n) as Hn1 by lra.
    pose proof (greedy_average h lambd opt picks C (diversity opt / (n - 1)) Hl Hg HC) as H. feed specialize H.
    { intros B. pose proof (diversity_star' opt B) as Hd. rewrite Hlen in Hd. fold n in Hd.
      apply (Rmult_le_reg_l (n - 1)); [lra|]. replace ((n - 1) * (diversity opt / (n - 1))) with (diversity opt) by (field; lra). done. }
    rewrite Hlen in H. fold n in H.
    replace (lambd * (n * (n - 1) / 2) * (diversity opt / (n - 1))) with (n * (lambd / 2 * diversity opt)) in H by (field; lra).
    apply (Rmult_le_reg_l n); [lra|]. lra.
Qed.

Lemma bound_diversity h lambd opt picks : mono h -> 0 <= lambd -> length opt = length picks ->
  (forall s, s ∈ picks ++ opt -> 0 <= s.2) -> greedy (dgain h lambd) opt picks ->
  lambd * diversity opt <= 2 * value h lambd picks.
Proof.
  intros Hh Hl Hlen Hk Hg. destruct picks as [|p picks].
  { destruct opt; [|done]. unfold value, diversity, pair_diversity, quality_sum. cbn. lra. }
  pose proof (bound_average h lambd opt (p :: picks) 0 Hl Hlen ltac:(done) Hg) as H. feed specialize H; [|lra].
  intros i Hi. apply rsum_nonneg. intros o Ho. apply qgain_nonneg; [done|]. apply Hk. set_solver.
Qed.

(** quality of [opt] inside and outside the cells U *)
Lemma quality_split (U : gset (Z * Z)) M opt : (forall o, o ∈ opt -> 0 <= o.2 <= M) -> 0 <= M ->
  quality_sum (fun x => x) opt + M * INR (size (U ∖ all_cells (map fst opt)))
    <= rsum (map (fun o : scored => INR (size (o.1 ∖ U)) * o.2) opt) + M * INR (size U).
Proof.
  intros Hk HM. rewrite quality_gsum. induction opt as [|o opt IH] using rev_ind.
  - rewrite gsum_nil. cbn [map]. unfold rsum, all_cells. cbn. rewrite difference_empty_L. lra.
  - rewrite gsum_snoc, !map_app, rsum_app. cbn [map]. rewrite all_cells_snoc, rsum_cons. unfold rsum at 2. cbn [foldr].
    specialize (IH (fun x Hx => Hk x ltac:(set_solver))). specialize (Hk o ltac:(set_solver)).
    set (V := all_cells (map fst opt)) in *. unfold qgain at 2, fresh at 1. fold V. cbv beta.
    assert (size (U ∖ V) = size (U ∖ (V ∪ o.1)) + size ((U ∩ o.1) ∖ V))%nat as E1.
    { rewrite <- size_union by set_solver. f_equal. apply set_eq. intros x.
      rewrite elem_of_union, !elem_of_difference, elem_of_union, elem_of_intersection.
      destruct (decide (x ∈ o.1)); tauto. }
    assert (size (o.1 ∖ V) <= size (o.1 ∖ U) + size ((U ∩ o.1) ∖ V))%nat as E2.
    { etrans; [|apply Nat.eq_le_incl, size_union; set_solver]. apply subseteq_size. intros x.
      rewrite elem_of_union, !elem_of_difference, elem_of_intersection. destruct (decide (x ∈ U)); tauto. }
    apply le_INR in E2. rewrite plus_INR in E2. rewrite E1, plus_INR in IH.
    pose proof (pos_INR (size ((U ∩ o.1) ∖ V))).
    assert (INR (size (o.1 ∖ V)) * o.2 <= (INR (size (o.1 ∖ U)) + INR (size ((U ∩ o.1) ∖ V))) * o.2) by (apply Rmult_le_compat_r; lra).
    assert (INR (size ((U ∩ o.1) ∖ V)) * o.2 <= INR (size ((U ∩ o.1) ∖ V)) * M) by (apply Rmult_le_compat_l; lra). lra.
Qed.

Lemma quality_of_cover M rho picks : (forall s, s ∈ picks -> M <= rho * s.2) ->
  M * coverage picks <= rho * quality_sum (fun x => x) picks.
Proof.
  intros Hk. rewrite quality_gsum. induction picks as [|s l IH] using rev_ind.
  - rewrite gsum_nil. unfold coverage. cbn. rewrite size_empty. cbn. lra.
  - rewrite gsum_snoc, coverage_snoc. specialize (IH (fun x Hx => Hk x ltac:(set_solver))). specialize (Hk s ltac:(set_solver)).
    unfold qgain at 2. cbv beta. pose proof (fresh_nonneg s.1 (map fst l)).
    assert (fresh s.1 (map fst l) * M <= fresh s.1 (map fst l) * (rho * s.2)) by (by apply Rmult_le_compat_l). lra.
Qed.

Lemma bound_ratio lambd opt picks rho : 0 <= lambd -> 0 <= rho -> length opt = length picks ->
  (forall s, s ∈ picks ++ opt -> 0 <= s.2) -> greedy (dgain (fun x => x) lambd) opt picks ->
  (forall s o, s ∈ picks -> o ∈ opt -> o.2 <= rho * s.2) ->
  quality_sum (fun x => x) opt + lambd / 2 * diversity opt
    <= (1 + rho) * quality_sum (fun x => x) picks + lambd * diversity picks.
Proof.
  intros Hl Hr Hlen Hk Hg Hrat. destruct picks as [|p picks].
  { destruct opt; [|done]. unfold diversity, pair_diversity, quality_sum. cbn. lra. }
  set (l := p :: picks) in *. set (U := all_cells (map fst l)).
  set (M := foldr Rmax 0 (map snd opt)).
  assert (0 <= M) as HM by (unfold M; clear; induction (map snd opt); cbn; [lra|]; eapply Rle_trans; [done|apply Rmax_r]).
  assert (forall o, o ∈ opt -> o.2 <= M) as HoM.
  { unfold M. clear. induction opt as [|x opt IH]; intros o Ho; [inversion Ho|]. cbn. apply elem_of_cons in Ho as [->|Ho]; [apply Rmax_l|].
    eapply Rle_trans; [by apply IH|apply Rmax_r]. }
  assert (forall s, s ∈ l -> M <= rho * s.2) as HMs.
  { intros s Hs. unfold M. assert (forall o, o ∈ opt -> o.2 <= rho * s.2) as H by (intros; by apply Hrat).
    assert (0 <= rho * s.2) as H0 by (apply Rmult_le_pos; [done|]; apply Hk; set_solver).
    clear - H H0. induction opt as [|x opt IH]; cbn; [done|]. apply Rmax_lub; [apply H; left|apply IH; intros; apply H; by right]. }
  pose proof (bound_average (fun x => x) lambd opt l (rsum (map (fun o : scored => INR (size (o.1 ∖ U)) * o.2) opt)) Hl Hlen ltac:(done) Hg) as H1.
  feed specialize H1.
  { intros i _. apply rsum_le. intros o Ho. unfold qgain. apply Rmult_le_compat_r; [apply Hk; set_solver|].
    unfold fresh. apply le_INR, subseteq_size. pose proof (all_cells_take i l). unfold U. set_solver. }
  pose proof (quality_split U M opt) as H2. feed specialize H2; [intros o Ho; split; [apply Hk; set_solver|by apply HoM]|done|].
  pose proof (quality_of_cover M rho l HMs) as H3. unfold coverage in H3. fold U in H3.
  assert (0 <= M * INR (size (U ∖ all_cells (map fst opt)))) by (apply Rmult_le_pos; [done|apply pos_INR]).
  unfold value in H1. lra.
Qed.

(** ** the factor 1 - (1 - 1/k)^k *)
Lemma greedy_exp gain opt picks c : opt <> [] -> greedy gain opt picks ->
  (forall i, (i < length picks)%nat -> c - gsum gain (take i picks) <= rsum (map (gain (take i picks)) opt)) ->
  c - gsum gain picks <= (1 - / INR (length opt)) ^ length picks * c.
Proof.
  intros Hne Hg Hc. set (n := INR (length opt)).
  assert (1 <= n) as Hn. { unfold n. change 1 with (INR 1). apply le_INR. destruct opt; [done|]. cbn. lia. }
  assert (0 < / n) as Hi0 by (apply Rinv_0_lt_compat; lra).
  assert (/ n <= 1) as Hi. { rewrite <- Rinv_1. apply Rinv_le_contravar; lra. }
  assert (n * / n = 1) as En by (apply Rinv_r; lra).
  induction picks as [|s l IH] using rev_ind; [rewrite gsum_nil; cbn [length pow]; lra|].
  apply greedy_snoc in Hg as [Hg Hs]. rewrite gsum_snoc, app_length, Nat.add_comm. cbn [length Nat.add]. rewrite <- tech_pow_Rmult.
  specialize (IH Hg). feed specialize IH.
  { intros i Hil. specialize (Hc i). rewrite take_app_le in Hc by lia. apply Hc. rewrite app_length. lia. }
  specialize (Hc (length l)). rewrite take_app, app_length in Hc. specialize (Hc ltac:(cbn; lia)).
  pose proof (sum_le_max (gain l) opt _ Hs) as Hm. fold n in Hm.
  assert (/ n * (c - gsum gain l) <= gain l s) as Hstep.
  { apply (Rmult_le_reg_l n); [lra|]. rewrite <- Rmult_assoc, En. lra. }
  assert ((1 - / n) * (c - gsum gain l) <= (1 - / n) * ((1 - / n) ^ length l * c)) by (apply Rmult_le_compat_l; lra).
  lra.
Qed.

Lemma coverage_union (opt : list scored) (U : gset (Z * Z)) :
  INR (size (all_cells (map fst opt))) - INR (size U) <= rsum (map (fun o : scored => INR (size (o.1 ∖ U))) opt).
Proof.
  enough (INR (size (all_cells (map fst opt) ∖ U)) <= rsum (map (fun o : scored => INR (size (o.1 ∖ U))) opt)) as H.
  { assert (size (all_cells (map fst opt)) <= size U + size (all_cells (map fst opt) ∖ U))%nat as E.
    { etrans; [|apply Nat.eq_le_incl, size_union; set_solver]. apply subseteq_size. intros x Hx.
      destruct (decide (x ∈ U)); set_solver. }
    apply le_INR in E. rewrite plus_INR in E. lra. }
  induction opt as [|o opt IH].
  - cbn [map]. unfold all_cells. assert (size ((⋃ ([] : list (gset (Z * Z)))) ∖ U) = 0%nat) as ->; [|cbn; lra]. apply size_0_iff. cbn. set_solver.
  - cbn [map]. rewrite rsum_cons. change (all_cells (o.1 :: map fst opt)) with (o.1 ∪ all_cells (map fst opt)).
    assert (size ((o.1 ∪ all_cells (map fst opt)) ∖ U) <= size (o.1 ∖ U) + size (all_cells (map fst opt) ∖ U))%nat as E.
    { rewrite difference_union_distr_l_L. rewrite size_union_alt. apply Nat.add_le_mono_l, subseteq_size. set_solver. }
    apply le_INR in E. rewrite plus_INR in E. lra.
Qed.

Lemma gsum_prefix gain l i : (forall sel s, s ∈ l -> 0 <= gain sel s) -> 0 <= gsum gain (take i l).
Proof. intros H. apply gsum_nonneg. intros sel s Hs. apply H. by apply elem_of_take in Hs as (? & ? & _); eapply elem_of_list_lookup_2. Qed.

(** all rules of [opt] at most as good as the picks, cell by cell *)
Lemma bound_exp lambd opt picks : 0 <= lambd -> length opt = length picks ->
  (forall s, s ∈ picks ++ opt -> 0 <= s.2) -> greedy (dgain (fun x => x) lambd) opt picks ->
  (forall s o, s ∈ picks -> o ∈ opt -> o.2 <= s.2) ->
  (1 - (1 - / INR (length picks)) ^ length picks) * quality_sum (fun x => x) opt <= value (fun x => x) lambd picks.
Proof.
  intros Hl Hlen Hk Hg Hrat. destruct (decide (opt = [])) as [->|Hne].
  { destruct picks; [|done]. unfold value, quality_sum, diversity, pair_diversity. cbn. lra. }
  rewrite value_gsum. set (F := quality_sum (fun x => x) opt).
  enough (F - gsum (dgain (fun x => x) lambd) picks <= (1 - / INR (length opt)) ^ length picks * F) as H by (rewrite Hlen in H; lra).
  apply greedy_exp; [done|done|]. intros i Hi.
  set (M := foldr Rmax 0 (map snd opt)).
  assert (0 <= M) as HM by (unfold M; clear; induction (map snd opt); cbn; [lra|]; eapply Rle_trans; [done|apply Rmax_r]).
  assert (forall o, o ∈ opt -> o.2 <= M) as HoM.
  { unfold M. clear. induction opt as [|x opt IH]; intros o Ho; [inversion Ho|]. cbn. apply elem_of_cons in Ho as [->|Ho]; [apply Rmax_l|].
    eapply Rle_trans; [by apply IH|apply Rmax_r]. }
  assert (forall s, s ∈ picks -> M <= 1 * s.2) as HMs.
  { intros s Hs. unfold M. assert (forall o, o ∈ opt -> o.2 <= s.2) as H by (intros; by apply Hrat).
    assert (0 <= s.2) as H0 by (apply Hk; set_solver). rewrite Rmult_1_l.
    clear - H H0. induction opt as [|x opt IH]; cbn; [done|]. apply Rmax_lub; [apply H; left|apply IH; intros; apply H; by right]. }
  assert (forall s, s ∈ take i picks -> s ∈ picks) as Hin.
  { intros s Hs. apply elem_of_take in Hs as (? & ? & _). by eapply elem_of_list_lookup_2. }
  pose proof (quality_split (all_cells (map fst (take i picks))) M opt) as H2.
  feed specialize H2; [intros o Ho; split; [apply Hk; set_solver|by apply HoM]|done|].
  pose proof (quality_of_cover M 1 (take i picks) (fun s Hs => HMs s (Hin s Hs))) as H3. unfold coverage in H3.
  assert (0 <= M * INR (size (all_cells (map fst (take i picks)) ∖ all_cells (map fst opt)))) by (apply Rmult_le_pos; [done|apply pos_INR]).
  assert (quality_sum (fun x => x) (take i picks) <= gsum (dgain (fun x => x) lambd) (take i picks)) as H4.
  { rewrite <- value_gsum. unfold value. pose proof (pair_diversity_nonneg (map fst (take i picks))) as Hp. fold (diversity (take i picks)) in Hp. nra. }
  assert (rsum (map (fun o : scored => INR (size (o.1 ∖ all_cells (map fst (take i picks)))) * o.2) opt)
            <= rsum (map (dgain (fun x => x) lambd (take i picks)) opt)) as H5.
  { apply rsum_le. intros o Ho. unfold dgain, fresh.
    pose proof (rsum_nonneg (jaccard o.1) (map fst (take i picks)) (fun B _ => jaccard_nonneg o.1 B)). nra. }
  fold F in H2. lra.
Qed.

(** GreedySubmod *)
Lemma sgain_nonneg lambd sel s : 0 <= lambd -> 0 <= s.2 -> 0 <= sgain lambd sel s.
Proof. intros Hl Hs. unfold sgain. pose proof (fresh_nonneg s.1 (map fst sel)). destruct (decide _); nra. Qed.

Lemma sgain_first lambd sel s : 0 <= lambd -> 0 <= s.2 -> sgain lambd sel s <= sgain lambd [] s.
Proof.
  intros Hl Hs. unfold sgain. pose proof (fresh_anti s.1 [] (map fst sel)) as H. feed specialize H.
  { unfold all_cells. cbn. set_solver. }
  assert (lambd * fresh s.1 (map fst sel) <= lambd * fresh s.1 []) by (by apply Rmult_le_compat_l). cbn [map].
  destruct (decide (s.1 ⊆ all_cells (map fst sel))), (decide (s.1 ⊆ all_cells [])) as [Hs0|]; try lra.
  exfalso. apply n. unfold all_cells in Hs0. cbn in Hs0. set_solver.
Qed.

Lemma bound_submod lambd opt picks : 0 <= lambd -> length opt = length picks ->
  (forall s, s ∈ picks ++ opt -> 0 <= s.2) -> greedy (sgain lambd) opt picks ->
  submod_value lambd opt <= INR (length picks) * submod_value lambd picks.
Proof.
  intros Hl Hlen Hk Hg. rewrite !submod_gsum. destruct picks as [|p picks].
  { destruct opt; [|done]. rewrite !gsum_nil. lra. }
  eapply Rle_trans; [apply gsum_le_first|].
  - intros i s Hi. apply sgain_first; [done|]. apply Hk, elem_of_app. right. by eapply elem_of_list_lookup_2.
  - rewrite <- Hlen. apply sum_le_max. intros o Ho.
    apply (gsum_first _ opt); try done. intros sel s Hs. apply sgain_nonneg; [done|]. apply Hk. set_solver.
Qed.

Lemma bound_submod_exp lambd opt picks : 0 <= lambd -> length opt = length picks ->
  (forall s, s ∈ picks ++ opt -> 0 <= s.2) -> greedy (sgain lambd) opt picks ->
  (1 - (1 - / INR (length picks)) ^ length picks) * (lambd * coverage opt) <= submod_value lambd picks.
Proof.
  intros Hl Hlen Hk Hg. destruct (decide (opt = [])) as [->|Hne].
  { destruct picks; [|done]. unfold submod_value, coverage. cbn. rewrite size_empty. cbn. lra. }
  rewrite submod_gsum.
  enough (lambd * coverage opt - gsum (sgain lambd) picks <= (1 - / INR (length opt)) ^ length picks * (lambd * coverage opt)) as H by (rewrite Hlen in H; lra).
  apply greedy_exp; [done|done|]. intros i Hi.
  assert (forall s, s ∈ take i picks -> s ∈ picks) as Hin.
  { intros s Hs. apply elem_of_take in Hs as (? & ? & _). by eapply elem_of_list_lookup_2. }
  assert (lambd * coverage (take i picks) <= gsum (sgain lambd) (take i picks)) as H1.
  { rewrite <- submod_gsum. unfold submod_value.
    change (rsum (imap _ (take i picks))) with (gsum (fun sel s => if decide (s.1 ⊆ all_cells (map fst sel)) then 0 else s.2) (take i picks)).
    pose proof (gsum_nonneg (fun sel s => if decide (s.1 ⊆ all_cells (map fst sel)) then 0 else s.2) (take i picks)) as H. feed specialize H; [|lra].
    intros sel s Hs. cbv beta. destruct (decide _); [lra|]. apply Hk. specialize (Hin s Hs). set_solver. }
  pose proof (coverage_union opt (all_cells (map fst (take i picks)))) as H2.
  assert (lambd * rsum (map (fun o : scored => INR (size (o.1 ∖ all_cells (map fst (take i picks))))) opt)
            <= rsum (map (sgain lambd (take i picks)) opt)) as H3.
  { rewrite <- rsum_scal. apply rsum_le. intros o Ho. unfold sgain, fresh. specialize (Hk o ltac:(set_solver)). destruct (decide _); lra. }
  unfold coverage in *. nra.
Qed.

Definition cgain (cls : greedy_class) (lambd : R) : list scored -> scored -> R :=
  match cls with Submod => sgain lambd | DivMaxV3 => dgain R_sqrt.sqrt lambd | _ => dgain (fun x => x) lambd end.

Lemma greedy_near_optimal cls lambd picks opt : 0 <= lambd -> length opt = length picks ->
  (forall s, s ∈ picks ++ opt -> 0 <= s.2) -> greedy (cgain cls lambd) opt picks -> near_optimal cls lambd picks opt.
Proof.
  intros Hl Hlen Hk Hg.
  assert (H1 : forall h, mono h -> greedy (dgain h lambd) opt picks ->
    quality_sum h opt <= INR (length picks) * value h lambd picks /\ lambd * diversity opt <= 2 * value h lambd picks)
    by (intros h Hm Hgh; split; [by apply bound_quality|by apply bound_diversity]).
  destruct cls; cbn [near_optimal cgain] in *.
  - split; [by apply H1, Hg; apply mono_id|]. split; [intros rho Hr Hrat; by apply bound_ratio|intros Hrat; by apply bound_exp].
  - split; [by apply H1, Hg; apply mono_id|]. split; [intros rho Hr Hrat; by apply bound_ratio|intros Hrat; by apply bound_exp].
  - apply H1, Hg. apply mono_sqrt.
  - split; [by apply bound_submod|by apply bound_submod_exp].
Qed.

(** ** the objective of the code is the gain *)
Lemma scores_covers ord b s : scores ord b s -> covers_somewhere ord b s.1.
Proof. intros (X & Y & h & t & H & T & Hd & Hnd & Hp & Hb & HA & _). exists X, Y. split; [done|]. exists h, t. done. Qed.

Lemma Forall2_scores_covers ord bs ss : Forall2 (scores ord) bs ss -> Forall2 (covers_somewhere ord) bs (map fst ss).
Proof. induction 1 as [|b s bs ss H _ IH]; cbn; constructor; [by apply scores_covers|done]. Qed.

Lemma scores_objective ord b s cls lambd sel ss v : set_order ord -> scores ord b s -> Forall2 (scores ord) sel ss ->
  objective_of_rule cls lambd sel b = Ok v -> v = cgain cls lambd ss s.
Proof.
  intros Hord (X & Y & h & t & H & T & Hd & Hnd & Hp & Hb & HA & HH & HT & E) HF Ho. apply Forall2_scores_covers in HF.
  destruct (C48_objectives_proof ord X Y h t b s.1 H T sel (map fst ss) lambd Hord Hd Hp Hnd Hb HA HH HT HF) as (_ & O1 & O2 & O3).
  rewrite <- E in O1, O2. assert (cls = Submod \/ cls <> Submod) as [->|Hc] by (destruct cls; auto).
  { rewrite O1 in Ho. by injection Ho as <-. }
  destruct (decide (Forall (fun B => s.1 ∪ B <> ∅) (map fst ss))) as [Hf|Hf].
  - destruct (O2 (fun B HB => proj1 (list.Forall_forall _ _) Hf B HB)) as (E1 & E2 & E3).
    destruct cls; [rewrite E1 in Ho|rewrite E2 in Ho|rewrite E3 in Ho|done]; by injection Ho as <-.
  - apply not_Forall_Exists, list.Exists_exists in Hf as (B & HB & Hn); [|apply _].
    assert (s.1 ∪ B = ∅) as He by (destruct (decide (s.1 ∪ B = ∅)); [done|exfalso; by apply Hn]).
    rewrite (O3 B cls HB He Hc) in Ho. done.
Qed.

Lemma scores_nonneg ord b s : set_order ord -> scores ord b s -> 0 <= s.2.
Proof.
  intros Hord (X & Y & h & t & H & T & Hd & Hnd & Hp & Hb & HA & HH & HT & E).
  destruct (C48_objectives_proof ord X Y h t b s.1 H T [] [] 0 Hord Hd Hp Hnd Hb HA HH HT) as (Hk & _); [constructor|].
  by rewrite E.
Qed.

Lemma select_greedy ord cls lambd sel order b o ss bs os : set_order ord ->
  select_best_candidate cls lambd (map Bound sel) order = Ok b -> o ∈ order ->
  Forall2 (scores ord) sel ss -> scores ord b bs -> scores ord o os -> cgain cls lambd ss os <= cgain cls lambd ss bs.
Proof.
  intros Hord Hsel Ho HF Hb Hos. unfold select_best_candidate in Hsel. rewrite bounds_map in Hsel. cbn [rbind] in Hsel.
  destruct (py_max_mem _ _ _ Hsel) as [Hbin [f Hf]].
  destruct (py_max_spec _ f order Hf) as (l1 & b' & l2 & Hm & -> & Hlt & Hle); [intros ->; inversion Ho|].
  assert (b' = b) as -> by (cut (Ok b' = Ok b); [congruence|]; rewrite <- Hsel; symmetry; exact Hm).
  assert (f o <= f b) as Hfo.
  { apply elem_of_app in Ho as [Ho|Ho]; [apply Rlt_le; by apply Hlt|]. apply elem_of_cons in Ho as [->|Ho]; [lra|by apply Hle]. }
  rewrite <- (scores_objective ord o os cls lambd sel ss (f o)); try done; [|by apply Hf].
  rewrite <- (scores_objective ord b bs cls lambd sel ss (f b)); try done. by apply Hf.
Qed.

(** ** traces of the loops *)
Lemma fit_loop_trace {W} (S : samplers W) cls ord X Y fuel (g : gs W) r g' old :
  g_rules g = map Bound old -> fit_loop S cls ord X Y fuel g = (r, g') ->
  exists new Cs, g_rules g' = map Bound (old ++ new) /\ length Cs = length new /\
    forall i b, new !! i = Some b -> exists C w0 w1 w, Cs !! i = Some C /\
      generate_candidate_rules S ord (g_params g) X Y w0 = (Ok C, w1) /\
      select_best_candidate cls (p_lambd (g_params g)) (map Bound (old ++ take i new)) (rule_iter S w C) = Ok b.
Proof.
  revert g old. induction fuel as [|fuel IH]; intros g old Hg H; cbn [fit_loop] in H.
  - unfold serr in H. injection H as <- <-. exists [], []. rewrite app_nil_r. done.
  - unfold sbind in H. destruct (fit_round S cls ord X Y g) as [r1 g1] eqn:E.
    pose proof (fit_round_out _ _ _ _ _ _ _ _ E) as Ro.
    destruct (round_keeps _ _ _ _ _ _ _ _ Ro) as (Kp & _).
    assert (Hend : g_rules g1 = g_rules g -> (r1 = Ok true \/ exists e, r1 = Err e) -> exists new Cs, g_rules g' = map Bound (old ++ new) /\ length Cs = length new /\
      forall i b, new !! i = Some b -> exists C w0 w1 w, Cs !! i = Some C /\
      generate_candidate_rules S ord (g_params g) X Y w0 = (Ok C, w1) /\
      select_best_candidate cls (p_lambd (g_params g)) (map Bound (old ++ take i new)) (rule_iter S w C) = Ok b).
    { intros Hr Hr1. assert (g' = g1) as ->.
      { destruct Hr1 as [->|[e ->]]; [unfold sret in H|]; by injection H as _ <-. }
      exists [], []. rewrite app_nil_r. split; [by rewrite Hr|]. done. }
    destruct Ro; try (apply Hend; [subst; rewrite ?keep_rules; done|eauto]).
    { apply Hend; [|eauto]. subst. change (g_rules (with_world ?w ?x)) with (g_rules x). by rewrite keep_rules. }
    set (gn := with_rules (g_rules g ++ [Bound best]) (with_world w2 g1)) in *.
    assert (g_rules gn = map Bound (old ++ [best])) as Hgn.
    { change (g_rules gn) with (g_rules g ++ [Bound best]). rewrite Hg, map_app. done. }
    destruct (IH gn _ Hgn H) as (new & Cs & Hn & Hl & Ht).
    exists (best :: new), (c :: Cs). rewrite <- app_assoc in Hn. split; [done|]. split; [cbn; lia|].
    intros [|i] b Hi; cbn [lookup] in Hi.
    + injection Hi as <-. exists c, (g_world g), w, (g_world g1). split; [done|]. split; [done|].
      cbn [take]. rewrite app_nil_r. unfold pick in H2. apply rbind_ok in H2 as (b' & Hb' & H2).
      apply rbind_ok in H2 as (? & _ & H2). apply rbind_ok in H2 as (? & _ & H2). injection H2 as -> _.
      subst g1. rewrite keep_params, keep_rules in Hb'. change (g_rules (with_world w (tick g))) with (g_rules g) in Hb'. rewrite Hg in Hb'. exact Hb'.
    + destruct (Ht i b Hi) as (C & w0 & w1 & w' & HC & Hgen & Hsel). exists C, w0, w1, w'.
      rewrite Kp in Hgen, Hsel. split; [done|]. split; [done|]. rewrite <- app_assoc in Hsel. exact Hsel.
Qed.

Lemma trace_greedy ord cls lambd picks opt ss os : set_order ord ->
  (forall i b, picks !! i = Some b -> exists order, (forall o, o ∈ opt -> o ∈ order) /\
     select_best_candidate cls lambd (map Bound (take i picks)) order = Ok b) ->
  Forall2 (scores ord) picks ss -> Forall2 (scores ord) opt os -> greedy (cgain cls lambd) os ss.
Proof.
  intros Hord Ht HF HO i s Hi o Ho.
  destruct (Forall2_lookup_r _ _ _ _ _ HF Hi) as (b & Hb & Hs).
  apply elem_of_list_lookup in Ho as (j & Hj). destruct (Forall2_lookup_r _ _ _ _ _ HO Hj) as (ob & Hob & Hso).
  destruct (Ht i b Hb) as (order & Hin & Hsel).
  eapply select_greedy; [done|exact Hsel|apply Hin; by eapply elem_of_list_lookup_2|by apply list.Forall2_take|done|done].
Qed.

Lemma Forall2_nonneg ord bs ss : set_order ord -> Forall2 (scores ord) bs ss -> forall s, s ∈ ss -> 0 <= s.2.
Proof.
  intros Hord HF s Hs. apply elem_of_list_lookup in Hs as (j & Hj). destruct (Forall2_lookup_r _ _ _ _ _ HF Hj) as (b & _ & Hb).
  by eapply scores_nonneg.
Qed.

Lemma trace_near_optimal ord cls lambd picks opt ss os : set_order ord -> 0 <= lambd -> length opt = length picks ->
  (forall i b, picks !! i = Some b -> exists order, (forall o, o ∈ opt -> o ∈ order) /\
     select_best_candidate cls lambd (map Bound (take i picks)) order = Ok b) ->
  Forall2 (scores ord) picks ss -> Forall2 (scores ord) opt os -> near_optimal cls lambd ss os.
Proof.
  intros Hord Hl Hlen Ht HF HO. apply greedy_near_optimal; [done| | |by eapply trace_greedy].
  - by rewrite <- (Forall2_length _ _ _ HF), <- (Forall2_length _ _ _ HO).
  - intros s [Hs|Hs]%elem_of_app; [by eapply (Forall2_nonneg ord picks)|by eapply (Forall2_nonneg ord opt)].
Qed.
Open Scope Z_scope.

Lemma C88_one_round_proof : forall W (S : samplers W) (cls : greedy_class) (ord : gset Z -> list Z) (fuel : nat) (X Y : csr)
    (g : gs W) r g',
  set_order ord -> iter_ok S -> cls <> DivMax -> (0 <= p_lambd (g_params g))%R -> g_rules g = [] ->
  fit S cls ord fuel X Y g = (r, g') ->
  exists (picks : list bound) (Cs : list (list bound)),
    g_rules g' = map Bound picks /\
    Forall2 (fun b C => b ∈ C /\ exists w w', generate_candidate_rules S ord (g_params g) X Y w = (Ok C, w')) picks Cs /\
    forall (opt : list bound) (ps os : list scored),
      length opt = length picks -> (forall o C, o ∈ opt -> C ∈ Cs -> o ∈ C) ->
      Forall2 (scores ord) picks ps -> Forall2 (scores ord) opt os ->
      near_optimal cls (p_lambd (g_params g)) ps os.
Proof.
  intros W S cls ord fuel X Y g r g' Hord Hi Hc Hl Hg H.
  destruct (fit_simple_out _ _ _ _ _ _ _ _ _ Hc H) as (r0 & g0 & E0 & Hm).
  apply fit_start_out in E0 as (Er & Ep & _).
  destruct r0 as [[]|e].
  2: { destruct Hm as [_ ->]. exists [], []. rewrite Er, Hg. split; [done|]. split; [constructor|].
       intros opt ps os Hlen _ H1 H2. apply (trace_near_optimal ord cls _ [] opt); try done. }
  destruct Hm as (r1 & g1 & E1 & M1 & _).
  destruct (fit_loop_trace S cls ord X Y fuel g0 r1 g1 [] ltac:(by rewrite Er, Hg) E1) as (new & Cs & Hn & Hlc & Ht).
  rewrite Ep in Ht. exists new, Cs. split; [by rewrite M1, Hn|]. split.
  - apply Forall2_same_length_lookup_2; [done|]. intros i b C Hb HC.
    destruct (Ht i b Hb) as (C' & w0 & w1 & w & HC' & Hgen & Hsel). rewrite HC in HC'. injection HC' as <-.
    split; [|eauto]. apply py_max_mem in Hsel as [Hmem _]. by rewrite (Hi w C) in Hmem.
  - intros opt ps os Hlen Hin HF HO. apply (trace_near_optimal ord cls _ new opt); try done.
    intros i b Hb. destruct (Ht i b Hb) as (C & w0 & w1 & w & HC & Hgen & Hsel). exists (rule_iter S w C). split.
    + intros o Ho. rewrite (Hi w C). apply Hin; [done|by eapply elem_of_list_lookup_2].
    + exact Hsel.
Qed.


Lemma C88_two_rounds_proof : forall W (S : samplers W) (ord : gset Z -> list Z) (fuel : nat) (X Y : csr) (g g' : gs W),
  set_order ord -> iter_ok S -> (0 <= p_lambd (g_params g))%R -> fit S DivMax ord fuel X Y g = (Ok tt, g') ->
  exists (r1 : list srule) (g1 : gs W) (cands picks : list bound),
    fit_1st_round S ord fuel X Y g = (Ok r1, g1) /\ g_cands g1 = Some cands /\
    length picks = length r1 /\ (forall b, b ∈ picks -> b ∈ cands) /\
    (g_rules g' = map Bound picks \/ g_rules g' = r1) /\
    forall (opt : list bound) (ps os : list scored),
      length opt = length picks -> (forall o, o ∈ opt -> o ∈ cands) ->
      Forall2 (scores ord) picks ps -> Forall2 (scores ord) opt os ->
      near_optimal DivMax (p_lambd (g_params g)) ps os.
Proof.
  intros W S ord fuel X Y g g' Hord Hi Hl H.
  change (fit S DivMax ord fuel X Y g) with (fit_divmax S ord fuel X Y g) in H.
  unfold fit_divmax, sbind in H. destruct (fit_1st_round S ord fuel X Y g) as [[rs1|e] ga] eqn:Ea; [|done].
  destruct (first_round_out _ _ _ _ _ _ _ _ Ea) as (r0 & g0 & E0 & Hm).
  apply fit_start_out in E0 as E0'. destruct E0' as (Er0 & Ep0 & _).
  destruct r0 as [[]|e]; [|by destruct Hm].
  destruct Hm as (r1 & g1 & E1 & M1 & M2 & M3 & M4 & M5 & M6 & M7 & M8 & M9).
  destruct (M9 rs1 eq_refl) as (-> & -> & o1 & Ho1 & Hobj1).
  destruct (fit_loop_extends _ _ _ _ _ _ _ _ _ E1) as (Ep1 & _).
  assert (Hpa : g_params ga = g_params g) by (rewrite M2, Ep1, Ep0; done).
  destruct (fit_2nd_round S ord ga) as [[rs2|e] gb] eqn:Eb; [|done].
  destruct (second_round_out _ _ _ _ _ Eb) as (_ & _ & N3 & _ & N5 & N6 & _ & _ & N8).
  destruct (N8 rs2 eq_refl) as (-> & Hlen & _ & [o2 Ho2] & cands & picks & Hc & Hne & Hp & Hsel).
  unfold sget in H. rewrite N6, Ho1, Ho2 in H. unfold smod in H. injection H as <-.
  exists (g_rules ga), ga, cands, picks. rewrite Hpa in Hsel.
  split; [done|]. split; [done|]. split; [by rewrite <- Hlen, Hp, map_length|]. split.
  { intros b Hb. apply elem_of_list_lookup in Hb as (i & Hb). specialize (Hsel i b Hb).
    apply py_max_mem in Hsel as [Hmem _]. by rewrite (Hi _ cands) in Hmem. }
  split.
  { change (g_rules (with_rules ?x ?y)) with x. destruct (Rltb o2 o1); [by right|left; done]. }
  intros opt ps os Hlo Hin HF HO. apply (trace_near_optimal ord DivMax _ picks opt); try done.
  intros i b Hb. exists (rule_iter S (g_world ga) cands). split; [|by apply Hsel].
  intros o Ho. rewrite (Hi _ cands). auto.
Qed.


(** ** a bad case *)
Definition badX : csr := Csr (of_lines 5 [[(0,1);(1,1)]; [(0,1);(2,1)]; [(0,1);(3,1)]; [(0,1);(4,1)]; []; []; []; []]).
Definition badY : csr := Csr (of_lines 8
  [[(0,1);(1,1);(2,1);(3,1);(4,1)]; [(0,1);(1,1);(2,1);(3,1);(5,1)]; [(0,1);(1,1);(2,1);(3,1);(6,1)]; [(0,1);(1,1);(2,1);(3,1);(7,1)]; []; []; []; []]).
Definition badB (h : Z) (t : list Z) : bound :=
  match bind_dataset elements (new_rule [h] t) (tocsc badX) (tocsc badY) with
  | Ok b => b
  | Err _ => MkBound (new_rule [] []) 0 0 0 0 ∅ 0 ∅ 0 ∅ 0
  end.
Definition bad_tail (i : nat) : list Z := match i with O => [0;1;2;3] | _ => [0;1;2;3; 3 + Z.of_nat i] end.
Definition bad_rule (i : nat) : bound := badB (Z.of_nat i) (bad_tail i).
Definition bad_cands : list bound := map bad_rule (seq 0 5).
(** tails and heads in turn *)
Inductive turn := T0 | T1 | T2 | T3 | T4.
Definition turn_no (t : turn) : nat := match t with T0 => 0 | T1 => 1 | T2 => 2 | T3 => 3 | T4 => 4 end.
Definition turn_next (t : turn) : turn := match t with T0 => T1 | T1 => T2 | T2 => T3 | T3 => T4 | T4 => T0 end.
Definition badS : samplers turn := Samplers
  (fun _ w => (Ok tt, w)) (fun w => (Ok (list_to_set (bad_tail (turn_no w))), w)) (fun _ _ w => (Ok tt, w))
  (fun _ _ w => (Ok tt, w)) (fun _ w => (Ok [Some {[ Z.of_nat (turn_no w) ]}], turn_next w)) (fun _ l => l).
(** objectives in units of ln 2 *)
Definition bad_kl (i : nat) : Z := match i with O => 1 | _ => 3 end.
Lemma bad_kl_3 i : i <> 0%nat -> bad_kl i = 3.
Proof. destruct i; [congruence|reflexivity]. Qed.
Definition bad_obj (sel : list nat) (i : nat) : Z :=
  bad_kl i * Z.of_nat (size (label_occs (bad_rule i) ∖ union_occs (map bad_rule sel))).

Lemma bad_forall (P : nat -> Prop) : P 0%nat -> P 1%nat -> P 2%nat -> P 3%nat -> P 4%nat -> forall i, (i < 5)%nat -> P i.
Proof. intros. destruct i as [|[|[|[|[|i]]]]]; try done. lia. Qed.

Lemma bad_bound : forall i, (i < 5)%nat ->
  bind_dataset elements (new_rule [Z.of_nat i] (bad_tail i)) (tocsc badX) (tocsc badY) = Ok (bad_rule i).
Proof. apply bad_forall; vm_compute; reflexivity. Qed.

Lemma bad_counts : forall i, (i < 5)%nat -> counts_ok (bad_rule i).
Proof. apply bad_forall; constructor; vm_compute; intuition congruence. Qed.

Lemma bad_KL : forall i, (i < 5)%nat -> KL (bad_rule i) = Ok (IZR (bad_kl i) * ln 2)%R.
Proof.
  intros i Hi. rewrite KL_ok by (by apply bad_counts).
  assert (b_support_size (bad_rule i) = b_head_support_size (bad_rule i) /\ b_N (bad_rule i) = 8 /\
    b_head_support_size (bad_rule i) = (if decide (i = 0%nat) then 4 else 1) /\
    b_tail_support_size (bad_rule i) = (if decide (i = 0%nat) then 4 else 1)) as (E1 & E2 & E3 & E4).
  { revert i Hi. apply bad_forall; vm_compute; done. }
  rewrite E1, E2, E3, E4. f_equal. unfold rate.
  assert (forall q, (0 < q < 1)%R -> bernoulli_KL 1 q = ln (/ q)) as HK.
  { intros q Hq. unfold bernoulli_KL, xlnx_over. destruct (Rlt_dec 0 1); [|lra]. destruct (Rlt_dec 0 (1 - 1)); [lra|].
    rewrite Rmult_1_l. unfold Rdiv. rewrite Rmult_1_l. lra. }
  destruct (decide (i = 0%nat)) as [->|Hne].
  - destruct (Rlt_dec _ _); [lra|]. replace (4 / 4)%R with 1%R by lra. rewrite HK by lra. cbn [bad_kl].
    replace (/ (4 / 8))%R with 2%R by lra. lra.
  - destruct (Rlt_dec _ _); [lra|]. replace (1 / 1)%R with 1%R by lra. rewrite HK by lra.
    rewrite (bad_kl_3 i Hne). replace (/ (1 / 8))%R with (2 * (2 * 2))%R by lra.
    rewrite !ln_mult by lra. lra.
Qed.

Lemma bad_distance i j : (i < 5)%nat -> (j < 5)%nat -> exists d, distance (bad_rule i) (bad_rule j) = Ok d.
Proof.
  intros Hi Hj. assert (is_ok (distance (bad_rule i) (bad_rule j)) = true) as H.
  { revert i Hi. apply bad_forall; revert j Hj; apply bad_forall; vm_compute; reflexivity. }
  destruct (distance _ _) as [d|]; [by exists d|done].
Qed.

Lemma bad_objective (sel : list nat) i : (i < 5)%nat -> Forall (fun j => (j < 5)%nat) sel ->
  objective_of_rule DivMaxV2 0 (map bad_rule sel) (bad_rule i) = Ok (IZR (bad_obj sel i) * ln 2)%R.
Proof.
  intros Hi Hs. unfold objective_of_rule, quality_of_rule. rewrite marginal_coverage_size. cbn [rbind]. rewrite bad_KL by done. cbn [rbind].
  assert (exists d, diversity_of_rule (map bad_rule sel) (bad_rule i) = Ok d) as [d ->].
  { unfold diversity_of_rule. assert (exists ds, rmap (distance (bad_rule i)) (map bad_rule sel) = Ok ds) as [ds ->]; [|cbn; eauto].
    induction Hs as [|j sel Hj Hs IH]; [by exists []|]. cbn [map rmap]. destruct (bad_distance i j Hi Hj) as [d ->]. destruct IH as [ds ->]. cbn. eauto. }
  cbn [rbind]. f_equal. rewrite Rmult_0_l, Rplus_0_r. unfold bad_obj. rewrite mult_IZR, new_cells_diff. lra.
Qed.

(** the first maximum for integer keys *)
Definition zmax {A} (n : A -> Z) (x : A) (l : list A) : A := fold_left (fun b y => if n b <? n y then y else b) l x.

Lemma py_max_scaled {A} (key : A -> result R) (n : A -> Z) (c : R) x l : (0 < c)%R ->
  (forall y, y ∈ x :: l -> key y = Ok (IZR (n y) * c)%R) -> py_max key (x :: l) = Ok (zmax n x l).
Proof.
  intros Hc H. unfold py_max, zmax. rewrite (H x) by left. cbn [rbind].
  assert (forall b, rfold (fun bk y => let! k' := key y in Ok (if Rltb (snd bk) k' then (y, k') else bk)) (b, (IZR (n b) * c)%R) l
    = Ok (fold_left (fun b y => if n b <? n y then y else b) l b, (IZR (n (fold_left (fun b y => if n b <? n y then y else b) l b)) * c)%R)) as G.
  { assert (forall y, y ∈ l -> key y = Ok (IZR (n y) * c)%R) as H' by (intros; apply H; by right).
    clear H. induction l as [|y l IH]; intros b; [done|]. cbn [rfold fold_left]. rewrite (H' y) by left. cbn [rbind snd].
    assert (Rltb (IZR (n b) * c) (IZR (n y) * c) = (n b <? n y)) as E.
    { unfold Rltb. destruct (Rlt_dec _ _) as [Hlt|Hlt], (Z.ltb_spec (n b) (n y)) as [Hz|Hz]; try done; exfalso.
      - apply IZR_le in Hz. nra.
      - apply IZR_lt in Hz. nra. }
    rewrite E. destruct (n b <? n y); cbn [rbind]; apply IH; intros; apply H'; by right. }
  rewrite G. done.
Qed.

Lemma bad_select (sel : list nat) (k : nat) : Forall (fun j => (j < 5)%nat) sel ->
  zmax (bad_obj sel) 0%nat [1;2;3;4]%nat = k ->
  select_best_candidate DivMaxV2 0 (map Bound (map bad_rule sel)) bad_cands = Ok (bad_rule k).
Proof.
  intros Hs <-. unfold select_best_candidate. rewrite bounds_map. cbn [rbind].
  assert (0 < ln 2)%R as Hln by (rewrite <- ln_1; apply ln_increasing; lra).
  assert (H : py_max (fun i => objective_of_rule DivMaxV2 0 (map bad_rule sel) (bad_rule i)) (0 :: [1;2;3;4])%nat
    = Ok (zmax (bad_obj sel) 0%nat [1;2;3;4]%nat)).
  { apply (py_max_scaled _ _ (ln 2)); [done|]. intros i Hi. apply bad_objective; [|done].
    rewrite !elem_of_cons, elem_of_nil in Hi. lia. }
  assert (G : forall (key : bound -> result R) x l, py_max key (map bad_rule (x :: l)) = let! i := py_max (fun i => key (bad_rule i)) (x :: l) in Ok (bad_rule i)).
  { intros key x l. cbn [map py_max]. destruct (key (bad_rule x)) as [v|e]; [|done]. cbn [rbind].
    revert x v. induction l as [|y l IH]; intros x v; [done|]. cbn [map rfold]. destruct (key (bad_rule y)) as [v'|e]; [|done]. cbn [rbind snd].
    destruct (Rltb v v'); apply IH. }
  change bad_cands with (map bad_rule (0 :: [1;2;3;4])%nat). rewrite G. rewrite H. done.
Qed.

Definition badP : gparams := GParams 0 5 1 (Some 4) 0.
Definition badE (sel : list nat) : est gparams := MkEst badP (map Bound (map bad_rule sel)) (Some 8) (Some 5) (Some (badX, badY)).

Lemma bad_log (sel : list nat) k : (k < 5)%nat -> log_choice (map Bound (map bad_rule sel)) (bad_rule k) = Ok tt.
Proof.
  intros Hk. unfold log_choice. rewrite tpr_ok, base_rate_ok by (by apply bad_counts). cbn [rbind].
  rewrite bounds_map. cbn [rbind]. rewrite marginal_coverage_size. cbn [rbind]. rewrite bad_KL by done. done.
Qed.

Lemma bad_round (sel : list nat) (k : nat) (w w' : turn) (g : gs turn) : (k < 5)%nat -> Forall (fun j => (j < 5)%nat) sel ->
  zmax (bad_obj sel) 0%nat [1;2;3;4]%nat = k ->
  generate_candidate_rules badS elements badP badX badY w = (Ok bad_cands, w') ->
  g_est g = badE sel -> g_world g = w ->
  exists g', fit_round badS DivMaxV2 elements badX badY g = (Ok (4 <=? zlen sel), g') /\
    g_est g' = (if 4 <=? zlen sel then badE sel else badE (sel ++ [k])) /\ g_world g' = w'.
Proof.
  intros Hk Hs Hz Hgen Hg Hw. unfold fit_round, add_rule, scatch, on_world, sbind, sget, smod, slift, sret.
  cbv beta iota zeta. change (g_world (tick g)) with (g_world g). rewrite Hw.
  change (g_params g) with (e_params (g_est g)). rewrite Hg. change (e_params (badE sel)) with badP. rewrite Hgen.
  cbn [keep_candidates keeps_candidates].
  change (g_rules (with_world w' (tick g))) with (e_rules (g_est g)). rewrite Hg. change (e_rules (badE sel)) with (map Bound (map bad_rule sel)).
  change (rule_iter badS (g_world (with_world w' (tick g))) bad_cands) with bad_cands.
  change (p_lambd badP) with 0%R. rewrite (bad_select sel k Hs Hz). rewrite bad_log by done.
  unfold should_stop. change (p_n_max badP) with (Some 4).
  replace (zlen (map Bound (map bad_rule sel))) with (zlen sel) by (unfold zlen; by rewrite !map_length).
  destruct (4 <=? zlen sel).
  - eexists. split; [reflexivity|]. split; [exact Hg|done].
  - eexists. split; [reflexivity|]. split; [|done]. cbn [with_rules with_est g_est with_world tick].
    unfold g_rules. cbn [with_rules with_est g_est with_world tick]. rewrite Hg. unfold badE.
    cbn [e_params e_rules e_num_labels e_num_features e_train]. rewrite !map_app. done.
Qed.

Lemma bad_run : exists g', fit badS DivMaxV2 elements 5 badX badY (new_classifier badP T0) = (Ok tt, g') /\
  g_rules g' = map Bound (map bad_rule [0;1;2;3]%nat).
Proof.
  change (fit badS DivMaxV2 elements 5 badX badY (new_classifier badP T0)) with (fit_v2 badS DivMaxV2 elements 5 badX badY (new_classifier badP T0)).
  unfold fit_v2, sbind at 1.
  destruct (fit_start badS DivMaxV2 badX badY (new_classifier badP T0)) as [r0 g0] eqn:E0.
  assert (r0 = Ok tt /\ g_est g0 = badE [] /\ g_world g0 = T0) as (-> & He0 & Hw0).
  { unfold fit_start, smod, sbind, on_world in E0. cbn in E0. injection E0 as <- <-. split; [done|]. split; [vm_compute; reflexivity|done]. }
  destruct (bad_round [] 0 T0 T0 g0) as (g1 & E1 & He1 & Hw1); [lia|repeat constructor; lia|by vm_compute|by vm_compute|done|done|].
  cbn [app] in *.
  destruct (bad_round [0]%nat 1 T0 T0 g1) as (g2 & E2 & He2 & Hw2); [lia|repeat constructor; lia|by vm_compute|by vm_compute|done|done|].
  destruct (bad_round [0;1]%nat 2 T0 T0 g2) as (g3 & E3 & He3 & Hw3); [lia|repeat constructor; lia|by vm_compute|by vm_compute|done|done|].
  destruct (bad_round [0;1;2]%nat 3 T0 T0 g3) as (g4 & E4 & He4 & Hw4); [lia|repeat constructor; lia|by vm_compute|by vm_compute|done|done|].
  destruct (bad_round [0;1;2;3]%nat 4 T0 T0 g4) as (g5 & E5 & He5 & Hw5); [lia|repeat constructor; lia|by vm_compute|by vm_compute|done|done|].
  change (4 <=? zlen (@nil nat)) with false in E1, He1. change (4 <=? zlen [0]%nat) with false in E2, He2.
  change (4 <=? zlen [0;1]%nat) with false in E3, He3. change (4 <=? zlen [0;1;2]%nat) with false in E4, He4.
  change (4 <=? zlen [0;1;2;3]%nat) with true in E5, He5.
  cbn [fit_loop]. unfold sbind. rewrite E1. cbv beta iota. rewrite E2. cbv beta iota. rewrite E3. cbv beta iota. rewrite E4. cbv beta iota. rewrite E5. cbv beta iota.
  unfold sget, slift, smod, sret.
  assert (exists o, objective_of_selected DivMaxV2 g5 = Ok o) as [o ->].
  { unfold objective_of_selected, g_rules. rewrite He5. change (e_rules (badE [0;1;2;3]%nat)) with (map Bound (map bad_rule [0;1;2;3]%nat)).
    rewrite bounds_map. cbn [rbind]. unfold objective.
    assert (exists qs, rmap (quality_of_rule DivMaxV2 (map bad_rule [0;1;2;3]%nat)) (map bad_rule [0;1;2;3]%nat) = Ok qs) as [qs ->].
    { assert (forall i, (i < 5)%nat -> exists q, quality_of_rule DivMaxV2 (map bad_rule [0;1;2;3]%nat) (bad_rule i) = Ok q) as Hq.
      { intros i Hi. unfold quality_of_rule. rewrite marginal_coverage_size. cbn [rbind]. rewrite bad_KL by done. cbn. eauto. }
      generalize dependent (quality_of_rule DivMaxV2 (map bad_rule [0;1;2;3]%nat)). intros f Hf. cbn [map rmap].
      destruct (Hf 0%nat) as [? ->]; [lia|]. destruct (Hf 1%nat) as [? ->]; [lia|]. destruct (Hf 2%nat) as [? ->]; [lia|].
      destruct (Hf 3%nat) as [? ->]; [lia|]. cbn. eauto. }
    cbn [rbind]. cbn [map combinations2 app rmap fst snd].
    destruct (bad_distance 0 1) as [? ->]; [lia..|]. destruct (bad_distance 0 2) as [? ->]; [lia..|]. destruct (bad_distance 0 3) as [? ->]; [lia..|].
    destruct (bad_distance 1 2) as [? ->]; [lia..|]. destruct (bad_distance 1 3) as [? ->]; [lia..|]. destruct (bad_distance 2 3) as [? ->]; [lia..|].
    cbn. eauto. }
  assert (log_coverage elements (g_est g5) = Ok tt) as -> by (rewrite He5; vm_compute; reflexivity).
  eexists. split; [reflexivity|]. unfold g_rules. cbn [with_obj g_est]. rewrite He5. done.
Qed.

(** ** every candidate has a score *)
Lemma scores_of_bind ord (X Y : csc) (h t : list Z) (b : bound) : set_order ord -> dataset X Y -> NoDup t -> (forall c, c ∈ t -> 0 <= c)%Z ->
  bind_dataset ord (new_rule h t) X Y = Ok b ->
  exists k, scores ord b (label_occs b, k).
Proof.
  intros Hord Hd Hn Hp Hb. pose proof (bound_new ord X Y h t b Hord Hd Hp Hb) as Hbt.
  eexists. exists X, Y, h, t, (b_head_support b), (b_tail_support b).
  split; [done|]. split; [done|]. split; [done|]. split; [done|]. split; [|split; [|split; [|reflexivity]]].
  - intros c. cbn [fst]. rewrite (covers_perm _ _ h (py_sorted h) t (py_sorted t)) by (symmetry; apply py_sorted_perm).
    by rewrite (label_occs_covers _ _ _ _ _ Hbt).
  - intros i. rewrite (bt_head _ _ _ _ Hbt). unfold row_matches. cbn [new_rule r_head].
    split; intros [Hi Hc]; (split; [done|]); intros c Hx; apply Hc; [by rewrite py_sorted_perm|by rewrite <- py_sorted_perm].
  - intros i. rewrite (bt_tail _ _ _ _ Hbt). unfold row_matches. cbn [new_rule r_tail].
    split; intros [Hi Hc]; (split; [done|]); intros c Hx; apply Hc; [by rewrite py_sorted_perm|by rewrite <- py_sorted_perm].
Qed.

Lemma C88_scored_proof : forall W (S : samplers W) (ord : gset Z -> list Z) (p : gparams) (X Y : csr) w C w' (b : bound),
  set_order ord -> wf_cmat (csr_mat X) = true -> wf_cmat (csr_mat Y) = true -> csr_rows X = csr_rows Y ->
  tails_valid S (csr_cols Y) -> generate_candidate_rules S ord p X Y w = (Ok C, w') -> b ∈ C ->
  exists s : scored, scores ord b s.
Proof.
  intros W S ord p X Y w C w' b Hord HX HY Hr Hv Hg Hb.
  destruct (T_Exp.generated_tail S ord p X Y b Hord HY Hv) as (h & t & Hbd & Hnd & Ht); [by exists w, C, w'|].
  destruct (scores_of_bind ord (tocsc X) (tocsc Y) h t b) as (k & Hk); [done|by apply dataset_tocsc| done|intros c Hc; apply Ht in Hc; lia|done|].
  eauto.
Qed.


Lemma imap_scaled {A} (f : nat -> A -> Z) (c : R) (l : list A) : (rsum (imap (fun i n => IZR (f i n) * c) l) = IZR (zsum (imap f l)) * c)%R.
Proof.
  revert f. induction l as [|n l IH]; intros f; [cbn; lra|]. cbn [imap].
  change (zsum (?x :: ?y)) with (x + zsum y)%Z. rewrite rsum_cons, plus_IZR. unfold compose.
  rewrite (IH (fun i => f (Datatypes.S i))). unfold compose. lra.
Qed.

Lemma bad_scores : forall i, (i < 5)%nat -> scores elements (bad_rule i) (label_occs (bad_rule i), IZR (bad_kl i) * ln 2)%R.
Proof.
  intros i Hi. destruct (scores_of_bind elements (tocsc badX) (tocsc badY) [Z.of_nat i] (bad_tail i) (bad_rule i)) as (k & Hk).
  - intros s; done.
  - apply dataset_tocsc; by_compute.
  - apply (bool_decide_unpack _). revert i Hi. apply bad_forall; vm_compute; done.
  - intros c Hc. destruct i; cbn [bad_tail] in Hc; rewrite !elem_of_cons, elem_of_nil in Hc; lia.
  - by apply bad_bound.
  - assert (k = IZR (bad_kl i) * ln 2)%R as <-; [|done].
    pose proof (scores_objective elements _ _ DivMaxV2 0 [] [] _ (fun s => reflexivity _) Hk (List.Forall2_nil _) (bad_objective [] i Hi (Forall_nil_2 _))) as E.
    unfold cgain, dgain, bad_obj, fresh, all_cells in E. cbn [fst snd map rsum foldr fmap list_fmap] in E.
    change (union_occs []) with (∅ : gset (Z * Z)) in E. change (⋃ []) with (∅ : gset (Z * Z)) in E.
    rewrite !difference_empty_L in E. rewrite mult_IZR, <- INR_IZR_INZ in E.
    assert (0 < INR (size (label_occs (bad_rule i))))%R.
    { apply (lt_INR 0). revert i Hi Hk E. apply (bad_forall (fun i => _ -> _ -> (0 < size (label_occs (bad_rule i)))%nat)); intros; vm_compute; lia. }
    apply (Rmult_eq_reg_l (INR (size (label_occs (bad_rule i))))); lra.
Qed.

Lemma bad_tails_valid : tails_valid badS (csr_cols badY).
Proof.
  intros w w' tail Ht. cbn in Ht. injection Ht as <- <-. intros c Hc. apply elem_of_list_to_set in Hc.
  change (csr_cols badY) with 8%Z. revert Hc. destruct w; intros Hc; cbn [bad_tail turn_no] in Hc; rewrite !elem_of_cons, elem_of_nil in Hc; lia.
Qed.

Definition turn_order (v : turn) : list nat := match v with T0 => [0;1;2;3;4] | T1 => [1;2;3;4;0] | T2 => [2;3;4;0;1] | T3 => [3;4;0;1;2] | T4 => [4;0;1;2;3] end%nat.
Lemma bad_generate (v : turn) : exists C v', generate_candidate_rules badS elements badP badX badY v = (Ok C, v') /\
  forall i, (i < 5)%nat -> bad_rule i ∈ C.
Proof.
  exists (map bad_rule (turn_order v)), v. split; [destruct v; vm_compute; reflexivity|].
  intros i Hi. apply (elem_of_list_fmap_1 bad_rule). destruct v; unfold turn_order; rewrite !elem_of_cons, elem_of_nil; lia.
Qed.

Lemma C88_half_refuted_proof : ~ (forall W (S : samplers W) (ord : gset Z -> list Z) (fuel : nat) (X Y : csr) (p : gparams) (w : W) (g' : gs W)
    (picks opt : list bound) (ps os : list scored),
  set_order ord -> sane S -> iter_ok S -> tails_valid S (csr_cols Y) -> wf_cmat (csr_mat X) = true -> wf_cmat (csr_mat Y) = true ->
  csr_rows X = csr_rows Y -> p_lambd p = 0%R ->
  fit S DivMaxV2 ord fuel X Y (new_classifier p w) = (Ok tt, g') -> g_rules g' = map Bound picks -> length opt = length picks ->
  (forall o v C v', o ∈ opt -> generate_candidate_rules S ord p X Y v = (Ok C, v') -> o ∈ C) ->
  Forall2 (scores ord) picks ps -> Forall2 (scores ord) opt os ->
  (/ 2 * value (fun x => x) 0 os <= value (fun x => x) 0 ps)%R).
Proof.
  intros H. destruct bad_run as (g' & Hg & Hr).
  pose (sc := fun i => (label_occs (bad_rule i), IZR (bad_kl i) * ln 2)%R : scored).
  specialize (H turn badS elements 5%nat badX badY badP T0 g' (map bad_rule [0;1;2;3]%nat) (map bad_rule [1;2;3;4]%nat)
    (map sc [0;1;2;3]%nat) (map sc [1;2;3;4]%nat)).
  assert (forall l, Forall (fun i => (i < 5)%nat) l -> Forall2 (scores elements) (map bad_rule l) (map sc l)) as HF.
  { intros l Hl. induction Hl as [|i l Hi Hl IH]; cbn [map]; constructor; [by apply bad_scores|done]. }
  assert (forall l z, zsum (imap (fun i n => bad_obj (take i l) n) l) = z -> value (fun x => x) 0 (map sc l) = IZR z * ln 2)%R as Hv.
  { intros l z <-. unfold value. rewrite Rmult_0_l, Rplus_0_r. unfold quality_sum.
    rewrite <- imap_scaled. f_equal. change (map sc l) with (sc <$> l) at 2. rewrite imap_fmap. apply imap_ext. intros i n _. cbn [compose].
    unfold sc at 1 3. cbn [fst snd]. unfold bad_obj, fresh. rewrite mult_IZR, <- INR_IZR_INZ.
    replace (all_cells (map fst (take i (map sc l)))) with (union_occs (map bad_rule (take i l))); [lra|].
    unfold union_occs, all_cells. f_equal. change (map sc l) with (sc <$> l). rewrite <- fmap_take, !map_map. by apply map_ext. }
  enough (/ 2 * (60 * ln 2) <= 25 * ln 2)%R as Hc.
  { pose proof (ln_increasing 1 2 ltac:(lra) ltac:(lra)). rewrite ln_1 in *. lra. }
  replace (60 * ln 2)%R with (value (fun x => x) 0 (map sc [1;2;3;4]%nat)).
  2:{ apply Hv; by vm_compute. }
  replace (25 * ln 2)%R with (value (fun x => x) 0 (map sc [0;1;2;3]%nat)).
  2:{ apply Hv; by vm_compute. }
  refine (H _ _ _ _ _ _ _ _ Hg Hr _ _ (HF _ _) (HF _ _)); clear H Hg Hr.
  - intros s; reflexivity.
  - repeat split; intros; discriminate.
  - intros w l; reflexivity.
  - exact bad_tails_valid.
  - by_compute.
  - by_compute.
  - by_compute.
  - reflexivity.
  - reflexivity.
  - intros o v C v' Ho Hgen.
    destruct (bad_generate v) as (C1 & v1 & E1 & HC).
    rewrite E1 in Hgen. injection Hgen as <- <-. cbn [map] in Ho. rewrite !elem_of_cons, elem_of_nil in Ho.
    destruct Ho as [->|[->|[->|[->|[]]]]]; apply HC; lia.
  - repeat constructor; lia.
  - repeat constructor; lia.
Qed.
