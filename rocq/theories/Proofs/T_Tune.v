(** Proofs of the property theorems of Properties/P_Tune.v. *)
From Coq Require Import String Reals Qreals QArith Qcanon Qround Lra.
From stdpp Require Import strings.
From Verif.Model Require Import PyBase PyReal Sparse Utils Rand Rule GreedyBase PyState Greedy Evaluation Data Exp Scripts Tune.
From Verif.Spec Require Import SMatrix SRule SPredict SGreedy SEval SExp SData STune.
Open Scope string_scope.
Open Scope list_scope.
Open Scope Z_scope.
From Verif.Proofs Require Import PBase PSparse PRandR PRule PGreedyBase PGreedy T_Rule T_GreedyBase T_Greedy T_Eval T_Exp T_Data.
Open Scope string_scope.
Open Scope list_scope.
Open Scope Z_scope.

(** ** Repetitions *)
Lemma srepeat_ok {S A} (f : nat -> sx S A) (a : nat -> A) s n : forall i, (forall j, (i <= j < i + n)%nat -> f j s = (Ok (a j), s)) ->
  srepeat f i n s = (Ok (map a (seq i n)), s).
Proof.
  induction n as [|n IH]; intros i H; [done|]. cbn [srepeat seq map]. unfold sbind at 1. rewrite (H i) by lia.
  unfold sbind. rewrite (IH (Datatypes.S i)); [done|]. intros j Hj. apply H. lia.
Qed.
Lemma srepeat_err {S A} (f : nat -> sx S A) (a : nat -> A) s k e n : forall i, (i <= k < i + n)%nat -> (forall j, (i <= j < k)%nat -> f j s = (Ok (a j), s)) ->
  f k s = (Err e, s) -> srepeat f i n s = (Err e, s).
Proof.
  induction n as [|n IH]; intros i Hk H He; [lia|]. cbn [srepeat]. unfold sbind at 1. destruct (decide (i = k)) as [->|Hne]; [by rewrite He|].
  rewrite (H i) by lia. unfold sbind. rewrite (IH (Datatypes.S i)); [done|lia| |done]. intros j Hj. apply H. lia.
Qed.
(** the first repetition may start from another state *)
Lemma srepeat_ok1 {S A} (f : nat -> sx S A) (a : nat -> A) s s' n : (forall j, (j < Datatypes.S n)%nat -> f j s = (Ok (a j), s')) ->
  (forall j, (j < Datatypes.S n)%nat -> f j s' = (Ok (a j), s')) -> srepeat f 0 (Datatypes.S n) s = (Ok (map a (seq 0 (Datatypes.S n))), s').
Proof.
  intros H H'. cbn [srepeat seq map]. unfold sbind at 1. rewrite (H O) by lia. unfold sbind.
  rewrite (srepeat_ok f a s' n 1); [done|]. intros j Hj. apply H'. lia.
Qed.
Lemma srepeat_err1 {S A} (f : nat -> sx S A) (a : nat -> A) s s' k e n : (k < Datatypes.S n)%nat -> (forall j, (j < k)%nat -> f j s = (Ok (a j), s')) ->
  (forall j, (j < k)%nat -> f j s' = (Ok (a j), s')) -> f k s = (Err e, s') -> f k s' = (Err e, s') -> srepeat f 0 (Datatypes.S n) s = (Err e, s').
Proof.
  intros Hk H H' He He'. cbn [srepeat]. unfold sbind at 1. destruct k as [|k]; [by rewrite He|]. rewrite (H O) by lia. unfold sbind.
  rewrite (srepeat_err f a s' (Datatypes.S k) e n 1); [done|lia| |done]. intros j Hj. apply H'. lia.
Qed.

(** ** The mean of the records *)
Lemma rsum_foldr l : rsum l = foldr Rplus 0%R l.
Proof. induction l as [|x l IH]; [done|]. rewrite rsum_cons, IH. done. Qed.

Lemma fold_keys ks : forall acc, NoDup (acc ++ ks) -> foldl add_key acc ks = acc ++ ks.
Proof.
  induction ks as [|k ks IH]; intros acc Hn; [by rewrite app_nil_r|]. cbn [foldl]. unfold add_key at 2. rewrite bool_decide_eq_false_2.
  - rewrite IH; [by rewrite <- app_assoc|]. by rewrite <- app_assoc.
  - intros Hk. apply NoDup_app in Hn as (_ & Hd & _). apply (Hd k Hk). left.
Qed.
Lemma fold_keys_idem ks : forall acc, (forall k, k ∈ ks -> k ∈ acc) -> foldl add_key acc ks = acc.
Proof.
  induction ks as [|k ks IH]; intros acc H; [done|]. cbn [foldl]. unfold add_key at 2. rewrite bool_decide_eq_true_2 by (apply H; left).
  apply IH. intros k' Hk'. apply H. by right.
Qed.
Lemma all_keys (recs : list (list (string * perf_val))) ks : recs <> [] -> NoDup ks -> (forall r, r ∈ recs -> map fst r = ks) ->
  foldl add_key [] (concat (map (map fst) recs)) = ks.
Proof.
  intros Hne Hn H. destruct recs as [|r recs]; [done|]. cbn [map concat]. rewrite (H r) by left. rewrite foldl_app, (fold_keys ks []) by done. cbn [app].
  apply fold_keys_idem. intros k Hk. apply elem_of_list_In, in_concat in Hk as (l & Hl & Hk). apply elem_of_list_In in Hl, Hk.
  apply elem_of_map in Hl as (r' & -> & Hr'). by rewrite (H r') in Hk by by right.
Qed.

Lemma assoc_key {A} (r : list (string * A)) k p : NoDup (map fst r) -> (k, p) ∈ r -> Scripts.assoc r k = Some p.
Proof.
  unfold Scripts.assoc. induction r as [|[k' p'] r IH]; intros Hn Hin; [inversion Hin|]. cbn [map] in Hn. apply list.NoDup_cons in Hn as [Hk Hn].
  cbn [List.find fst]. apply elem_of_cons in Hin as [[= <- <-]|Hin]; [by rewrite String.eqb_refl|].
  destruct (String.eqb_spec k k') as [->|]; [|by apply IH]. exfalso. apply Hk. apply elem_of_map. by exists (k', p).
Qed.

Lemma perf_num_number p v : number p v -> perf_num p = Some v.
Proof. by intros []. Qed.

Lemma mean_averaged (recs : list (list (string * perf_val))) ks : recs <> [] -> NoDup ks -> (forall r, r ∈ recs -> map fst r = ks) ->
  (forall r k p, r ∈ recs -> (k, p) ∈ r -> exists v, number p v) -> averaged recs (mean_perf recs).
Proof.
  intros Hne Hn Hk Hv. unfold mean_perf. rewrite (all_keys recs ks) by done. split.
  - intros r Hr. rewrite (Hk r Hr), map_map. cbn [fst]. by rewrite map_id.
  - intros key x Hin. apply elem_of_map in Hin as (k & [= -> ->] & Hkk).
    assert (H : exists vs, Forall2 (fun r v => exists p, (k, p) ∈ r /\ number p v) recs vs /\ omap (fun r => Scripts.assoc r k ≫= perf_num) recs = vs).
    { clear Hne. induction recs as [|r recs IH]; [by exists []|].
      destruct IH as (vs & Hvs & E); [intros r' Hr'; apply Hk; by right|intros r' k' p' Hr'; apply Hv; by right|].
      assert (k ∈ map fst r) as Hin by (rewrite (Hk r) by left; done). apply elem_of_map in Hin as ([k' p] & E' & Hp). cbn [fst] in E'. subst k'.
      destruct (Hv r k p ltac:(left) Hp) as [v Hnum]. exists (v :: vs). split; [constructor; [by exists p|done]|].
      cbn [omap list_omap]. rewrite (assoc_key r k p); [|rewrite (Hk r) by left; done|done]. cbn [mbind option_bind]. rewrite (perf_num_number p v Hnum). by rewrite <- E. }
    destruct H as (vs & Hvs & E). exists vs. split; [done|]. rewrite E. destruct vs as [|v vs]; [apply Forall2_length in Hvs; destruct recs; done|].
    unfold mean_of. by rewrite rsum_foldr.
Qed.

(** ** Subsets exist *)
Lemma finite_sub {A} `{Countable A} (P : A -> Prop) (s : gset A) : exists t : gset A, forall x, x ∈ t <-> x ∈ s /\ P x.
Proof.
  induction s as [|x s Hx IH] using set_ind_L; [exists ∅; set_solver|]. destruct IH as [t Ht]. destruct (Classical_Prop.classic (P x)) as [Hp|Hp].
  - exists ({[x]} ∪ t). intros y. rewrite elem_of_union, elem_of_singleton, Ht. set_solver.
  - exists t. intros y. rewrite Ht. set_solver.
Qed.

(** ** Rows of a split *)
Lemma take_binary m idx : wf_cmat (csr_mat m) = true -> binary (csr_mat m) -> (forall i, i ∈ idx -> 0 <= i < csr_rows m) -> binary (csr_mat (csr_take m idx)).
Proof.
  intros Hwf Hb Hi. destruct (take_rows_of m idx Hwf Hi) as (Hw & Hr & Hc & Hrow). apply binary_b_ok; [done|]. unfold binary_b. apply andb_true_intro. split.
  - apply forallb_forall. intros v Hv. apply elem_of_list_In in Hv. apply Z.eqb_eq.
    unfold csr_take in Hv. cbn [csr_mat of_lines data] in Hv. apply elem_of_map in Hv as ([j v'] & E & Hv). cbn [snd] in E. subst v'.
    apply elem_of_list_In, in_concat in Hv as (l & Hl & Hv). apply elem_of_list_In in Hl, Hv. apply elem_of_map in Hl as (i & -> & Hin).
    by apply (binary_line_value (csr_mat m) i j v Hwf Hb (Hi i Hin)).
  - apply forallb_forall. intros k Hk. apply elem_of_list_In, elem_of_py_range in Hk. apply bool_decide_eq_true.
    change (n_major (csr_mat (csr_take m idx))) with (csr_rows (csr_take m idx)) in Hk. rewrite Hr in Hk. unfold zlen in Hk.
    destruct (lookup_lt_is_Some_2 idx (Z.to_nat k)) as [i Ei]; [lia|].
    assert (El : line (csr_mat (csr_take m idx)) k = line (csr_mat m) i).
    { apply line_of_lines; [lia|]. apply list_lookup_fmap_Some. by exists i. }
    rewrite El. apply binary_line_NoDup; [done|done|]. apply Hi. by eapply elem_of_list_lookup_2.
Qed.

Lemma rows_has m' m idx k j : rows_of m' m idx -> csr_has m' k j <-> 0 <= k /\ exists i, idx !! Z.to_nat k = Some i /\ csr_has m i j.
Proof.
  intros (Hw & Hr & Hc & Hrow). unfold csr_has, stored. split.
  - intros (s & v & H). pose proof (slot_range _ _ _ _ _ Hw H) as (Hk & _ & _). change (n_major (csr_mat m')) with (csr_rows m') in Hk. rewrite Hr in Hk. unfold zlen in Hk.
    destruct (lookup_lt_is_Some_2 idx (Z.to_nat k)) as [i Ei]; [lia|]. split; [lia|]. exists i. split; [done|].
    destruct (proj1 (Hrow _ _ Ei j v)) as [s' Hs']; [rewrite Z2Nat.id by lia; by exists s|]. by exists s', v.
  - intros (Hk & i & Ei & s & v & H). destruct (proj2 (Hrow _ _ Ei j v)) as [s' Hs']; [by exists s|]. rewrite Z2Nat.id in Hs' by lia. by exists s', v.
Qed.

Lemma rows_fires m' m idx rules k j : rows_of m' m idx -> (forall i, i ∈ idx -> 0 <= i < csr_rows m) ->
  fires rules m' k j <-> 0 <= k /\ exists i, idx !! Z.to_nat k = Some i /\ fires rules m i j.
Proof.
  intros Hrows Hi. pose proof Hrows as (_ & Hr & _). unfold fires. split.
  - intros (Hk & h & t & Hin & Hh & Hj). rewrite Hr in Hk. unfold zlen in Hk. destruct (lookup_lt_is_Some_2 idx (Z.to_nat k)) as [i Ei]; [lia|].
    split; [lia|]. exists i. split; [done|]. split; [apply Hi; by eapply elem_of_list_lookup_2|]. exists h, t. split; [done|]. split; [|done].
    intros f Hf. apply Hh in Hf. apply (rows_has _ _ _ _ _ Hrows) in Hf as (_ & i' & Ei' & Hf). congruence.
  - intros (Hk & i & Ei & _ & h & t & Hin & Hh & Hj). split; [rewrite Hr; apply lookup_lt_Some in Ei; unfold zlen; lia|].
    exists h, t. split; [done|]. split; [|done]. intros f Hf. apply (rows_has _ _ _ _ _ Hrows). split; [done|]. exists i. split; [done|]. by apply Hh.
Qed.

Lemma seven_tenths n : 2 <= n -> splittable (Q2Qc (7 # 10)) n (7 * n / 10).
Proof.
  intros Hn. assert (Hq : 1 <= 7 * n / 10) by (apply Z.div_le_lower_bound; lia). pose proof (Z.div_mod (7 * n) 10 ltac:(lia)). pose proof (Z.mod_pos_bound (7 * n) 10 ltac:(lia)).
  set (q := 7 * n / 10) in *. unfold splittable. split_and!; [done|done|done| |].
  - unfold Qcle, Qc_of_Z. cbn [this Qcmult Q2Qc]. rewrite !Qred_correct. unfold Qle, inject_Z. cbn. lia.
  - unfold Qclt, Qc_of_Z. cbn [this Qcmult Q2Qc]. rewrite !Qred_correct. unfold Qlt, inject_Z. cbn. lia.
Qed.

(** ** The scores of one classifier *)
Lemma evaluate_dev_of {P} ord (e : est P) TX TY n l cP cT ne cov occ nr :
  evaluate ord e (TX, TY) = Ok (expected_results n l cP cT ne cov occ nr) -> evaluate_dev ord e TX TY = Ok (dev_results n l cP cT cov occ nr).
Proof.
  unfold evaluate, evaluate_dev. cbn [fst snd]. destruct (predict e TX) as [pr|x]; [|done]. cbn [rbind].
  change (new_evaluator ["micro_f1"; "macro_f1"; "hamming_accuracy"]) with (Ok ["micro_f1"; "macro_f1"; "hamming_accuracy"]). cbn [rbind].
  unfold report, available_metrics. cbn [rfold].
  change (name2func "hamming_accuracy") with (Ok hamming_accuracy).
  change (name2func "subset_accuracy") with (Ok subset_accuracy).
  change (name2func "micro_precision") with (Ok micro_precision).
  change (name2func "micro_recall") with (Ok micro_recall).
  change (name2func "micro_f1") with (Ok micro_f1).
  change (name2func "macro_precision") with (Ok macro_precision).
  change (name2func "macro_recall") with (Ok macro_recall).
  change (name2func "macro_f1") with (Ok macro_f1).
  cbn [rbind].
  destruct (hamming_accuracy pr TY) as [v1|]; [|done]. cbn [rbind]. destruct (subset_accuracy pr TY) as [v2|]; [|done]. cbn [rbind].
  destruct (micro_precision pr TY) as [v3|]; [|done]. cbn [rbind]. destruct (micro_recall pr TY) as [v4|]; [|done]. cbn [rbind].
  destruct (micro_f1 pr TY) as [v5|]; [|done]. cbn [rbind]. destruct (macro_precision pr TY) as [v6|]; [|done]. cbn [rbind].
  destruct (macro_recall pr TY) as [v7|]; [|done]. cbn [rbind]. destruct (macro_f1 pr TY) as [v8|]; [|done]. cbn [rbind].
  destruct (match coverage_ratio ord e with Ok v => Ok (Some v) | Err NonFinite => Ok None | Err x => Err x end) as [cv|]; [|done]. cbn [rbind].
  intros H. injection H as -> -> -> -> -> -> -> -> -> ->. reflexivity.
Qed.

Definition rules_of {W} (g : gs W) : list (list Z * list Z) := map (fun s => (r_head (sr_rule s), r_tail (sr_rule s))) (g_rules g).

Section scores.
  Context {W : Type} (S : samplers W) (cls : greedy_class) (ord : gset Z -> list Z) (fuel : nat) (X Y DX DY : csr) (dev : list Z) (p : gparams) (w : W).
  Context (FX FY : csr).
  Context (Ho : set_order ord) (HwX : wf_cmat (csr_mat X) = true) (HwY : wf_cmat (csr_mat Y) = true) (HXY : csr_rows X = csr_rows Y) (HbY : binary (csr_mat Y)).
  Context (HRX : rows_of DX FX dev) (HRY : rows_of DY FY dev) (HbD : binary (csr_mat DY)) (Hdev : forall i, i ∈ dev -> 0 <= i < csr_rows FX).
  Context (Hne : dev <> []) (Hcols : csr_cols FY = csr_cols Y) (H2 : 2 <= csr_cols Y) (Hi : iter_ok S) (Htv : tails_valid S (csr_cols Y)) (Hcls : cls <> DivMax).

  Lemma scored g cP cT occ cov E : fit S cls ord fuel X Y (new_classifier p w) = (Ok tt, g) ->
    rows_predicted (rules_of g) FX dev cP -> rows_cells FY dev cT -> equal_rows (zlen dev) cP cT E -> SEval.cells_of Y occ -> occ <> ∅ ->
    covered_cells X Y (rules_of g) cov ->
    evaluate ord (g_est g) (DX, DY) = Ok (expected_results (zlen dev) (csr_cols Y) cP cT (size E) (size cov) (size occ) (zlen (rules_of g))).
  Proof.
    intros Hf HcP HcT HE Hocc Hocn Hcov. destruct (fit_rules _ _ _ _ _ _ _ _ _ Hi Hcls Hf) as (Hnl & Htr & bs & Hbs & Hgen).
    pose proof HRX as (HwDX & HrDX & HcDX & _). pose proof HRY as (HwDY & HrDY & HcDY & _).
    rewrite <- HrDY, <- Hcols, <- HcDY.
    apply (evaluate_ok S ord p g bs X Y DX DY cP cT occ cov E (rules_of g)); try done.
    - congruence.
    - rewrite HrDY. unfold zlen. destruct dev; [done|cbn [length]; lia].
    - congruence.
    - rewrite HcDY, Hcols. done.
    - intros i j. rewrite (HcP i j). symmetry. by apply rows_fires.
    - intros i j. rewrite (HcT i j). symmetry. by apply rows_has.
    - intros i. rewrite (HE i), HrDY. done.
  Qed.

  (** it can always be computed *)
  Lemma scored_sets g (rules := rules_of g) occ : SEval.cells_of Y occ -> fit S cls ord fuel X Y (new_classifier p w) = (Ok tt, g) ->
    exists cP cT cov E, rows_predicted rules FX dev cP /\ rows_cells FY dev cT /\ equal_rows (zlen dev) cP cT E /\ covered_cells X Y rules cov.
  Proof.
    intros Hocc Hf. destruct (fit_rules _ _ _ _ _ _ _ _ _ Hi Hcls Hf) as (Hnl & Htr & bs & Hbs & Hgen).
    destruct (finite_sub (fun x : Z * Z => 0 <= fst x /\ exists i, dev !! Z.to_nat (fst x) = Some i /\ fires rules FX i (snd x))
      (list_to_set (k ← py_range (zlen dev); j ← py_range (csr_cols Y); [(k, j)]))) as [cP HP].
    destruct (finite_sub (fun x : Z * Z => 0 <= fst x /\ exists i, dev !! Z.to_nat (fst x) = Some i /\ csr_has FY i (snd x))
      (list_to_set (PGreedyBase.cell_list DY))) as [cT HT].
    destruct (finite_sub (fun x : Z * Z => exists h t, (h, t) ∈ rules /\ covers (tocsc X) (tocsc Y) h t x) occ) as [cov HC].
    destruct (finite_sub (fun k => forall j, (k, j) ∈ cP <-> (k, j) ∈ cT) (list_to_set (py_range (zlen dev)) : gset Z)) as [E HE].
    exists cP, cT, cov, E. split_and!.
    - intros k j. rewrite HP. cbn [fst snd]. split; [tauto|]. intros (Hk & i & Ei & Hfi). split; [|split; [done|by exists i]].
      apply elem_of_list_to_set. apply elem_of_list_bind. exists k. split; [|apply elem_of_py_range; apply lookup_lt_Some in Ei; unfold zlen; lia].
      apply elem_of_list_bind. exists j. split; [by apply elem_of_list_singleton|]. apply elem_of_py_range.
      destruct Hfi as (_ & h & t & Hin & _ & Hj). unfold rules, rules_of in Hin. rewrite Hbs in Hin. apply elem_of_map in Hin as (s & Es & Hs). apply elem_of_map in Hs as (b & -> & Hb).
      cbn [sr_rule] in Es. injection Es as -> ->.
      destruct (generated_tail S _ _ _ _ _ Ho HwY Htv (Hgen b Hb)) as (h0 & t0 & Hb' & Hx & Hr). 
      assert (SRule.dataset (tocsc X) (tocsc Y)) as Hd by by apply dataset_tocsc.
      destruct (bound_new ord (tocsc X) (tocsc Y) h0 t0 b) as [Er _]; [done|done|intros x Hxx; apply Hr in Hxx; lia|done|].
      rewrite Er in Hj. cbn [r_tail new_rule] in Hj. rewrite (py_sorted_perm t0) in Hj. by apply Hr.
    - intros k j. rewrite HT. cbn [fst snd]. split; [tauto|]. intros (Hk & i & Ei & Hfi). split; [|split; [done|by exists i]].
      apply elem_of_list_to_set. apply PGreedyBase.elem_of_cell_list; [apply HRY|]. apply (rows_has _ _ _ _ _ HRY). split; [done|]. by exists i.
    - intros k. rewrite HE, elem_of_list_to_set, elem_of_py_range. done.
    - intros x. rewrite HC. split; [tauto|]. intros (h & t & Hin & Hcv). split; [|by exists h, t]. destruct x as [i j]. apply Hocc.
      destruct Hcv as (_ & Hm & Hj). cbn [fst snd] in *. apply tocsc_has; [done|]. by apply Hm.
  Qed.
End scores.

(** ** The classifier of a configuration *)
Lemma configured_run c version cls vl vt vh vm lambd nt nh nm : (version = "v2" /\ cls = DivMaxV2) \/ (version = "v3" /\ cls = DivMaxV3) ->
  chosen documented_v23 c "lambd" vl -> real_of vl lambd ->
  chosen documented_v23 c "n_tails_per_iter" vt -> vt = VInt nt ->
  chosen documented_v23 c "n_heads_per_tail" vh -> vh = VInt nh ->
  chosen documented_v23 c "n_max_rules" vm -> limit_of vm nm ->
  exists clf h t af al, create_greedy_clf_from_config_by_version c version = Ok clf /\
    read_class clf = Ok cls /\ read_params clf = Ok (GParams lambd nt nh nm 0) /\ attr clf "head_sampler" = Ok h /\ attr clf "tail_sampler" = Ok t /\
    chosen documented_v23 c "min_feature_proba" af /\ head_sampler_with af h /\ chosen documented_v23 c "min_label_proba" al /\ tail_sampler_with al t.
Proof.
  intros Hv Cl Hl Ct Ht Ch Hh Cm Hm. destruct docs_nodup as [_ Hn].
  assert (forall key dflt v, (key, dflt) ∈ documented_v23 -> chosen documented_v23 c key v -> v = cfg_get c key dflt) as Get.
  { intros key dflt v Hi. by apply chosen_get. }
  apply (Get _ (VFloat (Q2Qc 10))) in Cl; [|unfold documented_v23; pick_attr].
  apply (Get _ (VInt 100)) in Ct; [|unfold documented_v23; pick_attr].
  apply (Get _ (VInt 10)) in Ch; [|unfold documented_v23; pick_attr].
  apply (Get _ (VInt 10)) in Cm; [|unfold documented_v23; pick_attr].
  set (af := cfg_get c "min_feature_proba" (VFloat (Q2Qc (4 # 5)))).
  set (al := cfg_get c "min_label_proba" (VFloat (Q2Qc (4 # 5)))).
  assert (exists clf h, create_greedy_clf_from_config_by_version c version = Ok clf /\
    read_class clf = Ok cls /\ read_params clf = Ok (GParams lambd nt nh nm 0) /\
    attr clf "head_sampler" = Ok h /\ head_sampler_with af h /\
    attr clf "tail_sampler" = Ok (new_ua_sampler (VInt 12345) al (VBool true) (VStr "dfs_v2"))) as
    (clf & h & Hcr & Hrc & Hrp & Hah & Hh' & Hat).
  { destruct Hv as [[-> ->]|[-> ->]].
    - change (create_greedy_clf_from_config_by_version c "v2") with (create_greedy_v2_from_config c).
      unfold create_greedy_v2_from_config. subst af al. rewrite <- four_fifths.
      cbn [V2Default d_lambd d_n_tails_per_iter d_n_heads_per_tail d_n_max_rules d_min_feature_proba d_min_label_proba Default].
      rewrite <- Cl, <- Ct, <- Ch, <- Cm. eapply (read_v23 c); eauto.
    - change (create_greedy_clf_from_config_by_version c "v3") with (create_greedy_v3_from_config c).
      unfold create_greedy_v3_from_config. subst af al. rewrite <- four_fifths.
      cbn [V3Default V2Default d_lambd d_n_tails_per_iter d_n_heads_per_tail d_n_max_rules d_min_feature_proba d_min_label_proba Default].
      rewrite <- Cl, <- Ct, <- Ch, <- Cm. eapply (read_v23 c); eauto. }
  exists clf, h. eexists. exists af, al. split_and!; try done.
  - apply (chosen_get _ _ _ (VFloat (Q2Qc (4 # 5)))); [done|unfold documented_v23; pick_attr|done].
  - apply (chosen_get _ _ _ (VFloat (Q2Qc (4 # 5)))); [done|unfold documented_v23; pick_attr|done].
  - apply tail_sampler_ok.
Qed.

Lemma dev_keys n l cP cT cov occ nr : map fst (dev_results n l cP cT cov occ nr) = ["micro_f1"; "macro_f1"; "hamming_accuracy"; "n_rules"; "coverage"].
Proof. reflexivity. Qed.
Lemma dev_numbers n l cP cT cov occ nr k p : (k, p) ∈ dev_results n l cP cT cov occ nr -> exists v, number p v.
Proof. unfold dev_results. rewrite !elem_of_cons, elem_of_nil. intros [ [= _ -> ] | [ [= _ -> ] | [ [= _ -> ] | [ [= _ -> ] | [ [= _ -> ] | [] ] ] ] ] ]; eexists; constructor. Qed.
Lemma expected_numbers n l cP cT ne cov occ nr k p : (k, p) ∈ expected_results n l cP cT ne cov occ nr -> exists v, number p v.
Proof.
  unfold expected_results. cbv zeta. rewrite !elem_of_cons, elem_of_nil.
  intros H. repeat (destruct H as [ [= _ -> ] | H ]; [eexists; constructor|]). done.
Qed.

(** the parts of the split *)
Lemma split_parts perm X Y : (forall n, 0 <= n -> perm n ≡ₚ py_range n) -> wf_cmat (csr_mat X) = true -> wf_cmat (csr_mat Y) = true ->
  csr_rows X = csr_rows Y -> binary (csr_mat Y) -> 2 <= csr_rows X ->
  exists train dev tX tY dX dY, train_test_split perm X Y (Q2Qc (7 # 10)) = Ok (tX, dX, tY, dY) /\
    train ++ dev ≡ₚ py_range (csr_rows X) /\ zlen train = 7 * csr_rows X / 10 /\ train <> [] /\ dev <> [] /\
    rows_of tX X train /\ rows_of tY Y train /\ rows_of dX X dev /\ rows_of dY Y dev /\ binary (csr_mat tY) /\ binary (csr_mat dY) /\ dev = take (length dev) (perm (csr_rows X)).
Proof.
  intros Hperm HwX HwY Hr HbY Hn. pose proof (seven_tenths _ Hn) as Hs. rewrite (split_ok perm X Y _ _ Hr Hs). cbv zeta.
  set (nt := 7 * csr_rows X / 10) in *. set (n := csr_rows X) in *. pose proof (Hperm n ltac:(lia)) as Hp. set (q := perm n) in *.
  assert (Hlen : length q = Z.to_nat n) by (rewrite Hp; apply length_py_range).
  assert (Hnt : 1 <= nt < n). { unfold nt. split; [apply Z.div_le_lower_bound; lia|apply Z.div_lt_upper_bound; lia]. }
  set (itr := take (Z.to_nat nt) (drop (Z.to_nat (n - nt)) q)). set (idev := take (Z.to_nat (n - nt)) q).
  assert (Hcat : idev ++ itr = q). { unfold idev, itr. rewrite (take_ge (drop _ q)) by (rewrite drop_length; lia). apply take_drop. }
  assert (Hin : forall i, i ∈ itr \/ i ∈ idev -> 0 <= i < n). { intros i Hi. apply elem_of_py_range. rewrite <- Hp, <- Hcat, elem_of_app. tauto. }
  assert (Hl1 : length itr = Z.to_nat nt) by (unfold itr; rewrite take_length, drop_length; lia).
  assert (Hl2 : length idev = Z.to_nat (n - nt)) by (unfold idev; rewrite take_length; lia).
  exists itr, idev. do 4 eexists. split; [reflexivity|]. split; [by rewrite (Permutation_app_comm itr idev), Hcat|]. split; [unfold zlen; lia|].
  split; [intros E; rewrite E in Hl1; cbn in Hl1; lia|]. split; [intros E; rewrite E in Hl2; cbn in Hl2; lia|].
  split_and!; try (apply take_rows_of; try done; intros i Hi; try (rewrite <- Hr); apply Hin; tauto).
  - apply take_binary; try done. intros i Hi. rewrite <- Hr. apply Hin. tauto.
  - apply take_binary; try done. intros i Hi. rewrite <- Hr. apply Hin. tauto.
  - by rewrite Hl2.
Qed.

Lemma expected_keys n l cP cT ne cov occ nr : map fst (expected_results n l cP cT ne cov occ nr) = (available_metrics ++ ["coverage"; "n_rules"])%list.
Proof. reflexivity. Qed.

Lemma dev_nodup : NoDup ["micro_f1"; "macro_f1"; "hamming_accuracy"; "n_rules"; "coverage"].
Proof. apply (bool_decide_eq_true_1 _). vm_compute. reflexivity. Qed.
Lemma expected_nodup : NoDup (available_metrics ++ ["coverage"; "n_rules"])%list.
Proof. apply (bool_decide_eq_true_1 _). vm_compute. reflexivity. Qed.

Lemma C92_trial_proof : forall (W : Type) (S : pyval -> pyval -> samplers W) (w0 : nat -> W) (ord : gset Z -> list Z) (fuel : nat)
    (ds_load : sx Data.dataset unit) (perm : Z -> list Z) (c : config) (d d' : Data.dataset)
    (vl vt vh vm : pyval) (lambd : R) (n_tails n_heads : Z) (n_max : option Z) (X Y : csr) (occ : gset (Z * Z)),
  set_order ord -> (forall n, 0 <= n -> perm n ≡ₚ py_range n) ->
  chosen documented_v23 c "lambd" vl -> real_of vl lambd ->
  chosen documented_v23 c "n_tails_per_iter" vt -> vt = VInt n_tails ->
  chosen documented_v23 c "n_heads_per_tail" vh -> vh = VInt n_heads ->
  chosen documented_v23 c "n_max_rules" vm -> limit_of vm n_max ->
  is_Some (c !! "dataset") -> ds_load d = (Ok tt, d') -> ds_trn d' = Some (X, Y) ->
  wf_cmat (csr_mat X) = true -> wf_cmat (csr_mat Y) = true -> csr_rows X = csr_rows Y -> binary (csr_mat Y) ->
  2 <= csr_rows X -> 2 <= csr_cols Y -> SEval.cells_of Y occ -> occ <> ∅ ->
  exists h t af al dev,
    chosen documented_v23 c "min_feature_proba" af /\ head_sampler_with af h /\
    chosen documented_v23 c "min_label_proba" al /\ tail_sampler_with al t /\
    NoDup dev /\ (forall r, r ∈ dev -> 0 <= r < csr_rows X) /\ zlen dev = csr_rows X - 7 * csr_rows X / 10 /\
    dev = take (length dev) (perm (csr_rows X)) /\
    (iter_ok (S h t) -> tails_valid (S h t) (csr_cols Y) ->
     forall (G : nat -> gs W),
       let fitted i r g := fit (S h t) DivMaxV2 ord fuel X Y (new_classifier (GParams lambd n_tails n_heads n_max 0) (w0 i)) = (r, g) in
       (forall n e g, (n < 10)%nat -> (forall i, (i < n)%nat -> fitted i (Ok tt) (G i)) -> fitted n (Err e) g ->
          trial S w0 ord fuel ds_load perm c d = (Err e, d')) /\
       ((forall i, (i < 10)%nat -> fitted i (Ok tt) (G i)) ->
        forall (rules : nat -> list (list Z * list Z)) (cP cov : nat -> gset (Z * Z)) (cT : gset (Z * Z)),
          (forall i, (i < 10)%nat -> rules i = map (fun s => (r_head (sr_rule s), r_tail (sr_rule s))) (g_rules (G i)) /\
             rows_predicted (rules i) X dev (cP i) /\ covered_cells X Y (rules i) (cov i)) ->
          rows_cells Y dev cT ->
          exists out, trial S w0 ord fuel ds_load perm c d = (Ok (map G (seq 0 10), out), d') /\
            averaged (map (fun i => dev_results (zlen dev) (csr_cols Y) (cP i) cT (size (cov i)) (size occ) (zlen (rules i))) (seq 0 10)) out)).
Proof.
  intros W S w0 ord fuel ds_load perm c d d' vl vt vh vm lambd nt nh nm X Y occ Ho Hperm Cl Hl Ct Ht Ch Hh Cm Hm [vd Hds] Hload Htrn HwX HwY Hr HbY Hn H2 Hocc Hocn.
  destruct (configured_run c "v2" DivMaxV2 vl vt vh vm lambd nt nh nm) as (clf & h & t & af & al & Hcr & Hrc & Hrp & Hah & Hat & Caf & Hh' & Cal & Ht'); try done; [by left|].
  destruct (split_parts perm X Y Hperm HwX HwY Hr HbY Hn) as (train & dev & tX & tY & dX & dY & Esp & Hpm & Hlt & Htn & Hdn & RtX & RtY & RdX & RdY & BtY & BdY & Etk).
  exists h, t, af, al, dev. split_and!; try done.
  - assert (Hnd : NoDup (train ++ dev)) by (rewrite Hpm; apply NoDup_py_range). by apply NoDup_app in Hnd as (_ & _ & ?).
  - intros r Hr'. apply elem_of_py_range. rewrite <- Hpm. set_solver.
  - assert (length (train ++ dev) = Z.to_nat (csr_rows X)) as El by (rewrite Hpm; apply length_py_range). rewrite app_length in El. unfold zlen in *. lia.
  - assert (Hdev : forall i, i ∈ dev -> 0 <= i < csr_rows X). { intros i Hi. apply elem_of_py_range. rewrite <- Hpm. set_solver. }
    intros Hi Htv G fitted.
    assert (Hrun : trial S w0 ord fuel ds_load perm c d =
      match srepeat (dev_run S w0 ord fuel c X Y dX dY) 0 10 d' with (Ok l, s) => (Ok (map fst l, mean_perf (map snd l)), s) | (Err e, s) => (Err e, s) end).
    { unfold trial, sbind, slift, get_trn, sget. rewrite Hds. cbn [sret]. rewrite Hload. unfold sbind. rewrite Htrn. cbn [sret fst snd]. rewrite Esp.
      change N_REPEATS with 10%nat. destruct (srepeat _ _ _ _) as [[l|e] s]; reflexivity. }
    assert (Hstep : forall i, dev_run S w0 ord fuel c X Y dX dY i d' =
      match fit (S h t) DivMaxV2 ord fuel X Y (new_classifier (GParams lambd nt nh nm 0) (w0 i)) with
      | (Err e, _) => (Err e, d')
      | (Ok _, g) => match evaluate_dev ord (g_est g) dX dY with Ok perf => (Ok (g, perf), d') | Err e => (Err e, d') end end).
    { intros i. unfold dev_run, sbind, slift. change (create_greedy_clf_from_config_by_version c "v2") with (create_greedy_v2_from_config c) in Hcr.
      rewrite Hcr, Hrc, Hrp, Hah, Hat. destruct (fit _ _ _ _ _ _ _) as [[[]|e] g]; [|done]. destruct (evaluate_dev _ _ _ _); done. }
    assert (Hone : forall i g cP cT cov, fitted i (Ok tt) g -> rows_predicted (rules_of g) X dev cP -> rows_cells Y dev cT -> covered_cells X Y (rules_of g) cov ->
      dev_run S w0 ord fuel c X Y dX dY i d' = (Ok (g, dev_results (zlen dev) (csr_cols Y) cP cT (size cov) (size occ) (zlen (rules_of g))), d')).
    { intros i g cP cT cov Hf HcP HcT Hcov. rewrite Hstep, Hf.
      destruct (finite_sub (fun k => forall j, (k, j) ∈ cP <-> (k, j) ∈ cT) (list_to_set (py_range (zlen dev)) : gset Z)) as [E HE].
      erewrite evaluate_dev_of; [reflexivity|]. eapply (scored (S h t) DivMaxV2) with (FX := X) (FY := Y) (X := X) (Y := Y) (E := E); try exact Hf; try done.
      intros k. rewrite HE, elem_of_list_to_set, elem_of_py_range. done. }
    rewrite Hrun. split.
    + intros n e g Hn10 Hok He.
      destruct (finite_sub (fun x : Z * Z => 0 <= fst x /\ exists i, dev !! Z.to_nat (fst x) = Some i /\ csr_has Y i (snd x)) (list_to_set (PGreedyBase.cell_list dY))) as [cT0 HT0].
      assert (forall i, (i < n)%nat -> exists a, dev_run S w0 ord fuel c X Y dX dY i d' = (Ok a, d')) as Hall.
      { intros i Hin. edestruct (scored_sets (S h t) DivMaxV2) with (DY := dY) (FX := X) (FY := Y) (dev := dev) (occ := occ) (g := G i) (X := X) (Y := Y) (ord := ord) (fuel := fuel) (p := GParams lambd nt nh nm 0) (w := w0 i) as (cP & cT & cov & E & K1 & K2 & K3 & K4); [try exact (Hok i Hin); try done..|].
        eexists. eapply Hone; [exact (Hok i Hin)|done..]. }
      assert (exists a : nat -> gs W * list (string * perf_val), forall i, (i < n)%nat -> dev_run S w0 ord fuel c X Y dX dY i d' = (Ok (a i), d')) as [a Ha].
      { clear - Hall G. induction n as [|n IH]; [by exists (fun i => (G i, [])); intros; lia|]. destruct IH as [a Ha]; [intros i Hi; apply Hall; lia|].
        destruct (Hall n ltac:(lia)) as [b Hb]. exists (fun i => if decide (i = n) then b else a i). intros i Hi. destruct (decide (i = n)) as [->|]; [done|]. apply Ha. lia. }
      rewrite (srepeat_err _ a d' n e 10 0); [done|lia| |].
      * intros j Hj. apply Ha. lia.
      * rewrite Hstep, He. done.
    + intros Hok rules cP cov cT Hall HcT. rewrite (srepeat_ok _ (fun i => (G i, dev_results (zlen dev) (csr_cols Y) (cP i) cT (size (cov i)) (size occ) (zlen (rules i)))) d' 10 0).
      * eexists. rewrite !map_map. split; [reflexivity|]. eapply mean_averaged; [done|exact dev_nodup| |].
        -- intros r Hr'. apply elem_of_map in Hr' as (i & -> & _). reflexivity.
        -- intros r k p Hr' Hk. apply elem_of_map in Hr' as (i & -> & _). by apply dev_numbers in Hk.
      * intros j Hj. destruct (Hall j ltac:(lia)) as (Er & K1 & K2). rewrite Er in *. apply Hone; [apply Hok; lia|done..].
Qed.


(** loading again gives the same dataset *)
Lemma load_twice perm X Y TX TY ln fn d tX dX tY dY : shapes_ok X Y TX TY -> ds_split_train d = true -> ds_train_ratio d = Q2Qc (7 # 10) ->
  train_test_split perm X Y (Q2Qc (7 # 10)) = Ok (tX, dX, tY, dY) ->
  exists d1, load perm X Y TX TY ln fn d = (Ok tt, d1) /\ load perm X Y TX TY ln fn d1 = (Ok tt, d1) /\ ds_trn d1 = Some (tX, tY) /\ ds_dev d1 = Some (dX, dY).
Proof.
  intros Hsh Hsp Hra Esp. destruct d as [sp ra tr ts dv l1 l2 f1 f2 fr g]. cbn [ds_split_train ds_train_ratio] in Hsp, Hra. subst sp ra.
  assert (H : forall tr ts dv l1 l2 f1 f2 fr, load perm X Y TX TY ln fn (Dataset true (Q2Qc (7 # 10)) tr ts dv l1 l2 f1 f2 fr g) =
    (Ok tt, Dataset true (Q2Qc (7 # 10)) (Some (tX, tY)) (Some (TX, TY)) (Some (dX, dY)) (Some ln) (Some (name_map ln)) (Some fn) (Some (name_map fn)) (Some (Graph.label_freq (tocsc Y))) g)).
  { intros. unfold load, sbind, slift, smod. rewrite (check_shapes_ok _ _ _ _ Hsh).
    unfold split_train_if_needed, sbind, sget, get_trn, sbind, sget, slift, smod, set_maps, set_matrices, set_trn, set_dev.
    cbn [ds_split_train ds_train_ratio ds_trn ds_tst ds_dev ds_label_names ds_label2id ds_feature_names ds_feature2id ds_label_freq ds_g sret fst snd]. rewrite Esp. reflexivity. }
  eexists. split; [apply H|]. split; [apply H|]. done.
Qed.

Lemma C92_held_out_proof : forall (W : Type) (S : pyval -> pyval -> samplers W) (w0 : nat -> W) (ord : gset Z -> list Z) (fuel : nat)
    (perm : Z -> list Z) (c : config) (version : string) (cls : greedy_class) (d : Data.dataset)
    (vl vt vh vm : pyval) (lambd : R) (n_tails n_heads : Z) (n_max : option Z) (X Y TX TY : csr) (ln fn : list string),
  set_order ord -> (forall n, 0 <= n -> perm n ≡ₚ py_range n) ->
  (version = "v2" /\ cls = DivMaxV2) \/ (version = "v3" /\ cls = DivMaxV3) -> c !! "greedy_version" = Some (VStr version) ->
  chosen documented_v23 c "lambd" vl -> real_of vl lambd ->
  chosen documented_v23 c "n_tails_per_iter" vt -> vt = VInt n_tails ->
  chosen documented_v23 c "n_heads_per_tail" vh -> vh = VInt n_heads ->
  chosen documented_v23 c "n_max_rules" vm -> limit_of vm n_max ->
  is_Some (c !! "dataset") -> is_Some (c !! "experiment_name") ->
  ds_split_train d = true -> ds_train_ratio d = Q2Qc (7 # 10) -> shapes_ok X Y TX TY ->
  wf_cmat (csr_mat X) = true -> wf_cmat (csr_mat Y) = true -> binary (csr_mat Y) -> 2 <= csr_rows X -> 2 <= csr_cols Y ->
  exists h t af al train dev tX tY d',
    chosen documented_v23 c "min_feature_proba" af /\ head_sampler_with af h /\
    chosen documented_v23 c "min_label_proba" al /\ tail_sampler_with al t /\
    train ++ dev ≡ₚ py_range (csr_rows X) /\ zlen train = 7 * csr_rows X / 10 /\
    rows_of tX X train /\ rows_of tY Y train /\ ds_trn d' = Some (tX, tY) /\
    (iter_ok (S h t) -> tails_valid (S h t) (csr_cols Y) ->
     forall (G : nat -> gs W) (occ : gset (Z * Z)), SEval.cells_of tY occ -> occ <> ∅ ->
       let fitted i r g := fit (S h t) cls ord fuel tX tY (new_classifier (GParams lambd n_tails n_heads n_max 0) (w0 i)) = (r, g) in
       (forall n e g, (n < 10)%nat -> (forall i, (i < n)%nat -> fitted i (Ok tt) (G i)) -> fitted n (Err e) g ->
          trial_greedy S w0 ord fuel (load perm X Y TX TY ln fn) c d = (Err e, d')) /\
       ((forall i, (i < 10)%nat -> fitted i (Ok tt) (G i)) ->
        forall (rules : nat -> list (list Z * list Z)) (cP cov : nat -> gset (Z * Z)) (E : nat -> gset Z) (cT : gset (Z * Z)),
          (forall i, (i < 10)%nat -> rules i = map (fun s => (r_head (sr_rule s), r_tail (sr_rule s))) (g_rules (G i)) /\
             rows_predicted (rules i) X dev (cP i) /\ equal_rows (zlen dev) (cP i) cT (E i) /\ covered_cells tX tY (rules i) (cov i)) ->
          rows_cells Y dev cT ->
          exists out, trial_greedy S w0 ord fuel (load perm X Y TX TY ln fn) c d = (Ok (map G (seq 0 10), out), d') /\
            averaged (map (fun i => expected_results (zlen dev) (csr_cols Y) (cP i) cT (size (E i)) (size (cov i)) (size occ) (zlen (rules i))) (seq 0 10)) out)).
Proof.
  intros W S w0 ord fuel perm c version cls d vl vt vh vm lambd nt nh nm X Y TX TY ln fn Ho Hperm Hv Hgv Cl Hl Ct Ht Ch Hh Cm Hm [vd Hds] [ve Hex] Hsp Hra Hsh HwX HwY HbY Hn H2.
  destruct (configured_run c version cls vl vt vh vm lambd nt nh nm) as (clf & h & t & af & al & Hcr & Hrc & Hrp & Hah & Hat & Caf & Hh' & Cal & Ht'); try done.
  pose proof Hsh as (Hr & _).
  destruct (split_parts perm X Y Hperm HwX HwY Hr HbY Hn) as (train & dev & tX & tY & dX & dY & Esp & Hpm & Hlt & Htn & Hdn & RtX & RtY & RdX & RdY & BtY & BdY & Etk).
  destruct (load_twice perm X Y TX TY ln fn d tX dX tY dY Hsh Hsp Hra Esp) as (d' & L1 & L2 & Htrn & Hdv).
  exists h, t, af, al, train, dev, tX, tY, d'. split_and!; try done.
  assert (Hdev : forall i, i ∈ dev -> 0 <= i < csr_rows X). { intros i Hi. apply elem_of_py_range. rewrite <- Hpm. set_solver. }
  pose proof RtX as (HwtX & HrtX & HctX & _). pose proof RtY as (HwtY & HrtY & HctY & _).
  assert (Hcls : cls <> DivMax) by (destruct Hv as [[_ ->]|[_ ->]]; done).
  intros Hi Htv G occ Hocc Hocn fitted.
  set (ld := load perm X Y TX TY ln fn) in *.
  set (f := fun i : nat => let^ _ := match c !! "experiment_name" with Some _ => sret tt | None => serr KeyError end in tune_run S (w0 i) ord fuel ld c).
  assert (Hrun : trial_greedy S w0 ord fuel ld c d = match srepeat f 0 10 d with (Ok l, s) => (Ok (map fst l, mean_perf (map snd l)), s) | (Err e, s) => (Err e, s) end).
  { unfold trial_greedy, sbind. rewrite Hds. cbn [sret]. change N_REPEATS with 10%nat. fold f. unfold f, sbind. destruct (srepeat _ _ _ _) as [[l|e] s]; reflexivity. }
  assert (Hstep : forall s i, ld s = (Ok tt, d') -> f i s = match fit (S h t) cls ord fuel tX tY (new_classifier (GParams lambd nt nh nm 0) (w0 i)) with
      | (Err e, _) => (Err e, d')
      | (Ok _, g) => match evaluate ord (g_est g) (dX, dY) with Ok perf => (Ok (g, perf), d') | Err e => (Err e, d') end end).
  { intros s i Hs. unfold f, sbind at 1. rewrite Hex. cbn [sret]. unfold tune_run. rewrite Hgv. unfold call_train, sbind at 1, slift at 1.
    change (bind_call train_sig [ADataset; AConfig c] [("greedy_version", AVal (VStr version)); ("validation_mode", AVal (VBool true))])
      with (Ok [("ds", ADataset); ("config", AConfig c); ("greedy_version", AVal (VStr version)); ("validation_mode", AVal (VBool true))]). cbn [map snd].
    unfold train_greedy_and_eval, sbind, slift, get_trn, get_dev, sget. rewrite Hs, Hcr, Hrc, Hrp, Hah, Hat. unfold sbind. rewrite Htrn. unfold sret. cbn [fst snd].
    destruct (fit _ _ _ _ _ _ _) as [[[]|e] g]; [|done]. rewrite Hdv. destruct (evaluate ord (g_est g) (dX, dY)); done. }
  assert (Hone : forall s i g cP cT cov E, ld s = (Ok tt, d') -> fitted i (Ok tt) g -> rows_predicted (rules_of g) X dev cP -> rows_cells Y dev cT -> equal_rows (zlen dev) cP cT E -> covered_cells tX tY (rules_of g) cov ->
      f i s = (Ok (g, expected_results (zlen dev) (csr_cols Y) cP cT (size E) (size cov) (size occ) (zlen (rules_of g))), d')).
  { intros s i g cP cT cov E Hs Hf HcP HcT HE Hcov. rewrite (Hstep s i Hs), Hf.
    erewrite (scored (S h t) cls) with (FX := X) (FY := Y) (X := tX) (Y := tY) (E := E) (occ := occ) (cov := cov) (cP := cP) (cT := cT) (dev := dev); [by rewrite HctY| | | | | | | | | | | | | | | |exact Hf|..]; try done.
    - congruence.
    - by rewrite HctY.
    - by rewrite HctY. }
  rewrite Hrun. split.
  - intros n e g Hn10 Hok He.
    assert (forall i, (i < n)%nat -> exists a, forall s, ld s = (Ok tt, d') -> f i s = (Ok a, d')) as Hall.
    { intros i Hin. edestruct (scored_sets (S h t) cls) with (DY := dY) (FX := X) (FY := Y) (dev := dev) (occ := occ) (g := G i) (X := tX) (Y := tY) (ord := ord) (fuel := fuel) (p := GParams lambd nt nh nm 0) (w := w0 i)
        as (cP & cT & cov & E & K1 & K2 & K3 & K4); [try exact (Hok i Hin); try done; try (by rewrite HctY); try congruence..|].
      eexists. intros s Hs. eapply Hone; [exact Hs|exact (Hok i Hin)|done..]. }
    assert (exists a : nat -> gs W * list (string * perf_val), forall i s, (i < n)%nat -> ld s = (Ok tt, d') -> f i s = (Ok (a i), d')) as [a Ha].
    { clear - Hall G. induction n as [|n IH]; [by exists (fun i => (G i, [])); intros; lia|]. destruct IH as [a Ha]; [intros i Hi; apply Hall; lia|].
      destruct (Hall n ltac:(lia)) as [b Hb]. exists (fun i => if decide (i = n) then b else a i). intros i s Hi Hs. destruct (decide (i = n)) as [->|]; [by apply Hb|]. apply Ha; [lia|done]. }
    rewrite (srepeat_err1 f a d d' n e 9); [done|lia|by intros; apply Ha|by intros; apply Ha| |].
    + by rewrite (Hstep d n L1), He.
    + by rewrite (Hstep d' n L2), He.
  - intros Hok rules cP cov E cT Hall HcT.
    rewrite (srepeat_ok1 f (fun i => (G i, expected_results (zlen dev) (csr_cols Y) (cP i) cT (size (E i)) (size (cov i)) (size occ) (zlen (rules i)))) d d' 9).
    + eexists. rewrite !map_map. split; [reflexivity|]. eapply mean_averaged; [done|exact expected_nodup| |].
      * intros r Hr'. apply elem_of_map in Hr' as (i & -> & _). reflexivity.
      * intros r k p Hr' Hk. apply elem_of_map in Hr' as (i & -> & _). by apply expected_numbers in Hk.
    + intros j Hj. destruct (Hall j ltac:(lia)) as (Er & K1 & K2 & K3). rewrite Er in *. apply Hone; [done|apply Hok; lia|done..].
    + intros j Hj. destruct (Hall j ltac:(lia)) as (Er & K1 & K2 & K3). rewrite Er in *. apply Hone; [done|apply Hok; lia|done..].
Qed.


Lemma C92_errors_proof : forall (W : Type) (S : pyval -> pyval -> samplers W) (w0 : nat -> W) (ord : gset Z -> list Z) (fuel : nat)
    (ds_load : sx Data.dataset unit) (perm : Z -> list Z) (c : config) (d d' : Data.dataset) (X Y : csr),
  (c !! "dataset" = None -> trial S w0 ord fuel ds_load perm c d = (Err KeyError, d) /\ trial_greedy S w0 ord fuel ds_load c d = (Err KeyError, d)) /\
  (forall e, is_Some (c !! "dataset") -> ds_load d = (Err e, d') -> trial S w0 ord fuel ds_load perm c d = (Err e, d')) /\
  (is_Some (c !! "dataset") -> ds_load d = (Ok tt, d') -> ds_trn d' = Some (X, Y) -> csr_rows X = csr_rows Y -> 0 <= csr_rows X <= 1 ->
     trial S w0 ord fuel ds_load perm c d = (Err ValueError, d')).
Proof.
  intros W S w0 ord fuel ds_load perm c d d' X Y. split_and!.
  - intros H. unfold trial, trial_greedy, sbind. rewrite H. done.
  - intros e [v H] He. unfold trial, sbind. rewrite H. cbn [sret]. rewrite He. done.
  - intros [v H] Hl Htrn Hr Hn. unfold trial, sbind, slift, get_trn, sget. rewrite H. cbn [sret]. rewrite Hl. unfold sbind. rewrite Htrn. cbn [sret fst snd].
    rewrite split_err; [done|done|lia|]. intros nt (_ & _ & Hnt & Hle & _).
    assert (csr_rows X = 0 \/ csr_rows X = 1) as [E|E] by lia; rewrite E in Hle; unfold Qcle, Qc_of_Z in Hle; cbn [this Qcmult Q2Qc] in Hle; rewrite !Qred_correct in Hle;
      unfold Qle, inject_Z in Hle; cbn in Hle; lia.
Qed.


Lemma update_dict (c : config) (perf : list (string * perf_val)) : NoDup (map fst perf) ->
  forall key, foldl (fun (m : gmap string (pyval + perf_val)) kv => <[fst kv := inr (snd kv)]> m) (inl <$> c) perf !! key =
    match Scripts.assoc perf key with Some v => Some (inr v) | None => inl <$> c !! key end.
Proof.
  intros Hn key. rewrite <- (lookup_fmap (inl : pyval -> pyval + perf_val) c key). generalize (inl <$> c : gmap string (pyval + perf_val)). intros m. revert m Hn.
  induction perf as [|[k v] perf IH]; intros m Hn; [done|]. cbn [foldl map fst snd] in *. apply list.NoDup_cons in Hn as [Hk Hn]. rewrite (IH _ Hn).
  unfold Scripts.assoc in *. cbn [List.find fst snd]. destruct (String.eqb_spec key k) as [->|Hne].
  - cbn [fmap option_fmap option_map snd]. destruct (List.find (fun p : string * perf_val => (k =? fst p)%string) perf) as [[k' v']|] eqn:E; cbn [fmap option_fmap option_map snd].
    + exfalso. apply List.find_some in E as [E1 E2]. cbn [fst] in E2. apply String.eqb_eq in E2 as <-. apply Hk. apply elem_of_map. exists (k, v'). split; [done|]. by apply elem_of_list_In.
    + apply lookup_insert.
  - destruct (List.find _ perf) as [[k' v']|]; cbn [fmap option_fmap option_map snd]; [done|]. by rewrite lookup_insert_ne.
Qed.

Lemma cfg_ne (c : config) (k k' : string) (v : pyval) : k <> k' -> <[k := v]> c !! k' = c !! k'.
Proof. intros H. exact (lookup_insert_ne (c : gmap string pyval) k k' v H). Qed.
Lemma cfg_eq (c : config) (k : string) (v : pyval) : <[k := v]> c !! k = Some v.
Proof. exact (lookup_insert (c : gmap string pyval) k v). Qed.

Lemma C92_n_heads_proof : forall (W : Type) (S : pyval -> pyval -> samplers W) (w0 : nat -> W) (ord : gset Z -> list Z) (fuel : nat)
    (ds_load : sx Data.dataset unit) (c : config) (d d' : Data.dataset) (n_tails n_heads : Z)
    (vl vm : pyval) (lambd : R) (n_max : option Z) (X Y TX TY : csr),
  set_order ord ->
  chosen documented_v23 c "lambd" vl -> real_of vl lambd -> chosen documented_v23 c "n_max_rules" vm -> limit_of vm n_max ->
  ds_load d = (Ok tt, d') -> ds_trn d' = Some (X, Y) -> ds_tst d' = Some (TX, TY) ->
  wf_cmat (csr_mat X) = true -> wf_cmat (csr_mat Y) = true -> csr_rows X = csr_rows Y -> binary (csr_mat Y) ->
  wf_cmat (csr_mat TX) = true -> wf_cmat (csr_mat TY) = true -> binary (csr_mat TY) ->
  csr_rows TX = csr_rows TY -> 1 <= csr_rows TY -> csr_cols TY = csr_cols Y -> 2 <= csr_cols TY ->
  exists h t af al,
    chosen documented_v23 c "min_feature_proba" af /\ head_sampler_with af h /\
    chosen documented_v23 c "min_label_proba" al /\ tail_sampler_with al t /\
    (forall e g, fit (S h t) DivMaxV2 ord fuel X Y (new_classifier (GParams lambd n_tails n_heads n_max 0) (w0 O)) = (Err e, g) ->
       n_heads_run S w0 ord fuel ds_load c n_tails n_heads d = (Err e, d')) /\
    (forall g, fit (S h t) DivMaxV2 ord fuel X Y (new_classifier (GParams lambd n_tails n_heads n_max 0) (w0 O)) = (Ok tt, g) ->
       iter_ok (S h t) -> tails_valid (S h t) (csr_cols Y) ->
       forall (rules : list (list Z * list Z)) (cP cT occ cov : gset (Z * Z)) (E : gset Z),
         rules = map (fun s => (r_head (sr_rule s), r_tail (sr_rule s))) (g_rules g) ->
         (forall i j, (i, j) ∈ cP <-> fires rules TX i j) -> SEval.cells_of TY cT -> equal_rows (csr_rows TY) cP cT E ->
         SEval.cells_of Y occ -> occ <> ∅ -> covered_cells X Y rules cov ->
         exists m, n_heads_run S w0 ord fuel ds_load c n_tails n_heads d = (Ok m, d') /\
           let results := expected_results (csr_rows TY) (csr_cols TY) cP cT (size E) (size cov) (size occ) (zlen rules) in
           (forall key v, (key, v) ∈ results -> m !! key = Some (inr v)) /\
           m !! "n_tails_per_iter" = Some (inl (VInt n_tails)) /\ m !! "n_heads_per_tail" = Some (inl (VInt n_heads)) /\
           (forall key, key ∉ map fst results -> key <> "n_tails_per_iter" -> key <> "n_heads_per_tail" -> m !! key = inl <$> c !! key)).
Proof.
  intros W S w0 ord fuel ds_load c d d' nt nh vl vm lambd nm X Y TX TY Ho Cl Hl Cm Hm Hload Htrn Htst HwX HwY Hr HbY HwTX HwTY HbTY HTr HTn HTc HT2.
  set (c' := <["n_heads_per_tail" := VInt nh]> (<["n_tails_per_iter" := VInt nt]> c)).
  assert (Hch : forall key v, key <> "n_heads_per_tail" -> key <> "n_tails_per_iter" -> chosen documented_v23 c' key v <-> chosen documented_v23 c key v).
  { intros key v H1 H2. unfold chosen, c'. by rewrite !cfg_ne by (intros <-; done). }
  destruct (configured_run c' "v2" DivMaxV2 vl (VInt nt) (VInt nh) vm lambd nt nh nm) as (clf & h & t & af & al & Hcr & Hrc & Hrp & Hah & Hat & Caf & Hh' & Cal & Ht'); try done.
  { by left. } { by apply Hch. } { left. unfold c'. rewrite cfg_ne by done. apply cfg_eq. } { left. unfold c'. apply cfg_eq. } { by apply Hch. }
  apply Hch in Caf; [|done|done]. apply Hch in Cal; [|done|done].
  exists h, t, af, al. split; [done|]. split; [done|]. split; [done|]. split; [done|].
  destruct (C65_train_and_eval_proof W (S h t) (w0 O) ord fuel ds_load d d' DivMaxV2 (GParams lambd nt nh nm 0) X Y TX TY) as [Herr Hok]; try done.
  assert (Hrun : n_heads_run S w0 ord fuel ds_load c nt nh d = match train_and_eval ord fuel ds_load (S h t) DivMaxV2 (new_classifier (GParams lambd nt nh nm 0) (w0 O)) d with
    | (Err e, s) => (Err e, s) | (Ok r, s) => (Ok (foldl (fun (m : gmap string (pyval + perf_val)) kv => <[fst kv := inr (snd kv)]> m) (inl <$> c') (snd r)), s) end).
  { unfold n_heads_run. fold c'. change (create_greedy_clf_from_config_by_version c' "v2") with (create_greedy_v2_from_config c') in Hcr.
    unfold sbind, slift. rewrite Hcr, Hrc, Hrp, Hah, Hat. destruct (train_and_eval _ _ _ _ _ _ _) as [[r|e] s]; reflexivity. }
  split.
  - intros e g Hf. rewrite Hrun, (Herr e g Hf). done.
  - intros g Hf Hi Htv rules cP cT occ cov E Hrules HcP HcT HE Hocc Hne Hcov. rewrite Hrun, (Hok g Hf Hi Htv rules cP cT occ cov E Hrules HcP HcT HE Hocc Hne Hcov). cbn [snd].
    eexists. split; [reflexivity|]. cbv zeta. set (res := expected_results _ _ _ _ _ _ _ _).
    assert (Hnd : NoDup (map fst res)) by (unfold res; rewrite expected_keys; exact expected_nodup).
    assert (Hnone : forall key, key ∉ map fst res -> Scripts.assoc res key = None).
    { intros key Hk. unfold Scripts.assoc. destruct (List.find (fun p : string * perf_val => (key =? fst p)%string) res) as [[k v]|] eqn:E'; [|done]. exfalso. apply Hk.
      apply List.find_some in E' as [E1 E2]. cbn [fst] in E2. apply String.eqb_eq in E2 as <-. apply elem_of_map. exists (key, v). split; [done|]. by apply elem_of_list_In. }
    assert (Hno : forall key, bool_decide (key ∈ (available_metrics ++ ["coverage"; "n_rules"])%list) = false -> key ∉ map fst res).
    { intros key Hk. unfold res. rewrite expected_keys. by apply bool_decide_eq_false in Hk. }
    split_and!.
    + intros key v Hin. rewrite (update_dict c' res Hnd), (assoc_key res key v Hnd Hin). done.
    + rewrite (update_dict c' res Hnd), Hnone by (apply Hno; vm_compute; reflexivity). unfold c'. rewrite cfg_ne by done. by rewrite cfg_eq.
    + rewrite (update_dict c' res Hnd), Hnone by (apply Hno; vm_compute; reflexivity). unfold c'. by rewrite cfg_eq.
    + intros key Hk H1 H2. rewrite (update_dict c' res Hnd), Hnone by done. unfold c'. by rewrite !cfg_ne by (intros <-; done).
Qed.
