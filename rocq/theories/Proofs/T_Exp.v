(** Proofs of the property theorems of Properties/P_Exp.v. *)
From Coq Require Import String Reals Qreals Lra.
From stdpp Require Import strings.
From Verif.Model Require Import PyBase PyReal Sparse Utils Rand Rule GreedyBase PyState Greedy Evaluation Data Exp.
From Verif.Spec Require Import SMatrix SRule SPredict SGreedy SEval SExp.
Open Scope string_scope.
Open Scope list_scope.
Open Scope Z_scope.
From Verif.Proofs Require Import PBase PSparse PRule PGreedyBase PGreedy T_Rule T_GreedyBase T_Greedy T_Eval.
Open Scope string_scope.
Open Scope list_scope.
Open Scope Z_scope.

(** *** Attributes of concrete objects *)
Lemma assoc_unique (l : list (string * pyval)) key d x : NoDup (map fst l) -> (key, d) ∈ l ->
  (key, x) ∈ l <-> x = d.
Proof.
  intros Hn Hd. split; [|by intros ->]. revert Hn Hd. induction l as [|[k y] l IH]; intros Hn Hd H; [inversion Hd|].
  cbn [map fst] in Hn. apply list.NoDup_cons in Hn as [Hn1 Hn2].
  apply elem_of_cons in Hd as [Hd|Hd]; apply elem_of_cons in H as [H|H]; [congruence| | |by apply IH];
    exfalso; apply Hn1; apply elem_of_list_fmap; [exists (key, x)|exists (key, d)]; (split; [|done]);
    cbn; congruence.
Qed.

Lemma chosen_get docs (c : config) key d v : NoDup (map fst docs) -> (key, d) ∈ docs ->
  chosen docs c key v <-> v = cfg_get c key d.
Proof.
  intros Hn Hd. unfold chosen, cfg_get. destruct (c !! key) as [x|] eqn:E; cbn [from_option id].
  - split; [intros [H|[H _]]; [by injection H|done]|intros ->; by left].
  - rewrite (assoc_unique docs key d v Hn Hd). split; [intros [H|[_ H]]; done|intros ->; by right].
Qed.

Lemma docs_nodup : NoDup (map fst documented) /\ NoDup (map fst documented_v23).
Proof. split; by_compute. Qed.

Ltac in_list := repeat (first [left; reflexivity | right]).
Ltac pick_attr := rewrite !elem_of_cons; repeat (first [left; reflexivity | right]).

Lemma head_sampler_ok a : exists h, new_cftp_sampler (VBool true) a (VStr "tight") VNone = Ok h /\ head_sampler_with a h.
Proof.
  eexists. split; [reflexivity|]. eexists. split; [reflexivity|]. split; [by_compute|].
  intros name x. rewrite !elem_of_cons, !elem_of_nil. tauto.
Qed.

Lemma tail_sampler_ok a : tail_sampler_with a (new_ua_sampler (VInt 12345) a (VBool true) (VStr "dfs_v2")).
Proof.
  eexists. split; [reflexivity|]. split; [by_compute|]. cbn -[elem_of].
  intros name x. rewrite !elem_of_cons, !elem_of_nil. tauto.
Qed.

Lemma cftp_div_max_ok (c : config) cls : 
  let v k d := cfg_get c k d in
  exists o, new_cftp_div_max cls (v "min_feature_proba" (VFloat (Q2Qc (4 # 5)))) (v "min_label_proba" (VFloat (Q2Qc (4 # 5))))
    (v "lambd" (VFloat (Q2Qc 10))) (v "n_tails_per_iter" (VInt 100)) (v "n_heads_per_tail" (VInt 10))
    (v "n_max_rules" (VInt 10)) = Ok o /\ configured documented_v23 hyper_v23 c cls o.
Proof.
  intros v. destruct docs_nodup as [_ Hn]. unfold new_cftp_div_max.
  destruct (head_sampler_ok (v "min_feature_proba" (VFloat (Q2Qc (4 # 5))))) as (h & Eh & Hh). rewrite Eh. cbn [rbind].
  pose proof (tail_sampler_ok (v "min_label_proba" (VFloat (Q2Qc (4 # 5))))) as Ht.
  set (t := new_ua_sampler _ _ _ _) in *. clearbody t. clear Eh.
  eexists. split; [reflexivity|]. eexists. split; [reflexivity|].
  match goal with |- context [rule_sampler_init ?a ?b ?d] => set (attrs := rule_sampler_init a b d) end.
  assert (NoDup (map fst attrs)) as Ha by by_compute.
  split; [exact Ha|]. cbn in attrs.
  split.
  { intros key x Hk.
    assert (exists d, (key, d) ∈ documented_v23 /\ (key, cfg_get c key d) ∈ attrs) as (d & Hd & Hat).
    { unfold hyper_v23 in Hk. rewrite !elem_of_cons, elem_of_nil in Hk.
      destruct Hk as [->|[->|[->|[->|[->|[->|[]]]]]]]; eexists; (split; [unfold documented_v23; pick_attr|]);
        unfold attrs, v; pick_attr. }
    rewrite (chosen_get _ _ _ d) by done. apply assoc_unique; done. }
  split.
  { exists h. eexists. split; [unfold attrs; pick_attr|]. split; [|exact Hh].
    apply (chosen_get _ _ _ (VFloat (Q2Qc (4 # 5)))); [done|unfold documented_v23; pick_attr|done]. }
  split.
  { exists t. eexists. split; [unfold attrs; pick_attr|]. split; [|exact Ht].
    apply (chosen_get _ _ _ (VFloat (Q2Qc (4 # 5)))); [done|unfold documented_v23; pick_attr|done]. }
  split_and!; try (unfold attrs; pick_attr).
  intros key x Hx. unfold attrs in Hx. rewrite !elem_of_cons, elem_of_nil in Hx. unfold hyper_v23.
  cbn [app]. rewrite !elem_of_cons. naive_solver.
Qed.

Lemma four_fifths : Q2Qc (8 # 10) = Q2Qc (4 # 5).
Proof. by apply Qc_is_canon. Qed.

Lemma C60_factories_proof : forall c : config,
  (exists o, create_greedy_v2_from_config c = Ok o /\ configured documented_v23 hyper_v23 c "GreedyCFTPDivMaxV2" o) /\
  (exists o, create_greedy_v3_from_config c = Ok o /\ configured documented_v23 hyper_v23 c "GreedyCFTPDivMaxV3" o) /\
  (exists o, create_greedy_from_config c = Ok o /\ configured documented hyper_v1 c "GreedyDivMax" o).
Proof.
  intros c. pose proof (cftp_div_max_ok c) as H. cbv zeta in H. rewrite <- four_fifths in H.
  split; [apply (H "GreedyCFTPDivMaxV2")|]. split; [apply (H "GreedyCFTPDivMaxV3")|]. clear H.
  destruct docs_nodup as [Hn _]. unfold create_greedy_from_config.
  destruct (head_sampler_ok (cfg_get c "min_feature_proba" (VFloat (Q2Qc (4 # 5))))) as (h & Eh & Hh).
  change (d_min_feature_proba Default) with (VFloat (Q2Qc (8 # 10))).
  change (d_min_label_proba Default) with (VFloat (Q2Qc (8 # 10))). rewrite four_fifths.
  rewrite Eh. cbn [rbind].
  pose proof (tail_sampler_ok (cfg_get c "min_label_proba" (VFloat (Q2Qc (4 # 5))))) as Ht.
  set (t := new_ua_sampler _ _ _ _) in *. clearbody t. clear Eh.
  eexists. split; [reflexivity|]. eexists. split; [reflexivity|].
  match goal with |- context [rule_sampler_init ?a ?b ?d] => set (attrs := rule_sampler_init a b d) end.
  assert (NoDup (map fst attrs)) as Ha by by_compute.
  split; [exact Ha|]. cbn in attrs.
  split.
  { intros key x Hk.
    assert (exists d, (key, d) ∈ documented /\ (key, cfg_get c key d) ∈ attrs) as (d & Hd & Hat).
    { unfold hyper_v1 in Hk. rewrite !elem_of_cons, elem_of_nil in Hk.
      destruct Hk as [->|[->|[->|[->|[->|[]]]]]]; eexists; (split; [unfold documented; pick_attr|]);
        unfold attrs; pick_attr. }
    rewrite (chosen_get _ _ _ d) by done. apply assoc_unique; done. }
  split.
  { exists h. eexists. split; [unfold attrs; pick_attr|]. split; [|exact Hh].
    apply (chosen_get _ _ _ (VFloat (Q2Qc (4 # 5)))); [done|unfold documented; pick_attr|done]. }
  split.
  { exists t. eexists. split; [unfold attrs; pick_attr|]. split; [|exact Ht].
    apply (chosen_get _ _ _ (VFloat (Q2Qc (4 # 5)))); [done|unfold documented; pick_attr|done]. }
  split_and!; try (unfold attrs; pick_attr).
  intros key x Hx. unfold attrs in Hx. rewrite !elem_of_cons, elem_of_nil in Hx. unfold hyper_v1.
  cbn [app]. rewrite !elem_of_cons. naive_solver.
Qed.


Lemma C60_versions_proof : forall (c : config) (version : string),
  create_greedy_clf_from_config_by_version c "v2" = create_greedy_v2_from_config c /\
  create_greedy_clf_from_config_by_version c "v3" = create_greedy_v3_from_config c /\
  (version <> "v2" -> version <> "v3" -> create_greedy_clf_from_config_by_version c version = Err AssertionError) /\
  (forall c' : config, (forall key, key ∈ hyper_v23 -> c' !! key = c !! key) ->
     create_greedy_clf_from_config_by_version c' version = create_greedy_clf_from_config_by_version c version).
Proof.
  intros c version. split; [done|]. split; [done|]. split.
  - intros H2 H3. unfold create_greedy_clf_from_config_by_version.
    apply String.eqb_neq in H2, H3. rewrite H2, H3. done.
  - intros c' Hc. unfold create_greedy_clf_from_config_by_version, create_greedy_v2_from_config,
      create_greedy_v3_from_config, cfg_get.
    rewrite !Hc by (unfold hyper_v23; in_list). done.
Qed.


(** *** The rules of a fitted classifier *)
Lemma fit_loop_rules {W} (S : samplers W) cls ord X Y fuel (g : gs W) r g' : iter_ok S ->
  fit_loop S cls ord X Y fuel g = (r, g') ->
  e_num_labels (g_est g') = e_num_labels (g_est g) /\
  exists new, g_rules g' = g_rules g ++ map Bound new /\ forall b, b ∈ new -> generated S ord (g_params g) X Y b.
Proof.
  intros Hi. revert g. induction fuel as [|fuel IH]; intros g H; cbn [fit_loop] in H.
  - unfold serr in H. simplify_eq. split; [done|]. exists []. rewrite app_nil_r. split; [done|]. intros b Hb. inversion Hb.
  - unfold sbind in H. destruct (fit_round S cls ord X Y g) as [r1 g1] eqn:E.
    pose proof (fit_round_out _ _ _ _ _ _ _ _ E) as Ro.
    destruct (round_keeps _ _ _ _ _ _ _ _ Ro) as (Kp & _ & _ & _ & _ & _ & _ & _ & _ & Kn).
    assert (e_num_labels (g_est g1) = e_num_labels (g_est g)) as Kl.
    { destruct Ro; subst; cbn [with_world with_rules with_est g_est e_num_labels]; rewrite ?keep_est; done. }
    assert (r1 <> Ok false -> g' = g1 ->
      e_num_labels (g_est g') = e_num_labels (g_est g) /\
      exists new, g_rules g' = g_rules g ++ map Bound new /\ forall b, b ∈ new -> generated S ord (g_params g) X Y b) as Hend.
    { intros Hne ->. split; [done|]. exists []. rewrite app_nil_r. split; [by apply Kn|]. intros b Hb. inversion Hb. }
    destruct r1 as [[]|e]; [apply Hend; [done|]; unfold sret in H; congruence|clear Hend|apply Hend; [done|]; congruence].
    apply IH in H as (P1 & new & P2 & P3). split; [by rewrite P1|].
    inversion Ro; subst. exists (best :: new). rewrite P2.
    split.
    { unfold g_rules at 1. cbn [with_rules with_est g_est e_rules]. rewrite <- app_assoc. done. }
    intros b Hb. apply elem_of_cons in Hb as [->|Hb]; [|rewrite Kp in P3; by apply P3].
    match goal with Hp : pick _ _ _ _ _ = _ |- _ => apply (pick_inv _ _ _ _ _ _ _ Hi) in Hp as [Hp _] end.
    eexists _, _, _. split; [eassumption|done].
Qed.

Lemma fit_rules {W} (S : samplers W) cls ord X Y fuel p w g : iter_ok S -> cls <> DivMax ->
  fit S cls ord fuel X Y (new_classifier p w) = (Ok tt, g) ->
  e_num_labels (g_est g) = Some (csr_cols Y) /\ e_train (g_est g) = Some (X, Y) /\
  exists bs, g_rules g = map Bound bs /\ forall b, b ∈ bs -> generated S ord p X Y b.
Proof.
  intros Hi Hc H.
  destruct (fit_simple_out _ _ _ _ _ _ _ _ _ Hc H) as (r0 & g0 & E0 & Hr).
  destruct r0 as [[]|e]; [|by destruct Hr].
  destruct Hr as (r1 & g1 & E1 & Gr & Gp & _ & _ & Gt & _ & _ & H1).
  specialize (H1 eq_refl) as ->.
  destruct (fit_start_out _ _ _ _ _ _ _ E0) as (F1 & F2 & _ & F3 & _).
  destruct (fit_loop_extends _ _ _ _ _ _ _ _ _ E1) as (L1 & L2 & _).
  destruct (fit_loop_rules _ _ _ _ _ _ _ _ _ Hi E1) as (L3 & bs & L4 & L5).
  assert (e_num_labels (g_est g0) = Some (csr_cols Y)) as N0.
  { unfold fit_start, sbind, smod, on_world in E0. cbn [with_est g_world g_est] in E0.
    destruct (tail_fit S Y _) as [[[]|e] w1]; [|done].
    destruct (keeps_candidates cls); injection E0 as <-; done. }
  assert (e_num_labels (g_est g) = e_num_labels (g_est g1)) as N1.
  { unfold fit, fit_v2, fit_submod, sbind in H.
    destruct cls; [done|..]; unfold fit_v2, fit_submod, sbind in H; rewrite E0, E1 in H; unfold sget, slift, smod in H;
      [destruct (objective_of_selected _ g1); [|done]..|]; simplify_eq; done. }
  split; [by rewrite N1, L3|]. split; [by rewrite Gt, L2, F3|].
  exists bs. split; [rewrite Gr, L4, F1; done|]. rewrite F2 in L5. exact L5.
Qed.

Lemma generated_tail {W} (S : samplers W) ord p X Y b : set_order ord -> wf_cmat (csr_mat Y) = true ->
  tails_valid S (csr_cols Y) -> generated S ord p X Y b ->
  exists h t, bind_dataset ord (new_rule h t) (tocsc X) (tocsc Y) = Ok b /\ NoDup t /\
    forall c, c ∈ t -> 0 <= c < csr_cols Y.
Proof.
  intros Hord Hwf Hv (w & cs & w' & Hg & Hb).
  destruct (C40_candidates_proof _ _ _ _ _ _ _ _ _ Hord Hwf Hg) as (draws & Hd & _ & Hc & _).
  destruct (Hc b Hb) as (tail & heads & head & Hin & _ & Hbd & _).
  exists (ord head), (ord tail). split; [done|]. split; [by apply set_order_NoDup|].
  intros c Hx. apply set_order_elem in Hx; [|done].
  clear -Hd Hv Hin Hx. revert Hin. induction Hd as [|n w w1 w2 w3 w4 t y hs ds Ht _ _ _ _ IH]; intros Hin; [inversion Hin|].
  apply elem_of_cons in Hin as [Hin|Hin]; [|by apply IH].
  injection Hin as -> ->. by apply (Hv _ _ _ Ht c) in Hx.
Qed.

Lemma report_names (P T : csr) vs : 
  Forall2 (fun (f : csr -> csr -> result Qc) v => f P T = Ok v)
    [hamming_accuracy; subset_accuracy; micro_precision; micro_recall; micro_f1; macro_precision; macro_recall; macro_f1] vs ->
  report available_metrics P T = Ok (zip available_metrics vs).
Proof.
  intros H. repeat match goal with H : Forall2 _ (_ :: _) _ |- _ => apply Forall2_cons_inv_l in H as (? & ? & ? & H & ->) end.
  apply Forall2_nil_inv_l in H as ->.
  unfold report, available_metrics. cbn [rfold].
  change (name2func "hamming_accuracy") with (Ok hamming_accuracy).
  change (name2func "subset_accuracy") with (Ok subset_accuracy).
  change (name2func "micro_precision") with (Ok micro_precision).
  change (name2func "micro_recall") with (Ok micro_recall).
  change (name2func "micro_f1") with (Ok micro_f1).
  change (name2func "macro_precision") with (Ok macro_precision).
  change (name2func "macro_recall") with (Ok macro_recall).
  change (name2func "macro_f1") with (Ok macro_f1).
  cbn [rbind]. repeat match goal with H : ?f P T = Ok _ |- _ => rewrite H; cbn [rbind]; clear H end.
  reflexivity.
Qed.

Lemma evaluate_ok {W} (S : samplers W) (ord : gset Z -> list Z) (p : gparams) (g : gs W) (bs : list bound) (X Y TX TY : csr) (cP cT occ cov : gset (Z * Z)) (E : gset Z) rules :
  rules = map (fun s => (r_head (sr_rule s), r_tail (sr_rule s))) (g_rules g) ->
  set_order ord ->
  wf_cmat (csr_mat X) = true -> wf_cmat (csr_mat Y) = true -> csr_rows X = csr_rows Y -> binary (csr_mat Y) ->
  wf_cmat (csr_mat TX) = true -> wf_cmat (csr_mat TY) = true -> binary (csr_mat TY) ->
  csr_rows TX = csr_rows TY -> 1 <= csr_rows TY -> csr_cols TY = csr_cols Y -> 2 <= csr_cols TY ->
  tails_valid S (csr_cols Y) ->
  e_num_labels (g_est g) = Some (csr_cols Y) -> e_train (g_est g) = Some (X, Y) ->
  g_rules g = map Bound bs -> (forall b, b ∈ bs -> generated S ord p X Y b) ->
  (forall i j, (i, j) ∈ cP <-> fires rules TX i j) -> SEval.cells_of TY cT ->
  (forall i, i ∈ E <-> 0 <= i < csr_rows TY /\ forall j, (i, j) ∈ cP <-> (i, j) ∈ cT) ->
  SEval.cells_of Y occ -> occ <> ∅ ->
  (forall x, x ∈ cov <-> exists h t, (h, t) ∈ rules /\ covers (tocsc X) (tocsc Y) h t x) ->
  evaluate ord (g_est g) (TX, TY) =
    Ok (expected_results (csr_rows TY) (csr_cols TY) cP cT (size E) (size cov) (size occ) (zlen rules)).
Proof.
  intros -> Hord HwX HwY HXY HbY HwTX HwTY HbTY HTr HTn HTc HT2 Htv Hnl Htr Hbs Hgen HcP HcT HE Hocc Hne Hcov.
  (* the rules as bound heads and tails *)
  assert (exists rs : list (list Z * list Z * bound), bs = map snd rs /\
    forall h0 t0 b, (h0, t0, b) ∈ rs -> (forall x, x ∈ t0 -> 0 <= x < csr_cols Y) /\
      bind_dataset ord (new_rule h0 t0) (tocsc X) (tocsc Y) = Ok b) as (rs & -> & Hrs).
  { clear -Hgen Hord HwY Htv. induction bs as [|b bs IH]; [exists []; split; [done|]; intros h0 t0 b Hb; inversion Hb|].
    destruct IH as (rs & -> & Hrs); [intros b' Hb'; apply Hgen; by right|].
    destruct (generated_tail S _ _ _ _ _ Hord HwY Htv (Hgen b ltac:(by left))) as (h0 & t0 & Hb & _ & Hr).
    exists ((h0, t0, b) :: rs). split; [done|]. intros h1 t1 b1 H1. apply elem_of_cons in H1 as [H1|H1]; [|by apply Hrs].
    injection H1 as -> -> ->. done. }
  assert (dataset (tocsc X) (tocsc Y)) as Hd by by apply dataset_tocsc.
  assert (forall h0 t0 b, (h0, t0, b) ∈ rs -> b_rule b = new_rule h0 t0) as Hrule.
  { intros h0 t0 b Hb. destruct (Hrs _ _ _ Hb) as [Hx Hbd].
    apply (bound_new ord) in Hbd; [|done|done|intros x Hxx; apply Hx in Hxx; lia]. by destruct Hbd. }
  assert (Hrules : forall h0 t0, (h0, t0) ∈ map (fun s => (r_head (sr_rule s), r_tail (sr_rule s))) (g_rules g) <->
    exists h1 t1 b, (h1, t1, b) ∈ rs /\ h0 = py_sorted h1 /\ t0 = py_sorted t1).
  { intros h0 t0. rewrite elem_of_list_fmap. rewrite Hbs. split.
    - intros (s & Es & Hs). apply elem_of_list_fmap in Hs as (b & -> & Hb). apply elem_of_list_fmap in Hb as ([[h1 t1] b'] & -> & Hb).
      cbn [snd] in Es. pose proof (Hrule _ _ _ Hb) as Er. cbn [sr_rule] in Es. rewrite Er in Es. injection Es as -> ->. eauto 6.
    - intros (h1 & t1 & b & Hb & -> & ->). exists (Bound b). cbn [sr_rule]. rewrite (Hrule _ _ _ Hb). split; [done|].
      apply elem_of_list_fmap. exists b. split; [done|]. apply elem_of_list_fmap. exists (h1, t1, b). done. }
  (* prediction *)
  destruct (C11_predict_exact_proof _ (g_est g) TX (csr_cols Y) Hnl) as (Yp & Hp & HpW & HpB & HpR & HpC & HpF); [lia|done|..].
  { intros s j Hs Hj. change (e_rules (g_est g)) with (g_rules g) in Hs. rewrite Hbs in Hs.
    apply elem_of_list_fmap in Hs as (b & -> & Hb). apply elem_of_list_fmap in Hb as ([[h1 t1] b'] & -> & Hb).
    cbn [snd sr_rule] in Hj. rewrite (Hrule _ _ _ Hb) in Hj. cbn [r_tail new_rule] in Hj.
    rewrite (py_sorted_perm t1) in Hj. by apply (Hrs _ _ _ Hb). }
  unfold evaluate. cbn [fst snd]. rewrite Hp. cbn [rbind].
  assert (SEval.cells_of Yp cP) as HcYp.
  { intros i j. rewrite HcP, HpF. done. }
  destruct (C49_values_proof Yp TY cP cT E) as (V1 & V2 & V3 & V4 & V5 & V6 & V7 & V8);
    [done|done|done|done|congruence|congruence|lia|lia|done|done| |].
  { intros i. rewrite HE. by rewrite HpR, HTr. }
  erewrite (report_names Yp TY);
    [|repeat (apply list.Forall2_cons; split; [eassumption|]); apply list.Forall2_nil_2].
  cbn [rbind].
  destruct (C10_coverage_exact_proof _ ord (g_est g) X Y rs occ cov) as (Hcv & _); [done|done|done|done|done|done| | | | | |].
  { change (e_rules (g_est g)) with (g_rules g). rewrite Hbs, map_map. done. }
  { intros h0 t0 b Hb. destruct (Hrs _ _ _ Hb) as [Hx Hbd]. split; [|done]. intros x Hxx. apply Hx in Hxx. lia. }
  { intros [i j]. apply Hocc. }
  { done. }
  { intros x. rewrite Hcov. split.
    - intros (h0 & t0 & H1 & H2). apply Hrules in H1 as (h1 & t1 & b & Hb & -> & ->). exists h1, t1, b. split; [done|].
      eapply covers_perm; [| |exact H2]; symmetry; apply py_sorted_perm.
    - intros (h1 & t1 & b & Hb & H2). exists (py_sorted h1), (py_sorted t1). split; [apply Hrules; eauto 6|].
      eapply covers_perm; [| |exact H2]; apply py_sorted_perm. }
  rewrite Hcv. cbn [rbind]. unfold expected_results. rewrite HpR, HTr, HpC, HTc.
  assert (zlen (map (fun s => (r_head (sr_rule s), r_tail (sr_rule s))) (g_rules g)) = zlen (e_rules (g_est g))) as ->.
  { unfold zlen, g_rules. by rewrite map_length. }
  reflexivity.
Qed.

Lemma read_v23 (c : config) cls gcls l nt nh nm vl vt vh vm :
  (cls = "GreedyCFTPDivMaxV2" /\ gcls = DivMaxV2) \/ (cls = "GreedyCFTPDivMaxV3" /\ gcls = DivMaxV3) ->
  forall mf ml, real_of vl l -> vt = VInt nt -> vh = VInt nh -> limit_of vm nm ->
  exists clf h, new_cftp_div_max cls mf ml vl vt vh vm = Ok clf /\
    read_class clf = Ok gcls /\ read_params clf = Ok (GParams l nt nh nm 0) /\
    attr clf "head_sampler" = Ok h /\ head_sampler_with mf h /\
    attr clf "tail_sampler" = Ok (new_ua_sampler (VInt 12345) ml (VBool true) (VStr "dfs_v2")).
Proof.
  intros Hc mf ml Hl -> -> Hm. unfold new_cftp_div_max.
  destruct (head_sampler_ok mf) as (h & Eh & Hh). rewrite Eh. cbn [rbind]. clear Eh.
  set (t := new_ua_sampler _ _ _ _). clearbody t.
  eexists _, h. split; [reflexivity|]. split.
  { destruct Hc as [[-> ->]|[-> ->]]; done. }
  split; [|done].
  unfold read_params. cbn -[as_real as_int as_opt_int].
  assert (as_real vl = Ok l) as -> by (destruct Hl as [(z & -> & ->)|(q & -> & ->)]; done).
  cbn [rbind as_int].
  assert (as_opt_int vm = Ok nm) as -> by (destruct Hm as [(-> & ->)|(z & -> & ->)]; done).
  done.
Qed.

Lemma C65_results_proof : forall (W : Type) (S : pyval -> pyval -> samplers W) (w0 : W) (ord : gset Z -> list Z) (fuel : nat)
    (ds_load : sx Data.dataset unit) (c : config) (version : string) (validation : bool) (d d' : Data.dataset)
    (cls : greedy_class) (vl vt vh vm : pyval) (lambd : R) (n_tails n_heads : Z) (n_max : option Z)
    (X Y TX TY : csr),
  set_order ord ->
  (version = "v2" /\ cls = DivMaxV2) \/ (version = "v3" /\ cls = DivMaxV3) ->
  chosen documented_v23 c "lambd" vl -> real_of vl lambd ->
  chosen documented_v23 c "n_tails_per_iter" vt -> vt = VInt n_tails ->
  chosen documented_v23 c "n_heads_per_tail" vh -> vh = VInt n_heads ->
  chosen documented_v23 c "n_max_rules" vm -> limit_of vm n_max ->
  ds_load d = (Ok tt, d') -> ds_trn d' = Some (X, Y) ->
  (if validation then ds_dev d' else ds_tst d') = Some (TX, TY) ->
  wf_cmat (csr_mat X) = true -> wf_cmat (csr_mat Y) = true -> csr_rows X = csr_rows Y -> binary (csr_mat Y) ->
  wf_cmat (csr_mat TX) = true -> wf_cmat (csr_mat TY) = true -> binary (csr_mat TY) ->
  csr_rows TX = csr_rows TY -> 1 <= csr_rows TY -> csr_cols TY = csr_cols Y -> 2 <= csr_cols TY ->
  exists h t af al,
    chosen documented_v23 c "min_feature_proba" af /\ head_sampler_with af h /\
    chosen documented_v23 c "min_label_proba" al /\ tail_sampler_with al t /\
    (forall e g, fit (S h t) cls ord fuel X Y (new_classifier (GParams lambd n_tails n_heads n_max 0) w0) = (Err e, g) ->
       train_greedy_and_eval S w0 ord fuel ds_load c version validation d = (Err e, d')) /\
    (forall g, fit (S h t) cls ord fuel X Y (new_classifier (GParams lambd n_tails n_heads n_max 0) w0) = (Ok tt, g) ->
       iter_ok (S h t) -> tails_valid (S h t) (csr_cols Y) ->
       forall (rules : list (list Z * list Z)) (cP cT occ cov : gset (Z * Z)) (E : gset Z),
         rules = map (fun s => (r_head (sr_rule s), r_tail (sr_rule s))) (g_rules g) ->
         (forall i j, (i, j) ∈ cP <-> fires rules TX i j) -> SEval.cells_of TY cT ->
         (forall i, i ∈ E <-> 0 <= i < csr_rows TY /\ forall j, (i, j) ∈ cP <-> (i, j) ∈ cT) ->
         SEval.cells_of Y occ -> occ <> ∅ ->
         (forall x, x ∈ cov <-> exists h t, (h, t) ∈ rules /\ covers (tocsc X) (tocsc Y) h t x) ->
         train_greedy_and_eval S w0 ord fuel ds_load c version validation d =
           (Ok (g, expected_results (csr_rows TY) (csr_cols TY) cP cT (size E) (size cov) (size occ) (zlen rules)), d')).
Proof.
  intros W S w0 ord fuel ds_load c version validation d d' cls vl vt vh vm lambd nt nh nm X Y TX TY
    Hord Hv Cl Hl Ct Ht Ch Hh Cm Hm Hload Htrn Htgt HwX HwY HXY HbY HwTX HwTY HbTY HTr HTn HTc HT2.
  destruct docs_nodup as [_ Hn].
  assert (forall key dflt v, (key, dflt) ∈ documented_v23 -> chosen documented_v23 c key v -> v = cfg_get c key dflt) as Get.
  { intros key dflt v Hi. by apply chosen_get. }
  apply (Get _ (VFloat (Q2Qc 10))) in Cl; [|unfold documented_v23; pick_attr].
  apply (Get _ (VInt 100)) in Ct; [|unfold documented_v23; pick_attr].
  apply (Get _ (VInt 10)) in Ch; [|unfold documented_v23; pick_attr].
  apply (Get _ (VInt 10)) in Cm; [|unfold documented_v23; pick_attr].
  set (af := cfg_get c "min_feature_proba" (VFloat (Q2Qc (4 # 5)))).
  set (al := cfg_get c "min_label_proba" (VFloat (Q2Qc (4 # 5)))).
  assert (exists clf h, create_greedy_clf_from_config_by_version c version = Ok clf /\
    read_class clf = Ok cls /\ read_params clf = Ok (GParams lambd nt nh nm 0) /\
    attr clf "head_sampler" = Ok h /\ head_sampler_with af h /\
    attr clf "tail_sampler" = Ok (new_ua_sampler (VInt 12345) al (VBool true) (VStr "dfs_v2"))) as
    (clf & h & Hcr & Hrc & Hrp & Hah & Hh' & Hat).
  { destruct Hv as [[-> ->]|[-> ->]].
    - change (create_greedy_clf_from_config_by_version c "v2") with (create_greedy_v2_from_config c).
      unfold create_greedy_v2_from_config. subst af al. rewrite <- four_fifths.
      cbn [V2Default d_lambd d_n_tails_per_iter d_n_heads_per_tail d_n_max_rules d_min_feature_proba d_min_label_proba Default].
      rewrite <- Cl, <- Ct, <- Ch, <- Cm. eapply (read_v23 c); eauto.
    - change (create_greedy_clf_from_config_by_version c "v3") with (create_greedy_v3_from_config c).
      unfold create_greedy_v3_from_config. subst af al. rewrite <- four_fifths.
      cbn [V3Default V2Default d_lambd d_n_tails_per_iter d_n_heads_per_tail d_n_max_rules d_min_feature_proba d_min_label_proba Default].
      rewrite <- Cl, <- Ct, <- Ch, <- Cm. eapply (read_v23 c); eauto. }
  set (t := new_ua_sampler _ _ _ _) in *.
  exists h, t, af, al.
  split; [apply (chosen_get _ _ _ (VFloat (Q2Qc (4 # 5)))); [done|unfold documented_v23; pick_attr|done]|].
  split; [done|].
  split; [apply (chosen_get _ _ _ (VFloat (Q2Qc (4 # 5)))); [done|unfold documented_v23; pick_attr|done]|].
  split; [apply tail_sampler_ok|].
  assert (train_greedy_and_eval S w0 ord fuel ds_load c version validation d =
    match fit (S h t) cls ord fuel X Y (new_classifier (GParams lambd nt nh nm 0) w0) with
    | (Err e, _) => (Err e, d')
    | (Ok _, g) => match evaluate ord (g_est g) (TX, TY) with Ok perf => (Ok (g, perf), d') | Err e => (Err e, d') end
    end) as Hrun.
  { unfold train_greedy_and_eval, sbind, slift, get_trn, get_tst, get_dev, sget. rewrite Hload, Hcr, Hrc, Hrp, Hah, Hat.
    unfold sbind. rewrite Htrn. unfold sret. cbn [fst snd].
    destruct (fit _ _ _ _ _ _ _) as [[[]|e] g]; [|done].
    destruct validation; rewrite Htgt; unfold sret; destruct (evaluate ord (g_est g) (TX, TY)); done. }
  split.
  { intros e g Hf. rewrite Hrun, Hf. done. }
  intros g Hf Hi Htv rules cP cT occ cov E -> HcP HcT HE Hocc Hne Hcov.
  rewrite Hrun, Hf. clear Hrun Hload Htrn Htgt Hcr Hrc Hrp Hah Hat.
  assert (cls <> DivMax) as Hcls by (destruct Hv as [[_ ->]|[_ ->]]; done).
  destruct (fit_rules _ _ _ _ _ _ _ _ _ Hi Hcls Hf) as (Hnl & Htr & bs & Hbs & Hgen).
  rewrite (evaluate_ok _ _ _ _ _ _ _ _ _ _ _ _ _ _ _ eq_refl Hord HwX HwY HXY HbY HwTX HwTY HbTY HTr HTn HTc HT2 Htv Hnl Htr Hbs Hgen
             HcP HcT HE Hocc Hne Hcov). done.
Qed.


Lemma C65_errors_proof : forall (W : Type) (S : pyval -> pyval -> samplers W) (w0 : W) (ord : gset Z -> list Z) (fuel : nat)
    (ds_load : sx Data.dataset unit) (c : config) (version : string) (validation : bool) (d d' : Data.dataset),
  (forall e, ds_load d = (Err e, d') ->
     train_greedy_and_eval S w0 ord fuel ds_load c version validation d = (Err e, d')) /\
  (ds_load d = (Ok tt, d') -> version <> "v2" -> version <> "v3" ->
     train_greedy_and_eval S w0 ord fuel ds_load c version validation d = (Err AssertionError, d')) /\
  (ds_load d = (Ok tt, d') -> validation = true -> ds_dev d' = None ->
     exists e, train_greedy_and_eval S w0 ord fuel ds_load c version validation d = (Err e, d') /\
       forall cls p h t trn g, ds_trn d' = Some trn ->
         (exists clf, create_greedy_clf_from_config_by_version c version = Ok clf /\ read_class clf = Ok cls /\
            read_params clf = Ok p /\ attr clf "head_sampler" = Ok h /\ attr clf "tail_sampler" = Ok t) ->
         fit (S h t) cls ord fuel (fst trn) (snd trn) (new_classifier p w0) = (Ok tt, g) -> e = AttributeError).
Proof.
  intros W S w0 ord fuel ds_load c version validation d d'. split_and!.
  - intros e H. unfold train_greedy_and_eval, sbind. rewrite H. done.
  - intros H H2 H3. unfold train_greedy_and_eval, sbind, slift. rewrite H.
    destruct (C60_versions_proof c version) as (_ & _ & -> & _); done.
  - intros H -> Hdev. unfold train_greedy_and_eval, sbind, slift, get_trn, get_dev, sget. rewrite H.
    destruct (create_greedy_clf_from_config_by_version c version) as [clf|e] eqn:E1;
      [|exists e; split; [done|]; intros ? ? ? ? ? ? _ (clf' & A1 & A2 & A3 & A4 & A5) _; try injection A1 as <-; congruence].
    destruct (read_class clf) as [cls|e] eqn:E2; [|exists e; split; [done|]; intros ? ? ? ? ? ? _ (clf' & A1 & A2 & A3 & A4 & A5) _; try injection A1 as <-; congruence].
    destruct (read_params clf) as [p|e] eqn:E3; [|exists e; split; [done|]; intros ? ? ? ? ? ? _ (clf' & A1 & A2 & A3 & A4 & A5) _; try injection A1 as <-; congruence].
    destruct (attr clf "head_sampler") as [h|e] eqn:E4; [|exists e; split; [done|]; intros ? ? ? ? ? ? _ (clf' & A1 & A2 & A3 & A4 & A5) _; try injection A1 as <-; congruence].
    destruct (attr clf "tail_sampler") as [t|e] eqn:E5; [|exists e; split; [done|]; intros ? ? ? ? ? ? _ (clf' & A1 & A2 & A3 & A4 & A5) _; try injection A1 as <-; congruence].
    unfold sbind. destruct (ds_trn d') as [trn|] eqn:E6; [|exists AttributeError; split; [done|]; done].
    unfold sret. cbn [fst snd].
    destruct (fit (S h t) cls ord fuel _ _ _) as [[[]|e] g] eqn:Ef.
    + unfold sbind. rewrite Hdev. exists AttributeError. split; done.
    + exists e. split; [done|]. intros cls' p' h' t' trn' g' [= <-] (clf' & A1 & A2 & A3 & A4 & A5) Hf. exfalso.
      injection A1 as <-. rewrite E2 in A2. rewrite E3 in A3. rewrite E4 in A4. rewrite E5 in A5.
      injection A2 as <-. injection A3 as <-. injection A4 as <-. injection A5 as <-. congruence.
Qed.


Lemma C65_train_and_eval_proof : forall (W : Type) (S : samplers W) (w0 : W) (ord : gset Z -> list Z) (fuel : nat)
    (ds_load : sx Data.dataset unit) (d d' : Data.dataset) (cls : greedy_class) (p : gparams) (X Y TX TY : csr),
  set_order ord -> cls <> DivMax ->
  ds_load d = (Ok tt, d') -> ds_trn d' = Some (X, Y) -> ds_tst d' = Some (TX, TY) ->
  wf_cmat (csr_mat X) = true -> wf_cmat (csr_mat Y) = true -> csr_rows X = csr_rows Y -> binary (csr_mat Y) ->
  wf_cmat (csr_mat TX) = true -> wf_cmat (csr_mat TY) = true -> binary (csr_mat TY) ->
  csr_rows TX = csr_rows TY -> 1 <= csr_rows TY -> csr_cols TY = csr_cols Y -> 2 <= csr_cols TY ->
  (forall e g, fit S cls ord fuel X Y (new_classifier p w0) = (Err e, g) ->
     train_and_eval ord fuel ds_load S cls (new_classifier p w0) d = (Err e, d')) /\
  (forall g, fit S cls ord fuel X Y (new_classifier p w0) = (Ok tt, g) ->
     iter_ok S -> tails_valid S (csr_cols Y) ->
     forall (rules : list (list Z * list Z)) (cP cT occ cov : gset (Z * Z)) (E : gset Z),
       rules = map (fun s => (r_head (sr_rule s), r_tail (sr_rule s))) (g_rules g) ->
       (forall i j, (i, j) ∈ cP <-> fires rules TX i j) -> SEval.cells_of TY cT ->
       (forall i, i ∈ E <-> 0 <= i < csr_rows TY /\ forall j, (i, j) ∈ cP <-> (i, j) ∈ cT) ->
       SEval.cells_of Y occ -> occ <> ∅ ->
       (forall x, x ∈ cov <-> exists h t, (h, t) ∈ rules /\ covers (tocsc X) (tocsc Y) h t x) ->
       train_and_eval ord fuel ds_load S cls (new_classifier p w0) d =
         (Ok (g, expected_results (csr_rows TY) (csr_cols TY) cP cT (size E) (size cov) (size occ) (zlen rules)), d')).
Proof.
  intros W S w0 ord fuel ds_load d d' cls p X Y TX TY Hord Hcls Hload Htrn Htgt HwX HwY HXY HbY HwTX HwTY HbTY HTr HTn HTc HT2.
  assert (train_and_eval ord fuel ds_load S cls (new_classifier p w0) d =
    match fit S cls ord fuel X Y (new_classifier p w0) with
    | (Err e, _) => (Err e, d')
    | (Ok _, g) => match evaluate ord (g_est g) (TX, TY) with Ok perf => (Ok (g, perf), d') | Err e => (Err e, d') end
    end) as Hrun.
  { unfold train_and_eval, sbind, slift, get_trn, get_tst, sget. rewrite Hload.
    unfold sbind. rewrite Htrn. unfold sret. cbn [fst snd].
    destruct (fit _ _ _ _ _ _ _) as [[[]|e] g]; [|done].
    rewrite Htgt; unfold sret; destruct (evaluate ord (g_est g) (TX, TY)); done. }
  split.
  { intros e g Hf. rewrite Hrun, Hf. done. }
  intros g Hf Hi Htv rules cP cT occ cov E -> HcP HcT HE Hocc Hne Hcov.
  rewrite Hrun, Hf. clear Hrun Hload Htrn Htgt.
  destruct (fit_rules _ _ _ _ _ _ _ _ _ Hi Hcls Hf) as (Hnl & Htr & bs & Hbs & Hgen).
  rewrite (evaluate_ok _ _ _ _ _ _ _ _ _ _ _ _ _ _ _ eq_refl Hord HwX HwY HXY HbY HwTX HwTY HbTY HTr HTn HTc HT2 Htv Hnl Htr Hbs Hgen
             HcP HcT HE Hocc Hne Hcov). done.
Qed.
