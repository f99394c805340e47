(** What the trials of the tuning scripts report (C92). *)
From Coq Require Import String Reals Qreals QArith Qcanon Qround Lra.
From stdpp Require Import strings.
From Verif.Model Require Import PyBase PyReal Sparse Utils Rand Rule GreedyBase PyState Greedy Evaluation Data Exp Scripts Tune.
From Verif.Spec Require Import SMatrix SRule SPredict SGreedy SEval SExp SData STune.
Open Scope string_scope.
Open Scope list_scope.
Open Scope Z_scope.
From Verif.Proofs Require Import T_Tune.
Open Scope string_scope.
Open Scope list_scope.
Open Scope Z_scope.

(** C92, scripts/tune_and_eval.py.  A trial splits off a development part of the training rows, but fits each of its ten
    classifiers on all training rows, the development rows included, and scores it on the development rows: each score
    is computed from the rules learned from X and Y and the rows dev of the same X and Y.  It reports the means of the ten
    scores; an exception of any fit ends the trial. *)
Theorem C92_trial : forall (W : Type) (S : pyval -> pyval -> samplers W) (w0 : nat -> W) (ord : gset Z -> list Z) (fuel : nat)
    (ds_load : sx Data.dataset unit) (perm : Z -> list Z) (c : config) (d d' : Data.dataset)
    (vl vt vh vm : pyval) (lambd : R) (n_tails n_heads : Z) (n_max : option Z) (X Y : csr) (occ : gset (Z * Z)),
  set_order ord -> (forall n, 0 <= n -> perm n ≡ₚ py_range n) ->
  chosen documented_v23 c "lambd" vl -> real_of vl lambd ->
  chosen documented_v23 c "n_tails_per_iter" vt -> vt = VInt n_tails ->
  chosen documented_v23 c "n_heads_per_tail" vh -> vh = VInt n_heads ->
  chosen documented_v23 c "n_max_rules" vm -> limit_of vm n_max ->
  is_Some (c !! "dataset") -> ds_load d = (Ok tt, d') -> ds_trn d' = Some (X, Y) ->
  wf_cmat (csr_mat X) = true -> wf_cmat (csr_mat Y) = true -> csr_rows X = csr_rows Y -> binary (csr_mat Y) ->
  2 <= csr_rows X -> 2 <= csr_cols Y -> SEval.cells_of Y occ -> occ <> ∅ ->
  exists h t af al dev,
    chosen documented_v23 c "min_feature_proba" af /\ head_sampler_with af h /\
    chosen documented_v23 c "min_label_proba" al /\ tail_sampler_with al t /\
    NoDup dev /\ (forall r, r ∈ dev -> 0 <= r < csr_rows X) /\ zlen dev = csr_rows X - 7 * csr_rows X / 10 /\
    dev = take (length dev) (perm (csr_rows X)) /\
    (iter_ok (S h t) -> tails_valid (S h t) (csr_cols Y) ->
     forall (G : nat -> gs W),
       let fitted i r g := fit (S h t) DivMaxV2 ord fuel X Y (new_classifier (GParams lambd n_tails n_heads n_max 0) (w0 i)) = (r, g) in
       (forall n e g, (n < 10)%nat -> (forall i, (i < n)%nat -> fitted i (Ok tt) (G i)) -> fitted n (Err e) g ->
          trial S w0 ord fuel ds_load perm c d = (Err e, d')) /\
       ((forall i, (i < 10)%nat -> fitted i (Ok tt) (G i)) ->
        forall (rules : nat -> list (list Z * list Z)) (cP cov : nat -> gset (Z * Z)) (cT : gset (Z * Z)),
          (forall i, (i < 10)%nat -> rules i = map (fun s => (r_head (sr_rule s), r_tail (sr_rule s))) (g_rules (G i)) /\
             rows_predicted (rules i) X dev (cP i) /\ covered_cells X Y (rules i) (cov i)) ->
          rows_cells Y dev cT ->
          exists out, trial S w0 ord fuel ds_load perm c d = (Ok (map G (seq 0 10), out), d') /\
            averaged (map (fun i => dev_results (zlen dev) (csr_cols Y) (cP i) cT (size (cov i)) (size occ) (zlen (rules i))) (seq 0 10)) out)).
Proof. exact C92_trial_proof. Qed.
Print Assumptions C92_trial.

(** C92, scripts/tune_greedy.py.  Here the development rows are held out: the dataset is loaded anew before each of the ten
    repetitions and always split into the same two parts, every classifier is fitted on the rows train alone, and scored on
    the rows dev; each row of the training data is in exactly one part.  The trial reports the means of the ten results. *)
Theorem C92_held_out : forall (W : Type) (S : pyval -> pyval -> samplers W) (w0 : nat -> W) (ord : gset Z -> list Z) (fuel : nat)
    (perm : Z -> list Z) (c : config) (version : string) (cls : greedy_class) (d : Data.dataset)
    (vl vt vh vm : pyval) (lambd : R) (n_tails n_heads : Z) (n_max : option Z) (X Y TX TY : csr) (ln fn : list string),
  set_order ord -> (forall n, 0 <= n -> perm n ≡ₚ py_range n) ->
  (version = "v2" /\ cls = DivMaxV2) \/ (version = "v3" /\ cls = DivMaxV3) -> c !! "greedy_version" = Some (VStr version) ->
  chosen documented_v23 c "lambd" vl -> real_of vl lambd ->
  chosen documented_v23 c "n_tails_per_iter" vt -> vt = VInt n_tails ->
  chosen documented_v23 c "n_heads_per_tail" vh -> vh = VInt n_heads ->
  chosen documented_v23 c "n_max_rules" vm -> limit_of vm n_max ->
  is_Some (c !! "dataset") -> is_Some (c !! "experiment_name") ->
  ds_split_train d = true -> ds_train_ratio d = Q2Qc (7 # 10) -> shapes_ok X Y TX TY ->
  wf_cmat (csr_mat X) = true -> wf_cmat (csr_mat Y) = true -> binary (csr_mat Y) -> 2 <= csr_rows X -> 2 <= csr_cols Y ->
  exists h t af al train dev tX tY d',
    chosen documented_v23 c "min_feature_proba" af /\ head_sampler_with af h /\
    chosen documented_v23 c "min_label_proba" al /\ tail_sampler_with al t /\
    train ++ dev ≡ₚ py_range (csr_rows X) /\ zlen train = 7 * csr_rows X / 10 /\
    rows_of tX X train /\ rows_of tY Y train /\ ds_trn d' = Some (tX, tY) /\
    (iter_ok (S h t) -> tails_valid (S h t) (csr_cols Y) ->
     forall (G : nat -> gs W) (occ : gset (Z * Z)), SEval.cells_of tY occ -> occ <> ∅ ->
       let fitted i r g := fit (S h t) cls ord fuel tX tY (new_classifier (GParams lambd n_tails n_heads n_max 0) (w0 i)) = (r, g) in
       (forall n e g, (n < 10)%nat -> (forall i, (i < n)%nat -> fitted i (Ok tt) (G i)) -> fitted n (Err e) g ->
          trial_greedy S w0 ord fuel (load perm X Y TX TY ln fn) c d = (Err e, d')) /\
       ((forall i, (i < 10)%nat -> fitted i (Ok tt) (G i)) ->
        forall (rules : nat -> list (list Z * list Z)) (cP cov : nat -> gset (Z * Z)) (E : nat -> gset Z) (cT : gset (Z * Z)),
          (forall i, (i < 10)%nat -> rules i = map (fun s => (r_head (sr_rule s), r_tail (sr_rule s))) (g_rules (G i)) /\
             rows_predicted (rules i) X dev (cP i) /\ equal_rows (zlen dev) (cP i) cT (E i) /\ covered_cells tX tY (rules i) (cov i)) ->
          rows_cells Y dev cT ->
          exists out, trial_greedy S w0 ord fuel (load perm X Y TX TY ln fn) c d = (Ok (map G (seq 0 10), out), d') /\
            averaged (map (fun i => expected_results (zlen dev) (csr_cols Y) (cP i) cT (size (E i)) (size (cov i)) (size occ) (zlen (rules i))) (seq 0 10)) out)).
Proof. exact C92_held_out_proof. Qed.
Print Assumptions C92_held_out.

(** C92, errors: a configuration without the name of the dataset raises KeyError before anything is loaded, in both
    scripts; what load raises ends the trial; a single training row cannot be split (ValueError). *)
Theorem C92_errors : forall (W : Type) (S : pyval -> pyval -> samplers W) (w0 : nat -> W) (ord : gset Z -> list Z) (fuel : nat)
    (ds_load : sx Data.dataset unit) (perm : Z -> list Z) (c : config) (d d' : Data.dataset) (X Y : csr),
  (c !! "dataset" = None -> trial S w0 ord fuel ds_load perm c d = (Err KeyError, d) /\ trial_greedy S w0 ord fuel ds_load c d = (Err KeyError, d)) /\
  (forall e, is_Some (c !! "dataset") -> ds_load d = (Err e, d') -> trial S w0 ord fuel ds_load perm c d = (Err e, d')) /\
  (is_Some (c !! "dataset") -> ds_load d = (Ok tt, d') -> ds_trn d' = Some (X, Y) -> csr_rows X = csr_rows Y -> 0 <= csr_rows X <= 1 ->
     trial S w0 ord fuel ds_load perm c d = (Err ValueError, d')).
Proof. exact C92_errors_proof. Qed.
Print Assumptions C92_errors.

(** C92, scripts/effect_of_n_heads_per_tail.py.  A run fits a new classifier of version 2 with the given numbers of tails
    and heads, whatever the configuration says about them, on the training data; it returns the configuration with these
    two numbers, and the ten results on the test data. *)
Theorem C92_n_heads : forall (W : Type) (S : pyval -> pyval -> samplers W) (w0 : nat -> W) (ord : gset Z -> list Z) (fuel : nat)
    (ds_load : sx Data.dataset unit) (c : config) (d d' : Data.dataset) (n_tails n_heads : Z)
    (vl vm : pyval) (lambd : R) (n_max : option Z) (X Y TX TY : csr),
  set_order ord ->
  chosen documented_v23 c "lambd" vl -> real_of vl lambd -> chosen documented_v23 c "n_max_rules" vm -> limit_of vm n_max ->
  ds_load d = (Ok tt, d') -> ds_trn d' = Some (X, Y) -> ds_tst d' = Some (TX, TY) ->
  wf_cmat (csr_mat X) = true -> wf_cmat (csr_mat Y) = true -> csr_rows X = csr_rows Y -> binary (csr_mat Y) ->
  wf_cmat (csr_mat TX) = true -> wf_cmat (csr_mat TY) = true -> binary (csr_mat TY) ->
  csr_rows TX = csr_rows TY -> 1 <= csr_rows TY -> csr_cols TY = csr_cols Y -> 2 <= csr_cols TY ->
  exists h t af al,
    chosen documented_v23 c "min_feature_proba" af /\ head_sampler_with af h /\
    chosen documented_v23 c "min_label_proba" al /\ tail_sampler_with al t /\
    (forall e g, fit (S h t) DivMaxV2 ord fuel X Y (new_classifier (GParams lambd n_tails n_heads n_max 0) (w0 O)) = (Err e, g) ->
       n_heads_run S w0 ord fuel ds_load c n_tails n_heads d = (Err e, d')) /\
    (forall g, fit (S h t) DivMaxV2 ord fuel X Y (new_classifier (GParams lambd n_tails n_heads n_max 0) (w0 O)) = (Ok tt, g) ->
       iter_ok (S h t) -> tails_valid (S h t) (csr_cols Y) ->
       forall (rules : list (list Z * list Z)) (cP cT occ cov : gset (Z * Z)) (E : gset Z),
         rules = map (fun s => (r_head (sr_rule s), r_tail (sr_rule s))) (g_rules g) ->
         (forall i j, (i, j) ∈ cP <-> fires rules TX i j) -> SEval.cells_of TY cT -> equal_rows (csr_rows TY) cP cT E ->
         SEval.cells_of Y occ -> occ <> ∅ -> covered_cells X Y rules cov ->
         exists m, n_heads_run S w0 ord fuel ds_load c n_tails n_heads d = (Ok m, d') /\
           let results := expected_results (csr_rows TY) (csr_cols TY) cP cT (size E) (size cov) (size occ) (zlen rules) in
           (forall key v, (key, v) ∈ results -> m !! key = Some (inr v)) /\
           m !! "n_tails_per_iter" = Some (inl (VInt n_tails)) /\ m !! "n_heads_per_tail" = Some (inl (VInt n_heads)) /\
           (forall key, key ∉ map fst results -> key <> "n_tails_per_iter" -> key <> "n_heads_per_tail" -> m !! key = inl <$> c !! key)).
Proof. exact C92_n_heads_proof. Qed.
Print Assumptions C92_n_heads.

(** ** Examples *)
From Verif.Proofs Require Import PBase PSparse.
Open Scope string_scope.
Open Scope list_scope.
Open Scope Z_scope.
Definition exD : Data.dataset := Dataset false (Q2Qc (1 # 2)) (Some (T_Greedy.divX, T_Greedy.divY)) (Some (T_Greedy.divX, T_Greedy.divY))
  None None None None None None None.
Definition exC : config :=
  {["lambd" := VInt 1; "n_max_rules" := VInt 2; "n_tails_per_iter" := VInt 1; "n_heads_per_tail" := VInt 1; "dataset" := VStr "toy"]}.

(** The three training rows of C45, whose classifiers have the rule {0} -> {0} twice.  The development part is row 0, which
    is a training row: it gets label 0, its labels are 0 and 1, and the reported mean of micro_f1 is 2/3. *)
Example C92_trial_ex : exists gs out,
  trial (fun _ _ => T_Greedy.divS) (fun _ => tt) elements 3 (sret tt) py_range exC exD = (Ok (gs, out), exD) /\
  exists v : R, ("micro_f1", Some v) ∈ out /\ v = (2 / 3)%R.
Proof.
  destruct (T_Greedy.divS_fit_v2 DivMaxV2 2 1 0 (new_classifier (GParams 1 1 1 (Some 2) 0) tt)) as (g & Hf & Hr); [by left|done|done|].
  assert (forall (l : list (Z * Z)) (m : csr), wf_cmat (csr_mat m) = true ->
    bool_decide (list_to_set (PGreedyBase.cell_list m) =@{gset (Z * Z)} list_to_set l) = true ->
    SEval.cells_of m (list_to_set l)) as Hcells.
  { intros l m Hw Hd i j. apply bool_decide_eq_true in Hd. rewrite <- Hd, elem_of_list_to_set. by apply PGreedyBase.elem_of_cell_list. }
  destruct (C92_trial unit (fun _ _ => T_Greedy.divS) (fun _ => tt) elements 3 (sret tt) py_range exC exD exD (VInt 1) (VInt 1) (VInt 1) (VInt 2) 1 1 1 (Some 2)
    T_Greedy.divX T_Greedy.divY (list_to_set [(0, 0); (0, 1); (1, 0); (2, 1)])) as (h & t & af & al & dev & _ & _ & _ & _ & _ & _ & Hld & Htk & Hrun);
    [intros s; reflexivity|reflexivity|by left|by (left; exists 1)|by left|reflexivity|by left|reflexivity|by left|by (right; exists 2)|by eexists|reflexivity|reflexivity
    |by_compute|by_compute|by_compute|apply binary_b_ok; by_compute|by_compute|by_compute|apply Hcells; by_compute|by_compute|].
  assert (dev = [0]) as ->.
  { rewrite Htk. change (csr_rows T_Greedy.divX) with 3 in *. change (3 - 7 * 3 / 10) with 1 in Hld. unfold zlen in Hld. replace (length dev) with 1%nat by lia. by_compute. }
  destruct (Hrun ltac:(intros w l; done) ltac:(intros w w' tl [= <- _] c Hc; apply elem_of_singleton in Hc as ->; by_compute) (fun _ => g)) as [_ Hok].
  destruct (Hok (fun _ _ => Hf) (fun _ => [([0], [0]); ([0], [0])]) (fun _ => {[(0, 0)]}) (fun _ => {[(0, 0); (1, 0)]}) {[(0, 0); (0, 1)]}) as (out & Erun & Hkeys & Hav).
  - intros i Hi. split; [by rewrite Hr|]. split.
    + intros k j. rewrite elem_of_singleton. split.
      * intros [= -> ->]. split; [done|]. exists 0. split; [done|]. split; [by_compute|]. exists [0], [0]. split; [by left|]. split; [|by left].
        intros f Hf'. apply elem_of_list_singleton in Hf' as ->. apply PGreedyBase.elem_of_cell_list; [by_compute|by_compute].
      * intros (Hk & r & Er & _ & h0 & t0 & Hin & _ & Hj). rewrite !elem_of_cons, elem_of_nil in Hin.
        assert (h0 = [0] /\ t0 = [0]) as [-> ->] by (destruct Hin as [[= -> ->]|[[= -> ->]|[]]]; done). apply elem_of_list_singleton in Hj as ->.
        destruct (Z.to_nat k) as [|n] eqn:E; [|done]. assert (k = 0) as -> by lia. done.
    + intros x.
      assert (x ∈ ({[(0, 0); (1, 0)]} : gset (Z * Z)) <-> covers (tocsc T_Greedy.divX) (tocsc T_Greedy.divY) [0] [0] x) as ->.
      { replace ({[(0, 0); (1, 0)]} : gset (Z * Z)) with (label_occs T_Greedy.divB) by by_compute.
        apply (PRuleMetric.label_occs_covers (tocsc T_Greedy.divX) (tocsc T_Greedy.divY) (new_rule [0] [0])).
        apply (T_Rule.bound_new elements); [intros s; reflexivity|apply T_GreedyBase.dataset_tocsc; by_compute| |vm_compute; reflexivity].
        intros c Hc. apply elem_of_list_singleton in Hc as ->. lia. }
      split; [intros H; exists [0], [0]; split; [by left|done]|].
      intros (h0 & t0 & Hin & H). rewrite !elem_of_cons, elem_of_nil in Hin.
      assert (h0 = [0] /\ t0 = [0]) as [-> ->] by (destruct Hin as [[= -> ->]|[[= -> ->]|[]]]; done). done.
  - intros k j. split.
    + intros H. apply elem_of_union in H as [H|H]; apply elem_of_singleton in H as [= -> ->]; (split; [done|]; exists 0; split; [done|]; apply PGreedyBase.elem_of_cell_list; [by_compute|by_compute]).
    + intros (Hk & r & Er & Hj). destruct (Z.to_nat k) as [|n] eqn:E; [|done]. assert (k = 0) as -> by lia. injection Er as <-.
      apply PGreedyBase.elem_of_cell_list in Hj; [|by_compute].
      assert (bool_decide (Forall (fun c => c.1 = 0 -> c ∈ ({[(0, 0); (0, 1)]} : gset (Z * Z))) (PGreedyBase.cell_list T_Greedy.divY)) = true) as HF by (vm_compute; reflexivity).
      apply bool_decide_eq_true in HF. rewrite list.Forall_forall in HF. by apply (HF (0, j) Hj).
  - exists (map (fun _ => g) (seq 0 10)), out. split; [exact Erun|].
    set (recs := map _ _) in *. assert (exists x, ("micro_f1", x) ∈ out) as [x Hx].
    { assert ("micro_f1" ∈ map fst out) as Hin by (rewrite <- (Hkeys (dev_results 1 2 {[(0, 0)]} {[(0, 0); (0, 1)]} 2 4 2)); [left|left]). apply elem_of_map in Hin as ([k x] & -> & Hin). by exists x. }
    destruct (Hav _ _ Hx) as (vs & Hvs & ->). exists (foldr Rplus 0 vs / INR (length vs))%R. split; [done|].
    assert (Hone : forall v, (exists p, ("micro_f1", p) ∈ dev_results 1 2 {[(0, 0)]} {[(0, 0); (0, 1)]} 2 4 2 /\ number p v) -> v = (2 / 3)%R).
    { intros v (p & Hp & Hv). unfold dev_results in Hp. rewrite !elem_of_cons, elem_of_nil in Hp.
      destruct Hp as [ [= -> ] | [ [=] | [ [=] | [ [=] | [ [=] | [] ] ] ] ] ]. inversion Hv as [q Eq| |]; subst.
      replace (dice {[(0, 0)]} {[(0, 0); (0, 1)]}) with (Q2Qc (2 # 3)) by (apply Qc_is_canon; vm_compute; reflexivity). cbn [this Q2Qc]. rewrite Qred_correct. unfold Q2R. cbn. lra. }
    assert (Hlen : length vs = 10%nat) by (rewrite <- (Forall2_length _ _ _ Hvs); reflexivity).
    assert (Hall : forall v, v ∈ vs -> v = (2 / 3)%R).
    { intros v Hv. apply elem_of_list_lookup in Hv as [i Hi]. destruct (Forall2_lookup_r _ _ _ _ _ Hvs Hi) as (r & Er & Hp). apply Hone.
      apply elem_of_list_lookup_2 in Er. apply elem_of_map in Er as (_ & -> & _). exact Hp. }
    assert (Hsum : forall l, (forall v, v ∈ l -> v = (2 / 3)%R) -> foldr Rplus 0%R l = (INR (length l) * (2 / 3))%R).
    { induction l as [|v l IH]; intros Hl; [cbn; lra|]. cbn [foldr length]. rewrite IH by (intros y Hy; apply Hl; by right). rewrite (Hl v) by left. rewrite S_INR. lra. }
    rewrite (Hsum vs Hall), Hlen. cbn [INR]. lra.
Qed.

(** With the same data loaded into a dataset with split_train, two rows are for training and the third is held out. *)
Definition exC3 : config := <["experiment_name" := VStr "tune_greedy_v2"]> (<["greedy_version" := VStr "v2"]> exC).
Example C92_held_out_ex : exists train dev d', train ++ dev ≡ₚ [0; 1; 2] /\ zlen train = 2 /\
  (forall tX tY, ds_trn d' = Some (tX, tY) -> csr_rows tX = 2) /\
  forall e g, (forall w tX tY, fit T_Greedy.divS DivMaxV2 elements 3 tX tY (new_classifier (GParams 1 1 1 (Some 2) 0) w) = (Err e, g)) -> (exists tX tY occ, ds_trn d' = Some (tX, tY) /\ SEval.cells_of tY occ /\ occ <> ∅) ->
    trial_greedy (fun _ _ => T_Greedy.divS) (fun _ => tt) elements 3 (load py_range T_Greedy.divX T_Greedy.divY T_Greedy.divX T_Greedy.divY [] []) exC3 (new_dataset true (Q2Qc (7 # 10))) = (Err e, d').
Proof.
  destruct (C92_held_out unit (fun _ _ => T_Greedy.divS) (fun _ => tt) elements 3 py_range exC3 "v2" DivMaxV2 (new_dataset true (Q2Qc (7 # 10))) (VInt 1) (VInt 1) (VInt 1) (VInt 2) 1 1 1 (Some 2)
    T_Greedy.divX T_Greedy.divY T_Greedy.divX T_Greedy.divY [] []) as (h & t & af & al & train & dev & tX & tY & d' & _ & _ & _ & _ & Hp & Hl & RX & RY & Htrn & Hrun);
    [intros s; reflexivity|reflexivity|by left|reflexivity|by left|by (left; exists 1)|by left|reflexivity|by left|reflexivity|by left|by (right; exists 2)|by eexists|by eexists|reflexivity|reflexivity
    |split_and!; by_compute|by_compute|by_compute|apply binary_b_ok; by_compute|by_compute|by_compute|].
  exists train, dev, d'. split; [exact Hp|]. split; [exact Hl|]. split.
  - intros tX' tY' E. rewrite Htrn in E. injection E as <- <-. destruct RX as (_ & Hr & _). rewrite Hr. exact Hl.
  - intros e g Hf (tX' & tY' & occ & E & Hocc & Hne). rewrite Htrn in E. injection E as <- <-.
    destruct (Hrun ltac:(intros w l; done) ltac:(intros w w' tl [= <- _] c Hc; apply elem_of_singleton in Hc as ->; by_compute) (fun _ => g) occ Hocc Hne) as [Herr _].
    refine (Herr 0%nat e g _ _ (Hf tt tX tY)); [lia|]. intros i Hi. lia.
Qed.

(** The configuration asks for the default numbers of tails and heads; the run uses 1 and 1. *)
Definition exC4 : config := {["lambd" := VInt 1; "n_max_rules" := VInt 2]}.
Example C92_n_heads_ex : exists m,
  n_heads_run (fun _ _ => T_Greedy.divS) (fun _ => tt) elements 3 (sret tt) exC4 1 1 exD = (Ok m, exD) /\
  m !! "n_tails_per_iter" = Some (inl (VInt 1)) /\ m !! "lambd" = Some (inl (VInt 1)) /\ m !! "n_rules" = Some (inr (Count 2)) /\ m !! "dataset" = None.
Proof.
  destruct (T_Greedy.divS_fit_v2 DivMaxV2 2 1 0 (new_classifier (GParams 1 1 1 (Some 2) 0) tt)) as (g & Hf & Hr); [by left|done|done|].
  assert (forall (l : list (Z * Z)) (m : csr), wf_cmat (csr_mat m) = true ->
    bool_decide (list_to_set (PGreedyBase.cell_list m) =@{gset (Z * Z)} list_to_set l) = true ->
    SEval.cells_of m (list_to_set l)) as Hcells.
  { intros l m Hw Hd i j. apply bool_decide_eq_true in Hd. rewrite <- Hd, elem_of_list_to_set. by apply PGreedyBase.elem_of_cell_list. }
  destruct (C92_n_heads unit (fun _ _ => T_Greedy.divS) (fun _ => tt) elements 3 (sret tt) exC4 exD exD 1 1 (VInt 1) (VInt 2) 1 (Some 2)
    T_Greedy.divX T_Greedy.divY T_Greedy.divX T_Greedy.divY) as (h & t & af & al & _ & _ & _ & _ & _ & Hok);
    [intros s; reflexivity|by left|by (left; exists 1)|by left|by (right; exists 2)|reflexivity|reflexivity|reflexivity
    |by_compute|by_compute|by_compute|apply binary_b_ok; by_compute|by_compute|by_compute|apply binary_b_ok; by_compute|by_compute|by_compute|by_compute|by_compute|].
  assert (Hcell : forall i j, csr_has T_Greedy.divX i j <-> (i, j) ∈ PGreedyBase.cell_list T_Greedy.divX) by (intros i j; symmetry; apply PGreedyBase.elem_of_cell_list; by_compute).
  destruct (Hok g Hf ltac:(intros w l; done) ltac:(intros w w' tl [= <- _] c Hc; apply elem_of_singleton in Hc as ->; by_compute)
    [([0], [0]); ([0], [0])] {[(0, 0); (1, 0)]} (list_to_set [(0, 0); (0, 1); (1, 0); (2, 1)]) (list_to_set [(0, 0); (0, 1); (1, 0); (2, 1)]) {[(0, 0); (1, 0)]} {[1]}) as (m & Erun & K1 & K2 & K3 & K4).
  - rewrite Hr. vm_compute. reflexivity.
  - intros i j. unfold fires. split.
    + intros H. rewrite elem_of_union, !elem_of_singleton in H.
      split; [destruct H as [[= -> ->]|[= -> ->]]; by_compute|]. exists [0], [0].
      split; [by left|]. split; [|destruct H as [[= -> ->]|[= -> ->]]; by left].
      intros f Hf'. apply elem_of_list_singleton in Hf' as ->. apply Hcell. destruct H as [[= -> ->]|[= -> ->]]; by_compute.
    + intros (_ & h0 & t0 & Hin & Hh & Ht). rewrite !elem_of_cons, elem_of_nil in Hin.
      assert (h0 = [0] /\ t0 = [0]) as [-> ->] by (destruct Hin as [[= -> ->]|[[= -> ->]|[]]]; done).
      apply elem_of_list_singleton in Ht as ->. specialize (Hh 0 ltac:(by left)). apply Hcell in Hh.
      assert (bool_decide (Forall (fun c => c.2 = 0 -> c ∈ ({[(0, 0); (1, 0)]} : gset (Z * Z))) (PGreedyBase.cell_list T_Greedy.divX)) = true) as HF by (vm_compute; reflexivity).
      apply bool_decide_eq_true in HF. rewrite list.Forall_forall in HF. by apply (HF (i, 0) Hh).
  - apply Hcells; by_compute.
  - intros i. rewrite elem_of_singleton. change (csr_rows T_Greedy.divY) with 3. split.
    + intros ->. split; [lia|]. intros j. set_solver.
    + intros [Hi H]. assert (i = 0 \/ i = 1 \/ i = 2) as [-> | [-> | ->]] by lia; [specialize (H 1)|done|specialize (H 1)]; set_solver.
  - apply Hcells; by_compute.
  - by_compute.
  - intros x.
    assert (x ∈ ({[(0, 0); (1, 0)]} : gset (Z * Z)) <-> covers (tocsc T_Greedy.divX) (tocsc T_Greedy.divY) [0] [0] x) as ->.
    { replace ({[(0, 0); (1, 0)]} : gset (Z * Z)) with (label_occs T_Greedy.divB) by by_compute.
      apply (PRuleMetric.label_occs_covers (tocsc T_Greedy.divX) (tocsc T_Greedy.divY) (new_rule [0] [0])).
      apply (T_Rule.bound_new elements); [intros s; reflexivity|apply T_GreedyBase.dataset_tocsc; by_compute| |vm_compute; reflexivity].
      intros c Hc. apply elem_of_list_singleton in Hc as ->. lia. }
    split; [intros H; exists [0], [0]; split; [by left|done]|].
    intros (h0 & t0 & Hin & H). rewrite !elem_of_cons, elem_of_nil in Hin.
    assert (h0 = [0] /\ t0 = [0]) as [-> ->] by (destruct Hin as [[= -> ->]|[[= -> ->]|[]]]; done). done.
  - assert (Hno : forall key, bool_decide (key ∈ (available_metrics ++ ["coverage"; "n_rules"])%list) = false ->
      key ∉ (available_metrics ++ ["coverage"; "n_rules"])%list) by (intros key Hk; by apply bool_decide_eq_false in Hk).
    exists m. split; [exact Erun|]. split; [exact K2|]. split; [|split].
    + rewrite K4; [reflexivity|apply Hno; vm_compute; reflexivity|done|done].
    + apply K1. do 9 right. left.
    + rewrite K4; [reflexivity|apply Hno; vm_compute; reflexivity|done|done].
Qed.
