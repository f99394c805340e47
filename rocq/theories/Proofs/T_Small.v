(** Proofs of the property theorems of Properties/P_Small.v. *)
From Coq Require Import String QArith.Qcanon.
From stdpp Require Import strings.
From Verif.Model Require Import PyBase Sparse Utils Rand Graph PyState Data Evaluation Reader Boley.
From Verif.Model Require Exp.
From Verif.Spec Require Import SMatrix SGraph SData.
Open Scope string_scope.
Open Scope list_scope.
Open Scope Z_scope.
From Verif.Proofs Require Import PBase PSparse PGraph PRand PGreedyBase T_GreedyBase T_Graph T_Data T_Eval.
Open Scope string_scope.
Open Scope list_scope.
Open Scope Z_scope.

Lemma C51_numbers_proof : forall (d : dataset),
  (forall X Y X' Y', ds_trn d = Some (X, Y) -> ds_tst d = Some (X', Y') ->
     ntrn d = (Ok (csr_rows X), d) /\ ntst d = (Ok (csr_rows X'), d) /\
     nfeat d = (Ok (csr_cols X), d) /\ ncls d = (Ok (csr_cols Y), d) /\
     (ds_split_train d = false ->
        shape d = (Ok [("ntrn", csr_rows X); ("ntst", csr_rows X'); ("nfeat", csr_cols X); ("ncls", csr_cols Y)], d)) /\
     (forall DX DY, ds_split_train d = true -> ds_dev d = Some (DX, DY) ->
        shape d = (Ok [("ntrn", csr_rows X); ("ntst", csr_rows X'); ("nfeat", csr_cols X); ("ncls", csr_cols Y);
                       ("ndev", csr_rows DX)], d))) /\
  (ds_trn d = None -> ntrn d = (Err AttributeError, d) /\ nfeat d = (Err AttributeError, d) /\
     ncls d = (Err AttributeError, d) /\ shape d = (Err AttributeError, d)) /\
  (ds_tst d = None -> ntst d = (Err AttributeError, d) /\ shape d = (Err AttributeError, d)).
Proof.
  intros d.
  assert (Ht : forall X Y, ds_trn d = Some (X, Y) -> ntrn d = (Ok (csr_rows X), d) /\ nfeat d = (Ok (csr_cols X), d) /\ ncls d = (Ok (csr_cols Y), d)).
  { intros X Y E. unfold ntrn, nfeat, ncls, get_trn, sbind, sget. rewrite E. done. }
  assert (Hn : ds_trn d = None -> ntrn d = (Err AttributeError, d) /\ nfeat d = (Err AttributeError, d) /\ ncls d = (Err AttributeError, d)).
  { intros E. unfold ntrn, nfeat, ncls, get_trn, sbind, sget. rewrite E. done. }
  assert (Hs : forall X' Y', ds_tst d = Some (X', Y') -> ntst d = (Ok (csr_rows X'), d)).
  { intros X Y E. unfold ntst, get_tst, sbind, sget. rewrite E. done. }
  assert (Hm : ds_tst d = None -> ntst d = (Err AttributeError, d)).
  { intros E. unfold ntst, get_tst, sbind, sget. rewrite E. done. }
  split; [|split].
  - intros X Y X' Y' E1 E2. destruct (Ht X Y E1) as (A & B & C). pose proof (Hs X' Y' E2) as D.
    split; [done|]. split; [done|]. split; [done|]. split; [done|]. unfold shape, sbind, sget. rewrite A, D, B, C. split.
    + intros ->. done.
    + intros DX DY Es Ed. rewrite Es. unfold ndev, sbind, sget. rewrite Es, Ed. done.
  - intros E. destruct (Hn E) as (A & B & C). split; [done|]. split; [done|]. split; [done|]. unfold shape, sbind. rewrite A. done.
  - intros E. pose proof (Hm E) as A. split; [done|]. unfold shape, sbind.
    destruct (ds_trn d) as [[X Y]|] eqn:Et.
    + destruct (Ht X Y eq_refl) as (B & _). by rewrite B, A.
    + destruct (Hn eq_refl) as (B & _). by rewrite B.
Qed.


Lemma C51_connectivity_proof : forall (d : dataset) (X Y : csr) (which : string),
  ds_trn d = Some (X, Y) -> wf_cmat (csr_mat X) = true -> binary (csr_mat X) -> wf_cmat (csr_mat Y) = true -> binary (csr_mat Y) ->
  (which <> "Y" -> which <> "X" -> build_connectivity_graph which d = (Err UnboundLocalError, d)) /\
  (forall M, (which = "Y" /\ M = Y) \/ (which = "X" /\ M = X) ->
     exists c g d1, build_connectivity_graph which d = (Ok c, d1) /\ ds_g d1 = Some g /\
       build_confidence_graph which d = (Ok g, d1) /\
       g_nodes c = py_range (csr_cols M) /\
       (forall u v, is_edge c u v <-> u <> v /\ exists i, csr_has M i u /\ csr_has M i v) /\
       (forall u v w (A B C : gset Z), g_wt c !! (u, v) = Some w ->
          (forall i, i ∈ A <-> csr_has M i u) -> (forall i, i ∈ B <-> csr_has M i v) ->
          (forall i, i ∈ C <-> csr_has M i u /\ csr_has M i v) ->
          let num (s : gset Z) := Qc_of_Z (Z.of_nat (size s)) in
          w = (1 - (1 - num C / num A) * (1 - num C / num B))%Qc /\ g_wt c !! (v, u) = Some w)).
Proof.
  intros d X Y which Ht HwX HbX HwY HbY. split.
  - intros H1 H2. destruct (C51_graph_proof d X Y which Ht HwX HbX HwY HbY) as [E _].
    unfold build_connectivity_graph, sbind. rewrite (E H1 H2). done.
  - intros M HM.
    assert (HwM : wf_cmat (csr_mat M) = true /\ binary (csr_mat M)) by (destruct HM as [[_ ->]|[_ ->]]; done). destruct HwM as [HwM HbM].
    destruct (C21_confidence_graph_proof (tocsc M)) as (g & freq & E & Hn & He & Hsym & Hw & _); [by apply flip_wf|by apply flip_binary|].
    assert (Hb : build_confidence_graph which d = (Ok g, set_g g d)).
    { unfold build_confidence_graph, sbind, get_trn, sbind, sget. rewrite Ht. cbn [sret].
      destruct HM as [[-> ->]|[-> ->]]; cbn [String.eqb sret fst snd Ascii.eqb Bool.eqb]; unfold slift; rewrite E; done. }
    destruct (C22_noisy_or_proof g Hsym) as (c & Ec & Hnc & Hwc & Hs & _).
    assert (Ecol : csc_cols (tocsc M) = csr_cols M).
    { pose proof HwM as F. apply wf_cmat_facts in F as []. unfold csc_cols, tocsc, flip_cmat. cbn [csc_mat of_lines n_major]. by apply length_transpose_lines. }
    exists c, g, (set_g g d). split; [unfold build_connectivity_graph, sbind; rewrite Hb; unfold slift; by rewrite Ec|].
    split; [done|]. split; [done|]. split; [by rewrite Hnc, Hn, Ecol|].
    assert (Hhas : forall u v, is_edge g u v <-> u <> v /\ exists i, csr_has M i u /\ csr_has M i v).
    { intros u v. rewrite He. split; intros [Hne (i & A & B)]; (split; [done|]); exists i; [by rewrite <- !tocsc_has|by rewrite !tocsc_has]. }
    split.
    + intros u v. split.
      * intros [w Hc]. apply Hwc in Hc as (Hne & p & q & Hp & Hq & ->). apply Hhas. by exists p.
      * intros H. apply Hhas in H. pose proof (Hsym _ _ H) as H'. destruct H as [p Hp], H' as [q Hq].
        exists (1 - (1 - p) * (1 - q))%Qc. apply Hwc. split; [|by exists p, q].
        assert (is_edge g u v) as F by by exists p. apply Hhas in F as [F _]. done.
    + intros u v w A B C Hc HA HB HC num. split; [|by apply Hs].
      apply Hwc in Hc as (Hne & p & q & Hp & Hq & ->).
      destruct (Hw u v p C A Hp) as [-> _]; [intros i; rewrite HC, !tocsc_has; done|intros i; rewrite HA, tocsc_has; done|].
      destruct (Hw v u q C B Hq) as [-> _]; [intros i; rewrite HC, !tocsc_has; tauto|intros i; rewrite HB, tocsc_has; done|]. done.
Qed.


Lemma C49_unusual_proof : forall (P T : csr) (metric : csr -> csr -> result Qc),
  In metric [hamming_accuracy; subset_accuracy; micro_precision; micro_recall; micro_f1;
             macro_precision; macro_recall; macro_f1] ->
  (csr_rows P <> csr_rows T -> metric P T = Err ValueError) /\
  (csr_rows P = csr_rows T -> csr_cols P <= 1 \/ csr_cols T <= 1 -> metric P T = Err GenericException) /\
  (wf_cmat (csr_mat P) = true -> wf_cmat (csr_mat T) = true -> binary (csr_mat P) -> binary (csr_mat T) ->
   csr_rows P = 0 -> csr_rows T = 0 -> csr_cols P = csr_cols T -> 2 <= csr_cols P ->
   hamming_accuracy P T = Err ZeroDivisionError /\ subset_accuracy P T = Err NonFinite).
Proof.
  intros P T metric Hin. split; [|split].
  - intros Hne. assert (Hc : check_targets T P = Err ValueError).
    { unfold check_targets. destruct (Z.eqb_spec (csr_rows T) (csr_rows P)); [congruence|]. done. }
    cbn [In] in Hin. repeat destruct Hin as [<-|Hin]; try done;
      unfold hamming_accuracy, hamming_loss, subset_accuracy, accuracy_score, micro_precision, micro_recall, micro_f1,
        macro_precision, macro_recall, macro_f1, precision_score, recall_score, f1_score, prf; rewrite Hc; done.
  - intros He Hcol. assert (Hc : check_targets T P = Err GenericException).
    { unfold check_targets. rewrite He, Z.eqb_refl. cbn [negb].
      assert (forall m, csr_cols m <= 1 -> is_multilabel m = false) as F.
      { intros m Hm. unfold is_multilabel. destruct (Z.ltb_spec 1 (csr_cols m)); [lia|]. done. }
      destruct Hcol as [H|H]; rewrite (F _ H); [by rewrite andb_false_r|done]. }
    cbn [In] in Hin. repeat destruct Hin as [<-|Hin]; try done;
      unfold hamming_accuracy, hamming_loss, subset_accuracy, accuracy_score, micro_precision, micro_recall, micro_f1,
        macro_precision, macro_recall, macro_f1, precision_score, recall_score, f1_score, prf; rewrite Hc; done.
  - intros HwP HwT HbP HbT HrP HrT Hcc H2.
    assert (Hc : check_targets T P = Ok tt).
    { unfold check_targets. rewrite HrP, HrT, Z.eqb_refl. cbn [negb]. rewrite !multilabel_binary by (done || lia). done. }
    unfold hamming_accuracy, hamming_loss, subset_accuracy, accuracy_score. rewrite Hc. cbn [rbind].
    rewrite binop_ok by congruence. cbn [rbind]. rewrite HrT. cbn [Z.mul Z.eqb]. split; [done|].
    unfold count_rows, binop_mat. unfold csr_rows at 1. rewrite HrT. done.
Qed.


Lemma C70_left_width_proof : forall (A : list (list Qc)) (split n : Z) (D L : list (list Qc)),
  (forall row, row ∈ A -> zlen row = n) -> split_at split A = (D, L) ->
  (forall row, row ∈ D -> zlen row = left_width n split) /\ (forall row, row ∈ L -> zlen row = n - left_width n split) /\
  zip_with (++) D L = A.
Proof.
  intros A split n D L HA H. unfold split_at in H. injection H as <- <-.
  assert (Hw : forall row : list Qc, zlen row = n -> py_slice row 0 split = take (Z.to_nat (left_width n split)) row /\
     py_slice row split (zlen row) = drop (Z.to_nat (left_width n split)) row /\ 0 <= left_width n split <= n).
  { intros row Hr. unfold py_slice. rewrite Hr. assert (0 <= n) by (unfold zlen in Hr; lia).
    assert (py_clamp n 0 = 0) as -> by (unfold py_clamp; cbn; lia).
    assert (py_clamp n n = n) as -> by (unfold py_clamp; destruct (Z.ltb_spec n 0); lia).
    assert (py_clamp n split = left_width n split /\ 0 <= left_width n split <= n) as [-> Hb].
    { unfold py_clamp, left_width. destruct (Z.ltb_spec split 0); [lia|]. lia. }
    split; [by rewrite Z.sub_0_r|]. split; [|done]. apply take_ge. rewrite drop_length. unfold zlen in Hr. lia. }
  split; [|split].
  - intros row Hin. apply elem_of_map in Hin as (r & -> & Hr). specialize (HA r Hr). destruct (Hw r HA) as (-> & _ & Hb).
    unfold zlen in *. rewrite take_length. lia.
  - intros row Hin. apply elem_of_map in Hin as (r & -> & Hr). specialize (HA r Hr). destruct (Hw r HA) as (_ & -> & Hb).
    unfold zlen in *. rewrite drop_length. lia.
  - induction A as [|r A IH]; [done|]. cbn [map zip_with]. destruct (Hw r) as (-> & -> & _); [apply HA; by left|].
    rewrite take_drop. f_equal. apply IH. intros row Hr. apply HA. by right.
Qed.


Lemma qsum_one_hot (f : Z -> Qc) (l : list Z) j : NoDup l -> j ∈ l ->
  (forall x, f x = if decide (x = j) then 1%Qc else 0%Qc) -> qsum (map f l) = 1%Qc.
Proof.
  intros Hn Hj Hf. induction Hn as [|x l Hx Hn IH]; [by apply elem_of_nil in Hj|]. unfold qsum. cbn [map foldr]. fold (qsum (map f l)).
  rewrite Hf. destruct (decide (x = j)) as [->|Hne].
  - rewrite (qsum_zero f l); [ring|]. intros y Hy. rewrite Hf. destruct (decide (y = j)) as [->|]; done.
  - rewrite IH; [ring|]. by apply elem_of_cons in Hj as [->|Hj].
Qed.

Lemma C97_dummy_proof : forall (M : csr) (sampler : csr -> rand (gset Z)),
  In sampler [dummy_head_sample; dummy_tail_sample] ->
  (csr_cols M <= 0 -> sampler M = Fail ValueError) /\
  (0 < csr_cols M ->
     (forall o, can (sampler M) o <-> exists j, 0 <= j < csr_cols M /\ o = Ok {[ j ]}) /\
     (forall j, 0 <= j < csr_cols M -> prob (sampler M) (Ok {[ j ]}) = (1 / Qc_of_Z (csr_cols M))%Qc) /\
     (forall F : result (gset Z) -> Qc, expect (sampler M) F =
        (qsum (map (fun j => F (Ok {[ j ]})) (py_range (csr_cols M))) / Qc_of_Z (csr_cols M))%Qc)).
Proof.
  intros M sampler Hin. set (n := csr_cols M).
  assert (sampler M = bind (np_randint n) (fun i => Ret {[ i ]})) as -> by (cbn [In] in Hin; destruct Hin as [<-|[<-|[]]]; done).
  unfold np_randint. split.
  - intros H. destruct (Z.leb_spec n 0); [done|lia].
  - intros H. destruct (Z.leb_spec n 0); [lia|].
    assert (Hne : py_range n <> []).
    { intros E. assert (0 ∈ py_range n) as F by (apply elem_of_py_range; lia). rewrite E in F. by apply elem_of_nil in F. }
    assert (HE : forall F : result (gset Z) -> Qc, expect (bind (np_choice_uniform (py_range n)) (fun i => Ret {[ i ]})) F =
        (qsum (map (fun j => F (Ok {[ j ]})) (py_range n)) / Qc_of_Z n)%Qc).
    { intros F. rewrite expect_bind, expect_uniform by done. unfold zlen. rewrite length_py_range. rewrite Z2Nat.id by lia. done. }
    split; [|split; [|exact HE]].
    + intros o. rewrite can_bind. split.
      * intros (a & Ha & Ho). apply can_uniform in Ha as (x & Hx & ->); [|done]. apply elem_of_py_range in Hx. cbn in Ho. eauto.
      * intros (j & Hj & ->). exists (Ok j). split; [|done]. apply can_uniform; [done|]. exists j. by rewrite elem_of_py_range.
    + intros j Hj. unfold prob. rewrite HE. f_equal.
      apply (qsum_one_hot _ _ j); [apply NoDup_py_range|by apply elem_of_py_range|].
      intros x. destruct (decide (x = j)) as [->|Hne']; [by rewrite decide_True|]. rewrite decide_False; [done|].
      intros E'. assert (E : ({[ x ]} : gset Z) = {[ j ]}) by congruence. apply Hne'. assert (Hx : x ∈ ({[ j ]} : gset Z)) by (rewrite <- E; by apply elem_of_singleton).
      by apply elem_of_singleton in Hx.
Qed.


Lemma C82_toy_data_proof : forall i j,
  csr_rows toy_X = 3 /\ csr_cols toy_X = 3 /\ csr_rows toy_Y = 3 /\ csr_cols toy_Y = 2 /\
  wf_cmat (csr_mat toy_X) = true /\ wf_cmat (csr_mat toy_Y) = true /\ binary (csr_mat toy_X) /\ binary (csr_mat toy_Y) /\
  (csr_has toy_X i j <-> (i, j) ∈ [(0,0); (0,1); (1,1); (1,2); (2,0); (2,2)]) /\
  (csr_has toy_Y i j <-> (i, j) ∈ [(0,0); (0,1); (1,1); (2,0)]).
Proof.
  intros i j. split; [by_compute|]. split; [by_compute|]. split; [by_compute|]. split; [by_compute|].
  assert (Hx : wf_cmat (csr_mat toy_X) = true) by by_compute. assert (Hy : wf_cmat (csr_mat toy_Y) = true) by by_compute.
  split; [done|]. split; [done|]. split; [apply binary_b_ok; by_compute|]. split; [apply binary_b_ok; by_compute|].
  rewrite <- !PGreedyBase.elem_of_cell_list by done.
  assert (cell_list toy_X = [(0,0); (0,1); (1,1); (1,2); (2,0); (2,2)]) as -> by by_compute.
  assert (cell_list toy_Y = [(0,0); (0,1); (1,1); (2,0)]) as -> by by_compute. done.
Qed.


Lemma C60_cftp_sampler_proof : forall (prune min_proba pd rs : Exp.pyval),
  (pd = Exp.VStr "tight" \/ pd = Exp.VStr "original" ->
     exists attrs, Exp.new_cftp_sampler prune min_proba pd rs = Ok (Exp.VObj "CFTPDiscriminativitySampler" attrs) /\
       forall k v, (k, v) ∈ attrs <->
         (k = "do_prune_edges" /\ v = prune) \/ (k = "min_proba" /\ v = min_proba) \/ (k = "proposal_distribution" /\ v = pd) \/
         (k = "random_state" /\ v = rs) \/ (k = "dfs_backend" /\ v = Exp.VStr "dfs_v2") \/
         (k = "_sample_space" /\ v = Exp.VNone) \/ (k = "_positives" /\ v = Exp.VNone) \/ (k = "N" /\ v = Exp.VInt 0)) /\
  (pd <> Exp.VStr "tight" -> pd <> Exp.VStr "original" -> Exp.new_cftp_sampler prune min_proba pd rs = Err AssertionError).
Proof.
  intros prune min_proba pd rs. split.
  - intros H. eexists. split.
    + destruct H as [-> | ->]; reflexivity.
    + intros k v. assert (E : forall (a : string) (b : Exp.pyval), (k, v) = (a, b) <-> k = a /\ v = b) by (intros a b; split; [intros [= -> ->]; done|intros [-> ->]; done]).
      rewrite !elem_of_cons, elem_of_nil, !E. destruct H as [-> | ->]; tauto.
  - intros H1 H2. unfold Exp.new_cftp_sampler. destruct pd; try reflexivity.
    destruct (String.eqb_spec s "tight") as [->|]; [done|]. destruct (String.eqb_spec s "original") as [->|]; [done|]. reflexivity.
Qed.
