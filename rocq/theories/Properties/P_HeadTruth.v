(** Ground truth of the greedy head samplers (C84). *)
From Coq Require Import Lra.
From Verif.Model Require Import PyBase PyReal Sparse Rand RandR Cftp GreedyHead HeadTruth.
From Verif.Spec Require Import SMatrix SCftp SBoley SGreedyHead.
Open Scope Z_scope.
From Verif.Proofs Require Import T_HeadTruth.
Open Scope Z_scope.

(** C84: the ground truth of the greedy head samplers (CFTP_Greedy and PruneGreedy), after any fit whose data are those of X0.  Every
    pair of a positive row P and a negative row N, and no other key, is given the number of attributes of P that N lacks over the total; every
    attribute of positive discriminativity, and no other, its discriminativity over the same total; both sum to 1.  If the total is 0, the pairs raise
    ZeroDivisionError and the samples are empty. *)
Theorem C84_truth : forall (ord : gset Z -> list Z) (cache : option ghcache) (X0 X : csr) (y : list Z),
  set_order ord -> wf_cmat (csr_mat X0) = true -> binary (csr_mat X0) -> first_matrix ord cache X X0 ->
  zlen y = csr_rows X0 -> py_set y = {[ 0; 1 ]} ->
  exists s rows, gh_fit ord cache X y = Ok s /\ rows_of X0 rows /\
    let total := pairs_total n_extra rows y in
    (total = 0 -> gh_truth_samples ord s = Ok ∅ /\ gh_truth_pairs s = Err ZeroDivisionError) /\
    (total <> 0 -> exists mp ms, gh_truth_pairs s = Ok mp /\ gh_truth_samples ord s = Ok ms /\
       (forall p n v, mp !! (p, n) = Some v <-> exists P N, is_pos y p /\ is_neg y n /\ rows !! Z.to_nat p = Some P /\ rows !! Z.to_nat n = Some N /\
          v = (IZR (n_extra P N) / IZR total)%R) /\
       (forall a v, ms !! a = Some v <-> 0 < pattern_discrim rows y {[ a ]} /\ v = (IZR (pattern_discrim rows y {[ a ]}) / IZR total)%R) /\
       rsum (map snd (map_to_list mp)) = 1%R /\ rsum (map snd (map_to_list ms)) = 1%R).
Proof. exact C84_truth_proof. Qed.
Print Assumptions C84_truth.

(** C84: sample_a_pair of CFTP_Greedy follows this ground truth: given that 1024 steps are enough, which has the probability 1 - (1-q)^1024, each pair is drawn
    with exactly the probability that get_ground_truth_proba_for_pairs gives it, and no pair outside its keys can be drawn; where the ground truth
    raises ZeroDivisionError, only None can be returned. *)
Theorem C84_pair_law : forall (ord : gset Z -> list Z) (cache : option ghcache) (X0 X : csr) (y : list Z),
  set_order ord -> wf_cmat (csr_mat X0) = true -> binary (csr_mat X0) -> first_matrix ord cache X X0 ->
  csr_rows X = csr_rows X0 -> zlen y = csr_rows X0 -> py_set y = {[ 0; 1 ]} ->
  exists s rows, cg_fit ord cache X y = Ok s /\ rows_of X0 rows /\
    let total := pairs_total n_extra rows y in
    let q := (IZR total / IZR (pos_size rows y * n_neg y))%R in
    (total = 0 -> gh_truth_pairs (cg_h s) = Err ZeroDivisionError /\ forall o, rcan (cg_sample_pair s) o -> o = Ok None) /\
    (0 < total -> exists mp, gh_truth_pairs (cg_h s) = Ok mp /\ (0 < q <= 1)%R /\
       (forall p n v, mp !! (p, n) = Some v -> hprob (cg_sample_pair s) (Ok (Some (p, n))) (v * (1 - (1 - q) ^ 1024))) /\
       (forall p n, mp !! (p, n) = None -> ~ rcan (cg_sample_pair s) (Ok (Some (p, n)))) /\
       hprob (cg_sample_pair s) (Ok None) ((1 - q) ^ 1024)).
Proof. exact C84_pair_law_proof. Qed.
Print Assumptions C84_pair_law.

From Verif.Properties Require Import P_GreedyHead.
(** The rows of C59_cftp_ex: total 13.  The pair of rows 0 = {0,1,2} and 3 = {0} has 2 of the 13 units; attribute 0 is in 3 positive rows and absent from 2
    negative ones: 6 of the 13. *)
Example C84_ex : exists s mp ms, gh_fit elements None ex_X ex_y = Ok s /\ gh_truth_pairs s = Ok mp /\ gh_truth_samples elements s = Ok ms /\
  mp !! (0, 3) = Some (2 / 13)%R /\ mp !! (2, 3) = Some (0 / 13)%R /\ mp !! (3, 0) = None /\ ms !! 0 = Some (6 / 13)%R /\ ms !! 5 = None.
Proof.
  destruct C59_hypotheses_ex as (Ho & Hwf & Hb & Hfm & Hy & Hy01 & Hr).
  destruct (C84_truth elements None ex_X ex_X ex_y Ho Hwf Hb Hfm Hy Hy01) as (s & rows & E & Hr' & _ & H).
  rewrite (T_HeadTruth.rows_of_unique _ _ _ Hr' Hr) in H. change (pairs_total n_extra ex_rows ex_y) with 13 in H.
  destruct (H ltac:(done)) as (mp & ms & Emp & Ems & Hmp & Hms & _). exists s, mp, ms. split_and!; try done.
  - apply Hmp. exists {[0;1;2]}, {[0]}. split_and!; [split; [done|eexists; split; [reflexivity|done]]|done|done|done|]. by replace (n_extra {[0;1;2]} {[0]}) with 2 by by_compute.
  - apply Hmp. exists {[0]}, {[0]}. split_and!; [split; [done|eexists; split; [reflexivity|done]]|done|done|done|]. by replace (n_extra {[0]} {[0]}) with 0 by by_compute.
  - destruct (mp !! (3, 0)) as [v|] eqn:E'; [|done]. apply Hmp in E' as (P & N & [_ (v' & Hv & Hlt)] & _). cbn in Hv. injection Hv as <-. lia.
  - apply Hms. replace (pattern_discrim ex_rows ex_y {[ 0 ]}) with 6 by by_compute. done.
  - destruct (ms !! 5) as [v|] eqn:E'; [|done]. apply Hms in E' as [Hlt _]. exfalso. by vm_compute in Hlt.
Qed.

(** (0, 3) is drawn with 2/13 of the probability of success; a pair of two positive rows is not drawn. *)
Example C84_pair_law_ex : exists s, cg_fit elements None ex_X ex_y = Ok s /\
  hprob (cg_sample_pair s) (Ok (Some (0, 3))) (2 / 13 * (1 - (1 - 13 / 24) ^ 1024)) /\
  hprob (cg_sample_pair s) (Ok None) ((1 - 13 / 24) ^ 1024) /\ ~ rcan (cg_sample_pair s) (Ok (Some (0, 1))).
Proof.
  destruct C59_hypotheses_ex as (Ho & Hwf & Hb & Hfm & Hy & Hy01 & Hr).
  destruct (C84_pair_law elements None ex_X ex_X ex_y Ho Hwf Hb Hfm eq_refl Hy Hy01) as (s & rows & E & Hr' & H).
  destruct (C84_truth elements None ex_X ex_X ex_y Ho Hwf Hb Hfm Hy Hy01) as (s' & rows' & E' & Hr'' & H').
  rewrite (T_HeadTruth.rows_of_unique _ _ _ Hr' Hr) in H. rewrite (T_HeadTruth.rows_of_unique _ _ _ Hr'' Hr) in H'.
  change (pairs_total n_extra ex_rows ex_y) with 13 in *. change (pos_size ex_rows ex_y * n_neg ex_y) with 24 in H.
  cbv zeta in H, H'. destruct H as [_ H]. destruct H' as [_ H'].
  destruct (H ltac:(done)) as (mp & Emp & _ & Hp & Hn & H0). destruct (H' ltac:(done)) as (mp' & _ & Emp' & _ & Hmp & _).
  assert (cg_h s = s').
  { unfold cg_fit in E. rewrite E' in E. cbn [rbind] in E. destruct (cg_weight_dict _ _ _); [|done]. cbn [rbind] in E. destruct (rmap _ _); [|done]. cbn [rbind] in E.
    destruct (cftp_init _ _ _ _ _ _); [|done]. cbn [rbind] in E. by injection E as <-. }
  subst s'. rewrite Emp in Emp'. injection Emp' as <-. exists s. split_and!; [done| |done|].
  - apply Hp. apply Hmp. exists {[0;1;2]}, {[0]}. split_and!; [split; [done|eexists; split; [reflexivity|done]]|done|done|done|]. by replace (n_extra {[0;1;2]} {[0]}) with 2 by by_compute.
  - apply Hn. destruct (mp !! (0, 1)) as [v|] eqn:E1; [|done]. apply Hmp in E1 as (P & N & _ & [_ Hv] & _). by cbn in Hv.
Qed.
