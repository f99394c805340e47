(** Biclusters by voting *)
From Coq Require Import Reals Lra.
From Verif.Model Require Import PyBase PyReal Sparse Utils Rand PyState Plot Data Synth Reader Pcv.
From Verif.Spec Require Import SPcv.
From Verif.Proofs Require Import T_Pcv.

(** C75: the clusters of kmeans are the groups of equal labels: they partition the indices, every group is increasing,
    and the groups are ordered by their first element *)
Theorem C75_groups : forall labels, groups_of labels (kmeans_groups labels).
Proof. exact C75_groups_proof. Qed.
Print Assumptions C75_groups.

(** C76: the threshold derived from p and q lies strictly between them *)
Theorem C76_between : forall p q, (0 < q)%R -> (q < p)%R -> (p < 1)%R -> (q < rounding_threshold p q < p)%R.
Proof. exact C76_between_proof. Qed.
Print Assumptions C76_between.

(** C76: voting with this threshold elects exactly the columns whose ones are likelier at rate p than at rate q *)
Theorem C76_likelier : forall ord p q n B, set_order ord -> (0 < q)%R -> (q < p)%R -> (p < 1)%R -> table n B ->
  exists cs, majority_single ord n B (rounding_threshold p q) = Ok cs /\ lists cs (elected p q n B).
Proof. exact C76_likelier_proof. Qed.
Print Assumptions C76_likelier.

(** C77: the search returns the first pair of the grid whose values are closest to the shares of ones inside and
    outside of the columns they elect, with these columns, and (1, 0) with no column if no pair has q < p *)
Theorem C77_search : forall ord ps qs n B, set_order ord -> table n B -> Forall (fun p => (p < 1)%R) ps -> Forall (fun q => (0 < q)%R) qs ->
  (pairs ps qs = [] -> estimate_pq ord ps qs n B = Ok (1%R, 0%R, [])) /\
  (pairs ps qs <> [] -> exists p q cs, estimate_pq ord ps qs n B = Ok (p, q, cs) /\ best_pair n B (pairs ps qs) (p, q) /\ lists cs (elected p q n B)).
Proof. exact C77_search_proof. Qed.
Print Assumptions C77_search.

(** C78: with one label per row, PCV returns the groups of equal labels and one list of columns for each of them, in
    order, whatever the minimal cluster size: the columns elected with the best pair of the grid, or by the threshold *)
Theorem C78_pcv : forall ord labels n B t min_size (heuristic : bool), set_order ord -> table n B -> zlen labels = zlen B ->
  exists rights, pcv ord labels n B t min_size heuristic = Ok (kmeans_groups labels, rights) /\ groups_of labels (kmeans_groups labels) /\
    Forall2 (columns_of heuristic t n B) (kmeans_groups labels) rights.
Proof. exact C78_pcv_proof. Qed.
Print Assumptions C78_pcv.

Definition exB : list (list Z) := [[1;1;0]; [0;0;1]; [1;1;1]; [0;1;0]; [0;0;1]].
Example groups_example : kmeans_groups [7; 3; 7; 5; 3] = [[0; 2]; [1; 4]; [3]].
Proof. reflexivity. Qed.
Example table_example : table 3 exB.
Proof. split; [lia|]. repeat (constructor; [split; [done|]; repeat (constructor; [auto|]); constructor|]). constructor. Qed.
(** a column of ones is elected, a column of zeros is not *)
Example elected_example : elected (9/10) (1/10) 3 [[1;1;0]; [1;0;0]] 0 /\ ~ elected (9/10) (1/10) 3 [[1;1;0]; [1;0;0]] 2.
Proof.
  unfold elected, likelihood. change (votes [[1;1;0]; [1;0;0]] 0) with 2. change (votes [[1;1;0]; [1;0;0]] 2) with 0. change (zlen [[1;1;0]; [1;0;0]]) with 2.
  change (Z.to_nat 2) with 2%nat. change (Z.to_nat 0) with 0%nat. change (Z.to_nat (2 - 2)) with 0%nat. change (Z.to_nat (2 - 0)) with 2%nat. rewrite <- ?tech_pow_Rmult, ?pow_O. split; [split; [lia|lra]|]. intros [_ H]. lra.
Qed.
(** the search over the rates 0.5, 0.9 and 0.1, 0.7: the pair (0.5, 0.7) is skipped *)
Example search_example : exists p q cs, estimate_pq elements [1/2; 9/10]%R [1/10; 7/10]%R 3 exB = Ok (p, q, cs) /\ lists cs (elected p q 3 exB) /\ ((p, q) = (1/2, 1/10)%R \/ (p, q) = (9/10, 1/10)%R \/ (p, q) = (9/10, 7/10)%R).
Proof.
  destruct (C77_search elements [1/2; 9/10]%R [1/10; 7/10]%R 3 exB) as [_ H]; [by intros s|apply table_example|repeat (constructor; [lra|]); constructor|repeat (constructor; [lra|]); constructor|].
  assert (E : pairs [1/2; 9/10]%R [1/10; 7/10]%R = [(1/2, 1/10); (9/10, 1/10); (9/10, 7/10)]%R).
  { unfold pairs. cbn [map List.filter]. repeat (destruct (Rlt_dec _ _); try (exfalso; lra)). done. }
  rewrite E in H. destruct H as (p & q & cs & E1 & Hb & Hl); [done|]. exists p, q, cs. split_and!; [done|done|]. destruct Hb as (b & a & e & Heq & _).
  assert (Hin : (p, q) ∈ [(1/2, 1/10); (9/10, 1/10); (9/10, 7/10)]%R) by (rewrite Heq; apply elem_of_app; right; left).
  apply elem_of_cons in Hin as [?|[?|Hin]%elem_of_cons]; [auto|auto|]. apply elem_of_list_singleton in Hin. auto.
Qed.
Example threshold_example : (1/10 < rounding_threshold (9/10) (1/10) < 9/10)%R.
Proof. apply C76_between; lra. Qed.
Example pcv_example : exists rights, pcv elements [7; 3; 7; 5; 3] 3 exB (1/2) 5 true = Ok ([[0; 2]; [1; 4]; [3]], rights) /\ length rights = 3%nat.
Proof.
  destruct (C78_pcv elements [7; 3; 7; 5; 3] 3 exB (1/2) 5 true) as (rs & E & _ & HF); [by intros s|apply table_example|done|]. exists rs. split; [exact E|]. by rewrite <- (Forall2_length _ _ _ HF).
Qed.
