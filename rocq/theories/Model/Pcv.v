(** Model of biclus_viz/includes/pcv: the majority vote, the estimate of its threshold, the grouping of cluster labels
    and PCV.  Floats are real numbers.  The projection and KMeans (biclus_viz/includes/pcv/ProjCluster.py:15-47) are
    not modelled: the labels KMeans returns are an argument. *)
From Verif.Model Require Import PyBase PyReal Sparse Utils Rand PyState Plot Data Synth Reader.
Open Scope Z_scope.

(** roundingThreshold (biclus_viz/includes/pcv/Heuristic.py:56-57).  Simplification: it is only used for 0 < q < p < 1,
    so the errors of log and of the divisions are not modelled. *)
Definition log2 (x : R) : R := (ln x / ln 2)%R.
Definition rounding_threshold (p q : R) : R := (log2 ((1 - q) / (1 - p)) / log2 (p * (1 - q) / q / (1 - p)))%R.

(** BinaryMajorityVoteSingleCluster (biclus_viz/includes/pcv/MajorityVote.py:22-38); [n] is the number of columns *)
Definition majority_single (ord : gset Z -> list Z) (n : Z) (B : list (list Z)) (threshold : R) : result (list Z) :=
  let! counts := rmap (fun c => let! col := column n B c in Ok (zlen (List.filter (fun v => negb (v =? 0)) col))) (py_range n) in
  let abs_threshold := (IZR (zlen B) * threshold)%R in
  Ok (ord (py_set (map fst (List.filter (fun ck : Z * Z => Rltb abs_threshold (IZR (snd ck))) (enumerate counts))))).

(** estimatePQSingleCluster (biclus_viz/includes/pcv/Heuristic.py:31-54) *)
Definition estimate_single (ord : gset Z -> list Z) (p q : R) (n : Z) (B : list (list Z)) : result (R * R * list Z) :=
  let! cluster := majority_single ord n B (rounding_threshold p q) in
  let total_ones := zsum (map zsum B) in
  let! inside := rmap (fun row => rmap (py_index row) cluster) B in
  let ones_in := zsum (map zsum inside) in
  let ones_out := total_ones - ones_in in
  let m := zlen B in
  let k := zlen cluster in
  let area_in := m * k in
  let area_out := m * (n - k) in
  let est_p := if 0 <? area_in then (IZR ones_in / IZR area_in)%R else 1%R in
  let est_q := if 0 <? area_out then (IZR ones_out / IZR area_out)%R else 0%R in
  Ok (est_p, est_q, cluster).

(** estimatePQ (biclus_viz/includes/pcv/Heuristic.py:6-29); minDiff is infinite at first *)
Record pq_state := PQ { pq_min : option R; pq_p : R; pq_q : R; pq_cluster : list Z }.
Definition pq_step (ord : gset Z -> list Z) (n : Z) (B : list (list Z)) (p : R) (s : pq_state) (q : R) : result pq_state :=
  if Rleb p q then Ok s
  else
    let! '(est_p, est_q, cluster) := estimate_single ord p q n B in
    let diff := (Rabs (p - est_p) + Rabs (q - est_q))%R in
    if (match pq_min s with None => true | Some d => Rltb diff d end) then Ok (PQ (Some diff) p q cluster) else Ok s.
Definition estimate_pq (ord : gset Z -> list Z) (ps qs : list R) (n : Z) (B : list (list Z)) : result (R * R * list Z) :=
  let! s := rfold (fun s p => rfold (pq_step ord n B p) s qs) (PQ None 1%R 0%R []) ps in
  Ok (pq_p s, pq_q s, pq_cluster s).

(** numpy.arange(0.3,1,0.1) and numpy.arange(0.02,0.11,0.02) *)
Definition grid_ps : list R := map (fun i => IZR i / 10)%R [3; 4; 5; 6; 7; 8; 9].
Definition grid_qs : list R := map (fun i => IZR i / 100)%R [2; 4; 6; 8; 10].

(** BinaryMajorityVote (biclus_viz/includes/pcv/MajorityVote.py:5-20) *)
Definition vote_one (ord : gset Z -> list Z) (n : Z) (B : list (list Z)) (threshold : R) (use_heuristic : bool) (rows : list Z) : result (list Z) :=
  let! sub := take_rows B rows in
  if use_heuristic then let! '(_, _, cluster) := estimate_pq ord grid_ps grid_qs n sub in Ok cluster
  else majority_single ord n sub threshold.
Definition majority_vote (ord : gset Z -> list Z) (n : Z) (B : list (list Z)) (groups : list (list Z)) (threshold : R) (min_size : Z) (use_heuristic : bool)
    : result (list (list Z)) :=
  rmap (vote_one ord n B threshold use_heuristic) (List.filter (fun g => negb (zlen g <? min_size)) groups).

(** the grouping loop of kmeans (biclus_viz/includes/pcv/ProjCluster.py:50-60); the dict is the list of its items *)
Fixpoint group_add (groups : list (Z * list Z)) (label i : Z) : list (Z * list Z) :=
  match groups with
  | [] => [(label, [i])]
  | (l, g) :: groups' => if l =? label then (l, g ++ [i]) :: groups' else (l, g) :: group_add groups' label i
  end.
Definition kmeans_groups (labels : list Z) : list (list Z) :=
  map snd (foldl (fun groups (il : Z * Z) => group_add groups (snd il) (fst il)) [] (enumerate labels)).

(** PCV (biclus_viz/includes/pcv/PCV.py:7-14): minClusterSize is not passed on *)
Definition pcv (ord : gset Z -> list Z) (labels : list Z) (n : Z) (B : list (list Z)) (threshold : R) (min_cluster_size : Z) (use_heuristic : bool)
    : result (list (list Z) * list (list Z)) :=
  let left_clusters := kmeans_groups labels in
  let! right_clusters := majority_vote ord n B left_clusters threshold 0 use_heuristic in
  Ok (left_clusters, right_clusters).
