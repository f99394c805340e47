(** C83: the order of the blocks in the cluster plots. *)
From Coq Require Import QArith Qcanon.
From stdpp Require Import numbers sorting.
From Verif.Model Require Import PyBase Rand Plot.
From Verif.Spec Require Import SPlot SAdvise.
From Verif.Proofs Require Import T_Advise.

(** C83: the similarity that the order is based on: for members x and y of the blocks i and j it is the weighted Jaccard
    similarity of their sets of clusters.  It lies between 0 and 1, is 1 iff x and y are in the same clusters and 0 iff
    they have no cluster in common. *)
Theorem C83_similarity : forall (clusters others cb cb' : list (list Z)) UA PA i j bi bj x y,
  zlen clusters = zlen others -> (forall c, c ∈ others -> c <> []) -> zlen cb = zlen clusters -> zlen cb' = zlen others ->
  associations (createBlocks clusters) clusters cb = Ok UA -> associations (createBlocks others) others cb' = Ok PA ->
  0 <= i -> createBlocks clusters !! Z.to_nat i = Some bi -> x ∈ bi -> 0 <= j -> createBlocks clusters !! Z.to_nat j = Some bj -> y ∈ bj ->
  let s := jacc i j UA PA in
  s = similarity clusters others x y /\ jacc j i UA PA = s /\ (0 <= s)%Qc /\ (s <= 1)%Qc /\
  (s = 1%Qc <-> forall r, r ∈ roles clusters x <-> r ∈ roles clusters y) /\
  (s = 0%Qc <-> forall r, r ∈ roles clusters x -> r ∉ roles clusters y).
Proof. exact C83_similarity_proof. Qed.
Print Assumptions C83_similarity.

(** C83: the order of the blocks: sorted by decreasing importance (the sum of the areas of their clusters), ties by block
    number; then each block is put at the end, at the beginning, or before the p-th block, p >= 2, where its similarity
    to a neighbour is largest.  Rows and columns are treated alike. *)
Theorem C83_adviser : forall (shL shR : list Z -> list Z) (left right A : list (list Z)) (rows cols : Z) m m',
  (forall l, shL l ≡ₚ l) -> (forall l, shR l ≡ₚ l) -> zlen left <= zlen right ->
  new_blockmat shL shR left right A rows cols = Ok m -> order m = Ok m' ->
  let ordered clusters others s :=
    let blocks := createBlocks clusters in
    exists items, items ≡ₚ seqZ 0 (zlen blocks) /\
      StronglySorted (comes_first (fun b => importance clusters others (member blocks b))) items /\
      arranged (fun a b => similarity clusters others (member blocks a) (member blocks b)) items s in
  let ls := map fst (kept left right) in
  let rs := map snd (kept left right) in
  ordered ls rs (bm_left_perm m') /\ ordered rs ls (bm_right_perm m').
Proof. exact C83_adviser_proof. Qed.
Print Assumptions C83_adviser.

(** C83: the place between the first two blocks is never used: the least important of three blocks ends up outside of
    the two others, however similar it is to both. *)
Theorem C83_three : forall (shL shR : list Z -> list Z) (left right A : list (list Z)) (rows cols : Z) m m',
  (forall l, shL l ≡ₚ l) -> (forall l, shR l ≡ₚ l) -> zlen left <= zlen right ->
  new_blockmat shL shR left right A rows cols = Ok m -> order m = Ok m' ->
  let outside clusters others s :=
    let imp b := importance clusters others (member (createBlocks clusters) b) in
    zlen (createBlocks clusters) = 3 ->
    exists a b c, comes_first imp a b /\ comes_first imp b c /\ (s = [a; b; c] \/ s = [c; a; b]) in
  outside (map fst (kept left right)) (map snd (kept left right)) (bm_left_perm m') /\
  outside (map snd (kept left right)) (map fst (kept left right)) (bm_right_perm m').
Proof. exact C83_three_proof. Qed.
Print Assumptions C83_three.

(** ** Examples: rows 0 and 1 have no cluster in common, row 2 shares one with each; it is still put last.  The columns are
    0, 1 and the block of 2 and 3. *)
Definition exL : list (list Z) := [[0; 2]; [1; 2]; [0]; [1]].
Definition exR : list (list Z) := [[0]; [1]; [0; 1; 2; 3]; [0; 1; 2; 3]].
Definition exA : list (list Z) := [[1; 0; 1; 1]; [0; 1; 1; 1]; [1; 1; 0; 0]].
Example C83_ex :
  zlen exL <= zlen exR /\ createBlocks exL = [[0]; [2]; [1]] /\ createBlocks exR = [[0]; [1]; [2; 3]] /\
  map (importance exL exR) [0; 1; 2] = [6; 6; 4] /\
  similarity exL exR 0 1 = 0%Qc /\ similarity exL exR 0 2 = Q2Qc (1 # 6) /\ similarity exL exR 1 2 = Q2Qc (1 # 6) /\
  (let! m := new_blockmat (@rev Z) (@rev Z) exL exR exA 3 4 in let! m' := order m in let! p := getLeftPermutation m' in Ok (bm_left_perm m', p, bm_right_perm m')) =
    Ok ([0; 2; 1], [0; 1; 2], [0; 1; 2]) /\
  (let! UA := associations (createBlocks exL) exL exL in let! PA := associations (createBlocks exR) exR exR in Ok (this (jacc 0 1 UA PA))) = Ok (1 # 6)%Q.
Proof. split_and!; try (apply Qc_is_canon); vm_compute; (reflexivity || discriminate). Qed.

(** four blocks: the last one is put between the second and the third *)
Example C83_inner_ex :
  let L := [[0]; [1]; [2]; [1; 3]] in let R := [[0; 1; 2; 3; 4; 5; 6; 7]; [0; 1; 2; 3; 4; 5]; [0; 1; 2; 3; 4]; [8]] in
  (let! m := new_blockmat (@rev Z) (@rev Z) L R [[]; []; []; []] 4 0 in let! m' := order m in Ok (bm_left_blocks m', bm_left_perm m')) =
  Ok ([[0]; [1]; [2]; [3]], [0; 1; 3; 2]).
Proof. vm_compute. reflexivity. Qed.
