(** Properties of the cluster plots (C56, C57, C62, C63). *)
From Verif.Model Require Import PyBase Rand Plot.
From Verif.Spec Require Import SPlot.
Open Scope Z_scope.
From Verif.Proofs Require Import T_Plot.
Open Scope Z_scope.

(** C57: every clustered index is in exactly one block (no block is empty, none is repeated), no other index is in a
    block, and an index shares the block of x iff every cluster lists it as often as x — for clusters without
    repetitions: iff it belongs to the same clusters as x. *)
Theorem C57_blocks : forall clusters : list (list Z),
  let blocks := createBlocks clusters in
  NoDup (concat blocks) /\ NoDup blocks /\ (forall b, b ∈ blocks -> b <> []) /\
  (forall x, (exists b, b ∈ blocks /\ x ∈ b) <-> clustered clusters x) /\
  (forall b x y, b ∈ blocks -> x ∈ b -> (y ∈ b <-> forall c, c ∈ clusters -> multiplicity y c = multiplicity x c)) /\
  ((forall c, c ∈ clusters -> NoDup c) ->
   forall b x y, b ∈ blocks -> x ∈ b -> (y ∈ b <-> forall c, c ∈ clusters -> (y ∈ c <-> x ∈ c))).
Proof. exact C57_blocks_proof. Qed.
Print Assumptions C57_blocks.

(** C57, clusters of blocks: createBlockedClusters lists, for every cluster, exactly the numbers of the blocks inside it,
    each once; a block that meets a cluster lies inside it, so every cluster is the union of its blocks. *)
Theorem C57_blocked_clusters : forall clusters : list (list Z),
  let blocks := createBlocks clusters in
  exists cb, createBlockedClusters clusters blocks = Ok cb /\ zlen cb = zlen clusters /\
    forall (r : nat) c l, clusters !! r = Some c -> cb !! r = Some l ->
      NoDup l /\
      (forall b, b ∈ l <-> 0 <= b /\ exists block, blocks !! Z.to_nat b = Some block /\ forall x, x ∈ block -> x ∈ c) /\
      (forall b block x, blocks !! Z.to_nat b = Some block -> 0 <= b -> x ∈ block -> x ∈ c -> b ∈ l) /\
      (forall x, x ∈ c <-> exists b block, b ∈ l /\ blocks !! Z.to_nat b = Some block /\ x ∈ block).
Proof. exact C57_blocked_clusters_proof. Qed.
Print Assumptions C57_blocked_clusters.

(** C56: whatever the shuffles do, with in-range clusters the constructor and the ordering succeed; before and after
    ordering the row and column orders are permutations (the clustered indices first, block by block, then the others in
    increasing order) and the drawn matrix has at (i, j) the entry of A at the i-th row and j-th column of the orders. *)
Theorem C56_permutations : forall (shL shR : list Z -> list Z) (left right A : list (list Z)) (rows cols : Z),
  (forall l, shL l ≡ₚ l) -> (forall l, shR l ≡ₚ l) -> zlen left <= zlen right ->
  has_shape A rows cols -> 0 <= cols ->
  (forall c x, c ∈ left -> x ∈ c -> 0 <= x < rows) -> (forall c x, c ∈ right -> x ∈ c -> 0 <= x < cols) ->
  exists m m', new_blockmat shL shR left right A rows cols = Ok m /\ order m = Ok m' /\
    forall b, b ∈ [m; m'] -> exists p q M,
      getLeftPermutation b = Ok p /\ getRightPermutation b = Ok q /\ p ≡ₚ py_range rows /\ q ≡ₚ py_range cols /\
      (exists bs rest, p = concat bs ++ rest /\ bs ≡ₚ createBlocks (map fst (kept left right)) /\ rest `sublist_of` py_range rows) /\
      (exists bs rest, q = concat bs ++ rest /\ bs ≡ₚ createBlocks (map snd (kept left right)) /\ rest `sublist_of` py_range cols) /\
      returnOriginalMatrix b = Ok M /\ has_shape M rows cols /\
      forall (i j : nat) x y v, p !! i = Some x -> q !! j = Some y -> (cell M i j v <-> cell A (Z.to_nat x) (Z.to_nat y) v).
Proof. exact C56_permutations_proof. Qed.
Print Assumptions C56_permutations.

(** C56, determinism: after ordering nothing depends on the shuffles. *)
Theorem C56_order_deterministic : forall (shL shR shL' shR' : list Z -> list Z) (left right A : list (list Z)) (rows cols : Z) m m',
  new_blockmat shL shR left right A rows cols = Ok m -> new_blockmat shL' shR' left right A rows cols = Ok m' ->
  order m = order m'.
Proof. exact C56_order_deterministic_proof. Qed.
Print Assumptions C56_order_deterministic.

(** C56, errors: a non-empty left cluster without a right counterpart makes the constructor fail with IndexError. *)
Theorem C56_missing_right : forall (shL shR : list Z -> list Z) (left right A : list (list Z)) (rows cols : Z) (i : nat) c,
  left !! i = Some c -> c <> [] -> (length right <= i)%nat ->
  new_blockmat shL shR left right A rows cols = Err IndexError.
Proof. exact C56_missing_right_proof. Qed.
Print Assumptions C56_missing_right.

(** C62: the block adjacency matrix has, for a left and a right block, the product of their sizes if some pair of
    clusters contains both blocks, and 0 otherwise; containing one index of each already suffices. *)
Theorem C62_adjacency : forall (shL shR : list Z -> list Z) (left right A : list (list Z)) (rows cols : Z) m,
  (forall l, shL l ≡ₚ l) -> (forall l, shR l ≡ₚ l) -> zlen left <= zlen right ->
  new_blockmat shL shR left right A rows cols = Ok m ->
  let lb := createBlocks (map fst (kept left right)) in
  let rb := createBlocks (map snd (kept left right)) in
  has_shape (bm_C m) (zlen lb) (zlen rb) /\
  forall (i k : nat) bl br x y, lb !! i = Some bl -> rb !! k = Some br -> x ∈ bl -> y ∈ br ->
    exists v, cell (bm_C m) i k v /\
      ((exists l r, (l, r) ∈ kept left right /\ x ∈ l /\ y ∈ r) -> v = zlen bl * zlen br /\ 0 < v) /\
      ((forall l r, (l, r) ∈ kept left right -> x ∈ l -> y ∉ r) -> v = 0).
Proof. exact C62_adjacency_proof. Qed.
Print Assumptions C62_adjacency.

(** C63: the low-rank matrix drawn for the clusters has, at the place of row x and column y, the number (from 1) of the
    last pair of clusters that contains x and y, or 0 if there is none. *)
Theorem C63_low_rank : forall (shL shR : list Z -> list Z) (left right A : list (list Z)) (rows cols : Z),
  (forall l, shL l ≡ₚ l) -> (forall l, shR l ≡ₚ l) -> zlen left <= zlen right ->
  has_shape A rows cols -> 0 <= cols ->
  (forall c x, c ∈ left -> x ∈ c -> 0 <= x < rows) -> (forall c x, c ∈ right -> x ∈ c -> 0 <= x < cols) ->
  exists m m', new_blockmat shL shR left right A rows cols = Ok m /\ order m = Ok m' /\
    forall b, b ∈ [m; m'] -> exists p q M,
      getLeftPermutation b = Ok p /\ getRightPermutation b = Ok q /\ plotMatrix b = Ok M /\ has_shape M rows cols /\
      forall (i j : nat) x y, p !! i = Some x -> q !! j = Some y ->
        exists v, cell M i j v /\
          ((v = 0 /\ forall l r, (l, r) ∈ kept left right -> x ∈ l -> y ∉ r) \/
           (1 <= v /\ (exists l r, kept left right !! Z.to_nat (v - 1) = Some (l, r) /\ x ∈ l /\ y ∈ r) /\
            forall (k : nat) l r, v <= Z.of_nat k -> kept left right !! k = Some (l, r) -> x ∈ l -> y ∉ r)).
Proof. exact C63_low_rank_proof. Qed.
Print Assumptions C63_low_rank.

(** Two overlapping clusters and a dropped one (empty on the left) over a 4 x 3 matrix; the shuffles reverse. *)
Definition exL : list (list Z) := [[0; 2]; [2; 3]; []].
Definition exR : list (list Z) := [[1]; [1; 2]; [0]].
Definition exA : list (list Z) := [[11; 12; 13]; [21; 22; 23]; [31; 32; 33]; [41; 42; 43]].
Definition exM : result blockmat := new_blockmat (@rev Z) (@rev Z) exL exR exA 4 3.

Example C56_hypotheses_ex : (forall l, rev l ≡ₚ (l : list Z)) /\ zlen exL <= zlen exR /\ has_shape exA 4 3 /\
  (forall c x, c ∈ exL -> x ∈ c -> 0 <= x < 4) /\ (forall c x, c ∈ exR -> x ∈ c -> 0 <= x < 3).
Proof.
  split_and!.
  - intros l. symmetry. apply Permutation_rev.
  - by_compute.
  - split; [by_compute|]. intros row H. apply (proj1 (list.Forall_forall (fun row => zlen row = 3) exA)); [by_compute|done].
  - intros c x Hc Hx. revert x Hx. apply list.Forall_forall. apply (proj1 (list.Forall_forall (fun c => Forall (fun x => 0 <= x < 4) c) exL)); [by_compute|done].
  - intros c x Hc Hx. revert x Hx. apply list.Forall_forall. apply (proj1 (list.Forall_forall (fun c => Forall (fun x => 0 <= x < 3) c) exR)); [by_compute|done].
Qed.

Example C56_ex :
  kept exL exR = [([0; 2], [1]); ([2; 3], [1; 2])] /\
  (let! m := exM in getLeftPermutation m) = Ok [3; 2; 0; 1] /\ (let! m := exM in getRightPermutation m) = Ok [2; 1; 0] /\
  (let! m := exM in let! m' := order m in getLeftPermutation m') = Ok [0; 2; 3; 1] /\
  (let! m := exM in returnOriginalMatrix m) = Ok [[43; 42; 41]; [33; 32; 31]; [13; 12; 11]; [23; 22; 21]].
Proof. split_and!; by_compute. Qed.

Example C56_missing_right_ex : (exL !! 1%nat = Some [2; 3]) /\
  (let! m := new_blockmat (@rev Z) (@rev Z) exL [[1]] exA 4 3 in Ok (bm_rows m)) = Err IndexError /\
  (let! m := new_blockmat (@rev Z) (@rev Z) [[0]; []] [[1]] exA 4 3 in Ok (bm_left_blocks m)) = Ok [[0]].
Proof. split_and!; by_compute. Qed.

(** Index 2 is in both clusters, so it is alone; listing an index twice in a cluster separates it, too. *)
Example C57_ex : createBlocks exL = [[0]; [2]; [3]] /\ createBlocks [[0; 2; 5]; [5; 2]; [7; 0]] = [[0]; [2; 5]; [7]] /\
  createBlocks [[0; 1; 1]] = [[0]; [1]] /\ multiplicity 1 [0; 1; 1] = 2 /\
  createBlockedClusters exL (createBlocks exL) = Ok [[0; 1]; [1; 2]; []].
Proof. split_and!; by_compute. Qed.

Example C62_ex : (let! m := new_blockmat (@rev Z) (@rev Z) [[0; 1; 2]; [3]] [[0; 1]; [1; 2]] exA 4 3 in
  Ok (bm_left_blocks m, bm_right_blocks m, bm_C m)) =
  Ok ([[0; 1; 2]; [3]], [[0]; [1]; [2]], [[3; 3; 0]; [0; 1; 1]]).
Proof. by_compute. Qed.

(** Rows in the order 3, 2, 0, 1, columns in the order 2, 1, 0: row 2, column 1 shows the later cluster. *)
Example C63_ex : (let! m := exM in plotMatrix m) = Ok [[2; 2; 0]; [2; 2; 0]; [0; 1; 0]; [0; 0; 0]].
Proof. by_compute. Qed.
