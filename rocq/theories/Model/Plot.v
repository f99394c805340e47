(** Model of biclus_viz/PlotCreator.py: grouping into blocks, block permutations, the ordering algorithm and
    the matrices that are drawn.  Not modelled: matplotlib (figures, axes, colours) and
    plotClusteredMatrix, which only calls these methods and draws their results. *)
From Verif.Model Require Import PyBase Rand.
Open Scope Z_scope.

(** A dict from keys to lists, as the list of its items in insertion order:
    if k not in d: d[k] = [];  d[k].append(v) *)
Definition dict_append {K V} `{EqDecision K} (d : list (K * list V)) (k : K) (v : V) : list (K * list V) :=
  if bool_decide (k ∈ map fst d)
  then map (fun e => if decide (fst e = k) then (fst e, snd e ++ [v]) else e) d
  else d ++ [(k, [v])].

(** indexToClusters (biclus_viz/PlotCreator.py:146-154) *)
Definition index_to_clusters (clusters : list (list Z)) : list (Z * list Z) :=
  foldl (fun d '(i, cluster) => foldl (fun d index => dict_append d index i) d cluster) [] (enumerate clusters).

(** createBlocks (biclus_viz/PlotCreator.py:145-169).  The key str(indexToClusters[index]) is the list
    itself here: two lists of integers are equal iff their strings are. *)
Definition createBlocks (clusters : list (list Z)) : list (list Z) :=
  map snd (foldl (fun d '(index, l) => dict_append d l index) [] (index_to_clusters clusters)).

(** set(block).issubset(set(cluster)) *)
Definition subset_b (block cluster : list Z) : bool := forallb (fun x => bool_decide (x ∈ cluster)) block.

(** blocks.index(block): the first position of an equal list, ValueError if there is none *)
Fixpoint list_index {A} `{EqDecision A} (l : list A) (x : A) : result Z :=
  match l with
  | [] => Err ValueError
  | y :: l' => if decide (y = x) then Ok 0 else let! i := list_index l' x in Ok (i + 1)
  end.

(** createBlockedClusters (biclus_viz/PlotCreator.py:440-448) *)
Definition createBlockedClusters (clusters blocks : list (list Z)) : result (list (list Z)) :=
  rmap (fun cluster => rmap (list_index blocks) (List.filter (fun block => subset_b block cluster) blocks)) clusters.

(** The attributes of a BlockBlockMatrix.  The matrix has shape (rows, cols); its entries are integers. *)
Record blockmat := BlockMat {
  bm_A : list (list Z);
  bm_rows : Z;
  bm_cols : Z;
  bm_left : list (list Z);            (* leftClusters *)
  bm_right : list (list Z);
  bm_left_blocks : list (list Z);
  bm_right_blocks : list (list Z);
  bm_left_cb : list (list Z);         (* leftClustersBlock *)
  bm_right_cb : list (list Z);
  bm_left_perm : list Z;              (* leftBlocksPermutation *)
  bm_right_perm : list Z;
  bm_C : list (list Z) }.

(** The loop that drops pairs of clusters with an empty side (biclus_viz/PlotCreator.py:180-183).
    rightClusters[i] is not evaluated when leftClusters[i] is empty. *)
Definition keep_clusters (left right : list (list Z)) : result (list (list Z) * list (list Z)) :=
  rfold (fun '(ls, rs) i =>
    let! l := py_index left i in
    if bool_decide (l = []) then Ok (ls, rs)
    else let! r := py_index right i in
         if bool_decide (r = []) then Ok (ls, rs) else Ok (ls ++ [l], rs ++ [r]))
    ([], []) (py_range (zlen left)).

(** M[i][j] = v for a matrix given as a list of rows *)
Definition set_cell (M : list (list Z)) (i j v : Z) : result (list (list Z)) :=
  let! row := py_index M i in let! row' := py_setitem row j v in py_setitem M i row'.

(** np.zeros([rows, cols]) *)
Definition zeros (rows cols : Z) : list (list Z) := replicate (Z.to_nat rows) (replicate (Z.to_nat cols) 0).

(** createBlockBlockAdj (biclus_viz/PlotCreator.py:209-223).  Block elements are distinct, and
    len(set(block)) is the number of distinct elements. *)
Definition createBlockBlockAdj (left_blocks right_blocks left right : list (list Z)) : result (list (list Z)) :=
  rfold (fun C i => rfold (fun C j =>
      let! lb := py_index left_blocks i in
      let! lc := py_index left j in
      if subset_b lb lc then
        rfold (fun C k =>
          let! rb := py_index right_blocks k in
          let! rc := py_index right j in
          if subset_b rb rc then set_cell C i k (Z.of_nat (size (py_set lb)) * Z.of_nat (size (py_set rb))) else Ok C)
          C (py_range (zlen right_blocks))
      else Ok C) C (py_range (zlen left)))
    (zeros (zlen left_blocks) (zlen right_blocks)) (py_range (zlen left_blocks)).

(** __init__ (biclus_viz/PlotCreator.py:173-206).  [shL] and [shR] are the two random.shuffle calls.
    Simplification: the matrix comes with its shape. *)
Definition new_blockmat (shL shR : list Z -> list Z) (left right A : list (list Z)) (rows cols : Z) : result blockmat :=
  let! '(ls, rs) := keep_clusters left right in
  let lb := createBlocks ls in
  let rb := createBlocks rs in
  let! lcb := createBlockedClusters ls lb in
  let! rcb := createBlockedClusters rs rb in
  let! C := createBlockBlockAdj lb rb ls rs in
  Ok (BlockMat A rows cols ls rs lb rb lcb rcb (shL (py_range (zlen lb))) (shR (py_range (zlen rb))) C).

(** getLeftPermutation / getRightPermutation (biclus_viz/PlotCreator.py:229-247) *)
Definition final_permutation (perm : list Z) (blocks : list (list Z)) (n : Z) : result (list Z) :=
  let! p := rfold (fun acc b => let! block := py_index blocks b in Ok (acc ++ block)) [] perm in
  Ok (foldl (fun acc node => if bool_decide (node ∈ acc) then acc else acc ++ [node]) p (py_range n)).

Definition getLeftPermutation (m : blockmat) : result (list Z) :=
  final_permutation (bm_left_perm m) (bm_left_blocks m) (bm_rows m).
Definition getRightPermutation (m : blockmat) : result (list Z) :=
  final_permutation (bm_right_perm m) (bm_right_blocks m) (bm_cols m).

(** UA and PA in adviser (biclus_viz/PlotCreator.py:269-285): (block number, block, cluster number) *)
Definition associations (blocks clusters blocked : list (list Z)) : result (list (Z * list Z * Z)) :=
  rfold (fun acc '(b, block) =>
    let! user := py_index block 0 in
    rfold (fun acc r =>
      let! c := py_index clusters r in
      Ok (if bool_decide (user ∈ c) then acc ++ [(b, block, r)] else acc)) acc (py_range (zlen blocked)))
    [] (enumerate blocks).

(** roleArea (biclus_viz/PlotCreator.py:331-332) *)
Definition roleArea (left right : list (list Z)) (r : Z) : result Z :=
  let! l := py_index left r in let! rc := py_index right r in Ok (zlen l * zlen rc).

(** importanceScore (biclus_viz/PlotCreator.py:334-339) *)
Definition importanceScore (left right : list (list Z)) (item : Z) (IA : list (Z * list Z * Z)) : result Z :=
  let! areas := rmap (fun e => roleArea left right (snd e)) (List.filter (fun e => fst (fst e) =? item) IA) in
  Ok (zsum areas).

(** jacc (biclus_viz/PlotCreator.py:341-369).  The quotient is exact here. *)
Definition jacc (i j : Z) (IA IAbar : list (Z * list Z * Z)) : Qc :=
  let ri := map snd (List.filter (fun e => fst (fst e) =? i) IA) in
  let rj := map snd (List.filter (fun e => fst (fst e) =? j) IA) in
  let riNrj := List.filter (fun r => bool_decide (r ∈ rj)) ri in
  let riUrj := foldl (fun acc r => if bool_decide (r ∈ acc) then acc else acc ++ [r]) ri rj in
  let rU := zsum (map (fun e => zlen (snd (fst e))) (List.filter (fun e => bool_decide (snd e ∈ riUrj)) IAbar)) in
  let rN := zsum (map (fun e => zlen (snd (fst e))) (List.filter (fun e => bool_decide (snd e ∈ riNrj)) IAbar)) in
  if rU =? 0 then 0%Qc else (Qc_of_Z rN / Qc_of_Z rU)%Qc.

(** sorted(items, key=...): stable, smallest key first; the keys are computed first *)
Fixpoint insert_key {A} (k : Z) (x : A) (l : list (Z * A)) : list (Z * A) :=
  match l with
  | [] => [(k, x)]
  | (k', y) :: l' => if k <=? k' then (k, x) :: l else (k', y) :: insert_key k x l'
  end.
Definition sort_keyed {A} (l : list (Z * A)) : list A :=
  map snd (foldr (fun e acc => insert_key (fst e) (snd e) acc) [] l).
Definition sorted_by {A} (key : A -> result Z) (l : list A) : result (list A) :=
  let! kl := rmap (fun x => let! k := key x in Ok (k, x)) l in Ok (sort_keyed kl).

(** l.insert(p, x) for 0 <= p *)
Definition list_insert {A} (l : list A) (p : Z) (x : A) : list A :=
  take (Z.to_nat p) l ++ x :: drop (Z.to_nat p) l.

(** The body of the loop in sortSet (biclus_viz/PlotCreator.py:309-328) *)
Definition insert_item (IA IAbar : list (Z * list Z * Z)) (sigma : list Z) (I : Z) : result (list Z) :=
  if zlen sigma <? 2 then Ok (sigma ++ [I])
  else
    let! first := py_index sigma 0 in
    let! last := py_index sigma (-1) in
    let j0 := jacc I first IA IAbar in
    let j1 := jacc I last IA IAbar in
    let start := if bool_decide (j1 < j0)%Qc then (0, j0) else (zlen sigma, j1) in
    let! '(p, _) := rfold (fun '(p, j) i =>
      let! a := py_index sigma (i - 1) in
      let! b := py_index sigma i in
      let jprec := jacc I a IA IAbar in
      let jsucc := jacc I b IA IAbar in
      let jcurr := jacc a b IA IAbar in
      let jmax := if bool_decide (jprec < jsucc)%Qc then jsucc else jprec in
      let jmin := if bool_decide (jsucc < jprec)%Qc then jsucc else jprec in
      Ok (if bool_decide (j < jmax)%Qc && bool_decide (jcurr <= jmin)%Qc then (i, jmax) else (p, j)))
      start (seqZ 2 (zlen sigma - 2)) in
    Ok (list_insert sigma p I).

(** sortSet (biclus_viz/PlotCreator.py:302-329) *)
Definition sortSet (left right : list (list Z)) (items : list Z) (IA IAbar : list (Z * list Z * Z)) : result (list Z) :=
  let! sorted := sorted_by (fun x => let! s := importanceScore left right x IA in Ok (- s)) items in
  rfold (insert_item IA IAbar) [] sorted.

(** order / adviser (biclus_viz/PlotCreator.py:253-300) *)
Definition order (m : blockmat) : result blockmat :=
  let! UA := associations (bm_left_blocks m) (bm_left m) (bm_left_cb m) in
  let! PA := associations (bm_right_blocks m) (bm_right m) (bm_right_cb m) in
  let! users := sortSet (bm_left m) (bm_right m) (py_range (zlen (bm_left_blocks m))) UA PA in
  let! perms := sortSet (bm_left m) (bm_right m) (py_range (zlen (bm_right_blocks m))) PA UA in
  Ok (BlockMat (bm_A m) (bm_rows m) (bm_cols m) (bm_left m) (bm_right m) (bm_left_blocks m) (bm_right_blocks m)
        (bm_left_cb m) (bm_right_cb m) users perms (bm_C m)).

(** returnOriginalMatrix() (biclus_viz/PlotCreator.py:458-469) without given permutations.  The
    assignment mat[:] = mat[:, rightPermut] needs as many columns as before; numpy also accepts exactly one,
    which getRightPermutation cannot return for another number of columns. *)
Definition returnOriginalMatrix (m : blockmat) : result (list (list Z)) :=
  let! lp := getLeftPermutation m in
  let! rp := getRightPermutation m in
  let! rows := rmap (py_index (bm_A m)) lp in
  if negb (zlen rp =? bm_cols m) then Err ValueError
  else rmap (fun row => rmap (py_index row) rp) rows.

(** lowRankMatrix[np.ix_(rows, cols)] = v *)
Definition set_block (M : list (list Z)) (rows cols : list Z) (v : Z) : result (list (list Z)) :=
  rfold (fun M i => rfold (fun M j => set_cell M i j v) M cols) M rows.

(** plotMatrix() with showClusters and without axes (biclus_viz/PlotCreator.py:371-427): the low-rank matrix *)
Definition plotMatrix (m : blockmat) : result (list (list Z)) :=
  let! lp := getLeftPermutation m in
  let! rp := getRightPermutation m in
  let! _ := rmap (rmap (list_index lp)) (bm_left_blocks m) in
  let! _ := rmap (rmap (list_index rp)) (bm_right_blocks m) in
  let! lcs := rmap (rmap (list_index lp)) (bm_left m) in
  let! rcs := rmap (rmap (list_index rp)) (bm_right m) in
  rfold (fun M i =>
    let! lc := py_index lcs i in
    let! rc := py_index rcs i in
    set_block M lc rc (i + 1)) (zeros (bm_rows m) (bm_cols m)) (py_range (zlen (bm_left m))).
