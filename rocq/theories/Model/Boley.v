(** Model of corset/samplers/{boley_discrim,freq,area,dummy}.py and of draw_bernoulli_elementwise and counter2proba
    (corset/utils.py).  Powers and weights are exact integers (the code uses int64 or float64: no overflow and no
    rounding here). *)
From Verif.Model Require Import PyBase PyReal Sparse Utils Rand RandR Cftp.
Open Scope Z_scope.

(** ** draw_bernoulli_elementwise (corset/utils.py:182-200) *)

(** the inner sample_once; [l] is the order in which S is iterated *)
Fixpoint bernoulli_once (l : list Z) (res : gset Z) : rrand (gset Z) :=
  match l with
  | [] => RRet res
  | el :: l' => RUnif (fun u => bernoulli_once l' (if Rltb u (1 / 2) then res ∪ {[el]} else res))
  end.

(** while True: draw until non-empty.  The loop does not end by itself; [fuel] bounds the number of rounds and
    OutOfFuel is not a Python exception. *)
Fixpoint bernoulli_loop (fuel : nat) (l : list Z) : rrand (gset Z) :=
  match fuel with
  | O => RFail OutOfFuel
  | S fuel' => let* res := bernoulli_once l ∅ in
               if (0 <? size res)%nat then RRet res else bernoulli_loop fuel' l
  end.

Definition draw_bernoulli_elementwise (fuel : nat) (ord : gset Z -> list Z) (S : gset Z) (exclude_empty : bool) : rrand (gset Z) :=
  if exclude_empty then bernoulli_loop fuel (ord S) else bernoulli_once (ord S) ∅.

(** counter2proba (corset/utils.py:93-98) *)
Definition counter2proba {K} `{Countable K} (counter : gmap K Z) : result (gmap K R) :=
  let total := zsum (map snd (map_to_list counter)) in
  rfold (fun m kv => let! q := py_div (snd kv) total in Ok (<[fst kv := q]> m)) ∅ (map_to_list counter).

(** ** BoleyCFTPDiscriminativitySampler (corset/samplers/boley_discrim.py) *)

(** Attributes after fit (corset/samplers/boley_discrim.py:25-50, 102-117) *)
Record bds := BDS {
  bds_rows : list (gset Z);
  bds_pos : list Z;
  bds_neg : list Z;
  bds_weights : gmap Z R;
  bds_cftp : cftp
}.

(** _compute_weight_dict (corset/samplers/boley_discrim.py:51-65) *)
Definition bds_weight_dict (N : Z) (rows : list (gset Z)) (pos : list Z) : result (gmap Z R) :=
  rfold (fun d i =>
    if bool_decide (i ∈ pos) then
      let! r := py_index rows i in Ok (<[i := IZR (2 ^ Z.of_nat (size r) - 1)]> d)
    else Ok (<[i := 1%R]> d)) ∅ (py_range N).

(** fit (corset/samplers/boley_discrim.py:102-117); [cache] holds _rows of an earlier fit.  _check_overflow (:67-72)
    raises ValueError on negative weights, which exact arithmetic never has, and pos_weight is not used. *)
Definition bds_fit (cache : option (list (gset Z))) (X : csr) (y : list Z) : result bds :=
  if negb (bool_decide (py_set y = {[ 0; 1 ]})) then Err AssertionError
  else
    let! rows := match cache with Some r => Ok r | None => convert_matrix_to_sets_v2 X end in
    let pos := pos_indices y in
    let neg := neg_indices y in
    let! w := bds_weight_dict (csr_rows X) rows pos in
    if existsb (fun v => Rltb v 0%R) (map snd (map_to_list w)) then Err ValueError
    else
      let! c := boley_cftp_init w w pos neg (boley_pair_weight rows) 1024 in
      Ok (BDS rows pos neg w c).

(** the part of sample_once after a pair is drawn (corset/samplers/boley_discrim.py:134-143) *)
Definition bds_pattern (fuel : nat) (ord : gset Z -> list Z) (row_pos row_neg : gset Z) : rrand (gset Z) :=
  let* p1 := draw_bernoulli_elementwise fuel ord (row_pos ∖ row_neg) true in
  let* p2 := draw_bernoulli_elementwise fuel ord (row_pos ∩ row_neg) false in
  RRet (p1 ∪ p2).

(** sample_once (corset/samplers/boley_discrim.py:128-143) *)
Definition bds_sample_once (fuel : nat) (ord : gset Z -> list Z) (s : bds) : rrand (option (gset Z)) :=
  let* r := cftp_draw (bds_cftp s) false in
  match r with
  | RetDetails _ _ => RFail TypeError
  | RetPair None => RRet None
  | RetPair (Some (pos, neg)) =>
      let* rp := rlift (py_index (bds_rows s) pos) in
      let* rn := rlift (py_index (bds_rows s) neg) in
      let* x := bds_pattern fuel ord rp rn in
      RRet (Some x)
  end.

Definition bds_pairs (s : bds) : list (Z * Z) := concat (map (fun p => map (pair p) (bds_neg s)) (bds_pos s)).

(** get_ground_truth_proba_for_pairs (corset/samplers/boley_discrim.py:151-164) *)
Definition bds_ground_truth_pairs (s : bds) : result (gmap (Z * Z) R) :=
  let! w := rfold (fun d pn => let! wgt := boley_pair_weight (bds_rows s) (fst pn) (snd pn) in
                               Ok (if 0 <? wgt then <[pn := wgt]> d else d)) (∅ : gmap (Z * Z) Z) (bds_pairs s) in
  counter2proba w.

(** get_ground_truth_proba_for_samples (corset/samplers/boley_discrim.py:166-181); keys are sorted tuples *)
Definition bds_ground_truth_samples (ord : gset Z -> list Z) (s : bds) : result (gmap (list Z) R) :=
  let! cnt := rfold (fun d pn =>
      let! rp := py_index (bds_rows s) (fst pn) in
      let! rn := py_index (bds_rows s) (snd pn) in
      let p1_ps := powerset (ord (rp ∖ rn)) true in
      let p2_ps := powerset (ord (rp ∩ rn)) false in
      Ok (fold_left (fun d k => <[k := match d !! k with Some c => c + 1 | None => 1 end]> d)
            (concat (map (fun p1 => map (fun p2 => py_sorted (p1 ++ p2)) p2_ps) p1_ps)) d)) (∅ : gmap (list Z) Z) (bds_pairs s) in
  counter2proba cnt.

(** ** BoleyFrequencySampler (corset/samplers/freq.py:7-29) *)

(** fit: the rows and probas; numpy gives an empty array for no rows *)
Definition bf_fit (Y : csr) : list (gset Z) * list R :=
  let rows := convert_matrix_to_sets Y in
  let weights := map (fun r => IZR (2 ^ Z.of_nat (size r))) rows in
  (rows, rnormalize weights).

(** one round of the loop: a row, then each of its elements with probability 1/2 *)
Definition bf_round (ord : gset Z -> list Z) (fit : list (gset Z) * list R) : rrand (gset Z) :=
  let '(rows, probas) := fit in
  let* i := rchoice (py_range (zlen rows)) probas in
  let* r := rlift (py_index rows i) in
  let tuple := ord r in
  let* us := runiform (length tuple) in
  RRet (py_set (map fst (List.filter (fun xu => Rltb (snd xu) (1 / 2)) (zip tuple us)))).

Fixpoint bf_sample_once (fuel : nat) (ord : gset Z -> list Z) (fit : list (gset Z) * list R) : rrand (gset Z) :=
  match fuel with
  | O => RFail OutOfFuel
  | S fuel' => let* res := bf_round ord fit in
               if (0 <? size res)%nat then RRet res else bf_sample_once fuel' ord fit
  end.

(** ** BoleyAreaSampler (corset/samplers/area.py) *)

(** fit (corset/samplers/area.py:13-26); Y.sum(axis=1) sums the stored values.  For no rows numpy gives an empty
    array. *)
Definition ba_fit (Y : csr) : result (list (gset Z) * list Qc) :=
  let rows := convert_matrix_to_sets (mask_rows (rows_mask Y) Y) in
  if negb (forallb (fun r : gset Z => 0 <? size r)%nat rows) then Err AssertionError
  else Ok (rows, normalize (map (fun r : gset Z => 2 ^ (Z.of_nat (size r) - 1) * Z.of_nat (size r)) rows)).

(** scipy.special.binom on natural numbers, exact *)
Fixpoint binom (n k : nat) : Z :=
  match n, k with
  | _, O => 1
  | O, S _ => 0
  | S n', S k' => binom n' k' + binom n' k
  end.

(** np.random.permutation: the next element is uniform among those left *)
Fixpoint np_permutation_aux {A} (n : nat) (l : list A) : rand (list A) :=
  match n with
  | O => Ret []
  | S n' => Choose (replicate (length l) (1 / Qc_of_Z (zlen l))%Qc) (fun i =>
              match l !! i with
              | None => Fail IndexError
              | Some x => let? r := np_permutation_aux n' (delete i l) in Ret (x :: r)
              end)
  end.
Definition np_permutation {A} (l : list A) : rand (list A) := np_permutation_aux (length l) l.

(** sample_once (corset/samplers/area.py:28-38) *)
Definition ba_sample_once (ord : gset Z -> list Z) (fit : list (gset Z) * list Qc) : rand (gset Z) :=
  let '(rows, probas) := fit in
  let? i := np_choice (py_range (zlen rows)) probas in
  let? r := lift (py_index rows i) in
  let tuple := ord r in
  let size_ := length tuple in
  let ks := seq 1 size_ in
  let? k := np_choice ks (normalize (map (fun k => binom size_ k * Z.of_nat k) ks)) in
  let? p := np_permutation tuple in
  let itemset := py_set (take k p) in
  if bool_decide (size itemset = k) then Ret itemset else Fail AssertionError.

(** ** Dummy samplers (corset/samplers/dummy.py): np.random.randint(0, n), ValueError for n <= 0 *)
Definition np_randint (n : Z) : rand Z := if n <=? 0 then Fail ValueError else np_choice_uniform (py_range n).
Definition dummy_head_sample (X : csr) : rand (gset Z) := let? i := np_randint (csr_cols X) in Ret {[i]}.
Definition dummy_tail_sample (Y : csr) : rand (gset Z) := let? i := np_randint (csr_cols Y) in Ret {[i]}.
