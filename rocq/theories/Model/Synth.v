(** Model of the two generators of synthetic data sets in corset/utils_data.py:78-231 and :235-367.
    A numpy matrix is the list of its rows.  The products n * 0.4, n * 0.3 and n / k, which the code rounds to
    floats and truncates, are exact here (for n below 2^50 the integer is the same). *)
From Verif.Model Require Import PyBase Sparse Utils Rand PyState Plot GreedyArea Data.
Open Scope Z_scope.

(** np.random.randint(lo, hi), np.random.randint(hi): a float bound is truncated first *)
Definition rand_int (lo hi : Z) : rand Z :=
  if hi <=? lo then Fail ValueError else np_choice_uniform (seqZ lo (hi - lo)).

(** random.choices(xs, weights=ws, k=k) for k > 0 *)
Fixpoint choices_many {A} (py39 : bool) (k : nat) (xs : list A) (ws : list Qc) : rand (list A) :=
  match k with
  | O => Ret []
  | S k' => let? x := random_choices py39 xs ws in let? l := choices_many py39 k' xs ws in Ret (x :: l)
  end.

(** random.sample(xs, k): ValueError when k is negative or larger than the population; the next element is
    uniform among those left *)
Fixpoint sample_distinct {A} (k : nat) (xs : list A) : rand (list A) :=
  match k with
  | O => Ret []
  | S k' => let? i := np_choice_uniform (seq 0 (length xs)) in
            match xs !! i with
            | None => Fail IndexError
            | Some x => let? l := sample_distinct k' (delete i xs) in Ret (x :: l)
            end
  end.
Definition random_sample {A} (xs : list A) (k : Z) : rand (list A) :=
  if (k <? 0) || (zlen xs <? k) then Fail ValueError else sample_distinct (Z.to_nat k) xs.

(** np.zeros((rows, cols)): ValueError for a negative dimension *)
Definition np_zeros (rows cols : Z) : result (list (list Z)) :=
  if (rows <? 0) || (cols <? 0) then Err ValueError else Ok (zeros rows cols).

(** for example in covered_examples: ... (corset/utils_data.py:128-132, :194-198, :266-270, :325-330) *)
Definition cover_example (rule : list Z * list Z) (FL : list (list Z) * list (list Z)) (example : Z)
    : result (list (list Z) * list (list Z)) :=
  let! F := rfold (fun F attr => set_cell F example attr 1) (fst FL) (fst rule) in
  let! L := rfold (fun L lab => set_cell L example lab 1) (snd FL) (snd rule) in
  Ok (F, L).

(** M[i][j] = 1 - M[i][j] *)
Definition swap_cell (M : list (list Z)) (i j : Z) : result (list (list Z)) :=
  let! row := py_index M i in let! v := py_index row j in set_cell M i j (1 - v).

(** the loops that inject noise (corset/utils_data.py:148-172, :211-230, :283-307, :346-365); rows and cols are
    the shape of M *)
Fixpoint swap_cells (n : nat) (rows cols : Z) (M : list (list Z)) : rand (list (list Z)) :=
  match n with
  | O => Ret M
  | S n' =>
      let? i := rand_int 0 rows in
      let? j := rand_int 0 cols in
      let? M' := lift (swap_cell M i j) in
      swap_cells n' rows cols M'
  end.

(** int(np.prod(M.shape) * noise_proportion) *)
Definition n_swaps (rows cols : Z) (noise : Qc) : Z := py_int (Qc_of_Z (rows * cols) * noise)%Qc.

(** copy, then inject noise into the features and into the labels *)
Definition add_noise (n d l : Z) (noise : Qc) (FL : list (list Z) * list (list Z))
    : rand (list (list Z) * list (list Z)) :=
  let? F := swap_cells (Z.to_nat (n_swaps n d noise)) n d (fst FL) in
  let? L := swap_cells (Z.to_nat (n_swaps n l noise)) n l (snd FL) in
  Ret (F, L).

(** int(n * x) and int(n / k) *)
Definition int_frac (n : Z) (x : Qc) : Z := py_int (Qc_of_Z n * x)%Qc.
Definition int_quot (n k : Z) : Z := py_int (Qc_of_Z n / Qc_of_Z k)%Qc.

(** The weights and the loop state of the diverse generator: Python variables live on after an iteration. *)
Record dstate := DState {
  ds_attr_w : list Qc;                 (* attribute_weights *)
  ds_label_w : list Qc;                (* label_weights *)
  ds_rules : list (list Z * list Z);   (* generating_rules_list *)
  ds_examples : list Z;                (* example_list *)
  ds_FL : list (list Z) * list (list Z) }.

(** attribute_weights[attr] = attribute_weights[attr]/2 for the drawn elements (corset/utils_data.py:110-113) *)
Definition halve (ws : list Qc) (drawn : list Z) : result (list Qc) :=
  rfold (fun ws a => let! w := py_index ws a in py_setitem ws a (w / Qc_of_Z 2)%Qc) ws drawn.

(** the size and the elements of one side of a rule (corset/utils_data.py:100-104): [1/x for x in range(2,n)] *)
Definition diverse_size (py39 : bool) (n : Z) : rand Z :=
  random_choices py39 (seqZ 2 (n - 2)) (map (fun x => 1 / Qc_of_Z x)%Qc (seqZ 2 (n - 2))).
Definition diverse_side (py39 : bool) (ord : gset Z -> list Z) (n size : Z) (ws : list Qc) : rand (list Z) :=
  let? l := choices_many py39 (Z.to_nat size) (py_range n) ws in Ret (ord (py_set l)).

(** the body of the loop over the rules (corset/utils_data.py:90-132); all_covered_examples is not returned *)
Definition diverse_step (py39 : bool) (ord : gset Z -> list Z) (n d l k : Z) (s : dstate) : rand dstate :=
  let aw := map (fun _ => Qc_of_Z 1) (py_range d) in
  let lw := map (fun _ => Qc_of_Z 1) (py_range l) in
  let? head_size := diverse_size py39 d in
  let? label_size := diverse_size py39 l in
  let? head := diverse_side py39 ord d head_size aw in
  let? tail := diverse_side py39 ord l label_size lw in
  let? aw := lift (halve aw head) in
  let? lw := lift (halve lw tail) in
  let? m := rand_int 0 (int_quot n k) in
  let? covered := random_sample (ds_examples s) m in
  let examples := List.filter (fun i => negb (bool_decide (i ∈ covered))) (ds_examples s) in
  let? FL := lift (rfold (cover_example (head, tail)) (ds_FL s) covered) in
  Ret (DState aw lw (ds_rules s ++ [(head, tail)]) examples FL).

Fixpoint diverse_loop (py39 : bool) (ord : gset Z -> list Z) (n d l k : Z) (count : nat) (s : dstate) : rand dstate :=
  match count with
  | O => Ret s
  | S c => let? s' := diverse_step py39 ord n d l k s in diverse_loop py39 ord n d l k c s'
  end.

(** the test set (corset/utils_data.py:180-198 with [remove], :318-330 without): the matrices have n_examples
    rows, the covered ones are among the first n_test *)
Fixpoint test_loop (remove : bool) (n_test k : Z) (rules : list (list Z * list Z)) (examples : list Z)
    (FL : list (list Z) * list (list Z)) : rand (list (list Z) * list (list Z)) :=
  match rules with
  | [] => Ret FL
  | rule :: rules' =>
      let? m := rand_int 0 (int_quot n_test k) in
      let? covered := random_sample examples m in
      let examples := if remove then List.filter (fun i => negb (bool_decide (i ∈ covered))) examples else examples in
      let? FL := lift (rfold (cover_example rule) FL covered) in
      test_loop remove n_test k rules' examples FL
  end.

(** F_noisy, L_noisy, F_noisy_test, L_noisy_test, generating_rules_list *)
Definition synth : Type := list (list Z) * list (list Z) * list (list Z) * list (list Z) * list (list Z * list Z).

(** generate_synthetic_dataset_from_diverse_generating_rules (corset/utils_data.py:78-231) *)
Definition generate_diverse (py39 : bool) (ord : gset Z -> list Z) (n d l k : Z) (noise : Qc) : rand synth :=
  let? F := lift (np_zeros n d) in
  let? L := lift (np_zeros n l) in
  let? s := diverse_loop py39 ord n d l k (Z.to_nat k) (DState [] [] [] (py_range n) (F, L)) in
  let? FL := add_noise n d l noise (ds_FL s) in
  let n_test := int_frac n (Q2Qc (4 # 10)) in
  let? FLt := test_loop true n_test k (ds_rules s) (py_range n_test) (zeros n d, zeros n l) in
  let? FLt := add_noise n d l noise FLt in
  Ret (fst FL, snd FL, fst FLt, snd FLt, ds_rules s).

(** the loop of the other generator (corset/utils_data.py:249-307): the examples are not removed, and the noisy
    copies are made anew in every iteration.  The state: the rules, F and L, and the noisy copies, which do not
    exist before the first iteration. *)
Fixpoint plain_loop (n d l k : Z) (noise : Qc) (count : nat) (rules : list (list Z * list Z))
    (FL : list (list Z) * list (list Z)) (noisy : option (list (list Z) * list (list Z)))
    : rand (list (list Z * list Z) * option (list (list Z) * list (list Z))) :=
  match count with
  | O => Ret (rules, noisy)
  | S c =>
      let? head_size := rand_int 2 d in
      let? label_size := rand_int 1 l in
      let? head := random_sample (py_range d) head_size in
      let? tail := random_sample (py_range l) label_size in
      let? m := rand_int 0 (int_quot n k) in
      let? covered := random_sample (py_range n) m in
      let? FL := lift (rfold (cover_example (head, tail)) FL covered) in
      let? noisy := add_noise n d l noise FL in
      plain_loop n d l k noise c (rules ++ [(head, tail)]) FL (Some noisy)
  end.

(** generate_synthetic_dataset_from_generating_rules (corset/utils_data.py:235-367) *)
Definition generate_plain (n d l k : Z) (noise : Qc) : rand synth :=
  let? F := lift (np_zeros n d) in
  let? L := lift (np_zeros n l) in
  let? rn := plain_loop n d l k noise (Z.to_nat k) [] (F, L) None in
  let n_test := int_frac n (Q2Qc (3 # 10)) in
  let? FLt := test_loop false n_test k (fst rn) (py_range n_test) (zeros n d, zeros n l) in
  let? FLt := add_noise n d l noise FLt in
  match snd rn with
  | None => Fail UnboundLocalError
  | Some FL => Ret (fst FL, snd FL, fst FLt, snd FLt, fst rn)
  end.
