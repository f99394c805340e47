(** Model of corset/samplers/greedy_area.py: compute_frequencies and GreedyAreaSampler.
    A dense 0/1 (integer) matrix is the list of its rows; numpy gives all rows the length shape[1], so
    range(X.shape[1]) is the range of the row's positions.  Arithmetic is exact: the OverflowError of 2**1024.0
    (rows with more than 1024 labels) and floating point rounding are not modelled. *)
From Verif.Model Require Import PyBase Rand Plot.
Open Scope Z_scope.

(** [j for j in range(X.shape[1]) if X[i][j] == 1] *)
Definition ones (row : list Z) : list Z := map fst (List.filter (fun iv => snd iv =? 1) (enumerate row)).

(** m[k] += 1 for a defaultdict(int); reading a missing key gives 0.  The zero entries that reading inserts
    are not represented: they cannot be observed through reads. *)
Definition count_get {K} `{Countable K} (m : gmap K Z) (k : K) : Z := default 0 (m !! k).
Definition count_incr {K} `{Countable K} (m : gmap K Z) (k : K) : gmap K Z := <[k := count_get m k + 1]> m.

(** The same for a defaultdict(int) whose insertion order matters: the list of its items. *)
Definition items_incr (d : list (Z * Z)) (k : Z) : list (Z * Z) :=
  if bool_decide (k ∈ map fst d) then map (fun e => if decide (fst e = k) then (k, snd e + 1) else e) d else d ++ [(k, 1)].
(** d[label][attr] += 1 for a defaultdict(lambda: defaultdict(int)) *)
Definition nested_incr (d : list (Z * list (Z * Z))) (label attr : Z) : list (Z * list (Z * Z)) :=
  if bool_decide (label ∈ map fst d)
  then map (fun e => if decide (fst e = label) then (label, items_incr (snd e) attr) else e) d
  else d ++ [(label, [(attr, 1)])].

Record freqs := Freqs {
  fq_d : list (Z * list (Z * Z));
  fq_labels : list Z;                (* all_labels *)
  fq_dlabel : gmap (Z * Z) Z;        (* d_label[a][b] under the key (a, b) *)
  fq_dattr : gmap (Z * Z) Z }.

(** the loops over i < j (corset/samplers/greedy_area.py:22-28 and :30-36) *)
Definition pair_counts (bag : list Z) (m : gmap (Z * Z) Z) : result (gmap (Z * Z) Z) :=
  rfold (fun m i => rfold (fun m j =>
      let! a := py_index bag i in
      let! b := py_index bag j in
      Ok (count_incr (count_incr m (a, b)) (b, a)))
    m (seqZ (i + 1) (zlen bag - (i + 1))))
  m (py_range (zlen bag)).

(** one iteration of the outer loop (corset/samplers/greedy_area.py:15-43).  The inner loops reuse the
    variable i, which the for statement resets. *)
Definition count_row (ord : gset Z -> list Z) (X Y : list (list Z)) (f : freqs) (i : Z) : result freqs :=
  let! x := py_index X i in
  let! y := py_index Y i in
  let attrs := ord (py_set (ones x)) in
  let labels := ord (py_set (ones y)) in
  let! dl := pair_counts labels (fq_dlabel f) in
  let! da := pair_counts attrs (fq_dattr f) in
  let d := foldl (fun d label => foldl (fun d attr => nested_incr d label attr) d attrs) (fq_d f) labels in
  Ok (Freqs d (fq_labels f ++ labels) dl da).

(** compute_frequencies (corset/samplers/greedy_area.py:7-53): d, d_formatted, Counter(all_labels), d_label,
    d_attributes *)
Definition compute_frequencies (ord : gset Z -> list Z) (X Y : list (list Z))
  : result (freqs * list (Z * list (Z * Z)) * gmap Z Z) :=
  let! f := rfold (count_row ord X Y) (Freqs [] [] ∅ ∅) (py_range (zlen X)) in
  let formatted := map (fun e => (fst e, sort_keyed (map (fun kv => (snd kv, kv)) (snd e)))) (fq_d f) in
  Ok (f, formatted, foldl count_incr ∅ (fq_labels f)).

(** 2**float(k) *)
Definition pow2 (k : Z) : Qc := if 0 <=? k then Qc_of_Z (2 ^ k) else (1 / Qc_of_Z (2 ^ (- k)))%Qc.

Record gas := Gas {
  gas_Y : list (list Z);
  gas_freqs : freqs;
  gas_formatted : list (Z * list (Z * Z));
  gas_label_freqs : gmap Z Z;
  gas_W : list Qc }.

(** compute_weights (corset/samplers/greedy_area.py:77-95) *)
Definition row_weight (row : list Z) : Qc := (Qc_of_Z (zlen (ones row)) * pow2 (zsum row - 1))%Qc.

(** GreedyAreaSampler.fit (corset/samplers/greedy_area.py:62-75) *)
Definition gas_fit (ord : gset Z -> list Z) (X Y : list (list Z)) : result gas :=
  let! '(f, formatted, counts) := compute_frequencies ord X Y in
  Ok (Gas Y f formatted counts (map row_weight Y)).

(** random.choices(xs, weights=ws, k=1)[0].  When the weights sum to zero, Python 3.9 and later raise
    ValueError; Python 3.8 computes bisect(cum_weights, 0.0, 0, len - 1) = len - 1. *)
Definition random_choices {A} (py39 : bool) (xs : list A) (ws : list Qc) : rand A :=
  if negb (zlen ws =? zlen xs) then Fail ValueError
  else if zlen xs =? 0 then Fail IndexError
  else if bool_decide (qsum ws <= 0)%Qc
       then if py39 then Fail ValueError else lift (py_index xs (zlen xs - 1))
       else np_choice xs (map (fun w => w / qsum ws)%Qc ws).

(** min of a list; ValueError on the empty list *)
Definition py_min (l : list Z) : result Z :=
  match l with [] => Err ValueError | x :: l' => Ok (foldl Z.min x l') end.

(** The for loop of the greedy choice (corset/samplers/greedy_area.py:133-143).  [best] is min_co_occur (None is
    -inf); [chosen] is the variable chosen_element, which keeps its value between rounds. *)
Definition greedy_pick (ord : gset Z -> list Z) (co : gmap (Z * Z) Z) (T cur : gset Z) (chosen : option Z)
  : result (option Z) :=
  let! r := rfold (fun '(best, chosen) element =>
      let! m := py_min (map (fun s => count_get co (element, s)) (ord T)) in
      if match best with None => true | Some b => b <? m end then Ok (Some m, Some element) else Ok (best, chosen))
    (None, chosen) (ord cur) in
  Ok (snd r).

(** while len(T) < sampled_size (corset/samplers/greedy_area.py:131-146) *)
Fixpoint greedy_tail (fuel : nat) (ord : gset Z -> list Z) (co : gmap (Z * Z) Z) (n : Z) (T cur : gset Z)
    (chosen : option Z) : result (gset Z) :=
  if Z.of_nat (size T) <? n then
    match fuel with
    | 0%nat => Err OutOfFuel
    | S fuel =>
        let! chosen := greedy_pick ord co T cur chosen in
        match chosen with
        | None => Err UnboundLocalError
        | Some x =>
            if bool_decide (x ∈ cur) then greedy_tail fuel ord co n (T ∪ {[x]}) (cur ∖ {[x]}) (Some x)
            else Err KeyError
        end
    end
  else Ok T.

(** sample_once (corset/samplers/greedy_area.py:97-148).  None is the pair (set(), set()) returned for a row
    without labels.  Every round of the while loop enlarges T, so the drawn size is enough fuel. *)
Definition gas_sample_once (py39 : bool) (ord : gset Z -> list Z) (s : gas) : rand (option (gset Z)) :=
  let? i := random_choices py39 (py_range (zlen (gas_Y s))) (gas_W s) in
  let? row := lift (py_index (gas_Y s) i) in
  let labels := ones row in
  if zlen labels =? 0 then Ret None
  else
    let? n := random_choices py39 (seqZ 1 (zlen labels)) (map Qc_of_Z (py_range (zlen labels))) in
    let? first := np_choice_uniform labels in
    let? T := lift (greedy_tail (Z.to_nat n) ord (fq_dlabel (gas_freqs s)) n {[first]} (py_set labels ∖ {[first]}) None) in
    Ret (Some T).
