(** Model of corset/samplers/surs.py, corset/samplers/uncovered_area.py and the frequency sampler of
    corset/samplers/freq.py:32-52 / corset/samplers/pc.py:133-151.  Row weights are Python/numpy numbers that are sums of
    set sizes; they are integers here. *)
From Verif.Model Require Import PyBase Sparse Utils Graph Cliques Assign Rand.
Open Scope Z_scope.

(** ReducedSpaceSampler.sample_once (corset/samplers/surs.py:36-42): draw a row, then a sample of it. *)
Definition surs_sample_once (nrows : Z) (probas : list Qc) (from_row : Z -> rand (gset Z)) : rand (gset Z) :=
  let? row := np_choice (py_range nrows) probas in from_row row.

(** The attributes of a fitted UncoveredAreaSampler: _sample_space, new_rows, row_weights, row_probas,
    element_counter_per_row, update_history. *)
Record ua := UA {
  ua_space : list (gset Z);
  ua_rows : list (list Z);
  ua_weights : list Z;
  ua_probas : list Qc;
  ua_counters : list (gmap Z Z);
  ua_history : list (list Z * gset Z)
}.

(** UncoveredAreaMixin._update_row_probas (corset/samplers/uncovered_area.py:69-76) *)
Definition row_probas (ws : list Z) : list Qc :=
  if zsum ws =? 0 then replicate (length ws) (1 / Qc_of_Z (zlen ws))%Qc
  else normalize ws.

(** Counter(l) *)
Definition counter (l : list Z) : gmap Z Z :=
  fold_left (fun m x => <[x := match m !! x with Some c => c + 1 | None => 1 end]> m) l ∅.

(** the samples of a row *)
Definition row_samples (space : list (gset Z)) (row : list Z) : result (list (gset Z)) :=
  rmap (py_index space) row.

(** _assign_row_weights and _build_element_counter (corset/samplers/uncovered_area.py:16-39) *)
Definition assign_row_weights (ord : gset Z -> list Z) (space : list (gset Z)) (rows : list (list Z))
    (history : list (list Z * gset Z)) : result ua :=
  let! ws := rmap (fun row => let! ss := row_samples space row in
                              Ok (zsum (map (fun s : gset Z => Z.of_nat (size s)) ss))) rows in
  let! cs := rmap (fun row => let! ss := row_samples space row in
                              Ok (counter (concat (map ord ss)))) rows in
  Ok (UA space rows ws (row_probas ws) cs history).

(** Body of the inner loop of update_row_weights (corset/samplers/uncovered_area.py:61-65) *)
Definition cover_elem (row_id : Z) (wc : list Z * list (gmap Z Z)) (el : Z)
    : result (list Z * list (gmap Z Z)) :=
  let! cnt := py_index (snd wc) row_id in
  match cnt !! el with
  | None => Ok wc
  | Some c =>
      let! w := py_index (fst wc) row_id in
      let! ws := py_setitem (fst wc) row_id (w - c) in
      let! cs := py_setitem (snd wc) row_id (delete el cnt) in
      Ok (ws, cs)
  end.

(** update_row_weights (corset/samplers/uncovered_area.py:55-67); affected_row_ids in iteration order.
    The hasattr check is left out: the state is that of a fitted sampler. *)
Definition update_row_weights (ord : gset Z -> list Z) (st : ua) (upd : list Z * gset Z) : result ua :=
  let! '(ws, cs) := rfold (fun wc row_id => rfold (cover_elem row_id) wc (ord (snd upd)))
                      (ua_weights st, ua_counters st) (fst upd) in
  Ok (UA (ua_space st) (ua_rows st) ws (row_probas ws) cs (ua_history st ++ [upd])).

(** update_row_weights_naive (corset/samplers/uncovered_area.py:41-53): no counters, no history. *)
Definition update_row_weights_naive (ord : gset Z -> list Z) (st : ua) (upd : list Z * gset Z) : result ua :=
  let! ws := rfold (fun ws row_id =>
      let! row := py_index (ua_rows st) row_id in
      rfold (fun ws k =>
        rfold (fun ws el =>
          let! s := py_index (ua_space st) k in
          if bool_decide (el ∈ s) then
            let! w := py_index ws row_id in py_setitem ws row_id (w - 1)
          else Ok ws) ws (ord (snd upd))) ws row) (ua_weights st) (fst upd) in
  Ok (UA (ua_space st) (ua_rows st) ws (row_probas ws) (ua_counters st) (ua_history st)).

(** covered_elems (corset/samplers/uncovered_area.py:89-93) *)
Definition covered_elems (history : list (list Z * gset Z)) (row_id : Z) : gset Z :=
  fold_left (fun c u => if bool_decide (row_id ∈ fst u) then c ∪ snd u else c) history ∅.

(** np.allclose(a, b) with the default rtol=1e-05, atol=1e-08: |a - b| <= atol + rtol * |b| *)
Definition allclose (a b : Z) : bool := Z.abs (a - b) * 100000000 <=? 1 + 1000 * Z.abs b.

(** UncoveredAreaMixin._sample_itemset_from_row (corset/samplers/uncovered_area.py:78-117) *)
Definition ua_sample_from_row (st : ua) (row_id : Z) : rand (gset Z) :=
  let? ids := lift (py_index (ua_rows st) row_id) in
  let? ss := lift (row_samples (ua_space st) ids) in
  let cov := covered_elems (ua_history st) row_id in
  let ws := map (fun s : gset Z => Z.of_nat (size s) - Z.of_nat (size (s ∩ cov))) ss in
  let? w := lift (py_index (ua_weights st) row_id) in
  if negb (allclose (zsum ws) w) then Fail GenericException
  else if zsum ws =? 0 then Fail NoMoreSamples
  else
    let? k := np_choice ids (normalize ws) in
    lift (py_index (ua_space st) k).

Definition ua_sample_once (st : ua) : rand (gset Z) :=
  surs_sample_once (zlen (ua_rows st)) (ua_probas st) (ua_sample_from_row st).

(** UncoveredAreaSampler.fit (corset/samplers/uncovered_area.py:146-152) on an object whose update_history
    is [history]: a new object has [], and fit leaves the history alone. *)
Definition ua_fit (ord : gset Z -> list Z) (do_prune : bool) (min_proba : Qc) (b : backend)
    (history : list (list Z * gset Z)) (Y : csr) : result ua :=
  let! g := build_graph Y in
  let! space := build_sample_space ord g do_prune min_proba b in
  let! rows := pretti_new_rows ord space Y in
  assign_row_weights ord space rows history.

(** ** PCFrequencySampler (corset/samplers/pc.py:133-151, corset/samplers/freq.py:32-52) *)

(** fit: sample space, trie assignment, weights = number of samples of the row, row_probas. *)
Definition pcf_fit (ord : gset Z -> list Z) (hord : Trie.hits -> list (option (list Z))) (do_prune : bool)
    (min_proba : Qc) (b : backend) (Y : csr) : result (list (gset Z) * list (list Z) * list Qc) :=
  let! g := build_graph Y in
  let! space := build_sample_space ord g do_prune min_proba b in
  let! rows := trie_new_rows ord hord space Y in
  Ok (space, rows, normalize (map zlen rows)).

(** SURSFrequencySamplerMixin._sample_itemset_from_row (corset/samplers/freq.py:42-52): uniform over the row's samples *)
Definition pcf_sample_from_row (space : list (gset Z)) (rows : list (list Z)) (row_id : Z) : rand (gset Z) :=
  let? ids := lift (py_index rows row_id) in
  let? k := np_choice_uniform ids in
  lift (py_index space k).

Definition pcf_sample_once (st : list (gset Z) * list (list Z) * list Qc) : rand (gset Z) :=
  let '(space, rows, probas) := st in
  surs_sample_once (zlen rows) probas (pcf_sample_from_row space rows).
