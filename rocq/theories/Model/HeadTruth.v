(** Model of the ground truth functions of the greedy head samplers CFTP_Greedy (corset/samplers/cftp_and_greedy.py) and PruneGreedy
    (corset/samplers/prune_and_greedy.py); both files have the same code. *)
From Verif.Model Require Import PyBase PyReal Sparse RandR Cftp GreedyHead.
Open Scope Z_scope.

(** itertools.product(self._pos_list, self._neg_list) *)
Definition gh_pairs (s : ghead) : list (Z * Z) := concat (map (fun p => map (pair p) (gh_neg s)) (gh_pos s)).

(** get_ground_truth_proba_for_pairs (corset/samplers/cftp_and_greedy.py:191-207; corset/samplers/prune_and_greedy.py:151-167).  The rows are sets, so set(...)
    copies them. *)
Definition gh_truth_pairs (s : ghead) : result (gmap (Z * Z) R) :=
  let! ct := rfold (fun dt pn =>
      let! rp := py_index (gc_rows (gh_c s)) (fst pn) in
      let! rn := py_index (gc_rows (gh_c s)) (snd pn) in
      let cnt := Z.of_nat (size (rp ∖ rn)) in
      Ok (<[pn := cnt]> (fst dt), snd dt + cnt)) ((∅ : gmap (Z * Z) Z), 0) (gh_pairs s) in
  let '(d, total) := (ct : gmap (Z * Z) Z * Z) in
  rfold (fun m kv => let! q := py_div (snd kv) total in Ok (<[fst kv := q]> m)) ∅ (map_to_list d).

(** get_ground_truth_proba_for_samples (corset/samplers/cftp_and_greedy.py:209-224; corset/samplers/prune_and_greedy.py:169-184); a sample is an attribute *)
Definition gh_truth_samples (ord : gset Z -> list Z) (s : ghead) : result (gmap Z R) :=
  let! cnt := rfold (fun d pn =>
      let! rp := py_index (gc_rows (gh_c s)) (fst pn) in
      let! rn := py_index (gc_rows (gh_c s)) (snd pn) in
      Ok (fold_left (fun d k => <[k := match d !! k with Some c => c + 1 | None => 1 end]> d) (ord (rp ∖ rn)) d)) (∅ : gmap Z Z) (gh_pairs s) in
  let total := zsum (map snd (map_to_list cnt)) in
  rfold (fun m kv => let! q := py_div (snd kv) total in Ok (<[fst kv := q]> m)) ∅ (map_to_list cnt).
