(** Model of corset/samplers/cftp_and_greedy.py (CFTP_Greedy) and corset/samplers/prune_and_greedy.py (PruneGreedy).  Both files
    import convert_matrix_to_sets_v2 and InvertedIndex from a package dmrs that is not in the repository; the model
    takes corset.utils and corset.PRETTI instead.  gamma, early_stop_epsilon and the gains are exact rationals, so
    floating point ties are not modelled.  Where the two files have the same code the lines of corset/samplers/cftp_and_greedy.py
    are followed by those of corset/samplers/prune_and_greedy.py. *)
From Verif.Model Require Import PyBase PyReal Sparse Utils Assign Rand RandR Cftp GreedyArea.
Open Scope Z_scope.

(** What the first fit stores: rows, InvInd, attribute_freq. *)
Record ghcache := GHCache { gc_rows : list (gset Z); gc_inv : list (gset Z); gc_freq : gmap Z Z }.

(** compute_frequencies (corset/samplers/cftp_and_greedy.py:228-241; corset/samplers/prune_and_greedy.py:188-201): Counter of all attributes *)
Definition gh_frequencies (ord : gset Z -> list Z) (rows : list (gset Z)) : gmap Z Z :=
  foldl count_incr ∅ (concat (map ord rows)).

(** the three tests "if self.… == None" of fit (corset/samplers/cftp_and_greedy.py:88-93; corset/samplers/prune_and_greedy.py:60-65).  The three
    attributes are always set together. *)
Definition gh_cache (ord : gset Z -> list Z) (cache : option ghcache) (X : csr) : result ghcache :=
  match cache with
  | Some c => Ok c
  | None => let! rows := convert_matrix_to_sets_v2 X in
            Ok (GHCache rows (build_index X) (gh_frequencies ord rows))
  end.

(** Attributes after fit, without the CFTP object. *)
Record ghead := GHead {
  gh_c : ghcache;
  gh_D : Z;
  gh_pos : list Z;              (* _pos_list; _positives is the set of its elements *)
  gh_neg : list Z }.            (* _neg_list; _negagives is the set of its elements *)

(** PruneGreedy.fit (corset/samplers/prune_and_greedy.py:54-68); _check_data and _compute_pos_and_neg_info are
    corset/samplers/prune_and_greedy.py:35-49, corset/samplers/cftp_and_greedy.py:50-64. *)
Definition gh_fit (ord : gset Z -> list Z) (cache : option ghcache) (X : csr) (y : list Z) : result ghead :=
  let! c := gh_cache ord cache X in
  if negb (bool_decide (py_set y = {[ 0; 1 ]})) then Err AssertionError
  else Ok (GHead c (csr_cols X) (pos_indices y) (neg_indices y)).

(** The gain of an attribute, with the covered rows [cov] (None for the first attribute).
    [norm]: CFTP_Greedy divides by the frequency of the attribute (corset/samplers/cftp_and_greedy.py:154, 168), PruneGreedy does not
    (corset/samplers/prune_and_greedy.py:114, 128). *)
Definition gh_gain (norm : bool) (gamma : Qc) (s : ghead) (cov : option (gset Z)) (a : Z) : result Qc :=
  let! t := py_index (gc_inv (gh_c s)) a in
  let t := match cov with None => t | Some c => c ∩ t end in
  let p := Z.of_nat (size (t ∩ py_set (gh_pos s))) in
  let n := Z.of_nat (size (t ∩ py_set (gh_neg s))) in
  if norm then
    let f := count_get (gc_freq (gh_c s)) a in
    if f =? 0 then Err ZeroDivisionError
    else Ok (Qc_of_Z p / Qc_of_Z f - gamma * Qc_of_Z n / Qc_of_Z f)%Qc
  else Ok (Qc_of_Z p - gamma * Qc_of_Z n)%Qc.

(** for attribute in sampling_universe (corset/samplers/cftp_and_greedy.py:153-157, 167-171; corset/samplers/prune_and_greedy.py:113-117, 127-131): the
    variables best_attr (None: not bound) and max_gain (None: -inf).  [best] is best_attr before the loop. *)
Definition gh_best (ord : gset Z -> list Z) (norm : bool) (gamma : Qc) (s : ghead) (cov : option (gset Z))
    (best : option Z) (universe : gset Z) : result (option Z * option Qc) :=
  rfold (fun bm a =>
      let! g := gh_gain norm gamma s cov a in
      Ok (match snd bm with
          | Some m => if decide (m < g)%Qc then (Some a, Some g) else bm
          | None => (Some a, Some g)
          end)) (best, None) (ord universe).

(** np.argmax of a list of floats: the first position of the maximum; ValueError on the empty list *)
Definition np_argmax (l : list Qc) : result Z :=
  match l with
  | [] => Err ValueError
  | x :: l => Ok (snd (fst (foldl (fun '(m, k, i) v => if decide (m < v)%Qc then (v, i, i + 1) else (m, k, i + 1)) (x, 0, 1) l)))
  end.

(** maximizer, attr_list and the returned set (corset/samplers/cftp_and_greedy.py:184-187; corset/samplers/prune_and_greedy.py:144-147) *)
Definition gh_finish (chosen : list Z) (gains : list Qc) : result (gset Z) :=
  let! m := np_argmax gains in
  Ok (py_set (take (Z.to_nat (m + 1)) chosen)).

(** while len(sampling_universe) > 0 (corset/samplers/cftp_and_greedy.py:165-181; corset/samplers/prune_and_greedy.py:125-142).  best_attr is still
    bound from before.  set.remove: KeyError when absent. *)
Fixpoint gh_loop (fuel : nat) (ord : gset Z -> list Z) (norm : bool) (gamma eps : Qc) (s : ghead)
    (universe cov : gset Z) (best : Z) (chosen : list Z) (gains : list Qc) : result (gset Z) :=
  if decide (universe = ∅) then gh_finish chosen gains
  else match fuel with
  | O => Err OutOfFuel
  | Datatypes.S fuel' =>
      let! '(b, m) := gh_best ord norm gamma s (Some cov) (Some best) universe in
      match b, m with
      | Some b, Some m =>
          let! t := py_index (gc_inv (gh_c s)) b in
          let cov := cov ∩ t in
          if decide (Qc_of_Z (Z.of_nat (size cov)) < eps * Qc_of_Z (Z.of_nat (size (py_set (gh_pos s)))))%Qc
          then gh_finish chosen gains
          else if decide (b ∈ universe)
               then gh_loop fuel' ord norm gamma eps s (universe ∖ {[ b ]}) cov b (chosen ++ [b]) (gains ++ [m])
               else Err KeyError
      | _, _ => Err NonFinite        (* max_gain stays -inf only if the universe is empty *)
      end
  end.

(** greedy_choice (corset/samplers/cftp_and_greedy.py:137-187 with sampling_universe = dpos.difference(dneg); corset/samplers/prune_and_greedy.py:98-147
    with sampling_universe = res) *)
Definition gh_choice (ord : gset Z -> list Z) (norm : bool) (gamma eps : Qc) (s : ghead) (universe : gset Z)
    : result (gset Z) :=
  let! '(b, m) := gh_best ord norm gamma s None None universe in
  match b, m with
  | Some b, Some m =>
      let! t := py_index (gc_inv (gh_c s)) b in
      if decide (b ∈ universe)
      then gh_loop (size universe) ord norm gamma eps s (universe ∖ {[ b ]}) t b [b] [m]
      else Err KeyError
  | None, _ => Err UnboundLocalError
  | _, None => Err NonFinite
  end.

(** PruneGreedy.prune_attributes (corset/samplers/prune_and_greedy.py:71-77) *)
Definition pg_prune (s : ghead) : result (gset Z) :=
  rfold (fun res a => let! t := py_index (gc_inv (gh_c s)) a in
                      Ok (if 0 <? Z.of_nat (size (t ∩ py_set (gh_pos s))) then {[ a ]} ∪ res else res)) ∅ (py_range (gh_D s)).

(** PruneGreedy.sample_once (corset/samplers/prune_and_greedy.py:81-89) *)
Definition pg_sample_once (ord : gset Z -> list Z) (gamma eps : Qc) (s : ghead) : result (gset Z) :=
  let! res := pg_prune s in
  let res := if decide (res = ∅) then py_set (py_range (gh_D s)) else res in
  gh_choice ord false gamma eps s res.

(** PruneGreedy.sample (corset/samplers/prune_and_greedy.py:93-94) *)
Definition pg_sample (ord : gset Z -> list Z) (gamma eps : Qc) (s : ghead) (k : Z) : result (list (gset Z)) :=
  rmap (fun _ => pg_sample_once ord gamma eps s) (py_range k).

(** CFTP_Greedy after fit *)
Record cghead := CGHead { cg_h : ghead; cg_cftp : cftp }.

(** CFTP_Greedy._compute_weight_dict (corset/samplers/cftp_and_greedy.py:34-46): i ranges over the rows of the X of this fit *)
Definition cg_weight_dict (N : Z) (rows : list (gset Z)) (pos : list Z) : result (gmap Z R) :=
  rfold (fun d i =>
    if bool_decide (i ∈ pos) then
      let! r := py_index rows i in
      Ok (<[i := IZR (Z.of_nat (size r))]> d)
    else Ok (<[i := 1%R]> d)) ∅ (py_range N).

(** W_C of a pair in CFTP with data_records = rows, which are sets (corset/samplers/cftp.py:101-105) *)
Definition cg_pair_weight (rows : list (gset Z)) (pos neg : Z) : result Z :=
  let! rp := py_index rows pos in
  let! rn := py_index rows neg in
  Ok (Z.of_nat (size (rp ∖ rn))).

(** CFTP_Greedy.fit (corset/samplers/cftp_and_greedy.py:82-98) with _construct_cftp (corset/samplers/cftp_and_greedy.py:67-77); _pos_weight raises
    KeyError if y has more rows than X *)
Definition cg_fit (ord : gset Z -> list Z) (cache : option ghcache) (X : csr) (y : list Z) : result cghead :=
  let! s := gh_fit ord cache X y in
  let! w := cg_weight_dict (csr_rows X) (gc_rows (gh_c s)) (gh_pos s) in
  let! _ := rmap (dict_get w) (gh_pos s) in
  let! c := cftp_init w w (gh_pos s) (gh_neg s) (cg_pair_weight (gc_rows (gh_c s))) 1024 in
  Ok (CGHead s c).

(** CFTP_Greedy.sample_a_pair (corset/samplers/cftp_and_greedy.py:103-110) *)
Definition cg_sample_pair (s : cghead) : rrand (option (Z * Z)) :=
  let* r := cftp_draw (cg_cftp s) false in
  match r with RetPair D => RRet D | RetDetails _ _ => RFail TypeError end.

(** CFTP_Greedy.sample_once (corset/samplers/cftp_and_greedy.py:113-128) *)
Definition cg_sample_once (ord : gset Z -> list Z) (gamma eps : Qc) (s : cghead) : rrand (option (gset Z)) :=
  let* r := cg_sample_pair s in
  match r with
  | None => RRet None
  | Some (pos, neg) =>
      let* dpos := rlift (py_index (gc_rows (gh_c (cg_h s))) pos) in
      let* dneg := rlift (py_index (gc_rows (gh_c (cg_h s))) neg) in
      let* t := rlift (gh_choice ord true gamma eps (cg_h s) (dpos ∖ dneg)) in
      RRet (Some t)
  end.
