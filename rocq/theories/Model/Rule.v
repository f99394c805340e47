(** Model of corset/rule.py. *)
From Verif.Model Require Import PyBase PyReal Sparse Utils.
Open Scope Z_scope.

(** An unbound Rule: the attributes set by __init__ (corset/rule.py:22-28). *)
Record rule := MkRule { r_head : list Z; r_tail : list Z }.

Global Instance rule_eq_dec : EqDecision rule.
Proof. solve_decision. Defined.

(** Rule(head, tail) (corset/rule.py:22-28): [tuple(sorted(list(.)))]; the arguments are the
    iterables in iteration order. *)
Definition new_rule (head tail : list Z) : rule := MkRule (py_sorted head) (py_sorted tail).

(** Rule.__eq__ (corset/rule.py:147-148) *)
Definition rule_eqb (a b : rule) : bool :=
  bool_decide (r_head a = r_head b) && bool_decide (r_tail a = r_tail b).

(** The tuple Rule.__hash__ hashes (corset/rule.py:150-151). *)
Definition rule_hash_key (a : rule) : list Z * list Z := (r_head a, r_tail a).

(** Attributes added by bind_dataset (corset/rule.py:31-77). Simplification: the matrices themselves
    (self.X, self.Y) and the label vectors are not kept, no other method reads them. *)
Record bound := MkBound {
  b_rule : rule;
  b_N : Z;
  b_D : Z;
  b_L : Z;
  b_num_positives : Z;
  b_head_support : gset Z;
  b_head_support_size : Z;
  b_tail_support : gset Z;
  b_tail_support_size : Z;
  b_support : gset Z;
  b_support_size : Z
}.

(** Rule._check_head (corset/rule.py:46-50) *)
Definition check_head (head : list Z) (D : Z) : result unit :=
  rfold (fun _ el => if (el <? 0) || (D <=? el) then Err ValueError else Ok tt) tt head.

(** len() of a Python set *)
Definition set_len (s : gset Z) : Z := Z.of_nat (size s).

(** np.logical_and on two boolean vectors; numpy raises ValueError on different lengths
    (operands could not be broadcast), except that length 1 broadcasts. *)
Definition logical_and (a b : list bool) : result (list bool) :=
  if zlen a =? zlen b then Ok (zip_with andb a b)
  else if zlen a =? 1 then Ok (map (andb (List.hd false a)) b)
  else if zlen b =? 1 then Ok (map (fun x => x && List.hd false b) a)
  else Err ValueError.

(** Rule.bind_dataset with set_label_vector, set_head_support, set_tail_support, set_support
    (corset/rule.py:31-77).  Attributes left behind by a failing call are not modelled. *)
Definition bind_dataset (ord : gset Z -> list Z) (r : rule) (X Y : csc) : result bound :=
  let N := csc_rows X in
  let D := csc_cols X in
  let L := csc_cols Y in
  let! _ := check_head (r_head r) D in
  let! tv := conjunctive_collapse_v2 ord Y (r_tail r) in
  let! hv := conjunctive_collapse_v2 ord X (r_head r) in
  let npos := count_true tv in
  let hs := binary_vector_to_set hv in
  if set_len hs =? 0 then Err ValueError
  else
    let ts := binary_vector_to_set tv in
    let! mask := logical_and hv tv in
    let s := binary_vector_to_set mask in
    Ok (MkBound r N D L npos hs (set_len hs) ts (set_len ts) s (set_len s)).

(** Rule.true_positive_rate / precision (corset/rule.py:79-90) *)
Definition true_positive_rate (b : bound) : result R :=
  py_div (b_support_size b) (b_head_support_size b).
Definition precision (b : bound) : result R := true_positive_rate b.

(** Rule.recall (corset/rule.py:92-94); num_positives is a numpy integer. *)
Definition recall (b : bound) : result R := np_div (b_support_size b) (b_num_positives b).

(** Rule.base_rate (corset/rule.py:96-101) *)
Definition base_rate (b : bound) : result R := py_div (b_tail_support_size b) (b_N b).

(** scipy.special.rel_entr: x log(x/y), 0 for x = 0, infinite otherwise. *)
Definition rel_entr (x y : R) : result R :=
  if Rlt_dec 0 x then (if Rlt_dec 0 y then Ok (x * ln (x / y))%R else Err NonFinite)
  else if Req_EM_T x 0 then (if Rle_dec 0 y then Ok 0%R else Err NonFinite)
  else Err NonFinite.

(** scipy.stats.entropy(pk, qk): both are normalised to sum one, then sum of rel_entr. *)
Definition entropy (pk qk : list R) : result R :=
  let ps := rsum pk in
  let qs := rsum qk in
  let! ts := rmap (fun xy => rel_entr (fst xy / ps)%R (snd xy / qs)%R) (zip pk qk) in
  Ok (rsum ts).

(** Rule.KL (corset/rule.py:103-113) *)
Definition KL (b : bound) : result R :=
  let! p := true_positive_rate b in
  let! q := base_rate b in
  if Rltb p q then Ok 0%R
  else entropy [p; (1 - p)%R] [q; (1 - q)%R].

(** jaccard_distance / Rule.distance (corset/rule.py:8-18, 115-116) *)
Definition distance (a b : bound) : result R :=
  let inter := set_len (b_support a ∩ b_support b) *
               set_len (py_set (r_tail (b_rule a)) ∩ py_set (r_tail (b_rule b))) in
  let union := b_support_size a * zlen (r_tail (b_rule a))
             + b_support_size b * zlen (r_tail (b_rule b)) - inter in
  let! q := py_div inter union in
  Ok (1 - q)%R.

(** Rule.label_area (corset/rule.py:118-119) *)
Definition label_area (b : bound) : Z := b_support_size b * zlen (r_tail (b_rule b)).

(** extract_label_occs (corset/rule.py:126-127): the set of itertools.product(support, tail). *)
Definition label_occs (b : bound) : gset (Z * Z) :=
  list_to_set (concat (map (fun i => map (pair i) (r_tail (b_rule b))) (elements (b_support b)))).

(** Rule.marginal_coverage (corset/rule.py:121-140) *)
Definition marginal_coverage (b : bound) (refs : list bound) : result Z :=
  let cur := fold_left (fun cur r => cur ∖ label_occs r) refs (label_occs b) in
  let a := Z.of_nat (size cur) in
  if a <? 0 then Err GenericException else Ok a.

(** Rule.__getstate__ / __setstate__ (corset/rule.py:153-155). *)
Definition rule_getstate (b : bound) : list Z * list Z := (r_head (b_rule b), r_tail (b_rule b)).
Definition rule_setstate (d : list Z * list Z) : rule := MkRule (fst d) (snd d).
