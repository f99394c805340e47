(** Model of corset/greedy/base.py: coverage, prediction, pickling.
    (Candidate generation and selection are in Model/Greedy.v.) *)
From Verif.Model Require Import PyBase PyReal Sparse Utils Rule.
Open Scope Z_scope.

(** An element of [selected_rules]: bound during training, unbound after unpickling
    (corset/rule.py:153-155 restores head and tail only). *)
Inductive srule := Bound (b : bound) | Unbound (r : rule).

Definition sr_rule (s : srule) : rule := match s with Bound b => b_rule b | Unbound r => r end.

(** [rule.support] *)
Definition sr_support (s : srule) : result (gset Z) :=
  match s with Bound b => Ok (b_support b) | Unbound _ => Err AttributeError end.

(** A GreedyBase estimator (corset/greedy/base.py:40-53, :103-113): constructor parameters of an
    arbitrary type, selected rules, data shapes, and the training matrices once set. *)
Record est (P : Type) := MkEst {
  e_params : P;
  e_rules : list srule;
  e_num_labels : option Z;
  e_num_features : option Z;
  e_train : option (csr * csr)
}.
Arguments MkEst {P} _ _ _ _ _.
Arguments e_params {P} _.
Arguments e_rules {P} _.
Arguments e_num_labels {P} _.
Arguments e_num_features {P} _.
Arguments e_train {P} _.

(** scipy csr [m[i, j] = 0]: a stored entry keeps its slot and gets value 0, otherwise an explicit zero
    is inserted (its position inside the row is not observable through sum() and nnz is not read from
    the copy). *)
Definition set0_line (j : Z) (l : list (Z * Z)) : list (Z * Z) :=
  if bool_decide (j ∈ map fst l)
  then map (fun e => if fst e =? j then (fst e, 0) else e) l
  else l ++ [(j, 0)].

Definition csr_set0 (m : csr) (i j : Z) : result csr :=
  let! i' := norm_col (csr_rows m) i in
  let! j' := norm_col (csr_cols m) j in
  Ok (Csr (of_lines (csr_cols m) (alter (set0_line j') (Z.to_nat i') (lines (csr_mat m))))).

(** itertools.product(a, b) *)
Definition product (a b : list Z) : list (Z * Z) := concat (map (fun i => map (pair i) b) a).

(** GreedyBase.coverage_ratio (corset/greedy/base.py:71-84); [ord] is the order of [list(rule.support)]. *)
Definition coverage_ratio_of (ord : gset Z -> list Z) (Y : csr) (rules : list srule) : result R :=
  let! Yc := rfold (fun m s =>
               let! supp := sr_support s in
               rfold (fun m c => csr_set0 m (fst c) (snd c)) m (product (ord supp) (r_tail (sr_rule s))))
             Y rules in
  let! q := np_div (msum (csr_mat Yc)) (nnz (csr_mat Y)) in
  Ok (1 - q)%R.

Definition coverage_ratio {P} (ord : gset Z -> list Z) (e : est P) : result R :=
  match e_train e with
  | None => Err AttributeError          (* self.Y does not exist *)
  | Some (_, Y) => coverage_ratio_of ord Y (e_rules e)
  end.

(** GreedyBase.marginal_coverage_ratio (corset/greedy/base.py:86-95) *)
Definition marginal_coverage_ratio (Y : csr) (selected : list bound) (b : bound) : result R :=
  let! a := marginal_coverage b selected in
  if a <? 0 then Err GenericException
  else py_div a (nnz (csr_mat Y)).

(** GreedyBase.set_X_Y (corset/greedy/base.py:103-113) *)
Definition set_X_Y {P} (e : est P) (X Y : csr) : est P :=
  MkEst (e_params e) (e_rules e) (Some (csr_cols Y)) (Some (csr_cols X)) (Some (X, Y)).

(** [set(rule.head).issubset(features)] (corset/greedy/base.py:128) *)
Definition head_in (r : rule) (features : gset Z) : bool :=
  bool_decide (py_set (r_head r) ⊆ features).

(** One row of the loop in predict (corset/greedy/base.py:127-130) *)
Definition predict_row (rules : list rule) (i : Z) (features : gset Z) (ret : lil) : result lil :=
  rfold (fun m r => if head_in r features
                    then rfold (fun m j => lil_set1 m i j) m (r_tail r)
                    else Ok m) ret rules.


(** GreedyBase.predict (corset/greedy/base.py:115-131) *)
Definition predict {P} (e : est P) (X : csr) : result csr :=
  match e_num_labels e with
  | None => Err TypeError               (* lil_matrix((n, None)) *)
  | Some nl =>
      let! sets := convert_matrix_to_sets_v2 X in
      let! ret := rfold (fun m p => predict_row (map sr_rule (e_rules e)) (fst p) (snd p) m)
                    (lil_zeros (csr_rows X) nl) (enumerate sets) in
      Ok (lil_tocsr ret)
  end.

(** What pickle stores: __getstate__ of the estimator with each rule replaced by the result of
    Rule.__getstate__ (corset/greedy/base.py:151-157, corset/rule.py:157-158). *)
Definition est_getstate {P} (e : est P) : P * list (list Z * list Z) * option Z * option Z :=
  (e_params e, map (fun s => (r_head (sr_rule s), r_tail (sr_rule s))) (e_rules e),
   e_num_labels e, e_num_features e).

(** __setstate__ on a fresh object (corset/greedy/base.py:139-149, corset/rule.py:153-155). *)
Definition est_setstate {P} (d : P * list (list Z * list Z) * option Z * option Z) : est P :=
  let '(p, rs, nl, nf) := d in
  MkEst p (map (fun ht => Unbound (rule_setstate ht)) rs) nl nf None.
