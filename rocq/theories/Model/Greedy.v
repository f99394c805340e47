(** Model of corset/greedy/base.py:10-38, 97-101 (candidate generation and selection) and of
    corset/greedy/diversity_maximization.py, corset/greedy/divmax_v2.py, corset/greedy/divmax_v3.py and corset/greedy/submod.py.

    The two samplers are arbitrary objects: [W] is everything their methods read and write (including the
    random number generator), so quantifying over W and the methods covers every sampler and every random
    outcome.  Logging is modelled by evaluating the logged expressions, which may raise. *)
From Verif.Model Require Import PyBase PyReal Sparse Utils Rule GreedyBase PyState.
Open Scope Z_scope.

(** The sampler methods fit uses, and the iteration order of a Python set of rules.  A head is [None] when
    CFTP gives up (corset/samplers/discrim.py:147-148). *)
Record samplers (W : Type) := Samplers {
  tail_fit : csr -> sx W unit;                       (* tail_sampler.fit(Y) *)
  tail_sample_once : sx W (gset Z);                  (* tail_sampler.sample_once() *)
  tail_update : gset Z -> gset Z -> sx W unit;       (* tail_sampler.update_row_weights(support, tail) *)
  head_fit : csr -> list bool -> sx W unit;          (* head_sampler.fit(X, y) *)
  head_sample : Z -> sx W (list (option (gset Z)));  (* head_sampler.sample(size) *)
  rule_iter : W -> list bound -> list bound          (* iteration order of a set of rules *)
}.
Arguments Samplers {W}.
Arguments tail_fit {W}.
Arguments tail_sample_once {W}.
Arguments tail_update {W}.
Arguments head_fit {W}.
Arguments head_sample {W}.
Arguments rule_iter {W}.

(** The classes; the GreedyCFTP* wrappers differ in the samplers only. *)
Inductive greedy_class := DivMax | DivMaxV2 | DivMaxV3 | Submod.

(** Constructor parameters (corset/greedy/diversity_maximization.py:14-23, corset/greedy/divmax_v2.py:12-20, corset/greedy/submod.py:12-20). *)
Record gparams := GParams {
  p_lambd : R;
  p_n_tails : Z;             (* n_tails_per_iter *)
  p_n_heads : Z;             (* n_heads_per_tail *)
  p_n_max : option Z;        (* n_max_rules *)
  p_tolerance : R
}.

(** A classifier object.  [g_est] holds parameters, selected_rules, shapes and training data;
    candidate_rules, selected_rules_round_1, obj_round_1, obj_round_2 and obj are attributes that may not
    exist yet.  [g_rounds] is a ghost: the number of calls of generate_candidate_rules so far. *)
Record gs (W : Type) := GS {
  g_est : est gparams;
  g_world : W;
  g_cands : option (list bound);
  g_round1 : option (list srule);
  g_obj1 : option R;
  g_obj2 : option R;
  g_obj : option R;
  g_rounds : nat
}.
Arguments GS {W}.
Arguments g_est {W}.
Arguments g_world {W}.
Arguments g_cands {W}.
Arguments g_round1 {W}.
Arguments g_obj1 {W}.
Arguments g_obj2 {W}.
Arguments g_obj {W}.
Arguments g_rounds {W}.

Definition g_rules {W} (g : gs W) : list srule := e_rules (g_est g).
Definition g_params {W} (g : gs W) : gparams := e_params (g_est g).

Definition with_est {W} (e : est gparams) (g : gs W) : gs W :=
  GS e (g_world g) (g_cands g) (g_round1 g) (g_obj1 g) (g_obj2 g) (g_obj g) (g_rounds g).
Definition with_rules {W} (rs : list srule) (g : gs W) : gs W :=
  with_est (MkEst (e_params (g_est g)) rs (e_num_labels (g_est g)) (e_num_features (g_est g))
                  (e_train (g_est g))) g.
Definition with_world {W} (w : W) (g : gs W) : gs W :=
  GS (g_est g) w (g_cands g) (g_round1 g) (g_obj1 g) (g_obj2 g) (g_obj g) (g_rounds g).
Definition with_cands {W} (c : option (list bound)) (g : gs W) : gs W :=
  GS (g_est g) (g_world g) c (g_round1 g) (g_obj1 g) (g_obj2 g) (g_obj g) (g_rounds g).
Definition with_round1 {W} (rs : list srule) (g : gs W) : gs W :=
  GS (g_est g) (g_world g) (g_cands g) (Some rs) (g_obj1 g) (g_obj2 g) (g_obj g) (g_rounds g).
Definition with_obj1 {W} (v : R) (g : gs W) : gs W :=
  GS (g_est g) (g_world g) (g_cands g) (g_round1 g) (Some v) (g_obj2 g) (g_obj g) (g_rounds g).
Definition with_obj2 {W} (v : R) (g : gs W) : gs W :=
  GS (g_est g) (g_world g) (g_cands g) (g_round1 g) (g_obj1 g) (Some v) (g_obj g) (g_rounds g).
Definition with_obj {W} (v : R) (g : gs W) : gs W :=
  GS (g_est g) (g_world g) (g_cands g) (g_round1 g) (g_obj1 g) (g_obj2 g) (Some v) (g_rounds g).
Definition tick {W} (g : gs W) : gs W :=
  GS (g_est g) (g_world g) (g_cands g) (g_round1 g) (g_obj1 g) (g_obj2 g) (g_obj g) (Datatypes.S (g_rounds g)).

(** A newly constructed classifier (corset/greedy/base.py:51-53). *)
Definition new_classifier {W} (p : gparams) (w : W) : gs W :=
  GS (MkEst p [] None None None) w None None None None None 0.

Definition on_world {W A} (m : sx W A) : sx (gs W) A := fun g =>
  let '(r, w) := m (g_world g) in (r, with_world w g).

(** ** RuleSampler.generate_candidate_rules (corset/greedy/base.py:20-37) *)

(** [rule in rules] *)
Definition rule_mem (r : rule) (rules : list bound) : bool := existsb (fun b => rule_eqb r (b_rule b)) rules.

(** Loop body over heads (:33-37).  Rule(None, tail) raises TypeError (list(None)).  The set [rules] is a
    duplicate-free list in insertion order. *)
Definition add_candidate (ord : gset Z -> list Z) (X Y : csr) (tail : gset Z) (rules : list bound)
    (head : option (gset Z)) : result (list bound) :=
  match head with
  | None => Err TypeError
  | Some h =>
      let r := new_rule (ord h) (ord tail) in
      if rule_mem r rules then Ok rules
      else let! b := bind_dataset ord r (tocsc X) (tocsc Y) in Ok (rules ++ [b])
  end.

(** The loop over tails (:25-37), [n] iterations left.  self.X and self.Y_csc have been set by set_X_Y. *)
Fixpoint generate_loop {W} (S : samplers W) (ord : gset Z -> list Z) (X Y : csr) (n_heads : Z)
    (n : nat) (rules : list bound) : sx W (list bound) :=
  match n with
  | O => sret rules
  | Datatypes.S n' =>
      let^ tail := tail_sample_once S in
      let^ y := slift (conjunctive_collapse_v2 ord (tocsc Y) (ord tail)) in
      let^ _ := head_fit S X y in
      let^ heads := head_sample S n_heads in
      let^ rules' := slift (rfold (add_candidate ord X Y tail) rules heads) in
      generate_loop S ord X Y n_heads n' rules'
  end.

Definition generate_candidate_rules {W} (S : samplers W) (ord : gset Z -> list Z) (p : gparams) (X Y : csr)
    : sx W (list bound) :=
  generate_loop S ord X Y (p_n_heads p) (Z.to_nat (p_n_tails p)) [].

(** ** Objectives *)

(** Reading [.support] of every selected rule: AttributeError on rules restored by unpickling. *)
Definition sr_bound (s : srule) : result bound :=
  match s with Bound b => Ok b | Unbound _ => Err AttributeError end.
Definition bounds_of (rs : list srule) : result (list bound) := rmap sr_bound rs.

(** quality_of_rule (corset/greedy/diversity_maximization.py:73-78, corset/greedy/divmax_v3.py:10-13) *)
Definition quality_of_rule (cls : greedy_class) (sel : list bound) (b : bound) : result R :=
  let! c := marginal_coverage b sel in
  let! kl := KL b in
  Ok (match cls with DivMaxV3 => R_sqrt.sqrt (IZR c) * kl | _ => IZR c * kl end)%R.

(** diversity_of_rule (corset/greedy/diversity_maximization.py:80-81) *)
Definition diversity_of_rule (sel : list bound) (b : bound) : result R :=
  let! ds := rmap (distance b) sel in Ok (rsum ds).

(** objective_of_rule (corset/greedy/diversity_maximization.py:84-87, corset/greedy/submod.py:48-51) *)
Definition objective_of_rule (cls : greedy_class) (lambd : R) (sel : list bound) (b : bound) : result R :=
  match cls with
  | Submod =>
      let! mc := marginal_coverage b sel in
      let! kl := KL b in
      Ok ((if 0 <? mc then 1 else 0) * kl + lambd * IZR mc)%R
  | _ =>
      let! q := quality_of_rule cls sel b in
      let! d := diversity_of_rule sel b in
      Ok (q + lambd * d)%R
  end.

(** itertools.combinations(l, 2) *)
Fixpoint combinations2 {A} (l : list A) : list (A * A) :=
  match l with [] => [] | x :: l' => map (pair x) l' ++ combinations2 l' end.

(** objective(rules) of a classifier whose selected_rules are [sel] (corset/greedy/diversity_maximization.py:96-100) *)
Definition objective (cls : greedy_class) (lambd : R) (sel rules : list bound) : result R :=
  let! qs := rmap (quality_of_rule cls sel) rules in
  let! ds := rmap (fun ab => distance (fst ab) (snd ab)) (combinations2 rules) in
  Ok (rsum qs + lambd * rsum ds)%R.

(** max(l, key=key) for a real-valued key: the first maximal element; ValueError on an empty iterable *)
Definition py_max {A} (key : A -> result R) (l : list A) : result A :=
  match l with
  | [] => Err ValueError
  | x :: l' =>
      let! k := key x in
      let! bk := rfold (fun bk y => let! k' := key y in
                                    Ok (if Rltb (snd bk) k' then (y, k') else bk)) (x, k) l' in
      Ok (fst bk)
  end.

(** select_best_candidate (corset/greedy/base.py:100-101); [cands] in iteration order. *)
Definition select_best_candidate (cls : greedy_class) (lambd : R) (rules : list srule) (cands : list bound)
    : result bound :=
  py_max (fun b => let! sel := bounds_of rules in objective_of_rule cls lambd sel b) cands.

(** ** Fitting *)

(** should_stop (corset/greedy/diversity_maximization.py:44-70; corset/greedy/divmax_v2.py:35-42; corset/greedy/submod.py:39-46).  Comparing with
    n_max_rules=None raises TypeError in V2, V3 and Submod. *)
Definition should_stop (cls : greedy_class) (p : gparams) (Y : csr) (rules : list srule) (b : bound)
    : result bool :=
  match p_n_max p with
  | Some k => Ok (k <=? zlen rules)
  | None =>
      match cls with
      | DivMax => let! sel := bounds_of rules in
                  let! mc := marginal_coverage_ratio Y sel b in
                  Ok (Rleb mc (p_tolerance p))
      | _ => Err TypeError
      end
  end.

(** The two debug messages about the chosen rule (corset/greedy/diversity_maximization.py:123-132): summary() reads
    precision and base rate. *)
Definition log_choice (rules : list srule) (b : bound) : result unit :=
  let! _ := true_positive_rate b in
  let! _ := base_rate b in
  let! sel := bounds_of rules in
  let! _ := marginal_coverage b sel in
  let! _ := KL b in
  Ok tt.

(** The closing message formats coverage_ratio(); nan is formatted without an exception. *)
Definition log_coverage (ord : gset Z -> list Z) (e : est gparams) : result unit :=
  match coverage_ratio ord e with
  | Ok _ | Err NonFinite => Ok tt
  | Err x => Err x
  end.

(** add_rule (corset/greedy/diversity_maximization.py:89-94, corset/greedy/submod.py:53-58) *)
Definition add_rule {W} (S : samplers W) (b : bound) : sx (gs W) unit :=
  let^ _ := on_world (tail_update S (b_support b) (py_set (r_tail (b_rule b)))) in
  smod (fun g => with_rules (g_rules g ++ [Bound b]) g).

(** [self.candidate_rules |= new]: an element equal to a present one is not replaced. *)
Definition union_rules (old new : list bound) : list bound :=
  fold_left (fun acc b => if rule_mem (b_rule b) acc then acc else acc ++ [b]) new old.

(** V2 and V3 do not keep the candidates (corset/greedy/divmax_v2.py:59-60). *)
Definition keeps_candidates (cls : greedy_class) : bool :=
  match cls with DivMaxV2 | DivMaxV3 => false | DivMax | Submod => true end.

Definition keep_candidates {W} (cls : greedy_class) (new : list bound) (g : gs W) : gs W :=
  if keeps_candidates cls
  then with_cands (option_map (fun old => union_rules old new) (g_cands g)) g
  else g.

(** The body of [while True] (corset/greedy/diversity_maximization.py:111-137, corset/greedy/divmax_v2.py:58-82, corset/greedy/submod.py:74-100):
    true means break. *)
Definition fit_round {W} (S : samplers W) (cls : greedy_class) (ord : gset Z -> list Z) (X Y : csr)
    : sx (gs W) bool :=
  let^ g0 := sget in
  let p := g_params g0 in
  let^ _ := smod tick in
  let^ got := scatch NoMoreSamples
    (let^ c := on_world (generate_candidate_rules S ord p X Y) in
     let^ _ := smod (keep_candidates cls c) in
     sret c) in
  match got with
  | None => sret true
  | Some cands =>
      let^ g := sget in
      let^ best := slift (select_best_candidate cls (p_lambd p) (g_rules g)
                            (rule_iter S (g_world g) cands)) in
      let^ _ := slift (log_choice (g_rules g) best) in
      let^ stop := slift (should_stop cls p Y (g_rules g) best) in
      if stop then sret true
      else let^ _ := add_rule S best in sret false
  end.

(** [while True], cut off after [fuel] rounds. *)
Fixpoint fit_loop {W} (S : samplers W) (cls : greedy_class) (ord : gset Z -> list Z) (X Y : csr)
    (fuel : nat) : sx (gs W) unit :=
  match fuel with
  | O => serr OutOfFuel
  | Datatypes.S fuel' =>
      let^ stop := fit_round S cls ord X Y in
      if stop then sret tt else fit_loop S cls ord X Y fuel'
  end.

(** What precedes the loop: set_X_Y, tail_sampler.fit, and resetting candidate_rules. *)
Definition fit_start {W} (S : samplers W) (cls : greedy_class) (X Y : csr) : sx (gs W) unit :=
  let^ _ := smod (fun g => with_est (set_X_Y (g_est g) X Y) g) in
  let^ _ := on_world (tail_fit S Y) in
  smod (fun g => if keeps_candidates cls then with_cands (Some []) g else g).

(** self.objective(self.selected_rules) *)
Definition objective_of_selected (cls : greedy_class) {W} (g : gs W) : result R :=
  let! sel := bounds_of (g_rules g) in objective cls (p_lambd (g_params g)) sel sel.

(** GreedyDivMaxV2.fit, inherited by V3 (corset/greedy/divmax_v2.py:51-89) *)
Definition fit_v2 {W} (S : samplers W) (cls : greedy_class) (ord : gset Z -> list Z) (fuel : nat)
    (X Y : csr) : sx (gs W) unit :=
  let^ _ := fit_start S cls X Y in
  let^ _ := fit_loop S cls ord X Y fuel in
  let^ g := sget in
  let^ o := slift (objective_of_selected cls g) in
  let^ _ := smod (with_obj o) in
  slift (log_coverage ord (g_est g)).

(** GreedySubmod.fit (corset/greedy/submod.py:66-106) *)
Definition fit_submod {W} (S : samplers W) (ord : gset Z -> list Z) (fuel : nat) (X Y : csr)
    : sx (gs W) unit :=
  let^ _ := fit_start S Submod X Y in
  let^ _ := fit_loop S Submod ord X Y fuel in
  let^ g := sget in
  slift (log_coverage ord (g_est g)).

(** GreedyDivMax.fit_1st_round (corset/greedy/diversity_maximization.py:103-145); V2 and V3 override it with a method
    that raises RuntimeError and are not meant here. *)
Definition fit_1st_round {W} (S : samplers W) (ord : gset Z -> list Z) (fuel : nat) (X Y : csr)
    : sx (gs W) (list srule) :=
  let^ _ := fit_start S DivMax X Y in
  let^ _ := fit_loop S DivMax ord X Y fuel in
  let^ g := sget in
  let^ _ := slift (log_coverage ord (g_est g)) in
  let^ o := slift (objective_of_selected DivMax g) in
  let^ _ := smod (with_obj1 o) in
  sret (g_rules g).

(** The loop of fit_2nd_round (corset/greedy/diversity_maximization.py:165-176): [n] picks left, all from the same set. *)
Fixpoint second_loop {W} (S : samplers W) (cands : list bound) (n : nat) : sx (gs W) unit :=
  match n with
  | O => sret tt
  | Datatypes.S n' =>
      let^ g := sget in
      let^ best := slift (select_best_candidate DivMax (p_lambd (g_params g)) (g_rules g)
                            (rule_iter S (g_world g) cands)) in
      let^ _ := slift (log_choice (g_rules g) best) in
      let^ _ := smod (with_rules (g_rules g ++ [Bound best])) in
      second_loop S cands n'
  end.

(** GreedyDivMax.fit_2nd_round (corset/greedy/diversity_maximization.py:148-184) *)
Definition fit_2nd_round {W} (S : samplers W) (ord : gset Z -> list Z) : sx (gs W) (list srule) :=
  let^ g := sget in
  let budget := length (g_rules g) in
  let^ _ := smod (with_round1 (g_rules g)) in
  let^ _ := smod (with_rules []) in
  match g_cands g with
  | None => serr RuntimeError
  | Some [] => serr InsufficientCandidates
  | Some cands =>
      let^ _ := second_loop S cands budget in
      let^ g' := sget in
      let^ _ := slift (log_coverage ord (g_est g')) in
      let^ o := slift (objective_of_selected DivMax g') in
      let^ _ := smod (with_obj2 o) in
      sret (g_rules g')
  end.

(** GreedyDivMax.fit (corset/greedy/diversity_maximization.py:187-207) *)
Definition fit_divmax {W} (S : samplers W) (ord : gset Z -> list Z) (fuel : nat) (X Y : csr)
    : sx (gs W) unit :=
  let^ r1 := fit_1st_round S ord fuel X Y in
  let^ r2 := fit_2nd_round S ord in
  let^ g := sget in
  match g_obj1 g, g_obj2 g with
  | Some o1, Some o2 =>
      let^ _ := smod (with_obj (Rmin o1 o2)) in
      smod (with_rules (if Rltb o2 o1 then r1 else r2))
  | _, _ => serr AttributeError
  end.

(** fit of each class *)
Definition fit {W} (S : samplers W) (cls : greedy_class) (ord : gset Z -> list Z) (fuel : nat) (X Y : csr)
    : sx (gs W) unit :=
  match cls with
  | DivMax => fit_divmax S ord fuel X Y
  | DivMaxV2 | DivMaxV3 => fit_v2 S cls ord fuel X Y
  | Submod => fit_submod S ord fuel X Y
  end.
