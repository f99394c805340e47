(** Model of the classifiers with their own samplers (GreedyCFTPDivMax, GreedyCFTPDivMaxV2, GreedyCFTPDivMaxV3): an
    UncoveredAreaSampler for the tails and a CFTPDiscriminativitySampler for the heads.  The random numbers of a run are a
    sequence of reals in [0,1), one per draw: numpy and random map each to an index by the cumulative probabilities.  Quantifying
    over the sequence covers all random outcomes; that different generators supply them is not modelled. *)
From Coq Require Import QArith.Qcanon Qreals.
From Verif.Model Require Import PyBase PyReal Sparse Utils Graph Cliques Assign Rand RandR Uncovered Cftp GreedyHead Repeat Rule GreedyBase PyState Greedy.
Open Scope Z_scope.

Definition tape := nat -> R.
Definition tape_tl (t : tape) : tape := fun n => t (Datatypes.S n).

(** np.random.choice with p: the number of cumulative sums that are <= u (cdf.searchsorted(u, side='right')) *)
Fixpoint inv_cdf (ps : list R) (u : R) : nat :=
  match ps with
  | [] => 0
  | p :: ps' => if Rltb u p then 0 else Datatypes.S (inv_cdf ps' (u - p)%R)
  end.

(** running a randomised computation on the sequence *)
Fixpoint run_rand {A} (m : rand A) (t : tape) : result A * tape :=
  match m with
  | Ret a => (Ok a, t)
  | Fail e => (Err e, t)
  | Choose ps k => run_rand (k (inv_cdf (map (fun p : Qc => Q2R p) ps) (t O))) (tape_tl t)
  end.
Fixpoint run_rrand {A} (m : rrand A) (t : tape) : result A * tape :=
  match m with
  | RRet a => (Ok a, t)
  | RFail e => (Err e, t)
  | RChoose ps k => run_rrand (k (inv_cdf ps (t O))) (tape_tl t)
  | RUnif k => run_rrand (k (t O)) (tape_tl t)
  end.

(** The two sampler objects: the tail sampler once fitted (its update_history before that is empty), the _sample_space and
    new_rows of the head sampler once fitted, the head sampler's current fit with the lists of its CFTP object, and the random
    numbers to come. *)
Record world := World {
  wd_tail : option ua;
  wd_cache : option (list (gset Z) * list (list Z));
  wd_head : option (cds * cstate);
  wd_tape : tape
}.

(** newly constructed samplers (corset/samplers/uncovered_area.py:129-141, corset/samplers/discrim.py:29-43) *)
Definition new_world (t : tape) : world := World None None None t.

(** UncoveredAreaSampler.fit (corset/samplers/uncovered_area.py:146-152): pruning and dfs_v2 are the defaults *)
Definition c_tail_fit (ord : gset Z -> list Z) (alpha : Qc) (Y : csr) : sx world unit := fun w =>
  match ua_fit ord true alpha DfsV2 (match wd_tail w with Some st => ua_history st | None => [] end) Y with
  | Ok st => (Ok tt, World (Some st) (wd_cache w) (wd_head w) (wd_tape w))
  | Err e => (Err e, w)
  end.

(** sample_once (corset/samplers/surs.py:36-42) *)
Definition c_tail_sample_once : sx world (gset Z) := fun w =>
  match wd_tail w with
  | None => (Err AttributeError, w)
  | Some st => let '(r, t) := run_rand (ua_sample_once st) (wd_tape w) in (r, World (wd_tail w) (wd_cache w) (wd_head w) t)
  end.

(** update_row_weights (corset/samplers/uncovered_area.py:55-67) as called by add_rule *)
Definition c_tail_update (ord : gset Z -> list Z) (supp tail : gset Z) : sx world unit := fun w =>
  match wd_tail w with
  | None => (Err AttributeError, w)
  | Some st =>
      match update_row_weights ord st (ord supp, tail) with
      | Ok st' => (Ok tt, World (Some st') (wd_cache w) (wd_head w) (wd_tape w))
      | Err e => (Err e, w)
      end
  end.

(** CFTPDiscriminativitySampler.fit (corset/samplers/discrim.py:79-125) with pruning and the tight proposal; the labels are
    booleans, which equal 0 and 1.  The sample space and the new rows are kept by the first fit. *)
Definition c_head_fit (ord : gset Z -> list Z) (alpha : Qc) (X : csr) (y : list bool) : sx world unit := fun w =>
  match cds_fit ord true alpha Tight (wd_cache w) X (map Z.b2z y) with
  | Ok s => (Ok tt, World (wd_tail w) (Some (cds_space s, cds_rows s)) (Some (s, cstate_empty)) (wd_tape w))
  | Err e => (Err e, w)
  end.

(** sample_once (corset/samplers/discrim.py:136-163) without flags, on the object *)
Definition cds_value_st (ord : gset Z -> list Z) (s : cds) (st : cstate) : rrand (option (gset Z) * cstate) :=
  let* '(k, st') := cds_once_st ord s st in
  match k with
  | None => RRet (None, st')
  | Some k => let* x := rlift (py_index (cds_space s) k) in RRet (Some x, st')
  end.

(** sample (corset/samplers/discrim.py:165-169) *)
Definition c_head_sample (ord : gset Z -> list Z) (n : Z) : sx world (list (option (gset Z))) := fun w =>
  match wd_head w with
  | None => (Err AttributeError, w)
  | Some (s, st) =>
      let '(r, t) := run_rrand (repeat_st (Z.to_nat n) (cds_value_st ord s) st) (wd_tape w) in
      match r with
      | Ok (hs, st') => (Ok hs, World (wd_tail w) (wd_cache w) (Some (s, st')) t)
      | Err e => (Err e, World (wd_tail w) (wd_cache w) (Some (s, st)) t)
      end
  end.

(** the samplers of GreedyCFTPDivMax (corset/greedy/diversity_maximization.py:229-232), GreedyCFTPDivMaxV2
    (corset/greedy/divmax_v2.py:110-113) and GreedyCFTPDivMaxV3 (corset/greedy/divmax_v3.py:34-37).  [rord] is the iteration order
    of a set of rules. *)
Definition cftp_samplers (ord : gset Z -> list Z) (rord : list bound -> list bound) (min_feature_proba min_label_proba : Qc)
    : samplers world :=
  Samplers (c_tail_fit ord min_label_proba) c_tail_sample_once (c_tail_update ord)
    (c_head_fit ord min_feature_proba) (c_head_sample ord) (fun _ => rord).

(** fit of a GreedyCFTP* object *)
Definition cftp_fit (cls : greedy_class) (ord : gset Z -> list Z) (rord : list bound -> list bound)
    (min_feature_proba min_label_proba : Qc) (fuel : nat) (X Y : csr) : sx (gs world) unit :=
  fit (cftp_samplers ord rord min_feature_proba min_label_proba) cls ord fuel X Y.
