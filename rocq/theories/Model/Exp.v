(** Model of corset/exp.py: the factories of the greedy classifiers and the two train-and-evaluate functions,
    with the constructors they call.  Not modelled: mlflow, pandas and the logger. *)
From Coq Require Import String Reals Qreals.
From stdpp Require Import strings.
From Verif.Model Require Import PyBase PyReal Sparse Utils Rand Rule GreedyBase PyState Greedy Evaluation Data.
Open Scope string_scope.
Open Scope list_scope.
Open Scope Z_scope.

(** Python values, as far as they can be hyperparameters or attributes of a new object.  Floats are exact
    rationals (0.8 is 4/5); an object is its class name and its __dict__ in insertion order; [VOther] stands
    for every other value (numbered to keep different ones apart). *)
Inductive pyval :=
| VNone
| VBool (b : bool)
| VInt (z : Z)
| VFloat (q : Qc)
| VStr (s : string)
| VList (l : list pyval)
| VObj (cls : string) (attrs : list (string * pyval))
| VOther (id : Z).

(** config: dict, with keys that are strings *)
Definition config := gmap string pyval.

(** config.get(key, default) *)
Definition cfg_get (c : config) (key : string) (d : pyval) : pyval := default d (c !! key).

(** d.update(kv): the pairs are stored one after the other *)
Definition dict_update (d : list (string * pyval)) (kv : list (string * pyval)) : list (string * pyval) :=
  fold_left (fun acc p => od_set acc (fst p) (snd p)) kv d.

(** The class attributes of Default, V2Default and V3Default (corset/exp.py:12-30) *)
Record defaults := Defaults {
  d_min_feature_proba : pyval;
  d_min_label_proba : pyval;
  d_lambd : pyval;
  d_n_max_rules : pyval;
  d_n_tails_per_iter : pyval;
  d_n_heads_per_tail : pyval;
  d_tolerance : pyval }.

Definition Default : defaults := {|
  d_min_feature_proba := VFloat (Q2Qc (8 # 10));
  d_min_label_proba := VFloat (Q2Qc (8 # 10));
  d_lambd := VFloat (Q2Qc 10);
  d_n_max_rules := VNone;
  d_n_tails_per_iter := VInt 100;
  d_n_heads_per_tail := VInt 10;
  d_tolerance := VFloat (Q2Qc (1 # 1000)) |}.

(** class V2Default(Default) overrides n_max_rules *)
Definition V2Default : defaults := {|
  d_min_feature_proba := d_min_feature_proba Default;
  d_min_label_proba := d_min_label_proba Default;
  d_lambd := d_lambd Default;
  d_n_max_rules := VInt 10;
  d_n_tails_per_iter := d_n_tails_per_iter Default;
  d_n_heads_per_tail := d_n_heads_per_tail Default;
  d_tolerance := d_tolerance Default |}.

(** class V3Default(V2Default) overrides nothing *)
Definition V3Default : defaults := V2Default.

(** ** Constructors.  Each takes the values of its parameters, with the defaults of the signature where the
    factories pass nothing. *)

(** CFTPDiscriminativitySampler.__init__ (corset/samplers/discrim.py:30-42) *)
Definition new_cftp_sampler (do_prune_edges min_proba proposal_distribution random_state : pyval) : result pyval :=
  match proposal_distribution with
  | VStr s =>
      if String.eqb s "tight" || String.eqb s "original" then
        Ok (VObj "CFTPDiscriminativitySampler"
              [("random_state", random_state); ("dfs_backend", VStr "dfs_v2"); ("do_prune_edges", do_prune_edges);
               ("min_proba", min_proba); ("proposal_distribution", proposal_distribution);
               ("_sample_space", VNone); ("_positives", VNone); ("N", VInt 0)])
      else Err AssertionError
  | _ => Err AssertionError
  end.

(** UncoveredAreaSampler.__init__ (corset/samplers/uncovered_area.py:129-141) *)
Definition new_ua_sampler (random_state min_proba do_prune_edges dfs_backend : pyval) : pyval :=
  VObj "UncoveredAreaSampler"
    (dict_update [] [("random_state", random_state); ("min_proba", min_proba); ("do_prune_edges", do_prune_edges);
                     ("dfs_backend", dfs_backend); ("update_history", VList [])]).

(** GreedyBase.__init__(self) (corset/greedy/base.py:41-53), on the __dict__ of self *)
Definition greedy_base_init (d : list (string * pyval)) : list (string * pyval) :=
  let d := dict_update d [("random_state", VNone)] in
  dict_update d [("selected_rules", VList []); ("_num_labels", VNone); ("_num_features", VNone)].

(** RuleSampler.__init__(self, head_sampler, tail_sampler) (corset/greedy/base.py:11-17) *)
Definition rule_sampler_init (head_sampler tail_sampler : pyval) (d : list (string * pyval)) : list (string * pyval) :=
  dict_update d [("head_sampler", head_sampler); ("tail_sampler", tail_sampler)].

(** GreedyDivMax.__init__ (corset/greedy/diversity_maximization.py:14-42) *)
Definition new_div_max (head_sampler tail_sampler lambd n_tails_per_iter n_heads_per_tail n_max_rules tolerance : pyval) : pyval :=
  let d := dict_update [] [("head_sampler", head_sampler); ("tail_sampler", tail_sampler); ("lambd", lambd);
                           ("n_tails_per_iter", n_tails_per_iter); ("n_heads_per_tail", n_heads_per_tail);
                           ("n_max_rules", n_max_rules); ("tolerance", tolerance)] in
  VObj "GreedyDivMax" (rule_sampler_init head_sampler tail_sampler (greedy_base_init d)).

(** GreedyCFTPDivMaxV2.__init__ (corset/greedy/divmax_v2.py:93-113) and GreedyCFTPDivMaxV3.__init__
    (corset/greedy/divmax_v3.py:17-37), which have the same text; [cls] is the class. *)
Definition new_cftp_div_max (cls : string)
    (min_feature_proba min_label_proba lambd n_tails_per_iter n_heads_per_tail n_max_rules : pyval) : result pyval :=
  let d := dict_update [] [("min_feature_proba", min_feature_proba); ("min_label_proba", min_label_proba);
                           ("lambd", lambd); ("n_tails_per_iter", n_tails_per_iter);
                           ("n_heads_per_tail", n_heads_per_tail); ("n_max_rules", n_max_rules)] in
  let! head_sampler := new_cftp_sampler (VBool true) min_feature_proba (VStr "tight") VNone in
  let tail_sampler := new_ua_sampler (VInt 12345) min_label_proba (VBool true) (VStr "dfs_v2") in
  Ok (VObj cls (rule_sampler_init head_sampler tail_sampler (greedy_base_init d))).

(** ** Factories *)

(** create_greedy_from_config (corset/exp.py:72-104) *)
Definition create_greedy_from_config (c : config) : result pyval :=
  let min_feature_proba := cfg_get c "min_feature_proba" (d_min_feature_proba Default) in
  let min_label_proba := cfg_get c "min_label_proba" (d_min_label_proba Default) in
  let lambd := cfg_get c "lambd" (d_lambd Default) in
  let n_tails_per_iter := cfg_get c "n_tails_per_iter" (d_n_tails_per_iter Default) in
  let n_heads_per_tail := cfg_get c "n_heads_per_tail" (d_n_heads_per_tail Default) in
  let tolerance := cfg_get c "tolerance" (d_tolerance Default) in
  let n_max_rules := cfg_get c "n_max_rules" (d_n_max_rules Default) in
  let! head_sampler := new_cftp_sampler (VBool true) min_feature_proba (VStr "tight") VNone in
  let tail_sampler := new_ua_sampler (VInt 12345) min_label_proba (VBool true) (VStr "dfs_v2") in
  Ok (new_div_max head_sampler tail_sampler lambd n_tails_per_iter n_heads_per_tail n_max_rules tolerance).

(** create_greedy_v2_from_config (corset/exp.py:106-123) *)
Definition create_greedy_v2_from_config (c : config) : result pyval :=
  let min_feature_proba := cfg_get c "min_feature_proba" (d_min_feature_proba V2Default) in
  let min_label_proba := cfg_get c "min_label_proba" (d_min_label_proba V2Default) in
  let lambd := cfg_get c "lambd" (d_lambd V2Default) in
  let n_tails_per_iter := cfg_get c "n_tails_per_iter" (d_n_tails_per_iter V2Default) in
  let n_heads_per_tail := cfg_get c "n_heads_per_tail" (d_n_heads_per_tail V2Default) in
  let n_max_rules := cfg_get c "n_max_rules" (d_n_max_rules V2Default) in
  new_cftp_div_max "GreedyCFTPDivMaxV2" min_feature_proba min_label_proba lambd n_tails_per_iter n_heads_per_tail
    n_max_rules.

(** create_greedy_v3_from_config (corset/exp.py:126-143) *)
Definition create_greedy_v3_from_config (c : config) : result pyval :=
  let min_feature_proba := cfg_get c "min_feature_proba" (d_min_feature_proba V3Default) in
  let min_label_proba := cfg_get c "min_label_proba" (d_min_label_proba V3Default) in
  let lambd := cfg_get c "lambd" (d_lambd V3Default) in
  let n_tails_per_iter := cfg_get c "n_tails_per_iter" (d_n_tails_per_iter V3Default) in
  let n_heads_per_tail := cfg_get c "n_heads_per_tail" (d_n_heads_per_tail V3Default) in
  let n_max_rules := cfg_get c "n_max_rules" (d_n_max_rules V3Default) in
  new_cftp_div_max "GreedyCFTPDivMaxV3" min_feature_proba min_label_proba lambd n_tails_per_iter n_heads_per_tail
    n_max_rules.

(** create_greedy_clf_from_config_by_version (corset/exp.py:146-153) *)
Definition create_greedy_clf_from_config_by_version (c : config) (greedy_version : string) : result pyval :=
  if negb (String.eqb greedy_version "v2" || String.eqb greedy_version "v3") then Err AssertionError
  else if String.eqb greedy_version "v2" then create_greedy_v2_from_config c
  else if String.eqb greedy_version "v3" then create_greedy_v3_from_config c
  else Err UnboundLocalError.

(** ** Training and evaluation *)

(** obj.name *)
Definition attr (v : pyval) (name : string) : result pyval :=
  match v with
  | VObj _ attrs => match find (fun p => String.eqb name (fst p)) attrs with Some p => Ok (snd p) | None => Err AttributeError end
  | _ => Err AttributeError
  end.

(** Hyperparameters as numbers.  Numbers in other roles (a float n_max_rules, say) and values of other types are
    not modelled: the TypeError here stands for whatever happens then. *)
Definition as_real (v : pyval) : result R :=
  match v with
  | VInt z => Ok (IZR z)
  | VFloat q => Ok (Q2R (this q))
  | _ => Err TypeError
  end.
Definition as_int (v : pyval) : result Z := match v with VInt z => Ok z | _ => Err TypeError end.
Definition as_opt_int (v : pyval) : result (option Z) :=
  match v with VNone => Ok None | VInt z => Ok (Some z) | _ => Err TypeError end.

(** The parameters fit reads from a GreedyCFTPDivMaxV2 or V3 object; tolerance does not exist there and is not
    read (Model/Greedy.v, should_stop). *)
Definition read_params (clf : pyval) : result gparams :=
  let! lambd := attr clf "lambd" in
  let! lambd := as_real lambd in
  let! n_tails := attr clf "n_tails_per_iter" in
  let! n_tails := as_int n_tails in
  let! n_heads := attr clf "n_heads_per_tail" in
  let! n_heads := as_int n_heads in
  let! n_max := attr clf "n_max_rules" in
  let! n_max := as_opt_int n_max in
  Ok (GParams lambd n_tails n_heads n_max 0).

(** The class whose fit runs *)
Definition read_class (clf : pyval) : result greedy_class :=
  match clf with
  | VObj cls _ => if String.eqb cls "GreedyCFTPDivMaxV2" then Ok DivMaxV2
                  else if String.eqb cls "GreedyCFTPDivMaxV3" then Ok DivMaxV3 else Err AttributeError
  | _ => Err AttributeError
  end.

(** A value of the dictionary of results: a score, the coverage ratio (nan is None), or the number of rules *)
Inductive perf_val := Score (q : Qc) | Coverage (r : option R) | Count (n : Z).

(** The evaluation in train_greedy_and_eval (corset/exp.py:48-53) and train_and_eval (:64-68): predict on
    the target, report all metrics (Evaluator() has all eight), then the two extra entries.  coverage_ratio is
    nan when there is no label at all; the models of the metrics raise no NonFinite. *)
Definition evaluate {P} (ord : gset Z -> list Z) (e : est P) (target : csr * csr) : result (list (string * perf_val)) :=
  let! pred := predict e (fst target) in
  let! perf := report available_metrics pred (snd target) in
  let perf := map (fun p => (fst p, Score (snd p))) perf in
  let! cov := match coverage_ratio ord e with Ok v => Ok (Some v) | Err NonFinite => Ok None | Err x => Err x end in
  let perf := od_set perf "coverage" (Coverage cov) in
  Ok (od_set perf "n_rules" (Count (zlen (e_rules e)))).

Section Train.
  Context {W : Type}.
  (** What the two sampler objects of a classifier do, and the state of the world before fit. *)
  Context (S : pyval -> pyval -> samplers W) (w0 : W).
  Context (ord : gset Z -> list Z) (fuel : nat).
  (** ds.load() *)
  Context (ds_load : sx dataset unit).

  (** ds.dev_X, ds.dev_Y *)
  Definition get_dev : sx dataset (csr * csr) :=
    let^ d := sget in match ds_dev d with Some v => sret v | None => serr AttributeError end.

  (** train_greedy_and_eval (corset/exp.py:33-55): the classifier and the results; the state is the dataset. *)
  Definition train_greedy_and_eval (c : config) (greedy_version : string) (validation_mode : bool)
      : sx dataset (gs W * list (string * perf_val)) :=
    let^ _ := ds_load in
    let^ clf := slift (create_greedy_clf_from_config_by_version c greedy_version) in
    let^ cls := slift (read_class clf) in
    let^ p := slift (read_params clf) in
    let^ head_sampler := slift (attr clf "head_sampler") in
    let^ tail_sampler := slift (attr clf "tail_sampler") in
    let^ trn := get_trn in
    match fit (S head_sampler tail_sampler) cls ord fuel (fst trn) (snd trn) (new_classifier p w0) with
    | (Err e, _) => serr e
    | (Ok _, g) =>
        let^ target := if validation_mode then get_dev else get_tst in
        let^ perf := slift (evaluate ord (g_est g) target) in
        sret (g, perf)
    end.

  (** train_and_eval (corset/exp.py:57-69) with a greedy classifier object [g] of class [cls] and its samplers *)
  Definition train_and_eval (Sg : samplers W) (cls : greedy_class) (g : gs W) : sx dataset (gs W * list (string * perf_val)) :=
    let^ _ := ds_load in
    let^ trn := get_trn in
    match fit Sg cls ord fuel (fst trn) (snd trn) g with
    | (Err e, _) => serr e
    | (Ok _, g') =>
        let^ target := get_tst in
        let^ perf := slift (evaluate ord (g_est g') target) in
        sret (g', perf)
    end.
End Train.
