(** Model of corset/samplers/cftp.py, corset/samplers/boley_cftp.py and corset/samplers/discrim.py.  Weights, ratios and the uniform draws are
    real numbers.  CFTP and BoleyCFTP have the same code up to the weight W_C of a pair, so both are instances
    of one record that holds the weight function; the lines cited are those of corset/samplers/cftp.py, followed by those of
    corset/samplers/boley_cftp.py. *)
From Verif.Model Require Import PyBase PyReal Sparse Utils Graph Cliques Assign RandR.
Open Scope Z_scope.

Definition dict_get {A} (d : gmap Z A) (k : Z) : result A :=
  match d !! k with Some v => Ok v | None => Err KeyError end.

(** Attributes of a CFTP object set by __init__ (corset/samplers/cftp.py:8-34).  random_state is not used. *)
Record cftp := Cftp {
  cf_Wpos : gmap Z R;
  cf_Wneg : gmap Z R;
  cf_pos : list Z;
  cf_neg : list Z;
  cf_weight : Z -> Z -> result Z;   (* W_C of a pair *)
  cf_max_iters : Z;
  cf_pos_weights : list R;
  cf_neg_weights : list R
}.

(** CFTP.__init__ (corset/samplers/cftp.py:8-34): KeyError when a listed index has no weight.  pos_proba and
    neg_proba are computed where they are used, in [cftp_add_data]. *)
Definition cftp_init (Wpos Wneg : gmap Z R) (pos neg : list Z) (weight : Z -> Z -> result Z) (max_iters : Z)
    : result cftp :=
  let! wp := rmap (dict_get Wpos) pos in
  let! wn := rmap (dict_get Wneg) neg in
  Ok (Cftp Wpos Wneg pos neg weight max_iters wp wn).

(** BoleyCFTP.__init__ (corset/samplers/boley_cftp.py:12-42): as above with two assertions *)
Definition boley_cftp_init (Wpos Wneg : gmap Z R) (pos neg : list Z) (weight : Z -> Z -> result Z) (max_iters : Z)
    : result cftp :=
  let! c := cftp_init Wpos Wneg pos neg weight max_iters in
  if negb (forallb (Rleb 0%R) (cf_pos_weights c)) || negb (forallb (Rleb 0%R) (cf_neg_weights c))
  then Err AssertionError else Ok c.

(** weights / weights.sum() (corset/samplers/cftp.py:31-32); numpy gives nan for a zero sum, here 0/0 = 0, and
    the value is only used when the sum is not 0. *)
Definition rnormalize (ws : list R) : list R := map (fun w => w / rsum ws)%R ws.

(** The mutable attributes u_list, C_pos_list, C_neg_list. *)
Record cstate := CState { cs_u : list R; cs_pos : list Z; cs_neg : list Z }.

(** reset_state (corset/samplers/cftp.py:79-82; corset/samplers/boley_cftp.py:85-88) *)
Definition cstate_empty : cstate := CState [] [] [].

(** add_data (corset/samplers/cftp.py:36-77), expand_horizon (corset/samplers/boley_cftp.py:44-83).  A negative number of samples is a numpy ValueError. *)
Definition cftp_add_data (c : cftp) (st : cstate) (n_iters : Z) : rrand cstate :=
  let n_more := n_iters - zlen (cs_u st) in
  if n_iters <=? 0 then RFail ValueError
  else if n_more <? 0 then RFail ValueError
  else
    let* us := runiform (Z.to_nat n_more) in
    let* ps := rchoices (Z.to_nat n_more) (cf_pos c) (rnormalize (cf_pos_weights c)) in
    let* ns := rchoices (Z.to_nat n_more) (cf_neg c) (rnormalize (cf_neg_weights c)) in
    let st' := CState (us ++ cs_u st) (ps ++ cs_pos st) (ns ++ cs_neg st) in
    if negb (zlen (cs_pos st') =? n_iters) || negb (zlen (cs_neg st') =? n_iters) || negb (zlen (cs_u st') =? n_iters)
    then RFail ValueError
    else RRet st'.

(** W_C: the true weight of a pair, |pos \ neg| (corset/samplers/cftp.py:101-105) *)
Definition pair_weight (records : list (list Z)) (pos neg : Z) : result Z :=
  let! rp := py_index records pos in
  let! rn := py_index records neg in
  Ok (Z.of_nat (size (py_set rp ∖ py_set rn))).

(** W_C in BoleyCFTP (corset/samplers/boley_cftp.py:105-112): (2^|pos \ neg| - 1) * 2^|pos ∩ neg| in float64; rows are sets *)
Definition boley_pair_weight (rows : list (gset Z)) (pos neg : Z) : result Z :=
  let! rp := py_index rows pos in
  let! rn := py_index rows neg in
  Ok ((2 ^ Z.of_nat (size (rp ∖ rn)) - 1) * 2 ^ Z.of_nat (size (rp ∩ rn))).

(** One entry of the history (corset/samplers/cftp.py:109-122) *)
Record hentry := HEntry {
  he_pos : Z; he_neg : Z; he_u : R; he_D : option (Z * Z);
  he_WC : Z; he_WDbar : R; he_WCbar : R; he_WD : R; he_ratio : R }.

(** Body of the loop of simulate_backwards (corset/samplers/cftp.py:96-127; corset/samplers/boley_cftp.py:102-143); the loop state is D, W_D, W_D_bar. *)
Definition sim_step (c : cftp) (s : option (Z * Z) * R * R) (x : Z * Z * R)
    : result ((option (Z * Z) * R * R) * hentry) :=
  let '(D, WD, WDbar) := s in
  let '(pos, neg, u) := x in
  let! wp := dict_get (cf_Wpos c) pos in
  let! wn := dict_get (cf_Wneg c) neg in
  let WCbar := (wp * wn)%R in
  let! WC := cf_weight c pos neg in
  let! ratio := float_div (IZR WC * WDbar) (WCbar * WD) in
  let e := HEntry pos neg u D WC WDbar WCbar WD ratio in
  if Rltb u ratio then Ok ((Some (pos, neg), IZR WC, WCbar), e) else Ok (s, e).

(** simulate_backwards (corset/samplers/cftp.py:84-132; corset/samplers/boley_cftp.py:90-148): the final D and the history *)
Definition simulate_backwards (c : cftp) (st : cstate) : result (option (Z * Z) * list hentry) :=
  let! '(s, h) := rfold (fun sh x => let! '(s', e) := sim_step c (fst sh) x in Ok (s', snd sh ++ [e]))
                    ((None, 1%R, 1%R), []) (zip (zip (cs_pos st) (cs_neg st)) (cs_u st)) in
  Ok (fst (fst s), h).

(** What CFTP.sample returns: a pair or None, or with return_details the pair and num_iterations. *)
Inductive sample_ret :=
| RetPair (D : option (Z * Z))
| RetDetails (D : option (Z * Z)) (num_iterations : Z).
Global Instance sample_ret_eq_dec : EqDecision sample_ret.
Proof. solve_decision. Defined.

(** the loop of CFTP.sample (corset/samplers/cftp.py:140-161), which either leaves the loop with D and the last
    history (None when there is none), or returns None at once when a weight sum is 0.  The state is returned,
    too.  [fuel] bounds the number of iterations. *)
Fixpoint sample_loop (fuel : nat) (c : cftp) (i : Z) (hist : option (list hentry)) (st : cstate)
    : rrand (option (option (Z * Z) * option (list hentry)) * cstate) :=
  match fuel with
  | O => RFail OutOfFuel
  | Datatypes.S fuel' =>
      let n_iters := 2 ^ i in
      if cf_max_iters c <? n_iters then RRet (Some (None, hist), st)
      else if (if Req_EM_T (rsum (cf_pos_weights c)) 0%R then true else false)
           || (if Req_EM_T (rsum (cf_neg_weights c)) 0%R then true else false) then RRet (None, st)
      else
        let* st' := cftp_add_data c st n_iters in
        let* '(D, h) := rlift (simulate_backwards c st') in
        match D with
        | Some d => RRet (Some (Some d, Some h), st')
        | None => sample_loop fuel' c (i + 1) (Some h) st'
        end
  end.

(** CFTP.sample (corset/samplers/cftp.py:134-171; corset/samplers/boley_cftp.py:150-177); 2^i exceeds max_iters after at most max_iters + 1 rounds. *)
Definition cftp_sample (c : cftp) (details : bool) (st : cstate) : rrand (sample_ret * cstate) :=
  let* '(r, st') := sample_loop (Z.to_nat (cf_max_iters c) + 2) c 0 None st in
  match r with
  | None => RRet (RetPair None, st')
  | Some (D, hist) =>
      if details then
        match hist with
        | None => RFail UnboundLocalError
        | Some h => RRet (RetDetails D (zlen h), cstate_empty)
        end
      else RRet (RetPair D, cstate_empty)
  end.

(** CFTP.sample as seen by its caller, on an object whose lists are empty: only what is returned. *)
Definition cftp_draw (c : cftp) (details : bool) : rrand sample_ret :=
  let* '(r, _) := cftp_sample c details cstate_empty in RRet r.

(** ** CFTPDiscriminativitySampler (corset/samplers/discrim.py) *)

Inductive proposal := Tight | Original.

(** Attributes after fit (corset/samplers/discrim.py:30-42, 110-125). *)
Record cds := CDS {
  cds_space : list (gset Z);
  cds_rows : list (list Z);
  cds_pos : list Z;
  cds_neg : list Z;
  cds_weights : gmap Z R;
  cds_cftp : cftp
}.

(** _compute_pos_and_neg_info (corset/samplers/discrim.py:72-77): indices of y > 0 and y == 0, sorted *)
Definition pos_indices (y : list Z) : list Z := map fst (List.filter (fun iv => 0 <? snd iv) (enumerate y)).
Definition neg_indices (y : list Z) : list Z := map fst (List.filter (fun iv => snd iv =? 0) (enumerate y)).

(** _compute_weight_dict (corset/samplers/discrim.py:49-70) *)
Definition compute_weight_dict (pd : proposal) (N : Z) (space : list (gset Z)) (rows : list (list Z)) (pos : list Z)
    : result (gmap Z R) :=
  rfold (fun d i =>
    if bool_decide (i ∈ pos) then
      let! r := py_index rows i in
      Ok (<[i := match pd with Tight => IZR (zlen r) | Original => R_sqrt.sqrt (IZR (zlen r)) end]> d)
    else
      match pd with
      | Tight => Ok (<[i := 1%R]> d)
      | Original => let! r := py_index rows i in Ok (<[i := R_sqrt.sqrt (IZR (zlen space - zlen r))]> d)
      end) ∅ (py_range N).

(** fit (corset/samplers/discrim.py:79-125).  [cache] holds _sample_space and new_rows from an earlier fit;
    they are reused when present.  X is the data records matrix, y the labels. *)
Definition cds_fit (ord : gset Z -> list Z) (do_prune : bool) (min_proba : Qc) (pd : proposal)
    (cache : option (list (gset Z) * list (list Z))) (X : csr) (y : list Z) : result cds :=
  if negb (bool_decide (py_set y = {[ 0; 1 ]})) then Err AssertionError
  else
    let! '(space, rows) := match cache with
      | Some sr => Ok sr
      | None => let! g := build_graph X in
                let! space := build_sample_space ord g do_prune min_proba DfsV2 in
                let! rows := pretti_new_rows ord space X in
                Ok (space, rows)
      end in
    let pos := pos_indices y in
    let neg := neg_indices y in
    let! w := compute_weight_dict pd (csr_rows X) space rows pos in
    let! c := cftp_init w w pos neg (pair_weight rows) 1024 in
    Ok (CDS space rows pos neg w c).

(** sample_once (corset/samplers/discrim.py:136-163) with return_cftp_details=False: the sample index (None if
    CFTP failed).  set iteration order: [ord]. *)
Definition cds_sample_index (ord : gset Z -> list Z) (s : cds) : rrand (option Z) :=
  let* r := cftp_draw (cds_cftp s) false in
  match r with
  | RetDetails _ _ => RFail TypeError
  | RetPair None => RRet None
  | RetPair (Some (pos, neg)) =>
      let* rp := rlift (py_index (cds_rows s) pos) in
      let* rn := rlift (py_index (cds_rows s) neg) in
      let* k := py_choice (ord (py_set rp ∖ py_set rn)) in
      RRet (Some k)
  end.

Definition cds_sample_once (ord : gset Z -> list Z) (s : cds) : rrand (option (gset Z)) :=
  let* k := cds_sample_index ord s in
  match k with
  | None => RRet None
  | Some k => let* x := rlift (py_index (cds_space s) k) in RRet (Some x)
  end.

(** sample_once (corset/samplers/discrim.py:136-163) with return_sample_index=True and return_cftp_details=True: None,
    or the sample index and num_iterations.  Unpacking the None that CFTP.sample returns at once raises TypeError; a
    failure after all iterations is the pair (None, details) and gives None. *)
Definition cds_sample_details (ord : gset Z -> list Z) (s : cds) : rrand (option (Z * Z)) :=
  let* r := cftp_draw (cds_cftp s) true in
  match r with
  | RetPair _ => RFail TypeError
  | RetDetails None _ => RRet None
  | RetDetails (Some (pos, neg)) n =>
      let* rp := rlift (py_index (cds_rows s) pos) in
      let* rn := rlift (py_index (cds_rows s) neg) in
      let* k := py_choice (ord (py_set rp ∖ py_set rn)) in
      RRet (Some (k, n))
  end.

(** itertools.product(pos_list, neg_list) *)
Definition pn_pairs (s : cds) : list (Z * Z) := concat (map (fun p => map (pair p) (cds_neg s)) (cds_pos s)).

(** get_ground_truth_proba_for_pairs (corset/samplers/discrim.py:171-187) *)
Definition ground_truth_pairs (s : cds) : result (gmap (Z * Z) R) :=
  let! ct := rfold (fun dt pn =>
      let! cnt := pair_weight (cds_rows s) (fst pn) (snd pn) in
      Ok (<[pn := cnt]> (fst dt), snd dt + cnt)) ((∅ : gmap (Z * Z) Z), 0) (pn_pairs s) in
  let '(d, total) := (ct : gmap (Z * Z) Z * Z) in
  rfold (fun m kv => let! q := py_div (snd kv) total in Ok (<[fst kv := q]> m)) ∅ (map_to_list d).

(** get_ground_truth_proba_for_samples (corset/samplers/discrim.py:189-204) *)
Definition ground_truth_samples (ord : gset Z -> list Z) (s : cds) : result (gmap Z R) :=
  let! cnt := rfold (fun d pn =>
      let! rp := py_index (cds_rows s) (fst pn) in
      let! rn := py_index (cds_rows s) (snd pn) in
      Ok (fold_left (fun d k => <[k := match d !! k with Some c => c + 1 | None => 1 end]> d)
            (ord (py_set rp ∖ py_set rn)) d)) (∅ : gmap Z Z) (pn_pairs s) in
  let total := zsum (map snd (map_to_list cnt)) in
  rfold (fun m kv => let! q := py_div (snd kv) total in Ok (<[fst kv := q]> m)) ∅ (map_to_list cnt).
