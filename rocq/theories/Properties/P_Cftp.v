(** Coupling from the past (C32-C37). *)
From Coq Require Import Lra.
From Verif.Model Require Import PyBase PyReal Sparse Utils Graph Cliques Trie Assign RandR Cftp.
From Verif.Spec Require Import SMatrix SAssign SCftp.
Open Scope Z_scope.
From Verif.Proofs Require Import T_Cftp.
Open Scope Z_scope.

(** C32: whatever is drawn, CFTP.sample does not raise, and a pair it returns consists of a listed positive and a
    listed negative index and has positive target weight. *)
Theorem C32_usable_pair : forall (Wpos Wneg : gmap Z R) (pos neg : list Z) (weight : Z -> Z -> result Z) (w : Z -> Z -> Z) (max_iters : Z) (c : cftp) (o : result sample_ret),
  dominated Wpos Wneg pos neg weight w -> cftp_init Wpos Wneg pos neg weight max_iters = Ok c ->
  rcan (cftp_draw c false) o ->
  o = Ok (RetPair None) \/
  exists p n, o = Ok (RetPair (Some (p, n))) /\ p ∈ pos /\ n ∈ neg /\ 0 < w p n.
Proof. exact C32_usable_pair_proof. Qed.
Print Assumptions C32_usable_pair.

(** C33: if simulating some random history yields a pair, then the same pair is obtained with older randomness in
    front and from any starting pair of positive weight. *)
Theorem C33_coalesced : forall (Wpos Wneg : gmap Z R) (pos neg : list Z) (weight : Z -> Z -> result Z) (w : Z -> Z -> Z) (max_iters : Z) (c : cftp)
    (k : nat) (st : cstate) (d : Z * Z) (h : list hentry),
  dominated Wpos Wneg pos neg weight w -> cftp_init Wpos Wneg pos neg weight max_iters = Ok c ->
  possible_draws Wpos Wneg pos neg k st -> simulate_backwards c st = Ok (Some d, h) ->
  (forall k' old, possible_draws Wpos Wneg pos neg k' old ->
     exists h', simulate_backwards c (older_first old st) = Ok (Some d, h') /\ length h' = (k' + k)%nat) /\
  (forall p n a b, p ∈ pos -> n ∈ neg -> 0 < w p n -> Wpos !! p = Some a -> Wneg !! n = Some b ->
     exists wd wdbar, rfold (fun s x => let! '(s', _) := sim_step c s x in Ok s') (Some (p, n), IZR (w p n), (a * b)%R)
        (zip (zip (cs_pos st) (cs_neg st)) (cs_u st)) = Ok (Some d, wd, wdbar)).
Proof. exact C33_coalesced_proof. Qed.
Print Assumptions C33_coalesced.

(** C33, consequence: drawing with doubling horizons has the same law and the same possible results as simulating
    the whole horizon (the largest power of two up to max_iters) at once. *)
Theorem C33_full_horizon : forall (Wpos Wneg : gmap Z R) (pos neg : list Z) (weight : Z -> Z -> result Z) (w : Z -> Z -> Z) (max_iters k : Z) (c : cftp),
  dominated Wpos Wneg pos neg weight w -> cftp_init Wpos Wneg pos neg weight max_iters = Ok c ->
  (0 < pmass Wpos pos)%R -> (0 < pmass Wneg neg)%R -> 0 <= k -> 2 ^ k <= max_iters < 2 ^ (k + 1) ->
  (forall F v, hexpect F (cftp_draw c false) v <->
     hexpect F (let* st := cftp_add_data c cstate_empty (2 ^ k) in
                let* '(D, _) := rlift (simulate_backwards c st) in RRet (RetPair D)) v) /\
  (forall D, rcan (cftp_draw c false) (Ok (RetPair D)) <->
     exists st h, possible_draws Wpos Wneg pos neg (Z.to_nat (2 ^ k)) st /\ simulate_backwards c st = Ok (D, h)).
Proof. exact C33_full_horizon_proof. Qed.
Print Assumptions C33_full_horizon.

(** C34: CFTP.sample returns a pair with probability exactly its share of the target weight times 1-(1-q)^N, and
    None with probability (1-q)^N, where N is the largest power of two up to max_iters and q the accepted mass. *)
Theorem C34_exact : forall (Wpos Wneg : gmap Z R) (pos neg : list Z) (weight : Z -> Z -> result Z) (w : Z -> Z -> Z) (max_iters k : Z) (c : cftp),
  dominated Wpos Wneg pos neg weight w -> cftp_init Wpos Wneg pos neg weight max_iters = Ok c ->
  NoDup pos -> NoDup neg -> (0 < pmass Wpos pos)%R -> (0 < pmass Wneg neg)%R ->
  0 <= k -> 2 ^ k <= max_iters < 2 ^ (k + 1) ->
  let q := accept_mass Wpos Wneg pos neg w in
  let N := Z.to_nat (2 ^ k) in
  (0 <= q <= 1)%R /\
  (forall p n, p ∈ pos -> n ∈ neg ->
     hprob (cftp_draw c false) (Ok (RetPair (Some (p, n)))) (IZR (w p n) / IZR (total_weight w pos neg) * (1 - (1 - q) ^ N))) /\
  hprob (cftp_draw c false) (Ok (RetPair None)) ((1 - q) ^ N).
Proof. exact C34_exact_proof. Qed.
Print Assumptions C34_exact.

(** C37: bookkeeping of CFTP.sample on an object whose lists are empty.  The lists are empty again afterwards and
    nothing is raised (with return_details only when no horizon is tried); the reported number of iterations is a
    power of two up to max_iters, and on failure the largest one; data are added only in front. *)
Theorem C37_bookkeeping : forall (Wpos Wneg : gmap Z R) (pos neg : list Z) (weight : Z -> Z -> result Z) (w : Z -> Z -> Z) (max_iters : Z) (c : cftp),
  dominated Wpos Wneg pos neg weight w -> cftp_init Wpos Wneg pos neg weight max_iters = Ok c ->
  (forall details o, rcan (cftp_sample c details cstate_empty) o ->
     (o = Err UnboundLocalError /\ details = true /\ max_iters < 1) \/ exists r, o = Ok (r, cstate_empty)) /\
  (forall D n st, rcan (cftp_sample c true cstate_empty) (Ok (RetDetails D n, st)) ->
     exists j, 0 <= j /\ n = 2 ^ j /\ 2 ^ j <= max_iters /\ (D = None -> max_iters < 2 ^ (j + 1))) /\
  ((0 < pmass Wpos pos)%R -> (0 < pmass Wneg neg)%R -> forall k st n o, possible_draws Wpos Wneg pos neg k st -> Z.of_nat k <= n -> 0 < n ->
     (rcan (cftp_add_data c st n) o <->
      exists old, possible_draws Wpos Wneg pos neg (Z.to_nat n - k) old /\ o = Ok (older_first old st))).
Proof. exact C37_bookkeeping_proof. Qed.
Print Assumptions C37_bookkeeping.

(** C37, results: None is always returned if all weights of one side are zero; otherwise None can be returned exactly
    when draws over the whole horizon can occur none of whose horizons 1, 2, 4, ... up to max_iters yields a pair. *)
Theorem C37_none : forall (Wpos Wneg : gmap Z R) (pos neg : list Z) (weight : Z -> Z -> result Z) (w : Z -> Z -> Z) (max_iters : Z) (c : cftp),
  dominated Wpos Wneg pos neg weight w -> cftp_init Wpos Wneg pos neg weight max_iters = Ok c ->
  ((pmass Wpos pos = 0 \/ pmass Wneg neg = 0)%R -> forall o, rcan (cftp_draw c false) o <-> o = Ok (RetPair None)) /\
  (forall k, (0 < pmass Wpos pos)%R -> (0 < pmass Wneg neg)%R -> 0 <= k -> 2 ^ k <= max_iters < 2 ^ (k + 1) ->
     (rcan (cftp_draw c false) (Ok (RetPair None)) <->
      exists st, possible_draws Wpos Wneg pos neg (Z.to_nat (2 ^ k)) st /\
        forall j, 0 <= j <= k -> exists h, simulate_backwards c (recent (Z.to_nat (2 ^ j)) st) = Ok (None, h))).
Proof. exact C37_none_proof. Qed.
Print Assumptions C37_none.

(** C32, the head sampler: whatever is drawn, sample_once raises nothing, and the sample index it returns is in the
    row of a positive and not in the row of a negative data record. *)
Theorem C32_head_sample : forall (ord : gset Z -> list Z) (prune : bool) (alpha : Qc) (pd : proposal)
    (cache : option (list (gset Z) * list (list Z))) (X : csr) (y : list Z) (s : cds) (o : result (option Z)) (o' : result (option (gset Z))),
  set_order ord -> cds_fit ord prune alpha pd cache X y = Ok s -> fitted_rows X y s ->
  (rcan (cds_sample_index ord s) o -> o = Ok None \/
     exists k p n rp rn, o = Ok (Some k) /\ is_pos y p /\ is_neg y n /\
       cds_rows s !! Z.to_nat p = Some rp /\ cds_rows s !! Z.to_nat n = Some rn /\ k ∈ rp /\ k ∉ rn) /\
  (rcan (cds_sample_once ord s) o' -> o' = Ok None \/
     exists k x p n rp rn, o' = Ok (Some x) /\ 0 <= k /\ cds_space s !! Z.to_nat k = Some x /\ is_pos y p /\ is_neg y n /\
       cds_rows s !! Z.to_nat p = Some rp /\ cds_rows s !! Z.to_nat n = Some rn /\ k ∈ rp /\ k ∉ rn).
Proof. exact C32_head_sample_proof. Qed.
Print Assumptions C32_head_sample.

(** C32, fresh fit: on every well-formed binary matrix and labelling with both classes the sampler can be fitted, its
    rows belong to the data, and every set of items it returns is a non-empty subset of the items of a positive
    record that is not contained in some negative record. *)
Theorem C32_fresh_fit : forall (ord : gset Z -> list Z) (prune : bool) (alpha : Qc) (pd : proposal) (X : csr) (y : list Z),
  set_order ord -> wf_cmat (csr_mat X) = true -> binary (csr_mat X) -> zlen y = csr_rows X -> (forall v, v ∈ y <-> v = 0 \/ v = 1) ->
  exists s, cds_fit ord prune alpha pd None X y = Ok s /\ fitted_rows X y s /\
    forall x, rcan (cds_sample_once ord s) (Ok (Some x)) ->
      x ∈ cds_space s /\ x <> ∅ /\ exists p n, is_pos y p /\ is_neg y n /\
        (forall a, a ∈ x -> csr_has X p a) /\ ~ (forall a, a ∈ x -> csr_has X n a).
Proof. exact C32_fresh_fit_proof. Qed.
Print Assumptions C32_fresh_fit.

(** C35: for the tight and the original proposal every record has a non-negative weight, and the product of the
    weights of a positive and a negative record is at least the number of samples in the first and not the second;
    so the acceptance ratio from the initial state is at most 1. *)
Theorem C35_dominates : forall (ord : gset Z -> list Z) (prune : bool) (alpha : Qc) (pd : proposal)
    (cache : option (list (gset Z) * list (list Z))) (X : csr) (y : list Z) (s : cds) (p n : Z),
  cds_fit ord prune alpha pd cache X y = Ok s -> fitted_rows X y s -> is_pos y p -> is_neg y n ->
  exists (a b : R) (rp rn : list Z), cds_weights s !! p = Some a /\ cds_weights s !! n = Some b /\ (0 <= a)%R /\ (0 <= b)%R /\
    cds_rows s !! Z.to_nat p = Some rp /\ cds_rows s !! Z.to_nat n = Some rn /\
    let diff := IZR (zlen (List.filter (fun k => bool_decide (k ∉ rn)) rp)) in
    pair_weight (cds_rows s) p n = Ok (zlen (List.filter (fun k => bool_decide (k ∉ rn)) rp)) /\
    (diff <= a * b)%R /\ ((0 < a * b)%R -> (diff * 1 / (a * b * 1) <= 1)%R).
Proof. exact C35_dominates_proof. Qed.
Print Assumptions C35_dominates.

(** C36: sample k is returned with probability exactly its share of the total discriminativity times 1-(1-q)^1024,
    None with probability (1-q)^1024, and q > 0; discriminativity is the number of positive records containing k
    times the number of negative records not containing k. *)
Theorem C36_head_law : forall (ord : gset Z -> list Z) (prune : bool) (alpha : Qc) (pd : proposal)
    (cache : option (list (gset Z) * list (list Z))) (X : csr) (y : list Z) (s : cds),
  set_order ord -> cds_fit ord prune alpha pd cache X y = Ok s -> fitted_rows X y s ->
  let total := total_discrim (zlen (cds_space s)) (cds_rows s) y in
  let q := (IZR total / proposal_total pd (zlen (cds_space s)) (cds_rows s) y)%R in
  (total = 0 -> forall o, rcan (cds_sample_index ord s) o -> o = Ok None) /\
  (0 < total -> (0 < q <= 1)%R /\
     (forall k, hprob (cds_sample_index ord s) (Ok (Some k)) (IZR (discrim (cds_rows s) y k) / IZR total * (1 - (1 - q) ^ 1024))) /\
     hprob (cds_sample_index ord s) (Ok None) ((1 - q) ^ 1024)).
Proof. exact C36_head_law_proof. Qed.
Print Assumptions C36_head_law.

(** C36, ground truth: get_ground_truth_proba_for_samples gives every sample of positive discriminativity its share
    and no other sample, get_ground_truth_proba_for_pairs gives every pair its share, and both sum to 1; if no
    sample discriminates the former is empty and the latter raises ZeroDivisionError. *)
Theorem C36_ground_truth : forall (ord : gset Z -> list Z) (prune : bool) (alpha : Qc) (pd : proposal)
    (cache : option (list (gset Z) * list (list Z))) (X : csr) (y : list Z) (s : cds),
  set_order ord -> cds_fit ord prune alpha pd cache X y = Ok s -> fitted_rows X y s ->
  let total := total_discrim (zlen (cds_space s)) (cds_rows s) y in
  (total = 0 -> ground_truth_samples ord s = Ok ∅ /\ ground_truth_pairs s = Err ZeroDivisionError) /\
  (total <> 0 -> exists mp ms, ground_truth_pairs s = Ok mp /\ ground_truth_samples ord s = Ok ms /\
     (forall k, ms !! k = if decide (0 < discrim (cds_rows s) y k) then Some (IZR (discrim (cds_rows s) y k) / IZR total)%R else None) /\
     (forall p n rp rn, is_pos y p -> is_neg y n -> cds_rows s !! Z.to_nat p = Some rp -> cds_rows s !! Z.to_nat n = Some rn ->
        mp !! (p, n) = Some (IZR (zlen (List.filter (fun k => bool_decide (k ∉ rn)) rp)) / IZR total)%R) /\
     rsum (map snd (map_to_list ms)) = 1%R /\ rsum (map snd (map_to_list mp)) = 1%R).
Proof. exact C36_ground_truth_proof. Qed.
Print Assumptions C36_ground_truth.

(** One positive record {5,6} and two negative ones, {5} and {}; tight proposal, at most 3 iterations (horizon 2). *)
Definition exRows : list (list Z) := [[5;6]; [5]; []].
Definition exW : gmap Z R := {[0 := 2%R; 1 := 1%R; 2 := 1%R]}.
Definition exw (p n : Z) : Z := if n =? 1 then 1 else 2.
Definition exC : cftp := Cftp exW exW [0] [1;2] (pair_weight exRows) 3 [2%R] [1%R; 1%R].
Example C34_ex_init : cftp_init exW exW [0] [1;2] (pair_weight exRows) 3 = Ok exC.
Proof. vm_compute. reflexivity. Qed.
Example C34_ex_dominated : dominated exW exW [0] [1;2] (pair_weight exRows) exw.
Proof.
  assert (E0 : exW !! 0 = Some 2%R) by (vm_compute; reflexivity). assert (E1 : exW !! 1 = Some 1%R) by (vm_compute; reflexivity). assert (E2 : exW !! 2 = Some 1%R) by (vm_compute; reflexivity).
  split_and!.
  - intros p Hp. apply elem_of_list_singleton in Hp as ->. exists 2%R. split; [done|lra].
  - intros n Hn. apply elem_of_cons in Hn as [->|Hn]; [|apply elem_of_list_singleton in Hn as ->]; exists 1%R; (split; [done|lra]).
  - intros p n a b Hp Hn Ha Hb. apply elem_of_list_singleton in Hp as ->. rewrite E0 in Ha. injection Ha as <-.
    apply elem_of_cons in Hn as [->|Hn]; [|apply elem_of_list_singleton in Hn as ->]; [rewrite E1 in Hb|rewrite E2 in Hb]; injection Hb as <-;
      (split; [vm_compute; reflexivity|]); unfold exw; simpl; (split; [lia|lra]).
Qed.
Example C34_ex_mass : pmass exW [0] = 2%R /\ pmass exW [1;2] = 2%R /\ accept_mass exW exW [0] [1;2] exw = (3 / 4)%R.
Proof.
  assert (E0 : pweight exW 0 = 2%R) by (vm_compute; reflexivity). assert (E1 : pweight exW 1 = 1%R) by (vm_compute; reflexivity). assert (E2 : pweight exW 2 = 1%R) by (vm_compute; reflexivity).
  assert (M1 : pmass exW [0] = 2%R) by (unfold pmass; cbn [map]; rewrite E0; unfold rsum; simpl; lra).
  assert (M2 : pmass exW [1;2] = 2%R) by (unfold pmass; cbn [map]; rewrite E1, E2; unfold rsum; simpl; lra).
  split; [done|]. split; [done|]. unfold accept_mass. rewrite M1, M2. change (total_weight exw [0] [1;2]) with 3. lra.
Qed.
(** so the pair (0,2), which has 2 of the 3 units of weight, is drawn with probability 2/3 * 15/16 *)
Example C34_ex : hprob (cftp_draw exC false) (Ok (RetPair (Some (0, 2)))) (5 / 8) /\ hprob (cftp_draw exC false) (Ok (RetPair None)) (1 / 16).
Proof.
  destruct C34_ex_mass as (M1 & M2 & Q).
  destruct (C34_exact exW exW [0] [1;2] (pair_weight exRows) exw 3 1 exC C34_ex_dominated C34_ex_init) as (_ & H & H'); try lia.
  - apply NoDup_singleton.
  - by_compute.
  - rewrite M1. lra.
  - rewrite M2. lra.
  - rewrite Q in H, H'. change (Z.to_nat (2 ^ 1)) with 2%nat in H, H'. split.
    + replace (5 / 8)%R with (IZR (exw 0%Z 2%Z) / IZR (total_weight exw [0%Z] [1%Z; 2%Z]) * (1 - (1 - 3 / 4) ^ 2))%R; [apply H; by_compute|].
      change (exw 0 2) with 2. change (total_weight exw [0] [1;2]) with 3. lra.
    + replace (1 / 16)%R with ((1 - 3 / 4) ^ 2)%R; [exact H'|]. lra.
Qed.
(** a history that coalesces (u = 0) and one that does not (u = 3/4 against ratio 1/2) *)
Definition exHist (u : R) : cstate := CState [u] [0] [1].
Example C33_ex_draws : possible_draws exW exW [0] [1;2] 1 (exHist 0) /\ possible_draws exW exW [0] [1;2] 1 (exHist (3/4)).
Proof.
  assert (E0 : pweight exW 0 = 2%R) by (vm_compute; reflexivity). assert (E1 : pweight exW 1 = 1%R) by (vm_compute; reflexivity).
  split; (split_and!; [done|done|done|..]); intros x Hx; apply elem_of_list_singleton in Hx as ->;
    rewrite ?E0, ?E1; try lra; (split; [by_compute|lra]).
Qed.
Lemma exHist_run u : simulate_backwards exC (exHist u) = Ok (if Rltb u (1 / 2) then Some (0, 1) else None, [HEntry 0 1 u None 1 1 2 1 (1 / 2)]).
Proof.
  unfold simulate_backwards, exHist. cbn [cs_u cs_pos cs_neg zip zip_with rfold fst snd].
  unfold sim_step. change (dict_get (cf_Wpos exC) 0) with (@Ok R 2%R). change (dict_get (cf_Wneg exC) 1) with (@Ok R 1%R). 
  replace (cf_weight exC 0 1) with (@Ok Z 1) by (vm_compute; reflexivity). cbn [rbind]. unfold float_div. destruct (Req_EM_T (2 * 1 * 1) 0) as [E|_]; [lra|]. cbn [rbind].
  replace (1 * 1 / (2 * 1 * 1))%R with (1 / 2)%R by lra. replace (2 * 1)%R with 2%R by lra. destruct (Rltb u (1 / 2)); reflexivity.
Qed.
Example C33_ex : (exists h, simulate_backwards exC (exHist 0) = Ok (Some (0, 1), h)) /\ exists h, simulate_backwards exC (exHist (3/4)) = Ok (None, h).
Proof.
  rewrite !exHist_run. unfold Rltb. split.
  - destruct (Rlt_dec 0 (1 / 2)) as [_|E]; [by eexists|lra].
  - destruct (Rlt_dec (3/4) (1 / 2)) as [E|_]; [lra|by eexists].
Qed.
(** records {0,1}, {0}, {1} labelled 1, 0, 0: three samples {0}, {1}, {0,1} *)
Definition exX : csr := Csr (CMat 3 2 [0;2;3;4] [0;1;0;1] [1;1;1;1]).
Definition exy : list Z := [1;0;0].
Definition exS : cds := match cds_fit elements true 0%Qc Tight None exX exy with Ok s => s | Err _ => CDS [] [] [] [] ∅ exC end.
Example C36_ex_fit : cds_fit elements true 0%Qc Tight None exX exy = Ok exS /\ fitted_rows exX exy exS.
Proof.
  destruct (C32_fresh_fit elements true 0%Qc Tight exX exy) as (s & E & Hf & _).
  - intros s. reflexivity.
  - by_compute.
  - apply PSparse.binary_b_ok; by_compute.
  - by_compute.
  - intros v. unfold exy. rewrite !elem_of_cons, elem_of_nil. lia.
  - unfold exS. rewrite E. split; [reflexivity|exact Hf].
Qed.
(** {0,1} discriminates against both negatives, {0} and {1} against one each: total 4; q = 4/(3*2) *)
Example C36_ex : cds_space exS !! 1%nat = Some {[0;1]} /\ discrim (cds_rows exS) exy 1 = 2 /\
  total_discrim (zlen (cds_space exS)) (cds_rows exS) exy = 4 /\ pair_weight (cds_rows exS) 0 1 = Ok 2.
Proof. by_compute. Qed.
Example C36_ex_mass : proposal_total Tight (zlen (cds_space exS)) (cds_rows exS) exy = 6%R.
Proof.
  assert (E : cds_rows exS = [[0;1;2]; [0]; [2]]) by (vm_compute; reflexivity). rewrite E. unfold proposal_total, row_sum, exy.
  cbn [zip zip_with List.filter Z.ltb Z.compare snd fst map]. unfold rsum. simpl. change (zlen [0;1;2]) with 3. change (n_neg [1;0;0]) with 2. lra.
Qed.
(** hence the law: {0,1} with probability 2/4 * (1 - (1/3)^1024) *)
Example C36_ex_law : hprob (cds_sample_index elements exS) (Ok (Some 1)) (2 / 4 * (1 - (1 - 4 / 6) ^ 1024)).
Proof.
  destruct C36_ex_fit as [E Hf]. destruct C36_ex as (_ & Hd & Ht & _).
  destruct (C36_head_law elements true 0%Qc Tight None exX exy exS ltac:(intros s; reflexivity) E Hf) as [_ H]. rewrite Ht in H. destruct (H ltac:(lia)) as (_ & Hk & _).
  specialize (Hk 1). rewrite Hd, C36_ex_mass in Hk. exact Hk.
Qed.
(** if both classes have the same records nothing discriminates *)
Example C36_ex_none : total_discrim 1 [[0]; [0]] [1;0] = 0.
Proof. by_compute. Qed.
