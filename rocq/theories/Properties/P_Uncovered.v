(** Properties of the uncovered-area tail sampler and of the frequency sampler (C27-C31, C61). *)
From Verif.Model Require Import PyBase Sparse Utils Graph Cliques Trie Assign Rand Uncovered.
From Verif.Spec Require Import SMatrix SUncovered.
Open Scope Z_scope.
From Verif.Proofs Require Import T_Uncovered.
Open Scope Z_scope.

(** C27. After fit (on any sample space and assignment) and any sequence of updates, row i's weight is the
    number of still uncovered elements summed over its samples, hence not negative, and drawing from a row
    never raises anything but NoMoreSamples. *)
Theorem C27_weights_exact : forall (ord : gset Z -> list Z) (space : list (gset Z)) (rows : list (list Z))
    (ups : list (list Z * gset Z)),
  set_order ord -> valid_rows space rows -> valid_updates (zlen rows) ups ->
  exists st0 st, assign_row_weights ord space rows [] = Ok st0 /\ rfold (update_row_weights ord) st0 ups = Ok st /\
    zlen (ua_weights st) = zlen rows /\
    forall i row, 0 <= i -> rows !! Z.to_nat i = Some row ->
      (exists w, ua_weights st !! Z.to_nat i = Some w /\ 0 <= w /\
         w = zsum (map (fun s => Z.of_nat (size (uncovered ups i s))) (samples space row))) /\
      (forall e, can (ua_sample_from_row st i) (Err e) -> e = NoMoreSamples).
Proof. exact C27_weights_exact_proof. Qed.
Print Assumptions C27_weights_exact.

(** C28. sample_once can raise NoMoreSamples iff every element of every row's samples is covered, and then
    nothing else can happen; any returned sample belongs to some row that has an uncovered element in it;
    no other exception occurs; and every such sample can be returned.  (There is at least one row.) *)
Theorem C28_stops_when_covered : forall (ord : gset Z -> list Z) (space : list (gset Z)) (rows : list (list Z))
    (ups : list (list Z * gset Z)),
  set_order ord -> valid_rows space rows -> valid_updates (zlen rows) ups -> rows <> [] ->
  exists st0 st, assign_row_weights ord space rows [] = Ok st0 /\ rfold (update_row_weights ord) st0 ups = Ok st /\
    let all_covered := forall i row s x, 0 <= i -> rows !! Z.to_nat i = Some row -> s ∈ samples space row ->
                         x ∈ (s : gset Z) -> covered ups i x in
    (can (ua_sample_once st) (Err NoMoreSamples) <-> all_covered) /\
    (all_covered -> forall o, can (ua_sample_once st) o -> o = Err NoMoreSamples) /\
    (forall e, can (ua_sample_once st) (Err e) -> e = NoMoreSamples) /\
    (forall s, can (ua_sample_once st) (Ok s) <->
       exists i row x, 0 <= i /\ rows !! Z.to_nat i = Some row /\ s ∈ samples space row /\ x ∈ s /\ ~ covered ups i x) /\
    (forall i row s, 0 <= i -> rows !! Z.to_nat i = Some row -> can (ua_sample_from_row st i) (Ok s) ->
       s ∈ samples space row /\ exists x, x ∈ s /\ ~ covered ups i x).
Proof. exact C28_stops_when_covered_proof. Qed.
Print Assumptions C28_stops_when_covered.

(** C29. With something left uncovered, sample_once returns s with probability (uncovered elements of s summed
    over the rows that have s) / (the same over all samples of all rows). *)
Theorem C29_proportional : forall (ord : gset Z -> list Z) (space : list (gset Z)) (rows : list (list Z))
    (ups : list (list Z * gset Z)) (s : gset Z),
  set_order ord -> valid_rows space rows -> valid_updates (zlen rows) ups -> 0 < total_area space ups rows ->
  exists st0 st, assign_row_weights ord space rows [] = Ok st0 /\ rfold (update_row_weights ord) st0 ups = Ok st /\
    prob (ua_sample_once st) (Ok s)
    = (Qc_of_Z (sample_area space ups rows s) / Qc_of_Z (total_area space ups rows))%Qc.
Proof. exact C29_proportional_proof. Qed.
Print Assumptions C29_proportional.

(** C29, for the sampler fitted on any 0/1 label matrix: the probability of sample s is proportional to the
    number of its uncovered label occurrences, i.e. over the rows whose labels include s. *)
Theorem C29_fitted : forall (ord : gset Z -> list Z) (Y : csr) (prune : bool) (alpha : Qc) (b : backend)
    (ups : list (list Z * gset Z)) (rowset : Z -> gset Z),
  set_order ord -> wf_cmat (csr_mat Y) = true -> binary (csr_mat Y) -> b <> OtherBackend ->
  valid_updates (csr_rows Y) ups ->
  (forall i a, 0 <= i < csr_rows Y -> (a ∈ rowset i <-> csr_has Y i a)) ->
  exists st0 st, ua_fit ord prune alpha b [] Y = Ok st0 /\ rfold (update_row_weights ord) st0 ups = Ok st /\
    let area_of s := zsum (map (fun i => if decide (s ⊆ rowset i) then area ups i s else 0) (py_range (csr_rows Y))) in
    let total := zsum (map area_of (ua_space st)) in
    0 < total ->
    forall s, s ∈ ua_space st -> prob (ua_sample_once st) (Ok s) = (Qc_of_Z (area_of s) / Qc_of_Z total)%Qc.
Proof. exact C29_fitted_proof. Qed.
Print Assumptions C29_fitted.

(** C30. Run the same updates with update_row_weights and with update_row_weights_naive: every row's naive
    weight is at most the exact one, the two are equal iff no element of the row's samples was covered more
    than once in that row, and the naive weight is size minus number of times covered, summed. *)
Theorem C30_naive_vs_fast : forall (ord : gset Z -> list Z) (space : list (gset Z)) (rows : list (list Z))
    (ups : list (list Z * gset Z)),
  set_order ord -> valid_rows space rows -> valid_updates (zlen rows) ups ->
  exists st0 fast naive, assign_row_weights ord space rows [] = Ok st0 /\
    rfold (update_row_weights ord) st0 ups = Ok fast /\ rfold (update_row_weights_naive ord) st0 ups = Ok naive /\
    forall i row, 0 <= i -> rows !! Z.to_nat i = Some row ->
      exists wf wn, ua_weights fast !! Z.to_nat i = Some wf /\ ua_weights naive !! Z.to_nat i = Some wn /\
        wn <= wf /\
        (wn = wf <-> forall s x, s ∈ samples space row -> x ∈ (s : gset Z) -> times_covered ups i x <= 1) /\
        wn = zsum (map (fun s => zsum (map (fun x => 1 - times_covered ups i x) (elements s))) (samples space row)).
Proof. exact C30_naive_vs_fast_proof. Qed.
Print Assumptions C30_naive_vs_fast.

(** C31. Fit, run updates, and fit again (on any label matrix): the old updates stay in the history although
    the weights are recomputed from scratch.  So drawing from a row of weight 1..99999 with an element covered
    by an old update raises the mismatch exception, for every random outcome, and since such a row has
    positive probability, sample_once can raise it. *)
Theorem C31_refit_breaks : forall (ord : gset Z -> list Z) (prune : bool) (alpha : Qc) (b : backend) (Y Y' : csr)
    (ups : list (list Z * gset Z)),
  set_order ord -> b <> OtherBackend ->
  wf_cmat (csr_mat Y) = true -> binary (csr_mat Y) -> wf_cmat (csr_mat Y') = true -> binary (csr_mat Y') ->
  valid_updates (csr_rows Y) ups ->
  exists st0 st1 st2, ua_fit ord prune alpha b [] Y = Ok st0 /\ rfold (update_row_weights ord) st0 ups = Ok st1 /\
    ua_fit ord prune alpha b (ua_history st1) Y' = Ok st2 /\
    forall i row s x w, 0 <= i -> ua_rows st2 !! Z.to_nat i = Some row -> ua_weights st2 !! Z.to_nat i = Some w ->
      s ∈ samples (ua_space st2) row -> x ∈ (s : gset Z) -> covered ups i x -> w < 100000 ->
      (forall o, can (ua_sample_from_row st2 i) o <-> o = Err GenericException) /\
      can (ua_sample_once st2) (Err GenericException).
Proof. exact C31_refit_breaks_proof. Qed.
Print Assumptions C31_refit_breaks.

(** C61. PCFrequencySampler, fitted on any 0/1 label matrix with at least one label occurrence, returns each
    sample of its sample space with probability support / (total support of all samples). *)
Theorem C61_frequency : forall (ord : gset Z -> list Z) (hord : hits -> list (option (list Z))) (Y : csr) (prune : bool)
    (alpha : Qc) (b : backend) (rowset : Z -> gset Z),
  set_order ord -> (forall h, hord h ≡ₚ elements h) -> wf_cmat (csr_mat Y) = true -> binary (csr_mat Y) -> b <> OtherBackend ->
  (forall i a, 0 <= i < csr_rows Y -> (a ∈ rowset i <-> csr_has Y i a)) ->
  (exists i a, csr_has Y i a) ->
  exists space rows probas, pcf_fit ord hord prune alpha b Y = Ok (space, rows, probas) /\
    let supp s := zsum (map (fun i => if decide (s ⊆ rowset i) then 1 else 0) (py_range (csr_rows Y))) in
    let total := zsum (map supp space) in
    0 < total /\
    (forall s, s ∈ space -> prob (pcf_sample_once (space, rows, probas)) (Ok s) = (Qc_of_Z (supp s) / Qc_of_Z total)%Qc) /\
    (forall o, can (pcf_sample_once (space, rows, probas)) o -> exists s, o = Ok s /\ s ∈ space /\ 0 < supp s).
Proof. exact C61_frequency_proof. Qed.
Print Assumptions C61_frequency.

Definition exS : list (gset Z) := [{[0;1]}; {[1]}; {[2]}].
Definition exR : list (list Z) := [[0;1]; [1;2]; []].
Definition exUps : list (list Z * gset Z) := [([0;1], {[1]}); ([0], {[1;2]})].
Definition no_ua : ua := UA [] [] [] [] [] [].
Definition get {A} (d : A) (r : result A) : A := match r with Ok a => a | Err _ => d end.
Definition exSt : result ua := let! st := assign_row_weights elements exS exR [] in rfold (update_row_weights elements) st exUps.
Example C27_ex : valid_rows exS exR /\ valid_updates (zlen exR) exUps /\ ua_weights (get no_ua exSt) = [1; 1; 0].
Proof.
  split; [|split; [|by_compute]].
  - intros row k Hr. revert k. assert (Forall (fun row => Forall (fun k => 0 <= k < 3) row) exR) as H by by_compute.
    rewrite list.Forall_forall in H. specialize (H row Hr). rewrite list.Forall_forall in H. exact H.
  - intros A T i Hu. revert i. assert (Forall (fun u : list Z * gset Z => Forall (fun i => 0 <= i < 3) (fst u)) exUps) as H by by_compute.
    rewrite list.Forall_forall in H. specialize (H _ Hu). rewrite list.Forall_forall in H. exact H.
Qed.
(** {0,1} has its 0 left in row 0 and {2} is left in row 1; {1} is used up *)
Example C29_ex : prob (ua_sample_once (get no_ua exSt)) (Ok {[0;1]}) = (1 / Qc_of_Z 2)%Qc /\
  prob (ua_sample_once (get no_ua exSt)) (Ok {[1]}) = 0%Qc /\ total_area exS exUps exR = 2.
Proof. by_compute. Qed.
(** everything covered: no more samples *)
Example C28_ex : ua_sample_from_row (get no_ua (let! st := exSt in update_row_weights elements st ([0; 1], {[0; 2]}))) 0 = Fail NoMoreSamples /\
  total_area exS (exUps ++ [([0; 1], {[0; 2]})]) exR = 0.
Proof. split; [vm_compute; reflexivity|by_compute]. Qed.
(** the second update covers 1 again in row 0: the naive weight drops to -1 *)
Example C30_ex : ua_weights (get no_ua (let! st := assign_row_weights elements exS exR [] in
                                        rfold (update_row_weights_naive elements) st exUps)) = [-1; 1; 0] /\
  times_covered exUps 0 1 = 2.
Proof. by_compute. Qed.
(** two labels sharing a row *)
Definition exY : csr := Csr (CMat 2 2 [0;2;3] [0;1;1] [1;1;1]).
Definition exRefit : ua := get no_ua (let! st0 := ua_fit elements true 0%Qc DfsV2 [] exY in
                        let! st1 := update_row_weights elements st0 ([0], {[1]}) in
                        ua_fit elements true 0%Qc DfsV2 (ua_history st1) exY).
Example C31_ex : ua_weights exRefit = [4; 1].
Proof. by_compute. Qed.
Example C31_ex_fails : ua_sample_from_row exRefit 0 = Fail GenericException.
Proof. vm_compute. reflexivity. Qed.
Example C31_ex_hyps : wf_cmat (csr_mat exY) = true /\ covered [([0], {[1]})] 0 1.
Proof. by_compute. Qed.
Definition exF := get ([], [], []) (pcf_fit elements elements true 0%Qc Dfs exY).
(** label 1 has support 2, the other two samples support 1 *)
Example C61_ex : size (list_to_set (fst (fst exF)) : gset (gset Z)) = 3%nat /\ prob (pcf_sample_once exF) (Ok {[1]}) = (1 / Qc_of_Z 2)%Qc.
Proof. by_compute. Qed.
