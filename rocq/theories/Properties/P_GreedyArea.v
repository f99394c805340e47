(** Properties of the greedy area sampler (C58, C64). *)
From Verif.Model Require Import PyBase Rand GreedyArea.
From Verif.Spec Require Import SGreedyArea.
Open Scope Z_scope.
From Verif.Proofs Require Import T_GreedyArea.
Open Scope Z_scope.

(** C64: the dictionaries of compute_frequencies: d_label[a][b] and d_attributes[a][b] are the numbers of rows with
    both; Counter(all_labels)[l] is the number of rows with l; d[l] lists exactly the attributes that occur together with
    the label l, each once, with the number of rows where they do; d_formatted[l] is that list sorted stably by count. *)
Theorem C64_frequencies : forall (ord : gset Z -> list Z) (X Y : list (list Z)),
  set_order ord -> length X = length Y ->
  exists f formatted counts, compute_frequencies ord X Y = Ok (f, formatted, counts) /\
    (forall a b : Z, a <> b -> count_get (fq_dlabel f) (a, b) = cooc Y a b /\ count_get (fq_dattr f) (a, b) = cooc X a b) /\
    (forall a : Z, count_get (fq_dlabel f) (a, a) = 0 /\ count_get (fq_dattr f) (a, a) = 0) /\
    (forall l : Z, count_get counts l = cooc Y l l) /\
    NoDup (map fst (fq_d f)) /\
    (forall l : Z, l ∈ map fst (fq_d f) <-> exists a, 0 < cross X Y a l) /\
    (forall (l : Z) (items : list (Z * Z)), (l, items) ∈ fq_d f ->
       NoDup (map fst items) /\ forall a c : Z, (a, c) ∈ items <-> c = cross X Y a l /\ 0 < c) /\
    Forall2 (fun e s : Z * list (Z * Z) => fst s = fst e /\ snd s ≡ₚ snd e /\
       StronglySorted (fun p q : Z * Z => snd p <= snd q) (snd s) /\
       forall c : Z, List.filter (fun p : Z * Z => snd p =? c) (snd s) = List.filter (fun p : Z * Z => snd p =? c) (snd e))
      (fq_d f) formatted.
Proof. exact C64_frequencies_proof. Qed.
Print Assumptions C64_frequencies.

(** C58: whatever is drawn, a returned tail consists of labels of one row of Y; it has at least one label, and at least
    two if the row has two; and it is built greedily: every label after the first has the largest minimal co-occurrence
    with the labels before it among the remaining labels of the row.  The only exception is the ValueError that
    Python 3.9 and later raise when the chosen row has exactly one label. *)
Theorem C58_greedy : forall (py39 : bool) (ord : gset Z -> list Z) (X Y : list (list Z)),
  set_order ord -> length X = length Y -> (exists row, row ∈ Y /\ 0 < n_ones row) ->
  exists s, gas_fit ord X Y = Ok s /\
  forall o, can (gas_sample_once py39 ord s) o ->
    exists row, row ∈ Y /\ 0 < n_ones row /\
      ((n_ones row = 1 /\ py39 = true /\ o = Err ValueError) \/
       exists xs, o = Ok (Some (list_to_set xs)) /\ greedy_chain Y row xs /\
         1 <= zlen xs <= n_ones row /\ (2 <= n_ones row -> 2 <= zlen xs)).
Proof. exact C58_greedy_proof. Qed.
Print Assumptions C58_greedy.

(** C58: every row with at least two labels, every size from two to the number of its labels, and every first label of
    the row are possible. *)
Theorem C58_reachable : forall (py39 : bool) (ord : gset Z -> list Z) (X Y : list (list Z)) (row : list Z) (k x : Z),
  set_order ord -> length X = length Y -> row ∈ Y -> 2 <= k <= n_ones row -> has_one row x ->
  exists s xs, gas_fit ord X Y = Ok s /\ can (gas_sample_once py39 ord s) (Ok (Some (list_to_set (x :: xs)))) /\
    greedy_chain Y row (x :: xs) /\ zlen (x :: xs) = k.
Proof. exact C58_reachable_proof. Qed.
Print Assumptions C58_reachable.

(** C58: the law of the size.  On a 0/1 matrix with a label, a row is chosen with probability proportional to
    n 2^(n-1) for its number n of labels, and k of its labels are taken with probability proportional to k - 1.
    A failing draw has exactly the probability of choosing a row with a single label. *)
Theorem C58_law : forall (py39 : bool) (ord : gset Z -> list Z) (X Y : list (list Z)) (s : gas) (k : Z),
  set_order ord -> length X = length Y -> zero_one Y -> (exists row, row ∈ Y /\ 0 < n_ones row) -> gas_fit ord X Y = Ok s ->
  let W := Qc_of_Z (zsum (map area_weight Y)) in
  expect (gas_sample_once py39 ord s)
    (fun o => match o with Ok (Some T) => if decide (Z.of_nat (size T) = k) then 1%Qc else 0%Qc | _ => 0%Qc end)
  = (qsum (map (fun row => Qc_of_Z (area_weight row) * size_prob py39 (n_ones row) k) Y) / W)%Qc /\
  expect (gas_sample_once py39 ord s) (fun o => match o with Err ValueError => 1%Qc | _ => 0%Qc end)
  = (qsum (map (fun row => if py39 && (n_ones row =? 1) then Qc_of_Z (area_weight row) else 0%Qc) Y) / W)%Qc.
Proof. exact C58_law_proof. Qed.
Print Assumptions C58_law.

(** C58: degenerate matrices.  Without rows sampling raises IndexError; if no row has a label, Python 3.8 returns the
    pair of empty sets and later versions raise ValueError. *)
Theorem C58_no_labels : forall (py39 : bool) (ord : gset Z -> list Z) (X Y : list (list Z)),
  set_order ord -> length X = length Y -> (forall row, row ∈ Y -> n_ones row = 0) ->
  exists s, gas_fit ord X Y = Ok s /\
    gas_sample_once py39 ord s = match Y with [] => Fail IndexError | _ => if py39 then Fail ValueError else Ret None end.
Proof. exact C58_no_labels_proof. Qed.
Print Assumptions C58_no_labels.

(** Three rows with three, two and one labels. *)
Definition ex_X : list (list Z) := [[1; 0]; [1; 1]; [0; 1]].
Definition ex_Y : list (list Z) := [[1; 1; 0; 1]; [1; 0; 0; 1]; [0; 1; 0; 0]].
Definition ex_order (s : gset Z) : list Z := elements s.

Example C58_hypotheses_ex : set_order ex_order /\ length ex_X = length ex_Y /\ zero_one ex_Y /\
  (exists row, row ∈ ex_Y /\ 0 < n_ones row) /\ [1; 1; 0; 1] ∈ ex_Y /\ 2 <= 2 <= n_ones [1; 1; 0; 1] /\ has_one [1; 1; 0; 1] 1.
Proof.
  split; [intros s; reflexivity|]. split; [done|]. split.
  { intros row v Hr Hv. unfold ex_Y in Hr. repeat (apply elem_of_cons in Hr as [->|Hr]; [repeat (apply elem_of_cons in Hv as [->|Hv]; [auto|]); by apply elem_of_nil in Hv|]).
    by apply elem_of_nil in Hr. }
  split; [exists [1; 1; 0; 1]; split; [left|by vm_compute]|]. split; [left|]. split; [vm_compute; split; discriminate|]. split; [done|reflexivity].
Qed.

(** Starting at label 0, label 3 (two common rows) is taken before label 1 (one common row). *)
Example C58_ex : exists s, gas_fit ex_order ex_X ex_Y = Ok s /\
  greedy_tail 2 ex_order (fq_dlabel (gas_freqs s)) 2 {[0]} {[1; 3]} None = Ok {[0; 3]} /\
  greedy_tail 2 ex_order (fq_dlabel (gas_freqs s)) 2 {[1]} {[0; 3]} None = Ok {[0; 1]} /\
  this (expect (gas_sample_once true ex_order s)
    (fun o => match o with Ok (Some T) => if decide (Z.of_nat (size T) = 2) then 1%Qc else 0%Qc | _ => 0%Qc end)) = (8 # 17)%Q /\
  this (expect (gas_sample_once true ex_order s) (fun o => match o with Err ValueError => 1%Qc | _ => 0%Qc end)) = (1 # 17)%Q.
Proof.
  eexists. split; [vm_compute; reflexivity|]. split; [by_compute|]. split; [by_compute|]. split; vm_compute; reflexivity.
Qed.

Example C58_no_labels_ex : (forall row, row ∈ [[0; 0]; [0; 0]] -> n_ones row = 0) /\
  exists s, gas_fit ex_order [[1]; [1]] [[0; 0]; [0; 0]] = Ok s /\ gas_sample_once false ex_order s = Ret None.
Proof.
  split; [intros row Hr; repeat (apply elem_of_cons in Hr as [->|Hr]; [done|]); by apply elem_of_nil in Hr|].
  eexists. split; vm_compute; reflexivity.
Qed.

Example C64_ex : exists f formatted counts, compute_frequencies ex_order ex_X ex_Y = Ok (f, formatted, counts) /\
  fq_d f = [(0, [(0, 2); (1, 1)]); (1, [(0, 1); (1, 1)]); (3, [(0, 2); (1, 1)])] /\
  formatted = [(0, [(1, 1); (0, 2)]); (1, [(0, 1); (1, 1)]); (3, [(1, 1); (0, 2)])] /\
  count_get counts 3 = 2 /\ count_get (fq_dlabel f) (0, 3) = 2 /\ count_get (fq_dattr f) (0, 1) = 1.
Proof. eexists _, _, _. split; [vm_compute; reflexivity|]. repeat split; vm_compute; reflexivity. Qed.
