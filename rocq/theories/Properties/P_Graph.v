(** Properties of the label graphs and of the clique sample space (C21-C26). *)
From Verif.Model Require Import PyBase Sparse Utils Graph Cliques.
From Verif.Spec Require Import SMatrix SGraph.
Open Scope Z_scope.
From Verif.Proofs Require Import T_Graph.
Open Scope Z_scope.

(** C21. The confidence graph of a 0/1 matrix: nodes 0..L-1 in order, an edge u->v iff the labels differ and
    share a row, weight |X(u) ∩ X(v)| / |X(u)|, which lies in (0,1], and freq = |X(u)|.  Edges go both ways. *)
Theorem C21_confidence_graph : forall (Y : csc),
  wf_cmat (csc_mat Y) = true -> binary (csc_mat Y) ->
  exists g freq, construct_confidence_graph Y = Ok (g, freq) /\
    g_nodes g = py_range (csc_cols Y) /\
    (forall u v, is_edge g u v <-> u <> v /\ exists i, csc_has Y i u /\ csc_has Y i v) /\
    (forall u v, is_edge g u v -> is_edge g v u) /\
    (forall u v w (A B : gset Z), g_wt g !! (u, v) = Some w ->
       (forall i, i ∈ A <-> csc_has Y i u /\ csc_has Y i v) -> (forall i, i ∈ B <-> csc_has Y i u) ->
       w = (Qc_of_Z (Z.of_nat (size A)) / Qc_of_Z (Z.of_nat (size B)))%Qc /\ (0 < w)%Qc /\ (w <= 1)%Qc) /\
    zlen freq = csc_cols Y /\
    (forall u (B : gset Z), 0 <= u < csc_cols Y -> (forall i, i ∈ B <-> csc_has Y i u) ->
       freq !! Z.to_nat u = Some (Z.of_nat (size B))).
Proof. exact C21_confidence_graph_proof. Qed.
Print Assumptions C21_confidence_graph.

(** C22. For every graph whose edges go both ways, the connectivity graph keeps the nodes, has exactly the
    edges between distinct nodes, and weighs them 1 - (1-p)(1-q) for the two directed weights p, q; when
    p and q lie in (0,1] the result does too and is at least both. *)
Theorem C22_noisy_or : forall (g : graph),
  (forall u v, is_edge g u v -> is_edge g v u) ->
  exists c, convert_to_connectivity_graph g = Ok c /\ g_nodes c = g_nodes g /\
    (forall u v w, g_wt c !! (u, v) = Some w <->
       u <> v /\ exists p q, g_wt g !! (u, v) = Some p /\ g_wt g !! (v, u) = Some q /\
         w = (1 - (1 - p) * (1 - q))%Qc) /\
    (forall u v w, g_wt c !! (u, v) = Some w -> g_wt c !! (v, u) = Some w) /\
    (forall u v w p q, g_wt c !! (u, v) = Some w -> g_wt g !! (u, v) = Some p -> g_wt g !! (v, u) = Some q ->
       (0 < p)%Qc -> (p <= 1)%Qc -> (0 < q)%Qc -> (q <= 1)%Qc ->
       (0 < w)%Qc /\ (w <= 1)%Qc /\ (p <= w)%Qc /\ (q <= w)%Qc).
Proof. exact C22_noisy_or_proof. Qed.
Print Assumptions C22_noisy_or.

(** C22, the documented requirement is needed: an edge u->v with u < v and no edge back raises KeyError. *)
Theorem C22_one_way_edge_fails : forall (g : graph) (u v : Z),
  u < v -> is_edge g u v -> ~ is_edge g v u -> convert_to_connectivity_graph g = Err KeyError.
Proof. exact C22_one_way_edge_fails_proof. Qed.
Print Assumptions C22_one_way_edge_fails.

(** labels 0,1 share two rows, 1,2 share one, 3 is alone *)
Definition exG : csr := Csr (CMat 4 4 [0;2;5;6;7] [0;1;0;1;2;0;3] [1;1;1;1;1;1;1]).
Definition q (n d : Z) : Qc := (Qc_of_Z n / Qc_of_Z d)%Qc.
Example C21_ex : match construct_confidence_graph (tocsc exG) with
  | Ok (g, freq) => g_nodes g = [0;1;2;3] /\ freq = [3;2;1;1] /\
      g_wt g !! (0,1) = Some (q 2 3) /\ g_wt g !! (1,0) = Some (q 1 1) /\ g_wt g !! (2,0) = Some (q 1 1) /\
      g_wt g !! (0,2) = Some (q 1 3) /\ g_wt g !! (0,3) = None /\ g_wt g !! (1,1) = None
  | Err _ => False
  end.
Proof. vm_compute. repeat split; f_equal; apply Qc_is_canon; reflexivity. Qed.
Definition exDi : graph := Graph [0;1] {[ (0,1) := q 1 2; (1,0) := q 1 3 ]}.
Example C22_ex : match convert_to_connectivity_graph exDi with
  | Ok c => g_wt c !! (1,0) = Some (q 2 3) /\ g_wt c !! (0,1) = Some (q 2 3)
  | Err _ => False
  end.
Proof. vm_compute. repeat split; f_equal; apply Qc_is_canon; reflexivity. Qed.

(** C23. For every undirected graph with weights in [0,1], threshold and iteration order, both back-ends
    return exactly the strictly increasing tuples that are single nodes or cliques with product of edge
    weights >= alpha, each once and with that product.  dfs_v2 numbers nodes by position, so the nodes
    must be 0..n-1 in order for it. *)
Theorem C23_enumeration_exact : forall (ord : gset Z -> list Z) (g : graph) (alpha : Qc) (b : backend),
  set_order ord -> undirected g -> weights01 g ->
  (b = Dfs \/ (b = DfsV2 /\ g_nodes g = py_range (zlen (g_nodes g)))) ->
  exists l, enumerate_probable_cliques ord g alpha b = Ok l /\ NoDup (map fst l) /\
    forall S p, (S, p) ∈ l <-> probable_clique g alpha S p.
Proof. exact C23_enumeration_exact_proof. Qed.
Print Assumptions C23_enumeration_exact.

(** C24. Pruning the edges below alpha first, either back-end, and any iteration orders give the same cliques
    with the same probabilities, up to order. *)
Theorem C24_same_cliques : forall (ord1 ord2 : gset Z -> list Z) (g : graph) (alpha : Qc) (prune : bool) (b1 b2 : backend),
  set_order ord1 -> set_order ord2 -> undirected g -> weights01 g ->
  g_nodes g = py_range (zlen (g_nodes g)) -> b1 <> OtherBackend -> b2 <> OtherBackend ->
  exists l1 l2,
    enumerate_probable_cliques ord1 g alpha b1 = Ok l1 /\
    enumerate_probable_cliques ord2 (if prune then prune_edges g alpha else g) alpha b2 = Ok l2 /\
    l1 ≡ₚ l2.
Proof. exact C24_same_cliques_proof. Qed.
Print Assumptions C24_same_cliques.

Definition exC : graph := Graph [0;1;2;3]
  {[ (0,1) := q 1 2; (1,0) := q 1 2; (0,2) := q 1 1; (2,0) := q 1 1; (1,2) := q 9 10; (2,1) := q 9 10;
     (2,3) := q 1 10; (3,2) := q 1 10 ]}.
Example C23_ex : rmap (fun c => Ok (fst c)) match enumerate_probable_cliques elements exC (q 2 5) Dfs with Ok l => l | Err _ => [] end
    = Ok [[0]; [0;1]; [0;1;2]; [0;2]; [1]; [1;2]; [2]; [3]] /\
  match enumerate_probable_cliques (fun s => reverse (elements s)) (prune_edges exC (q 2 5)) (q 2 5) DfsV2 with
  | Ok l => ([0;1;2], q 9 20) ∈ l | Err _ => False end.
Proof.
  split; [by_compute|]. destruct (enumerate_probable_cliques _ _ _ _) as [l|] eqn:E; [|by vm_compute in E].
  apply elem_of_list_lookup.
  assert (exists k, (match enumerate_probable_cliques (fun s => reverse (elements s)) (prune_edges exC (q 2 5)) (q 2 5) DfsV2 with
    Ok l => l | Err _ => [] end) !! k = Some ([0;1;2], q 9 20)) as H; [|by rewrite E in H].
  exists 3%nat. vm_compute. reflexivity.
Qed.
Example C23_ex_hyps : undirected exC /\ weights01 exC.
Proof.
  split; [split; [by_compute|]|].
  - assert (map_Forall (fun k w => fst k ∈ g_nodes exC /\ snd k ∈ g_nodes exC /\ g_wt exC !! (snd k, fst k) = Some w) (g_wt exC))
      as H by by_compute.
    intros u v w E. exact (H _ _ E).
  - assert (map_Forall (fun k w => (0 <= w)%Qc /\ (w <= 1)%Qc) (g_wt exC)) as H by by_compute.
    intros u v w E. exact (H _ _ E).
Qed.

(** C25. For every 0/1 label matrix, threshold, pruning flag, back-end and iteration order the sample space
    is duplicate-free, has no empty sample, contains every singleton, only contains labels that pairwise
    share a row, and is closed under non-empty subsets. *)
Theorem C25_sample_space : forall (ord : gset Z -> list Z) (Y : csr) (prune : bool) (alpha : Qc) (b : backend),
  set_order ord -> wf_cmat (csr_mat Y) = true -> binary (csr_mat Y) -> b <> OtherBackend ->
  exists g space, build_graph Y = Ok g /\ build_sample_space ord g prune alpha b = Ok space /\
    NoDup space /\ ∅ ∉ space /\
    (forall u, 0 <= u < csr_cols Y -> {[ u ]} ∈ space) /\
    (forall (s : gset Z) a, s ∈ space -> a ∈ s -> 0 <= a < csr_cols Y) /\
    (forall (s : gset Z) a b, s ∈ space -> a ∈ s -> b ∈ s -> a <> b -> exists i, csr_has Y i a /\ csr_has Y i b) /\
    (forall s t : gset Z, s ∈ space -> t ⊆ s -> t <> ∅ -> t ∈ space).
Proof. exact C25_sample_space_proof. Qed.
Print Assumptions C25_sample_space.

(** C25, monotonicity: raising min_proba can only remove samples, whatever the flags, back-ends and orders. *)
Theorem C25_shrinks : forall (ord ord' : gset Z -> list Z) (Y : csr) (prune prune' : bool) (alpha alpha' : Qc) (b b' : backend),
  set_order ord -> set_order ord' -> wf_cmat (csr_mat Y) = true -> binary (csr_mat Y) ->
  b <> OtherBackend -> b' <> OtherBackend -> (alpha <= alpha')%Qc ->
  exists g space space', build_graph Y = Ok g /\
    build_sample_space ord g prune alpha b = Ok space /\
    build_sample_space ord' g prune' alpha' b' = Ok space' /\
    forall s, s ∈ space' -> s ∈ space.
Proof. exact C25_shrinks_proof. Qed.
Print Assumptions C25_shrinks.

Example C25_ex : (let! g := build_graph exG in build_sample_space elements g true (q 1 2) DfsV2)
  = Ok [ {[0]}; {[0;1]}; {[0;1;2]}; {[0;2]}; {[1]}; {[1;2]}; {[2]}; {[3]} ] /\
  (let! g := build_graph exG in build_sample_space elements g true (q 11 10) Dfs) = Ok [ {[0]}; {[1]}; {[2]}; {[3]} ].
Proof. split; by_compute. Qed.
Example C25_ex_hyps : wf_cmat (csr_mat exG) = true /\ PSparse.binary_b (csr_mat exG) = true.
Proof. vm_compute. done. Qed.

(** C26. On every graph without self-loops, from every start node and for all random outcomes, sample_clique
    stops within |V| rounds and returns an increasing tuple of nodes that contains the start and whose nodes
    are pairwise joined (in one direction at least; in both when edges go both ways). *)
Theorem C26_sample_clique : forall (ord : gset Z -> list Z) (g : graph) (rnd : nat -> draws) (fuel : nat) (u : Z),
  set_order ord -> NoDup (g_nodes g) -> (forall a b, is_edge g a b -> b ∈ g_nodes g) -> (forall a, ~ is_edge g a a) ->
  (forall k n, (0 < n)%nat -> (d_pick (rnd k) n < n)%nat) ->
  u ∈ g_nodes g -> (length (g_nodes g) <= fuel)%nat ->
  exists C, sample_clique ord g rnd fuel u = Ok C /\ StronglySorted Z.lt C /\ u ∈ C /\
    (forall a, a ∈ C -> a ∈ g_nodes g) /\
    (forall a b, a ∈ C -> b ∈ C -> a <> b -> is_edge g a b \/ is_edge g b a) /\
    ((forall a b, is_edge g a b -> is_edge g b a) -> forall a b, a ∈ C -> b ∈ C -> a <> b -> is_edge g a b).
Proof. exact C26_sample_clique_proof. Qed.
Print Assumptions C26_sample_clique.

(** C26, why self-loops must be absent: with a certain self-loop the loop never ends, for any fuel. *)
Theorem C26_selfloop_diverges : forall (rnd : nat -> draws) (fuel : nat),
  (forall k, d_pick (rnd k) 1 = 0%nat) -> (forall k, d_rand (rnd k) 0 < 1)%Qc ->
  sample_clique elements (Graph [0] {[ (0, 0) := 1%Qc ]}) rnd fuel 0 = Err OutOfFuel.
Proof. exact C26_selfloop_diverges_proof. Qed.
Print Assumptions C26_selfloop_diverges.

Example C26_ex : sample_clique elements exC (fun k => Draws (fun _ => q 1 20) (fun n => (n - 1)%nat)) 4 2 = Ok [2;3] /\
  sample_clique elements exC (fun k => Draws (fun _ => q 1 20) (fun n => Nat.modulo k n)) 4 1 = Ok [0;1;2].
Proof. split; by_compute. Qed.
