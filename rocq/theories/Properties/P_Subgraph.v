(** The statistics of a node set (C89) and unknown back-ends (C24). *)
From Verif.Model Require Import PyBase Sparse Utils Graph Cliques Subgraph.
From Verif.Spec Require Import SMatrix SGraph SSubgraph.
Open Scope Z_scope.
From Verif.Proofs Require Import T_Subgraph.
Open Scope Z_scope.

(** C24. Any other back-end name is rejected with ValueError. *)
Theorem C24_unknown_backend : forall (ord : gset Z -> list Z) (g : graph) (alpha : Qc),
  enumerate_probable_cliques ord g alpha OtherBackend = Err ValueError.
Proof. exact C24_unknown_backend_proof. Qed.
Print Assumptions C24_unknown_backend.

(** C89. subgraph_stat on a graph without self-loops returns exactly when the nodes at any two positions are joined in
    both orders, and raises KeyError otherwise.  When it returns, no node is repeated, size is their number, density is
    the total weight of the ordered pairs divided by the size (nan without nodes), and is_clique carries no
    information: it is True for every directed graph, and for an undirected one it is True only up to one node. *)
Theorem C89_subgraph_stat : forall (directed : bool) (g : graph) (ns : list Z),
  (forall a, ~ is_edge g a a) ->
  ((forall i j u v, i <> j -> ns !! i = Some u -> ns !! j = Some v -> is_edge g u v) <->
     exists st, subgraph_stat directed g ns = Ok st) /\
  (forall e, subgraph_stat directed g ns = Err e -> e = KeyError) /\
  (forall st, subgraph_stat directed g ns = Ok st ->
     NoDup ns /\ st_size st = zlen ns /\ st_is_clique st = (directed || (zlen ns <=? 1)) /\
     (ns = [] -> st_density st = None) /\
     forall W, (forall u v w, g_wt g !! (u, v) = Some w -> W u v = w) -> ns <> [] ->
       st_density st = Some (pair_total W ns / Qc_of_Z (zlen ns))%Qc).
Proof. exact C89_subgraph_stat_proof. Qed.
Print Assumptions C89_subgraph_stat.

(** C89. When all edges go both ways and there are no self-loops, subgraph_stat returns on every clique that
    sample_clique returns, whatever the random outcomes, and calls it a clique (for a DiGraph). *)
Theorem C89_sampled_cliques : forall (ord : gset Z -> list Z) (g : graph) (rnd : nat -> draws) (fuel : nat) (u : Z),
  set_order ord -> NoDup (g_nodes g) -> (forall a b, is_edge g a b -> b ∈ g_nodes g) -> (forall a, ~ is_edge g a a) ->
  (forall a b, is_edge g a b -> is_edge g b a) ->
  (forall k n, (0 < n)%nat -> (d_pick (rnd k) n < n)%nat) -> u ∈ g_nodes g -> (length (g_nodes g) <= fuel)%nat ->
  exists C st, sample_clique ord g rnd fuel u = Ok C /\ subgraph_stat true g C = Ok st /\
    st_is_clique st = true /\ st_size st = zlen C /\ 1 <= zlen C.
Proof. exact C89_sampled_cliques_proof. Qed.
Print Assumptions C89_sampled_cliques.

(** A triangle with weights 1/2, and a fourth node joined to one of its nodes. *)
Definition exH : graph := Graph [0;1;2;3]
  {[ (0,1) := Q2Qc (1#2); (1,0) := Q2Qc (1#2); (0,2) := Q2Qc (1#2); (2,0) := Q2Qc (1#2); (1,2) := Q2Qc (1#2); (2,1) := Q2Qc (1#2);
     (2,3) := Q2Qc (1#4); (3,2) := Q2Qc (1#4) ]}.
Example C89_ex : subgraph_stat true exH [0;1;2] = Ok (Stat 3 (Some 1%Qc) true) /\
  subgraph_stat false exH [0;1;2] = Ok (Stat 3 (Some 1%Qc) false) /\
  subgraph_stat false exH [3] = Ok (Stat 1 (Some 0%Qc) true) /\ subgraph_stat true exH [] = Ok (Stat 0 None true) /\
  subgraph_stat true exH [0;1;3] = Err KeyError /\ subgraph_stat true exH [0;0] = Err KeyError.
Proof. repeat split; vm_compute; try reflexivity; do 2 f_equal; f_equal; apply Qc_is_canon; reflexivity. Qed.
Example C89_ex_hyps : (forall a, ~ is_edge exH a a) /\ (forall a b, is_edge exH a b -> is_edge exH b a) /\
  (forall a b, is_edge exH a b -> b ∈ g_nodes exH) /\ NoDup (g_nodes exH).
Proof.
  assert (forall a b, is_edge exH a b -> (a, b) ∈ [(0,1);(1,0);(0,2);(2,0);(1,2);(2,1);(2,3);(3,2)]) as H.
  { intros a b [w Hw]. cbn [g_wt exH] in Hw. repeat (apply lookup_insert_Some in Hw as [[[= <- <-] _]|[_ Hw]]; [set_solver|]).
    apply lookup_singleton_Some in Hw as [[= <- <-] _]. set_solver. }
  assert (forall a b, (a, b) ∈ [(0,1);(1,0);(0,2);(2,0);(1,2);(2,1);(2,3);(3,2)] -> is_edge exH a b) as H'.
  { intros a b Hin. rewrite !elem_of_cons, elem_of_nil in Hin. repeat destruct Hin as [[= -> ->]|Hin]; try done; vm_compute; eauto. }
  split; [|split; [|split]].
  - intros a Ha. apply H in Ha. rewrite !elem_of_cons, elem_of_nil in Ha. repeat destruct Ha as [[= ? ?]|Ha]; try done; lia.
  - intros a b Hab. apply H'. apply H in Hab. rewrite !elem_of_cons, elem_of_nil in *. repeat destruct Hab as [[= -> ->]|Hab]; try done; tauto.
  - intros a b Hab. apply H in Hab. rewrite !elem_of_cons, elem_of_nil in Hab. cbn [g_nodes exH]. repeat destruct Hab as [[= -> ->]|Hab]; try done; set_solver.
  - apply (bool_decide_unpack _). by vm_compute.
Qed.
(** With a self-loop the flag is False for the single node. *)
Example C89_ex_loop : subgraph_stat true (Graph [0] {[ (0,0) := 1%Qc ]}) [0] = Ok (Stat 1 (Some 0%Qc) false).
Proof. vm_compute. do 2 f_equal; f_equal; apply Qc_is_canon; reflexivity. Qed.
