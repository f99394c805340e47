(** Weighted graphs, cliques and their probabilities, stated directly on the weight map. *)
From Verif.Model Require Import PyBase Graph.
Open Scope Z_scope.

Definition is_edge (g : graph) (u v : Z) : Prop := is_Some (g_wt g !! (u, v)).

(** An undirected graph: distinct nodes, edges between nodes, the same weight both ways. *)
Definition undirected (g : graph) : Prop :=
  NoDup (g_nodes g) /\
  forall u v w, g_wt g !! (u, v) = Some w ->
    u ∈ g_nodes g /\ v ∈ g_nodes g /\ g_wt g !! (v, u) = Some w.

(** All weights are probabilities. *)
Definition weights01 (g : graph) : Prop := forall u v w, g_wt g !! (u, v) = Some w -> (0 <= w <= 1)%Qc.

(** The unordered pairs of positions of a tuple. *)
Fixpoint all_pairs (l : list Z) : list (Z * Z) :=
  match l with
  | [] => []
  | x :: l' => map (pair x) l' ++ all_pairs l'
  end.

Definition qprod (l : list Qc) : Qc := foldr Qcmult 1%Qc l.

(** Every pair of the tuple is an edge, and p is the product of the edge weights. *)
Definition clique_proba (g : graph) (S : list Z) (p : Qc) : Prop :=
  exists ws, Forall2 (fun uv w => g_wt g !! uv = Some w) (all_pairs S) ws /\ p = qprod ws.

(** S is an alpha-probable clique with probability p, as a strictly increasing tuple of nodes;
    single nodes count whatever alpha is. *)
Definition probable_clique (g : graph) (alpha : Qc) (S : list Z) (p : Qc) : Prop :=
  S <> [] /\ StronglySorted Z.lt S /\ (forall u, u ∈ S -> u ∈ g_nodes g) /\
  clique_proba g S p /\ (length S = 1%nat \/ (alpha <= p)%Qc).
