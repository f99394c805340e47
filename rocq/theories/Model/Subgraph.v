(** Model of subgraph_stat (corset/graph.py:132-144).  Weights are exact rationals, as in Model/Graph.v. *)
From Verif.Model Require Import PyBase Sparse Utils Graph.
Open Scope Z_scope.

(** itertools.permutations(nodes, 2): the ordered pairs of two different positions (corset/graph.py:139). *)
Definition permutations2 (l : list Z) : list (Z * Z) :=
  concat (imap (fun i x => map (pair x) (take i l ++ drop (S i) l)) l).

(** np.sum of a list of weights (corset/graph.py:137) *)
Definition np_sum (l : list Qc) : Qc := foldr Qcplus 0%Qc l.

(** g.subgraph(nodes).number_of_edges() (corset/graph.py:141): the edges with both ends among the nodes.  A DiGraph
    counts ordered pairs; an undirected Graph, which stores both directions, counts each edge once.  networkx ignores
    listed nodes that are not in the graph, and keeps a repeated one once. *)
Definition subgraph_edges (directed : bool) (g : graph) (ns : list Z) : Z :=
  zlen (List.filter (fun e => bool_decide (fst e ∈ ns) && bool_decide (snd e ∈ ns) && (directed || (fst e <=? snd e))) (edges g)).

(** The returned dict; density None = nan, the value of numpy's 0.0 / 0. *)
Record stat := Stat { st_size : Z; st_density : option Qc; st_is_clique : bool }.

(** subgraph_stat (corset/graph.py:132-144) *)
Definition subgraph_stat (directed : bool) (g : graph) (nodes : list Z) : result stat :=
  let! ws := rmap (fun uv => edge_weight g (fst uv) (snd uv)) (permutations2 nodes) in
  let density := if zlen nodes =? 0 then None else Some (np_sum ws / Qc_of_Z (zlen nodes))%Qc in
  Ok (Stat (zlen nodes) density (subgraph_edges directed g nodes =? zlen nodes * (zlen nodes - 1))).
