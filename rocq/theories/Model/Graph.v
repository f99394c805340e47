(** Model of corset/graph.py.  Edge weights are exact rationals: counts and floats are rationals, but
    floating-point rounding is not modelled. *)
From Coq Require Export QArith Qcanon.
From stdpp Require Export numbers.
From Verif.Model Require Import PyBase Sparse Utils.
Open Scope Z_scope.

(** A networkx graph with one weight ('proba') per edge: the nodes in insertion order and the weight of
    each ordered pair that is an edge.  An undirected nx.Graph stores both directions, as networkx does. *)
Record graph := Graph { g_nodes : list Z; g_wt : gmap (Z * Z) Qc }.

(** g.has_edge(u, v) *)
Definition has_edge (g : graph) (u v : Z) : bool := bool_decide (is_Some (g_wt g !! (u, v))).

(** g[u][v]['proba'] *)
Definition edge_weight (g : graph) (u v : Z) : result Qc :=
  match g_wt g !! (u, v) with Some w => Ok w | None => Err KeyError end.

(** set(g.neighbors(u)), set(g[u].keys()) *)
Definition neighbors (g : graph) (u : Z) : gset Z :=
  set_map snd (filter (fun e : Z * Z => fst e = u) (dom (g_wt g))).

(** g.edges() of a DiGraph; the order is not observable below because weights are keyed by the pair *)
Definition edges (g : graph) : list (Z * Z) := elements (dom (g_wt g)).

(** ** construct_confidence_graph (corset/graph.py:10-46) *)

(** entry (u, v) of Y.T @ Y (line 24) *)
Definition cooccurrence (Y : csc) (u v : Z) : Z :=
  zsum (map (fun i => line_value (csc_mat Y) u i * line_value (csc_mat Y) v i) (py_range (csc_rows Y))).

(** cor_M.nonzero() (line 26), row by row *)
Definition cooccurring (Y : csc) : list (Z * Z) :=
  List.filter (fun uv => negb (cooccurrence Y (fst uv) (snd uv) =? 0))
    (concat (map (fun u => map (pair u) (py_range (csc_cols Y))) (py_range (csc_cols Y)))).

(** label2rows[l] = set(Y[:, l].indices) (line 22) *)
Definition label_rows (Y : csc) (l : Z) : gset Z := py_set (map fst (line (csc_mat Y) l)).

(** numer / denum (lines 32-34) *)
Definition confidence (Y : csc) (u v : Z) : result Qc :=
  let numer := Z.of_nat (size (label_rows Y u ∩ label_rows Y v)) in
  let denum := Z.of_nat (size (label_rows Y u)) in
  if denum =? 0 then Err ZeroDivisionError else Ok (Qc_of_Z numer / Qc_of_Z denum)%Qc.

(** label_freq (line 17), stored as node attribute freq (line 38) *)
Definition label_freq (Y : csc) : list Z :=
  map (fun l => zsum (map snd (line (csc_mat Y) l))) (py_range (csc_cols Y)).

(** The graph together with the freq attribute of node i at position i.  The name attribute
    (lines 39-42) is not modelled. *)
Definition construct_confidence_graph (Y : csc) : result (graph * list Z) :=
  let! wt := rfold (fun (m : gmap (Z * Z) Qc) uv =>
                let! p := confidence Y (fst uv) (snd uv) in Ok (<[uv := p]> m))
              ∅ (cooccurring Y) in
  (* remove_edges_from(selfloop_edges(g)), line 45 *)
  let noloops := filter (fun e : (Z * Z) * Qc => fst (fst e) <> snd (fst e)) wt in
  Ok (Graph (py_range (csc_cols Y)) noloops, label_freq Y).

(** ** convert_to_connectivity_graph (corset/graph.py:49-62) *)
Definition noisy_or (p q : Qc) : Qc := (1 - (1 - p) * (1 - q))%Qc.

Definition convert_to_connectivity_graph (g : graph) : result graph :=
  let! wt := rfold (fun (m : gmap (Z * Z) Qc) uv =>
                let '(u, v) := uv in
                if u <? v then
                  let! p := edge_weight g u v in
                  let! q := edge_weight g v u in
                  Ok (<[(u, v) := noisy_or p q]> (<[(v, u) := noisy_or p q]> m))
                else Ok m)
              ∅ (edges g) in
  Ok (Graph (g_nodes g) wt).

(** ** sample_clique (corset/graph.py:81-129) *)

(** forms_clique (corset/graph.py:73-78) *)
Definition forms_clique (g : graph) (S : list Z) (v : Z) : bool := forallb (fun s => has_edge g s v) S.

(** The random outcomes of one loop round: the k-th value of np.random.rand(len(probas)) (line 109), and
    the position drawn by np.random.choice among n candidates (line 121). *)
Record draws := Draws { d_rand : nat -> Qc; d_pick : nat -> nat }.

(** One round (lines 105-128) at node u: None = break, Some v = continue from v.
    [ord] is the order of g[u].keys(). *)
Definition clique_round (ord : gset Z -> list Z) (g : graph) (S : list Z) (u : Z) (d : draws)
    : result (option Z) :=
  let nbrs := ord (neighbors g u) in
  if zlen nbrs =? 0 then Ok None
  else
    let! probas := rmap (edge_weight g u) nbrs in
    let rands := map (d_rand d) (seq 0 (length probas)) in
    let cands := map fst (List.filter (fun vp => bool_decide (fst (snd vp) < snd (snd vp))%Qc)
                            (zip nbrs (zip rands probas))) in
    if zlen cands =? 0 then Ok None
    else match cands !! d_pick d (length cands) with
         | None => Err IndexError            (* not an outcome of np.random.choice *)
         | Some v => if forms_clique g S v then Ok (Some v) else Ok None
         end.

(** The while loop: S in insertion order; fuel counts rounds. *)
Fixpoint clique_loop (ord : gset Z -> list Z) (g : graph) (rnd : nat -> draws) (fuel k : nat)
    (S : list Z) (u : Z) : result (list Z) :=
  match fuel with
  | O => Err OutOfFuel
  | Datatypes.S f =>
      let! r := clique_round ord g S u (rnd k) in
      match r with
      | None => Ok S
      | Some v => clique_loop ord g rnd f (Datatypes.S k) (if bool_decide (v ∈ S) then S else S ++ [v]) v
      end
  end.

(** sample_clique with the start node u (given, or drawn from g.nodes()); g[u] raises KeyError when u is
    no node.  The returned tuple is sorted. *)
Definition sample_clique (ord : gset Z -> list Z) (g : graph) (rnd : nat -> draws) (fuel : nat) (u : Z)
    : result (list Z) :=
  if bool_decide (u ∈ g_nodes g) then
    let! C := clique_loop ord g rnd fuel 0 [u] u in Ok (py_sorted C)
  else Err KeyError.
