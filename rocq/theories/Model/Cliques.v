(** Model of the clique enumeration: corset/samplers/pc.py and corset/samplers/dfs.pyx. *)
From Verif.Model Require Import PyBase Sparse Utils Graph.
Open Scope Z_scope.

(** The product test (corset/samplers/pc.py:69-75): the new probability, or None when some partial
    product falls below alpha.  [w v] is the weight lookup for (u, v). *)
Fixpoint extend_proba (w : Z -> result Qc) (alpha p : Qc) (S : list Z) : result (option Qc) :=
  match S with
  | [] => Ok (Some p)
  | v :: S' =>
      let! x := w v in
      let p' := (p * x)%Qc in
      if bool_decide (p' < alpha)%Qc then Ok None else extend_proba w alpha p' S'
  end.

(** [for u in us: pc_list gets what f appends] *)
Fixpoint for_append {A B} (f : A -> result (list B)) (us : list A) : result (list B) :=
  match us with
  | [] => Ok []
  | u :: us' => let! l := f u in let! l' := for_append f us' in Ok (l ++ l')
  end.

(** The recursion shared by dfs (corset/samplers/pc.py:41-78, S non-empty) and dfs_v2_aux
    (corset/samplers/dfs.pyx:98-141, S non-empty): [nbr] and [w] look up neighbours and weights.
    Fuel counts the recursion depth. *)
Fixpoint dfs_from (ord : gset Z -> list Z) (nbr : Z -> gset Z) (w : Z -> Z -> result Qc) (alpha : Qc)
    (fuel : nat) (S : list Z) (p : Qc) (shared : gset Z) : result (list (list Z * Qc)) :=
  match fuel with
  | O => Err OutOfFuel
  | Datatypes.S f =>
      let! l := for_append (fun u =>
          if List.last S 0 <? u then
            let! r := extend_proba (w u) alpha p S in
            match r with
            | None => Ok []
            | Some p' => dfs_from ord nbr w alpha f (S ++ [u]) p' (shared ∩ nbr u)
            end
          else Ok []) (ord shared) in
      Ok ((S, p) :: l)
  end.

(** dfs on the empty tuple (corset/samplers/pc.py:55-64) and [pc_list[1:]]
    (enumerate_probable_cliques, corset/samplers/pc.py:23-28). *)
Definition enum_dfs (ord : gset Z -> list Z) (g : graph) (alpha : Qc) : result (list (list Z * Qc)) :=
  for_append (fun u => dfs_from ord (neighbors g) (edge_weight g) alpha (S (length (g_nodes g)))
                         [u] 1%Qc (neighbors g u))
    (g_nodes g).

(** The Cython wrapper of the graph (corset/samplers/dfs.pyx:15-56): nodes are the positions in
    g.nodes(); a missing weight reads as 0 (unordered_map default).  C float rounding is not modelled. *)
Definition node_at (g : graph) (i : Z) : option Z := g_nodes g !! Z.to_nat i.
Definition wrap_nbr (g : graph) (i : Z) : gset Z :=
  py_set (List.filter (fun j => match node_at g i, node_at g j with
                           | Some u, Some v => has_edge g u v
                           | _, _ => false
                           end)
            (py_range (zlen (g_nodes g)))).
Definition wrap_wt (g : graph) (i j : Z) : result Qc :=
  match node_at g i, node_at g j with
  | Some u, Some v => match g_wt g !! (u, v) with Some w => Ok w | None => Ok 0%Qc end
  | _, _ => Ok 0%Qc
  end.

(** dfs_v2 (corset/samplers/dfs.pyx:80-121); [ord] is the unordered_set order. *)
Definition enum_dfs_v2 (ord : gset Z -> list Z) (g : graph) (alpha : Qc) : result (list (list Z * Qc)) :=
  for_append (fun u => dfs_from ord (wrap_nbr g) (wrap_wt g) alpha (S (length (g_nodes g)))
                         [u] 1%Qc (wrap_nbr g u))
    (py_range (zlen (g_nodes g))).

(** enumerate_probable_cliques (corset/samplers/pc.py:18-37), with probabilities *)
Inductive backend := Dfs | DfsV2 | OtherBackend.
Definition enumerate_probable_cliques (ord : gset Z -> list Z) (g : graph) (alpha : Qc) (b : backend)
    : result (list (list Z * Qc)) :=
  match b with
  | Dfs => enum_dfs ord g alpha
  | DfsV2 => enum_dfs_v2 ord g alpha
  | OtherBackend => Err ValueError
  end.

(** prune_edges (corset/samplers/pc.py:82-94) *)
Definition prune_edges (g : graph) (min_proba : Qc) : graph :=
  Graph (g_nodes g) (filter (fun e : (Z * Z) * Qc => (min_proba <= snd e)%Qc) (g_wt g)).

(** PCSampleSpaceConstructor._build_sample_space (corset/samplers/pc.py:101-122); the seeding has no
    effect on the result.  return_proba=False keeps the tuples only. *)
Definition build_sample_space (ord : gset Z -> list Z) (g : graph) (do_prune : bool) (min_proba : Qc)
    (b : backend) : result (list (gset Z)) :=
  let g' := if do_prune then prune_edges g min_proba else g in
  let! l := enumerate_probable_cliques ord g' min_proba b in
  Ok (map (fun c => py_set (fst c)) l).

(** PCSampleSpaceConstructor._build_graph (corset/samplers/pc.py:127-131) *)
Definition build_graph (Y : csr) : result graph :=
  let! ug := construct_confidence_graph (tocsc Y) in
  convert_to_connectivity_graph (fst ug).
