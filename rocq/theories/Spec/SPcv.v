(** Voting for the columns of a group of rows, and groups of equal labels. *)
From Coq Require Import Reals.
From Verif.Model Require Import PyBase.
Open Scope Z_scope.

(** a 0/1 matrix with n columns *)
Definition table (n : Z) (B : list (list Z)) : Prop := 0 <= n /\ Forall (fun row => zlen row = n /\ Forall (fun v => v = 0 \/ v = 1) row) B.
(** the ones of column c *)
Definition votes (B : list (list Z)) (c : Z) : Z := zlen (filter (fun row => row !! Z.to_nat c = Some 1) B).
(** the likelihood of x ones among m cells that are 1 with probability r *)
Definition likelihood (r : R) (x m : Z) : R := (r ^ Z.to_nat x * (1 - r) ^ Z.to_nat (m - x))%R.
(** the columns that are more likely under p than under q *)
Definition elected (p q : R) (n : Z) (B : list (list Z)) (c : Z) : Prop :=
  0 <= c < n /\ (likelihood q (votes B c) (zlen B) < likelihood p (votes B c) (zlen B))%R.

(** the share of ones in the columns cs, or [dflt] if there is no cell *)
Definition share (dflt : R) (B : list (list Z)) (cs : list Z) : R :=
  if 0 <? zlen B * zlen cs then (IZR (zsum (map (votes B) cs)) / IZR (zlen B * zlen cs))%R else dflt.
Definition lists (cs : list Z) (P : Z -> Prop) : Prop := NoDup cs /\ forall c, c ∈ cs <-> P c.
(** e is the distance between (p, q) and the shares of ones inside and outside of the columns elected with p and q *)
Definition misfit (n : Z) (B : list (list Z)) (pq : R * R) (e : R) : Prop :=
  exists inside outside, lists inside (elected (fst pq) (snd pq) n B) /\ lists outside (fun c => 0 <= c < n /\ c ∉ inside) /\
    e = (Rabs (fst pq - share 1 B inside) + Rabs (snd pq - share 0 B outside))%R.

(** the pairs of the grid with q < p, in order *)
Definition pairs (ps qs : list R) : list (R * R) :=
  concat (map (fun p => map (pair p) (List.filter (fun q => if Rlt_dec q p then true else false) qs)) ps).
(** pq is the first pair of the list with the smallest misfit *)
Definition best_pair (n : Z) (B : list (list Z)) (l : list (R * R)) (pq : R * R) : Prop :=
  exists before after e, l = before ++ pq :: after /\ misfit n B pq e /\
    (forall pq' e', pq' ∈ before -> misfit n B pq' e' -> (e < e')%R) /\ (forall pq' e', pq' ∈ after -> misfit n B pq' e' -> (e <= e')%R).

(** ** Groups *)
Definition groups_of (labels : list Z) (groups : list (list Z)) : Prop :=
  concat groups ≡ₚ seqZ 0 (zlen labels) /\
  Forall (fun g => g <> [] /\ StronglySorted Z.lt g) groups /\
  (forall g i j, g ∈ groups -> i ∈ g -> (j ∈ g <-> 0 <= j < zlen labels /\ labels !! Z.to_nat i = labels !! Z.to_nat j)) /\
  StronglySorted Z.lt (omap head groups).

(** ** Biclusters *)
Definition rows_of (B : list (list Z)) (g : list Z) (sub : list (list Z)) : Prop := Forall2 (fun i row => 0 <= i /\ B !! Z.to_nat i = Some row) g sub.
(** the pairs (p, q) with p = 0.3, 0.4, ..., 0.9 and q = 0.02, 0.04, ..., 0.1 *)
Definition grid : list (R * R) := concat (map (fun i => map (fun j => (IZR i / 10, IZR (2 * j) / 100)%R) (seqZ 1 5)) (seqZ 3 7)).
(** the columns of the group g of rows: those elected with the best pair of the grid, or those with more than a share t of ones *)
Definition columns_of (heuristic : bool) (t : R) (n : Z) (B : list (list Z)) (g r : list Z) : Prop :=
  exists sub, rows_of B g sub /\
    if heuristic then exists p q, best_pair n sub grid (p, q) /\ lists r (elected p q n sub)
    else lists r (fun c => 0 <= c < n /\ (IZR (zlen g) * t < IZR (votes sub c))%R).
