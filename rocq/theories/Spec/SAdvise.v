(** The order of blocks of equal cluster membership: importance, similarity, and where a block is put. *)
From Coq Require Import QArith Qcanon.
From stdpp Require Import numbers sorting.
From Verif.Model Require Import PyBase.
Open Scope Z_scope.

(** the r-th cluster *)
Definition cluster (clusters : list (list Z)) (r : Z) : list Z := default [] (clusters !! Z.to_nat r).
(** the numbers of the clusters that contain x *)
Definition roles (clusters : list (list Z)) (x : Z) : list Z :=
  filter (fun r => x ∈ cluster clusters r) (seqZ 0 (zlen clusters)).
(** the number of different elements *)
Definition distinct (l : list Z) : Z := zlen (remove_dups l).

(** the sum of the areas of the clusters of x *)
Definition importance (clusters others : list (list Z)) (x : Z) : Z :=
  zsum (map (fun r => zlen (cluster clusters r) * zlen (cluster others r)) (roles clusters x)).
(** weighted Jaccard similarity of the cluster sets of x and y; a cluster weighs as much as it has elements on the
    other side *)
Definition similarity (clusters others : list (list Z)) (x y : Z) : Qc :=
  let weight (rs : list Z) := Qc_of_Z (zsum (map (fun r => distinct (cluster others r)) rs)) in
  (weight (filter (fun r => r ∈ roles clusters x /\ r ∈ roles clusters y) (seqZ 0 (zlen clusters))) /
   weight (filter (fun r => r ∈ roles clusters x \/ r ∈ roles clusters y) (seqZ 0 (zlen clusters))))%Qc.

(** a member of block number b *)
Definition member (blocks : list (list Z)) (b : Z) : Z := default 0 (head (default [] (blocks !! Z.to_nat b))).

(** more important blocks come first, the first of equally important ones first *)
Definition comes_first (imp : Z -> Z) (a b : Z) : Prop := imp b < imp a \/ imp a = imp b /\ a < b.

Section Place.
  Context (sim : Z -> Z -> Qc).
  Definition larger (a b : Qc) : Qc := if decide (a <= b)%Qc then b else a.
  Definition at_ (s : list Z) (i : nat) : Z := default 0 (s !! i).

  (** I may be put at the ends, or before the p-th element, 2 <= p, if it is at least as similar to both neighbours as
      they are to each other.  The place between the first two elements is not considered. *)
  Definition allowed (s : list Z) (I : Z) (p : nat) : Prop :=
    p = 0%nat \/ p = length s \/
    (2 <= p < length s)%nat /\ (sim (at_ s (p - 1)) (at_ s p) <= sim I (at_ s (p - 1)))%Qc /\ (sim (at_ s (p - 1)) (at_ s p) <= sim I (at_ s p))%Qc.
  (** the similarity to the more similar neighbour *)
  Definition value (s : list Z) (I : Z) (p : nat) : Qc :=
    if decide (p = 0%nat) then sim I (at_ s 0)
    else if decide (p = length s) then sim I (at_ s (p - 1))
    else larger (sim I (at_ s (p - 1))) (sim I (at_ s p)).
  (** of equally good places the end is taken, then the beginning, then the first *)
  Definition rank (s : list Z) (p : nat) : nat := if decide (p = length s) then 0 else S p.
  Definition place (s : list Z) (I : Z) (p : nat) : Prop :=
    if decide (length s < 2)%nat then p = length s
    else allowed s I p /\ forall q, allowed s I q -> (value s I q < value s I p)%Qc \/ value s I q = value s I p /\ (rank s p <= rank s q)%nat.

  (** s arises by putting the items into place, one after the other *)
  Inductive arranged : list Z -> list Z -> Prop :=
  | arranged_nil : arranged [] []
  | arranged_step items s I p : arranged items s -> place s I p -> arranged (items ++ [I]) (take p s ++ I :: drop p s).
End Place.
