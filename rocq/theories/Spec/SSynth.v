(** What a synthetic data set is: rules, examples covered by them, and swapped cells.
    Nothing here refers to how the data are generated. *)
From Coq Require Import QArith Qcanon Qround.
From stdpp Require Import numbers.
From Verif.Model Require Import PyBase.
Open Scope Z_scope.

(** the n x d matrix with entries f i j *)
Definition mat (n d : Z) (f : Z -> Z -> Z) : list (list Z) :=
  map (fun i => map (f i) (seqZ 0 d)) (seqZ 0 n).

(** 1 exactly where some rule with j in the given side covers example i; covers !! k are the examples that
    rule k covers *)
Definition painted (sides covers : list (list Z)) (i j : Z) : Z :=
  if bool_decide (Exists (fun sc => i ∈ snd sc /\ j ∈ fst sc) (zip sides covers)) then 1 else 0.

(** the cells that occur an odd number of times among the flips are swapped *)
Definition flipped (flips : list (Z * Z)) (f : Z -> Z -> Z) (i j : Z) : Z :=
  if Nat.odd (length (filter (fun c => c = (i, j)) flips)) then 1 - f i j else f i j.

(** the number of swaps: a proportion of the cells, rounded down, and none for a negative proportion *)
Definition swap_count (n d : Z) (noise : Qc) : Z := Z.max 0 (Qfloor (this (Qc_of_Z (n * d) * noise)%Qc)).

Definition flips_of (n d : Z) (noise : Qc) (flips : list (Z * Z)) : Prop :=
  zlen flips = swap_count n d noise /\ forall i j, (i, j) ∈ flips -> 0 <= i < n /\ 0 <= j < d.

(** a matrix of n rows and d columns that shows the rules and then has some cells swapped *)
Definition noisy (n d : Z) (noise : Qc) (sides covers : list (list Z)) (M : list (list Z)) : Prop :=
  exists flips, flips_of n d noise flips /\ M = mat n d (flipped flips (painted sides covers)).

(** every rule covers fewer than [bound] examples below [pool] *)
Definition covers_below (pool bound : Z) (covers : list (list Z)) : Prop :=
  Forall (fun c => zlen c < bound /\ NoDup c /\ Forall (fun i => 0 <= i < pool) c) covers.

(** no example is covered twice *)
Definition covers_disjoint (covers : list (list Z)) : Prop := NoDup (concat covers).

(** a proper non-empty part of 0 .. n-1, listed in the order in which Python iterates over it *)
Definition proper_side (ord : gset Z -> list Z) (n : Z) (s : list Z) : Prop :=
  exists S : gset Z, s = ord S /\ (forall x, x ∈ S -> 0 <= x < n) /\ 1 <= Z.of_nat (size S) < n.

(** between lo and n - 1 different numbers below n *)
Definition sample_side (lo n : Z) (s : list Z) : Prop :=
  NoDup s /\ Forall (fun x => 0 <= x < n) s /\ lo <= zlen s < n.

(** what the diverse generator can return *)
Definition diverse_data (ord : gset Z -> list Z) (n d l k : Z) (noise : Qc) (F L Ft Lt : list (list Z))
    (rules : list (list Z * list Z)) : Prop :=
  length rules = Z.to_nat k /\
  Forall (fun r => proper_side ord d (fst r) /\ proper_side ord l (snd r)) rules /\
  (exists covers, length covers = length rules /\ covers_below n (n / k) covers /\ covers_disjoint covers /\
     noisy n d noise (map fst rules) covers F /\ noisy n l noise (map snd rules) covers L) /\
  (exists covers, length covers = length rules /\ covers_below (2 * n / 5) (2 * n / 5 / k) covers /\
     covers_disjoint covers /\
     noisy n d noise (map fst rules) covers Ft /\ noisy n l noise (map snd rules) covers Lt).

(** ... and when it fails *)
Definition diverse_error (n d l k : Z) : option exn :=
  if (n <? 0) || (d <? 0) || (l <? 0) then Some ValueError
  else if k <=? 0 then None
  else if (d <=? 2) || (l <=? 2) then Some IndexError
  else if 2 * n / 5 <? k then Some ValueError
  else None.

(** what the other generator can return: rules may cover an example together *)
Definition plain_data (n d l k : Z) (noise : Qc) (F L Ft Lt : list (list Z)) (rules : list (list Z * list Z)) : Prop :=
  length rules = Z.to_nat k /\
  Forall (fun r => sample_side 2 d (fst r) /\ sample_side 1 l (snd r)) rules /\
  (exists covers, length covers = length rules /\ covers_below n (n / k) covers /\
     noisy n d noise (map fst rules) covers F /\ noisy n l noise (map snd rules) covers L) /\
  (exists covers, length covers = length rules /\ covers_below (3 * n / 10) (3 * n / 10 / k) covers /\
     noisy n d noise (map fst rules) covers Ft /\ noisy n l noise (map snd rules) covers Lt).

Definition plain_error (n d l k : Z) : option exn :=
  if (n <? 0) || (d <? 0) || (l <? 0) then Some ValueError
  else if k <=? 0 then Some UnboundLocalError
  else if (d <=? 2) || (l <=? 1) || (3 * n / 10 <? k) then Some ValueError
  else None.

(** The law of one side of a rule of the diverse generator: the size s is drawn among 2 .. n-1 with probability
    proportional to 1/s, then s elements below n are drawn with replacement.  The probability that all of them
    lie in A: *)
Definition Qc_sum (l : list Qc) : Qc := foldr Qcplus 0%Qc l.
Definition side_within (n : Z) (A : gset Z) : Qc :=
  let q := (Qc_of_Z (zlen (filter (fun x => x ∈ A) (seqZ 0 n))) / Qc_of_Z n)%Qc in
  (Qc_sum (map (fun s => 1 / Qc_of_Z s * q ^ (Z.to_nat s)) (seqZ 2 (n - 2)))
   / Qc_sum (map (fun s => 1 / Qc_of_Z s) (seqZ 2 (n - 2))))%Qc.
Definition within (r : list Z * list Z) (AB : gset Z * gset Z) : Prop :=
  Forall (fun x => x ∈ fst AB) (fst r) /\ Forall (fun x => x ∈ snd AB) (snd r).
Global Instance within_dec r AB : Decision (within r AB).
Proof. apply _. Defined.
(** the probability that rule i lies within ABs !! i, for all i, when the rules are drawn independently *)
Definition rules_within (d l : Z) (ABs : list (gset Z * gset Z)) : Qc :=
  foldr (fun AB q => side_within d (fst AB) * side_within l (snd AB) * q)%Qc 1%Qc ABs.
