(** What a list of rules is worth: new label cells weighted by KL, and pairwise distances. *)
From Coq Require Import Reals.
From Verif.Model Require Import PyBase PyReal Sparse Rule.
From Verif.Model Require Greedy.
From Verif.Spec Require Import SMatrix SRule SGreedy.
Open Scope Z_scope.

(** A rule as the label cells it covers and its KL quality. *)
Notation scored := (gset (Z * Z) * R)%type.

(** [b] is the rule head -> tail bound to (X, Y); it covers the cells of [s] and has the KL quality of [s]. *)
Definition scores (ord : gset Z -> list Z) (b : bound) (s : scored) : Prop :=
  exists (X Y : csc) (h t : list Z) (H T : gset Z), dataset X Y /\ NoDup t /\ (forall c, c ∈ t -> 0 <= c) /\
    bind_dataset ord (new_rule h t) X Y = Ok b /\ (forall c, c ∈ s.1 <-> covers X Y h t c) /\
    (forall i, i ∈ H <-> row_matches X h i) /\ (forall i, i ∈ T <-> row_matches Y t i) /\
    s.2 = kl_quality (INR (size (H ∩ T)) / INR (size H)) (INR (size T) / IZR (csc_rows X)).

(** The quality of a list of rules taken in turn: every rule counts the cells no rule before it covers,
    put through [h] (the identity, or the square root), times its KL. *)
Definition quality_sum (h : R -> R) (l : list scored) : R :=
  rsum (imap (fun i s => h (fresh s.1 (map fst (take i l))) * s.2)%R l).

(** The sum of the distances of all pairs. *)
Definition diversity (l : list scored) : R := pair_diversity (map fst l).

(** The value of a list of rules for GreedyDivMax, V2 ([h] the identity) and V3 ([h] the square root). *)
Definition value (h : R -> R) (lambd : R) (l : list scored) : R := (quality_sum h l + lambd * diversity l)%R.

(** The cells covered by a list of rules, as a number. *)
Definition coverage (l : list scored) : R := INR (size (all_cells (map fst l))).

(** The value of a list of rules for GreedySubmod: the KL of the rules that bring a new cell, and the coverage. *)
Definition submod_value (lambd : R) (l : list scored) : R :=
  (rsum (imap (fun i s => if decide (s.1 ⊆ all_cells (map fst (take i l))) then 0 else s.2) l) + lambd * coverage l)%R.

(** How close [picks] is to [opt], another list of the same length, for each class.  With k rules:
    * GreedyDivMax and V2: k times the value of the picks is at least the quality of [opt], and twice their value at
      least lambd times its diversity; if no KL in [opt] exceeds rho times a KL of the picks, the quality of [opt] and
      half its weighted diversity are within the factor 1 + rho for the quality of the picks; for rho = 1 also the
      factor 1 - (1 - 1/k)^k holds for the quality of [opt];
    * V3: the first two;
    * GreedySubmod: k times the value of the picks is at least that of [opt], and their value is at least
      1 - (1 - 1/k)^k times lambd times the coverage of [opt]. *)
Definition near_optimal (cls : Greedy.greedy_class) (lambd : R) (picks opt : list scored) : Prop :=
  let k := length picks in
  let e := (1 - (1 - / INR k) ^ k)%R in
  let within (h : R -> R) :=
    (quality_sum h opt <= INR k * value h lambd picks)%R /\ (lambd * diversity opt <= 2 * value h lambd picks)%R in
  let id := fun x : R => x in
  match cls with
  | Greedy.Submod => (submod_value lambd opt <= INR k * submod_value lambd picks)%R /\
      (e * (lambd * coverage opt) <= submod_value lambd picks)%R
  | Greedy.DivMaxV3 => within R_sqrt.sqrt
  | _ => within id /\
      (forall rho : R, (0 <= rho)%R -> (forall s o, s ∈ picks -> o ∈ opt -> (o.2 <= rho * s.2)%R) ->
         (quality_sum id opt + lambd / 2 * diversity opt <= (1 + rho) * quality_sum id picks + lambd * diversity picks)%R) /\
      ((forall s o, s ∈ picks -> o ∈ opt -> (o.2 <= s.2)%R) -> (e * quality_sum id opt <= value id lambd picks)%R)
  end.
