(** Uncovered area, stated on the list of coverage updates. *)
From Verif.Model Require Import PyBase.
Open Scope Z_scope.

(** Element x of row i has been covered: some update lists row i and element x. *)
Definition covered (ups : list (list Z * gset Z)) (i x : Z) : Prop :=
  Exists (fun u => i ∈ fst u /\ x ∈ snd u) ups.
Global Instance covered_dec ups i x : Decision (covered ups i x).
Proof. unfold covered. apply _. Defined.

(** The elements of s that are not covered in row i, and how many there are. *)
Definition uncovered (ups : list (list Z * gset Z)) (i : Z) (s : gset Z) : gset Z :=
  filter (fun x => ~ covered ups i x) s.
Definition area (ups : list (list Z * gset Z)) (i : Z) (s : gset Z) : Z := Z.of_nat (size (uncovered ups i s)).

(** The samples a row of sample ids refers to. *)
Definition samples (space : list (gset Z)) (row : list Z) : list (gset Z) :=
  omap (fun k => space !! Z.to_nat k) row.

(** Every sample id of every row exists. *)
Definition valid_rows (space : list (gset Z)) (rows : list (list Z)) : Prop :=
  forall row k, row ∈ rows -> k ∈ row -> 0 <= k < zlen space.

(** Every updated row exists. *)
Definition valid_updates (nrows : Z) (ups : list (list Z * gset Z)) : Prop :=
  forall A T i, (A, T) ∈ ups -> i ∈ A -> 0 <= i < nrows.

(** The uncovered area of row i, of all rows, and of all occurrences of one sample. *)
Definition row_area (space : list (gset Z)) (ups : list (list Z * gset Z)) (i : Z) (row : list Z) : Z :=
  zsum (map (area ups i) (samples space row)).
Definition total_area (space : list (gset Z)) (ups : list (list Z * gset Z)) (rows : list (list Z)) : Z :=
  zsum (map (fun ir => row_area space ups (fst ir) (snd ir)) (enumerate rows)).
Definition sample_area (space : list (gset Z)) (ups : list (list Z * gset Z)) (rows : list (list Z)) (s : gset Z) : Z :=
  zsum (map (fun ir => zsum (map (fun t => if decide (t = s) then area ups (fst ir) t else 0)
                                 (samples space (snd ir)))) (enumerate rows)).

(** How often element x of row i has been covered. *)
Definition times_covered (ups : list (list Z * gset Z)) (i x : Z) : Z :=
  zsum (map (fun u => if decide (x ∈ snd u) then zlen (List.filter (Z.eqb i) (fst u)) else 0) ups).
