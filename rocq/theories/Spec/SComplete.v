(** Vocabulary for the complete classifiers: itemsets of a 0/1 matrix and what a learned rule has to be, on matrix cells. *)
From Coq Require Import QArith.Qcanon Reals.
From stdpp Require Import numbers.
From Verif.Model Require Import PyBase Sparse.
From Verif.Spec Require Import SMatrix SGraph.
Open Scope Z_scope.

(** row i has all items of s *)
Definition row_has (M : csr) (i : Z) (s : gset Z) : Prop := forall c, c ∈ s -> csr_has M i c.

(** n rows have all items of s *)
Definition n_rows_with (M : csr) (s : gset Z) (n : Z) : Prop :=
  exists B : gset Z, (forall i, i ∈ B <-> 0 <= i < csr_rows M /\ row_has M i s) /\ n = Z.of_nat (size B).

(** u and v share a row, and w is the probability that they are connected: the noisy-or of the two confidences *)
Definition connection (M : csr) (u v : Z) (w : Qc) : Prop :=
  exists nu nv nuv, n_rows_with M {[u]} nu /\ n_rows_with M {[v]} nv /\ n_rows_with M {[u; v]} nuv /\ 0 < nuv /\
    w = (1 - (1 - Qc_of_Z nuv / Qc_of_Z nu) * (1 - Qc_of_Z nuv / Qc_of_Z nv))%Qc.

(** s is one column, or a set of pairwise connected columns whose connection probabilities multiply to alpha or more *)
Definition probable_itemset (M : csr) (alpha : Qc) (s : gset Z) : Prop :=
  exists (l : list Z) (ws : list Qc), l <> [] /\ StronglySorted Z.lt l /\ (forall c, c ∈ s <-> c ∈ l) /\
    (forall c, c ∈ s -> 0 <= c < csr_cols M) /\
    Forall2 (fun uv w => connection M (fst uv) (snd uv) w) (all_pairs l) ws /\ (length l = 1%nat \/ (alpha <= qprod ws)%Qc).

(** head -> tail is a rule of these data: both are probable itemsets, some row has both, and some row has neither *)
Definition learned (X Y : csr) (alpha_x alpha_y : Qc) (head tail : gset Z) : Prop :=
  probable_itemset X alpha_x head /\ probable_itemset Y alpha_y tail /\
  (exists p, 0 <= p < csr_rows Y /\ row_has X p head /\ row_has Y p tail) /\
  (exists n, 0 <= n < csr_rows Y /\ ~ row_has X n head /\ ~ row_has Y n tail).

(** a rule with sorted head and tail that belongs to these data; its support are the rows that have both *)
Definition learned_rule (X Y : csr) (alpha_x alpha_y : Qc) (head tail : list Z) (support : gset Z) : Prop :=
  exists h t : gset Z, learned X Y alpha_x alpha_y h t /\
    StronglySorted Z.lt head /\ (forall c, c ∈ head <-> c ∈ h) /\ StronglySorted Z.lt tail /\ (forall c, c ∈ tail <-> c ∈ t) /\
    forall i, i ∈ support <-> 0 <= i < csr_rows Y /\ row_has X i h /\ row_has Y i t.

(** random numbers as a generator supplies them *)
Definition uniform_tape (t : nat -> R) : Prop := forall n, (0 <= t n < 1)%R.
