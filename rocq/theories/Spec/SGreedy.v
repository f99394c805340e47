(** What the greedy classifiers should do, stated on label cells and on the samplers' answers. *)
From Coq Require Import Reals.
From Verif.Model Require Import PyBase PyReal Sparse Rule Greedy PyState.
From Verif.Spec Require Import SMatrix SRule.
Open Scope Z_scope.

(** [b] is a rule bound to the dataset (X, Y), and [A] is the set of label cells it covers. *)
Definition covering (ord : gset Z -> list Z) (X Y : csc) (b : bound) (A : gset (Z * Z)) : Prop :=
  exists h t : list Z, NoDup t /\ (forall c, c ∈ t -> 0 <= c) /\
    bind_dataset ord (new_rule h t) X Y = Ok b /\ (forall c, c ∈ A <-> covers X Y h t c).

(** Cells covered by at least one of the sets. *)
Definition all_cells (As : list (gset (Z * Z))) : gset (Z * Z) := ⋃ As.

(** Sum of the Jaccard distances of all pairs i < j. *)
Definition pair_diversity (As : list (gset (Z * Z))) : R :=
  rsum (concat (imap (fun i A => map (jaccard A) (drop (Datatypes.S i) As)) As)).

(** The number of cells of A outside all of As, as a real number. *)
Definition fresh (A : gset (Z * Z)) (As : list (gset (Z * Z))) : R := INR (size (A ∖ all_cells As)).

(** What the samplers answered in one call of generate_candidate_rules: [n] tails in turn, each followed by
    fitting the head sampler on the rows that have the tail and drawing heads. *)
Inductive draws_from {W} (S : samplers W) (X Y : csr) (n_heads : Z)
    : nat -> W -> list (gset Z * list (option (gset Z))) -> W -> Prop :=
| DF_nil w : draws_from S X Y n_heads 0 w [] w
| DF_cons n w w1 w2 w3 w4 (tail : gset Z) y heads ds :
    tail_sample_once S w = (Ok tail, w1) ->
    (tail <> ∅ -> (forall c, c ∈ tail -> 0 <= c < csr_cols Y) ->
       zlen y = csr_rows Y /\
       forall i, 0 <= i < csr_rows Y -> (y !! Z.to_nat i = Some true <-> forall c, c ∈ tail -> csr_has Y i c)) ->
    head_fit S X y w1 = (Ok tt, w2) ->
    head_sample S n_heads w2 = (Ok heads, w3) ->
    draws_from S X Y n_heads n w3 ds w4 ->
    draws_from S X Y n_heads (Datatypes.S n) w ((tail, heads) :: ds) w4.

(** No sampler method answers with the model's loop marker (it is not a Python exception). *)
Definition sane {W} (S : samplers W) : Prop :=
  (forall Y w, fst (tail_fit S Y w) <> Err OutOfFuel) /\
  (forall w, fst (tail_sample_once S w) <> Err OutOfFuel) /\
  (forall s t w, fst (tail_update S s t w) <> Err OutOfFuel) /\
  (forall X y w, fst (head_fit S X y w) <> Err OutOfFuel) /\
  (forall n w, fst (head_sample S n w) <> Err OutOfFuel).

(** The set iteration order lists every candidate once. *)
Definition iter_ok {W} (S : samplers W) : Prop := forall w l, rule_iter S w l ≡ₚ l.

(** Every tail the tail sampler returns is a set of labels of a matrix with L columns. *)
Definition tails_valid {W} (S : samplers W) (L : Z) : Prop :=
  forall w w' tail, tail_sample_once S w = (Ok tail, w') -> forall c, c ∈ tail -> 0 <= c < L.

(** [b] is bound to some dataset and covers the label cells [A] there.  (Rules kept from an earlier fit may
    belong to other data than the candidates.) *)
Definition covers_somewhere (ord : gset Z -> list Z) (b : bound) (A : gset (Z * Z)) : Prop :=
  exists X Y : csc, dataset X Y /\ covering ord X Y b A.

(** The Kullback-Leibler quality of a rule with precision p and base rate q. *)
Definition kl_quality (p q : R) : R := if Rlt_dec q p then bernoulli_KL p q else 0%R.

(** Every two rules, a rule and itself included when it occurs twice, cover at least one cell together. *)
Definition pairs_covered (As : list (gset (Z * Z))) : Prop :=
  forall i j A B, (i < j)%nat -> As !! i = Some A -> As !! j = Some B -> A ∪ B <> ∅.

(** Some rule is proposed, fitted and sampled with the current state [w]: tail [t], labels [y], heads [hs]. *)
Definition proposes {W} (S : samplers W) (X Y : csr) (n_heads : Z) (w : W) (t : gset Z) (y : list bool)
    (hs : list (option (gset Z))) (w' : W) : Prop :=
  exists w1 w2, tail_sample_once S w = (Ok t, w1) /\ t <> ∅ /\ (forall c, c ∈ t -> 0 <= c < csr_cols Y) /\
    zlen y = csr_rows Y /\
    (forall i, 0 <= i < csr_rows Y -> (y !! Z.to_nat i = Some true <-> forall c, c ∈ t -> csr_has Y i c)) /\
    head_fit S X y w1 = (Ok tt, w2) /\ head_sample S n_heads w2 = (Ok hs, w').
