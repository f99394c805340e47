(** Vocabulary for the greedy head samplers: gains, greedy runs and what they return. *)
From Verif.Model Require Import PyBase Rand Sparse GreedyHead.
From Verif.Spec Require Import SMatrix SCftp SBoley.
Open Scope Z_scope.

(** Parameters and data of a run: are gains divided by the frequency of the attribute, gamma, early_stop_epsilon, the
    attribute sets of the rows, and their labels. *)
Record ghspec := GHSpec { sp_norm : bool; sp_gamma : Qc; sp_eps : Qc; sp_rows : list (gset Z); sp_y : list Z }.

(** Number of positive (negative) rows that have all attributes of T. *)
Definition n_pos_with (sp : ghspec) (T : gset Z) : Z := set_count (fun v => 0 <? v) (sp_rows sp) (sp_y sp) T.
Definition n_neg_with (sp : ghspec) (T : gset Z) : Z := set_count (fun v => v =? 0) (sp_rows sp) (sp_y sp) T.

(** Gain of the attribute a after T: positive minus gamma times negative rows with T and a; CFTP_Greedy divides by the
    number of rows with a. *)
Definition head_gain (sp : ghspec) (T : gset Z) (a : Z) : Qc :=
  ((Qc_of_Z (n_pos_with sp ({[ a ]} ∪ T)) - sp_gamma sp * Qc_of_Z (n_neg_with sp ({[ a ]} ∪ T))) /
   (if sp_norm sp then Qc_of_Z (supp (sp_rows sp) {[ a ]}) else 1))%Qc.

(** a is the attribute of the universe U, not in T, with the largest gain; of several, the first in the order in
    which Python goes through the set. *)
Definition best_next (ord : gset Z -> list Z) (sp : ghspec) (U T : gset Z) (a : Z) : Prop :=
  exists l1 l2, ord (U ∖ T) = l1 ++ a :: l2 /\
    (forall b, b ∈ l1 -> (head_gain sp T b < head_gain sp T a)%Qc) /\
    (forall b, b ∈ l2 -> (head_gain sp T b <= head_gain sp T a)%Qc).

(** Too few rows have all attributes of T: fewer than eps times the number of positive rows. *)
Definition too_few (sp : ghspec) (T : gset Z) : Prop :=
  (Qc_of_Z (supp (sp_rows sp) T) < sp_eps sp * Qc_of_Z (n_pos_with sp ∅))%Qc.

(** xs is the complete list of attributes chosen from U: each is the best one after those before it, each but the
    first leaves enough rows, and at the end U is used up or the best attribute would leave too few. *)
Definition greedy_run (ord : gset Z -> list Z) (sp : ghspec) (U : gset Z) (xs : list Z) : Prop :=
  xs <> [] /\
  (forall pre a post, xs = pre ++ a :: post ->
     best_next ord sp U (list_to_set pre) a /\ (pre <> [] -> ~ too_few sp ({[ a ]} ∪ list_to_set pre))) /\
  (U ⊆ list_to_set xs \/ exists b, best_next ord sp U (list_to_set xs) b /\ too_few sp ({[ b ]} ∪ list_to_set xs)).

(** T consists of the attributes of xs up to the first one with the largest gain. *)
Definition best_prefix (sp : ghspec) (xs : list Z) (T : gset Z) : Prop :=
  exists pre a post, xs = pre ++ a :: post /\ T = list_to_set (pre ++ [a]) /\
    forall pre' b post', xs = pre' ++ b :: post' ->
      let g := head_gain sp (list_to_set pre) a in let g' := head_gain sp (list_to_set pre') b in
      (g' <= g)%Qc /\ ((length pre' < length pre)%nat -> (g' < g)%Qc).

(** What greedy_choice returns for the universe U. *)
Definition greedy_result (ord : gset Z -> list Z) (sp : ghspec) (U T : gset Z) : Prop :=
  exists xs, greedy_run ord sp U xs /\ best_prefix sp xs T.

(** The data used after a fit on X are those of the first fit: X0 is the matrix of an earlier first fit whose rows,
    index and frequencies are kept, or X itself. *)
Definition first_matrix (ord : gset Z -> list Z) (cache : option ghcache) (X X0 : csr) : Prop :=
  (cache = None /\ X0 = X) \/ exists y0 s0, gh_fit ord None X0 y0 = Ok s0 /\ cache = Some (gh_c s0).

(** rows are the attribute sets of the rows of X. *)
Definition rows_of (X : csr) (rows : list (gset Z)) : Prop :=
  zlen rows = csr_rows X /\ forall i F, 0 <= i -> rows !! Z.to_nat i = Some F -> forall a, a ∈ F <-> csr_has X i a.

(** Sum of f over the pairs of a positive and a negative row. *)
Definition pairs_total (f : gset Z -> gset Z -> Z) (rows : list (gset Z)) (y : list Z) : Z :=
  zsum (map (fun p : gset Z * Z => zsum (map (fun n : gset Z * Z => f (fst p) (fst n))
      (List.filter (fun ry : gset Z * Z => snd ry =? 0) (zip rows y))))
    (List.filter (fun ry : gset Z * Z => 0 <? snd ry) (zip rows y))).
(** Number of attributes of the first set that the second lacks. *)
Definition n_extra (P N : gset Z) : Z := Z.of_nat (size (P ∖ N)).
(** Sum of the sizes of the positive rows. *)
Definition pos_size (rows : list (gset Z)) (y : list Z) : Z :=
  zsum (map (fun p : gset Z * Z => Z.of_nat (size (fst p))) (List.filter (fun ry : gset Z * Z => 0 <? snd ry) (zip rows y))).
