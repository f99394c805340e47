(** Properties of rules: support, identity, distance, quality, marginal coverage (C01-C09). *)
From Coq Require Import Reals Lra.
From Verif.Model Require Import PyBase PyReal Sparse Utils Rule.
From Verif.Spec Require Import SMatrix SRule.
Open Scope Z_scope.
From Verif.Proofs Require Import T_Rule.
Open Scope Z_scope.

(** A small dataset used by the examples: 4 rows, 3 features, 3 labels. *)
Definition exX : csc := tocsc (Csr (of_lines 3 [[(0,1);(1,1)]; [(0,1)]; [(1,1);(2,1)]; [(0,1);(1,1)]])).
Definition exY : csc := tocsc (Csr (of_lines 3 [[(0,1);(1,1)]; [(0,1);(1,1)]; [(2,1)]; [(0,1)]])).

Example ex_dataset : dataset exX exY.
Proof. repeat split; vm_compute; done. Qed.
Example ex_order : set_order elements.
Proof. intros s. done. Qed.
Definition exB (h t : list Z) : bound :=
  match bind_dataset elements (new_rule h t) exX exY with
  | Ok b => b
  | Err _ => MkBound (new_rule [] []) 0 0 0 0 ∅ 0 ∅ 0 ∅ 0
  end.

(** C01. After a successful bind_dataset the three supports are exactly the matching rows and the
    size attributes are their cardinalities.  [tail] ids are non-negative (see C02 for negative ids). *)
Theorem C01_support_exact : forall (ord : gset Z -> list Z) (X Y : csc) (head tail : list Z) b,
  set_order ord -> dataset X Y -> (forall c, c ∈ tail -> 0 <= c) ->
  bind_dataset ord (new_rule head tail) X Y = Ok b ->
  (forall i, i ∈ b_head_support b <-> row_matches X head i) /\
  (forall i, i ∈ b_tail_support b <-> row_matches Y tail i) /\
  (forall i, i ∈ b_support b <-> row_matches X head i /\ row_matches Y tail i) /\
  b_head_support_size b = Z.of_nat (size (b_head_support b)) /\
  b_tail_support_size b = Z.of_nat (size (b_tail_support b)) /\
  b_support_size b = Z.of_nat (size (b_support b)) /\
  b_num_positives b = Z.of_nat (size (b_tail_support b)) /\
  b_N b = csc_rows X /\ b_D b = csc_cols X /\ b_L b = csc_cols Y.
Proof. exact C01_support_exact_proof. Qed.
Print Assumptions C01_support_exact.

Example C01_ex : is_ok (bind_dataset elements (new_rule [1; 0] [0]) exX exY) = true /\
  b_support (exB [1; 0] [0]) = {[0; 3]} /\ b_head_support_size (exB [1; 0] [0]) = 2.
Proof.
  split; [vm_compute; done|]. split; [|vm_compute; done].
  by_compute.
Qed.

(** C02. The complete decision table of bind_dataset on a dataset, for tails without negative ids. *)
Theorem C02_bind_outcomes : forall (ord : gset Z -> list Z) (X Y : csc) (head tail : list Z),
  set_order ord -> dataset X Y -> (forall c, c ∈ tail -> 0 <= c) ->
  let outcome := bind_dataset ord (new_rule head tail) X Y in
  (* a head id outside [0, D) *)
  (~ valid_items X head -> outcome = Err ValueError) /\
  (* otherwise an empty tail, a label >= L, an empty head *)
  (valid_items X head -> tail = [] -> outcome = Err AssertionError) /\
  (valid_items X head -> ~ valid_items Y tail -> outcome = Err IndexError) /\
  (head = [] -> tail <> [] -> valid_items Y tail -> outcome = Err AssertionError) /\
  (* both non-empty and valid: fails iff no row has the whole head *)
  (head <> [] -> tail <> [] -> valid_items X head -> valid_items Y tail ->
     ((forall i, ~ row_matches X head i) <-> outcome = Err ValueError) /\
     ((exists i, row_matches X head i) <-> exists b, outcome = Ok b)).
Proof. exact C02_bind_outcomes_proof. Qed.
Print Assumptions C02_bind_outcomes.

Example C02_ex :
  bind_dataset elements (new_rule [3] [0]) exX exY = Err ValueError /\
  bind_dataset elements (new_rule [-1] [0]) exX exY = Err ValueError /\
  bind_dataset elements (new_rule [0; 2] [0]) exX exY = Err ValueError /\
  bind_dataset elements (new_rule [0] []) exX exY = Err AssertionError /\
  bind_dataset elements (new_rule [] [0]) exX exY = Err AssertionError /\
  bind_dataset elements (new_rule [0] [3]) exX exY = Err IndexError.
Proof. vm_compute. done. Qed.

(** C02. A tail that contains the label id -1 is accepted silently: the binding succeeds whenever the
    head is fine, and the rule then covers nothing. *)
Theorem C02_negative_tail_accepted : forall (ord : gset Z -> list Z) (X Y : csc) head,
  set_order ord -> dataset X Y -> head <> [] -> valid_items X head ->
  (exists i, row_matches X head i) ->
  exists b, bind_dataset ord (new_rule head [-1]) X Y = Ok b /\ b_support b = ∅.
Proof. exact C02_negative_tail_accepted_proof. Qed.
Print Assumptions C02_negative_tail_accepted.

Example C02_negative_ex : is_ok (bind_dataset elements (new_rule [0] [-1]) exX exY) = true.
Proof. vm_compute. done. Qed.

(** C03. On binary matrices both conjunctive_collapse implementations return the vector whose i-th entry
    says that row i has every column, and support_size counts its true entries. *)
Theorem C03_collapse_agree : forall ord Y cols,
  set_order ord -> wf_cmat (csc_mat Y) = true -> binary (csc_mat Y) -> cols <> [] ->
  valid_items Y cols ->
  exists v,
    conjunctive_collapse Y cols = Ok v /\ conjunctive_collapse_v2 ord Y cols = Ok v /\
    zlen v = csc_rows Y /\
    (forall i, 0 <= i < csc_rows Y -> (v !! Z.to_nat i = Some true <-> row_matches Y cols i)) /\
    (forall S : gset Z, (forall i, i ∈ S <-> row_matches Y cols i) ->
       support_size Y cols = Ok (Z.of_nat (size S))).
Proof. exact C03_collapse_agree_proof. Qed.
Print Assumptions C03_collapse_agree.

Example C03_binary_ex : binary (csc_mat exY).
Proof.
  apply Verif.Proofs.PSparse.binary_b_ok; vm_compute; done.
Qed.
Example C03_ex : conjunctive_collapse exY [0; 1] = Ok [true; true; false; false] /\
  support_size exY [0; 1] = Ok 2.
Proof. vm_compute. done. Qed.

(** C04. Rules built from duplicate-free iterables are equal iff head and tail are equal as sets; equality
    coincides with equality of the hashed keys. *)
Theorem C04_rule_identity : forall h1 t1 h2 t2 : list Z,
  NoDup h1 -> NoDup t1 -> NoDup h2 -> NoDup t2 ->
  (rule_eqb (new_rule h1 t1) (new_rule h2 t2) = true <->
     (forall x, x ∈ h1 <-> x ∈ h2) /\ (forall x, x ∈ t1 <-> x ∈ t2)) /\
  (rule_eqb (new_rule h1 t1) (new_rule h2 t2) = true <->
     rule_hash_key (new_rule h1 t1) = rule_hash_key (new_rule h2 t2)).
Proof. exact C04_rule_identity_proof. Qed.
Print Assumptions C04_rule_identity.

Example C04_ex : rule_eqb (new_rule [2; 0; 5] [1; 0]) (new_rule [5; 2; 0] [0; 1]) = true /\
  rule_eqb (new_rule [2; 0] [1; 0]) (new_rule [2; 0] [1]) = false.
Proof. vm_compute. done. Qed.

(** C04. Pickling then unpickling a bound rule yields the equal unbound rule. *)
Theorem C04_pickle_round_trip : forall b,
  rule_setstate (rule_getstate b) = b_rule b /\
  rule_eqb (rule_setstate (rule_getstate b)) (b_rule b) = true.
Proof. exact C04_pickle_round_trip_proof. Qed.
Print Assumptions C04_pickle_round_trip.

Example C04_pickle_ex : rule_setstate (rule_getstate (exB [1; 0] [0])) = new_rule [0; 1] [0] /\ b_support_size (exB [1; 0] [0]) = 2.
Proof. vm_compute. done. Qed.

(** C05. The distance of two bound rules with some covered cell is the Jaccard distance of the covered
    label cells; it lies in [0,1], is symmetric and vanishes exactly on equal areas. *)
Theorem C05_distance_is_jaccard : forall (ord : gset Z -> list Z) (X Y : csc) (h1 t1 h2 t2 : list Z) (b1 b2 : bound) (A B : gset (Z * Z)),
  set_order ord -> dataset X Y ->
  (forall c, c ∈ t1 -> 0 <= c) -> (forall c, c ∈ t2 -> 0 <= c) -> NoDup t1 -> NoDup t2 ->
  bind_dataset ord (new_rule h1 t1) X Y = Ok b1 ->
  bind_dataset ord (new_rule h2 t2) X Y = Ok b2 ->
  (forall c, c ∈ A <-> covers X Y h1 t1 c) -> (forall c, c ∈ B <-> covers X Y h2 t2 c) ->
  A ∪ B <> ∅ ->
  distance b1 b2 = Ok (jaccard A B) /\ distance b2 b1 = Ok (jaccard A B) /\
  (0 <= jaccard A B <= 1)%R /\ (jaccard A B = 0%R <-> A = B).
Proof. exact C05_distance_is_jaccard_proof. Qed.
Print Assumptions C05_distance_is_jaccard.

(** Hypotheses met: areas {(0,0),(1,0),(3,0)} and {(0,0),(0,1),(1,0),(1,1)}. *)
Example C05_ex : label_occs (exB [0] [0]) = {[(0,0);(1,0);(3,0)]} /\
  label_occs (exB [0] [0;1]) = {[(0,0);(0,1);(1,0);(1,1)]} /\
  label_occs (exB [0] [0]) ∪ label_occs (exB [0] [0;1]) <> ∅.
Proof.
  split; [by_compute|].
  split; [by_compute|].
  by_compute.
Qed.
Example C05_ex_value : distance (exB [0] [0]) (exB [0] [0;1]) = Ok (1 - IZR 2 / IZR 5)%R.
Proof. vm_compute. done. Qed.

(** C06. Triangle inequality: whenever the three distances exist. *)
Theorem C06_triangle : forall (ord : gset Z -> list Z) (X Y : csc) (h1 t1 h2 t2 h3 t3 : list Z) b1 b2 b3 d12 d23 d13,
  set_order ord -> dataset X Y ->
  (forall c, c ∈ t1 ++ t2 ++ t3 -> 0 <= c) -> NoDup t1 -> NoDup t2 -> NoDup t3 ->
  bind_dataset ord (new_rule h1 t1) X Y = Ok b1 ->
  bind_dataset ord (new_rule h2 t2) X Y = Ok b2 ->
  bind_dataset ord (new_rule h3 t3) X Y = Ok b3 ->
  distance b1 b2 = Ok d12 -> distance b2 b3 = Ok d23 -> distance b1 b3 = Ok d13 ->
  (d13 <= d12 + d23)%R.
Proof. exact C06_triangle_proof. Qed.
Print Assumptions C06_triangle.

Lemma ex_bind : bind_dataset elements (new_rule [0] [0]) exX exY = Ok (exB [0] [0]) /\
  bind_dataset elements (new_rule [0] [0; 1]) exX exY = Ok (exB [0] [0; 1]) /\ bind_dataset elements (new_rule [2] [2]) exX exY = Ok (exB [2] [2]) /\
  bind_dataset elements (new_rule [1] [0]) exX exY = Ok (exB [1] [0]) /\ bind_dataset elements (new_rule [0; 1] [0; 1]) exX exY = Ok (exB [0; 1] [0; 1]).
Proof. split_and!; vm_compute; reflexivity. Qed.
(** Distances 3/5, 1, 1, and 5/6 to the rule {1} -> {0} between. *)
Example C06_ex : distance (exB [0] [0]) (exB [0] [0;1]) = Ok (1 - IZR 2 / IZR 5)%R /\
  distance (exB [0] [0;1]) (exB [1] [0]) = Ok (1 - IZR 1 / IZR 5)%R /\ distance (exB [0] [0]) (exB [1] [0]) = Ok (1 - IZR 2 / IZR 3)%R /\
  distance (exB [0] [0;1]) (exB [2] [2]) = Ok (1 - IZR 0 / IZR 5)%R /\
  (1 - IZR 2 / IZR 3 <= (1 - IZR 2 / IZR 5) + (1 - IZR 1 / IZR 5))%R.
Proof.
  assert (H1 : distance (exB [0] [0]) (exB [0] [0;1]) = Ok (1 - IZR 2 / IZR 5)%R) by (vm_compute; reflexivity).
  assert (H2 : distance (exB [0] [0;1]) (exB [1] [0]) = Ok (1 - IZR 1 / IZR 5)%R) by (vm_compute; reflexivity).
  assert (H3 : distance (exB [0] [0]) (exB [1] [0]) = Ok (1 - IZR 2 / IZR 3)%R) by (vm_compute; reflexivity).
  split; [exact H1|]. split; [exact H2|]. split; [exact H3|]. split; [vm_compute; reflexivity|].
  destruct ex_bind as (B1 & B2 & _ & B4 & _).
  assert (P : forall c : Z, c ∈ [0] ++ [0; 1] ++ [0] -> 0 <= c) by (intros c Hc; cbn in Hc; rewrite !elem_of_cons, elem_of_nil in Hc; lia).
  assert (N1 : NoDup [0]) by (apply (bool_decide_unpack (NoDup [0])); vm_compute; exact I).
  assert (N2 : NoDup [0; 1]) by (apply (bool_decide_unpack (NoDup [0; 1])); vm_compute; exact I).
  exact (C06_triangle elements exX exY [0] [0] [0] [0; 1] [1] [0] (exB [0] [0]) (exB [0] [0; 1]) (exB [1] [0])
    (1 - IZR 2 / IZR 5)%R (1 - IZR 1 / IZR 5)%R (1 - IZR 2 / IZR 3)%R ex_order ex_dataset P N1 N2 N1 B1 B2 B4 H1 H2 H3).
Qed.

(** C07. distance raises ZeroDivisionError exactly when neither rule covers any cell, and returns a number
    otherwise. *)
Theorem C07_distance_defined : forall (ord : gset Z -> list Z) (X Y : csc) (h1 t1 h2 t2 : list Z) b1 b2,
  set_order ord -> dataset X Y ->
  (forall c, c ∈ t1 -> 0 <= c) -> (forall c, c ∈ t2 -> 0 <= c) -> NoDup t1 -> NoDup t2 ->
  bind_dataset ord (new_rule h1 t1) X Y = Ok b1 ->
  bind_dataset ord (new_rule h2 t2) X Y = Ok b2 ->
  ((forall c, ~ covers X Y h1 t1 c /\ ~ covers X Y h2 t2 c) <-> distance b1 b2 = Err ZeroDivisionError) /\
  ((exists c, covers X Y h1 t1 c \/ covers X Y h2 t2 c) <-> exists d, distance b1 b2 = Ok d).
Proof. exact C07_distance_defined_proof. Qed.
Print Assumptions C07_distance_defined.

Example C07_ex : distance (exB [0] [2]) (exB [1] [1; 2]) = Err ZeroDivisionError.
Proof. vm_compute. done. Qed.

(** C08. Rates of a bound rule: precision = |D[R]|/|D[H]| and base rate = |D[T]|/|D| exist and lie in
    [0,1]; recall exists exactly when the tail occurs and then lies in [0,1]. *)
Theorem C08_rates : forall (ord : gset Z -> list Z) (X Y : csc) (head tail : list Z) (b : bound) (H T S : gset Z),
  set_order ord -> dataset X Y -> (forall c, c ∈ tail -> 0 <= c) ->
  bind_dataset ord (new_rule head tail) X Y = Ok b ->
  (forall i, i ∈ H <-> row_matches X head i) -> (forall i, i ∈ T <-> row_matches Y tail i) ->
  S = H ∩ T ->
  let sz s := INR (size (s : gset Z)) in
  precision b = Ok (sz S / sz H)%R /\ (0 <= sz S / sz H <= 1)%R /\
  base_rate b = Ok (sz T / IZR (csc_rows X))%R /\ (0 <= sz T / IZR (csc_rows X) <= 1)%R /\
  (T = ∅ -> recall b = Err NonFinite) /\
  (T <> ∅ -> recall b = Ok (sz S / sz T)%R /\ (0 <= sz S / sz T <= 1)%R).
Proof. exact C08_rates_proof. Qed.
Print Assumptions C08_rates.

Example C08_ex : precision (exB [0] [0; 1]) = Ok (IZR 2 / IZR 3)%R /\
  base_rate (exB [0] [0; 1]) = Ok (IZR 2 / IZR 4)%R /\ recall (exB [0] [0; 1]) = Ok (IZR 2 / IZR 2)%R.
Proof. vm_compute. done. Qed.

(** C08. KL never fails: it is 0 when precision <= base rate, otherwise the (positive, finite)
    Kullback-Leibler divergence between the two Bernoulli distributions. *)
Theorem C08_KL : forall (ord : gset Z -> list Z) (X Y : csc) (head tail : list Z) b p q,
  set_order ord -> dataset X Y -> (forall c, c ∈ tail -> 0 <= c) ->
  bind_dataset ord (new_rule head tail) X Y = Ok b ->
  precision b = Ok p -> base_rate b = Ok q ->
  exists v, KL b = Ok v /\ (0 <= v)%R /\
    ((p <= q)%R -> v = 0%R) /\
    ((q < p)%R -> v = bernoulli_KL p q /\ (0 < v)%R).
Proof. exact C08_KL_proof. Qed.
Print Assumptions C08_KL.

Lemma ex_tail01 : forall c : Z, c ∈ [0; 1] -> 0 <= c.
Proof. intros c Hc. rewrite !elem_of_cons, elem_of_nil in Hc. lia. Qed.
(** {0} -> {0,1} has precision 2/3, {0,1} -> {0,1} has precision 1/2, which is the base rate of both. *)
Example C08_KL_ex : exists v, KL (exB [0] [0; 1]) = Ok v /\ v = bernoulli_KL (IZR 2 / IZR 3) (IZR 2 / IZR 4) /\ (0 < v)%R /\
  KL (exB [0; 1] [0; 1]) = Ok 0%R.
Proof.
  destruct ex_bind as (_ & B2 & _ & _ & B5).
  destruct (C08_KL elements exX exY [0] [0; 1] (exB [0] [0; 1]) (IZR 2 / IZR 3) (IZR 2 / IZR 4) ex_order ex_dataset ex_tail01 B2
    ltac:(vm_compute; reflexivity) ltac:(vm_compute; reflexivity)) as (v & H1 & _ & _ & H4).
  destruct (C08_KL elements exX exY [0; 1] [0; 1] (exB [0; 1] [0; 1]) (IZR 1 / IZR 2) (IZR 2 / IZR 4) ex_order ex_dataset ex_tail01 B5
    ltac:(vm_compute; reflexivity) ltac:(vm_compute; reflexivity)) as (v' & H1' & _ & H3' & _).
  exists v. split; [exact H1|]. destruct H4 as [H4 H5]; [lra|]. split; [exact H4|]. split; [exact H5|]. rewrite H1', H3'; [reflexivity|lra].
Qed.

(** C08. Among rules with the same base rate, KL grows strictly with precision above the base rate. *)
Theorem C08_KL_increasing : forall b1 b2 p1 p2 q v1 v2 ord1 ord2 X1 Y1 (h1 t1 : list Z) X2 Y2 (h2 t2 : list Z),
  set_order ord1 -> set_order ord2 -> dataset X1 Y1 -> dataset X2 Y2 ->
  (forall c, c ∈ t1 -> 0 <= c) -> (forall c, c ∈ t2 -> 0 <= c) ->
  bind_dataset ord1 (new_rule h1 t1) X1 Y1 = Ok b1 ->
  bind_dataset ord2 (new_rule h2 t2) X2 Y2 = Ok b2 ->
  precision b1 = Ok p1 -> precision b2 = Ok p2 -> base_rate b1 = Ok q -> base_rate b2 = Ok q ->
  KL b1 = Ok v1 -> KL b2 = Ok v2 ->
  (q <= p1)%R -> (p1 < p2)%R -> (v1 < v2)%R.
Proof. exact C08_KL_increasing_proof. Qed.
Print Assumptions C08_KL_increasing.

Example C08_KL_increasing_ex : exists v1 v2, KL (exB [0; 1] [0; 1]) = Ok v1 /\ KL (exB [0] [0; 1]) = Ok v2 /\ (v1 < v2)%R.
Proof.
  destruct C08_KL_ex as (v & H1 & _ & _ & H2). destruct ex_bind as (_ & B2 & _ & _ & B5). exists 0%R, v. split; [exact H2|]. split; [exact H1|].
  apply (C08_KL_increasing (exB [0; 1] [0; 1]) (exB [0] [0; 1]) (IZR 1 / IZR 2) (IZR 2 / IZR 3) (IZR 2 / IZR 4) 0 v elements elements exX exY [0; 1] [0; 1] exX exY [0] [0; 1]
    ex_order ex_order ex_dataset ex_dataset ex_tail01 ex_tail01 B5 B2); [vm_compute; reflexivity|vm_compute; reflexivity| |vm_compute; reflexivity|exact H2|exact H1|lra|lra].
  vm_compute. reflexivity.
Qed.

(** C09. marginal_coverage counts the label cells covered by the rule and by no reference rule. *)
Theorem C09_marginal_coverage_exact : forall (ord : gset Z -> list Z) (X Y : csc) (head tail : list Z) (b : bound) (refs : list (list Z * list Z * bound)) (S : gset (Z * Z)),
  set_order ord -> dataset X Y -> (forall c, c ∈ tail -> 0 <= c) ->
  bind_dataset ord (new_rule head tail) X Y = Ok b ->
  (* each reference (h, t, b') is a rule bound to the same data *)
  Forall (fun r : list Z * list Z * bound => let '(h, t, b') := r in
     (forall c, c ∈ t -> 0 <= c) /\ bind_dataset ord (new_rule h t) X Y = Ok b') refs ->
  (forall c, c ∈ S <-> covers X Y head tail c /\
                       ~ exists h t b', (h, t, b') ∈ refs /\ covers X Y h t c) ->
  marginal_coverage b (map snd refs) = Ok (Z.of_nat (size S)).
Proof. exact C09_marginal_coverage_exact_proof. Qed.
Print Assumptions C09_marginal_coverage_exact.

(** Four covered cells, one of them also covered by {1} -> {0}. *)
Example C09_exact_ex : Forall (fun r : list Z * list Z * bound => let '(h, t, b') := r in
     (forall c, c ∈ t -> 0 <= c) /\ bind_dataset elements (new_rule h t) exX exY = Ok b') [([1], [0], exB [1] [0]); ([2], [2], exB [2] [2])] /\
  marginal_coverage (exB [0] [0; 1]) (map snd [([1], [0], exB [1] [0]); ([2], [2], exB [2] [2])]) = Ok 3.
Proof.
  destruct ex_bind as (_ & _ & B3 & B4 & _). split; [|vm_compute; reflexivity].
  constructor; [split; [|exact B4]; intros c Hc; apply elem_of_list_singleton in Hc as ->; lia|].
  constructor; [split; [|exact B3]; intros c Hc; apply elem_of_list_singleton in Hc as ->; lia|constructor].
Qed.

(** C09. Order and multiplicity of the references are irrelevant, more references never increase the
    value (diminishing returns), the rule itself among the references gives 0, and it never raises. *)
Theorem C09_marginal_coverage_laws : forall (b : bound) (refs refs' : list bound),
  (exists n, marginal_coverage b refs = Ok n /\ 0 <= n) /\
  ((forall r, r ∈ refs <-> r ∈ refs') -> marginal_coverage b refs = marginal_coverage b refs') /\
  ((forall r, r ∈ refs -> r ∈ refs') ->
     forall n n', marginal_coverage b refs = Ok n -> marginal_coverage b refs' = Ok n' -> n' <= n) /\
  (b ∈ refs -> marginal_coverage b refs = Ok 0) /\
  (NoDup (r_tail (b_rule b)) -> b_support_size b = Z.of_nat (size (b_support b)) ->
     marginal_coverage b [] = Ok (label_area b)).
Proof. exact C09_marginal_coverage_laws_proof. Qed.
Print Assumptions C09_marginal_coverage_laws.

Example C09_ex : marginal_coverage (exB [0] [0;1]) [exB [1] [0]; exB [2] [2]] = Ok 3 /\
  marginal_coverage (exB [0] [0;1]) [] = Ok 4.
Proof. vm_compute. done. Qed.
