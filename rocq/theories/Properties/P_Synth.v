(** Properties of the synthetic data generators (C66, C67, C68). *)
From Coq Require Import Qround.
From Verif.Model Require Import PyBase Rand Plot GreedyArea Data Synth.
From Verif.Spec Require Import SSynth.
Open Scope Z_scope.
From Verif.Proofs Require Import T_Synth.
Open Scope Z_scope.

(** C66: exactly what the diverse generator can return, for all sizes, all noise proportions and all draws.
    The training and the test matrices both have n rows and d or l columns.  Up to swapped cells, row i is the
    indicator of the head (tail) of the one rule covering example i, and zero when no rule does; each rule covers
    fewer than n/k examples.  In the test matrices only the first 2n/5 rows are covered.  The number of swaps is
    the noise proportion of the cells, rounded down.  It fails exactly in the listed cases. *)
Theorem C66_diverse_generator : forall (py39 : bool) (ord : gset Z -> list Z) (n d l k : Z) (noise : Qc) (o : result synth),
  set_order ord ->
  (can (generate_diverse py39 ord n d l k noise) o <->
   match diverse_error n d l k with
   | Some e => o = Err e
   | None => exists F L Ft Lt rules, o = Ok (F, L, Ft, Lt, rules) /\ diverse_data ord n d l k noise F L Ft Lt rules
   end).
Proof. exact C66_diverse_generator_proof. Qed.
Print Assumptions C66_diverse_generator.

(** C67: exactly what the plain generator can return, for all sizes, all noise proportions and all draws.  Here
    rules may cover an example together: row i is, up to swapped cells, the union of the heads (tails) of the
    rules that cover it.  The noise is that of one pass over the final matrix, although it is injected in every
    round.  In the test matrices only the first 3n/10 of the n rows are covered.  With no rules the generator
    fails, because the noisy matrices do not exist. *)
Theorem C67_plain_generator : forall (n d l k : Z) (noise : Qc) (o : result synth),
  can (generate_plain n d l k noise) o <->
  match plain_error n d l k with
  | Some e => o = Err e
  | None => exists F L Ft Lt rules, o = Ok (F, L, Ft, Lt, rules) /\ plain_data n d l k noise F L Ft Lt rules
  end.
Proof. exact C67_plain_generator_proof. Qed.
Print Assumptions C67_plain_generator.

(** C68: the rules of the diverse generator are independent and identically distributed: for all sets A_i, B_i
    the probability that head i lies in A_i and tail i in B_i for all i is the product of the probabilities for
    the single sides, each computed from a fresh uniform choice.  So halving the weights of the drawn
    attributes and labels does not make the rules diverse. *)
Theorem C68_rules_independent : forall (py39 : bool) (ord : gset Z -> list Z) (n d l k : Z) (noise : Qc) (ABs : list (gset Z * gset Z)),
  set_order ord -> diverse_error n d l k = None -> length ABs = Z.to_nat k ->
  expect (generate_diverse py39 ord n d l k noise)
    (fun o => match o with Ok (_, _, _, _, rules) => if decide (Forall2 within rules ABs) then 1 else 0 | Err _ => 0 end)%Qc
  = rules_within d l ABs.
Proof. exact C68_rules_independent_proof. Qed.
Print Assumptions C68_rules_independent.

Definition ex_ord (s : gset Z) : list Z := elements s.

(** Two rules on ten examples; rule 1 covers examples 7 and 2, rule 2 covers example 0; in the test part only
    rule 2 covers an example; each matrix has ten per cent of its thirty cells swapped, here one cell three times
    or twice and another one once. *)
Definition ex_rules : list (list Z * list Z) := [([0; 1], [2]); ([2], [0; 1])].
Definition ex_flips (i : Z) : list (Z * Z) := [(9, 0); (i, 1); (9, 0)].
Definition ex_M (p : list Z * list Z -> list Z) (covers : list (list Z)) (i : Z) : list (list Z) :=
  mat 10 3 (flipped (ex_flips i) (painted (map p ex_rules) covers)).

Example C66_ex : diverse_error 10 3 3 2 = None /\
  can (generate_diverse true ex_ord 10 3 3 2 (Q2Qc (1 # 10)))
    (Ok (ex_M fst [[7; 2]; [0]] 4, ex_M snd [[7; 2]; [0]] 5, ex_M fst [[]; [3]] 8, ex_M snd [[]; [3]] 3, ex_rules)) /\
  ex_M fst [[7; 2]; [0]] 4 = [[0; 0; 1]; [0; 0; 0]; [1; 1; 0]; [0; 0; 0]; [0; 1; 0]; [0; 0; 0]; [0; 0; 0]; [1; 1; 0]; [0; 0; 0]; [0; 0; 0]] /\
  ex_M snd [[]; [3]] 3 = [[0; 0; 0]; [0; 0; 0]; [0; 0; 0]; [1; 0; 0]; [0; 0; 0]; [0; 0; 0]; [0; 0; 0]; [0; 0; 0]; [0; 0; 0]; [0; 0; 0]].
Proof.
  split; [done|]. split; [|split; vm_compute; reflexivity].
  apply C66_diverse_generator; [intros s; reflexivity|]. cbn [diverse_error]. do 5 eexists. split; [reflexivity|].
  assert (Hflip : forall i, 0 <= i < 10 -> flips_of 10 3 (Q2Qc (1 # 10)) (ex_flips i)).
  { intros i Hi. split; [vm_compute; reflexivity|]. intros a b H. unfold ex_flips in H. repeat (apply elem_of_cons in H as [[= -> ->]|H]; [lia|]). by apply elem_of_nil in H. }
  assert (Hside : forall S : gset Z, (forall x, x ∈ S -> 0 <= x < 3) -> 1 <= Z.of_nat (size S) < 3 -> proper_side ex_ord 3 (ex_ord S)) by (intros S H1 H2; by exists S).
  assert (Hcov : forall (pool b : Z) (c : list Z), zlen c < b -> bool_decide (NoDup c) = true -> forallb (fun i => (0 <=? i) && (i <? pool)) c = true ->
    zlen c < b /\ NoDup c /\ Forall (fun i => 0 <= i < pool) c).
  { intros pool b c H1 H2 H3. split; [done|]. split; [by apply bool_decide_eq_true in H2|]. apply list.Forall_forall. intros i Hi.
    eapply (proj1 (forallb_forall _ _)) in H3; [|by apply elem_of_list_In, Hi]. lia. }
  split; [reflexivity|]. split.
  { repeat constructor; cbn [fst snd].
    - change [0; 1] with (ex_ord {[0; 1]}). apply Hside; [intros x Hx; apply elem_of_union in Hx as [Hx|Hx]; apply elem_of_singleton in Hx; lia|vm_compute; split; [discriminate|reflexivity]].
    - change [2] with (ex_ord {[2]}). apply Hside; [intros x Hx; apply elem_of_singleton in Hx; lia|vm_compute; split; [discriminate|reflexivity]].
    - change [2] with (ex_ord {[2]}). apply Hside; [intros x Hx; apply elem_of_singleton in Hx; lia|vm_compute; split; [discriminate|reflexivity]].
    - change [0; 1] with (ex_ord {[0; 1]}). apply Hside; [intros x Hx; apply elem_of_union in Hx as [Hx|Hx]; apply elem_of_singleton in Hx; lia|vm_compute; split; [discriminate|reflexivity]]. }
  split.
  - exists [[7; 2]; [0]]. split; [reflexivity|]. split; [|split; [apply (bool_decide_eq_true_1 (NoDup [7; 2; 0])); vm_compute; reflexivity|]].
    + constructor; [|constructor; [|constructor]]; apply Hcov; vm_compute; reflexivity.
    + split; [exists (ex_flips 4)|exists (ex_flips 5)]; (split; [apply Hflip; lia|reflexivity]).
  - exists [[]; [3]]. split; [reflexivity|]. split; [|split; [apply (bool_decide_eq_true_1 (NoDup [3])); vm_compute; reflexivity|]].
    + constructor; [|constructor; [|constructor]]; apply Hcov; vm_compute; reflexivity.
    + split; [exists (ex_flips 8)|exists (ex_flips 3)]; (split; [apply Hflip; lia|reflexivity]).
Qed.

(** Five rules on ten examples are one too many for a test part of four examples, two attributes too few. *)
Example C66_errors_ex : diverse_error 10 3 3 5 = Some ValueError /\ diverse_error 10 2 3 1 = Some IndexError /\ diverse_error 10 3 3 4 = None /\
  diverse_error 0 0 0 0 = None /\ generate_diverse true ex_ord 10 2 3 1 0%Qc = Fail IndexError.
Proof. repeat split. Qed.

(** Two rules share example 1, whose row is the union of their heads. *)
Example C67_ex : plain_error 10 4 3 2 = None /\
  can (generate_plain 10 4 3 2 0%Qc)
    (Ok (mat 10 4 (painted [[0; 1]; [2; 1]] [[1]; [1; 0]]), mat 10 3 (painted [[2]; [0; 1]] [[1]; [1; 0]]), zeros 10 4, zeros 10 3, [([0; 1], [2]); ([2; 1], [0; 1])])) /\
  painted [[0; 1]; [2; 1]] [[1]; [1; 0]] 1 0 = 1 /\ painted [[0; 1]; [2; 1]] [[1]; [1; 0]] 1 2 = 1 /\ painted [[0; 1]; [2; 1]] [[1]; [1; 0]] 0 0 = 0.
Proof.
  split; [done|]. split; [|split_and!; vm_compute; reflexivity].
  apply C67_plain_generator. cbn [plain_error]. do 5 eexists. split; [reflexivity|].
  assert (Hside : forall (lo n : Z) (s : list Z), bool_decide (NoDup s) = true -> forallb (fun i => (0 <=? i) && (i <? n)) s = true -> lo <= zlen s < n -> sample_side lo n s).
  { intros lo n s H1 H2 H3. split; [by apply bool_decide_eq_true in H1|]. split; [|done]. apply list.Forall_forall. intros i Hi.
    eapply (proj1 (forallb_forall _ _)) in H2; [|by apply elem_of_list_In, Hi]. lia. }
  assert (Hcov : forall (pool b : Z) (c : list Z), zlen c < b -> bool_decide (NoDup c) = true -> forallb (fun i => (0 <=? i) && (i <? pool)) c = true ->
    zlen c < b /\ NoDup c /\ Forall (fun i => 0 <= i < pool) c).
  { intros pool b c H1 H2 H3. split; [done|]. split; [by apply bool_decide_eq_true in H2|]. apply list.Forall_forall. intros i Hi.
    eapply (proj1 (forallb_forall _ _)) in H3; [|by apply elem_of_list_In, Hi]. lia. }
  split; [reflexivity|]. split.
  { repeat constructor; cbn [fst snd]; try (vm_compute; reflexivity); apply (bool_decide_eq_true_1 _); vm_compute; reflexivity. }
  split.
  - exists [[1]; [1; 0]]. split; [reflexivity|]. split.
    + constructor; [|constructor; [|constructor]]; apply Hcov; vm_compute; reflexivity.
    + split; exists []; (split; [split; [vm_compute; reflexivity|intros i j H; by apply elem_of_nil in H]|reflexivity]).
  - exists [[]; []]. split; [reflexivity|]. split.
    + constructor; [|constructor; [|constructor]]; apply Hcov; vm_compute; reflexivity.
    + split; exists []; (split; [split; [vm_compute; reflexivity|intros i j H; by apply elem_of_nil in H]|vm_compute; reflexivity]).
Qed.
Example C67_no_rules_ex : plain_error 10 4 3 0 = Some UnboundLocalError /\ generate_plain 10 4 3 0 0%Qc = Fail UnboundLocalError.
Proof. split; reflexivity. Qed.

(** With four attributes and three labels: a head within {0, 1} has probability 3/5 * 1/4 + 2/5 * 1/8 = 1/5, a
    tail within {0} has probability 1/9; two rules do both with the product of the probabilities. *)
Example C68_ex : diverse_error 10 4 3 2 = None /\
  this (side_within 4 {[0; 1]}) = (1 # 5)%Q /\ this (side_within 3 {[0]}) = (1 # 9)%Q /\
  this (rules_within 4 3 [({[0; 1]}, {[0]}); ({[0; 1]}, {[0]})]) = (1 # 2025)%Q.
Proof. split_and!; vm_compute; reflexivity. Qed.
