(** The Boley samplers (C35, C38, C39). *)
From Coq Require Import Lra Sorted.
From Verif.Model Require Import PyBase PyReal Sparse Utils Graph Cliques Trie Assign Rand RandR Cftp Boley.
From Verif.Spec Require Import SMatrix SAssign SCftp SBoley.
Open Scope Z_scope.
From Verif.Proofs Require Import T_Boley.
Open Scope Z_scope.

(** C38, counting: the weight of a pair of rows is the number of subsets of the first that are not contained in the
    second (L lists each of them once). *)
Theorem C38_count : forall (rows : list (gset Z)) (p n : Z) (P N : gset Z),
  0 <= p -> 0 <= n -> rows !! Z.to_nat p = Some P -> rows !! Z.to_nat n = Some N ->
  exists L : list (gset Z), NoDup L /\ (forall T, T ∈ L <-> discriminates P N T) /\
    boley_pair_weight rows p n = Ok (zlen L) /\
    zlen L = (2 ^ Z.of_nat (size (P ∖ N)) - 1) * 2 ^ Z.of_nat (size (P ∩ N)) /\
    zlen L = 2 ^ Z.of_nat (size P) - 2 ^ Z.of_nat (size (P ∩ N)).
Proof. exact C38_count_proof. Qed.
Print Assumptions C38_count.

(** C38, drawing: whatever is drawn, the pattern is a subset of P not contained in N (or the loop that redraws empty
    sets is still running after [fuel] rounds, which has probability (1/2^|P\N|)^fuel, at most (1/2)^fuel); each such
    subset has the same probability.  If P is contained in N the loop never ends. *)
Theorem C38_uniform : forall (ord : gset Z -> list Z) (fuel : nat) (P N : gset Z), set_order ord ->
  (forall o, rcan (bds_pattern fuel ord P N) o -> o = Err OutOfFuel \/ exists T, o = Ok T /\ discriminates P N T) /\
  (P ⊆ N -> forall o, rcan (bds_pattern fuel ord P N) o -> o = Err OutOfFuel) /\
  (~ P ⊆ N ->
     let e := ((1 / 2 ^ size (P ∖ N)) ^ fuel)%R in
     (0 <= e <= (1 / 2) ^ fuel)%R /\
     hprob (bds_pattern fuel ord P N) (Err OutOfFuel) e /\
     forall T, hprob (bds_pattern fuel ord P N) (Ok T)
       (if decide (discriminates P N T) then (1 - e) / IZR (2 ^ Z.of_nat (size P) - 2 ^ Z.of_nat (size (P ∩ N))) else 0)%R).
Proof. exact C38_uniform_proof. Qed.
Print Assumptions C38_uniform.

(** C35, the Boley proposal: a positive record has weight 2^|P|-1, a negative one 1, and the product is at least the
    weight of the pair, so the acceptance ratio from the initial state is at most 1. *)
Theorem C35_boley : forall (cache : option (list (gset Z))) (X : csr) (y : list Z) (s : bds) (p n : Z),
  bds_fit cache X y = Ok s -> boley_rows X y s -> is_pos y p -> is_neg y n ->
  exists (a b : R) (P N : gset Z), bds_weights s !! p = Some a /\ bds_weights s !! n = Some b /\
    bds_rows s !! Z.to_nat p = Some P /\ bds_rows s !! Z.to_nat n = Some N /\
    a = IZR (2 ^ Z.of_nat (size P) - 1) /\ b = 1%R /\
    let w := (2 ^ Z.of_nat (size P) - 2 ^ Z.of_nat (size (P ∩ N))) in
    boley_pair_weight (bds_rows s) p n = Ok w /\ 0 <= w /\ (IZR w <= a * b)%R /\ ((0 < a * b)%R -> (IZR w * 1 / (a * b * 1) <= 1)%R).
Proof. exact C35_boley_proof. Qed.
Print Assumptions C35_boley.

(** C38, the sampler: whatever is drawn, sample_once returns None, or a pattern of some positive row that some negative
    row does not have (or is still redrawing empty sets after [fuel] rounds).  None has probability (1-q)^1024, and each
    pattern T has probability discriminativity(T)/total * (1-(1-q)^1024), up to the at most (1/2)^fuel that is
    undecided; discriminativity is the number of positive rows with T times the number of negative rows without T. *)
Theorem C38_sampler : forall (ord : gset Z -> list Z) (fuel : nat)
    (cache : option (list (gset Z))) (X : csr) (y : list Z) (s : bds),
  set_order ord -> bds_fit cache X y = Ok s -> boley_rows X y s ->
  let rows := bds_rows s in
  let total := pattern_total rows y in
  let q := (IZR total / IZR (boley_proposal_total rows y))%R in
  (forall o, rcan (bds_sample_once fuel ord s) o ->
     o = Ok None \/ o = Err OutOfFuel /\ 0 < total \/ exists T, o = Ok (Some T) /\ 0 < pattern_discrim rows y T) /\
  (0 < total -> (0 < q <= 1)%R /\
     hprob (bds_sample_once fuel ord s) (Ok None) ((1 - q) ^ 1024) /\
     (exists v, hprob (bds_sample_once fuel ord s) (Err OutOfFuel) v /\ (0 <= v <= (1 / 2) ^ fuel)%R) /\
     forall T, exists v, hprob (bds_sample_once fuel ord s) (Ok (Some T)) v /\
       (IZR (pattern_discrim rows y T) / IZR total * (1 - (1 - q) ^ 1024) * (1 - (1 / 2) ^ fuel) <= v
        <= IZR (pattern_discrim rows y T) / IZR total * (1 - (1 - q) ^ 1024))%R).
Proof. exact C38_sampler_proof. Qed.
Print Assumptions C38_sampler.

(** C38, ground truth: get_ground_truth_proba_for_samples maps exactly the sorted tuples of the patterns of positive
    discriminativity to their share of the total, get_ground_truth_proba_for_pairs does so for the usable pairs, and
    both sum to 1; if nothing discriminates both are empty. *)
Theorem C38_ground_truth : forall (ord : gset Z -> list Z) (cache : option (list (gset Z))) (X : csr) (y : list Z) (s : bds),
  set_order ord -> bds_fit cache X y = Ok s -> boley_rows X y s ->
  let rows := bds_rows s in
  let total := pattern_total rows y in
  (total = 0 -> bds_ground_truth_pairs s = Ok ∅ /\ bds_ground_truth_samples ord s = Ok ∅) /\
  (total <> 0 -> exists mp ms, bds_ground_truth_pairs s = Ok mp /\ bds_ground_truth_samples ord s = Ok ms /\
     (forall k v, ms !! k = Some v <-> StronglySorted Z.lt k /\ 0 < pattern_discrim rows y (py_set k) /\
        v = (IZR (pattern_discrim rows y (py_set k)) / IZR total)%R) /\
     (forall p n v, mp !! (p, n) = Some v <-> is_pos y p /\ is_neg y n /\ exists P N, rows !! Z.to_nat p = Some P /\ rows !! Z.to_nat n = Some N /\
        0 < patterns_between P N /\ v = (IZR (patterns_between P N) / IZR total)%R) /\
     rsum (map snd (map_to_list ms)) = 1%R /\ rsum (map snd (map_to_list mp)) = 1%R).
Proof. exact C38_ground_truth_proof. Qed.
Print Assumptions C38_ground_truth.

(** C38, fitting: on a well-formed matrix and 0/1 labels with both classes, a fresh fit succeeds, its rows are the sets
    of stored columns, so every pattern drawn is made of features of some positive record and is missing from some
    negative one. *)
Theorem C38_fresh_fit : forall (ord : gset Z -> list Z) (fuel : nat) (X : csr) (y : list Z),
  set_order ord -> wf_cmat (csr_mat X) = true -> zlen y = csr_rows X -> (forall v, v ∈ y <-> v = 0 \/ v = 1) ->
  exists s, bds_fit None X y = Ok s /\ boley_rows X y s /\
    (forall i r a, 0 <= i -> bds_rows s !! Z.to_nat i = Some r -> a ∈ r <-> csr_has X i a) /\
    forall T, rcan (bds_sample_once fuel ord s) (Ok (Some T)) ->
      T <> ∅ /\ exists p n, is_pos y p /\ is_neg y n /\ (forall a, a ∈ T -> csr_has X p a) /\ ~ (forall a, a ∈ T -> csr_has X n a).
Proof. exact C38_fresh_fit_proof. Qed.
Print Assumptions C38_fresh_fit.

(** records {0,1}, {0}, {1} labelled 1, 0, 0 *)
Definition exX : csr := Csr (CMat 3 2 [0;2;3;4] [0;1;0;1] [1;1;1;1]).
Definition exy : list Z := [1;0;0].
Definition exS : bds := match bds_fit None exX exy with Ok s => s | Err _ => BDS [] [] [] ∅ (Cftp ∅ ∅ [] [] (fun _ _ => Ok 0) 0 [] []) end.
Lemma ex_order : set_order elements.
Proof. intros s. reflexivity. Qed.
Example C38_ex_fit : bds_fit None exX exy = Ok exS /\ boley_rows exX exy exS.
Proof.
  destruct (C38_fresh_fit elements 1 exX exy ex_order) as (s & E & Hf & _).
  - by_compute.
  - by_compute.
  - intros v. unfold exy. rewrite !elem_of_cons, elem_of_nil. lia.
  - unfold exS. rewrite E. split; [reflexivity|exact Hf].
Qed.
Lemma exS_rows : bds_rows exS = [{[0;1]}; {[0]}; {[1]}].
Proof.
  destruct C38_ex_fit as [E _]. revert E. generalize exS. intros s E. unfold bds_fit in E. destruct (negb _); [done|].
  assert (Ec : convert_matrix_to_sets_v2 exX = @Ok (list (gset Z)) [{[0;1]}; {[0]}; {[1]}]) by (by_compute). rewrite Ec in E. cbn [rbind] in E.
  destruct (bds_weight_dict _ _ _); [|done]. cbn [rbind] in E. destruct (existsb _ _); [done|]. destruct (boley_cftp_init _ _ _ _ _ _); [|done]. cbn [rbind] in E. by injection E as <-.
Qed.
(** {0,1} discriminates against both negatives, {0} and {1} against one each, {} against none; there are 4 (pair,
    pattern) triples, and the proposal has mass 3 * 2 *)
Example C38_ex : pattern_discrim (bds_rows exS) exy {[0;1]} = 2 /\ pattern_discrim (bds_rows exS) exy {[0]} = 1 /\
  pattern_discrim (bds_rows exS) exy ∅ = 0 /\ pattern_total (bds_rows exS) exy = 4 /\ boley_proposal_total (bds_rows exS) exy = 6.
Proof. rewrite exS_rows. by_compute. Qed.
(** so {0,1} is drawn with probability at most 2/4 * (1 - (1/3)^1024), and nearly that *)
Example C38_ex_law : exists v, hprob (bds_sample_once 20 elements exS) (Ok (Some {[0;1]})) v /\
  (2 / 4 * (1 - (1 - 4 / 6) ^ 1024) * (1 - (1 / 2) ^ 20) <= v <= 2 / 4 * (1 - (1 - 4 / 6) ^ 1024))%R.
Proof.
  destruct C38_ex_fit as [E Hf]. destruct C38_ex as (Hd & _ & _ & Ht & Hm).
  destruct (C38_sampler elements 20 None exX exy exS ex_order E Hf) as [_ H]. rewrite Ht, Hm in H. destruct (H ltac:(lia)) as (_ & _ & _ & Hk).
  specialize (Hk {[0;1]}). rewrite Hd in Hk. exact Hk.
Qed.
(** the ground truth of the pattern (0, 1) and of the pair (0, 2) *)
Example C38_ex_truth : exists mp ms, bds_ground_truth_pairs exS = Ok mp /\ bds_ground_truth_samples elements exS = Ok ms /\
  ms !! [0;1] = Some (2 / 4)%R /\ ms !! [1;0] = None /\ mp !! (0, 2) = Some (2 / 4)%R /\ mp !! (1, 0) = None.
Proof.
  destruct C38_ex_fit as [E Hf]. destruct C38_ex as (Hd & _ & _ & Ht & _).
  destruct (C38_ground_truth elements None exX exy exS ex_order E Hf) as [_ H]. rewrite Ht in H. destruct (H ltac:(lia)) as (mp & ms & -> & -> & Hs & Hp & _).
  exists mp, ms. split; [done|]. split; [done|]. split_and!.
  - apply Hs. split; [repeat constructor; lia|]. assert (py_set [0;1] = ({[0;1]} : gset Z)) as -> by (by_compute). rewrite Hd. split; [lia|done].
  - destruct (ms !! [1;0]) eqn:Ek; [|done]. exfalso. apply Hs in Ek as [Ek _]. inversion Ek as [|? ? _ Hf']; subst. inversion Hf'; subst. lia.
  - apply Hp. split; [split; [lia|exists 1; done]|]. split; [split; [lia|done]|]. rewrite exS_rows. exists {[0;1]}, {[1]}. split_and!; try done; by_compute.
  - destruct (mp !! (1, 0)) eqn:Ek; [|done]. exfalso. apply Hp in Ek as [(_ & v & Hv & Hv') _]. change (Z.to_nat 1) with 1%nat in Hv. simpl in Hv. injection Hv as <-. lia.
Qed.
(** {0,1} against {0}: the patterns {1} and {0,1}, each with probability (1 - (1/2)^3)/2 after at most three tries *)
Example C38_ex_uniform : hprob (bds_pattern 3 elements {[0;1]} {[0]}) (Ok {[1]}) ((1 - (1 / 2) ^ 3) / 2) /\
  hprob (bds_pattern 3 elements {[0;1]} {[0]}) (Ok {[0]}) 0.
Proof.
  assert (Hn : ~ ({[0;1]} : gset Z) ⊆ {[0]}) by (intros Hs; assert (H1 : 1 ∈ ({[0]} : gset Z)) by (apply Hs; set_solver); apply elem_of_singleton in H1; lia).
  destruct (C38_uniform elements 3 {[0;1]} {[0]} ex_order) as (_ & _ & H). specialize (H Hn). cbv zeta in H. destruct H as (_ & _ & H).
  assert (E1 : size ({[0;1]} ∖ {[0]} : gset Z) = 1%nat) by (by_compute). assert (E2 : (2 ^ Z.of_nat (size ({[0;1]} : gset Z)) - 2 ^ Z.of_nat (size ({[0;1]} ∩ {[0]} : gset Z)))%Z = 2%Z) by (by_compute).
  rewrite E1, E2 in H. split.
  - specialize (H {[1]}). rewrite decide_True in H; [|split; [set_solver|intros Hs; assert (H1 : 1 ∈ ({[0]} : gset Z)) by (apply Hs; set_solver); apply elem_of_singleton in H1; lia]]. replace (1 / 2 ^ 1)%R with (1 / 2)%R in H by lra. exact H.
  - specialize (H {[0]}). rewrite decide_False in H; [exact H|]. intros [_ Hn2]. apply Hn2. done.
Qed.
Example C35_boley_ex : is_pos exy 0 /\ is_neg exy 2 /\ boley_pair_weight (bds_rows exS) 0 2 = Ok 2.
Proof. rewrite exS_rows. split; [split; [lia|by exists 1]|]. split; [split; [lia|done]|by_compute]. Qed.
Example C38_count_ex : boley_pair_weight [{[0;1;2]}; {[0;5]}] 0 1 = Ok 6.
Proof. by_compute. Qed.
