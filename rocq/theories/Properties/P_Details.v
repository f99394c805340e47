(** How long coupling from the past takes (C85). *)
From Coq Require Import Lra.
From Verif.Model Require Import PyBase PyReal Sparse Utils Graph Cliques Trie Assign RandR Cftp.
From Verif.Spec Require Import SMatrix SAssign SCftp SDetails.
Open Scope Z_scope.
From Verif.Proofs Require Import T_Details.
Open Scope Z_scope.

(** C85: with return_details CFTP.sample returns a pair and the number of steps it looked back, which is a power of two.
    A pair is returned after 2^j steps with probability its share of the target weight times the probability that
    2^j steps are needed: the pair and the number of steps are independent, so the distribution of the pairs is
    the same whatever number of steps is reported.  Failure is reported with the longest horizon.  If all weights of
    one side are 0, plain None is returned instead of a pair of result and details. *)
Theorem C85_iterations : forall (Wpos Wneg : gmap Z R) (pos neg : list Z) (weight : Z -> Z -> result Z) (w : Z -> Z -> Z) (max_iters : Z) (c : cftp),
  dominated Wpos Wneg pos neg weight w -> cftp_init Wpos Wneg pos neg weight max_iters = Ok c ->
  NoDup pos -> NoDup neg -> 1 <= max_iters ->
  let q := accept_mass Wpos Wneg pos neg w in
  ((0 < pmass Wpos pos)%R -> (0 < pmass Wneg neg)%R ->
     (forall o, rcan (cftp_draw c true) o -> exists D j, 0 <= j /\ o = Ok (RetDetails D (2 ^ j)) /\ 2 ^ j <= max_iters /\ (D = None -> max_iters < 2 ^ (j + 1))) /\
     (forall j p n, 0 <= j -> 2 ^ j <= max_iters -> p ∈ pos -> n ∈ neg ->
        hprob (cftp_draw c true) (Ok (RetDetails (Some (p, n)) (2 ^ j))) (IZR (w p n) / IZR (total_weight w pos neg) * needs q j)) /\
     (forall k, 0 <= k -> 2 ^ k <= max_iters < 2 ^ (k + 1) ->
        hprob (cftp_draw c true) (Ok (RetDetails None (2 ^ k))) ((1 - q) ^ Z.to_nat (2 ^ k)))) /\
  ((pmass Wpos pos = 0 \/ pmass Wneg neg = 0)%R -> forall o, rcan (cftp_draw c true) o <-> o = Ok (RetPair None)).
Proof. exact C85_iterations_proof. Qed.
Print Assumptions C85_iterations.

(** C85, the discriminativity sampler: sample_once with return_sample_index and return_cftp_details raises TypeError
    exactly when there is nothing to propose (the None that CFTP.sample returns is unpacked); otherwise sample k
    comes with the number 2^j of steps with probability its share of the total discriminativity times the
    probability that 2^j steps are needed, and None (without details) with probability (1 - q)^1024. *)
Theorem C85_sampler : forall (ord : gset Z -> list Z) (prune : bool) (alpha : Qc) (pd : proposal)
    (cache : option (list (gset Z) * list (list Z))) (X : csr) (y : list Z) (s : cds),
  set_order ord -> cds_fit ord prune alpha pd cache X y = Ok s -> fitted_rows X y s ->
  let total := total_discrim (zlen (cds_space s)) (cds_rows s) y in
  let bound := proposal_total pd (zlen (cds_space s)) (cds_rows s) y in
  let q := (IZR total / bound)%R in
  (bound = 0%R -> forall o, rcan (cds_sample_details ord s) o <-> o = Err TypeError) /\
  (bound <> 0%R -> (forall o, rcan (cds_sample_details ord s) o -> o = Ok None \/ exists k j, o = Ok (Some (k, 2 ^ j)) /\ 0 <= j <= 10 /\ 0 < discrim (cds_rows s) y k) /\
     (forall k j, 0 <= j <= 10 -> hprob (cds_sample_details ord s) (Ok (Some (k, 2 ^ j))) (IZR (discrim (cds_rows s) y k) / IZR total * needs q j)) /\
     hprob (cds_sample_details ord s) (Ok None) ((1 - q) ^ 1024)).
Proof. exact C85_sampler_proof. Qed.
Print Assumptions C85_sampler.

From Verif.Properties Require Import P_Cftp.
Open Scope Z_scope.

(** One positive record {5,6} and two negative ones, {5} and {}; q = 3/4.  One step is enough with probability 3/4, two
    are needed with probability 1/4 - 1/16; the pair (0,2) has 2 of the 3 units of weight in either case. *)
Example C85_ex : hprob (cftp_draw exC true) (Ok (RetDetails (Some (0, 2)) 1)) (2 / 3 * (3 / 4)) /\
  hprob (cftp_draw exC true) (Ok (RetDetails (Some (0, 2)) 2)) (2 / 3 * (3 / 16)) /\
  hprob (cftp_draw exC true) (Ok (RetDetails None 2)) (1 / 16).
Proof.
  destruct C34_ex_mass as (M1 & M2 & Q).
  destruct (C85_iterations exW exW [0] [1;2] (pair_weight exRows) exw 3 exC C34_ex_dominated C34_ex_init) as [H _]; [apply NoDup_singleton|by_compute|lia|].
  rewrite M1, M2, Q in H. destruct (H ltac:(lra) ltac:(lra)) as (_ & H1 & H2).
  assert (N0 : needs (3 / 4) 0 = (3 / 4)%R) by (unfold needs; simpl; lra).
  assert (N1 : needs (3 / 4) 1 = (3 / 16)%R) by (unfold needs; simpl; lra).
  split_and!.
  - specialize (H1 0 0 2 ltac:(lia) ltac:(done) ltac:(by_compute) ltac:(by_compute)). rewrite N0 in H1. exact H1.
  - specialize (H1 1 0 2 ltac:(lia) ltac:(done) ltac:(by_compute) ltac:(by_compute)). rewrite N1 in H1. exact H1.
  - specialize (H2 1 ltac:(lia) ltac:(done)). replace (1 / 16)%R with ((1 - 3 / 4) ^ Z.to_nat (2 ^ 1))%R by (simpl; lra). exact H2.
Qed.

(** Records {0,1}, {0}, {1} labelled 1, 0, 0: sample {0,1} after one step with probability 2/4 * 4/6. *)
Example C85_sampler_ex : hprob (cds_sample_details elements exS) (Ok (Some (1, 1))) (2 / 4 * (4 / 6)).
Proof.
  destruct C36_ex_fit as [E Hf]. destruct C36_ex as (_ & Hd & Ht & _).
  destruct (C85_sampler elements true 0%Qc Tight None exX exy exS ltac:(intros s; reflexivity) E Hf) as [_ H]. rewrite Ht, C36_ex_mass in H.
  destruct (H ltac:(lra)) as (_ & Hk & _). specialize (Hk 1 0 ltac:(lia)). rewrite Hd in Hk.
  assert (N0 : needs (4 / 6) 0 = (4 / 6)%R) by (unfold needs; simpl; lra). rewrite N0 in Hk. exact Hk.
Qed.

(** A sampler whose positive record is empty: nothing to propose. *)
Definition exX0 : csr := Csr (CMat 2 1 [0;0;1] [0] [1]).
Definition exS0 : cds := match cds_fit elements true 0%Qc Tight None exX0 [1;0] with Ok s => s | Err _ => CDS [] [] [] [] ∅ exC end.
Example C85_none_ex : cds_fit elements true 0%Qc Tight None exX0 [1;0] = Ok exS0 /\ fitted_rows exX0 [1;0] exS0 /\
  rcan (cds_sample_details elements exS0) (Err TypeError).
Proof.
  destruct (C32_fresh_fit elements true 0%Qc Tight exX0 [1;0]) as (s & E & Hf & _).
  - intros s. reflexivity.
  - by_compute.
  - apply PSparse.binary_b_ok; by_compute.
  - by_compute.
  - intros v. rewrite !elem_of_cons, elem_of_nil. lia.
  - assert (Es : s = exS0) by (unfold exS0; rewrite E; reflexivity). subst s. split; [done|]. split; [done|].
    destruct (C85_sampler elements true 0%Qc Tight None exX0 [1;0] exS0 ltac:(intros s; reflexivity) E Hf) as [H _].
    apply H; [|done]. assert (Er : cds_rows exS0 = [[]; [0]]) by (vm_compute; reflexivity).
    rewrite Er. unfold proposal_total, row_sum. cbn [zip zip_with List.filter Z.ltb Z.compare snd fst map]. unfold rsum. simpl. change (zlen []) with 0. lra.
Qed.
