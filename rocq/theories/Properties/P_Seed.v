(** Properties of Sampler.sample with its seeds, and of the dummy samplers (C79, C80). *)
From Verif.Model Require Import PyBase Rand Seed.
From Verif.Spec Require Import SSeed.
From Verif.Proofs Require Import T_Seed.

(** C79: the samples of a sampler that seeds in sample_once form the orbit of one seed between 0 and 99999 under a fixed
    function, whatever random_state and the initial state are *)
Theorem C79_orbit : forall (A : Type) (g : generator) (m : rand A), ints_in_range g ->
  exists (out : Z -> result A) (next : Z -> Z), (forall s, in_range (next s)) /\
    forall random_state entropy size, exists s, in_range s /\ unfolds out next s (Z.to_nat size) (fst (sample g (seeded_once g m) random_state entropy size)).
Proof. exact C79_orbit_proof. Qed.
Print Assumptions C79_orbit.

(** C79: so for every size there are at most 100000 possible results, and at most 100000 different samples in a result *)
Theorem C79_few : forall (A : Type) (g : generator) (m : rand A) size, ints_in_range g ->
  (exists L : list (result (list A)), zlen L <= 100000 /\ forall random_state entropy, fst (sample g (seeded_once g m) random_state entropy size) ∈ L) /\
  (exists D : list A, zlen D <= 100000 /\ forall random_state entropy l x, fst (sample g (seeded_once g m) random_state entropy size) = Ok l -> x ∈ l -> x ∈ D).
Proof. exact C79_few_proof. Qed.
Print Assumptions C79_few.

(** C79: and every result repeats: from some index i on with a period d, i + d <= 100000 *)
Theorem C79_periodic : forall (A : Type) (g : generator) (m : rand A) random_state entropy size l, ints_in_range g ->
  fst (sample g (seeded_once g m) random_state entropy size) = Ok l -> exists i d, 0 <= i /\ 0 < d /\ i + d <= 100000 /\ repeats l i d.
Proof. exact C79_periodic_proof. Qed.
Print Assumptions C79_periodic.

(** C79: with a random_state that is not None two calls return the same, and a shorter result is the beginning of a
    longer one *)
Theorem C79_repeatable : forall (A : Type) (g : generator) (m : rand A) seed entropy entropy' size size' l,
  fst (sample g (seeded_once g m) (Some seed) entropy size) = Ok l -> size' <= size ->
  fst (sample g (seeded_once g m) (Some seed) entropy' size') = Ok (take (Z.to_nat size') l).
Proof. exact C79_repeatable_proof. Qed.
Print Assumptions C79_repeatable.

(** C80: the dummy samplers return every single column with the same probability and nothing else; with no column they
    raise ValueError *)
Theorem C80_dummy : forall n,
  (n <= 0 -> dummy_once n = Fail ValueError) /\
  (0 < n -> (forall j, 0 <= j < n -> prob (dummy_once n) (Ok {[j]}) = (1 / Qc_of_Z n)%Qc) /\ forall o, can (dummy_once n) o -> exists j, 0 <= j < n /\ o = Ok {[j]}).
Proof. exact C80_dummy_proof. Qed.
Print Assumptions C80_dummy.

(** a generator that counts: the seeds of the samples are s, s + 1, s + 2, ... modulo 100000, and a draw with two
    alternatives takes the parity of the state *)
Definition counter : generator := {| g_state := Z; g_seed := fun s => s; g_randint := fun n st => (st mod n, st + 1); g_choose := fun ps st => (if Z.even st then 0%nat else 1%nat, st + 1) |}.
Definition coin : rand bool := Choose [(1/2)%Qc; (1/2)%Qc] (fun i => Ret (Nat.eqb i 0)).
Example counter_ok : ints_in_range counter.
Proof. intros n st Hn. cbn. by apply Z.mod_pos_bound. Qed.
(** two results *)
Example counter_sample : fst (sample counter (seeded_once counter coin) (Some 12345) 0 4) = Ok [false; true; false; true] /\ fst (sample counter (seeded_once counter coin) None 8 2) = Ok [true; false].
Proof. split; vm_compute; reflexivity. Qed.
Example counter_repeats : exists i d, 0 <= i /\ 0 < d /\ i + d <= 100000 /\ repeats [false; true; false; true] i d.
Proof. apply (C79_periodic bool counter coin (Some 12345) 0 4); [apply counter_ok|]. vm_compute. reflexivity. Qed.
Example dummy_example : prob (dummy_once 3) (Ok {[2]}) = (1 / Qc_of_Z 3)%Qc.
Proof. apply (C80_dummy 3); lia. Qed.
