(** Proofs of the property theorems of Properties/P_Seed.v. *)
From Verif.Model Require Import PyBase Rand Seed.
From Verif.Spec Require Import SSeed.
From Verif.Proofs Require Import PBase PRand.
Open Scope Z_scope.

Section seq.
  Context {A : Type} (g : generator) (m : rand A).
  Definition out_of (s : Z) : result A := fst (run g m (g_seed g s)).
  Definition next_of (s : Z) : Z := fst (g_randint g 100000 (snd (run g m (g_seed g s)))).
  Lemma loop_unfolds size st : unfolds out_of next_of (fst (g_randint g 100000 st)) size (fst (sample_loop g (seeded_once g m) size st)).
  Proof.
    revert st. induction size as [|size IH]; intros st; cbn [sample_loop unfolds]; [done|]. destruct (g_randint g 100000 st) as [s st1] eqn:E1. cbn [fst].
    change (seeded_once g m s st1) with (run g m (g_seed g s)). change (out_of s) with (fst (run g m (g_seed g s))). destruct (run g m (g_seed g s)) as [[x|e] st2] eqn:E2; cbn [fst]; [|done].
    exists (fst (sample_loop g (seeded_once g m) size st2)). split.
    - replace (next_of s) with (fst (g_randint g 100000 st2)); [apply IH|]. unfold next_of. by rewrite E2.
    - destruct (sample_loop g (seeded_once g m) size st2) as [[l|e] st3]; done.
  Qed.
  Fixpoint unf (s : Z) (size : nat) : result (list A) :=
    match size with
    | O => Ok []
    | S size' => match out_of s with Err e => Err e | Ok x => match unf (next_of s) size' with Ok l => Ok (x :: l) | Err e => Err e end end
    end.
  Lemma unfolds_unf s size r : unfolds out_of next_of s size r -> r = unf s size.
  Proof.
    revert s r. induction size as [|size IH]; intros s r; cbn [unfolds unf]; [done|]. destruct (out_of s); [|done]. intros (r' & H & ->). by rewrite (IH _ _ H).
  Qed.
  Lemma unf_lookup s size l : unf s size = Ok l -> length l = size /\ forall k x, l !! k = Some x -> out_of (Nat.iter k next_of s) = Ok x.
  Proof.
    revert s l. induction size as [|size IH]; intros s l; cbn [unf]. { intros [= <-]. split; [done|]. intros k x H. by rewrite lookup_nil in H. }
    destruct (out_of s) as [x|] eqn:E; [|done]. destruct (unf (next_of s) size) as [l'|] eqn:E'; [|done]. intros [= <-]. destruct (IH _ _ E') as [H1 H2]. split; [cbn; by rewrite H1|].
    intros [|k] y; cbn [lookup list_lookup].
    - intros [= <-]. done.
    - intros H. apply H2 in H. rewrite <- H. f_equal. apply Nat.iter_succ_r.
  Qed.
  Lemma unf_take s size size' l : (size' <= size)%nat -> unf s size = Ok l -> unf s size' = Ok (take size' l).
  Proof.
    revert s size l. induction size' as [|n IH]; intros s size l Hle; cbn [unf]; [by rewrite take_0|]. destruct size as [|size]; [lia|]. cbn [unf].
    destruct (out_of s); [|done]. destruct (unf (next_of s) size) as [l'|] eqn:E; [|done]. intros [= <-]. rewrite (IH _ size l'); [done|lia|done].
  Qed.
End seq.
Lemma pigeon (N : Z) (f : nat -> Z) : (forall k, 0 <= f k < N) -> exists i j : nat, (i < j)%nat /\ Z.of_nat j <= N /\ f i = f j.
Proof.
  intros Hf. assert (HN : 0 < N) by (specialize (Hf 0%nat); lia).
  set (l := map f (seq 0 (S (Z.to_nat N)))).
  assert (HD : ~ NoDup l).
  { intros HD. assert (Hs : l ⊆+ seqZ 0 N). { apply NoDup_submseteq; [done|]. intros x Hx. apply elem_of_map in Hx as (k & -> & _). apply elem_of_seqZ. specialize (Hf k). lia. }
    apply submseteq_length in Hs. unfold l in Hs. rewrite map_length, seq_length, seqZ_length in Hs. lia. }
  assert (He : exists i j x, (i < j)%nat /\ l !! i = Some x /\ l !! j = Some x).
  { destruct (decide (Exists (fun i => Exists (fun j => (i < j)%nat /\ l !! i = l !! j) (seq 0 (length l))) (seq 0 (length l)))) as [H|H].
    - apply list.Exists_exists in H as (i & Hi & H). apply list.Exists_exists in H as (j & Hj & H & E). apply elem_of_seq in Hi. destruct (lookup_lt_is_Some_2 l i) as [x Hx]; [lia|].
      exists i, j, x. split_and!; [done|done|congruence].
    - exfalso. apply HD. apply NoDup_alt. intros i j x H1 H2. destruct (decide (i = j)); [done|]. exfalso. apply H. apply list.Exists_exists.
      apply lookup_lt_Some in H1 as L1. apply lookup_lt_Some in H2 as L2. assert (i < j \/ j < i)%nat as [?|?] by lia.
      + exists i. split; [apply elem_of_seq; lia|]. apply list.Exists_exists. exists j. split; [apply elem_of_seq; lia|]. split; [done|congruence].
      + exists j. split; [apply elem_of_seq; lia|]. apply list.Exists_exists. exists i. split; [apply elem_of_seq; lia|]. split; [done|congruence]. }
  destruct He as (i & j & x & Hij & Hi & Hj). apply lookup_lt_Some in Hj as Lj. unfold l in Lj. rewrite map_length, seq_length in Lj.
  exists i, j. split_and!; [done|lia|]. unfold l in Hi, Hj. change (map f) with (fmap (M := list) f) in *. rewrite list_lookup_fmap, lookup_seq_lt in Hi by lia. rewrite list_lookup_fmap, lookup_seq_lt in Hj by lia. cbn in Hi, Hj. congruence.
Qed.

Lemma C79_orbit_proof : forall (A : Type) (g : generator) (m : rand A), ints_in_range g ->
  exists (out : Z -> result A) (next : Z -> Z), (forall s, in_range (next s)) /\
    forall random_state entropy size, exists s, in_range s /\ unfolds out next s (Z.to_nat size) (fst (sample g (seeded_once g m) random_state entropy size)).
Proof.
  intros A g m Hg. exists (out_of g m), (next_of g m). split; [intros s; by apply Hg|]. intros rs st size. unfold sample.
  set (st0 := match rs with Some _ => _ | None => _ end). exists (fst (g_randint g 100000 st0)). split; [by apply Hg|apply loop_unfolds].
Qed.


Lemma C79_few_proof : forall (A : Type) (g : generator) (m : rand A) size, ints_in_range g ->
  (exists L : list (result (list A)), zlen L <= 100000 /\ forall random_state entropy, fst (sample g (seeded_once g m) random_state entropy size) ∈ L) /\
  (exists D : list A, zlen D <= 100000 /\ forall random_state entropy l x, fst (sample g (seeded_once g m) random_state entropy size) = Ok l -> x ∈ l -> x ∈ D).
Proof.
  intros A g m size Hg.
  assert (Hs : forall rs st, exists s, s ∈ seqZ 0 100000 /\ fst (sample g (seeded_once g m) rs st size) = unf g m s (Z.to_nat size)).
  { intros rs st. unfold sample. set (st0 := match rs with Some _ => _ | None => _ end). exists (fst (g_randint g 100000 st0)). split.
    - apply elem_of_seqZ. pose proof (Hg 100000 st0 ltac:(lia)) as H. clear -H. lia.
    - apply unfolds_unf, loop_unfolds. }
  assert (HN : forall N, 0 <= N -> zlen (seqZ 0 N) = N) by (intros N HN; unfold zlen; rewrite seqZ_length; lia). split.
  - exists (map (fun s => unf g m s (Z.to_nat size)) (seqZ 0 100000)). split; [rewrite zlen_map, HN by lia; apply Z.le_refl|]. intros rs st. destruct (Hs rs st) as (s & H1 & H2). rewrite H2. apply elem_of_map. by exists s.
  - exists (omap (fun s => match out_of g m s with Ok x => Some x | Err _ => None end) (seqZ 0 100000)). split.
    + assert (Ho : forall l : list Z, zlen (omap (fun s => match out_of g m s with Ok x => Some x | Err _ => None end) l) <= zlen l).
      { induction l as [|s l IH]; [unfold zlen; cbn; lia|]. cbn [omap list_omap]. destruct (out_of g m s); rewrite ?zlen_cons; lia. }
      etransitivity; [apply Ho|]. rewrite HN by lia. apply Z.le_refl.
    + intros rs st l x El Hx. unfold sample in El. set (st0 := match rs with Some _ => _ | None => _ end) in El.
      pose proof (loop_unfolds g m (Z.to_nat size) st0) as Hu. apply unfolds_unf in Hu. rewrite El in Hu. symmetry in Hu. apply unf_lookup in Hu as [_ Hu].
      apply elem_of_list_lookup in Hx as [k Hk]. apply Hu in Hk. apply elem_of_list_omap. eexists. rewrite Hk. split; [|done].
      apply elem_of_seqZ. assert (Hr : in_range (Nat.iter k (next_of g m) (fst (g_randint g 100000 st0)))). { destruct k; [by apply Hg|]. cbn. by apply Hg. }
      unfold in_range in Hr. lia.
Qed.


Lemma C79_periodic_proof : forall (A : Type) (g : generator) (m : rand A) random_state entropy size l, ints_in_range g ->
  fst (sample g (seeded_once g m) random_state entropy size) = Ok l -> exists i d, 0 <= i /\ 0 < d /\ i + d <= 100000 /\ repeats l i d.
Proof.
  intros A g m rs st size l Hg El. unfold sample in El. set (st0 := match rs with Some _ => _ | None => _ end) in El.
  pose proof (loop_unfolds g m (Z.to_nat size) st0) as Hu. apply unfolds_unf in Hu. rewrite El in Hu. symmetry in Hu. apply unf_lookup in Hu as [_ Hu].
  set (s := fst (g_randint g 100000 st0)) in *. destruct (pigeon 100000 (fun k => Nat.iter k (next_of g m) s)) as (i & j & Hij & Hj & E).
  { intros k. destruct k; [apply Hg; lia|]. cbn. apply Hg; lia. }
  exists (Z.of_nat i), (Z.of_nat j - Z.of_nat i). split_and!; [lia|lia|lia|]. intros k Hk Hl. unfold zlen in Hl.
  destruct (lookup_lt_is_Some_2 l k) as [x Hx]; [lia|]. destruct (lookup_lt_is_Some_2 l (k + Z.to_nat (Z.of_nat j - Z.of_nat i))) as [y Hy]; [lia|]. rewrite Hx, Hy.
  apply Hu in Hx, Hy. assert (Hi : forall n, Nat.iter (n + i) (next_of g m) s = Nat.iter (n + j) (next_of g m) s). { induction n as [|n IH]; [exact E|]. exact (f_equal (next_of g m) IH). }
  specialize (Hi (k - i)%nat). replace (k - i + i)%nat with k in Hi by lia. replace (k - i + j)%nat with (k + Z.to_nat (Z.of_nat j - Z.of_nat i))%nat in Hi by lia. rewrite Hi in Hx. congruence.
Qed.


Lemma C79_repeatable_proof : forall (A : Type) (g : generator) (m : rand A) seed entropy entropy' size size' l,
  fst (sample g (seeded_once g m) (Some seed) entropy size) = Ok l -> size' <= size ->
  fst (sample g (seeded_once g m) (Some seed) entropy' size') = Ok (take (Z.to_nat size') l).
Proof.
  intros A g m seed st st' size size' l. unfold sample. set (st0 := g_seed g seed). intros El Hle.
  pose proof (loop_unfolds g m (Z.to_nat size) st0) as Hu. apply unfolds_unf in Hu. pose proof (loop_unfolds g m (Z.to_nat size') st0) as Hu'. apply unfolds_unf in Hu'. rewrite Hu'. rewrite El in Hu.
  apply (unf_take _ _ _ (Z.to_nat size)); [lia|by rewrite Hu].
Qed.


(** ** Dummy samplers *)
Lemma qsum_one_of (n : nat) (j : Z) (p : Qc) (f : nat -> Qc) : (0 <= j < Z.of_nat n) -> (forall i, f i = if decide (Z.of_nat i = j) then 1%Qc else 0%Qc) ->
  qsum (imap (fun i q => q * f i)%Qc (repeat p n)) = p.
Proof.
  revert j f. induction n as [|n IH]; intros j f Hj Hf; [lia|]. cbn [repeat imap qsum foldr]. rewrite Hf. change (foldr Qcplus 0%Qc) with qsum.
  destruct (decide (Z.of_nat 0 = j)) as [E|E].
  - assert (Hz : qsum (imap ((fun i q => q * f i)%Qc ∘ S) (repeat p n)) = 0%Qc).
    { assert (Hg : forall g : nat -> Qc, (forall i, g i = 0%Qc) -> qsum (imap (fun i q => q * g i)%Qc (repeat p n)) = 0%Qc).
      { clear. induction n as [|n IH]; intros g Hg; [done|]. cbn [repeat imap qsum foldr]. change (foldr Qcplus 0%Qc) with qsum. change (imap ((fun i q => q * g i)%Qc ∘ S) (repeat p n)) with (imap (fun i q => q * g (S i))%Qc (repeat p n)).
        rewrite (Hg 0%nat), (IH (fun i => g (S i))); [ring|]. intros i. apply Hg. }
      apply (Hg (fun i => f (S i))). intros i. rewrite Hf, decide_False by lia. done. }
    rewrite Hz. ring.
  - change (imap ((fun i q => q * f i)%Qc ∘ S) (repeat p n)) with (imap (fun i q => q * f (S i))%Qc (repeat p n)). rewrite (IH (j - 1) (fun i => f (S i))); [ring|lia|]. intros i. rewrite Hf. destruct (decide (Z.of_nat (S i) = j)), (decide (Z.of_nat i = j - 1)); try lia; done.
Qed.

Lemma C80_dummy_proof : forall n,
  (n <= 0 -> dummy_once n = Fail ValueError) /\
  (0 < n -> (forall j, 0 <= j < n -> prob (dummy_once n) (Ok {[j]}) = (1 / Qc_of_Z n)%Qc) /\ forall o, can (dummy_once n) o -> exists j, 0 <= j < n /\ o = Ok {[j]}).
Proof.
  intros n. unfold dummy_once. destruct (Z.leb_spec n 0) as [Hn|Hn]; (split; intros H; [try done; lia|try lia]). split.
  - intros j Hj. unfold prob. cbn [expect]. eapply (qsum_one_of _ j); [lia|]. intros i. destruct (decide (Z.of_nat i = j)) as [->|E]; [by rewrite decide_True|].
    rewrite decide_False; [done|]. intros E'. apply E. assert (H1 : ({[Z.of_nat i]} : gset Z) = {[j]}) by congruence. assert (H2 : Z.of_nat i ∈ ({[j]} : gset Z)) by (rewrite <- H1; apply elem_of_singleton; done). by apply elem_of_singleton in H2.
  - intros o (i & p & Hi & _ & Ho). cbn [can] in Ho. apply lookup_lt_Some in Hi. rewrite repeat_length in Hi. exists (Z.of_nat i). split; [lia|done].
Qed.
