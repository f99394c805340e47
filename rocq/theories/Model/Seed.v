(** Seeding: Sampler.sample (corset/samplers/base.py:15-17) over a deterministic generator, and the dummy samplers. *)
From Verif.Model Require Import PyBase Rand.
Open Scope Z_scope.

(** A pseudo-random generator such as numpy's global one: a state, np.random.seed(s), np.random.randint(n) and one draw
    of an index with the given probabilities, from which np.random.choice, rand and permutation are built. *)
Record generator := Generator {
  g_state : Type;
  g_seed : Z -> g_state;
  g_randint : Z -> g_state -> Z * g_state;
  g_choose : list Qc -> g_state -> nat * g_state
}.

(** A randomised computation run with a generator *)
Fixpoint run {A} (g : generator) (m : rand A) (st : g_state g) : result A * g_state g :=
  match m with
  | Ret a => (Ok a, st)
  | Fail e => (Err e, st)
  | Choose ps k => let '(i, st') := g_choose g ps st in run g (k i) st'
  end.

(** sample_once(seed) of a sampler that calls np.random.seed(seed) first, with a seed that is not None
    (corset/samplers/area.py:28-38, corset/samplers/freq.py:19-30, corset/samplers/surs.py:36-42); [m] is the rest of
    the method *)
Definition seeded_once {A} (g : generator) (m : rand A) (seed : Z) (st : g_state g) : result A * g_state g := run g m (g_seed g seed).

(** the comprehension in Sampler.sample (corset/samplers/base.py:17) *)
Fixpoint sample_loop {A} (g : generator) (once : Z -> g_state g -> result A * g_state g) (size : nat) (st : g_state g) : result (list A) * g_state g :=
  match size with
  | O => (Ok [], st)
  | S size' =>
      let '(seed, st) := g_randint g 100000 st in
      match once seed st with
      | (Err e, st) => (Err e, st)
      | (Ok x, st) =>
          match sample_loop g once size' st with
          | (Err e, st) => (Err e, st)
          | (Ok l, st) => (Ok (x :: l), st)
          end
      end
  end.

(** Sampler.sample (corset/samplers/base.py:15-17); np.random.seed(None) takes a state from the operating system, here
    [entropy] *)
Definition sample {A} (g : generator) (once : Z -> g_state g -> result A * g_state g) (random_state : option Z) (entropy : g_state g) (size : Z)
    : result (list A) * g_state g :=
  sample_loop g once (Z.to_nat size) (match random_state with Some s => g_seed g s | None => entropy end).

(** DummyHeadSampler and DummyTailSampler (corset/samplers/dummy.py:4-26): fit stores the number of columns,
    sample_once draws np.random.randint(0, n), a ValueError for n <= 0 *)
Definition dummy_once (n : Z) : rand (gset Z) :=
  if n <=? 0 then Fail ValueError
  else Choose (repeat (1 / Qc_of_Z n)%Qc (Z.to_nat n)) (fun i => Ret {[Z.of_nat i]}).
