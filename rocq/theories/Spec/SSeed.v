(** Sequences of samples that are determined by one seed. *)
From Verif.Model Require Import PyBase Seed.
Open Scope Z_scope.

Definition in_range (s : Z) : Prop := 0 <= s < 100000.
Definition ints_in_range (g : generator) : Prop := forall n st, 0 < n -> 0 <= fst (g_randint g n st) < n.
(** r lists the values out s, out (next s), out (next (next s)), ...; or it is the first error among them *)
Fixpoint unfolds {A} (out : Z -> result A) (next : Z -> Z) (s : Z) (size : nat) (r : result (list A)) : Prop :=
  match size with
  | O => r = Ok []
  | S size' =>
      match out s with
      | Err e => r = Err e
      | Ok x => exists r', unfolds out next (next s) size' r' /\ r = match r' with Ok l => Ok (x :: l) | Err e => Err e end
      end
  end.
(** from index i on, the list repeats with period d *)
Definition repeats {A} (l : list A) (i d : Z) : Prop := forall k : nat, i <= Z.of_nat k -> Z.of_nat k + d < zlen l -> l !! (k + Z.to_nat d)%nat = l !! k.
