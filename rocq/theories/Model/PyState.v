(** Python code that updates an object and may raise: the state is kept when an exception is raised.
    Language-level plumbing, it cites no CORSET function. *)
From Verif.Model Require Import PyBase.

Definition sx (S A : Type) : Type := S -> result A * S.

Definition sret {S A} (a : A) : sx S A := fun s => (Ok a, s).
Definition serr {S A} (e : exn) : sx S A := fun s => (Err e, s).
Definition slift {S A} (r : result A) : sx S A := fun s => (r, s).
Definition sbind {S A B} (m : sx S A) (f : A -> sx S B) : sx S B := fun s =>
  match m s with (Ok a, s') => f a s' | (Err e, s') => (Err e, s') end.
Definition sget {S} : sx S S := fun s => (Ok s, s).
Definition smod {S} (f : S -> S) : sx S unit := fun s => (Ok tt, f s).

(** try: m except e: (None) *)
Definition scatch {S A} (e : exn) (m : sx S A) : sx S (option A) := fun s =>
  match m s with
  | (Ok a, s') => (Ok (Some a), s')
  | (Err e', s') => if decide (e' = e) then (Ok None, s') else (Err e', s')
  end.

Notation "'let^' x ':=' m 'in' k" := (sbind m (fun x => k))
  (at level 200, x binder, m at level 100, k at level 200, right associativity).
