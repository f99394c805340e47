(** Randomised Python computations.  Models numpy's np.random.choice; it cites no CORSET function.
    The global numpy generator is idealised: draws are independent and have exactly the requested
    probabilities; seeding (np.random.seed) only fixes which outcome happens and is not modelled. *)
From Coq Require Export QArith Qcanon.
From stdpp Require Export numbers.
From Verif.Model Require Import PyBase.
Open Scope Z_scope.

(** A value, an exception, or a draw of an index i with probability ps[i]. *)
Inductive rand (A : Type) :=
| Ret (a : A)
| Fail (e : exn)
| Choose (ps : list Qc) (k : nat -> rand A).
Arguments Ret {A} a.
Arguments Fail {A} e.
Arguments Choose {A} ps k.

Fixpoint bind {A B} (m : rand A) (f : A -> rand B) : rand B :=
  match m with
  | Ret a => f a
  | Fail e => Fail e
  | Choose ps k => Choose ps (fun i => bind (k i) f)
  end.

Notation "'let?' x ':=' r 'in' k" := (bind r (fun x => k))
  (at level 200, x binder, r at level 100, k at level 200, right associativity).

Definition lift {A} (r : result A) : rand A := match r with Ok a => Ret a | Err e => Fail e end.

Definition qsum (l : list Qc) : Qc := foldr Qcplus 0%Qc l.

(** Expected value of a function of the outcome. *)
Fixpoint expect {A} (m : rand A) (f : result A -> Qc) : Qc :=
  match m with
  | Ret a => f (Ok a)
  | Fail e => f (Err e)
  | Choose ps k => qsum (imap (fun i p => p * expect (k i) f)%Qc ps)
  end.

(** Probability of one outcome. *)
Definition prob {A} `{EqDecision A} (m : rand A) (o : result A) : Qc :=
  expect m (fun o' => if decide (o' = o) then 1%Qc else 0%Qc).

(** The outcomes that some draws with non-zero probability lead to. *)
Fixpoint can {A} (m : rand A) (o : result A) : Prop :=
  match m with
  | Ret a => o = Ok a
  | Fail e => o = Err e
  | Choose ps k => exists i p, ps !! i = Some p /\ p <> 0%Qc /\ can (k i) o
  end.

(** np.random.choice(xs, p=ps): ValueError when xs is empty, the sizes differ, a probability is negative
    or the probabilities do not sum to 1 (numpy allows a rounding error; here arithmetic is exact). *)
Definition np_choice {A} (xs : list A) (ps : list Qc) : rand A :=
  if (zlen xs =? 0) || negb (zlen ps =? zlen xs)
     || existsb (fun p => bool_decide (p < 0)%Qc) ps || negb (bool_decide (qsum ps = 1%Qc))
  then Fail ValueError
  else Choose ps (fun i => match xs !! i with Some x => Ret x | None => Fail IndexError end).

(** np.random.choice(xs): uniform *)
Definition np_choice_uniform {A} (xs : list A) : rand A :=
  np_choice xs (replicate (length xs) (1 / Qc_of_Z (zlen xs))%Qc).

(** ws / ws.sum() for a vector of non-negative numbers. *)
Definition normalize (ws : list Z) : list Qc := map (fun w => (Qc_of_Z w / Qc_of_Z (zsum ws))%Qc) ws.
