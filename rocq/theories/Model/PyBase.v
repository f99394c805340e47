(** Python values, exceptions and sequences used by every model file.
    Models the Python 3.8 / numpy language features the CORSET sources rely on; it cites no CORSET
    function because it models none. *)
From Coq Require Export ZArith List Lia Bool.
From stdpp Require Export base list gmap sets fin_sets sorting.
Export ListNotations.
Open Scope Z_scope.

(** Exceptions that can leave the modelled functions.  [NoMoreSamples] and [InsufficientCandidates]
    are corset/exceptions.py:1-5; [GenericException] is a bare [raise Exception(...)];
    [OutOfFuel] is not a Python exception: it marks that a modelled [while] loop was cut off.
    [NonFinite] is not one either: it marks a floating point nan or infinity. *)
Inductive exn :=
| ValueError | KeyError | IndexError | AssertionError | ZeroDivisionError | TypeError
| RuntimeError | AttributeError | NotImplementedError | UnboundLocalError | GenericException
| NoMoreSamples | InsufficientCandidates | OutOfFuel | NonFinite.

Global Instance exn_eq_dec : EqDecision exn.
Proof. solve_decision. Defined.

(** Result of a Python computation: a value or a raised exception. *)
Inductive result (A : Type) :=
| Ok (a : A)
| Err (e : exn).
Arguments Ok {A} a.
Arguments Err {A} e.

Global Instance result_eq_dec {A} `{EqDecision A} : EqDecision (result A).
Proof. solve_decision. Defined.

Definition rbind {A B} (r : result A) (f : A -> result B) : result B :=
  match r with Ok a => f a | Err e => Err e end.

Notation "'let!' x ':=' r 'in' k" := (rbind r (fun x => k))
  (at level 200, x binder, r at level 100, k at level 200, right associativity).
Notation "'let!' ' p ':=' r 'in' k" := (rbind r (fun p => k))
  (at level 200, p pattern, r at level 100, k at level 200, right associativity).

(** [for]-style evaluation of a list of computations, stopping at the first exception. *)
Fixpoint rmap {A B} (f : A -> result B) (l : list A) : result (list B) :=
  match l with
  | [] => Ok []
  | x :: l' => let! y := f x in let! ys := rmap f l' in Ok (y :: ys)
  end.

Fixpoint rfold {A S} (f : S -> A -> result S) (s : S) (l : list A) : result S :=
  match l with
  | [] => Ok s
  | x :: l' => let! s' := f s x in rfold f s' l'
  end.

Definition is_ok {A} (r : result A) : bool := match r with Ok _ => true | Err _ => false end.

(** [len(l)] *)
Definition zlen {A} (l : list A) : Z := Z.of_nat (length l).

(** [l[i]] for a Python list / tuple / 1-d numpy array: negative indices count from the end,
    anything else out of range raises IndexError. *)
Definition py_index {A} (l : list A) (i : Z) : result A :=
  let n := zlen l in
  let j := if i <? 0 then i + n else i in
  if (j <? 0) || (n <=? j) then Err IndexError
  else match l !! Z.to_nat j with Some a => Ok a | None => Err IndexError end.

(** [l[i] = v], same index rules. *)
Definition py_setitem {A} (l : list A) (i : Z) (v : A) : result (list A) :=
  let n := zlen l in
  let j := if i <? 0 then i + n else i in
  if (j <? 0) || (n <=? j) then Err IndexError
  else Ok (<[Z.to_nat j := v]> l).

(** slice bound: negative counts from the end, then clamp to [0, n]. *)
Definition py_clamp (n i : Z) : Z :=
  let j := if i <? 0 then i + n else i in Z.max 0 (Z.min n j).

(** [l[i:j]] *)
Definition py_slice {A} (l : list A) (i j : Z) : list A :=
  let n := zlen l in
  let a := py_clamp n i in
  let b := py_clamp n j in
  take (Z.to_nat (b - a)) (drop (Z.to_nat a) l).

(** [range(n)] (empty for negative n). *)
Definition py_range (n : Z) : list Z := seqZ 0 n.

(** [enumerate(l)] *)
Definition enumerate {A} (l : list A) : list (Z * A) := zip (py_range (zlen l)) l.

(** [set(l)] for a list of integers. *)
Definition py_set (l : list Z) : gset Z := list_to_set l.

(** [sum(l)] of integers. *)
Definition zsum (l : list Z) : Z := foldr Z.add 0 l.

(** [sorted(l)] of integers: std++ merge sort; the order of equal integers is not observable. *)
Definition py_sorted (l : list Z) : list Z := merge_sort Z.le l.

(** Iteration order of a Python set of integers: any function that lists each element once.
    Simplification: the order depends on the contents only, not on the insertion history. *)
Definition set_order (ord : gset Z -> list Z) : Prop := forall s, ord s ≡ₚ elements s.

(** Solve a decidable goal by computation (used by the examples). *)
Ltac by_compute :=
  match goal with |- ?P => apply (bool_decide_unpack P); vm_compute; exact I end.
