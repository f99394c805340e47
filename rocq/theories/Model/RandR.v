(** Randomised Python computations with real probabilities and uniform [0,1) draws.  Models
    np.random.uniform, np.random.choice and random.choice; it cites no CORSET function.  As in Rand.v the
    generators are idealised: draws are independent and have exactly the requested distribution. *)
From Verif.Model Require Import PyBase PyReal.
Require Coquelicot.Hierarchy Coquelicot.RInt.
Open Scope Z_scope.

(** A value, an exception, a draw of an index i with probability ps[i], or a uniform draw from [0,1). *)
Inductive rrand (A : Type) :=
| RRet (a : A)
| RFail (e : exn)
| RChoose (ps : list R) (k : nat -> rrand A)
| RUnif (k : R -> rrand A).
Arguments RRet {A} a.
Arguments RFail {A} e.
Arguments RChoose {A} ps k.
Arguments RUnif {A} k.

Fixpoint rrbind {A B} (m : rrand A) (f : A -> rrand B) : rrand B :=
  match m with
  | RRet a => f a
  | RFail e => RFail e
  | RChoose ps k => RChoose ps (fun i => rrbind (k i) f)
  | RUnif k => RUnif (fun u => rrbind (k u) f)
  end.

Notation "'let*' x ':=' r 'in' k" := (rrbind r (fun x => k))
  (at level 200, x binder, r at level 100, k at level 200, right associativity).
Notation "'let*' ' p ':=' r 'in' k" := (rrbind r (fun p => k))
  (at level 200, p pattern, r at level 100, k at level 200, right associativity).

Definition rlift {A} (r : result A) : rrand A := match r with Ok a => RRet a | Err e => RFail e end.

(** [hexpect m f v]: the expected value of f on the outcome of m exists and is v.  Branches of probability 0
    do not matter; a uniform draw is a Riemann integral that has to exist. *)
Inductive hexpect {A} (f : result A -> R) : rrand A -> R -> Prop :=
| HRet a : hexpect f (RRet a) (f (Ok a))
| HFail e : hexpect f (RFail e) (f (Err e))
| HChoose ps k g v :
    (forall i p, ps !! i = Some p -> p <> 0%R -> hexpect f (k i) (g i)) ->
    v = rsum (imap (fun i p => p * g i)%R ps) ->
    hexpect f (RChoose ps k) v
| HUnif k g v :
    (forall u, (0 <= u < 1)%R -> hexpect f (k u) (g u)) ->
    Coquelicot.RInt.is_RInt (V := Coquelicot.Hierarchy.R_NormedModule) g 0%R 1%R v ->
    hexpect f (RUnif k) v.

(** The probability of outcome o is v. *)
Definition hprob {A} `{EqDecision A} (m : rrand A) (o : result A) (v : R) : Prop :=
  hexpect (fun o' => if decide (o' = o) then 1%R else 0%R) m v.

(** The outcomes that some draws (each of non-zero probability or density) lead to. *)
Fixpoint rcan {A} (m : rrand A) (o : result A) : Prop :=
  match m with
  | RRet a => o = Ok a
  | RFail e => o = Err e
  | RChoose ps k => exists i p, ps !! i = Some p /\ p <> 0%R /\ rcan (k i) o
  | RUnif k => exists u, (0 <= u < 1)%R /\ rcan (k u) o
  end.

(** np.random.choice(xs, p=ps), same checks as Rand.np_choice *)
Definition rchoice {A} (xs : list A) (ps : list R) : rrand A :=
  if (zlen xs =? 0) || negb (zlen ps =? zlen xs)
     || existsb (fun p => Rltb p 0%R) ps || negb (if Req_EM_T (rsum ps) 1%R then true else false)
  then RFail ValueError
  else RChoose ps (fun i => match xs !! i with Some x => RRet x | None => RFail IndexError end).

(** random.choice(xs): IndexError when xs is empty *)
Definition py_choice {A} (xs : list A) : rrand A :=
  match xs with
  | [] => RFail IndexError
  | _ => RChoose (replicate (length xs) (1 / IZR (zlen xs))%R)
           (fun i => match xs !! i with Some x => RRet x | None => RFail IndexError end)
  end.

(** n independent draws *)
Fixpoint rrepeat {A} (n : nat) (m : rrand A) : rrand (list A) :=
  match n with
  | O => RRet []
  | Datatypes.S n' => let* x := m in let* xs := rrepeat n' m in RRet (x :: xs)
  end.

(** np.random.uniform(0, 1, n) and np.random.choice(xs, size=n, p=ps) for n >= 0 *)
Definition runiform (n : nat) : rrand (list R) := rrepeat n (RUnif RRet).
Definition rchoices {A} (n : nat) (xs : list A) (ps : list R) : rrand (list A) := rrepeat n (rchoice xs ps).
