(** Vocabulary for repeated sampling. *)
From Verif.Model Require Import PyBase PyReal RandR Cftp.
Open Scope R_scope.

(** product of a list of reals *)
Definition rprod (l : list R) : R := foldr Rmult 1 l.

(** only what is returned, without the lists of the object *)
Definition returned {A} (m : rrand (A * cstate)) : rrand A := let* '(x, _) := m in RRet x.

(** [iid m once]: m n, started with the empty lists, can only end with n values and the empty lists, or with an exception that
    once can raise, and returns the values xs with the product of the probabilities that once gives them *)
Definition iid {A} `{EqDecision A} (m : Z -> cstate -> rrand (list A * cstate)) (once : rrand A) : Prop :=
  (forall n o, rcan (m n cstate_empty) o ->
     (exists xs, o = Ok (xs, cstate_empty) /\ length xs = Z.to_nat n /\ forall x, x ∈ xs -> rcan once (Ok x)) \/
     (exists e, o = Err e /\ rcan once (Err e) /\ (0 < n)%Z)) /\
  (forall n xs vs, length xs = Z.to_nat n -> Forall2 (fun x v => hprob once (Ok x) v) xs vs ->
     hprob (returned (m n cstate_empty)) (Ok xs) (rprod vs)).
