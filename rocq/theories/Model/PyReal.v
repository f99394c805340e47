(** Floating point arithmetic idealised as real arithmetic (rounding and overflow are not modelled). *)
From Coq Require Export Reals.
From Verif.Model Require Import PyBase.
Open Scope Z_scope.

(** [a / b] on Python integers. *)
Definition py_div (a b : Z) : result R :=
  if b =? 0 then Err ZeroDivisionError else Ok (IZR a / IZR b)%R.

(** [a / b] when an operand is a numpy integer: division by zero gives nan or inf with a warning. *)
Definition np_div (a b : Z) : result R :=
  if b =? 0 then Err NonFinite else Ok (IZR a / IZR b)%R.

(** [a / b] on Python floats. *)
Definition float_div (a b : R) : result R :=
  if Req_EM_T b 0 then Err ZeroDivisionError else Ok (a / b)%R.

(** [sum(l)] of floats. *)
Definition rsum (l : list R) : R := foldr Rplus 0%R l.

(** comparisons as booleans *)
Definition Rltb (a b : R) : bool := if Rlt_dec a b then true else false.
Definition Rleb (a b : R) : bool := if Rle_dec a b then true else false.
