(** Vocabulary for the number of steps that coupling from the past takes. *)
From Verif.Model Require Import PyBase PyReal.
Open Scope Z_scope.

(** Steps are independent and each leads away from the initial state with probability q: the probability that the most
    recent 2^j steps are enough but the most recent 2^(j-1) are not (none at all for j = 0). *)
Definition needs (q : R) (j : Z) : R :=
  ((1 - q) ^ (if (j =? 0)%Z then 0%nat else Z.to_nat (2 ^ (j - 1))) - (1 - q) ^ Z.to_nat (2 ^ j))%R.
