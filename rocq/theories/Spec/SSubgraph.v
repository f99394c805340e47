(** The total weight of the ordered pairs of different nodes. *)
From Verif.Model Require Import PyBase Graph.
Open Scope Z_scope.

Definition pair_total (W : Z -> Z -> Qc) (ns : list Z) : Qc :=
  foldr (fun u acc => (foldr (fun v a => if decide (u = v) then a else (W u v + a)%Qc) 0%Qc ns + acc)%Qc) 0%Qc ns.
