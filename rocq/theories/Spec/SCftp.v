(** Specification of coupling from the past: target and proposal weights of pairs, the random inputs that can
    occur, and the discriminativity of a sample. *)
From Verif.Model Require Import PyBase PyReal Sparse Cftp.
Open Scope Z_scope.

(** [w] gives the target weight of the pairs; every index has a non-negative proposal weight and the product of
    the proposal weights of a pair is at least its target weight. *)
Definition dominated (Wpos Wneg : gmap Z R) (pos neg : list Z) (weight : Z -> Z -> result Z) (w : Z -> Z -> Z) : Prop :=
  (forall p, p ∈ pos -> exists a, Wpos !! p = Some a /\ (0 <= a)%R) /\
  (forall n, n ∈ neg -> exists b, Wneg !! n = Some b /\ (0 <= b)%R) /\
  (forall p n a b, p ∈ pos -> n ∈ neg -> Wpos !! p = Some a -> Wneg !! n = Some b ->
     weight p n = Ok (w p n) /\ 0 <= w p n /\ (IZR (w p n) <= a * b)%R).

(** proposal weight of one index, and the total over a list *)
Definition pweight (W : gmap Z R) (i : Z) : R := default 0%R (W !! i).
Definition pmass (W : gmap Z R) (l : list Z) : R := rsum (map (pweight W) l).

(** total target weight of all pairs *)
Definition total_weight (w : Z -> Z -> Z) (pos neg : list Z) : Z := zsum (map (fun p => zsum (map (w p) neg)) pos).

(** the mass of the target inside the proposal: the probability to accept from the initial state *)
Definition accept_mass (Wpos Wneg : gmap Z R) (pos neg : list Z) (w : Z -> Z -> Z) : R :=
  (IZR (total_weight w pos neg) / (pmass Wpos pos * pmass Wneg neg))%R.

(** k draws that can occur: uniforms in [0,1), indices with positive proposal weight *)
Definition possible_draws (Wpos Wneg : gmap Z R) (pos neg : list Z) (k : nat) (st : cstate) : Prop :=
  length (cs_u st) = k /\ length (cs_pos st) = k /\ length (cs_neg st) = k /\
  (forall u, u ∈ cs_u st -> (0 <= u < 1)%R) /\
  (forall p, p ∈ cs_pos st -> p ∈ pos /\ (0 < pweight Wpos p)%R) /\
  (forall n, n ∈ cs_neg st -> n ∈ neg /\ (0 < pweight Wneg n)%R).

(** older randomness in front of newer *)
Definition older_first (old new : cstate) : cstate :=
  CState (cs_u old ++ cs_u new) (cs_pos old ++ cs_pos new) (cs_neg old ++ cs_neg new).

(** the most recent k draws *)
Definition recent (k : nat) (st : cstate) : cstate :=
  CState (drop (length (cs_u st) - k) (cs_u st)) (drop (length (cs_pos st) - k) (cs_pos st)) (drop (length (cs_neg st) - k) (cs_neg st)).

(** [y] labels the rows: index i is positive / negative *)
Definition is_pos (y : list Z) (i : Z) : Prop := 0 <= i /\ exists v, y !! Z.to_nat i = Some v /\ 0 < v.
Definition is_neg (y : list Z) (i : Z) : Prop := 0 <= i /\ y !! Z.to_nat i = Some 0.

(** number of rows labelled positive (negative) that contain sample k, and number of negative rows *)
Definition count_rows (P : Z -> bool) (rows : list (list Z)) (y : list Z) (k : Z) : Z :=
  zlen (List.filter (fun ry => bool_decide (k ∈ fst ry) && P (snd ry)) (zip rows y)).
Definition supp_pos (rows : list (list Z)) (y : list Z) (k : Z) : Z := count_rows (fun v => 0 <? v) rows y k.
Definition supp_neg (rows : list (list Z)) (y : list Z) (k : Z) : Z := count_rows (fun v => v =? 0) rows y k.
Definition n_neg (y : list Z) : Z := zlen (List.filter (fun v => v =? 0) y).

(** discriminativity of sample k, and of the whole sample space *)
Definition discrim (rows : list (list Z)) (y : list Z) (k : Z) : Z := supp_pos rows y k * (n_neg y - supp_neg rows y k).
Definition total_discrim (n : Z) (rows : list (list Z)) (y : list Z) : Z := zsum (map (discrim rows y) (py_range n)).

(** total proposal mass of the tight and of the original proposal *)
Definition row_sum (f : list Z -> R) (P : Z -> bool) (rows : list (list Z)) (y : list Z) : R :=
  rsum (map (fun ry => f (fst ry)) (List.filter (fun ry => P (snd ry)) (zip rows y))).
Definition proposal_total (pd : proposal) (n : Z) (rows : list (list Z)) (y : list Z) : R :=
  match pd with
  | Tight => row_sum (fun r => IZR (zlen r)) (fun v => 0 <? v) rows y * IZR (n_neg y)
  | Original => row_sum (fun r => R_sqrt.sqrt (IZR (zlen r))) (fun v => 0 <? v) rows y *
                row_sum (fun r => R_sqrt.sqrt (IZR (n - zlen r))) (fun v => v =? 0) rows y
  end.

(** rows of sample indices below n without repetitions *)
Definition sample_rows (n : Z) (rows : list (list Z)) : Prop :=
  forall r, r ∈ rows -> NoDup r /\ forall k, k ∈ r -> 0 <= k < n.

(** a fitted discriminativity sampler whose rows belong to the labelled data *)
Definition fitted_rows (X : csr) (y : list Z) (s : cds) : Prop :=
  zlen y = csr_rows X /\ zlen (cds_rows s) = csr_rows X /\ sample_rows (zlen (cds_space s)) (cds_rows s).
