(** What an ARFF file says, and what it means to binarise a table.  Nothing here refers to the readers. *)
From Coq Require Import Ascii String DecimalString QArith Qcanon Qround.
From stdpp Require Import strings numbers.
From Verif.Model Require Import PyBase.
Open Scope Z_scope.

(** ** Text *)
Definition newline : string := String (ascii_of_nat 10) EmptyString.
Definition lacks (c : ascii) (s : string) : Prop := ~ In c (list_ascii_of_string s).
Fixpoint join (sep : string) (l : list string) : string :=
  match l with [] => EmptyString | [s] => s | s :: l' => (s +:+ sep +:+ join sep l')%string end.
Definition decimal (z : Z) : string := NilZero.string_of_int (Z.to_int z).

(** an attribute line: the name and the type *)
Definition attribute_line (nt : string * string) : string := ("@attribute " +:+ fst nt +:+ " " +:+ snd nt +:+ newline)%string.
Definition attribute_ok (nt : string * string) : Prop := lacks " " (fst nt) /\ lacks (ascii_of_nat 10) (snd nt).
(** the positions of the attributes of type numeric *)
Definition numeric_at (attrs : list (string * string)) (i : Z) : Prop :=
  0 <= i /\ snd <$> attrs !! Z.to_nat i = Some "numeric"%string.
(** the names of the labels: the last n; all of them for n = 0 *)
Definition last_names (attrs : list (string * string)) (n : Z) : list string :=
  if n =? 0 then map fst attrs else drop (length attrs - Z.to_nat n) (map fst attrs).
(** a line that ends the list of attributes *)
Definition not_attribute (s : string) : Prop := s <> "@attribute"%string /\ forall t, s <> ("@attribute " +:+ t)%string.

(** ** Sparse rows: {index value,index value,...} *)
Definition sparse_entry (e : Z * string) : string := (decimal (fst e) +:+ " " +:+ snd e)%string.
Definition sparse_line (row : list (Z * string)) (eol : string) : string :=
  ("{" +:+ join "," (map sparse_entry row) +:+ "}" +:+ eol)%string.
Definition sparse_ok (row : list (Z * string)) : Prop := Forall (fun e => lacks " " (snd e) /\ lacks "," (snd e)) row.

(** column c of a table with n columns is set by the row; a negative index counts from the end; the values are
    not looked at *)
Definition is_set (n : Z) (row : list (Z * string)) (c : Z) : Z :=
  if bool_decide (Exists (fun e => fst e = c \/ fst e + n = c) row) then 1 else 0.
Definition sparse_error (n : Z) (row : list (Z * string)) : option exn :=
  match row with
  | [] => Some ValueError
  | _ => if bool_decide (Exists (fun e => fst e < - n \/ n <= fst e) row) then Some IndexError else None
  end.
Fixpoint first_some {A B} (f : A -> option B) (l : list A) : option B :=
  match l with [] => None | x :: l' => match f x with Some b => Some b | None => first_some f l' end end.

(** ** Dense rows *)
Definition dense_line (fields : list string) : string := (join "," fields +:+ newline)%string.
Definition fields_ok (fields : list string) : Prop := fields <> [] /\ Forall (lacks ",") fields.
(** what is left of the fields when the first character of the line is lost *)
Definition first_char_lost (fields : list string) : list string :=
  match fields with
  | String _ s :: l => s :: l
  | EmptyString :: ((_ :: _) as l) => l   (* the comma is lost *)
  | l => l
  end.
Definition field_value (fl : string -> result Qc) (s : string) : result Qc := match s with EmptyString => Ok 0%Qc | _ => fl s end.
(** the first failure, or all values *)
Fixpoint all_ok {A} (l : list (result A)) : result (list A) :=
  match l with
  | [] => Ok []
  | Err e :: _ => Err e
  | Ok a :: l' => match all_ok l' with Ok l'' => Ok (a :: l'') | Err e => Err e end
  end.
(** a row of n cells from the values; one value is repeated *)
Definition fill (n : nat) (vs : list Qc) : result (list Qc) :=
  if decide (length vs = n) then Ok vs else match vs with [v] => Ok (replicate n v) | _ => Err ValueError end.
Definition row_values (value : string -> result Qc) (n : nat) (fields : list string) : result (list Qc) :=
  match all_ok (map value fields) with Ok vs => fill n vs | Err e => Err e end.

(** genbase *)
Definition yes_no (fl : string -> result Qc) (s : string) : result Qc :=
  if decide (s = "YES"%string) then Ok 1%Qc else if decide (s = "NO"%string) then Ok 0%Qc else field_value fl s.

(** ** Binarisation of a table A with at least one row *)
Definition cell (row : list Qc) (x : Z) : Qc := default 0%Qc (row !! Z.to_nat x).
Definition col (A : list (list Qc)) (x : Z) : list Qc := map (fun row => cell row x) A.
(** the number of smaller values in the column *)
Definition smaller (A : list (list Qc)) (x : Z) (v : Qc) : Z := zlen (filter (fun u => (u < v)%Qc) (col A x)).
Definition not_larger (A : list (list Qc)) (x : Z) (v : Qc) : Z := zlen (filter (fun u => (u <= v)%Qc) (col A x)).
(** 0 for the values of low rank.  [strict]: values equal to the quantile become 1 *)
Definition threshold (strict : bool) (p : Qc) (A : list (list Qc)) (x : Z) (v : Qc) : Z :=
  let h := (Qc_of_Z (zlen A - 1) * p)%Qc in
  if strict then if not_larger A x v <=? Qceiling (this h) then 0 else 1
  else if smaller A x v <=? Qfloor (this h) then 0 else 1.
(** rounding towards 0 *)
Definition trunc (q : Qc) : Z := if decide (0 <= q)%Qc then Qfloor (this q) else Qceiling (this q).

Definition several (A : list (list Qc)) (x : Z) : Prop := (2 < length (remove_dups (col A x)))%nat.
Global Instance several_dec A x : Decision (several A x).
Proof. unfold several. apply _. Defined.
(** the columns that are replaced by one column per value *)
Definition encoded (numeric : list Z) (w : Z) (A : list (list Qc)) : list Z :=
  filter (fun x => x ∉ numeric /\ several A x) (seqZ 0 w).
Definition kept (numeric : list Z) (w : Z) (A : list (list Qc)) : list Z :=
  filter (fun x => ~ (x ∉ numeric /\ several A x)) (seqZ 0 w).
Definition sorted_values (l : list Qc) (vs : list Qc) : Prop := StronglySorted Qclt vs /\ forall v, v ∈ vs <-> v ∈ l.

Definition kept_value (strict : bool) (p : Qc) (numeric : list Z) (A : list (list Qc)) (x : Z) (v : Qc) : Z :=
  if decide (x ∈ numeric) then threshold strict p A x v else trunc v.
Definition one_hot (vs : list Qc) (v : Qc) : list Z := map (fun c => if decide (v = c) then 1 else 0) vs.

(** a row of the result; [vals x] are the values of column x *)
Definition binarized_row (strict : bool) (p : Qc) (numeric : list Z) (w : Z) (A : list (list Qc)) (vals : Z -> list Qc)
    (row : list Qc) : list Z :=
  map (fun x => kept_value strict p numeric A x (cell row x)) (kept numeric w A)
  ++ concat (map (fun x => one_hot (vals x) (cell row x)) (encoded numeric w A)).
Definition binarized (strict : bool) (p : Qc) (numeric : list Z) (w : Z) (A : list (list Qc)) (D : list (list Z)) : Prop :=
  exists vals, (forall x, sorted_values (col A x) (vals x)) /\ D = map (binarized_row strict p numeric w A vals) A.

(** ** The scikit-learn generator *)
Definition up_to (D : list (list Z)) (v : Z) : Z := zlen (filter (fun u => u <= v) (concat D)).
Definition density_cell (D : list (list Z)) (p : Qc) (v : Z) : Z :=
  let k := Qceiling (this (Qc_of_Z (zlen (concat D) - 1) * p)%Qc) in
  if k <? up_to D 1 then 0 else if up_to D v <=? k then 1 else 0.

(** ** Dense files: the header, the rows, and the table of their values *)
Definition dense_lines (h1 h2 : string) attrs (sep1 sep2 : string) rows : list string :=
  h1 :: h2 :: map attribute_line attrs ++ sep1 :: sep2 :: map dense_line rows.
Definition dense_file (fl : string -> result Qc) attrs (sep1 : string) rows (n_labels : Z) (p : Qc) (A : list (list Qc)) : Prop :=
  Forall attribute_ok attrs /\ not_attribute sep1 /\ 0 <= n_labels <= zlen attrs /\ rows <> [] /\ (0 <= p)%Qc /\ (p <= 1)%Qc /\
  Forall fields_ok rows /\
  Forall2 (fun fields row => row_values (field_value fl) (length attrs) (first_char_lost fields) = Ok row) rows A.
Definition binary (D : list (list Z)) : Prop := Forall (Forall (fun v => v = 0 \/ v = 1)) D.
