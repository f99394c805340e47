(** Properties of the greedy head samplers (C59). *)
From Verif.Model Require Import PyBase PyReal Rand RandR Sparse GreedyHead.
From Verif.Spec Require Import SMatrix SCftp SBoley SGreedyHead.
Open Scope Z_scope.
From Verif.Proofs Require Import T_GreedyHead.
Open Scope Z_scope.

(** C59: greedy_choice after any fit whose data are those of X0 (of the first fit, which later fits keep), with labels y.
    For a non-empty set U of attributes it returns the first attributes of the greedy run on U up to the one with the
    largest gain.  CFTP_Greedy (norm = true) needs attributes that occur.  If U is empty, it raises
    UnboundLocalError. *)
Theorem C59_choice : forall (ord : gset Z -> list Z) (norm : bool) (gamma eps : Qc) (cache : option ghcache) (X0 X : csr) (y : list Z),
  set_order ord -> wf_cmat (csr_mat X0) = true -> binary (csr_mat X0) -> first_matrix ord cache X X0 ->
  zlen y = csr_rows X0 -> py_set y = {[ 0; 1 ]} ->
  exists s rows, gh_fit ord cache X y = Ok s /\ rows_of X0 rows /\
    (forall U : gset Z, U <> ∅ -> (forall a, a ∈ U -> 0 <= a < csr_cols X0 /\ (norm = true -> exists i, csr_has X0 i a)) ->
       exists T, gh_choice ord norm gamma eps s U = Ok T /\ greedy_result ord (GHSpec norm gamma eps rows y) U T) /\
    gh_choice ord norm gamma eps s ∅ = Err UnboundLocalError.
Proof. exact C59_choice_proof. Qed.
Print Assumptions C59_choice.

(** C59: the specification determines the result: the same universe gives the same attributes; they are some of the
    attributes of the universe, at least one. *)
Theorem C59_result_unique : forall (ord : gset Z -> list Z) (sp : ghspec) (U T T' : gset Z),
  set_order ord -> greedy_result ord sp U T -> T <> ∅ /\ T ⊆ U /\ (greedy_result ord sp U T' -> T' = T).
Proof. exact C59_result_unique_proof. Qed.
Print Assumptions C59_result_unique.

(** C59: PruneGreedy chooses from the attributes that occur in a positive row, or from all attributes if there is none; it
    always returns the result of the greedy run on them, k times for sample(k).  With no columns it raises
    UnboundLocalError. *)
Theorem C59_prune : forall (ord : gset Z -> list Z) (gamma eps : Qc) (cache : option ghcache) (X0 X : csr) (y : list Z),
  set_order ord -> wf_cmat (csr_mat X0) = true -> binary (csr_mat X0) -> first_matrix ord cache X X0 ->
  csr_cols X = csr_cols X0 -> zlen y = csr_rows X0 -> py_set y = {[ 0; 1 ]} ->
  exists s rows U, gh_fit ord cache X y = Ok s /\ rows_of X0 rows /\
    (forall a : Z, a ∈ U <-> 0 <= a < csr_cols X0 /\
       ((exists i, is_pos y i /\ csr_has X0 i a) \/ ~ exists i b, is_pos y i /\ csr_has X0 i b)) /\
    (csr_cols X0 = 0 -> pg_sample_once ord gamma eps s = Err UnboundLocalError) /\
    (0 < csr_cols X0 -> exists T, greedy_result ord (GHSpec false gamma eps rows y) U T /\
       pg_sample_once ord gamma eps s = Ok T /\ forall k, pg_sample ord gamma eps s k = Ok (replicate (Z.to_nat k) T)).
Proof. exact C59_prune_proof. Qed.
Print Assumptions C59_prune.

(** C59: CFTP_Greedy.sample_once after any fit whose data are those of X0 returns None or the result of the greedy run on the
    attributes that some positive row has and some negative row lacks.  The pair of rows is drawn with probability
    proportional to the number of these attributes, given that 1024 steps are enough; None has the probability
    (1 - q)^1024.  If no positive row has an attribute that a negative row lacks, None is returned. *)
Theorem C59_cftp : forall (ord : gset Z -> list Z) (gamma eps : Qc) (cache : option ghcache) (X0 X : csr) (y : list Z),
  set_order ord -> wf_cmat (csr_mat X0) = true -> binary (csr_mat X0) -> first_matrix ord cache X X0 ->
  csr_rows X = csr_rows X0 -> zlen y = csr_rows X0 -> py_set y = {[ 0; 1 ]} ->
  exists s rows, cg_fit ord cache X y = Ok s /\ rows_of X0 rows /\
    let sp := GHSpec true gamma eps rows y in
    let total := pairs_total n_extra rows y in
    let q := (IZR total / IZR (pos_size rows y * n_neg y))%R in
    (forall o, rcan (cg_sample_once ord gamma eps s) o -> o = Ok None \/
       exists p n P N T, is_pos y p /\ is_neg y n /\ rows !! Z.to_nat p = Some P /\ rows !! Z.to_nat n = Some N /\
         o = Ok (Some T) /\ greedy_result ord sp (P ∖ N) T) /\
    (total = 0 -> forall o, rcan (cg_sample_once ord gamma eps s) o -> o = Ok None) /\
    (0 < total -> (0 < q <= 1)%R /\
       hprob (cg_sample_once ord gamma eps s) (Ok None) ((1 - q) ^ 1024) /\
       exists pick : gset Z -> gset Z, (forall P N, P ∈ rows -> N ∈ rows -> P ∖ N <> ∅ -> greedy_result ord sp (P ∖ N) (pick (P ∖ N))) /\
         forall T, hprob (cg_sample_once ord gamma eps s) (Ok (Some T))
           (IZR (pairs_total (fun P N => if decide (pick (P ∖ N) = T) then n_extra P N else 0) rows y) / IZR total * (1 - (1 - q) ^ 1024))).
Proof. exact C59_cftp_proof. Qed.
Print Assumptions C59_cftp.

(** Three positive rows {0,1,2}, {0,1}, {0} and four negative rows {0}, {0}, {1}, {1,2}. *)
Definition ex_X : csr := Csr (of_lines 3 [[(0,1);(1,1);(2,1)]; [(0,1);(1,1)]; [(0,1)]; [(0,1)]; [(0,1)]; [(1,1)]; [(1,1);(2,1)]]).
Definition ex_y : list Z := [1;1;1;0;0;0;0].
Definition ex_rows : list (gset Z) := [{[0;1;2]}; {[0;1]}; {[0]}; {[0]}; {[0]}; {[1]}; {[1;2]}].
Definition half : Qc := Q2Qc (1 # 2).

Example C59_hypotheses_ex : set_order (elements : gset Z -> list Z) /\ wf_cmat (csr_mat ex_X) = true /\ binary (csr_mat ex_X) /\
  first_matrix elements None ex_X ex_X /\ zlen ex_y = csr_rows ex_X /\ py_set ex_y = {[ 0; 1 ]} /\ rows_of ex_X ex_rows.
Proof.
  split_and!; try by_compute; try done.
  - intros s. reflexivity.
  - by apply Verif.Proofs.PSparse.binary_b_ok; vm_compute.
  - by left.
  - destruct (PGreedyBase.convert_v2_ok ex_X ltac:(by_compute)) as (sets & E & H). replace ex_rows with sets; [exact H|].
    apply (f_equal (fun r => match r with Ok l => l | Err _ => [] end)) in E. cbn beta iota in E. rewrite <- E. by_compute.
Qed.

(** The rows kept from a fit on ex_X serve a later fit on any matrix. *)
Example C59_refit_ex : forall X, exists s0, gh_fit elements None ex_X ex_y = Ok s0 /\ first_matrix elements (Some (gh_c s0)) X ex_X.
Proof. intros X. eexists. split; [vm_compute; reflexivity|]. right. exists ex_y. eexists. split; [vm_compute; reflexivity|]. reflexivity. Qed.

(** With gamma = 1 attribute 0 alone has gain 3 - 2 = 1, then attribute 1 raises it to 2 - 0 and attribute 2 lowers it to 1.
    With eps = 1/2 the run stops before attribute 2.  Divided by frequencies, from {1, 2} the attribute 1 with
    gain (2 - 2) / 4 comes first, as does 2 with gain (1 - 1) / 2; the order decides. *)
Example C59_prune_ex : (let! s := gh_fit elements None ex_X ex_y in pg_sample_once elements 1%Qc (Q2Qc (1 # 10)) s) = Ok {[ 0; 1 ]} /\
  (let! s := gh_fit elements None ex_X ex_y in pg_sample_once elements 1%Qc half s) = Ok {[ 0; 1 ]} /\
  (let! s := gh_fit elements None ex_X ex_y in pg_sample_once elements 0%Qc half s) = Ok {[ 0 ]} /\
  (let! s := gh_fit elements None ex_X ex_y in gh_choice elements true half half s {[ 1; 2 ]}) = Ok {[ 1 ]} /\
  (let! s := gh_fit elements None ex_X ex_y in gh_choice elements true half half s ∅) = Err UnboundLocalError /\
  gh_fit elements None ex_X [1;1;1;1;1;1;1] = Err AssertionError.
Proof. split_and!; try by_compute. vm_compute. reflexivity. Qed.

(** All 13 pairs of CFTP_Greedy, out of a proposal of 6 * 4: q = 13/24. *)
Example C59_cftp_ex : pairs_total n_extra ex_rows ex_y = 13 /\ pos_size ex_rows ex_y * n_neg ex_y = 24 /\
  head_gain (GHSpec true 1%Qc half ex_rows ex_y) {[ 0 ]} 1 = half.
Proof. split_and!; [by_compute..]. Qed.
