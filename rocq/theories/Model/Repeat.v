(** Model of drawing several samples from one sampler object: the CFTP object inside keeps its lists between the calls, so they are
    passed from one call to the next. *)
From Coq Require Import QArith.Qcanon.
From Verif.Model Require Import PyBase PyReal Sparse RandR Cftp Boley GreedyHead.
Open Scope Z_scope.

(** [m() for _ in range(n)] for an m that reads and changes the lists of the CFTP object *)
Fixpoint repeat_st {A} (n : nat) (m : cstate -> rrand (A * cstate)) (st : cstate) : rrand (list A * cstate) :=
  match n with
  | O => RRet ([], st)
  | Datatypes.S n' => let* '(x, st1) := m st in let* '(xs, st2) := repeat_st n' m st1 in RRet (x :: xs, st2)
  end.

(** CFTP.sample_k_times (corset/samplers/cftp.py:173-174); BoleyCFTP.sample_k_times without details (corset/samplers/boley_cftp.py:179-183); the progress
    bar does not change the range *)
Definition cftp_sample_k (c : cftp) (details : bool) (n : Z) (st : cstate) : rrand (list sample_ret * cstate) :=
  repeat_st (Z.to_nat n) (cftp_sample c details) st.

(** what sample_once of CFTPDiscriminativitySampler does with the pair (corset/samplers/discrim.py:145-158), with return_sample_index=True *)
Definition cds_after (ord : gset Z -> list Z) (s : cds) (r : sample_ret) : rrand (option Z) :=
  match r with
  | RetDetails _ _ => RFail TypeError
  | RetPair None => RRet None
  | RetPair (Some (pos, neg)) =>
      let* rp := rlift (py_index (cds_rows s) pos) in
      let* rn := rlift (py_index (cds_rows s) neg) in
      let* k := py_choice (ord (py_set rp ∖ py_set rn)) in
      RRet (Some k)
  end.

(** sample_once (corset/samplers/discrim.py:136-163) on the object, with return_sample_index=True *)
Definition cds_once_st (ord : gset Z -> list Z) (s : cds) (st : cstate) : rrand (option Z * cstate) :=
  let* '(r, st') := cftp_sample (cds_cftp s) false st in
  let* x := cds_after ord s r in RRet (x, st').

(** sample (corset/samplers/discrim.py:165-169) with return_sample_index=True *)
Definition cds_sample_k (ord : gset Z -> list Z) (s : cds) (n : Z) (st : cstate) : rrand (list (option Z) * cstate) :=
  repeat_st (Z.to_nat n) (cds_once_st ord s) st.

(** what sample_once of BoleyDiscriminativitySampler does with the pair (corset/samplers/boley_discrim.py:131-143) *)
Definition bds_after (fuel : nat) (ord : gset Z -> list Z) (s : bds) (r : sample_ret) : rrand (option (gset Z)) :=
  match r with
  | RetDetails _ _ => RFail TypeError
  | RetPair None => RRet None
  | RetPair (Some (pos, neg)) =>
      let* rp := rlift (py_index (bds_rows s) pos) in
      let* rn := rlift (py_index (bds_rows s) neg) in
      let* x := bds_pattern fuel ord rp rn in
      RRet (Some x)
  end.

(** sample_once (corset/samplers/boley_discrim.py:128-143) and sample (corset/samplers/boley_discrim.py:145-149) on the object *)
Definition bds_once_st (fuel : nat) (ord : gset Z -> list Z) (s : bds) (st : cstate) : rrand (option (gset Z) * cstate) :=
  let* '(r, st') := cftp_sample (bds_cftp s) false st in
  let* x := bds_after fuel ord s r in RRet (x, st').
Definition bds_sample_k (fuel : nat) (ord : gset Z -> list Z) (s : bds) (n : Z) (st : cstate) : rrand (list (option (gset Z)) * cstate) :=
  repeat_st (Z.to_nat n) (bds_once_st fuel ord s) st.

(** what sample_once of CFTP_Greedy does with the pair (corset/samplers/cftp_and_greedy.py:117-128) *)
Definition cg_after (ord : gset Z -> list Z) (gamma eps : Qc) (s : cghead) (r : sample_ret) : rrand (option (gset Z)) :=
  match r with
  | RetDetails _ _ => RFail TypeError
  | RetPair None => RRet None
  | RetPair (Some (pos, neg)) =>
      let* dpos := rlift (py_index (gc_rows (gh_c (cg_h s))) pos) in
      let* dneg := rlift (py_index (gc_rows (gh_c (cg_h s))) neg) in
      let* t := rlift (gh_choice ord true gamma eps (cg_h s) (dpos ∖ dneg)) in
      RRet (Some t)
  end.

(** sample_once (corset/samplers/cftp_and_greedy.py:113-128) and sample (corset/samplers/cftp_and_greedy.py:132-133) on the object *)
Definition cg_once_st (ord : gset Z -> list Z) (gamma eps : Qc) (s : cghead) (st : cstate) : rrand (option (gset Z) * cstate) :=
  let* '(r, st') := cftp_sample (cg_cftp s) false st in
  let* x := cg_after ord gamma eps s r in RRet (x, st').
Definition cg_sample_k (ord : gset Z -> list Z) (gamma eps : Qc) (s : cghead) (n : Z) (st : cstate) : rrand (list (option (gset Z)) * cstate) :=
  repeat_st (Z.to_nat n) (cg_once_st ord gamma eps s) st.
