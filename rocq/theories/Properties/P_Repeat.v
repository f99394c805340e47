(** Drawing several samples (C86). *)
From Coq Require Import Lra.
From Verif.Model Require Import PyBase PyReal Sparse Utils Graph Cliques Trie Assign RandR Cftp Boley GreedyHead Repeat.
From Verif.Spec Require Import SMatrix SAssign SCftp SRepeat.
Open Scope Z_scope.
From Verif.Proofs Require Import T_Repeat.
Open Scope Z_scope.

(** C86: sample(k) of the three samplers that use coupling from the past draws independent samples: the lists of the CFTP object are empty after every call, so
    k samples come with the product of the probabilities that sample_once alone gives them (see C36, C38 and C59 for these). *)
Theorem C86_samplers : forall (ord : gset Z -> list Z) (fuel : nat) (gamma eps : Qc) (sd : cds) (sb : bds) (sg : cghead),
  iid (cds_sample_k ord sd) (cds_sample_index ord sd) /\
  iid (bds_sample_k fuel ord sb) (bds_sample_once fuel ord sb) /\
  iid (cg_sample_k ord gamma eps sg) (cg_sample_once ord gamma eps sg).
Proof. exact C86_samplers_proof. Qed.
Print Assumptions C86_samplers.

(** C86: sample_k_times of the CFTP object, with or without details, likewise; also in a later series, whatever was drawn before. *)
Theorem C86_cftp : forall (c : cftp) (details : bool), iid (cftp_sample_k c details) (cftp_draw c details).
Proof. exact C86_cftp_proof. Qed.
Print Assumptions C86_cftp.

(** C86, the discriminativity sampler after a fit: k indices come with the product of their shares of the total discriminativity, times
    (1-(1-q)^1024)^k; all of them fail with probability ((1-q)^1024)^k. *)
Theorem C86_discrim : forall (ord : gset Z -> list Z) (prune : bool) (alpha : Qc) (pd : proposal)
    (cache : option (list (gset Z) * list (list Z))) (X : csr) (y : list Z) (s : cds),
  set_order ord -> cds_fit ord prune alpha pd cache X y = Ok s -> fitted_rows X y s ->
  let total := total_discrim (zlen (cds_space s)) (cds_rows s) y in
  let q := (IZR total / proposal_total pd (zlen (cds_space s)) (cds_rows s) y)%R in
  0 < total -> forall n,
    (forall ks, length ks = Z.to_nat n -> hprob (returned (cds_sample_k ord s n cstate_empty)) (Ok (map Some ks))
       (rprod (map (fun k => (IZR (discrim (cds_rows s) y k) / IZR total)%R) ks) * (1 - (1 - q) ^ 1024) ^ Z.to_nat n)) /\
    hprob (returned (cds_sample_k ord s n cstate_empty)) (Ok (replicate (Z.to_nat n) None)) (((1 - q) ^ 1024) ^ Z.to_nat n).
Proof. exact C86_discrim_proof. Qed.
Print Assumptions C86_discrim.

From Verif.Properties Require Import P_Cftp.
Open Scope Z_scope.

(** The object of C34_ex: the pair (0,2) and then a failure, with probability 5/8 * 1/16. *)
Example C86_ex : hprob (returned (cftp_sample_k exC false 2 cstate_empty)) (Ok [RetPair (Some (0, 2)); RetPair None]) (5 / 8 * (1 / 16 * 1)).
Proof.
  destruct C34_ex as [H1 H2]. destruct (C86_cftp exC false) as [_ H]. apply (H 2 _ [5 / 8; 1 / 16]%R); [done|]. repeat constructor; done.
Qed.

(** A negative k gives no samples; all outcomes leave the lists empty. *)
Example C86_negative_ex : rcan (cftp_sample_k exC false (-1) cstate_empty) (Ok ([], cstate_empty)).
Proof. done. Qed.

(** The sampler of C36_ex: sample 1 twice, with probability (2/4)^2 if neither fails. *)
Example C86_discrim_ex : hprob (returned (cds_sample_k elements exS 2 cstate_empty)) (Ok [Some 1; Some 1])
  (2 / 4 * (2 / 4 * 1) * (1 - (1 - 4 / 6) ^ 1024) ^ 2).
Proof.
  destruct C36_ex_fit as [E Hf]. destruct C36_ex as (_ & Hd & Ht & _).
  pose proof (C86_discrim elements true 0%Qc Tight None exX exy exS ltac:(intros s; reflexivity) E Hf) as H. rewrite Ht, C36_ex_mass in H.
  destruct (H ltac:(lia) 2) as [Hk _]. specialize (Hk [1; 1] eq_refl). cbn [map] in Hk. rewrite Hd in Hk. exact Hk.
Qed.
