(** Proofs of the property theorems of Properties/P_Repeat.v. *)
From Coq Require Import Lra.
From Verif.Model Require Import PyBase PyReal Sparse Utils Graph Cliques Trie Assign RandR Cftp Boley GreedyHead Repeat.
From Verif.Spec Require Import SMatrix SAssign SCftp SRepeat.
Open Scope Z_scope.
From Verif.Proofs Require Import PBase PRand PRandR PCftp T_Cftp T_Details.
Open Scope Z_scope.

(** ** expectations *)
Lemma rsum_scal_imap (c : R) (ps : list R) (g : nat -> R) :
  (c * rsum (imap (fun i p => p * g i) ps) = rsum (imap (fun i p => p * (c * g i)) ps))%R.
Proof.
  revert g. induction ps as [|p ps IH]; intros g; cbn [imap]; [unfold rsum; simpl; lra|].
  rewrite !rsum_cons. pose proof (IH (fun i => g (Datatypes.S i))) as E. unfold compose. lra.
Qed.

Lemma hexpect_scal {A} (c : R) (f : result A -> R) (m : rrand A) v : hexpect f m v -> hexpect (fun o => c * f o)%R m (c * v).
Proof.
  intros H. induction H as [a|e|ps k g' v Hk IH ->|k g' v Hk IH Hv].
  - apply (HRet (fun o => c * f o)%R).
  - apply (HFail (fun o => c * f o)%R).
  - apply (HChoose _ _ _ (fun i => c * g' i)%R); [|apply rsum_scal_imap]. intros i p Hp Hn. eauto.
  - apply (HUnif _ _ (fun u => c * g' u)%R); [intros u Hu; eauto|]. by apply isR_scal.
Qed.

Lemma hexpect_inv {A B} (h : A -> B) (k : A -> rrand B) (f : result B -> R) (m : rrand A) : (forall a, k a = RRet (h a)) ->
  forall v, hexpect f (rrbind m k) v -> hexpect (fun o => f (match o with Ok a => Ok (h a) | Err e => Err e end)) m v.
Proof.
  intros Hk. induction m as [a|e|ps k' IH|k' IH]; intros v H; cbn [rrbind] in H.
  - rewrite Hk in H. inversion H; subst. apply (HRet (fun o => f (match o with Ok a => Ok (h a) | Err e => Err e end))).
  - inversion H; subst. apply (HFail (fun o => f (match o with Ok a => Ok (h a) | Err e => Err e end))).
  - inversion H; subst. eapply HChoose; [|reflexivity]. intros i p Hp Hn. apply IH. eauto.
  - inversion H; subst. eapply HUnif; [|eassumption]. intros u Hu. apply IH. eauto.
Qed.

(** ** independence *)
Section indep.
  Context {A : Type} (m : cstate -> rrand (A * cstate)) (st0 : cstate).
  Hypothesis Hst : forall a st, rcan (m st0) (Ok (a, st)) -> st = st0.

  Definition okf (f : A -> R) (o : result A) : R := match o with Ok x => f x | Err _ => 0%R end.
  Definition okfs (fs : list (A -> R)) (o : result (list A)) : R := match o with Ok l => rprod (zip_with (fun f x => f x) fs l) | Err _ => 0%R end.

  Lemma returned_inv {B} (f : result B -> R) (x : rrand (B * cstate)) v : hexpect f (returned x) v ->
    hexpect (fun o => f (match o with Ok a => Ok (fst a) | Err e => Err e end)) x v.
  Proof. apply hexpect_inv. by intros [b s]. Qed.
  Lemma returned_fwd {B} (f : result B -> R) (x : rrand (B * cstate)) v :
    hexpect (fun o => f (match o with Ok a => Ok (fst a) | Err e => Err e end)) x v -> hexpect f (returned x) v.
  Proof. intros H. unfold returned. eapply hbind; [exact H| |done]. intros [b s] _. constructor. Qed.

  Lemma product_law fs vs : Forall2 (fun f v => hexpect (okf f) (returned (m st0)) v) fs vs ->
    hexpect (okfs fs) (returned (repeat_st (length fs) m st0)) (rprod vs).
  Proof.
    induction 1 as [|f v fs vs Hf _ IH].
    - cbn. apply (HRet (okfs [])).
    - apply returned_fwd. cbn [length repeat_st]. apply returned_inv in Hf, IH.
      apply (hbind _ _ _ (fun o => rprod vs * okf f (match o with Ok a => Ok (fst a) | Err e => Err e end))%R).
      + unfold rprod. cbn [foldr]. rewrite Rmult_comm. by apply hexpect_scal.
      + intros [x st] Hx. apply Hst in Hx as ->. apply (hexpect_scal (f x)) in IH. cbn [okf fst]. rewrite Rmult_comm.
        eapply hbind; [exact IH| |].
        * intros [l st2] _. match goal with |- hexpect ?F _ _ => change (hexpect F (RRet (x :: l, st2)) (F (Ok (x :: l, st2)))) end. constructor.
        * intros e _. cbn [okfs]. lra.
      + intros e _. cbn [okfs okf]. lra.
  Qed.

  Lemma repeat_can n o : rcan (repeat_st n m st0) o ->
    (exists xs, o = Ok (xs, st0) /\ length xs = n /\ forall x, x ∈ xs -> rcan (returned (m st0)) (Ok x)) \/
    (exists e, o = Err e /\ rcan (returned (m st0)) (Err e) /\ (0 < n)%nat).
  Proof.
    revert o. induction n as [|n IH]; intros o Ho; cbn [repeat_st] in Ho.
    - cbn in Ho. left. exists []. split_and!; [done..|]. intros x Hx. by apply elem_of_nil in Hx.
    - apply rcan_bind in Ho as [([x st] & Hx & Ho)|(e & He & ->)].
      + pose proof (Hst _ _ Hx) as ->. assert (Hx' : rcan (returned (m st0)) (Ok x)).
        { apply rcan_bind. left. exists (x, st0). done. }
        apply rcan_bind in Ho as [([xs st2] & Hxs & Ho)|(e & He & ->)].
        * apply IH in Hxs as [(xs' & [= -> ->] & Hl & Hin)|(e & ? & _)]; [|done]. cbn in Ho. subst o. left. exists (x :: xs'). split; [done|]. split; [cbn; lia|].
          intros y Hy. apply elem_of_cons in Hy as [->|Hy]; auto.
        * apply IH in He as [(xs' & ? & _)|(e' & [= ->] & He & _)]; [done|]. right. exists e'. split_and!; [done..|lia].
      + right. exists e. split_and!; [done| |lia]. apply rcan_bind. right. eauto.
  Qed.
End indep.

Lemma zip_with_decide {A} `{EqDecision A} (xs l : list A) : length xs = length l ->
  rprod (zip_with (fun f x => f x) (map (fun x y => if decide (Ok y = Ok x :> result A) then 1%R else 0%R) xs) l) = if decide (l = xs) then 1%R else 0%R.
Proof.
  revert l. induction xs as [|x xs IH]; intros [|y l] E; try done; cbn [map zip_with]; unfold rprod; cbn [foldr]; fold (rprod (zip_with (fun f x => f x) (map (fun x y => if decide (Ok y = Ok x :> result A) then 1%R else 0%R) xs) l)).
  rewrite IH by (cbn in E; lia). repeat case_decide; try congruence; lra.
Qed.

Lemma iid_of {A} `{EqDecision A} (m : cstate -> rrand (A * cstate)) (once : rrand A) :
  (forall a st, rcan (m cstate_empty) (Ok (a, st)) -> st = cstate_empty) ->
  (forall o, rcan (returned (m cstate_empty)) o -> rcan once o) ->
  (forall f v, hexpect f once v -> hexpect f (returned (m cstate_empty)) v) ->
  iid (fun n st => repeat_st (Z.to_nat n) m st) once.
Proof.
  intros Hst Hcan Hlaw. split.
  - intros n o Ho. apply (repeat_can m cstate_empty Hst) in Ho as [(xs & -> & Hl & Hin)|(e & -> & He & Hn)].
    + left. exists xs. split_and!; [done..|]. auto.
    + right. exists e. split_and!; [done| |lia]. auto.
  - intros n xs vs Hl Hvs. unfold hprob. rewrite <- Hl.
    pose proof (product_law m cstate_empty Hst (map (fun x y => if decide (Ok y = Ok x :> result A) then 1%R else 0%R) xs) vs) as H. rewrite map_length in H.
    eapply hexpect_ext; [|apply H].
    + intros o Ho. cbn beta. apply rcan_bind in Ho as [([l st] & Hlc & Ho)|(e & He & ->)]; [|by rewrite decide_False].
      cbn in Ho. subst o. apply (repeat_can m cstate_empty Hst) in Hlc as [(xs' & [= -> ->] & Hl' & _)|(e & ? & _)]; [|done].
      cbn [okfs]. rewrite zip_with_decide by done. repeat case_decide; congruence.
    + clear H Hl. induction Hvs as [|x v xs vs Hx _ IH]; cbn [map]; constructor; [|done]. apply Hlaw.
      eapply hexpect_ext; [|exact Hx]. intros [y|e] _; cbn; [done|]. by rewrite decide_False.
Qed.

(** ** the lists are empty after each call *)
Lemma loop_some fuel c : ((if Req_EM_T (rsum (cf_pos_weights c)) 0%R then true else false) || (if Req_EM_T (rsum (cf_neg_weights c)) 0%R then true else false)) = false ->
  forall i hist st st', ~ rcan (sample_loop fuel c i hist st) (Ok (None, st')).
Proof.
  intros E. induction fuel as [|fuel IH]; intros i hist st st' H; cbn [sample_loop] in H; [done|].
  destruct (cf_max_iters c <? 2 ^ i); [by injection H|]. rewrite E in H.
  apply rcan_bind in H as [(st1 & _ & H)|(e & _ & ?)]; [|done].
  apply rcan_bind in H as [([D h] & _ & H)|(e & _ & ?)]; [|done]. destruct D as [d|]; [by injection H|]. by apply IH in H.
Qed.

Lemma loop_none fuel c i hist st st' : rcan (sample_loop fuel c i hist st) (Ok (None, st')) -> st' = st.
Proof.
  destruct fuel as [|fuel]; intros H; [done|]. destruct ((if Req_EM_T (rsum (cf_pos_weights c)) 0%R then true else false) || (if Req_EM_T (rsum (cf_neg_weights c)) 0%R then true else false)) eqn:E.
  - cbn [sample_loop] in H. destruct (cf_max_iters c <? 2 ^ i); [by injection H|]. rewrite E in H. cbn in H. by injection H as ->.
  - by apply (loop_some _ _ E) in H.
Qed.

Lemma sample_resets c details r st : rcan (cftp_sample c details cstate_empty) (Ok (r, st)) -> st = cstate_empty.
Proof.
  unfold cftp_sample. intros H. apply rcan_bind in H as [([x st'] & Hx & H)|(e & _ & ?)]; [|done].
  destruct x as [[D hist]|].
  - destruct details; [destruct hist; [|done]|]; cbn in H; by injection H as _ ->.
  - apply loop_none in Hx as ->. cbn in H. by injection H as _ ->.
Qed.

Lemma once_resets {A} c (k : sample_ret -> rrand A) a st :
  rcan (let* '(r, st') := cftp_sample c false cstate_empty in let* x := k r in RRet (x, st')) (Ok (a, st)) -> st = cstate_empty.
Proof.
  intros H. apply rcan_bind in H as [([r st'] & Hx & H)|(e & _ & ?)]; [|done]. apply sample_resets in Hx as ->.
  apply rcan_bind in H as [(x & _ & H)|(e & _ & ?)]; [|done]. cbn in H. by injection H as _ ->.
Qed.

Lemma rrbind_assoc_can {A B C} (m : rrand A) (f : A -> rrand B) (g : B -> rrand C) o :
  rcan (rrbind (rrbind m f) g) o <-> rcan (rrbind m (fun a => rrbind (f a) g)) o.
Proof.
  induction m as [a|e|ps k IH|k IH]; cbn [rrbind rcan]; [done|done| |].
  - split; intros (i & p & Hi & Hp & H); exists i, p; (split_and!; [done..|by apply IH]).
  - split; intros (u & Hu & H); exists u; (split; [done|by apply IH]).
Qed.

Lemma rrbind_assoc_law {A B C} (m : rrand A) (f : A -> rrand B) (g : B -> rrand C) F v :
  hexpect F (rrbind (rrbind m f) g) v <-> hexpect F (rrbind m (fun a => rrbind (f a) g)) v.
Proof.
  revert v. induction m as [a|e|ps k IH|k IH]; intros v; cbn [rrbind]; [done|done| |].
  - split; intros H; inversion H; subst; (eapply HChoose; [|reflexivity]); intros i p Hi Hp; apply IH; eauto.
  - split; intros H; inversion H; subst; (eapply HUnif; [|eassumption]); intros u Hu; apply IH; eauto.
Qed.

Lemma rrbind_ext_law {A B} (m : rrand A) (f g : A -> rrand B) F v : (forall a w, hexpect F (f a) w -> hexpect F (g a) w) ->
  hexpect F (rrbind m f) v -> hexpect F (rrbind m g) v.
Proof.
  intros Hfg. revert v. induction m as [a|e|ps k IH|k IH]; intros v; cbn [rrbind]; [apply Hfg|done| |].
  - intros H; inversion H; subst; (eapply HChoose; [|reflexivity]); intros i p Hi Hp; apply IH; eauto.
  - intros H; inversion H; subst; (eapply HUnif; [|eassumption]); intros u Hu; apply IH; eauto.
Qed.

Lemma rrbind_ret_law {A} (m : rrand A) F v : hexpect F m v -> hexpect F (rrbind m RRet) v.
Proof. intros H. eapply hbind; [exact H| |done]. intros a _. constructor. Qed.

(** sample_once on the object *)
Lemma iid_once {A} `{EqDecision A} c (k : sample_ret -> rrand A) (once : rrand A) :
  (forall o, rcan (let* r := cftp_draw c false in k r) o -> rcan once o) -> (forall F v, hexpect F once v -> hexpect F (let* r := cftp_draw c false in k r) v) ->
  iid (fun n st => repeat_st (Z.to_nat n) (fun st => let* '(r, st') := cftp_sample c false st in let* x := k r in RRet (x, st')) st) once.
Proof.
  intros Hc Hl. apply iid_of; [apply once_resets| |].
  - intros o Ho. apply Hc. unfold returned in Ho. apply rrbind_assoc_can, rcan_bind in Ho as [([r st'] & Hr & Ho)|(e & He & ->)].
    + apply rcan_bind. apply rrbind_assoc_can, rcan_bind in Ho.
      assert (Hr' : rcan (cftp_draw c false) (Ok r)) by (apply rcan_bind; left; exists (r, st'); done).
      left. exists r. split; [done|]. destruct Ho as [(x & Hx & Ho)|(e & He & ->)]; [cbn in Ho; by subst o|done].
    + apply rcan_bind. right. exists e. split; [|done]. apply rcan_bind. right. eauto.
  - intros f v Hv. apply Hl in Hv. unfold returned. apply rrbind_assoc_law. unfold cftp_draw in Hv. apply rrbind_assoc_law in Hv.
    revert Hv. apply rrbind_ext_law. intros [r st'] w Hw. cbn [rrbind] in Hw. apply rrbind_assoc_law. by apply rrbind_ret_law.
Qed.

Lemma C86_samplers_proof : forall (ord : gset Z -> list Z) (fuel : nat) (gamma eps : Qc) (sd : cds) (sb : bds) (sg : cghead),
  iid (cds_sample_k ord sd) (cds_sample_index ord sd) /\
  iid (bds_sample_k fuel ord sb) (bds_sample_once fuel ord sb) /\
  iid (cg_sample_k ord gamma eps sg) (cg_sample_once ord gamma eps sg).
Proof.
  intros ord fuel gamma eps sd sb sg. split_and!.
  - by apply (iid_once (cds_cftp sd) (cds_after ord sd)).
  - by apply (iid_once (bds_cftp sb) (bds_after fuel ord sb)).
  - apply (iid_once (cg_cftp sg) (cg_after ord gamma eps sg)).
    + intros o Ho. apply rrbind_assoc_can. apply rcan_bind in Ho as [(r & Hr & Ho)|(e & He & ->)]; apply rcan_bind; [left; exists r|right; by exists e].
      split; [done|]. by destruct r as [[[p n]|]|].
    + intros F v Hv. apply rrbind_assoc_law in Hv. revert Hv. apply rrbind_ext_law. intros r w Hw. by destruct r as [[[p n]|]|].
Qed.


Lemma C86_cftp_proof : forall (c : cftp) (details : bool), iid (cftp_sample_k c details) (cftp_draw c details).
Proof.
  intros c details. apply iid_of; [apply sample_resets|done|done].
Qed.


Lemma discrim_product {A} `{EqDecision A} (m : Z -> cstate -> rrand (list A * cstate)) (once : rrand A) (xs : list A) (p : A -> R) (z : R) n :
  iid m once -> (forall x, x ∈ xs -> hprob once (Ok x) (p x * z)) -> length xs = Z.to_nat n ->
  hprob (returned (m n cstate_empty)) (Ok xs) (rprod (map p xs) * z ^ Z.to_nat n).
Proof.
  intros [_ H] Hx Hl. specialize (H n xs (map (fun x => p x * z)%R xs) Hl). rewrite <- Hl.
  replace (rprod (map p xs) * z ^ length xs)%R with (rprod (map (fun x => p x * z)%R xs)).
  - apply H. clear H Hl. induction xs as [|x xs IH]; constructor; [apply Hx; apply elem_of_list_here|]. apply IH. intros y Hy. apply Hx. by apply elem_of_list_further.
  - clear. unfold rprod. induction xs as [|x xs IH]; cbn [map foldr length]; [simpl; lra|]. rewrite IH. simpl. ring.
Qed.

Lemma C86_discrim_proof : forall (ord : gset Z -> list Z) (prune : bool) (alpha : Qc) (pd : proposal)
    (cache : option (list (gset Z) * list (list Z))) (X : csr) (y : list Z) (s : cds),
  set_order ord -> cds_fit ord prune alpha pd cache X y = Ok s -> fitted_rows X y s ->
  let total := total_discrim (zlen (cds_space s)) (cds_rows s) y in
  let q := (IZR total / proposal_total pd (zlen (cds_space s)) (cds_rows s) y)%R in
  0 < total -> forall n,
    (forall ks, length ks = Z.to_nat n -> hprob (returned (cds_sample_k ord s n cstate_empty)) (Ok (map Some ks))
       (rprod (map (fun k => (IZR (discrim (cds_rows s) y k) / IZR total)%R) ks) * (1 - (1 - q) ^ 1024) ^ Z.to_nat n)) /\
    hprob (returned (cds_sample_k ord s n cstate_empty)) (Ok (replicate (Z.to_nat n) None)) (((1 - q) ^ 1024) ^ Z.to_nat n).
Proof.
  intros ord prune alpha pd cache X y s Ho Hfit Hrows total q Ht n.
  destruct (C36_head_law_proof ord prune alpha pd cache X y s Ho Hfit Hrows) as [_ H]. fold total in H. fold q in H. destruct (H Ht) as (_ & Hk & Hn). clear H.
  destruct (C86_samplers_proof ord 0 0%Qc 0%Qc s (BDS [] [] [] ∅ (cds_cftp s)) (CGHead (GHead (GHCache [] [] ∅) 0 [] []) (cds_cftp s))) as [Hi _].
  revert Hk Hn. generalize ((1 - q) ^ 1024)%R as z. intros z Hk Hn. split.
  - intros ks Hl.
    pose proof (discrim_product _ _ (map Some ks) (fun x => match x with Some k => IZR (discrim (cds_rows s) y k) / IZR total | None => 0 end)%R (1 - z) n Hi) as H.
    rewrite map_map in H. apply H; [|by rewrite map_length]. intros x Hx. apply elem_of_map in Hx as (k & -> & _). apply Hk.
  - pose proof (discrim_product _ _ (replicate (Z.to_nat n) None) (fun _ => 1%R) z n Hi) as H.
    replace (z ^ Z.to_nat n)%R with (rprod (map (fun _ => 1%R) (replicate (Z.to_nat n) (None (A := Z)))) * z ^ Z.to_nat n)%R.
    + apply H; [|by rewrite replicate_length]. intros x Hx. apply elem_of_replicate in Hx as [-> _]. by rewrite Rmult_1_l.
    + clear. induction (Z.to_nat n) as [|k IH]; cbn [replicate map]; unfold rprod in *; cbn [foldr]; [simpl; lra|]. 
      assert (E : foldr Rmult 1%R (map (fun _ => 1%R) (replicate k (None (A := Z)))) = 1%R); [|rewrite E; lra].
      clear. induction k as [|k IH]; cbn; [done|]. unfold rprod in *. rewrite IH. lra.
Qed.
