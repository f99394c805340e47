(** Proofs of the property theorems of Properties/P_Complete.v. *)
From Coq Require Import QArith.Qcanon Qreals Lra.
From Verif.Model Require Import PyBase PyReal Sparse Utils Graph Cliques Assign Rand RandR Uncovered Cftp GreedyHead Repeat Rule GreedyBase PyState Greedy Complete.
From Verif.Spec Require Import SMatrix SGraph SRule SGreedy SAssign SUncovered SComplete.
Open Scope Z_scope.
From Verif.Spec Require SCftp SRepeat.
From Verif.Proofs Require Import PBase PSparse PUtils PRule PSets PRuleMetric PGreedyBase T_Rule T_GreedyBase PGreedy T_Greedy PRand PGraph T_Graph PUncovered T_Uncovered.
From Verif.Proofs Require PRandR T_Cftp T_Repeat PAssign PTrie.
Open Scope Z_scope.

(** ** running on the sequence of random numbers *)
Lemma Q2R_plus_Qc (a b : Qc) : Q2R (a + b)%Qc = (Q2R a + Q2R b)%R.
Proof. unfold Qcplus. rewrite <- Q2R_plus. apply Qeq_eqR. cbn [this Q2Qc]. apply Qred_correct. Qed.
Lemma rsum_Q2R (ps : list Qc) : rsum (map (fun p : Qc => Q2R p) ps) = Q2R (qsum ps).
Proof.
  induction ps as [|p ps IH]; [change (0%R = Q2R 0); unfold Q2R; cbn; lra|]. cbn [map]. change (qsum (p :: ps)) with (p + qsum ps)%Qc. rewrite PRandR.rsum_cons, IH, Q2R_plus_Qc. done.
Qed.

Lemma inv_cdf_pos (ps : list R) (u : R) : (forall p, p ∈ ps -> (0 <= p)%R) -> (0 <= u < rsum ps)%R ->
  exists p, ps !! inv_cdf ps u = Some p /\ p <> 0%R.
Proof.
  revert u. induction ps as [|p ps IH]; intros u Hp Hu.
  - exfalso. change (rsum []) with 0%R in Hu. lra.
  - rewrite PRandR.rsum_cons in Hu. cbn [inv_cdf]. unfold Rltb. destruct (Rlt_dec u p) as [Hlt|Hge].
    + exists p. split; [done|]. lra.
    + destruct (IH (u - p)%R) as (q & Hq & Hne); [intros q Hq; apply Hp; by right|lra|]. exists q. done.
Qed.

Fixpoint wfr {A} (m : rand A) : Prop :=
  match m with Ret _ | Fail _ => True
  | Choose ps k => (forall p, p ∈ ps -> (0 <= p)%Qc) /\ qsum ps = 1%Qc /\ forall i, wfr (k i) end.
Fixpoint wfrr {A} (m : rrand A) : Prop :=
  match m with RRet _ | RFail _ => True
  | RChoose ps k => (forall p, p ∈ ps -> (0 <= p)%R) /\ rsum ps = 1%R /\ forall i, wfrr (k i)
  | RUnif k => forall u, wfrr (k u) end.

Lemma tape_tl_ok t : uniform_tape t -> uniform_tape (tape_tl t).
Proof. intros H n. apply H. Qed.

Lemma run_rand_can {A} (m : rand A) t o t' : wfr m -> uniform_tape t -> run_rand m t = (o, t') -> can m o /\ uniform_tape t'.
Proof.
  revert t. induction m as [a|e|ps k IH]; intros t Hm Ht H; cbn [run_rand] in H.
  - by injection H as <- <-.
  - by injection H as <- <-.
  - destruct Hm as (Hp & Hs & Hk). edestruct IH as [Hc Ht']; [apply Hk|by apply tape_tl_ok|exact H|]. split; [|done].
    destruct (inv_cdf_pos (map (fun p : Qc => Q2R p) ps) (t 0%nat)) as (q & Hq & Hne).
    + intros p Hin. apply elem_of_map in Hin as (p' & -> & Hin). apply Hp in Hin. replace 0%R with (Q2R 0) by (unfold Q2R; cbn; lra). by apply Qle_Rle.
    + rewrite rsum_Q2R, Hs. pose proof (Ht 0%nat). change (this 1%Qc) with 1%Q. rewrite RMicromega.Q2R_1. lra.
    + change (map (fun p : Qc => Q2R p) ps) with ((fun p : Qc => Q2R p) <$> ps) in Hq at 1. rewrite list_lookup_fmap in Hq. destruct (ps !! _) as [p|] eqn:Ep; [|done]. exists (inv_cdf (map (fun p : Qc => Q2R p) ps) (t 0%nat)), p.
      split; [done|]. split; [|done]. intros ->. cbn in Hq. injection Hq as <-. apply Hne. change (this 0%Qc) with 0%Q. apply RMicromega.Q2R_0.
Qed.

Lemma run_rrand_can {A} (m : rrand A) t o t' : wfrr m -> uniform_tape t -> run_rrand m t = (o, t') -> rcan m o /\ uniform_tape t'.
Proof.
  revert t. induction m as [a|e|ps k IH|k IH]; intros t Hm Ht H; cbn [run_rrand] in H.
  - by injection H as <- <-.
  - by injection H as <- <-.
  - destruct Hm as (Hp & Hs & Hk). edestruct IH as [Hc Ht']; [apply Hk|by apply tape_tl_ok|exact H|]. split; [|done].
    destruct (inv_cdf_pos ps (t 0%nat) Hp) as (q & Hq & Hne); [rewrite Hs; apply Ht|]. cbn [rcan]. eauto.
  - edestruct IH as [Hc Ht']; [apply Hm|by apply tape_tl_ok|exact H|]. split; [|done]. exists (t 0%nat). split; [apply Ht|done].
Qed.

(** every possible outcome is the outcome on some sequence, whatever numbers follow *)
Definition tape_cons (u : R) (t : tape) : tape := fun n => match n with O => u | Datatypes.S n => t n end.
Lemma tape_cons_ok u t : (0 <= u < 1)%R -> uniform_tape t -> uniform_tape (tape_cons u t).
Proof. intros Hu Ht [|n]; [done|]. apply Ht. Qed.

Lemma inv_cdf_hits (ps : list R) i p : (forall q, q ∈ ps -> (0 <= q)%R) -> ps !! i = Some p -> p <> 0%R -> exists u, (0 <= u < rsum ps)%R /\ inv_cdf ps u = i.
Proof.
  revert i. induction ps as [|q ps IH]; intros i Hp Hi Hne; [done|]. pose proof (Hp q ltac:(left)) as Hq.
  assert (Hps : forall r, r ∈ ps -> (0 <= r)%R) by (intros r Hr; apply Hp; by right).
  rewrite PRandR.rsum_cons. cbn [inv_cdf]. unfold Rltb. destruct i as [|i].
  - injection Hi as ->. exists 0%R. assert (0 <= rsum ps)%R.
    { clear - Hps. induction ps as [|r ps IH]; [change (rsum []) with 0%R; lra|]. rewrite PRandR.rsum_cons. pose proof (Hps r ltac:(left)). assert (0 <= rsum ps)%R by (apply IH; intros x Hx; apply Hps; by right). lra. }
    split; [lra|]. destruct (Rlt_dec 0 p); [done|lra].
  - destruct (IH i Hps Hi Hne) as (u & Hu & E). exists (q + u)%R. split; [lra|]. destruct (Rlt_dec (q + u) q); [lra|].
    replace (q + u - q)%R with u by lra. by rewrite E.
Qed.

Lemma run_rand_all {A} (m : rand A) o t' : wfr m -> uniform_tape t' -> can m o -> exists t, uniform_tape t /\ run_rand m t = (o, t').
Proof.
  intros Hm Ht'. induction m as [a|e|ps k IH]; cbn [can]; intros H.
  - exists t'. by subst o.
  - exists t'. by subst o.
  - destruct Hm as (Hp & Hs & Hk). destruct H as (i & p & Hi & Hne & H). destruct (IH i (Hk i) H) as (t & Ht & E).
    destruct (inv_cdf_hits (map (fun p : Qc => Q2R p) ps) i (Q2R p)) as (u & Hu & Ei).
    + intros q Hin. apply elem_of_map in Hin as (q' & -> & Hin). apply Hp in Hin. replace 0%R with (Q2R 0) by (unfold Q2R; cbn; lra). by apply Qle_Rle.
    + change (map (fun p : Qc => Q2R p) ps) with ((fun p : Qc => Q2R p) <$> ps). rewrite list_lookup_fmap, Hi. done.
    + intros E0. apply Hne. apply Qc_is_canon. apply eqR_Qeq. rewrite E0. change (this 0%Qc) with 0%Q. by rewrite RMicromega.Q2R_0.
    + rewrite rsum_Q2R, Hs in Hu. change (this 1%Qc) with 1%Q in Hu. rewrite RMicromega.Q2R_1 in Hu.
      exists (tape_cons u t). split; [by apply tape_cons_ok|]. cbn [run_rand tape_cons]. rewrite Ei. exact E.
Qed.

Lemma run_rrand_all {A} (m : rrand A) o t' : wfrr m -> uniform_tape t' -> rcan m o -> exists t, uniform_tape t /\ run_rrand m t = (o, t').
Proof.
  intros Hm Ht'. induction m as [a|e|ps k IH|k IH]; cbn [rcan]; intros H.
  - exists t'. by subst o.
  - exists t'. by subst o.
  - destruct Hm as (Hp & Hs & Hk). destruct H as (i & p & Hi & Hne & H). destruct (IH i (Hk i) H) as (t & Ht & E).
    destruct (inv_cdf_hits ps i p Hp Hi Hne) as (u & Hu & Ei). rewrite Hs in Hu.
    exists (tape_cons u t). split; [by apply tape_cons_ok|]. cbn [run_rrand tape_cons]. rewrite Ei. exact E.
  - destruct H as (u & Hu & H). destruct (IH u (Hm u) H) as (t & Ht & E). exists (tape_cons u t). split; [by apply tape_cons_ok|]. exact E.
Qed.

Lemma wfr_bind {A B} (m : rand A) (f : A -> rand B) : wfr m -> (forall a, wfr (f a)) -> wfr (bind m f).
Proof. intros Hm Hf. induction m as [a|e|ps k IH]; cbn in *; [done..|]. destruct Hm as (? & ? & ?). split_and!; auto. Qed.
Lemma wfr_lift {A} (r : result A) : wfr (lift r).
Proof. by destruct r. Qed.
Lemma wfr_np_choice {A} (xs : list A) ps : wfr (np_choice xs ps).
Proof.
  unfold np_choice. destruct (_ || _) eqn:E; [done|]. apply orb_false_iff in E as [E E4]. apply orb_false_iff in E as [E E3].
  cbn [wfr]. split_and!.
  - intros p Hp. apply Qcnot_lt_le. intros Hlt. assert (existsb (fun p => bool_decide (p < 0)%Qc) ps = true); [|congruence].
    apply existsb_exists. exists p. split; [by apply elem_of_list_In|by apply bool_decide_eq_true_2].
  - apply negb_false_iff, bool_decide_eq_true_1 in E4. done.
  - intros i. by destruct (xs !! i).
Qed.
Lemma wfr_tail st : wfr (ua_sample_once st).
Proof.
  unfold ua_sample_once, surs_sample_once. apply wfr_bind; [apply wfr_np_choice|]. intros i. unfold ua_sample_from_row.
  apply wfr_bind; [apply wfr_lift|]. intros ids. apply wfr_bind; [apply wfr_lift|]. intros ss. apply wfr_bind; [apply wfr_lift|]. intros w.
  destruct (negb _); [done|]. destruct (_ =? _); [done|]. apply wfr_bind; [apply wfr_np_choice|]. intros k. apply wfr_lift.
Qed.

Lemma wfrr_bind {A B} (m : rrand A) (f : A -> rrand B) : wfrr m -> (forall a, wfrr (f a)) -> wfrr (rrbind m f).
Proof. intros Hm Hf. induction m as [a|e|ps k IH|k IH]; cbn in *; [done|done| |auto]. destruct Hm as (? & ? & ?). split_and!; auto. Qed.
Lemma wfrr_lift {A} (r : result A) : wfrr (rlift r).
Proof. by destruct r. Qed.
Lemma wfrr_rchoice {A} (xs : list A) ps : wfrr (rchoice xs ps).
Proof.
  unfold rchoice. destruct (_ || _) eqn:E; [done|]. apply orb_false_iff in E as [E E4]. apply orb_false_iff in E as [E E3].
  cbn [wfrr]. split_and!.
  - intros p Hp. destruct (Rlt_dec p 0) as [Hlt|]; [|lra]. exfalso. assert (existsb (fun p => Rltb p 0%R) ps = true); [|congruence].
    apply existsb_exists. exists p. split; [by apply elem_of_list_In|]. unfold Rltb. by destruct (Rlt_dec p 0).
  - apply negb_false_iff in E4. by destruct (Req_EM_T (rsum ps) 1).
  - intros i. by destruct (xs !! i).
Qed.
Lemma wfrr_py_choice {A} (xs : list A) : wfrr (py_choice xs).
Proof.
  destruct xs as [|x0 xs'] eqn:E; [done|]. rewrite <- E in *.
  assert (py_choice xs = RChoose (replicate (length xs) (1 / IZR (zlen xs)))%R
           (fun i => match xs !! i with Some x => RRet x | None => RFail IndexError end)) as -> by (by destruct xs).
  assert (0 < IZR (zlen xs))%R as Hz.
  { apply IZR_lt. rewrite E, zlen_cons. pose proof (zlen_nonneg xs'). lia. }
  split_and!.
  - intros p Hp. apply elem_of_replicate in Hp as [-> _]. apply Rinv_0_lt_compat in Hz. unfold Rdiv. lra.
  - assert (forall n, rsum (replicate n (1 / IZR (zlen xs))%R) = (INR n * (1 / IZR (zlen xs)))%R) as ->.
    { induction n as [|n IH]; [cbn; lra|]. cbn [replicate]. rewrite PRandR.rsum_cons, IH, S_INR. lra. }
    unfold zlen in *. rewrite INR_IZR_INZ. field. lra.
  - intros i. by destruct (xs !! i).
Qed.
Lemma wfrr_repeat {A} n (m : rrand A) : wfrr m -> wfrr (rrepeat n m).
Proof. intros Hm. induction n as [|n IH]; [done|]. cbn [rrepeat]. apply wfrr_bind; [done|]. intros x. apply wfrr_bind; [done|]. done. Qed.
Lemma wfrr_add_data c st n : wfrr (cftp_add_data c st n).
Proof.
  unfold cftp_add_data. destruct (_ <=? _); [done|]. destruct (_ <? _); [done|].
  apply wfrr_bind; [apply wfrr_repeat; done|]. intros us. apply wfrr_bind; [apply wfrr_repeat, wfrr_rchoice|]. intros ps.
  apply wfrr_bind; [apply wfrr_repeat, wfrr_rchoice|]. intros ns. by destruct (_ || _).
Qed.
Lemma wfrr_loop fuel c i hist st : wfrr (sample_loop fuel c i hist st).
Proof.
  revert i hist st. induction fuel as [|fuel IH]; intros i hist st; cbn [sample_loop]; [done|]. destruct (_ <? _); [done|]. destruct (_ || _); [done|].
  apply wfrr_bind; [apply wfrr_add_data|]. intros st'. apply wfrr_bind; [apply wfrr_lift|]. intros [[d|] h]; [done|]. apply IH.
Qed.
Lemma wfrr_sample c details st : wfrr (cftp_sample c details st).
Proof.
  unfold cftp_sample. apply wfrr_bind; [apply wfrr_loop|]. intros [[[D hist]|] st']; [|done]. destruct details; [by destruct hist|done].
Qed.
Lemma wfrr_value ord s st : wfrr (cds_value_st ord s st).
Proof.
  unfold cds_value_st. apply wfrr_bind.
  - unfold cds_once_st. apply wfrr_bind; [apply wfrr_sample|]. intros [r st']. apply wfrr_bind; [|done].
    unfold cds_after. destruct r as [[[p n]|]|]; [|done|done]. apply wfrr_bind; [apply wfrr_lift|]. intros rp.
    apply wfrr_bind; [apply wfrr_lift|]. intros rn. apply wfrr_bind; [apply wfrr_py_choice|]. done.
  - intros [[k|] st']; [|done]. apply wfrr_bind; [apply wfrr_lift|]. done.
Qed.
Lemma wfrr_repeat_st {A} n (m : cstate -> rrand (A * cstate)) st : (forall st, wfrr (m st)) -> wfrr (repeat_st n m st).
Proof.
  intros Hm. revert st. induction n as [|n IH]; intros st; [done|]. cbn [repeat_st]. apply wfrr_bind; [done|]. intros [x st1].
  apply wfrr_bind; [done|]. intros [xs st2]. done.
Qed.

(** ** the itemsets *)
Lemma rows_with_1 (M : csr) u : wf_cmat (csr_mat M) = true -> 0 <= u < csr_cols M ->
  n_rows_with M {[u]} (Z.of_nat (size (label_rows (tocsc M) u))).
Proof.
  intros Hwf Hu. exists (label_rows (tocsc M) u). split; [|done]. intros i. rewrite elem_of_label_rows; [|by apply flip_wf|by rewrite tocsc_cols].
  rewrite tocsc_has by done. unfold row_has. split.
  - intros H. split; [by destruct (stored_range _ _ _ Hwf H)|]. intros c Hc. apply elem_of_singleton in Hc as ->. done.
  - intros [_ H]. apply H. set_solver.
Qed.
Lemma rows_with_2 (M : csr) u v : wf_cmat (csr_mat M) = true -> 0 <= u < csr_cols M -> 0 <= v < csr_cols M ->
  n_rows_with M {[u; v]} (Z.of_nat (size (label_rows (tocsc M) u ∩ label_rows (tocsc M) v))).
Proof.
  intros Hwf Hu Hv. exists (label_rows (tocsc M) u ∩ label_rows (tocsc M) v). split; [|done]. intros i.
  rewrite elem_of_intersection, !elem_of_label_rows by (by apply flip_wf || by rewrite tocsc_cols).
  rewrite !tocsc_has by done. unfold row_has. split.
  - intros [H1 H2]. split; [by destruct (stored_range _ _ _ Hwf H1)|]. intros c Hc. apply elem_of_union in Hc as [Hc|Hc]; apply elem_of_singleton in Hc as ->; done.
  - intros [_ H]. split; apply H; set_solver.
Qed.

Lemma build_graph_weights (M : csr) g u v w : wf_cmat (csr_mat M) = true -> binary (csr_mat M) ->
  build_graph M = Ok g -> g_wt g !! (u, v) = Some w -> connection M u v w.
Proof.
  intros Hwf Hb Hg Hw. unfold build_graph in Hg. pose proof (flip_wf _ Hwf) as Hwf'.
  assert (Hcols : csc_cols (tocsc M) = csr_cols M) by (by apply tocsc_cols).
  destruct (C21_confidence_graph_proof (tocsc M)) as (ug & freq & E & Hn & He & Hbi & Hwt & _ & _);
    [done|by apply flip_binary|]. rewrite E in Hg. cbn [rbind fst] in Hg.
  destruct (C22_noisy_or_proof ug Hbi) as (g' & E' & Hn' & Hwt' & _ & _). assert (g' = g) as -> by congruence.
  apply Hwt' in Hw as (Hne & p & q & Hp & Hq & ->).
  destruct (proj1 (He u v)) as [_ (i & H1 & H2)]; [by exists p|].
  assert (0 <= u < csr_cols M /\ 0 <= v < csr_cols M) as [Hu Hv].
  { rewrite <- Hcols. destruct (stored_range _ _ _ Hwf' H1) as [? _], (stored_range _ _ _ Hwf' H2) as [? _]. done. }
  assert (forall j x, 0 <= x < csr_cols M -> (j ∈ label_rows (tocsc M) x <-> csc_has (tocsc M) j x)) as Hl.
  { intros j x Hx. apply elem_of_label_rows; [done|by rewrite Hcols]. }
  exists (Z.of_nat (size (label_rows (tocsc M) u))), (Z.of_nat (size (label_rows (tocsc M) v))), (Z.of_nat (size (label_rows (tocsc M) u ∩ label_rows (tocsc M) v))).
  split_and!; [by apply rows_with_1|by apply rows_with_1|by apply rows_with_2| |].
  - assert (i ∈ label_rows (tocsc M) u ∩ label_rows (tocsc M) v) as Hin by (rewrite elem_of_intersection, !Hl by done; done).
    destruct (decide (size (label_rows (tocsc M) u ∩ label_rows (tocsc M) v) = 0%nat)) as [E0|]; [|lia]. apply size_empty_inv in E0. set_solver.
  - destruct (Hwt u v p (label_rows (tocsc M) u ∩ label_rows (tocsc M) v) (label_rows (tocsc M) u) Hp) as [-> _].
    { intros j. rewrite elem_of_intersection, !Hl by done. done. } { intros j. by apply Hl. }
    destruct (Hwt v u q (label_rows (tocsc M) u ∩ label_rows (tocsc M) v) (label_rows (tocsc M) v) Hq) as [-> _]; [| |done].
    + intros j. rewrite elem_of_intersection, !Hl by done. tauto.
    + intros j. by apply Hl.
Qed.

Lemma space_itemsets ord (M : csr) (alpha : Qc) : set_order ord -> wf_cmat (csr_mat M) = true -> binary (csr_mat M) ->
  exists g space rows, build_graph M = Ok g /\ build_sample_space ord g true alpha DfsV2 = Ok space /\
    pretti_new_rows ord space M = Ok rows /\ zlen rows = csr_rows M /\ valid_rows space rows /\
    (forall i row, 0 <= i -> rows !! Z.to_nat i = Some row -> NoDup row /\ forall k, k ∈ row <-> contained_id space (csr_has M i) k) /\
    ∅ ∉ space /\ (forall u, 0 <= u < csr_cols M -> {[ u ]} ∈ space) /\
    (forall (s : gset Z) a, s ∈ space -> a ∈ s -> 0 <= a < csr_cols M) /\
    (forall s, s ∈ space -> probable_itemset M alpha s).
Proof.
  intros Ho Hwf Hb. destruct (C25_sample_space_proof ord M true alpha DfsV2 Ho Hwf Hb ltac:(done)) as (g & space & Eg & Es & Hnd & Hemp & Hone & Hr & _).
  destruct (pretti_rows_ok ord space M Ho Hwf Hb Hr) as (rows & Er & Hlen & Hval & Hrows).
  exists g, space, rows. split_and!; try done.
  destruct (build_graph_ok M Hwf Hb) as (g' & Eg' & Hu & H01 & Hn & _). assert (g' = g) as -> by congruence.
  destruct (space_spec ord g true alpha DfsV2 Ho Hu H01) as (space' & Es' & _ & Hs); [|done|].
  { rewrite Hn, zlen_py_range; [done|]. by apply PAssign.wf_dims in Hwf as [_ ?]. }
  assert (space' = space) as -> by congruence. intros s Hin. pose proof Hin as Hin0. apply Hs in Hin as (S & p & (HS & Hsort & Hnodes & (ws & HF & ->) & Hal) & ->).
  exists S, ws. split_and!; try done.
  - intros c. apply elem_of_py_set.
  - intros c Hc. by apply (Hr (py_set S)).
  - eapply Forall2_impl; [exact HF|]. intros [u v] w Hw. by eapply build_graph_weights.
Qed.

(** ** repeated head samples *)
Lemma repeat_values {A} (P : A -> Prop) (m : cstate -> rrand (A * cstate)) :
  (forall o, rcan (m cstate_empty) o -> exists a, o = Ok (a, cstate_empty) /\ P a) ->
  forall n o, rcan (repeat_st n m cstate_empty) o -> exists xs, o = Ok (xs, cstate_empty) /\ length xs = n /\ forall x, x ∈ xs -> P x.
Proof.
  intros Hm. induction n as [|n IH]; intros o H; cbn [repeat_st] in H.
  - cbn in H. subst o. exists []. split_and!; [done..|]. intros x Hx. inversion Hx.
  - apply PRandR.rcan_bind in H as [([x st] & Hx & H)|(e & He & _)].
    2:{ apply Hm in He as (a & ? & _). done. }
    apply Hm in Hx as (a & [= -> ->] & Ha).
    apply PRandR.rcan_bind in H as [([xs st] & Hxs & H)|(e & He & _)].
    2:{ apply IH in He as (a' & ? & _). done. }
    apply IH in Hxs as (ys & [= -> ->] & Hl & Hys). cbn in H. subst o. exists (a :: ys). split_and!; [done|cbn; lia|].
    intros x Hx. apply elem_of_cons in Hx as [->|Hx]; auto.
Qed.

Lemma value_can ord s o : rcan (cds_value_st ord s cstate_empty) o ->
  (exists a, o = Ok (a, cstate_empty) /\ rcan (cds_sample_once ord s) (Ok a)) \/ (exists e, o = Err e /\ rcan (cds_sample_once ord s) (Err e)).
Proof.
  assert (Hi : forall o, rcan (cds_once_st ord s cstate_empty) o ->
    (exists a, o = Ok (a, cstate_empty) /\ rcan (cds_sample_index ord s) (Ok a)) \/ (exists e, o = Err e /\ rcan (cds_sample_index ord s) (Err e))).
  { clear o. intros o H. change (cds_sample_index ord s) with (let* r := cftp_draw (cds_cftp s) false in cds_after ord s r).
    unfold cds_once_st in H. apply PRandR.rcan_bind in H as [([r st] & Hr & H)|(e & He & ->)].
    - pose proof (T_Repeat.sample_resets _ _ _ _ Hr) as ->.
      assert (Hd : rcan (cftp_draw (cds_cftp s) false) (Ok r)).
      { unfold cftp_draw. apply PRandR.rcan_bind. left. exists (r, cstate_empty). done. }
      apply PRandR.rcan_bind in H as [(x & Hx & H)|(e & He & ->)].
      + left. exists x. split; [exact H|]. apply PRandR.rcan_bind. left. eauto.
      + right. exists e. split; [done|]. apply PRandR.rcan_bind. left. eauto.
    - right. exists e. split; [done|]. apply PRandR.rcan_bind. right. exists e. split; [|done].
      unfold cftp_draw. apply PRandR.rcan_bind. right. eauto. }
  unfold cds_value_st, cds_sample_once. intros H. apply PRandR.rcan_bind in H as [([k st] & Hk & H)|(e & He & ->)].
  - apply Hi in Hk as [(a & [= -> ->] & Ha)|(e & ? & _)]; [|done]. destruct a as [k|].
    + apply PRandR.rcan_bind in H as [(x & Hx & H)|(e & He & ->)].
      * left. exists (Some x). split; [exact H|]. apply PRandR.rcan_bind. left. exists (Some k). split; [done|].
        apply PRandR.rcan_bind. left. exists x. done.
      * right. exists e. split; [done|]. apply PRandR.rcan_bind. left. exists (Some k). split; [done|].
        apply PRandR.rcan_bind. right. exists e. done.
    + left. exists None. split; [exact H|]. apply PRandR.rcan_bind. left. exists None. done.
  - apply Hi in He as [(a & ? & _)|(e' & [= ->] & He)]; [done|]. right. exists e'. split; [done|]. apply PRandR.rcan_bind. right. eauto.
Qed.

Section run.
  Context (ord : gset Z -> list Z) (rord : list bound -> list bound) (af al : Qc) (X Y : csr).
  Hypothesis Ho : set_order ord.
  Hypothesis Hro : forall l, rord l ≡ₚ l.
  Hypothesis HwX : wf_cmat (csr_mat X) = true.
  Hypothesis HwY : wf_cmat (csr_mat Y) = true.
  Hypothesis HbX : binary (csr_mat X).
  Hypothesis HbY : binary (csr_mat Y).
  Hypothesis Hrows : csr_rows X = csr_rows Y.
  Hypothesis Hpos : 1 <= csr_rows Y.

  Context (gl : graph) (lspace : list (gset Z)) (lrows : list (list Z)).
  Hypothesis Egl : build_graph Y = Ok gl.
  Hypothesis Els : build_sample_space ord gl true al DfsV2 = Ok lspace.
  Hypothesis Elr : pretti_new_rows ord lspace Y = Ok lrows.
  Hypothesis Hll : zlen lrows = csr_rows Y.
  Hypothesis Hlv : valid_rows lspace lrows.
  Hypothesis Hlr : forall i row, 0 <= i -> lrows !! Z.to_nat i = Some row -> NoDup row /\ forall k, k ∈ row <-> contained_id lspace (csr_has Y i) k.
  Hypothesis Hl0 : ∅ ∉ lspace.
  Hypothesis Hl1 : forall u, 0 <= u < csr_cols Y -> {[ u ]} ∈ lspace.
  Hypothesis Hlc : forall (s : gset Z) a, s ∈ lspace -> a ∈ s -> 0 <= a < csr_cols Y.
  Hypothesis Hli : forall s, s ∈ lspace -> probable_itemset Y al s.

  Context (gf : graph) (fspace : list (gset Z)) (frows : list (list Z)).
  Hypothesis Egf : build_graph X = Ok gf.
  Hypothesis Efs : build_sample_space ord gf true af DfsV2 = Ok fspace.
  Hypothesis Efr : pretti_new_rows ord fspace X = Ok frows.
  Hypothesis Hf0 : ∅ ∉ fspace.
  Hypothesis Hfc : forall (s : gset Z) a, s ∈ fspace -> a ∈ s -> 0 <= a < csr_cols X.
  Hypothesis Hfi : forall s, s ∈ fspace -> probable_itemset X af s.

  Definition winv (ups : list (list Z * gset Z)) (w : world) : Prop :=
    (exists st, wd_tail w = Some st /\ ua_inv ord lspace lrows [] ups st) /\
    (wd_cache w = None \/ wd_cache w = Some (fspace, frows)) /\ uniform_tape (wd_tape w).

  Definition all_covered (ups : list (list Z * gset Z)) : Prop := forall i c, csr_has Y i c -> covered ups i c.

  Lemma tail_fit_step t r w : uniform_tape t -> c_tail_fit ord al Y (new_world t) = (r, w) -> r = Ok tt /\ winv [] w.
  Proof.
    intros Ht H. unfold c_tail_fit in H. cbn [new_world wd_tail wd_cache wd_head wd_tape] in H.
    destruct (assign_ok ord lspace lrows [] Ho Hlv) as (st & Ea & Hinv).
    assert (ua_fit ord true al DfsV2 [] Y = Ok st) as E.
    { unfold ua_fit. rewrite Egl. cbn [rbind]. rewrite Els. cbn [rbind]. rewrite Elr. cbn [rbind]. done. }
    rewrite E in H. injection H as <- <-. split; [done|]. split_and!; [|by left|done]. exists st. done.
  Qed.

  Lemma tail_step ups w r w' : winv ups w -> c_tail_sample_once w = (r, w') -> winv ups w' /\
    ((r = Err NoMoreSamples /\ all_covered ups) \/ exists s i, r = Ok s /\ s ∈ lspace /\ 0 <= i < csr_rows Y /\ row_has Y i s /\ exists c, c ∈ s /\ ~ covered ups i c).
  Proof.
    intros ((st & Est & Hinv) & Hc & Ht) H. unfold c_tail_sample_once in H. rewrite Est in H.
    destruct (run_rand (ua_sample_once st) (wd_tape w)) as [o t'] eqn:E. injection H as <- <-.
    apply run_rand_can in E as [Hcan Ht']; [|apply wfr_tail|done].
    split; [split_and!; [exists st; done|done|done]|].
    assert (Hne : lrows <> []). { intros E0. rewrite E0 in Hll. change (zlen (@nil (list Z))) with 0 in Hll. lia. }
    pose proof (proj1 (sample_once_can ord lspace lrows ups st Hlv Hinv o Hne) Hcan) as [[HT ->]|(i & row & s & Hi & Er & Hs & Ha & ->)].
    - left. split; [done|]. intros i c Hh. pose proof (stored_range _ _ _ HwY Hh) as [Hi Hcc]. change (n_major (csr_mat Y)) with (csr_rows Y) in Hi. change (n_minor (csr_mat Y)) with (csr_cols Y) in Hcc.
      destruct (decide (covered ups i c)) as [|Hn]; [done|]. exfalso.
      destruct (lookup_lt_is_Some_2 lrows (Z.to_nat i)) as [row Er]; [unfold zlen in *; lia|].
      destruct (Hlr i row ltac:(lia) Er) as [_ Hk].
      pose proof (Hl1 c Hcc) as Hin. apply elem_of_list_lookup in Hin as [k Ek].
      assert (Hs : {[c]} ∈ samples lspace row).
      { unfold samples. apply elem_of_list_omap. exists (Z.of_nat k). rewrite Nat2Z.id. split; [|done]. apply Hk. split; [lia|].
        exists {[c]}. rewrite Nat2Z.id. split; [done|]. intros a Ha. apply elem_of_singleton in Ha as ->. done. }
      assert (Hbad : can (ua_sample_once st) (Ok {[c]})).
      { apply (sample_once_can ord lspace lrows ups st Hlv Hinv _ Hne). right. exists i, row, {[c]}. split_and!; try done; [lia|].
        apply area_pos. exists c. split; [set_solver|done]. }
      apply (sample_once_can ord lspace lrows ups st Hlv Hinv _ Hne) in Hbad as [[_ ?]|(i' & row' & s' & Hi' & Er' & Hs' & Ha' & [= <-])]; [done|].
      pose proof (row_area_nonneg lspace ups i' row') as Hnn. unfold total_area in HT.
      apply zsum_zero with (x := row_area lspace ups i' row') in HT.
      + unfold row_area in HT. apply zsum_zero with (x := area ups i' {[c]}) in HT; [lia| |apply elem_of_map; eauto].
        apply list.Forall_forall. intros x Hx. apply elem_of_map in Hx as (y & -> & _). apply area_nonneg.
      + apply list.Forall_forall. intros x Hx. apply elem_of_map in Hx as (y & -> & _). apply row_area_nonneg.
      + apply elem_of_map. exists (i', row'). split; [done|]. by apply PAssign.elem_of_enumerate.
    - right. exists s, i. unfold samples in Hs. apply elem_of_list_omap in Hs as (k & Hk & Ek).
      split_and!; [done|by eapply elem_of_list_lookup_2|done| | |by apply area_pos].
      + apply lookup_lt_Some in Er. unfold zlen in Hll. lia.
      + destruct (Hlr i row Hi Er) as [_ Hk']. apply Hk' in Hk as (_ & s' & Es' & Hall). assert (s' = s) as -> by congruence. exact Hall.
  Qed.

  Lemma cds_fit_cached cache y : cache = None \/ cache = Some (fspace, frows) ->
    cds_fit ord true af Tight cache X y = cds_fit ord true af Tight None X y.
  Proof.
    intros [->| ->]; [done|]. unfold cds_fit. rewrite Egf. cbn [rbind]. rewrite Efs. cbn [rbind]. rewrite Efr. done.
  Qed.
  Lemma cds_fit_space y s : cds_fit ord true af Tight None X y = Ok s -> cds_space s = fspace /\ cds_rows s = frows.
  Proof.
    unfold cds_fit. rewrite Egf. cbn [rbind]. rewrite Efs. cbn [rbind]. rewrite Efr. cbn [rbind].
    destruct (negb _); [done|]. intros H. apply rbind_ok in H as (W & _ & H). apply rbind_ok in H as (c & _ & H). injection H as <-. done.
  Qed.

  Definition hgood (y : list bool) (x : gset Z) : Prop :=
    x ∈ fspace /\ exists p n, 0 <= p /\ y !! Z.to_nat p = Some true /\ 0 <= n /\ y !! Z.to_nat n = Some false /\ row_has X p x /\ ~ row_has X n x.

  Lemma head_fit_step ups w y r w' : winv ups w -> zlen y = csr_rows Y -> true ∈ y -> c_head_fit ord af X y w = (r, w') -> winv ups w' /\
    ((r = Err AssertionError /\ false ∉ y) \/
     (r = Ok tt /\ exists s, wd_head w' = Some (s, cstate_empty) /\
        forall o, rcan (cds_sample_once ord s) o -> exists a, o = Ok a /\ forall x, a = Some x -> hgood y x)).
  Proof.
    intros (Htl & Hc & Ht) Hy Htrue H. unfold c_head_fit in H. rewrite (cds_fit_cached _ _ Hc) in H.
    destruct (decide (false ∈ y)) as [Hfalse|Hfalse].
    - destruct (T_Cftp.C32_fresh_fit_proof ord true af Tight X (map Z.b2z y) Ho HwX HbX) as (s & Es & Hfr & Hs).
      { rewrite zlen_map. congruence. }
      { intros v. rewrite elem_of_map. split.
        - intros ([] & -> & _); [by right|by left].
        - intros [->| ->]; [by exists false|by exists true]. }
      rewrite Es in H. injection H as <- <-. destruct (cds_fit_space _ _ Es) as [Esp Erw]. rewrite Esp, Erw.
      split; [split_and!; [exact Htl|by right|done]|]. right. split; [done|]. exists s. split; [done|]. intros o Hcan.
      pose proof (proj2 (T_Cftp.C32_head_sample_proof ord true af Tight None X _ s (Ok None) o Ho Es Hfr) Hcan) as [->|(k & x & p & n & rp & rn & -> & _)].
      + exists None. split; [done|]. intros x. done.
      + exists (Some x). split; [done|]. intros x' [= <-]. destruct (Hs x Hcan) as (Hin & _ & p' & n' & Hp & Hn & H1 & H2).
        rewrite Esp in Hin. split; [done|]. destruct Hp as (Hp0 & v & Ev & Hv). destruct Hn as (Hn0 & En).
        change (map Z.b2z y) with (Z.b2z <$> y) in Ev, En. rewrite list_lookup_fmap in Ev, En.
        destruct (y !! Z.to_nat p') as [[]|] eqn:Ey; [|injection Ev as <-; cbn in Hv; lia|done].
        destruct (y !! Z.to_nat n') as [[]|] eqn:Ey'; [done| |done].
        exists p', n'. done.
    - assert (cds_fit ord true af Tight None X (map Z.b2z y) = Err AssertionError) as E.
      { unfold cds_fit. rewrite bool_decide_eq_false_2; [done|]. intros E.
        assert (0 ∈ py_set (map Z.b2z y)) as H0 by (rewrite E; set_solver). apply elem_of_py_set, elem_of_map in H0 as ([] & Hb & Hin); [done|].
        done. }
      rewrite E in H. injection H as <- <-. split; [split_and!; done|]. left. done.
  Qed.

  Lemma head_sample_step ups w y s n r w' : winv ups w -> wd_head w = Some (s, cstate_empty) ->
    (forall o, rcan (cds_sample_once ord s) o -> exists a, o = Ok a /\ forall x, a = Some x -> hgood y x) ->
    c_head_sample ord n w = (r, w') -> winv ups w' /\
    exists hs, r = Ok hs /\ length hs = Z.to_nat n /\ forall x, Some x ∈ hs -> hgood y x.
  Proof.
    intros (Htl & Hc & Ht) Hw Hs H. unfold c_head_sample in H. rewrite Hw in H.
    destruct (run_rrand (repeat_st (Z.to_nat n) (cds_value_st ord s) cstate_empty) (wd_tape w)) as [o t'] eqn:E.
    apply run_rrand_can in E as [Hcan Ht']; [|apply wfrr_repeat_st; intros st; apply wfrr_value|done].
    apply (repeat_values (fun a => forall x, a = Some x -> hgood y x)) in Hcan as (xs & -> & Hl & Hxs).
    2:{ intros o' Ho'. apply value_can in Ho' as [(a & -> & Ha)|(e & -> & He)].
        - apply Hs in Ha as (a' & [= <-] & Ha). eauto.
        - apply Hs in He as (a' & ? & _). done. }
    injection H as <- <-. split; [split_and!; done|]. exists xs. split_and!; [done..|]. intros x Hx. by apply (Hxs _ Hx).
  Qed.

  (** ** candidates *)
  Definition good (b : bound) : Prop := exists h t, learned X Y af al h t /\ bind_dataset ord (new_rule (ord h) (ord t)) (tocsc X) (tocsc Y) = Ok b.

  Lemma data : dataset (tocsc X) (tocsc Y).
  Proof. split; [by apply flip_wf|]. split; [by apply flip_wf|]. exact Hrows. Qed.

  Lemma matches_row (M : csr) (s : gset Z) i : wf_cmat (csr_mat M) = true -> 0 <= i < csr_rows M -> row_has M i s -> row_matches (tocsc M) (ord s) i.
  Proof.
    intros HM Hi H. split; [exact Hi|]. intros c Hc. apply set_order_elem in Hc; [|done]. rewrite tocsc_has by done. by apply H.
  Qed.

  Lemma bind_good h t : learned X Y af al h t -> (forall c, c ∈ h -> 0 <= c < csr_cols X) -> (forall c, c ∈ t -> 0 <= c < csr_cols Y) -> h <> ∅ -> t <> ∅ ->
    exists b, bind_dataset ord (new_rule (ord h) (ord t)) (tocsc X) (tocsc Y) = Ok b.
  Proof.
    intros Hl Hh Ht Hh0 Ht0.
    destruct (C02_bind_outcomes_proof ord (tocsc X) (tocsc Y) (ord h) (ord t) Ho data) as (_ & _ & _ & _ & H).
    { intros c Hc. apply set_order_elem in Hc; [|done]. apply Ht in Hc. lia. }
    assert (Hne : forall s : gset Z, s <> ∅ -> ord s <> []).
    { intros s Hs E. apply Hs. apply set_eq. intros c. rewrite <- (set_order_elem ord s c Ho), E. set_solver. }
    destruct H as [_ H]; [by apply Hne|by apply Hne| | |].
    - intros c Hc. apply set_order_elem in Hc; [|done]. rewrite tocsc_cols by done. by apply Hh.
    - intros c Hc. apply set_order_elem in Hc; [|done]. rewrite tocsc_cols by done. by apply Ht.
    - apply H. destruct Hl as (_ & _ & (p & Hp & H1 & _) & _). exists p. apply matches_row; [done|by rewrite Hrows|done].
  Qed.

  (** the tail occurs in a row where one of its labels is not covered *)
  Definition fresh (ups : list (list Z * gset Z)) (b : bound) : Prop :=
    exists i c, row_has Y i (py_set (r_tail (b_rule b))) /\ c ∈ r_tail (b_rule b) /\ ~ covered ups i c.
  Definition goodu (ups : list (list Z * gset Z)) (b : bound) : Prop := good b /\ fresh ups b.

  Lemma heads_step ups t y heads rules r : t ∈ lspace -> zlen y = csr_rows Y -> (exists i c, row_has Y i t /\ c ∈ t /\ ~ covered ups i c) ->
    (forall i, 0 <= i < csr_rows Y -> (y !! Z.to_nat i = Some true <-> row_has Y i t)) ->
    (forall x, Some x ∈ heads -> hgood y x) -> (forall b, b ∈ rules -> goodu ups b) ->
    rfold (add_candidate ord X Y t) rules heads = r ->
    r = Err TypeError \/ exists rules', r = Ok rules' /\ (forall b, b ∈ rules' -> goodu ups b) /\ (rules <> [] \/ heads <> [] -> rules' <> []).
  Proof.
    intros Ht Hy Hfr Hyt. revert rules. induction heads as [|h heads IH]; intros rules Hhs Hg E; cbn [rfold] in E.
    - right. exists rules. split_and!; [done..|]. intros [?|?]; done.
    - destruct h as [h|]; [|left; by subst r]. unfold add_candidate at 1 in E.
      destruct (rule_mem (new_rule (ord h) (ord t)) rules) eqn:Em.
      + cbn [rbind] in E. destruct (IH rules) as [?|(rules' & -> & Hg' & Hne)]; [intros x Hx; apply Hhs; by right|done|done|by left|].
        right. exists rules'. split_and!; [done..|]. intros _. apply Hne. left. intros ->. done.
      + destruct (Hhs h) as (Hin & p & n & Hp & Ep & Hn & En & H1 & H2); [left|].
        assert (0 <= p < csr_rows Y) by (apply lookup_lt_Some in Ep; unfold zlen in Hy; lia).
        assert (0 <= n < csr_rows Y) by (apply lookup_lt_Some in En; unfold zlen in Hy; lia).
        assert (Hlearn : learned X Y af al h t).
        { split_and!; [by apply Hfi|by apply Hli| |].
          - exists p. split_and!; try done; try lia. by apply Hyt.
          - exists n. split_and!; try done; try lia. intros Hc. apply Hyt in Hc; [|done]. congruence. }
        destruct (bind_good h t Hlearn) as [b Eb].
        { intros c Hc. by apply (Hfc h). } { intros c Hc. by apply (Hlc t). } { by intros ->. } { by intros ->. }
        rewrite Eb in E. cbn [rbind] in E. destruct (IH (rules ++ [b])) as [?|(rules' & -> & Hg' & Hne)].
        * intros x Hx. apply Hhs. by right.
        * intros b' Hb'. apply elem_of_app in Hb' as [Hb'|Hb']; [by apply Hg|]. apply elem_of_list_singleton in Hb' as ->. split; [exists h, t; done|].
          assert (Hnn : forall c, c ∈ ord t -> 0 <= c). { intros c Hc. apply set_order_elem in Hc; [|done]. pose proof (Hlc t c Ht Hc). lia. }
          pose proof (bt_rule _ _ _ _ (bound_new _ _ _ _ _ _ Ho data Hnn Eb)) as Er. destruct Hfr as (i & c & F1 & F2 & F3).
          assert (He : forall c, c ∈ r_tail (b_rule b) <-> c ∈ t). { intros c'. rewrite Er. cbn [new_rule r_tail]. rewrite py_sorted_perm. by apply set_order_elem. }
          exists i, c. split_and!; [|by apply He|done]. intros c' Hc'. apply elem_of_py_set, He in Hc'. by apply F1.
        * done.
        * by left.
        * right. exists rules'. split_and!; [done..|]. intros _. apply Hne. left. by destruct rules.
  Qed.

  Definition full_label : Prop := exists c, 0 <= c < csr_cols Y /\ forall i, 0 <= i < csr_rows Y -> csr_has Y i c.

  Lemma generate_step ups nh n : 1 <= nh -> forall rules w r w', winv ups w -> (forall b, b ∈ rules -> goodu ups b) ->
    generate_loop (cftp_samplers ord rord af al) ord X Y nh n rules w = (r, w') -> winv ups w' /\
    ((r = Err NoMoreSamples /\ all_covered ups) \/ r = Err TypeError \/ (r = Err AssertionError /\ full_label) \/
     exists rules', r = Ok rules' /\ (forall b, b ∈ rules' -> goodu ups b) /\ (rules <> [] \/ n <> 0%nat -> rules' <> [])).
  Proof.
    intros Hnh. induction n as [|n IH]; intros rules w r w' Hw Hg H; cbn [generate_loop] in H.
    - unfold sret in H. injection H as <- <-. split; [done|]. right. right. right. exists rules. split_and!; [done..|]. intros [?|?]; done.
    - unfold sbind at 1 in H. cbn [cftp_samplers tail_sample_once] in H.
      destruct (c_tail_sample_once w) as [r1 w1] eqn:E1. destruct (tail_step _ _ _ _ Hw E1) as (Hw1 & [[-> Hcov]|(t & i & -> & Hin & Hi & Hrow & c0 & Hc0 & Hn0)]).
      { injection H as <- <-. split; [done|]. by left. }
      assert (Ht0 : t <> ∅) by (by intros ->).
      destruct (tail_vector ord Y t Ho HwY Ht0) as (y & Ey & Hly & Hy); [intros c Hc; by apply (Hlc t)|].
      unfold sbind at 1, slift at 1 in H. rewrite Ey in H. unfold sbind at 1 in H. cbn [cftp_samplers head_fit] in H.
      destruct (c_head_fit ord af X y w1) as [r2 w2] eqn:E2.
      assert (Htrue : true ∈ y). { apply elem_of_list_lookup. exists (Z.to_nat i). by apply Hy. }
      destruct (head_fit_step _ _ _ _ _ Hw1 Hly Htrue E2) as (Hw2 & [[-> Hf]|(-> & s & Hs & Hsg)]).
      { injection H as <- <-. split; [done|]. right. right. left. split; [done|].
        destruct (set_choose_L t Ht0) as [c Hc]. exists c. split; [by apply (Hlc t)|]. intros j Hj.
        assert (is_Some (y !! Z.to_nat j)) as [[] Ej]; [apply lookup_lt_is_Some; unfold zlen in Hly; lia| |].
        - by apply (proj1 (Hy j Hj) Ej).
        - exfalso. apply Hf. by eapply elem_of_list_lookup_2. }
      unfold sbind at 1 in H. cbn [cftp_samplers head_sample] in H. destruct (c_head_sample ord nh w2) as [r3 w3] eqn:E3.
      destruct (head_sample_step _ _ y _ _ _ _ Hw2 Hs Hsg E3) as (Hw3 & hs & -> & Hlhs & Hhs).
      unfold sbind at 1, slift at 1 in H. destruct (rfold (add_candidate ord X Y t) rules hs) as [rules1|e] eqn:E4.
      + destruct (heads_step ups t y hs rules _ Hin Hly ltac:(by exists i, c0) Hy Hhs Hg E4) as [?|(rules' & [= ->] & Hg' & Hne)]; [done|].
        destruct (IH rules' w3 r w' Hw3 Hg' H) as (Hw' & [HH|[HH|[HH|(rules'' & -> & Hg'' & Hne'')]]]); (split; [done|]); [by left|by right; left|by right; right; left|].
        right. right. right. exists rules''. split_and!; [done..|]. intros _. apply Hne''. left. apply Hne. right. intros ->. cbn in Hlhs. lia.
      + destruct (heads_step ups t y hs rules _ Hin Hly ltac:(by exists i, c0) Hy Hhs Hg E4) as [[= ->]|(rules' & ? & _)]; [|done].
        injection H as <- <-. split; [done|]. by right; left.
  Qed.

  (** ** rounds *)
  Lemma itemset_ne (M : csr) a s : probable_itemset M a s -> s <> ∅.
  Proof. intros (l & ws & Hl & _ & Hs & _) ->. destruct l as [|x l]; [done|]. assert (x ∈ (∅ : gset Z)) by (apply Hs; left). set_solver. Qed.

  Lemma good_facts b : good b -> fine b /\ covering ord (tocsc X) (tocsc Y) b (label_occs b) /\ label_occs b <> ∅ /\
    (forall i, i ∈ b_support b -> 0 <= i < csr_rows Y) /\ (forall c, c ∈ r_tail (b_rule b) -> 0 <= c < csr_cols Y).
  Proof.
    intros (h & t & (Hh & Ht & (p & Hp & H1 & H2) & _) & Hb). pose proof data as Hd.
    pose proof (itemset_ne _ _ _ Ht) as Ht0. destruct Ht as (l & ws & _ & _ & _ & Hr & _).
    assert (Hnn : forall c, c ∈ ord t -> 0 <= c). { intros c Hc. apply set_order_elem in Hc; [|done]. apply Hr in Hc. lia. }
    pose proof (bound_new _ _ _ _ _ _ Ho Hd Hnn Hb) as Hbt.
    assert (Hcov : covering ord (tocsc X) (tocsc Y) b (label_occs b)).
    { exists (ord h), (ord t). split; [by apply set_order_NoDup|]. split; [done|]. split; [done|].
      intros x. rewrite (label_occs_covers _ _ _ _ x Hbt). simpl. apply covers_perm; apply py_sorted_perm. }
    destruct (covering_facts _ _ _ _ _ Ho Hd Hcov) as (_ & F1 & F2 & F3).
    split; [done|]. split; [done|]. split_and!.
    - destruct (set_choose_L t Ht0) as [c Hc]. intros E. assert ((p, c) ∈ label_occs b); [|set_solver].
      apply (label_occs_covers _ _ _ _ _ Hbt). apply (covers_perm _ _ _ (ord h) _ (ord t)); [apply py_sorted_perm..|].
      split_and!; [apply matches_row; [done|cbn [fst]; by rewrite Hrows|done]|by apply matches_row|]. by apply set_order_elem.
    - intros i Hi. apply (bt_supp _ _ _ _ Hbt) in Hi as [_ [Hi _]]. exact Hi.
    - intros c Hc. rewrite (bt_rule _ _ _ _ Hbt) in Hc. simpl in Hc. rewrite py_sorted_perm in Hc. apply set_order_elem in Hc; [|done]. by apply Hr.
  Qed.

  Lemma objective_ok cls lambd sel b : good b -> (forall x, x ∈ sel -> good x) -> exists v, objective_of_rule cls lambd sel b = Ok v.
  Proof.
    intros Hb Hs. destruct (good_facts b Hb) as ((F1 & F2 & F3) & _ & Hne & _).
    assert (exists d, diversity_of_rule sel b = Ok d) as [d Ed].
    { unfold diversity_of_rule. assert (exists ds, rmap (distance b) sel = Ok ds) as [ds ->]; [|by eexists].
      induction sel as [|x sel IH]; [by eexists|]. cbn [rmap].
      destruct (good_facts x) as ((G1 & G2 & _) & _); [apply Hs; left|]. rewrite distance_jaccard by done.
      rewrite bool_decide_eq_false_2 by set_solver. cbn [rbind]. destruct IH as [ds ->]; [intros y Hy; apply Hs; by right|]. by eexists. }
    unfold objective_of_rule, quality_of_rule. rewrite marginal_coverage_size, KL_ok by done. cbn [rbind]. rewrite Ed. cbn [rbind].
    destruct cls; by eexists.
  Qed.

  Lemma pick_ok cls (g : gs world) c bs k : c <> [] -> (forall b, b ∈ c -> good b) -> (forall b, b ∈ bs -> good b) ->
    g_rules g = map Bound bs -> p_n_max (g_params g) = Some k ->
    exists best, pick (cftp_samplers ord rord af al) cls Y g c = Ok (best, k <=? zlen bs) /\ best ∈ c.
  Proof.
    intros Hc Hg Hbs Er Ek. unfold pick, select_best_candidate. rewrite Er. cbn [cftp_samplers rule_iter].
    destruct (py_max_spec (fun b => let! sel := bounds_of (map Bound bs) in objective_of_rule cls (p_lambd (g_params g)) sel b)
      (fun b => match objective_of_rule cls (p_lambd (g_params g)) bs b with Ok v => v | Err _ => 0%R end) (rord c)) as (l1 & best & l2 & -> & El & _).
    { intros x Hx. rewrite bounds_map. cbn [rbind]. rewrite Hro in Hx. destruct (objective_ok cls (p_lambd (g_params g)) bs x (Hg x Hx) Hbs) as [v ->]. done. }
    { intros E. apply Hc. pose proof (Hro c) as Hp. rewrite E in Hp. by apply Permutation_nil in Hp. }
    cbn [rbind]. assert (Hin : best ∈ c). { rewrite <- (Hro c), El. apply elem_of_app. right. left. }
    exists best. split; [|done]. unfold log_choice. destruct (good_facts best (Hg _ Hin)) as ((_ & _ & F3) & _).
    rewrite tpr_ok, base_rate_ok, bounds_map by done. cbn [rbind]. rewrite marginal_coverage_size, KL_ok by done. cbn [rbind].
    unfold should_stop. rewrite Ek. cbn [rbind]. by rewrite zlen_map.
  Qed.

  Definition ups_of (bs : list bound) : list (list Z * gset Z) := map (fun b => (ord (b_support b), py_set (r_tail (b_rule b)))) bs.

  Definition all_fresh (bs : list bound) : Prop := forall j b, bs !! j = Some b -> fresh (ups_of (take j bs)) b.

  Lemma loop_step cls p k : p_n_max p = Some k -> 1 <= p_n_tails p -> 1 <= p_n_heads p ->
    forall fuel (g : gs world) bs r g', g_params g = p -> g_rules g = map Bound bs -> (forall b, b ∈ bs -> good b) -> all_fresh bs -> winv (ups_of bs) (g_world g) ->
    fit_loop (cftp_samplers ord rord af al) cls ord X Y fuel g = (r, g') -> (Z.to_nat (k - zlen bs) < fuel)%nat ->
    exists bs', g_rules g' = map Bound bs' /\ (forall b, b ∈ bs' -> good b) /\ all_fresh bs' /\ zlen bs' <= Z.max k (zlen bs) /\ winv (ups_of bs') (g_world g') /\
      (forall cs, keeps_candidates cls = true -> g_cands g = Some cs -> (forall b, b ∈ cs -> good b) ->
         exists cs', g_cands g' = Some cs' /\ (forall b, b ∈ cs' -> good b) /\ (cs <> [] -> cs' <> []) /\ (r = Ok tt -> cs' <> [] \/ all_covered (ups_of bs))) /\
      ((r = Ok tt /\ (k <= zlen bs' \/ all_covered (ups_of bs'))) \/ r = Err TypeError \/ (r = Err AssertionError /\ full_label)).
  Proof.
    intros Ek Hnt Hnh. induction fuel as [|fuel IH]; intros g bs r g' Hp Hr Hg Hfr Hw H Hf; [lia|]. cbn [fit_loop] in H. unfold sbind in H.
    assert (Hgen : forall r w, generate_candidate_rules (cftp_samplers ord rord af al) ord (g_params g) X Y (g_world g) = (r, w) -> winv (ups_of bs) w /\
      ((r = Err NoMoreSamples /\ all_covered (ups_of bs)) \/ r = Err TypeError \/ (r = Err AssertionError /\ full_label) \/
       exists c, r = Ok c /\ (forall b, b ∈ c -> good b) /\ (forall b, b ∈ c -> fresh (ups_of bs) b) /\ c <> [])).
    { intros r0 w0 E. unfold generate_candidate_rules in E. rewrite Hp in E.
      apply (generate_step (ups_of bs)) in E as (Hw0 & [HH|[HH|[HH|(c & -> & Hc & Hne)]]]); try done; [| | | |intros b Hb; inversion Hb].
      - split; [done|]. by left.
      - split; [done|]. by right; left.
      - split; [done|]. by right; right; left.
      - split; [done|]. right; right; right. exists c. split_and!; [done|intros b Hb; by apply Hc|intros b Hb; by apply Hc|]. apply Hne. right. lia. }
    assert (Hkeep : forall c cs w, keeps_candidates cls = true -> g_cands g = Some cs -> (forall b, b ∈ cs -> good b) -> (forall b, b ∈ c -> good b) -> c <> [] ->
      exists cs', g_cands (keep_candidates cls c (with_world w (tick g))) = Some cs' /\ (forall b, b ∈ cs' -> good b) /\ cs' <> []).
    { intros c cs w Hkc Hcs Hgcs Hgc Hcne. unfold keep_candidates. rewrite Hkc. cbn [with_cands with_world tick g_cands]. rewrite Hcs. cbn [option_map].
      exists (union_rules cs c). split; [done|]. split; [intros b Hb; apply union_rules_elem in Hb as [?|?]; auto|].
      destruct c as [|b0 c]; [done|]. unfold union_rules. cbn [fold_left].
      assert (forall l acc, acc <> [] -> fold_left (fun acc b => if rule_mem (b_rule b) acc then acc else acc ++ [b]) l acc <> []) as Hfl.
      { clear. induction l as [|x l IH]; intros acc Ha; [done|]. cbn [fold_left]. apply IH. destruct (rule_mem _ _); [done|]. by destruct acc. }
      apply Hfl. destruct (rule_mem (b_rule b0) cs) eqn:Em; [by intros ->|by destruct cs]. }
    destruct (fit_round (cftp_samplers ord rord af al) cls ord X Y g) as [r1 g1] eqn:E1. pose proof (fit_round_out _ _ _ _ _ _ _ _ E1) as Hout.
    assert (Hnosel : forall c w g1, g1 = keep_candidates cls c (with_world w (tick g)) -> g_rules g1 = map Bound bs /\ g_params g1 = p /\ g_world g1 = w).
    { intros c w g2 ->. rewrite keep_rules, keep_params, keep_world. done. }
    inversion Hout as [w0 E0|e w0 E0 He|c w0 g2 e E0 Eg2 Epick|c w0 g2 best E0 Eg2 Epick|c w0 g2 best e w2 E0 Eg2 Epick Eup|c w0 g2 best w2 E0 Eg2 Epick Eup]; subst r1; destruct (Hgen _ _ E0) as (Hw0 & HH).
    - subst g1. injection H as <- <-. destruct HH as [[_ Hcov]|[?|[[? _]|(c & ? & _)]]]; try done. exists bs. split_and!; try done; [lia| |by left; split; [done|right]].
      intros cs _ Hcs Hgcs. exists cs. split_and!; [done..|]. intros _. by right.
    - subst g1. injection H as <- <-. exists bs. split_and!; try done; [lia| |].
      + intros cs _ Hcs Hgcs. exists cs. split_and!; done.
      + destruct HH as [[[= ->] _]|[[= ->]|[[[= ->] Hfull]|(c & ? & _)]]]; try done; [by right; left|by right; right].
    - subst g2. destruct HH as [[? _]|[?|[[? _]|(c' & [= <-] & Hc & Hcf & Hne)]]]; try done. destruct (Hnosel _ _ _ Eg2) as (N1 & N2 & N3).
      destruct (pick_ok cls g1 c bs k Hne Hc Hg N1) as (b & Eb & _); [by rewrite N2|]. congruence.
    - subst g2. destruct HH as [[? _]|[?|[[? _]|(c' & [= <-] & Hc & Hcf & Hne)]]]; try done. destruct (Hnosel _ _ _ Eg2) as (N1 & N2 & N3).
      destruct (pick_ok cls g1 c bs k Hne Hc Hg N1) as (b & Eb & _); [by rewrite N2|]. rewrite Epick in Eb. injection Eb as <- Eb. symmetry in Eb. apply Z.leb_le in Eb.
      injection H as <- <-. exists bs. split_and!; try done; [lia|by rewrite N3| |left; split; [done|by left]].
      intros cs Hkc Hcs Hgcs. rewrite Eg2. destruct (Hkeep c cs w0 Hkc Hcs Hgcs Hc Hne) as (cs' & -> & ? & ?). exists cs'. split_and!; try done. intros _. by left.
    - destruct HH as [[? _]|[?|[[? _]|(c' & [= <-] & Hc & Hcf & Hne)]]]; try done. destruct (Hnosel _ _ _ Eg2) as (N1 & N2 & N3).
      destruct (pick_ok cls g2 c bs k Hne Hc Hg N1) as (b & Eb & Hin); [by rewrite N2|]. rewrite Epick in Eb. injection Eb as <- _.
      destruct Hw0 as ((st & Est & Hinv) & _). cbn [cftp_samplers tail_update] in Eup. unfold c_tail_update in Eup. rewrite Est in Eup.
      destruct (update_ok ord lspace lrows [] (ups_of bs) st (ord (b_support best), py_set (r_tail (b_rule best))) Ho) as (st' & Est' & _); [|done|by rewrite Est' in Eup].
      intros i Hi. cbn [fst] in Hi. apply set_order_elem in Hi; [|done]. rewrite Hll. by apply (good_facts best (Hc _ Hin)).
    - destruct HH as [[? _]|[?|[[? _]|(c' & [= <-] & Hc & Hcf & Hne)]]]; try done. destruct (Hnosel _ _ _ Eg2) as (N1 & N2 & N3).
      destruct (pick_ok cls g2 c bs k Hne Hc Hg N1) as (b & Eb & Hin); [by rewrite N2|]. rewrite Epick in Eb. injection Eb as <- Eb. symmetry in Eb. apply Z.leb_gt in Eb.
      destruct Hw0 as ((st & Est & Hinv) & Hca & Hta). cbn [cftp_samplers tail_update] in Eup. unfold c_tail_update in Eup. rewrite Est in Eup.
      destruct (update_ok ord lspace lrows [] (ups_of bs) st (ord (b_support best), py_set (r_tail (b_rule best))) Ho) as (st' & Est' & Hinv'); [|done|].
      { intros i Hi. cbn [fst] in Hi. apply set_order_elem in Hi; [|done]. rewrite Hll. by apply (good_facts best (Hc _ Hin)). }
      rewrite Est' in Eup. injection Eup as <-. subst g1.
      match type of H with fit_loop _ _ _ _ _ _ ?gg = _ => destruct (IH gg (bs ++ [best]) r g') as (bs' & B1 & B2 & B2' & B3 & B4 & B5 & B6); [| | | | |exact H| |] end.
      + unfold g_params. cbn [with_rules with_est with_world g_est e_params]. exact N2.
      + unfold g_rules. cbn [with_rules with_est with_world g_est e_rules]. fold (g_rules g). rewrite Hr, map_app. done.
      + intros b Hb. apply elem_of_app in Hb as [Hb|Hb]; [auto|]. apply elem_of_list_singleton in Hb as ->. auto.
      + intros j b Hj. apply lookup_app_Some in Hj as [Hj|[Hj1 Hj2]].
        * rewrite take_app_le by (apply lookup_lt_Some in Hj; lia). by apply Hfr.
        * apply list_lookup_singleton_Some in Hj2 as [Hj2 <-]. replace j with (length bs) by lia. rewrite take_app. by apply Hcf.
      + cbn [with_rules with_est with_world g_world]. unfold ups_of. rewrite map_app. split_and!; [exists st'; done|done|done].
      + rewrite zlen_app. change (zlen [best]) with 1. lia.
      + exists bs'. rewrite zlen_app in B3. change (zlen [best]) with 1 in B3. split_and!; try done; [lia|].
        intros cs Hkc Hcs Hgcs. destruct (Hkeep c cs w0 Hkc Hcs Hgcs Hc Hne) as (cs1 & K1 & K2 & K3).
        destruct (B5 cs1) as (cs' & C1 & C2 & C3 & C4); [done|cbn [with_rules with_est with_world g_cands]; by rewrite Eg2|done|].
        exists cs'. split_and!; try done; [intros _; by apply C3|intros _; left; by apply C3].
  Qed.

  Lemma coverage_logged (e : est gparams) bs : e_train e = Some (X, Y) -> e_rules e = map Bound bs -> (forall b, b ∈ bs -> good b) -> log_coverage ord e = Ok tt.
  Proof.
    intros Et Er Hg. unfold log_coverage, coverage_ratio. rewrite Et, Er. unfold coverage_ratio_of.
    destruct (zeroed_rules ord Y Y ∅ bs Ho (zeroed_init Y HwY)) as (m & Em & _).
    { intros b [i c] Hb Hc. apply elem_of_label_occs in Hc as [Hi Hc]. cbn [fst snd] in *. destruct (good_facts b (Hg _ Hb)) as (_ & _ & _ & F1 & F2). auto. }
    rewrite Em. cbn [rbind]. unfold np_div. destruct (_ =? 0); done.
  Qed.

  Lemma objective_reported cls (g : gs world) bs : g_rules g = map Bound bs -> (forall b, b ∈ bs -> good b) -> exists v, objective_of_selected cls g = Ok v.
  Proof.
    intros Er Hg. unfold objective_of_selected. rewrite Er, bounds_map. cbn [rbind].
    destruct (objective_fine cls (p_lambd (g_params g)) bs) as [H _]; [intros b Hb; by apply good_facts, Hg|]. eexists. apply H.
    intros i j A B _ HA _. rewrite list_lookup_fmap in HA. destruct (bs !! i) as [b|] eqn:E; [|done]. injection HA as <-.
    apply elem_of_list_lookup_2 in E. destruct (good_facts b (Hg _ E)) as (_ & _ & Hne & _). set_solver.
  Qed.

  Lemma covered_rules bs : (forall b, b ∈ bs -> good b) -> all_covered (ups_of bs) ->
    forall i c, csr_has Y i c -> exists b, b ∈ bs /\ i ∈ b_support b /\ c ∈ r_tail (b_rule b).
  Proof.
    intros Hg Ha i c H. pose proof (Ha i c H) as Hx. unfold covered in Hx. rewrite list.Exists_exists in Hx. destruct Hx as (u & Hu & H1 & H2). apply elem_of_list_fmap in Hu as (b & -> & Hb). cbn [fst snd] in *.
    exists b. split; [done|]. apply set_order_elem in H1; [|done]. split; [done|]. by apply elem_of_py_set in H2.
  Qed.

  Section fitted.
  Context (p : gparams) (k : Z) (t : nat -> R) (fuel : nat).
  Hypothesis Ek : p_n_max p = Some k.
  Hypothesis Hk : 0 <= k.
  Hypothesis Hnt : 1 <= p_n_tails p.
  Hypothesis Hnh : 1 <= p_n_heads p.
  Hypothesis Ht : uniform_tape t.
  Hypothesis Hf : (Z.to_nat k < fuel)%nat.

  Lemma start_step cls r g : fit_start (cftp_samplers ord rord af al) cls X Y (new_classifier p (new_world t)) = (r, g) ->
    r = Ok tt /\ g_rules g = map Bound [] /\ g_params g = p /\ e_train (g_est g) = Some (X, Y) /\ winv [] (g_world g) /\ (keeps_candidates cls = true -> g_cands g = Some []).
  Proof.
    intros H. destruct (fit_start_out _ _ _ _ _ _ _ H) as (S1 & S2 & _ & S3 & S4 & S5 & S6 & _).
    cbn [new_classifier g_world cftp_samplers tail_fit] in S4, S5. destruct (c_tail_fit ord al Y (new_world t)) as [r0 w0] eqn:E.
    destruct (tail_fit_step t r0 w0 Ht E) as [-> Hw]. cbn [fst snd] in *. subst r. rewrite S4. split_and!; try done. by apply S6.
  Qed.

  Lemma first_rounds cls r0 g0 r1 g1 : fit_start (cftp_samplers ord rord af al) cls X Y (new_classifier p (new_world t)) = (r0, g0) ->
    fit_loop (cftp_samplers ord rord af al) cls ord X Y fuel g0 = (r1, g1) ->
    exists bs, g_rules g1 = map Bound bs /\ (forall b, b ∈ bs -> good b) /\ all_fresh bs /\ zlen bs <= k /\ e_train (g_est g1) = Some (X, Y) /\ g_params g1 = p /\
      (keeps_candidates cls = true -> exists cs, g_cands g1 = Some cs /\ (forall b, b ∈ cs -> good b) /\ (r1 = Ok tt -> cs = [] -> forall i c, ~ csr_has Y i c)) /\
      ((r1 = Ok tt /\ (zlen bs < k -> forall i c, csr_has Y i c -> exists b, b ∈ bs /\ i ∈ b_support b /\ c ∈ r_tail (b_rule b)))
       \/ r1 = Err TypeError \/ (r1 = Err AssertionError /\ full_label)).
  Proof.
    intros E0 E1. destruct (start_step cls r0 g0 E0) as (-> & S1 & S2 & S3 & S4 & S5).
    destruct (fit_loop_extends _ _ _ _ _ _ _ _ _ E1) as (L1 & L2 & _).
    destruct (loop_step cls p k Ek Hnt Hnh fuel g0 [] r1 g1 S2 S1) as (bs & B1 & B2 & B2' & B3 & B4 & B5 & B6); [intros b Hb; inversion Hb|intros j b Hj; inversion Hj|done|done|change (zlen []) with 0; lia|].
    exists bs. change (zlen []) with 0 in B3. split_and!; try done; [lia|by rewrite L2|by rewrite L1| |].
    - intros Hkc. destruct (B5 [] Hkc (S5 Hkc)) as (cs & C1 & C2 & _ & C4); [intros b Hb; inversion Hb|]. exists cs. split_and!; try done.
      intros HH -> i c Hc. destruct (C4 HH) as [?|Ha]; [done|]. pose proof (Ha i c Hc) as Hx. inversion Hx.
    - destruct B6 as [[-> Hc]|[->|[-> Hfull]]]; [left|by right; left|by right; right]. split; [done|]. intros Hlt. apply covered_rules; [done|]. destruct Hc; [lia|done].
  Qed.

  Lemma fit_v2_step cls r g : cls = DivMaxV2 \/ cls = DivMaxV3 ->
    cftp_fit cls ord rord af al fuel X Y (new_classifier p (new_world t)) = (r, g) ->
    exists bs, g_rules g = map Bound bs /\ (forall b, b ∈ bs -> good b) /\ all_fresh bs /\ zlen bs <= k /\
      ((r = Ok tt /\ (zlen bs < k -> forall i c, csr_has Y i c -> exists b, b ∈ bs /\ i ∈ b_support b /\ c ∈ r_tail (b_rule b)))
       \/ r = Err TypeError \/ (r = Err AssertionError /\ full_label)).
  Proof.
    intros Hcls H. assert (E : cftp_fit cls ord rord af al fuel X Y = fit_v2 (cftp_samplers ord rord af al) cls ord fuel X Y) by (by destruct Hcls as [-> | ->]).
    rewrite E in H. clear E. unfold fit_v2, sbind in H.
    destruct (fit_start (cftp_samplers ord rord af al) cls X Y (new_classifier p (new_world t))) as [r0 g0] eqn:E0.
    destruct (start_step cls r0 g0 E0) as (-> & _).
    destruct (fit_loop (cftp_samplers ord rord af al) cls ord X Y fuel g0) as [r1 g1] eqn:E1.
    destruct (first_rounds cls _ _ _ _ E0 E1) as (bs & B1 & B2 & B2' & B3 & B4 & _ & _ & B6).
    destruct r1 as [[]|e].
    - unfold sget, slift, smod in H. destruct (objective_reported cls g1 bs B1 B2) as [v Ev]. rewrite Ev in H. rewrite (coverage_logged (g_est g1) bs B4 B1 B2) in H.
      injection H as <- <-. exists bs. split_and!; done.
    - injection H as <- <-. exists bs. split_and!; done.
  Qed.

  Lemma second_step cs n : cs <> [] -> (forall b, b ∈ cs -> good b) -> forall (g : gs world) bs r g', g_rules g = map Bound bs -> (forall b, b ∈ bs -> good b) ->
    second_loop (cftp_samplers ord rord af al) cs n g = (r, g') ->
    r = Ok tt /\ (exists bs', g_rules g' = map Bound bs' /\ (forall b, b ∈ bs' -> good b) /\ length bs' = (length bs + n)%nat) /\
    e_train (g_est g') = e_train (g_est g) /\ g_obj1 g' = g_obj1 g.
  Proof.
    intros Hne Hc. induction n as [|n IH]; intros g bs r g' Er Hb H; cbn [second_loop] in H.
    - injection H as <- <-. split_and!; try done. exists bs. split_and!; [done..|lia].
    - unfold sbind, sget, slift, smod in H. unfold select_best_candidate in H. rewrite Er in H. cbn [cftp_samplers rule_iter] in H.
      destruct (py_max_spec (fun b => let! sel := bounds_of (map Bound bs) in objective_of_rule DivMax (p_lambd (g_params g)) sel b)
        (fun b => match objective_of_rule DivMax (p_lambd (g_params g)) bs b with Ok v => v | Err _ => 0%R end) (rord cs)) as (l1 & best & l2 & Eb & El & _).
      { intros x Hx. rewrite bounds_map. cbn [rbind]. rewrite Hro in Hx. destruct (objective_ok DivMax (p_lambd (g_params g)) bs x (Hc x Hx) Hb) as [v ->]. done. }
      { intros E. apply Hne. pose proof (Hro cs) as Hp. rewrite E in Hp. by apply Permutation_nil in Hp. }
      rewrite Eb in H. assert (Hin : best ∈ cs). { rewrite <- (Hro cs), El. apply elem_of_app. right. left. }
      unfold log_choice in H. destruct (good_facts best (Hc _ Hin)) as ((_ & _ & F3) & _).
      rewrite tpr_ok, base_rate_ok, bounds_map in H by done. cbn [rbind] in H. rewrite marginal_coverage_size, KL_ok in H by done. cbn [rbind] in H.
      match type of H with second_loop _ _ _ ?gg = _ => destruct (IH gg (bs ++ [best]) r g') as (-> & (bs' & B1 & B2 & B3) & B4 & B5); [| |exact H|] end.
      + unfold g_rules. cbn [with_rules with_est g_est e_rules]. by rewrite map_app.
      + intros b Hb'. apply elem_of_app in Hb' as [Hb'|Hb']; [auto|]. apply elem_of_list_singleton in Hb' as ->. auto.
      + split_and!; try done. exists bs'. split_and!; [done..|]. rewrite B3, app_length. cbn [length]. lia.
  Qed.

  Lemma fit_divmax_step r g : cftp_fit DivMax ord rord af al fuel X Y (new_classifier p (new_world t)) = (r, g) ->
    exists bs, g_rules g = map Bound bs /\ (forall b, b ∈ bs -> good b) /\ zlen bs <= k /\
      ((r = Ok tt /\ exists bs1, g_round1 g = Some (map Bound bs1) /\ (forall b, b ∈ bs1 -> good b) /\ all_fresh bs1 /\ zlen bs1 = zlen bs /\
         (zlen bs1 < k -> forall i c, csr_has Y i c -> exists b, b ∈ bs1 /\ i ∈ b_support b /\ c ∈ r_tail (b_rule b)))
       \/ r = Err TypeError \/ (r = Err AssertionError /\ full_label) \/ (r = Err InsufficientCandidates /\ forall i c, ~ csr_has Y i c)).
  Proof.
    intros H. change (cftp_fit DivMax ord rord af al fuel X Y) with (fit_divmax (cftp_samplers ord rord af al) ord fuel X Y) in H.
    unfold fit_divmax, sbind in H.
    destruct (fit_1st_round (cftp_samplers ord rord af al) ord fuel X Y (new_classifier p (new_world t))) as [ra ga] eqn:Ea.
    unfold fit_1st_round, sbind in Ea.
    destruct (fit_start (cftp_samplers ord rord af al) DivMax X Y (new_classifier p (new_world t))) as [r0 g0] eqn:E0.
    destruct (start_step DivMax r0 g0 E0) as (-> & _).
    destruct (fit_loop (cftp_samplers ord rord af al) DivMax ord X Y fuel g0) as [r1 g1] eqn:E1.
    destruct (first_rounds DivMax _ _ _ _ E0 E1) as (bs & B1 & B2 & B2' & B3 & B4 & B4' & B5 & B6).
    destruct r1 as [[]|e].
    2: { injection Ea as <- <-. injection H as <- <-. exists bs. split_and!; try done. destruct B6 as [[? _]|[?|[? ?]]]; [done|by right; left|by right; right; left]. }
    unfold sget, slift, smod, sret in Ea. destruct (objective_reported DivMax g1 bs B1 B2) as [v Ev]. rewrite (coverage_logged (g_est g1) bs B4 B1 B2), Ev in Ea.
    injection Ea as <- <-. destruct (B5 eq_refl) as (cs & C1 & C2 & C3). destruct B6 as [[_ B6]|[?|[? _]]]; [|done..].
    destruct (fit_2nd_round (cftp_samplers ord rord af al) ord (with_obj1 v g1)) as [rb gb] eqn:Eb.
    unfold fit_2nd_round, sbind, sget, smod in Eb.
    change (g_cands (with_obj1 v g1)) with (g_cands g1) in Eb. rewrite C1 in Eb. change (g_rules (with_obj1 v g1)) with (g_rules g1) in Eb.
    destruct cs as [|c0 cs].
    { injection Eb as <- <-. injection H as <- <-. exists []. split; [done|]. split; [intros b Hb; inversion Hb|]. split; [exact Hk|]. right; right; right. split; [done|]. by apply C3. }
    destruct (second_loop (cftp_samplers ord rord af al) (c0 :: cs) (length (g_rules g1)) (with_rules [] (with_round1 (g_rules g1) (with_obj1 v g1)))) as [r2 g2] eqn:E2.
    destruct (second_round_out (cftp_samplers ord rord af al) ord (with_obj1 v g1) rb gb) as (_ & _ & _ & _ & Q1 & Q2 & _).
    { unfold fit_2nd_round, sbind, sget, smod. change (g_cands (with_obj1 v g1)) with (g_cands g1). rewrite C1. change (g_rules (with_obj1 v g1)) with (g_rules g1). rewrite E2. exact Eb. }
    apply (second_step (c0 :: cs) (length (g_rules g1)) ltac:(done) C2 _ []) in E2 as (-> & (bs2 & D1 & D2 & D3) & D4 & D5); [|done|intros b Hb; inversion Hb].
    unfold slift, sret in Eb. cbn [with_rules with_est g_est e_train with_round1 with_obj1] in D4.
    rewrite (coverage_logged (g_est g2) bs2) in Eb; [|rewrite D4; exact B4|exact D1|exact D2].
    destruct (objective_reported DivMax g2 bs2 D1 D2) as [v2 Ev2]. rewrite Ev2 in Eb. injection Eb as <- <-.
    unfold sget in H. rewrite Q2 in H. cbn [with_obj1 g_obj1 with_obj2 g_obj2] in H. unfold smod in H. injection H as <- <-.
    assert (Hlen : zlen bs2 = zlen bs) by (unfold zlen; rewrite D3, B1, map_length; cbn [length]; lia).
    exists (if Rltb v2 v then bs else bs2). split_and!.
    - unfold g_rules. cbn [with_rules with_obj with_est g_est e_rules]. destruct (Rltb v2 v); [exact B1|exact D1].
    - destruct (Rltb v2 v); done.
    - destruct (Rltb v2 v); lia.
    - left. split; [done|]. exists bs. split; [|split; [exact B2|split; [exact B2'|split; [destruct (Rltb v2 v); lia|exact B6]]]].
      cbn [with_rules with_obj with_est g_round1]. rewrite Q1. change (g_rules (with_obj1 v g1)) with (g_rules g1). by rewrite B1.
  Qed.
  End fitted.

  (** ** failing for certain *)
  Lemma crash_step cls p k c : cls <> Submod -> p_n_max p = Some k -> 1 <= p_n_tails p -> 1 <= p_n_heads p -> forall fuel, (0 < fuel)%nat ->
    (exists i, csr_has Y i c) -> (exists n, 0 <= n < csr_rows Y /\ ~ csr_has Y n c) ->
    (forall i n f, csr_has Y i c -> 0 <= n < csr_rows Y -> ~ csr_has Y n c -> csr_has X i f -> csr_has X n f) ->
    exists t, uniform_tape t /\ fst (cftp_fit cls ord rord af al fuel X Y (new_classifier p (new_world t))) = Err TypeError.
  Proof.
    intros Hcls Ek Hnt Hnh fuel Hf [i Hic] (n & Hn & Hnc) Hsub.
    pose proof (stored_range _ _ _ HwY Hic) as [Hi Hc]. change (n_major (csr_mat Y)) with (csr_rows Y) in Hi. change (n_minor (csr_mat Y)) with (csr_cols Y) in Hc.
    set (t0 := (fun _ => 0%R) : nat -> R). assert (Ht0 : uniform_tape t0) by (intros m; unfold t0; lra).
    destruct (c_tail_fit ord al Y (new_world t0)) as [r0 w0] eqn:E0. destruct (tail_fit_step t0 r0 w0 Ht0 E0) as [-> ((st & Est & Hinv) & _)].
    assert (Hfit : forall t, c_tail_fit ord al Y (new_world t) = (Ok tt, World (Some st) None None t)).
    { intros t. unfold c_tail_fit in *. cbn [new_world wd_tail wd_cache wd_head wd_tape] in *. destruct (ua_fit _ _ _ _ _ _) as [st'|e]; [|done].
      injection E0 as <-. cbn [wd_tail] in Est. by injection Est as ->. }
    assert (Hcan : can (ua_sample_once st) (Ok {[c]})).
    { assert (Hne : lrows <> []). { intros E1. rewrite E1 in Hll. change (zlen (@nil (list Z))) with 0 in Hll. lia. }
      destruct (lookup_lt_is_Some_2 lrows (Z.to_nat i)) as [row Er]; [unfold zlen in *; lia|].
      destruct (Hlr i row ltac:(lia) Er) as [_ Hk]. pose proof (Hl1 c Hc) as Hin. apply elem_of_list_lookup in Hin as [m Em].
      apply (sample_once_can ord lspace lrows [] st Hlv Hinv _ Hne). right. exists i, row, {[c]}. split_and!; try done; [lia| |].
      - unfold samples. apply elem_of_list_omap. exists (Z.of_nat m). rewrite Nat2Z.id. split; [|done]. apply Hk. split; [lia|].
        exists {[c]}. rewrite Nat2Z.id. split; [done|]. intros a Ha. apply elem_of_singleton in Ha as ->. done.
      - apply area_pos. exists c. split; [set_solver|]. intros Hx. inversion Hx. }
    destruct (run_rand_all _ _ t0 (wfr_tail st) Ht0 Hcan) as (t & Ht & Erun). exists t. split; [done|].
    assert (Hgen : forall w, wd_tail w = Some st -> winv [] w -> wd_tape w = t -> exists w', generate_candidate_rules (cftp_samplers ord rord af al) ord p X Y w = (Err TypeError, w')).
    { intros w Hw1 Hwi Hw2. unfold generate_candidate_rules. destruct (Z.to_nat (p_n_tails p)) as [|m] eqn:Em; [lia|]. cbn [generate_loop].
      unfold sbind at 1. cbn [cftp_samplers tail_sample_once]. destruct (c_tail_sample_once w) as [r1 w1] eqn:E1.
      pose proof (tail_step _ _ _ _ Hwi E1) as (Hw1' & _). unfold c_tail_sample_once in E1. rewrite Hw1, Hw2, Erun in E1. injection E1 as <- E1'.
      assert (Hne : ({[c]} : gset Z) <> ∅) by set_solver.
      destruct (tail_vector ord Y {[c]} Ho HwY Hne) as (y & Ey & Hly & Hy); [intros c' Hc'; apply elem_of_singleton in Hc' as ->; done|].
      unfold sbind at 1, slift at 1. rewrite Ey. unfold sbind at 1. cbn [cftp_samplers head_fit].
      assert (Hrow : forall j, 0 <= j < csr_rows Y -> y !! Z.to_nat j = Some true <-> csr_has Y j c).
      { intros j Hj. rewrite (Hy j Hj). split; [intros H; apply H; set_solver|]. intros H a Ha. apply elem_of_singleton in Ha as ->. done. }
      assert (Htrue : true ∈ y). { apply elem_of_list_lookup. exists (Z.to_nat i). by apply Hrow. }
      assert (Hfalse : false ∈ y).
      { apply elem_of_list_lookup. exists (Z.to_nat n). destruct (y !! Z.to_nat n) as [[]|] eqn:En; [|done|].
        - exfalso. apply Hnc. by apply Hrow.
        - apply lookup_ge_None in En. unfold zlen in Hly. lia. }
      destruct (c_head_fit ord af X y w1) as [r2 w2] eqn:E2.
      destruct (head_fit_step _ _ _ _ _ Hw1' Hly Htrue E2) as (Hw2' & [[-> ?]|(-> & s & Hs & Hsg)]); [done|].
      unfold sbind at 1. cbn [cftp_samplers head_sample]. destruct (c_head_sample ord (p_n_heads p) w2) as [r3 w3] eqn:E3.
      destruct (head_sample_step _ _ y _ _ _ _ Hw2' Hs Hsg E3) as (Hw3 & hs & -> & Hlhs & Hhs).
      unfold sbind at 1, slift at 1. destruct hs as [|[x|] hs]; [cbn in Hlhs; lia| |cbn [rfold add_candidate rbind]; by eexists].
      exfalso. destruct (Hhs x ltac:(left)) as (_ & i' & n' & Hi' & Ei' & Hn' & En' & H1 & H2).
      assert (0 <= i' < csr_rows Y) by (apply lookup_lt_Some in Ei'; unfold zlen in Hly; lia).
      assert (0 <= n' < csr_rows Y) by (apply lookup_lt_Some in En'; unfold zlen in Hly; lia).
      apply H2. intros f Hfx. apply (Hsub i' n' f); [by apply Hrow|done| |by apply H1].
      intros Hx. apply Hrow in Hx; [|done]. congruence. }
    assert (Hst : exists g0, fit_start (cftp_samplers ord rord af al) cls X Y (new_classifier p (new_world t)) = (Ok tt, g0) /\ g_params g0 = p /\ g_world g0 = World (Some st) None None t).
    { destruct (fit_start (cftp_samplers ord rord af al) cls X Y (new_classifier p (new_world t))) as [r g0] eqn:E. exists g0.
      destruct (fit_start_out _ _ _ _ _ _ _ E) as (_ & S2 & _ & _ & S4 & S5 & _). cbn [new_classifier g_world cftp_samplers tail_fit] in S4, S5. rewrite Hfit in S4, S5. subst r. done. }
    destruct Hst as (g0 & Eg0 & Hp0 & Hw0).
    assert (Hloop : exists g1, fit_loop (cftp_samplers ord rord af al) cls ord X Y fuel g0 = (Err TypeError, g1)).
    { destruct fuel as [|fuel]; [lia|]. cbn [fit_loop]. unfold sbind at 1. destruct (fit_round (cftp_samplers ord rord af al) cls ord X Y g0) as [r1 g1] eqn:E1.
      destruct (Hgen (g_world g0)) as [w' Ew].
      { by rewrite Hw0. } { rewrite Hw0. split_and!; [exists st; done|by left|done]. } { by rewrite Hw0. }
      rewrite <- Hp0 in Ew. pose proof (fit_round_out _ _ _ _ _ _ _ _ E1) as Hout.
      inversion Hout as [w1 G|e w1 G He|c' w1 g2 e G|c' w1 g2 b G|c' w1 g2 b e w2 G|c' w1 g2 b w2 G]; rewrite Ew in G; try discriminate G.
      injection G as <- <-. by eexists. }
    destruct Hloop as [g1 Eg1].
    destruct cls; [|unfold cftp_fit, fit, fit_v2, sbind; rewrite Eg0, Eg1; done..|done].
    unfold cftp_fit, fit, fit_divmax, fit_1st_round, sbind. rewrite Eg0, Eg1. done.
  Qed.

  Lemma matches_row_iff (M : csr) (s : gset Z) l i : wf_cmat (csr_mat M) = true -> (forall c, c ∈ l <-> c ∈ s) ->
    row_matches (tocsc M) l i <-> 0 <= i < csr_rows M /\ row_has M i s.
  Proof.
    intros HM Hl. split.
    - intros [Hi H]. split; [exact Hi|]. intros c Hc. rewrite <- tocsc_has by done. apply H. by apply Hl.
    - intros [Hi H]. split; [exact Hi|]. intros c Hc. rewrite tocsc_has by done. apply H. by apply Hl.
  Qed.

  Lemma good_rule b : good b -> learned_rule X Y af al (r_head (b_rule b)) (r_tail (b_rule b)) (b_support b).
  Proof.
    intros (h & t & Hl & Hb). pose proof Hl as (_ & (l & ws & _ & _ & _ & Hr & _) & _).
    assert (Hnn : forall c, c ∈ ord t -> 0 <= c). { intros c Hc. apply set_order_elem in Hc; [|done]. apply Hr in Hc. lia. }
    pose proof (bound_new _ _ _ _ _ _ Ho data Hnn Hb) as Hbt.
    assert (He : forall (s : gset Z) c, c ∈ py_sorted (ord s) <-> c ∈ s) by (intros s c; rewrite py_sorted_perm; by apply set_order_elem).
    exists h, t. rewrite (bt_rule _ _ _ _ Hbt). cbn [new_rule r_head r_tail]. split; [done|].
    split; [apply PTrie.py_sorted_lt; by apply set_order_NoDup|]. split; [apply He|].
    split; [apply PTrie.py_sorted_lt; by apply set_order_NoDup|]. split; [apply He|].
    intros i. rewrite (bt_supp _ _ _ _ Hbt). cbn [new_rule r_head r_tail].
    rewrite (matches_row_iff X h _ i HwX (He h)), (matches_row_iff Y t _ i HwY (He t)), Hrows. naive_solver.
  Qed.

  Lemma fresh_rules bs : all_fresh bs -> forall j b, bs !! j = Some b -> exists i c, (forall a, a ∈ r_tail (b_rule b) -> csr_has Y i a) /\ c ∈ r_tail (b_rule b) /\
    forall b', b' ∈ take j bs -> i ∈ b_support b' -> c ∉ r_tail (b_rule b').
  Proof.
    intros H j b Hj. destruct (H j b Hj) as (i & c & H1 & H2 & H3). exists i, c. split_and!; [|done|].
    - intros a Ha. apply H1. by apply elem_of_py_set.
    - intros b' Hb' Hi Hc. apply H3. apply list.Exists_exists. exists (ord (b_support b'), py_set (r_tail (b_rule b'))). cbn [fst snd]. split_and!.
      + apply elem_of_list_fmap. by exists b'.
      + by apply set_order_elem.
      + by apply elem_of_py_set.
  Qed.
End run.

Lemma C91_complete_proof : forall (cls : greedy_class) (ord : gset Z -> list Z) (rord : list bound -> list bound) (af al : Qc)
    (X Y : csr) (p : gparams) (k : Z) (t : nat -> R) (fuel : nat) (r : result unit) (g : gs world),
  cls = DivMaxV2 \/ cls = DivMaxV3 -> set_order ord -> (forall l, rord l ≡ₚ l) ->
  wf_cmat (csr_mat X) = true -> wf_cmat (csr_mat Y) = true -> binary (csr_mat X) -> binary (csr_mat Y) ->
  csr_rows X = csr_rows Y -> 1 <= csr_rows Y ->
  p_n_max p = Some k -> 0 <= k -> 1 <= p_n_tails p -> 1 <= p_n_heads p -> uniform_tape t -> (Z.to_nat k < fuel)%nat ->
  cftp_fit cls ord rord af al fuel X Y (new_classifier p (new_world t)) = (r, g) ->
  (r = Ok tt \/ r = Err TypeError \/ r = Err AssertionError) /\
  (r = Err AssertionError -> exists c, 0 <= c < csr_cols Y /\ forall i, 0 <= i < csr_rows Y -> csr_has Y i c) /\
  exists bs, g_rules g = map Bound bs /\ zlen bs <= k /\
    (forall b, b ∈ bs -> learned_rule X Y af al (r_head (b_rule b)) (r_tail (b_rule b)) (b_support b)) /\
    (forall j b, bs !! j = Some b -> exists i c, (forall a, a ∈ r_tail (b_rule b) -> csr_has Y i a) /\ c ∈ r_tail (b_rule b) /\
       forall b', b' ∈ take j bs -> i ∈ b_support b' -> c ∉ r_tail (b_rule b')) /\
    (r = Ok tt -> zlen bs < k -> forall i c, csr_has Y i c -> exists b, b ∈ bs /\ i ∈ b_support b /\ c ∈ r_tail (b_rule b)).
Proof.
  intros cls ord rord af al X Y p k t fuel r g Hcls Ho Hro HwX HwY HbX HbY Hrows Hpos Ek Hk Hnt Hnh Ht Hf H.
  destruct (space_itemsets ord Y al Ho HwY HbY) as (gl & ls & lr & L1 & L2 & L3 & L4 & L5 & L6 & L7 & L8 & L9 & L10).
  destruct (space_itemsets ord X af Ho HwX HbX) as (gf & fs & fr & F1 & F2 & F3 & _ & _ & _ & F7 & _ & F9 & F10).
  destruct (fit_v2_step ord rord af al X Y) with (lspace := ls) (lrows := lr) (fspace := fs) (frows := fr) (gl := gl) (gf := gf) (p := p) (k := k) (t := t) (fuel := fuel) (cls := cls) (r := r) (g := g)
    as (bs & B1 & B2 & B2' & B3 & B4); try done.
  split; [naive_solver|]. split; [intros ->; destruct B4 as [[? _]|[?|[_ Hfull]]]; done|].
  exists bs. split; [done|]. split; [done|]. split; [intros b Hb; apply (good_rule ord af al X Y) with (lspace := ls) (lrows := lr) (fspace := fs); try done; by apply B2|]. split; [by eapply fresh_rules|].
  intros ->. destruct B4 as [[_ Hc]|[?|[? _]]]; done.
Qed.


Lemma C91_complete_divmax_proof : forall (ord : gset Z -> list Z) (rord : list bound -> list bound) (af al : Qc)
    (X Y : csr) (p : gparams) (k : Z) (t : nat -> R) (fuel : nat) (r : result unit) (g : gs world),
  set_order ord -> (forall l, rord l ≡ₚ l) ->
  wf_cmat (csr_mat X) = true -> wf_cmat (csr_mat Y) = true -> binary (csr_mat X) -> binary (csr_mat Y) ->
  csr_rows X = csr_rows Y -> 1 <= csr_rows Y ->
  p_n_max p = Some k -> 0 <= k -> 1 <= p_n_tails p -> 1 <= p_n_heads p -> uniform_tape t -> (Z.to_nat k < fuel)%nat ->
  cftp_fit DivMax ord rord af al fuel X Y (new_classifier p (new_world t)) = (r, g) ->
  (r = Ok tt \/ r = Err TypeError \/ r = Err AssertionError \/ r = Err InsufficientCandidates) /\
  (r = Err AssertionError -> exists c, 0 <= c < csr_cols Y /\ forall i, 0 <= i < csr_rows Y -> csr_has Y i c) /\
  (r = Err InsufficientCandidates -> forall i c, ~ csr_has Y i c) /\
  exists bs, g_rules g = map Bound bs /\ zlen bs <= k /\
    (forall b, b ∈ bs -> learned_rule X Y af al (r_head (b_rule b)) (r_tail (b_rule b)) (b_support b)) /\
    (r = Ok tt -> exists bs1, g_round1 g = Some (map Bound bs1) /\ zlen bs1 = zlen bs /\
       (forall b, b ∈ bs1 -> learned_rule X Y af al (r_head (b_rule b)) (r_tail (b_rule b)) (b_support b)) /\
       (forall j b, bs1 !! j = Some b -> exists i c, (forall a, a ∈ r_tail (b_rule b) -> csr_has Y i a) /\ c ∈ r_tail (b_rule b) /\
          forall b', b' ∈ take j bs1 -> i ∈ b_support b' -> c ∉ r_tail (b_rule b')) /\
       (zlen bs < k -> forall i c, csr_has Y i c -> exists b, b ∈ bs1 /\ i ∈ b_support b /\ c ∈ r_tail (b_rule b))).
Proof.
  intros ord rord af al X Y p k t fuel r g Ho Hro HwX HwY HbX HbY Hrows Hpos Ek Hk Hnt Hnh Ht Hf H.
  destruct (space_itemsets ord Y al Ho HwY HbY) as (gl & ls & lr & L1 & L2 & L3 & L4 & L5 & L6 & L7 & L8 & L9 & L10).
  destruct (space_itemsets ord X af Ho HwX HbX) as (gf & fs & fr & F1 & F2 & F3 & _ & _ & _ & F7 & _ & F9 & F10).
  destruct (fit_divmax_step ord rord af al X Y) with (lspace := ls) (lrows := lr) (fspace := fs) (frows := fr) (gl := gl) (gf := gf) (p := p) (k := k) (t := t) (fuel := fuel) (r := r) (g := g)
    as (bs & B1 & B2 & B3 & B4); try done.
  assert (Hgr : forall b, good ord af al X Y b -> learned_rule X Y af al (r_head (b_rule b)) (r_tail (b_rule b)) (b_support b)) by (intros b Hb; by apply (good_rule ord af al X Y) with (lspace := ls) (lrows := lr) (fspace := fs)).
  split; [naive_solver|]. split; [intros ->; destruct B4 as [[? _]|[?|[[_ Hfull]|[? _]]]]; done|].
  split; [intros ->; destruct B4 as [[? _]|[?|[[? _]|[_ ?]]]]; done|].
  exists bs. split; [done|]. split; [done|]. split; [auto|].
  intros ->. destruct B4 as [[_ (bs1 & C1 & C2 & C2' & C3 & C4)]|[?|[[? _]|[? _]]]]; [|done..]. exists bs1. split; [done|]. split; [done|]. split; [auto|]. split; [by eapply fresh_rules|]. rewrite <- C3. exact C4.
Qed.


Lemma C91_sequences_proof : forall (ord : gset Z -> list Z) (st : ua) (s : cds) (n : nat) (o : result (gset Z)) (o' : result (list (option (gset Z)) * cstate)),
  (can (ua_sample_once st) o <-> exists t, uniform_tape t /\ fst (run_rand (ua_sample_once st) t) = o) /\
  (rcan (repeat_st n (cds_value_st ord s) cstate_empty) o' <->
   exists t, uniform_tape t /\ fst (run_rrand (repeat_st n (cds_value_st ord s) cstate_empty) t) = o').
Proof.
  intros ord st s n o o'. assert (H0 : uniform_tape (fun _ => 0%R)) by (intros m; lra).
  assert (Hw : wfrr (repeat_st n (cds_value_st ord s) cstate_empty)) by (apply wfrr_repeat_st; intros st'; apply wfrr_value). split; split.
  - intros H. destruct (run_rand_all _ _ _ (wfr_tail st) H0 H) as (t & Ht & E). exists t. rewrite E. done.
  - intros (t & Ht & <-). destruct (run_rand (ua_sample_once st) t) as [r t'] eqn:E. by apply run_rand_can in E as [? _]; [|apply wfr_tail|].
  - intros H. destruct (run_rrand_all _ _ _ Hw H0 H) as (t & Ht & E). exists t. rewrite E. done.
  - intros (t & Ht & <-). destruct (run_rrand (repeat_st n (cds_value_st ord s) cstate_empty) t) as [r t'] eqn:E. by apply run_rrand_can in E as [? _].
Qed.


Lemma C91_crash_proof : forall (cls : greedy_class) (ord : gset Z -> list Z) (rord : list bound -> list bound) (af al : Qc)
    (X Y : csr) (p : gparams) (k c : Z) (fuel : nat),
  cls <> Submod -> set_order ord -> (forall l, rord l ≡ₚ l) ->
  wf_cmat (csr_mat X) = true -> wf_cmat (csr_mat Y) = true -> binary (csr_mat X) -> binary (csr_mat Y) -> csr_rows X = csr_rows Y ->
  p_n_max p = Some k -> 1 <= p_n_tails p -> 1 <= p_n_heads p -> (0 < fuel)%nat ->
  (exists i, csr_has Y i c) -> (exists n, 0 <= n < csr_rows Y /\ ~ csr_has Y n c) ->
  (forall i n f, csr_has Y i c -> 0 <= n < csr_rows Y -> ~ csr_has Y n c -> csr_has X i f -> csr_has X n f) ->
  exists t, uniform_tape t /\ fst (cftp_fit cls ord rord af al fuel X Y (new_classifier p (new_world t))) = Err TypeError.
Proof.
  intros cls ord rord af al X Y p k c fuel Hcls Ho Hro HwX HwY HbX HbY Hrows Ek Hnt Hnh Hf Hi Hn Hsub.
  destruct (space_itemsets ord Y al Ho HwY HbY) as (gl & ls & lr & L1 & L2 & L3 & L4 & L5 & L6 & L7 & L8 & L9 & L10).
  destruct (space_itemsets ord X af Ho HwX HbX) as (gf & fs & fr & F1 & F2 & F3 & _ & _ & _ & F7 & _ & F9 & F10).
  apply (crash_step ord rord af al X Y) with (lspace := ls) (lrows := lr) (fspace := fs) (frows := fr) (gl := gl) (gf := gf) (k := k) (c := c); try done.
  destruct Hn as (n & Hn & _). lia.
Qed.
