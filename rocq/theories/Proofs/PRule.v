(** Lemmas on corset/rule.py: binding. *)
From Verif.Model Require Import PyBase PyReal Sparse Utils Rule.
From Verif.Spec Require Import SMatrix SRule.
From Verif.Proofs Require Import PBase PSparse PUtils.
Open Scope Z_scope.

Lemma check_head_ok head D :
  (forall c, c ∈ head -> 0 <= c < D) -> check_head head D = Ok tt.
Proof.
  unfold check_head. induction head as [|el head IH]; intros H; [done|]. simpl.
  assert (0 <= el < D) by (apply H; set_solver).
  assert (el <? 0 = false) as -> by lia. assert (D <=? el = false) as -> by lia. simpl.
  apply IH. set_solver.
Qed.

Lemma check_head_err head D :
  (exists c, c ∈ head /\ ~ (0 <= c < D)) -> check_head head D = Err ValueError.
Proof.
  unfold check_head. induction head as [|el head IH]; intros (c & Hc & Hbad); [inversion Hc|].
  simpl. destruct ((el <? 0) || (D <=? el)) eqn:E; [done|]. simpl.
  apply IH. exists c. split; [|done]. apply elem_of_cons in Hc as [->|?]; [|done].
  apply orb_false_elim in E. lia.
Qed.

Lemma valid_items_dec M items :
  valid_items M items \/ exists c, c ∈ items /\ ~ (0 <= c < csc_cols M).
Proof.
  unfold valid_items. induction items as [|c items IH].
  - left. intros c Hc. inversion Hc.
  - destruct (decide (0 <= c < csc_cols M)) as [Hc|Hc].
    + destruct IH as [IH|(x & Hx & Hb)]; [left|right].
      * intros c' Hc'. apply elem_of_cons in Hc' as [->|?]; auto.
      * exists x. split; [set_solver|done].
    + right. exists c. split; [set_solver|done].
Qed.

Lemma count_true_zero_iff v :
  count_true v = 0 <-> forall i, 0 <= i < zlen v -> v !! Z.to_nat i <> Some true.
Proof.
  rewrite <- size_binary_vector_to_set. split.
  - intros H i Hi Hv. assert (i ∈ binary_vector_to_set v) as Hin.
    { apply elem_of_binary_vector_to_set. done. }
    assert (size (binary_vector_to_set v) = 0%nat) as Hz by lia.
    apply size_empty_inv in Hz. apply Hz in Hin. by apply not_elem_of_empty in Hin.
  - intros H. assert (binary_vector_to_set v = ∅) as ->; [|by rewrite size_empty].
    apply set_eq. intros i. rewrite elem_of_binary_vector_to_set.
    split; [intros [? ?]; exfalso; eapply H; eauto|intros Hi; by apply not_elem_of_empty in Hi].
Qed.

Lemma lookup_andb hv tv i :
  zlen hv = zlen tv ->
  (zip_with andb hv tv !! i = Some true <-> hv !! i = Some true /\ tv !! i = Some true).
Proof.
  intros Hl. rewrite lookup_zip_with_Some. split.
  - intros (x & y & E & Hx & Hy). symmetry in E. apply andb_prop in E as [-> ->]. done.
  - intros [Hx Hy]. exists true, true. done.
Qed.

(** Everything bind_dataset does once head and tail are valid. *)
Lemma bind_valid ord r X Y :
  set_order ord -> dataset X Y -> r_head r <> [] -> r_tail r <> [] ->
  valid_items X (r_head r) -> valid_items Y (r_tail r) ->
  ((forall i, ~ row_matches X (r_head r) i) -> bind_dataset ord r X Y = Err ValueError) /\
  ((exists i, row_matches X (r_head r) i) ->
   exists b, bind_dataset ord r X Y = Ok b /\
     b_rule b = r /\ b_N b = csc_rows X /\ b_D b = csc_cols X /\ b_L b = csc_cols Y /\
     (forall i, i ∈ b_head_support b <-> row_matches X (r_head r) i) /\
     (forall i, i ∈ b_tail_support b <-> row_matches Y (r_tail r) i) /\
     (forall i, i ∈ b_support b <-> row_matches X (r_head r) i /\ row_matches Y (r_tail r) i) /\
     b_head_support_size b = Z.of_nat (size (b_head_support b)) /\
     b_tail_support_size b = Z.of_nat (size (b_tail_support b)) /\
     b_support_size b = Z.of_nat (size (b_support b)) /\
     b_num_positives b = Z.of_nat (size (b_tail_support b))).
Proof.
  intros Hord (HX & HY & Hrows) Hh Ht Hvh Hvt.
  unfold bind_dataset. rewrite check_head_ok by done. simpl.
  destruct (conj_v2_ok ord Y (r_tail r) Hord HY Ht Hvt) as (tv & -> & Htl & Htv). simpl.
  destruct (conj_v2_ok ord X (r_head r) Hord HX Hh Hvh) as (hv & -> & Hhl & Hhv). simpl.
  assert (Hhs : forall i, i ∈ binary_vector_to_set hv <-> row_matches X (r_head r) i).
  { intros i. rewrite elem_of_binary_vector_to_set, Hhl. unfold row_matches.
    split; intros [Hi H]; (split; [done|]); by apply Hhv. }
  assert (Hts : forall i, i ∈ binary_vector_to_set tv <-> row_matches Y (r_tail r) i).
  { intros i. rewrite elem_of_binary_vector_to_set, Htl. unfold row_matches.
    split; intros [Hi H]; (split; [done|]); by apply Htv. }
  assert (Hss : forall i, i ∈ binary_vector_to_set (zip_with andb hv tv) <->
            row_matches X (r_head r) i /\ row_matches Y (r_tail r) i).
  { intros i. rewrite <- Hhs, <- Hts, !elem_of_binary_vector_to_set, lookup_andb by lia.
    assert (zlen (zip_with andb hv tv) = zlen hv) as ->.
    { unfold zlen in *. rewrite zip_with_length. lia. }
    rewrite Htl, Hhl, Hrows. tauto. }
  split.
  - intros Hno. assert (set_len (binary_vector_to_set hv) =? 0 = true) as ->; [|done].
    apply Z.eqb_eq. unfold set_len. rewrite size_binary_vector_to_set.
    apply count_true_zero_iff. intros i Hi Hv.
    apply (Hno i), Hhs, elem_of_binary_vector_to_set. done.
  - intros [i0 Hi0]. assert (set_len (binary_vector_to_set hv) =? 0 = false) as ->.
    { apply Z.eqb_neq. unfold set_len. rewrite size_binary_vector_to_set, count_true_zero_iff.
      intros H. apply Hhs, elem_of_binary_vector_to_set in Hi0 as [Hr Hi0]. by apply (H i0). }
    assert (logical_and hv tv = Ok (zip_with andb hv tv)) as ->.
    { unfold logical_and. rewrite Hhl, Htl, Hrows, Z.eqb_refl. done. }
    simpl. eexists. split; [reflexivity|]. simpl. unfold set_len.
    rewrite !size_binary_vector_to_set. auto 15.
Qed.

(** ** All outcomes of bind_dataset *)

Lemma bind_bad_head ord r X Y :
  ~ valid_items X (r_head r) -> bind_dataset ord r X Y = Err ValueError.
Proof.
  intros H. destruct (valid_items_dec X (r_head r)) as [?|Hbad]; [done|].
  unfold bind_dataset. rewrite check_head_err by done. done.
Qed.

Lemma bind_empty_tail ord r X Y :
  valid_items X (r_head r) -> r_tail r = [] -> bind_dataset ord r X Y = Err AssertionError.
Proof.
  intros H Ht. unfold bind_dataset. rewrite check_head_ok by done. simpl. rewrite Ht. done.
Qed.

Lemma bind_bad_tail ord r X Y :
  wf_cmat (csc_mat Y) = true -> valid_items X (r_head r) ->
  (forall c, c ∈ r_tail r -> 0 <= c) -> (exists c, c ∈ r_tail r /\ csc_cols Y <= c) ->
  bind_dataset ord r X Y = Err IndexError.
Proof.
  intros HY H Hpos Hbad. unfold bind_dataset. rewrite check_head_ok by done. simpl.
  rewrite conj_v2_index_error by done. done.
Qed.

Lemma bind_empty_head ord r X Y :
  set_order ord -> wf_cmat (csc_mat Y) = true -> r_tail r <> [] -> valid_items Y (r_tail r) ->
  r_head r = [] -> bind_dataset ord r X Y = Err AssertionError.
Proof.
  intros Hord HY Ht Hvt Hh. unfold bind_dataset. rewrite check_head_ok by (rewrite Hh; set_solver).
  simpl. destruct (conj_v2_ok ord Y (r_tail r) Hord HY Ht Hvt) as (tv & -> & _). simpl.
  rewrite Hh. done.
Qed.

(** A successful binding has a valid head and tail. *)
Lemma bind_ok_valid ord r X Y b :
  set_order ord -> dataset X Y -> (forall c, c ∈ r_tail r -> 0 <= c) ->
  bind_dataset ord r X Y = Ok b ->
  r_head r <> [] /\ r_tail r <> [] /\ valid_items X (r_head r) /\ valid_items Y (r_tail r) /\
  exists i, row_matches X (r_head r) i.
Proof.
  intros Hord Hd Hpos Hb. assert (Hd' := Hd). destruct Hd' as (HX & HY & _).
  destruct (valid_items_dec X (r_head r)) as [Hvh|Hbad].
  2: { unfold bind_dataset in Hb. rewrite check_head_err in Hb by done. done. }
  destruct (decide (r_tail r = [])) as [Ht|Ht]; [rewrite bind_empty_tail in Hb; done|].
  destruct (valid_items_dec Y (r_tail r)) as [Hvt|(c & Hc & Hbad)].
  2: { rewrite bind_bad_tail in Hb; try done. exists c. split; [done|].
       specialize (Hpos c Hc). lia. }
  destruct (decide (r_head r = [])) as [Hh|Hh]; [rewrite bind_empty_head in Hb; done|].
  do 4 (split; [done|]).
  destruct (bind_valid ord r X Y Hord Hd Hh Ht Hvh Hvt) as [Hno _].
  unfold bind_dataset in Hb. rewrite check_head_ok in Hb by done. simpl in Hb.
  destruct (conj_v2_ok ord Y (r_tail r) Hord HY Ht Hvt) as (tv & Etv & _).
  rewrite Etv in Hb. simpl in Hb.
  destruct (conj_v2_ok ord X (r_head r) Hord HX Hh Hvh) as (hv & Ehv & Hhl & Hhv).
  rewrite Ehv in Hb. simpl in Hb.
  destruct (set_len (binary_vector_to_set hv) =? 0) eqn:E; [done|].
  apply Z.eqb_neq in E. unfold set_len in E.
  destruct (set_choose_or_empty (binary_vector_to_set hv)) as [[i Hi]|He].
  - exists i. apply elem_of_binary_vector_to_set in Hi as [Hi1 Hi2].
    rewrite Hhl in Hi1. split; [done|]. by apply Hhv.
  - apply leibniz_equiv in He. rewrite He, size_empty in E. done.
Qed.

(** The supports of a bound rule. *)
Record bound_to (X Y : csc) (r : rule) (b : bound) : Prop := {
  bt_rule : b_rule b = r;
  bt_N : b_N b = csc_rows X;
  bt_D : b_D b = csc_cols X;
  bt_L : b_L b = csc_cols Y;
  bt_head : forall i, i ∈ b_head_support b <-> row_matches X (r_head r) i;
  bt_tail : forall i, i ∈ b_tail_support b <-> row_matches Y (r_tail r) i;
  bt_supp : forall i, i ∈ b_support b <-> row_matches X (r_head r) i /\ row_matches Y (r_tail r) i;
  bt_hsize : b_head_support_size b = Z.of_nat (size (b_head_support b));
  bt_tsize : b_tail_support_size b = Z.of_nat (size (b_tail_support b));
  bt_ssize : b_support_size b = Z.of_nat (size (b_support b));
  bt_npos : b_num_positives b = Z.of_nat (size (b_tail_support b))
}.

Lemma bind_ok_spec ord r X Y b :
  set_order ord -> dataset X Y -> (forall c, c ∈ r_tail r -> 0 <= c) ->
  bind_dataset ord r X Y = Ok b -> bound_to X Y r b.
Proof.
  intros Hord Hd Hpos Hb.
  destruct (bind_ok_valid ord r X Y b Hord Hd Hpos Hb) as (Hh & Ht & Hvh & Hvt & Hex).
  destruct (bind_valid ord r X Y Hord Hd Hh Ht Hvh Hvt) as [_ Hyes].
  destruct (Hyes Hex) as (b' & Hb' & ? & ? & ? & ? & ? & ? & ? & ? & ? & ? & ?).
  rewrite Hb' in Hb. injection Hb as <-. constructor; done.
Qed.
