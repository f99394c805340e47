(** Proofs of the property theorems of Properties/P_GreedyHead.v. *)
From Verif.Model Require Import PyBase PyReal Rand RandR Sparse GreedyHead.
From Verif.Spec Require Import SMatrix SCftp SBoley SGreedyHead.
Open Scope Z_scope.
From Verif.Model Require Import Utils Assign Cftp GreedyArea.
From Coq Require Import Lra.
From Verif.Proofs Require Import PBase PSparse PAssign PGreedyBase PRand T_Plot T_Data T_GreedyArea PRandR PCftp T_Cftp T_Boley.
Open Scope Z_scope.

(** ** Sets of row indices *)
Lemma size_sel {A} (l : list A) (P : A -> bool) (c : gset Z) :
  (forall i, i ∈ c <-> 0 <= i /\ exists x, l !! Z.to_nat i = Some x /\ P x = true) -> Z.of_nat (size c) = zlen (List.filter P l).
Proof.
  intros Hc. assert (E : c = list_to_set (map fst (List.filter (fun iv : Z * A => P (snd iv)) (enumerate l)))).
  { apply set_eq. intros i. rewrite Hc, elem_of_list_to_set. split.
    - intros (Hi & x & Ex & Px). apply elem_of_map. exists (i, x). split; [done|]. apply elem_of_list_In, filter_In. split; [|done].
      apply elem_of_list_In, elem_of_enumerate. done.
    - intros H. apply elem_of_map in H as ([k x] & -> & H). apply elem_of_list_In, filter_In in H as [H1 H2].
      apply elem_of_list_In, elem_of_enumerate in H1. cbn in *. destruct H1. eauto. }
  rewrite E, size_list_to_set by (apply NoDup_map_filter; rewrite map_fst_enumerate; apply NoDup_py_range).
  clear. induction l as [|x l IH] using rev_ind; [done|].
  rewrite enumerate_snoc, !filter_app, map_app, app_length. unfold zlen in *. rewrite app_length, !Nat2Z.inj_add, IH. cbn. by destruct (P x).
Qed.

(** the state belongs to the data of the specification *)
Record ok_state (sp : ghspec) (D : Z) (s : ghead) : Prop := {
  ok_len : length (sp_y sp) = length (sp_rows sp);
  ok_rows : gc_rows (gh_c s) = sp_rows sp;
  ok_inv : forall a, 0 <= a < D -> exists t, py_index (gc_inv (gh_c s)) a = Ok t /\
     forall i, i ∈ t <-> 0 <= i /\ exists F, sp_rows sp !! Z.to_nat i = Some F /\ a ∈ F;
  ok_freq : forall a, count_get (gc_freq (gh_c s)) a = supp (sp_rows sp) {[ a ]};
  ok_pos : gh_pos s = pos_indices (sp_y sp);
  ok_neg : gh_neg s = neg_indices (sp_y sp) }.

(** c consists of the rows with all attributes of T *)
Definition covers (sp : ghspec) (c T : gset Z) : Prop :=
  forall i, i ∈ c <-> 0 <= i /\ exists F, sp_rows sp !! Z.to_nat i = Some F /\ T ⊆ F.

Lemma covers_size sp c T : covers sp c T -> Z.of_nat (size c) = supp (sp_rows sp) T.
Proof.
  intros H. unfold supp. apply size_sel. intros i. rewrite (H i). split.
  - intros (Hi & F & E & HT). split; [done|]. exists F. split; [done|]. by apply bool_decide_eq_true_2.
  - intros (Hi & F & E & HT). split; [done|]. exists F. split; [done|]. by apply bool_decide_eq_true_1 in HT.
Qed.

Lemma elem_of_sel' P y i : i ∈ sel P y <-> 0 <= i /\ exists v, y !! Z.to_nat i = Some v /\ P v = true.
Proof. apply elem_of_sel. Qed.

Lemma covers_sel sp c T P : length (sp_y sp) = length (sp_rows sp) -> covers sp c T ->
  Z.of_nat (size (c ∩ py_set (sel P (sp_y sp)))) = set_count P (sp_rows sp) (sp_y sp) T.
Proof.
  intros Hl H. unfold set_count. apply size_sel. intros i. unfold py_set. rewrite elem_of_intersection, elem_of_list_to_set, (H i), elem_of_sel'. split.
  - intros ((Hi & F & E & HT) & _ & v & Ev & Pv). split; [done|]. exists (F, v). split.
    + apply lookup_zip_with_Some. eauto.
    + cbn. rewrite bool_decide_eq_true_2 by done. done.
  - intros (Hi & [F v] & E & HT). apply lookup_zip_with_Some in E as (F' & v' & E' & E1 & E2). simplify_eq. cbn in HT.
    apply andb_true_iff in HT as [HT Pv]. apply bool_decide_eq_true_1 in HT. eauto 10.
Qed.

Lemma covers_pos sp c T : length (sp_y sp) = length (sp_rows sp) -> covers sp c T ->
  Z.of_nat (size (c ∩ py_set (pos_indices (sp_y sp)))) = n_pos_with sp T.
Proof. apply covers_sel. Qed.
Lemma covers_neg sp c T : length (sp_y sp) = length (sp_rows sp) -> covers sp c T ->
  Z.of_nat (size (c ∩ py_set (neg_indices (sp_y sp)))) = n_neg_with sp T.
Proof. apply (covers_sel sp c T (fun v => v =? 0)). Qed.

Lemma size_pos sp : length (sp_y sp) = length (sp_rows sp) -> Z.of_nat (size (py_set (pos_indices (sp_y sp)))) = n_pos_with sp ∅.
Proof.
  intros Hl. unfold n_pos_with, set_count. apply size_sel. intros i. unfold py_set. rewrite elem_of_list_to_set, pos_sel, elem_of_sel'. split.
  - intros (Hi & v & Ev & Pv). split; [done|]. destruct (lookup_lt_is_Some_2 (sp_rows sp) (Z.to_nat i)) as [F EF].
    + rewrite <- Hl. by eapply lookup_lt_Some.
    + exists (F, v). split; [apply lookup_zip_with_Some; eauto|]. cbn. rewrite bool_decide_eq_true_2 by set_solver. done.
  - intros (Hi & [F v] & E & HT). apply lookup_zip_with_Some in E as (F' & v' & E' & E1 & E2). simplify_eq. cbn in HT.
    apply andb_true_iff in HT as [HT Pv]. eauto 10.
Qed.

Lemma covers_inv sp t a : (forall i, i ∈ t <-> 0 <= i /\ exists F, sp_rows sp !! Z.to_nat i = Some F /\ a ∈ F) -> covers sp t {[ a ]}.
Proof. intros H i. rewrite (H i). split; intros (Hi & F & E & HT); (split; [done|]); exists F; (split; [done|]); set_solver. Qed.

Lemma covers_cap sp c t T a : covers sp c T -> covers sp t {[ a ]} -> covers sp (c ∩ t) ({[ a ]} ∪ T).
Proof.
  intros H1 H2 i. rewrite elem_of_intersection, (H1 i), (H2 i). split.
  - intros ((Hi & F & E & HT) & _ & F' & E' & HT'). simplify_eq. split; [done|]. exists F. split; [done|]. set_solver.
  - intros (Hi & F & E & HT). split; (split; [done|]); exists F; (split; [done|]); set_solver.
Qed.

(** ** The gain of an attribute *)
Definition norm_ok (sp : ghspec) (U : gset Z) : Prop := sp_norm sp = true -> forall a, a ∈ U -> 0 < supp (sp_rows sp) {[ a ]}.

Lemma gain_ok sp D s cov T a : ok_state sp D s -> 0 <= a < D -> (sp_norm sp = true -> 0 < supp (sp_rows sp) {[ a ]}) ->
  match cov with None => T = ∅ | Some c => covers sp c T end ->
  gh_gain (sp_norm sp) (sp_gamma sp) s cov a = Ok (head_gain sp T a).
Proof.
  intros Hs Ha Hn Hc. destruct (ok_inv _ _ _ Hs a Ha) as (t & Et & Ht). apply covers_inv in Ht.
  unfold gh_gain. rewrite Et. cbn [rbind].
  assert (Hc' : covers sp (match cov with None => t | Some c => c ∩ t end) ({[ a ]} ∪ T)).
  { destruct cov as [c|]; [by apply covers_cap|]. subst T. by rewrite (right_id_L ∅ (∪)). }
  rewrite (ok_pos _ _ _ Hs), (ok_neg _ _ _ Hs), (covers_pos sp _ _ (ok_len _ _ _ Hs) Hc'), (covers_neg sp _ _ (ok_len _ _ _ Hs) Hc'), (ok_freq _ _ _ Hs).
  unfold head_gain. destruct (sp_norm sp).
  - specialize (Hn eq_refl). replace (supp (sp_rows sp) {[a]} =? 0) with false by (symmetry; apply Z.eqb_neq; lia).
    f_equal. assert (Qc_of_Z (supp (sp_rows sp) {[a]}) <> 0%Qc). { intros E. apply Qc_of_Z_inj_0 in E. lia. }
    field. done.
  - f_equal. field. done.
Qed.

(** ** The loop over the universe *)
Lemma best_fold (h : Z -> result Qc) (g : Z -> Qc) (l : list Z) (b0 : option Z) : (forall a, a ∈ l -> h a = Ok (g a)) -> l <> [] ->
  exists l1 b l2, l = l1 ++ b :: l2 /\ (forall a, a ∈ l1 -> (g a < g b)%Qc) /\ (forall a, a ∈ l2 -> (g a <= g b)%Qc) /\
    rfold (fun (bm : option Z * option Qc) a => let! v := h a in
      Ok (match snd bm with Some m => if decide (m < v)%Qc then (Some a, Some v) else bm | None => (Some a, Some v) end)) (b0, None) l
    = Ok (Some b, Some (g b)).
Proof.
  set (f := fun (bm : option Z * option Qc) (a : Z) => _).
  intros Hh Hne. destruct (rfold_inv f (fun pre bm => pre = [] /\ bm = (b0, None) \/
     exists l1 b l2, pre = l1 ++ b :: l2 /\ (forall a, a ∈ l1 -> (g a < g b)%Qc) /\ (forall a, a ∈ l2 -> (g a <= g b)%Qc) /\ bm = (Some b, Some (g b))) l (b0, None))
    as (bm & E & H).
  - by left.
  - intros pre x post bm El Hpre. unfold f. rewrite (Hh x) by (rewrite El; set_solver). cbn [rbind]. eexists. split; [reflexivity|]. right.
    destruct Hpre as [[-> ->]|(l1 & b & l2 & -> & H1 & H2 & ->)].
    + exists [], x, []. split_and!; [done|set_solver..|done].
    + cbn [snd]. destruct (decide (g b < g x)%Qc) as [Hlt|Hge].
      * exists (l1 ++ b :: l2), x, []. split_and!; [done| |set_solver|done]. intros a Ha. apply elem_of_app in Ha as [Ha|Ha].
        -- apply (Qclt_trans _ (g b)); [by apply H1|done].
        -- apply elem_of_cons in Ha as [->|Ha]; [done|]. apply (Qcle_lt_trans _ (g b)); [by apply H2|done].
      * exists l1, b, (l2 ++ [x]). split_and!; [by rewrite <- app_assoc|done| |done]. intros a Ha. apply elem_of_app in Ha as [Ha|Ha]; [auto|].
        apply elem_of_list_singleton in Ha as ->. by apply Qcnot_lt_le.
  - destruct H as [[-> _]|(l1 & b & l2 & El & H1 & H2 & ->)]; [done|]. exists l1, b, l2. done.
Qed.

Lemma best_ok ord sp D s cov (U T : gset Z) b0 : set_order ord -> ok_state sp D s -> (forall a, a ∈ U -> 0 <= a < D) -> norm_ok sp U ->
  match cov with None => T = ∅ | Some c => covers sp c T end -> U ∖ T <> ∅ ->
  exists b, best_next ord sp U T b /\ b ∈ U ∖ T /\
    gh_best ord (sp_norm sp) (sp_gamma sp) s cov b0 (U ∖ T) = Ok (Some b, Some (head_gain sp T b)).
Proof.
  intros Hord Hs HU Hn Hc Hne. assert (Hel : forall a, a ∈ ord (U ∖ T) <-> a ∈ U ∖ T) by (intros; by apply ord_elem).
  destruct (best_fold (gh_gain (sp_norm sp) (sp_gamma sp) s cov) (head_gain sp T) (ord (U ∖ T)) b0) as (l1 & b & l2 & El & H1 & H2 & E).
  - intros a Ha. apply Hel, elem_of_difference in Ha as [Ha _]. eapply gain_ok; eauto.
  - intros E. apply Hne. apply set_eq. intros a. rewrite <- Hel, E. set_solver.
  - exists b. split_and!; [by exists l1, l2|apply Hel; rewrite El; set_solver|done].
Qed.

(** ** argmax *)
Lemma argmax_ok (l : list Qc) : l <> [] -> exists m v, np_argmax l = Ok (Z.of_nat m) /\ l !! m = Some v /\
  forall k w, l !! k = Some w -> (w <= v)%Qc /\ ((k < m)%nat -> (w < v)%Qc).
Proof.
  destruct l as [|x l]; [done|]. intros _. unfold np_argmax.
  assert (H : exists m v, foldl (fun '(m, k, i) v => if decide (m < v)%Qc then (v, i, i + 1) else (m, k, i + 1)) (x, 0, 1) l
     = (v, Z.of_nat m, Z.of_nat (length (x :: l))) /\ (x :: l) !! m = Some v /\
     forall k w, (x :: l) !! k = Some w -> (w <= v)%Qc /\ ((k < m)%nat -> (w < v)%Qc)).
  { induction l as [|z l IH] using rev_ind.
    - exists 0%nat, x. split_and!; [done..|]. intros k w E. destruct k; [|done]. cbn in E. injection E as ->. split; [apply Qcle_refl|lia].
    - destruct IH as (m & v & E & Em & H). rewrite foldl_app, E. cbn [foldl].
      assert (Hlt : (m < length (x :: l))%nat) by (by eapply lookup_lt_Some).
      assert (Hlen : Z.of_nat (length (x :: l)) + 1 = Z.of_nat (length (x :: l ++ [z]))) by (cbn [length]; rewrite app_length; cbn [length]; lia).
      destruct (decide (v < z)%Qc) as [Hz|Hz].
      + exists (length (x :: l)), z. rewrite Hlen. split_and!; [done| |].
        * change (x :: l ++ [z]) with ((x :: l) ++ [z]). by rewrite list_lookup_middle.
        * intros k w Ek. change (x :: l ++ [z]) with ((x :: l) ++ [z]) in Ek. apply lookup_app_Some in Ek as [Ek|[Hk Ek]].
          -- destruct (H k w Ek) as [Hw _]. split; [apply Qclt_le_weak|intros _]; by eapply Qcle_lt_trans.
          -- apply list_lookup_singleton_Some in Ek as [? ->]. split; [apply Qcle_refl|lia].
      + exists m, v. rewrite Hlen. split_and!; [done| |].
        * change (x :: l ++ [z]) with ((x :: l) ++ [z]). by apply lookup_app_l_Some.
        * intros k w Ek. change (x :: l ++ [z]) with ((x :: l) ++ [z]) in Ek. apply lookup_app_Some in Ek as [Ek|[Hk Ek]]; [by apply H|].
          apply list_lookup_singleton_Some in Ek as [? ->]. split; [by apply Qcnot_lt_le|lia]. }
  destruct H as (m & v & E & H). exists m, v. rewrite E. done.
Qed.

(** ** The run *)
Definition gains_of (sp : ghspec) (xs : list Z) : list Qc := imap (fun k a => head_gain sp (list_to_set (take k xs)) a) xs.

Lemma gains_snoc sp xs b : gains_of sp (xs ++ [b]) = gains_of sp xs ++ [head_gain sp (list_to_set xs) b].
Proof.
  unfold gains_of. rewrite imap_app. f_equal.
  - apply imap_ext. intros k a Ek. apply lookup_lt_Some in Ek. rewrite take_app_le by lia. done.
  - cbn. rewrite Nat.add_0_r, take_app. done.
Qed.

Lemma finish_ok sp xs : xs <> [] -> exists T, gh_finish xs (gains_of sp xs) = Ok T /\ best_prefix sp xs T.
Proof.
  intros Hne. destruct (argmax_ok (gains_of sp xs)) as (m & v & E & Em & H).
  { intros E. apply (f_equal length) in E. unfold gains_of in E. rewrite imap_length in E. by destruct xs. }
  unfold gh_finish. rewrite E. cbn [rbind]. eexists. split; [reflexivity|].
  unfold gains_of in Em. rewrite list_lookup_imap in Em. apply fmap_Some in Em as (a & Ea & ->).
  assert (Hlt : (m < length xs)%nat) by (by eapply lookup_lt_Some).
  exists (take m xs), a, (drop (S m) xs). split_and!.
  - symmetry. by apply take_drop_middle.
  - unfold py_set. f_equal. replace (Z.to_nat (Z.of_nat m + 1)) with (S m) by lia. by apply take_S_r.
  - intros pre b post Exs. rewrite take_length_le by lia.
    assert (gains_of sp xs !! length pre = Some (head_gain sp (list_to_set pre) b)) as Eg.
    { unfold gains_of. rewrite list_lookup_imap. rewrite Exs, list_lookup_middle, take_app by done. done. }
    apply H in Eg as [H1 H2]. cbn. split; [done|]. intros. by apply H2.
Qed.

(** all choices so far are right *)
Definition run_so_far (ord : gset Z -> list Z) (sp : ghspec) (U : gset Z) (xs : list Z) : Prop :=
  xs <> [] /\
  (forall pre a post, xs = pre ++ a :: post ->
     best_next ord sp U (list_to_set pre) a /\ (pre <> [] -> ~ too_few sp ({[ a ]} ∪ list_to_set pre))).

Lemma run_snoc ord sp U xs b : run_so_far ord sp U xs -> best_next ord sp U (list_to_set xs) b -> ~ too_few sp ({[ b ]} ∪ list_to_set xs) ->
  run_so_far ord sp U (xs ++ [b]).
Proof.
  intros [H1 H2] Hb Hf. split; [by destruct xs|]. intros pre a post E.
  destruct post as [|c post _] using rev_ind.
  - apply app_inj_tail in E as [-> ->]. done.
  - rewrite app_comm_cons, app_assoc in E. apply app_inj_tail in E as [-> _]. by apply (H2 _ _ post).
Qed.

Lemma to_set_snoc (xs : list Z) b : list_to_set (xs ++ [b]) = {[ b ]} ∪ (list_to_set xs : gset Z).
Proof. rewrite list_to_set_app_L. cbn. set_solver. Qed.

Lemma loop_ok ord sp D s U : set_order ord -> ok_state sp D s -> (forall a, a ∈ U -> 0 <= a < D) -> norm_ok sp U ->
  forall fuel xs cov best, run_so_far ord sp U xs -> covers sp cov (list_to_set xs) -> (size (U ∖ list_to_set xs) <= fuel)%nat ->
  exists T, gh_loop fuel ord (sp_norm sp) (sp_gamma sp) (sp_eps sp) s (U ∖ list_to_set xs) cov best xs (gains_of sp xs) = Ok T /\
    greedy_result ord sp U T.
Proof.
  intros Hord Hs HU Hn. 
  assert (Hend : forall xs, run_so_far ord sp U xs ->
     (U ⊆ list_to_set xs \/ exists b, best_next ord sp U (list_to_set xs) b /\ too_few sp ({[ b ]} ∪ list_to_set xs)) ->
     exists T, gh_finish xs (gains_of sp xs) = Ok T /\ greedy_result ord sp U T).
  { intros xs [H1 H2] H3. destruct (finish_ok sp xs H1) as (T & E & HT). exists T. split; [done|]. exists xs. done. }
  induction fuel as [|fuel IH]; intros xs cov best Hrun Hcov Hsz; cbn [gh_loop].
  - rewrite decide_True by (apply leibniz_equiv, size_empty_iff; lia). apply Hend; [done|]. left.
    assert (U ∖ list_to_set xs = ∅) as E by (apply leibniz_equiv, size_empty_iff; lia). 
    intros a Ha. destruct (decide (a ∈ (list_to_set xs : gset Z))); [done|]. exfalso. apply (not_elem_of_empty (C:=gset Z) a). rewrite <- E. set_solver.
  - destruct (decide (U ∖ list_to_set xs = ∅)) as [E|Hne].
    + apply Hend; [done|]. left. intros a Ha. destruct (decide (a ∈ (list_to_set xs : gset Z))); [done|]. exfalso. apply (not_elem_of_empty (C:=gset Z) a). rewrite <- E. set_solver.
    + destruct (best_ok ord sp D s (Some cov) U (list_to_set xs) (Some best) Hord Hs HU Hn Hcov Hne) as (b & Hb & Hbin & ->). cbn [rbind].
      assert (Hbin' := Hbin). apply elem_of_difference in Hbin' as [HbU Hbx].
      destruct (ok_inv _ _ _ Hs b (HU b HbU)) as (t & Et & Ht). apply covers_inv in Ht. rewrite Et. cbn [rbind].
      pose proof (covers_cap _ _ _ _ _ Hcov Ht) as Hc'. rewrite (covers_size _ _ _ Hc'), (ok_pos _ _ _ Hs), size_pos by apply Hs.
      destruct (decide _) as [Hf|Hf].
      * apply Hend; [done|]. right. by exists b.
      * rewrite decide_True by done. rewrite <- gains_snoc.
        replace (U ∖ list_to_set xs ∖ {[b]}) with (U ∖ list_to_set (xs ++ [b])) by (rewrite to_set_snoc; clear; set_solver).
        apply IH.
        -- by apply run_snoc.
        -- by rewrite to_set_snoc.
        -- assert (size (U ∖ list_to_set (xs ++ [b])) < size (U ∖ list_to_set xs))%nat; [|lia].
           apply subset_size. rewrite to_set_snoc. split; [clear; set_solver|]. intros Hsub. specialize (Hsub b Hbin). clear -Hsub. set_solver.
Qed.

Lemma choice_ok ord sp D s U : set_order ord -> ok_state sp D s -> (forall a, a ∈ U -> 0 <= a < D) -> norm_ok sp U -> U <> ∅ ->
  exists T, gh_choice ord (sp_norm sp) (sp_gamma sp) (sp_eps sp) s U = Ok T /\ greedy_result ord sp U T.
Proof.
  intros Hord Hs HU Hn Hne. unfold gh_choice.
  assert (EU : U ∖ ∅ = U) by (clear; set_solver).
  destruct (best_ok ord sp D s None U ∅ None Hord Hs HU Hn eq_refl) as (b & Hb & Hbin & E); [by rewrite EU|].
  rewrite EU in E, Hbin. rewrite E. cbn [rbind].
  destruct (ok_inv _ _ _ Hs b (HU b Hbin)) as (t & Et & Ht). apply covers_inv in Ht. rewrite Et. cbn [rbind].
  rewrite decide_True by done.
  replace (U ∖ {[b]}) with (U ∖ list_to_set [b]) by (clear; set_solver).
  change [head_gain sp ∅ b] with (gains_of sp [b]).
  apply (loop_ok ord sp D s U Hord Hs HU Hn).
  - split; [done|]. intros pre a post E'. destruct pre as [|? [|]]; [|done..]. injection E' as <- _. split; [done|done].
  - replace (list_to_set [b] : gset Z) with ({[b]} : gset Z) by (clear; set_solver). done.
  - apply subseteq_size. clear. set_solver.
Qed.

(** ** Fitting *)
Lemma has_nonzero X i a : binary (csr_mat X) -> csr_has X i a <-> nonzero_at (csr_mat X) i a.
Proof.
  intros [H _]. split.
  - intros (k & v & Hs). exists k, v. split; [done|]. apply H in Hs. lia.
  - intros (k & v & Hs & _). by exists k, v.
Qed.

Lemma freq_ok ord rows a : set_order ord -> count_get (gh_frequencies ord rows) a = supp rows {[ a ]}.
Proof.
  intros Hord. unfold gh_frequencies. rewrite counter_get. unfold count_get at 1. rewrite lookup_empty. cbn [default].
  induction rows as [|r rows IH]; [done|]. cbn [map concat]. rewrite filter_app, zlen_app. unfold supp in *. cbn [List.filter].
  assert (E : zlen (List.filter (fun y => y =? a) (ord r)) = if bool_decide (({[ a ]} : gset Z) ⊆ r) then 1 else 0).
  { assert (Hnd : NoDup (ord r)) by (by apply ord_NoDup). assert (Hel : a ∈ ord r <-> a ∈ r) by (by apply ord_elem).
    assert (H : zlen (List.filter (fun y => y =? a) (ord r)) = if bool_decide (a ∈ ord r) then 1 else 0).
    { clear -Hnd. induction (ord r) as [|x l IH]; [done|]. apply list.NoDup_cons in Hnd as [Hx Hnd]. cbn [List.filter].
      destruct (x =? a) eqn:Ex.
      - apply Z.eqb_eq in Ex as ->. rewrite zlen_cons, IH by done. rewrite bool_decide_eq_false_2 by done. rewrite bool_decide_eq_true_2 by left. done.
      - apply Z.eqb_neq in Ex. rewrite IH by done. apply (f_equal (fun b : bool => if b then 1 else 0)). apply bool_decide_ext. rewrite elem_of_cons. naive_solver. }
    rewrite H. apply (f_equal (fun b : bool => if b then 1 else 0)). apply bool_decide_ext. rewrite Hel. set_solver. }
  rewrite E. destruct (bool_decide _).
  - rewrite zlen_cons. lia.
  - lia.
Qed.

Lemma first_fit ord X0 y0 s0 : gh_fit ord None X0 y0 = Ok s0 -> gh_cache ord None X0 = Ok (gh_c s0).
Proof. unfold gh_fit. destruct (gh_cache ord None X0); [|done]. cbn [rbind]. destruct (negb _); [done|]. by intros [= <-]. Qed.

Lemma cache_ok ord X0 : set_order ord -> wf_cmat (csr_mat X0) = true -> binary (csr_mat X0) ->
  exists c, gh_cache ord None X0 = Ok c /\ rows_of X0 (gc_rows c) /\
    (forall a, 0 <= a < csr_cols X0 -> exists t, py_index (gc_inv c) a = Ok t /\
       forall i, i ∈ t <-> 0 <= i /\ exists F, gc_rows c !! Z.to_nat i = Some F /\ a ∈ F) /\
    (forall a, count_get (gc_freq c) a = supp (gc_rows c) {[ a ]}).
Proof.
  intros Hord Hwf Hb. unfold gh_cache. destruct (convert_v2_ok X0 Hwf) as (rows & -> & Hlen & Hrows). cbn [rbind].
  eexists. split; [reflexivity|]. cbn [gc_rows gc_inv gc_freq]. split_and!.
  - done.
  - intros a Ha. destruct (build_index_lookup X0 a Hwf Ha) as (t & Et & Ht). exists t. split; [done|]. intros i. rewrite (Ht i), <- has_nonzero by done. split.
    + intros Hh. assert (Hi : 0 <= i < csr_rows X0).
      { destruct Hh as (k & v & (p & q & ? & Hp & Hq & _)). apply lookup_lt_Some in Hq. split; [done|].
        unfold csr_rows. apply wf_cmat_facts in Hwf. destruct Hwf. unfold zlen in *. lia. }
      split; [lia|]. destruct (lookup_lt_is_Some_2 rows (Z.to_nat i)) as [F EF]; [unfold zlen in Hlen; lia|]. exists F. split; [done|]. apply (Hrows i F); [lia|done|done].
    + intros (Hi & F & EF & Ha'). by apply (Hrows i F).
  - intros a. by apply freq_ok.
Qed.

Lemma fit_ok ord norm gamma eps cache X0 X y : set_order ord -> wf_cmat (csr_mat X0) = true -> binary (csr_mat X0) ->
  first_matrix ord cache X X0 -> zlen y = csr_rows X0 -> py_set y = {[ 0; 1 ]} ->
  exists s, gh_fit ord cache X y = Ok s /\ rows_of X0 (gc_rows (gh_c s)) /\ gh_D s = csr_cols X /\
    ok_state (GHSpec norm gamma eps (gc_rows (gh_c s)) y) (csr_cols X0) s.
Proof.
  intros Hord Hwf Hb Hfm Hy Hy01. destruct (cache_ok ord X0 Hord Hwf Hb) as (c & Ec & Hr & Hinv & Hfr).
  assert (E : gh_cache ord cache X = Ok c).
  { destruct Hfm as [[-> ->]|(y0 & s0 & H & ->)]; [done|]. apply first_fit in H. cbn. congruence. }
  unfold gh_fit. rewrite E. cbn [rbind]. rewrite bool_decide_eq_true_2 by done. cbn [negb].
  eexists. split; [reflexivity|]. cbn [gh_c gh_D]. split_and!; [done..|]. destruct Hr as [Hr _]. split; cbn [sp_rows sp_y gh_c gh_pos gh_neg]; try done.
  unfold zlen in *. lia.
Qed.

(** nothing to choose from *)
Lemma choice_empty ord norm gamma eps s : set_order ord -> gh_choice ord norm gamma eps s ∅ = Err UnboundLocalError.
Proof.
  intros Hord. unfold gh_choice, gh_best. assert (ord ∅ = []) as ->; [|done].
  apply Permutation_nil. rewrite (Hord ∅). by rewrite elements_empty.
Qed.

Lemma supp_has (rows : list (gset Z)) X0 a : rows_of X0 rows -> (exists i, csr_has X0 i a) -> wf_cmat (csr_mat X0) = true -> 0 < supp rows {[ a ]}.
Proof.
  intros [Hl Hr] (i & Hi) Hwf. assert (Hb : 0 <= i < csr_rows X0).
  { destruct Hi as (k & v & (p & q & ? & Hp & Hq & _)). apply lookup_lt_Some in Hq. split; [done|].
    unfold csr_rows. apply wf_cmat_facts in Hwf. destruct Hwf. unfold zlen in *. lia. }
  destruct (lookup_lt_is_Some_2 rows (Z.to_nat i)) as [F EF]; [unfold zlen in Hl; lia|].
  unfold supp. assert (F ∈ List.filter (fun r => bool_decide (({[ a ]} : gset Z) ⊆ r)) rows) as Hin.
  { apply elem_of_list_In, filter_In. split; [apply elem_of_list_In; by eapply elem_of_list_lookup_2|]. apply bool_decide_eq_true_2.
    apply singleton_subseteq_l. apply (Hr i F); [lia|done|done]. }
  destruct (List.filter _ rows); [by apply elem_of_nil in Hin|]. rewrite zlen_cons. pose proof (zlen_nonneg l). lia.
Qed.

Lemma C59_choice_proof : forall (ord : gset Z -> list Z) (norm : bool) (gamma eps : Qc) (cache : option ghcache) (X0 X : csr) (y : list Z),
  set_order ord -> wf_cmat (csr_mat X0) = true -> binary (csr_mat X0) -> first_matrix ord cache X X0 ->
  zlen y = csr_rows X0 -> py_set y = {[ 0; 1 ]} ->
  exists s rows, gh_fit ord cache X y = Ok s /\ rows_of X0 rows /\
    (forall U : gset Z, U <> ∅ -> (forall a, a ∈ U -> 0 <= a < csr_cols X0 /\ (norm = true -> exists i, csr_has X0 i a)) ->
       exists T, gh_choice ord norm gamma eps s U = Ok T /\ greedy_result ord (GHSpec norm gamma eps rows y) U T) /\
    gh_choice ord norm gamma eps s ∅ = Err UnboundLocalError.
Proof.
  intros ord norm gamma eps cache X0 X y Hord Hwf Hb Hfm Hy Hy01.
  destruct (fit_ok ord norm gamma eps cache X0 X y Hord Hwf Hb Hfm Hy Hy01) as (s & E & Hr & _ & Hs).
  exists s, (gc_rows (gh_c s)). split_and!; [done..| |by apply choice_empty].
  intros U Hne HU. apply (choice_ok ord _ (csr_cols X0) s U Hord Hs); [intros a Ha; by apply HU| |done].
  intros Hn a Ha. cbn in *. eapply supp_has; [done|by apply HU|done].
Qed.


(** ** The specification determines the result *)
Lemma app_split {A} (l1 l2 l1' l2' : list A) a a' : l1 ++ a :: l2 = l1' ++ a' :: l2' ->
  (l1 = l1' /\ a = a' /\ l2 = l2') \/ (a ∈ l1' /\ a' ∈ l2 /\ (length l1 < length l1')%nat) \/ (a' ∈ l1 /\ a ∈ l2' /\ (length l1' < length l1)%nat).
Proof.
  revert l1'. induction l1 as [|x l1 IH]; intros [|x' l1'] E; cbn in E.
  - injection E as -> ->. by left.
  - injection E as -> ->. right. left. cbn. split_and!; [set_solver..|lia].
  - injection E as -> <-. right. right. cbn. split_and!; [set_solver..|lia].
  - injection E as <- E. apply IH in E as [(-> & -> & ->)|[(H1 & H2 & H3)|(H1 & H2 & H3)]].
    + by left.
    + right. left. cbn. split_and!; [set_solver..|lia].
    + right. right. cbn. split_and!; [set_solver..|lia].
Qed.

Lemma best_next_unique ord sp U T a b : best_next ord sp U T a -> best_next ord sp U T b -> a = b.
Proof.
  intros (l1 & l2 & E & H1 & H2) (l1' & l2' & E' & H1' & H2'). rewrite E in E'. apply app_split in E' as [(_ & -> & _)|[(Ha & Hb & _)|(Hb & Ha & _)]]; [done|exfalso..].
  - apply (Qcle_not_lt _ _ (H2 b Hb)). by apply H1'.
  - apply (Qcle_not_lt _ _ (H2' a Ha)). by apply H1.
Qed.

Lemma best_next_elem ord sp U T a : set_order ord -> best_next ord sp U T a -> a ∈ U /\ a ∉ T.
Proof. intros Hord (l1 & l2 & E & _). apply elem_of_difference. apply (ord_elem ord); [done|]. rewrite E. set_solver. Qed.

Lemma run_unique ord sp U xs xs' : set_order ord -> greedy_run ord sp U xs -> greedy_run ord sp U xs' -> xs = xs'.
Proof.
  intros Hord H H'.
  assert (Hstop : forall xs b r pre, greedy_run ord sp U xs -> greedy_run ord sp U pre -> xs = pre ++ b :: r -> False).
  { intros ys b r pre (_ & Hys & _) (Hne & _ & Hend) E. destruct (Hys pre b r E) as [Hb Hfew]. destruct Hend as [Hsub|(c & Hc & Hf)].
    - apply best_next_elem in Hb as [? ?]; [|done]. set_solver.
    - assert (c = b) as -> by (by eapply best_next_unique). by apply Hfew. }
  assert (Hgen : forall r r' pre, xs = pre ++ r -> xs' = pre ++ r' -> r = r').
  { induction r as [|a r IH]; intros [|b r'] pre E E'; [done|exfalso..|].
    - rewrite app_nil_r in E. subst pre. by apply (Hstop xs' b r' xs).
    - rewrite app_nil_r in E'. subst pre. by apply (Hstop xs a r xs').
    - destruct H as (? & Hx & ?), H' as (? & Hx' & ?). destruct (Hx _ _ _ E) as [Ha _], (Hx' _ _ _ E') as [Hb _].
      assert (a = b) as <- by (by eapply best_next_unique). f_equal. apply (IH r' (pre ++ [a])); by rewrite <- app_assoc. }
  by apply (Hgen xs xs' []).
Qed.

Lemma C59_result_unique_proof : forall (ord : gset Z -> list Z) (sp : ghspec) (U T T' : gset Z),
  set_order ord -> greedy_result ord sp U T -> T <> ∅ /\ T ⊆ U /\ (greedy_result ord sp U T' -> T' = T).
Proof.
  intros ord sp U T T' Hord (xs & Hrun & (pre & a & post & E & ET & Hmax)). split_and!.
  - rewrite ET, to_set_snoc. clear. set_solver.
  - destruct Hrun as (_ & Hrun & _). rewrite ET. intros b Hb. apply elem_of_list_to_set in Hb.
    assert (b ∈ xs) as Hbx by (rewrite E; clear -Hb; set_solver).
    apply elem_of_list_split in Hbx as (p & q & Eq). destruct (Hrun p b q Eq) as [Hn _]. by apply best_next_elem in Hn as [? _].
  - intros (xs' & Hrun' & (pre' & a' & post' & E' & ET' & Hmax')). assert (xs' = xs) as -> by (by eapply run_unique).
    pose proof (Hmax _ _ _ E') as [H1 H1']. pose proof (Hmax' _ _ _ E) as [H2 H2']. rewrite E in E'. apply app_split in E' as [(-> & -> & _)|[(_ & _ & Hl)|(_ & _ & Hl)]].
    + congruence.
    + exfalso. eapply Qcle_not_lt; [exact H1|by apply H2'].
    + exfalso. eapply Qcle_not_lt; [exact H2|by apply H1'].
Qed.


(** ** PruneGreedy *)
Lemma prune_ok sp D s : ok_state sp D s -> gh_D s <= D ->
  exists U, pg_prune s = Ok U /\ forall a, a ∈ U <-> 0 <= a < gh_D s /\ exists i F, is_pos (sp_y sp) i /\ sp_rows sp !! Z.to_nat i = Some F /\ a ∈ F.
Proof.
  intros Hs HD. unfold pg_prune.
  destruct (rfold_inv (fun (res : gset Z) a => let! t := py_index (gc_inv (gh_c s)) a in
      Ok (if 0 <? Z.of_nat (size (t ∩ py_set (gh_pos s))) then {[ a ]} ∪ res else res))
    (fun pre U => forall a, a ∈ U <-> a ∈ pre /\ exists i F, is_pos (sp_y sp) i /\ sp_rows sp !! Z.to_nat i = Some F /\ a ∈ F) (py_range (gh_D s)) ∅) as (U & E & HU).
  - set_solver.
  - intros pre a post U El HU. assert (Ha : 0 <= a < gh_D s) by (apply elem_of_py_range; rewrite El; clear; set_solver).
    destruct (ok_inv _ _ _ Hs a ltac:(lia)) as (t & Et & Ht). rewrite Et. cbn [rbind]. eexists. split; [reflexivity|].
    assert (Hiff : (0 <? Z.of_nat (size (t ∩ py_set (gh_pos s)))) = true <-> exists i F, is_pos (sp_y sp) i /\ sp_rows sp !! Z.to_nat i = Some F /\ a ∈ F).
    { rewrite Z.ltb_lt, (ok_pos _ _ _ Hs). split.
      - intros Hsz. destruct (decide (t ∩ py_set (pos_indices (sp_y sp)) = ∅)) as [E0|Hne]; [rewrite E0, size_empty in Hsz; lia|].
        apply set_choose_L in Hne as (i & Hi). apply elem_of_intersection in Hi as [Hi Hp]. unfold py_set in Hp. apply elem_of_list_to_set, elem_of_pos in Hp.
        apply Ht in Hi as (_ & F & EF & HF). eauto.
      - intros (i & F & Hp & EF & HF). assert (i ∈ t ∩ py_set (pos_indices (sp_y sp))) as Hi.
        { apply elem_of_intersection. split; [|unfold py_set; apply elem_of_list_to_set; by apply elem_of_pos]. apply Ht. destruct Hp. eauto. }
        assert (t ∩ py_set (pos_indices (sp_y sp)) <> ∅) as Hne by (clear -Hi; set_solver). apply size_pos_ne in Hne. lia. }
    intros b. rewrite elem_of_app, elem_of_list_singleton. destruct (0 <? _).
    + rewrite elem_of_union, elem_of_singleton, (HU b). pose proof (proj1 Hiff eq_refl). naive_solver.
    + rewrite (HU b). split; [naive_solver|]. intros [[Hin| ->] Hex]; [done|]. apply Hiff in Hex. done.
  - exists U. split; [done|]. intros a. rewrite (HU a), elem_of_py_range. done.
Qed.

Lemma C59_prune_proof : forall (ord : gset Z -> list Z) (gamma eps : Qc) (cache : option ghcache) (X0 X : csr) (y : list Z),
  set_order ord -> wf_cmat (csr_mat X0) = true -> binary (csr_mat X0) -> first_matrix ord cache X X0 ->
  csr_cols X = csr_cols X0 -> zlen y = csr_rows X0 -> py_set y = {[ 0; 1 ]} ->
  exists s rows U, gh_fit ord cache X y = Ok s /\ rows_of X0 rows /\
    (forall a : Z, a ∈ U <-> 0 <= a < csr_cols X0 /\
       ((exists i, is_pos y i /\ csr_has X0 i a) \/ ~ exists i b, is_pos y i /\ csr_has X0 i b)) /\
    (csr_cols X0 = 0 -> pg_sample_once ord gamma eps s = Err UnboundLocalError) /\
    (0 < csr_cols X0 -> exists T, greedy_result ord (GHSpec false gamma eps rows y) U T /\
       pg_sample_once ord gamma eps s = Ok T /\ forall k, pg_sample ord gamma eps s k = Ok (replicate (Z.to_nat k) T)).
Proof.
  intros ord gamma eps cache X0 X y Hord Hwf Hb Hfm Hcols Hy Hy01.
  destruct (fit_ok ord false gamma eps cache X0 X y Hord Hwf Hb Hfm Hy Hy01) as (s & E & Hr & HD & Hs).
  set (sp := GHSpec false gamma eps (gc_rows (gh_c s)) y) in *.
  destruct (prune_ok sp _ s Hs ltac:(lia)) as (P & EP & HP). rewrite HD, Hcols in HP.
  assert (Hfeat : forall a, (exists i F, is_pos y i /\ gc_rows (gh_c s) !! Z.to_nat i = Some F /\ a ∈ F) <-> exists i, is_pos y i /\ csr_has X0 i a).
  { intros a. destruct Hr as [Hl Hr]. split.
    - intros (i & F & Hp & EF & Ha). exists i. split; [done|]. apply (Hr i F); [by destruct Hp|done|done].
    - intros (i & Hp & Hh). destruct Hp as [Hi (v & Ev & Hv)]. destruct (lookup_lt_is_Some_2 (gc_rows (gh_c s)) (Z.to_nat i)) as [F EF].
      { apply lookup_lt_Some in Ev. unfold zlen in *. lia. }
      exists i, F. split_and!; [split; eauto|done|]. by apply (Hr i F). }
  change (sp_y sp) with y in HP. change (sp_rows sp) with (gc_rows (gh_c s)) in HP. setoid_rewrite Hfeat in HP.
  pose proof (wf_dims _ Hwf) as [_ Hc0]. change (n_minor (csr_mat X0)) with (csr_cols X0) in Hc0.
  assert (Hin : forall i b, is_pos y i -> csr_has X0 i b -> 0 <= b < csr_cols X0).
  { intros i b _ Hh. apply has_nonzero in Hh; [|done]. destruct Hh as (k & v & Hs' & _). destruct Hs' as (p & q & _ & _ & _ & ? & ? & Hj & _).
    apply wf_cmat_facts in Hwf. destruct Hwf as []. unfold csr_cols. eauto. }
  set (U := if decide (P = ∅) then py_set (py_range (csr_cols X0)) else P).
  assert (HU : forall a : Z, a ∈ U <-> 0 <= a < csr_cols X0 /\
       ((exists i, is_pos y i /\ csr_has X0 i a) \/ ~ exists i b, is_pos y i /\ csr_has X0 i b)).
  { intros a. unfold U. destruct (decide (P = ∅)) as [E0|Hne].
    - unfold py_set. rewrite elem_of_list_to_set, elem_of_py_range. split; [|naive_solver]. intros Ha. split; [done|]. right. intros (i & b & Hp & Hh).
      assert (b ∈ P) as Hbp; [|rewrite E0 in Hbp; by apply not_elem_of_empty in Hbp]. apply HP. split; [by eapply Hin|]. eauto.
    - rewrite (HP a). split; [naive_solver|]. intros [Ha [?|Hno]]; [done|]. exfalso. apply Hno. apply set_choose_L in Hne as (b & Hb'). apply HP in Hb' as (_ & i & ?). eauto. }
  assert (Eonce : pg_sample_once ord gamma eps s = gh_choice ord false gamma eps s U).
  { unfold pg_sample_once. rewrite EP. cbn [rbind]. unfold U. by rewrite HD, Hcols. }
  exists s, (gc_rows (gh_c s)), U. split_and!; [done..| |].
  - intros Hz. rewrite Eonce. assert (U = ∅) as ->; [|by apply choice_empty]. apply set_eq. intros a. rewrite (HU a). split; [lia|set_solver].
  - intros Hpos. destruct (choice_ok ord sp (csr_cols X0) s U Hord Hs) as (T & ET & HT).
    + intros a Ha. by apply HU in Ha as [? _].
    + by intros ?.
    + intros E0. unfold U in E0. destruct (decide (P = ∅)) as [|Hne]; [|done].
      assert (0 ∈ py_set (py_range (csr_cols X0))) as H0 by (unfold py_set; rewrite elem_of_list_to_set, elem_of_py_range; lia).
      rewrite E0 in H0. by apply not_elem_of_empty in H0.
    + exists T. split_and!; [done|by rewrite Eonce|]. intros k. unfold pg_sample.
      rewrite (rmap_ext _ (fun _ => Ok T)) by (intros; by rewrite Eonce). rewrite (rmap_ok_map (fun _ => T)). f_equal.
      rewrite <- (length_py_range k) at 1. induction (py_range k) as [|x l IH]; [done|]. cbn. f_equal. done.
Qed.


(** ** CFTP_Greedy *)
Definition gw (rows : list (gset Z)) (p n : Z) : Z := Z.of_nat (size (rset rows p ∖ rset rows n)).
Definition gwt (rows : list (gset Z)) (pos : list Z) (i : Z) : R :=
  if bool_decide (i ∈ pos) then IZR (Z.of_nat (size (rset rows i))) else 1%R.

Lemma gwd_ok rows pos : exists W, cg_weight_dict (zlen rows) rows pos = Ok W /\
  (forall i, 0 <= i < zlen rows -> W !! i = Some (gwt rows pos i)).
Proof.
  destruct (rfold_insert (gwt rows pos) (fun d i =>
    if bool_decide (i ∈ pos) then
      let! r := py_index rows i in Ok (<[i := IZR (Z.of_nat (size r))]> d)
    else Ok (<[i := 1%R]> d)) (py_range (zlen rows))) with (d := (∅ : gmap Z R)) as (d' & E & Hd).
  - intros d i Hi. apply elem_of_py_range in Hi. rewrite (rset_ok rows i Hi). unfold gwt. by destruct (bool_decide (i ∈ pos)).
  - exists d'. split; [exact E|]. intros i Hi. apply Hd. by apply elem_of_py_range.
Qed.

Lemma gwt_nonneg rows pos i : (0 <= gwt rows pos i)%R.
Proof. unfold gwt. case_bool_decide; [|lra]. apply (IZR_le 0). lia. Qed.

Lemma gdom rows y W : length rows = length y -> (forall i, 0 <= i < zlen rows -> W !! i = Some (gwt rows (pos_indices y) i)) ->
  dominated W W (pos_indices y) (neg_indices y) (cg_pair_weight rows) (gw rows).
Proof.
  intros Hl HW. split_and!.
  - intros p Hp. apply (pos_range' rows) in Hp; [|done]. rewrite (HW p Hp). eexists. split; [done|apply gwt_nonneg].
  - intros p Hp. apply (neg_range' rows) in Hp; [|done]. rewrite (HW p Hp). eexists. split; [done|apply gwt_nonneg].
  - intros p n a b Hp Hn. pose proof (pos_range' rows y p Hl Hp) as Hp'. pose proof (neg_range' rows y n Hl Hn) as Hn'.
    rewrite (HW p Hp'), (HW n Hn'). intros [= <-] [= <-]. split_and!.
    + unfold cg_pair_weight. rewrite (rset_ok _ _ Hp'), (rset_ok _ _ Hn'). done.
    + unfold gw. lia.
    + unfold gwt. rewrite bool_decide_eq_true_2 by done. rewrite (bool_decide_eq_false_2 (n ∈ pos_indices y)) by (by apply neg_not_pos').
      rewrite Rmult_1_r. apply IZR_le, inj_le, subseteq_size. clear. set_solver.
Qed.

Lemma pair_sum_eq f rows y : length rows = length y ->
  pairs_total f rows y = SCftp.total_weight (fun p n => f (rset rows p) (rset rows n)) (pos_indices y) (neg_indices y).
Proof.
  intros Hl. unfold pairs_total, SCftp.total_weight. rewrite pos_sel, neg_sel.
  rewrite <- (sel_sum (fun v => 0 <? v) rows y (fun P => zsum (map (fun n : gset Z * Z => f P (fst n)) (List.filter (fun ry : gset Z * Z => snd ry =? 0) (zip rows y)))) Hl).
  f_equal. apply map_ext. intros p. by rewrite <- (sel_sum (fun v => v =? 0) rows y (f (rset rows p)) Hl).
Qed.

Lemma gproposal_mass rows y W : length rows = length y -> (forall i, 0 <= i < zlen rows -> W !! i = Some (gwt rows (pos_indices y) i)) ->
  (pmass W (pos_indices y) * pmass W (neg_indices y))%R = IZR (pos_size rows y * n_neg y).
Proof.
  intros Hl HW. unfold pos_size. rewrite mult_IZR, (n_neg_sel y). f_equal.
  - unfold pmass. rewrite <- (sel_sum (fun v => 0 <? v) rows y (fun r => Z.of_nat (size r)) Hl), <- rsum_IZR. apply rsum_map_ext.
    intros p Hp. unfold pweight. rewrite HW by (by apply (pos_range' rows y)). unfold gwt. simpl. by rewrite bool_decide_eq_true_2.
  - unfold pmass. rewrite <- (Rmult_1_l (IZR (zlen _))), <- rsum_const. apply rsum_map_ext.
    intros p Hp. unfold pweight. rewrite HW by (by apply (neg_range' rows y)). unfold gwt. simpl. rewrite bool_decide_eq_false_2; [done|]. by apply neg_not_pos'.
Qed.

Lemma cg_fit_ok ord gamma eps cache X0 X y : set_order ord -> wf_cmat (csr_mat X0) = true -> binary (csr_mat X0) ->
  first_matrix ord cache X X0 -> csr_rows X = csr_rows X0 -> zlen y = csr_rows X0 -> py_set y = {[ 0; 1 ]} ->
  exists s Wd, cg_fit ord cache X y = Ok s /\ let rows := gc_rows (gh_c (cg_h s)) in rows_of X0 rows /\ length rows = length y /\
    ok_state (GHSpec true gamma eps rows y) (csr_cols X0) (cg_h s) /\
    (forall i, 0 <= i < zlen rows -> Wd !! i = Some (gwt rows (pos_indices y) i)) /\
    dominated Wd Wd (pos_indices y) (neg_indices y) (cg_pair_weight rows) (gw rows) /\
    cftp_init Wd Wd (pos_indices y) (neg_indices y) (cg_pair_weight rows) 1024 = Ok (cg_cftp s).
Proof.
  intros Hord Hwf Hb Hfm Hrows Hy Hy01.
  destruct (fit_ok ord true gamma eps cache X0 X y Hord Hwf Hb Hfm Hy Hy01) as (s & E & Hr & HD & Hs).
  set (rows := gc_rows (gh_c s)) in *. assert (Hlen : zlen rows = csr_rows X0) by apply Hr. assert (Hl : length rows = length y) by (unfold zlen in *; lia).
  destruct (gwd_ok rows (pos_indices y)) as (W & EW & HW). pose proof (gdom rows y W Hl HW) as Hdom.
  assert (Hget : forall l, (forall i, i ∈ l -> 0 <= i < zlen rows) -> exists ws, rmap (dict_get W) l = Ok ws).
  { intros l Hl'. exists (map (gwt rows (pos_indices y)) l). rewrite <- rmap_ok_map. apply rmap_ext. intros i Hi. unfold dict_get. by rewrite (HW i) by auto. }
  destruct (Hget (pos_indices y)) as (wp & Ewp); [intros i Hi; by apply (pos_range' rows y)|].
  destruct (Hget (neg_indices y)) as (wn & Ewn); [intros i Hi; by apply (neg_range' rows y)|].
  unfold cg_fit. rewrite E. cbn [rbind]. fold rows.
  rewrite (ok_pos _ _ _ Hs), (ok_neg _ _ _ Hs). cbn [sp_y]. rewrite Hrows, <- Hlen, EW. cbn [rbind]. rewrite Ewp. cbn [rbind].
  unfold cftp_init at 1. rewrite Ewp. cbn [rbind]. rewrite Ewn. cbn [rbind]. eexists _, W. split; [reflexivity|]. cbn [cg_h cg_cftp].
  split_and!; [done..|]. unfold cftp_init. rewrite Ewp. cbn [rbind]. rewrite Ewn. done.
Qed.

(** the attributes that a row has and another one lacks *)
Lemma diff_ok X0 rows i P (N : gset Z) a : rows_of X0 rows -> binary (csr_mat X0) -> wf_cmat (csr_mat X0) = true -> 0 <= i ->
  rows !! Z.to_nat i = Some P -> a ∈ P ∖ N -> 0 <= a < csr_cols X0 /\ 0 < supp rows {[ a ]}.
Proof.
  intros Hr Hb Hwf Hi EP Ha. apply elem_of_difference in Ha as [Ha _]. assert (Hh : csr_has X0 i a) by (by apply (proj2 Hr i P)).
  split; [|eapply supp_has; eauto].
  destruct Hh as (k & v & (p & q & _ & _ & _ & ? & ? & Hj & _)). apply wf_cmat_facts in Hwf. destruct Hwf as []. unfold csr_cols. eauto.
Qed.

Lemma cg_choice_ok ord gamma eps X0 y s p n P N : set_order ord -> wf_cmat (csr_mat X0) = true -> binary (csr_mat X0) ->
  rows_of X0 (gc_rows (gh_c s)) -> ok_state (GHSpec true gamma eps (gc_rows (gh_c s)) y) (csr_cols X0) s ->
  0 <= p -> gc_rows (gh_c s) !! Z.to_nat p = Some P -> gc_rows (gh_c s) !! Z.to_nat n = Some N -> P ∖ N <> ∅ ->
  exists T, gh_choice ord true gamma eps s (P ∖ N) = Ok T /\ greedy_result ord (GHSpec true gamma eps (gc_rows (gh_c s)) y) (P ∖ N) T.
Proof.
  intros Hord Hwf Hb Hr Hs Hp EP EN Hne. apply (choice_ok ord _ (csr_cols X0) s _ Hord Hs); [..|done].
  - intros a Ha. by eapply diff_ok.
  - intros _ a Ha. cbn. by eapply diff_ok.
Qed.

Lemma cg_outcomes_gen (N : nat) (HN : horizon 1024 (Z.of_nat N)) : forall (ord : gset Z -> list Z) (gamma eps : Qc)
    (cache : option ghcache) (X0 X : csr) (y : list Z),
  set_order ord -> wf_cmat (csr_mat X0) = true -> binary (csr_mat X0) -> first_matrix ord cache X X0 ->
  csr_rows X = csr_rows X0 -> zlen y = csr_rows X0 -> py_set y = {[ 0; 1 ]} ->
  exists s rows, cg_fit ord cache X y = Ok s /\ rows_of X0 rows /\
    let sp := GHSpec true gamma eps rows y in
    let total := pairs_total n_extra rows y in
    let q := (IZR total / IZR (pos_size rows y * n_neg y))%R in
    (forall o, rcan (cg_sample_once ord gamma eps s) o -> o = Ok None \/
       exists p n P N T, is_pos y p /\ is_neg y n /\ rows !! Z.to_nat p = Some P /\ rows !! Z.to_nat n = Some N /\
         o = Ok (Some T) /\ greedy_result ord sp (P ∖ N) T) /\
    (total = 0 -> forall o, rcan (cg_sample_once ord gamma eps s) o -> o = Ok None) /\
    (0 < total -> (0 < q <= 1)%R /\
       hprob (cg_sample_once ord gamma eps s) (Ok None) ((1 - q) ^ N) /\
       exists pick : gset Z -> gset Z, (forall P N, P ∈ rows -> N ∈ rows -> P ∖ N <> ∅ -> greedy_result ord sp (P ∖ N) (pick (P ∖ N))) /\
         forall T, hprob (cg_sample_once ord gamma eps s) (Ok (Some T))
           (IZR (pairs_total (fun P N => if decide (pick (P ∖ N) = T) then n_extra P N else 0) rows y) / IZR total * (1 - (1 - q) ^ N))).
Proof.
  intros ord gamma eps cache X0 X y Hord Hwf Hb Hfm Hrows Hy Hy01.
  destruct (cg_fit_ok ord gamma eps cache X0 X y Hord Hwf Hb Hfm Hrows Hy Hy01) as (s & Wd & Efit & Hr & Hl & Hs & HW & Hdom & Ei).
  set (rows := gc_rows (gh_c (cg_h s))) in *. exists s, rows. split; [done|]. split; [done|]. intros sp total q.
  assert (Hrset : forall i, 0 <= i < zlen rows -> rows !! Z.to_nat i = Some (rset rows i)).
  { intros i Hi. unfold rset. destruct (lookup_lt_is_Some_2 rows (Z.to_nat i)) as [F EF]; [unfold zlen in Hi; lia|]. by rewrite EF. }
  assert (Hch : forall p n, p ∈ pos_indices y -> n ∈ neg_indices y -> 0 < gw rows p n -> exists T,
     gh_choice ord true gamma eps (cg_h s) (rset rows p ∖ rset rows n) = Ok T /\ greedy_result ord sp (rset rows p ∖ rset rows n) T).
  { intros p n Hp Hn Hw. pose proof (pos_range' rows y p Hl Hp) as Hp'. pose proof (neg_range' rows y n Hl Hn) as Hn'.
    apply (cg_choice_ok ord gamma eps X0 y (cg_h s) p n); [done..|lia|by apply Hrset|by apply Hrset|].
    intros E0. unfold gw in Hw. rewrite E0, size_empty in Hw. lia. }
  assert (Hcan : forall o, rcan (cg_sample_once ord gamma eps s) o -> o = Ok None \/
     exists p n T, p ∈ pos_indices y /\ n ∈ neg_indices y /\ 0 < gw rows p n /\ o = Ok (Some T) /\ greedy_result ord sp (rset rows p ∖ rset rows n) T).
  { intros o H. unfold cg_sample_once, cg_sample_pair in H. apply rcan_bind in H as [(r & Hr' & H)|(e & He & ->)].
    - apply rcan_bind in Hr' as [(r' & Hr' & H')|(e & _ & ?)]; [|done].
      apply (C32_usable_pair_proof _ _ _ _ _ _ _ _ _ Hdom Ei) in Hr' as [[= ->]|(p & n & [= ->] & Hp & Hn & Hw)]; cbn in H'; injection H' as ->.
      + cbn in H. by left.
      + right. fold rows in H. rewrite (rset_ok rows p (pos_range' rows y p Hl Hp)), (rset_ok rows n (neg_range' rows y n Hl Hn)) in H. cbn [rlift rrbind] in H.
        destruct (Hch p n Hp Hn Hw) as (T & ET & HT). rewrite ET in H. cbn in H. exists p, n, T. done.
    - apply rcan_bind in He as [(r' & Hr' & H')|(e' & He & _)].
      + apply (C32_usable_pair_proof _ _ _ _ _ _ _ _ _ Hdom Ei) in Hr' as [[= ->]|(p & n & [= ->] & Hp & Hn & Hw)]; done.
      + apply (C32_usable_pair_proof _ _ _ _ _ _ _ _ _ Hdom Ei) in He as [?|(p & n & ? & _)]; done. }
  assert (Htot : total = SCftp.total_weight (gw rows) (pos_indices y) (neg_indices y)) by (by apply pair_sum_eq).
  assert (Hgw0 : forall p n, 0 <= gw rows p n) by (intros; unfold gw; lia).
  assert (Htp : forall p n, p ∈ pos_indices y -> n ∈ neg_indices y -> 0 < gw rows p n -> total <> 0).
  { intros p n Hp Hn Hw Hz. rewrite Htot in Hz. apply (f_equal IZR) in Hz. unfold SCftp.total_weight in Hz. rewrite <- rsum_IZR in Hz.
    apply (rsum_zero_iff _ _ p) in Hz; [| |done].
    2:{ intros. rewrite <- rsum_IZR. apply rsum_nonneg. intros. by apply (IZR_le 0). }
    cbn beta in Hz. rewrite <- rsum_IZR in Hz. apply (rsum_zero_iff _ _ n) in Hz; [|intros; by apply (IZR_le 0)|done]. apply (eq_IZR _ 0) in Hz. lia. }
  split_and!.
  - intros o Ho. apply Hcan in Ho as [->|(p & n & T & Hp & Hn & _ & -> & HT)]; [by left|]. right.
    exists p, n, (rset rows p), (rset rows n), T. split_and!; [by apply elem_of_pos|by apply elem_of_neg|apply Hrset; by apply (pos_range' rows y)|apply Hrset; by apply (neg_range' rows y)|done|done].
  - intros Hz o Ho. apply Hcan in Ho as [->|(p & n & T & Hp & Hn & Hw & _)]; [done|]. exfalso. by apply (Htp p n).
  - intros Ht.
    assert (Hposs : exists p n, p ∈ pos_indices y /\ n ∈ neg_indices y /\ 0 < gw rows p n).
    { destruct (decide (Exists (fun p => Exists (fun n => 0 < gw rows p n) (neg_indices y)) (pos_indices y))) as [He|He].
      - apply list.Exists_exists in He as (p & Hp & He'). apply list.Exists_exists in He' as (n & Hn & Hpn). eauto.
      - exfalso. assert (total = 0); [|lia]. apply eq_IZR. rewrite Htot. unfold SCftp.total_weight. rewrite <- rsum_IZR. apply rsum_zero. intros p Hp. rewrite <- rsum_IZR. apply rsum_zero. intros n Hn.
        pose proof (Hgw0 p n). assert (E : gw rows p n = 0); [|by rewrite E]. destruct (Z.eq_dec (gw rows p n) 0); [done|]. exfalso. apply He.
        apply list.Exists_exists. exists p. split; [done|]. apply list.Exists_exists. exists n. split; [done|]. lia. }
    destruct (mass_pos_gen _ _ _ _ _ Hdom Hposs) as [Hsp Hsn].
    pose proof (gproposal_mass rows y _ Hl HW) as Hpm.
    assert (Hq : q = accept_mass Wd Wd (pos_indices y) (neg_indices y) (gw rows)).
    { unfold q, accept_mass. by rewrite <- Htot, Hpm. }
    destruct (C34_exact_proof _ _ _ _ _ _ _ 10 _ Hdom Ei (NoDup_sel (fun v => 0 <? v) _) (NoDup_sel (fun v => v =? 0) _) Hsp Hsn ltac:(lia) ltac:(done)) as (Hq01 & _ & _).
    rewrite <- Hq in Hq01.
    assert (Ht' : (0 < IZR total)%R) by (by apply (IZR_lt 0)).
    assert (Hqpos : (0 < q)%R).
    { unfold q. apply Rdiv_lt_0_compat; [done|]. rewrite <- Hpm. by apply Rmult_lt_0_compat. }
    split; [lra|].
    assert (HE : forall F, hexpect F (cftp_draw (cg_cftp s) false) ((1 - q) ^ N * F (Ok (RetPair None)) +
        S2 (pos_indices y) (neg_indices y) (fun c => (1 - (1 - q) ^ N) * (W (gw rows) c / IZR total) * F (Ok (RetPair (Some c)))))%R).
    { intros F. pose proof (draw_expect _ _ _ _ _ _ _ _ Hdom Ei Hsp Hsn (Z.of_nat N) F HN) as E.
      unfold Law in E. rewrite Nat2Z.id in E. rewrite acc_mass, total_S2, <- Hq, <- Htot in E. exact E. }
    set (A := ((1 - (1 - q) ^ N))%R) in *.
    set (pick := fun U : gset Z => match gh_choice ord true gamma eps (cg_h s) U with Ok T => T | Err _ => ∅ end).
    assert (Hgen : forall f : result (option (gset Z)) -> R, hexpect f (cg_sample_once ord gamma eps s) ((1 - q) ^ N * f (Ok None) +
        S2 (pos_indices y) (neg_indices y) (fun c => A * (W (gw rows) c / IZR total) * f (Ok (Some (pick (rset rows c.1 ∖ rset rows c.2))))))%R).
    { intros f. set (F' := fun o : result (option (Z * Z)) => match o with
         | Ok None => f (Ok None)
         | Ok (Some c) => f (Ok (Some (pick (rset rows c.1 ∖ rset rows c.2))))
         | Err e => f (Err e) end).
      set (F := fun o : result sample_ret => match o with
         | Ok (RetPair D) => F' (Ok D)
         | Ok (RetDetails _ _) => 0%R | Err e => F' (Err e) end).
      assert (Hpair : forall D, rcan (cg_sample_pair s) (Ok D) -> D = None \/ exists p n, D = Some (p, n) /\ p ∈ pos_indices y /\ n ∈ neg_indices y /\ 0 < gw rows p n).
      { intros D HD. unfold cg_sample_pair in HD. apply rcan_bind in HD as [(r' & Hr' & H')|(e & _ & ?)]; [|done].
        apply (C32_usable_pair_proof _ _ _ _ _ _ _ _ _ Hdom Ei) in Hr' as [[= ->]|(p & n & [= ->] & Hp & Hn & Hw)]; cbn in H'; injection H' as ->; [by left|]. right. eauto 10. }
      unfold cg_sample_once. apply (hbind _ _ _ F').
      - unfold cg_sample_pair. apply (hbind _ _ _ F); [apply (HE F)| |done].
        intros r Hr'. apply (C32_usable_pair_proof _ _ _ _ _ _ _ _ _ Hdom Ei) in Hr' as [[= ->]|(p & n & [= ->] & _)]; constructor.
      - intros D HD. apply Hpair in HD as [->|(p & n & -> & Hp & Hn & Hw)]; [constructor|].
        fold rows. rewrite (rset_ok rows p (pos_range' rows y p Hl Hp)), (rset_ok rows n (neg_range' rows y n Hl Hn)). cbn [rlift rrbind F' fst snd].
        destruct (Hch p n Hp Hn Hw) as (T & ET & HT). unfold pick. rewrite ET. cbn [rlift rrbind]. constructor.
      - done. }
    split.
    + pose proof (Hgen (fun o => if decide (o = Ok None) then 1 else 0)%R) as H. unfold hprob.
      rewrite (S2_ext _ _ _ (fun _ => 0 * 0)%R) in H; [rewrite S2_scal in H; rewrite decide_True in H by done; replace ((1 - q) ^ N)%R with ((1 - q) ^ N * 1 + 0 * S2 (pos_indices y) (neg_indices y) (fun _ => 0))%R by ring; exact H|].
      intros c _. cbn beta. rewrite decide_False by done. ring.
    + exists pick. split.
      * intros P M HP HM Hne. apply elem_of_list_lookup in HP as [p EP], HM as [n EN]. unfold pick.
        destruct (cg_choice_ok ord gamma eps X0 y (cg_h s) (Z.of_nat p) (Z.of_nat n) P M) as (T & ET & HT); [done..|lia| | |done|].
        -- by rewrite Nat2Z.id.
        -- by rewrite Nat2Z.id.
        -- by rewrite ET.
      * intros T. pose proof (Hgen (fun o => if decide (o = Ok (Some T)) then 1 else 0)%R) as H. unfold hprob.
        cbn beta in H. rewrite (decide_False (P := Ok None = Ok (Some T))), Rmult_0_r, Rplus_0_l in H by done.
        rewrite pair_sum_eq by done. rewrite <- total_S2.
        match goal with |- hexpect _ _ ?v => match type of H with hexpect _ _ ?v' => replace v with v'; [exact H|] end end.
        unfold Zt. rewrite (S2_ext _ _ _ (fun c => A / IZR total * W (fun p n => if decide (pick (rset rows p ∖ rset rows n) = T) then n_extra (rset rows p) (rset rows n) else 0%Z) c)%R).
        -- rewrite S2_scal. field. lra.
        -- intros [p n] _. unfold W. cbn [fst snd]. change (gw rows p n) with (n_extra (rset rows p) (rset rows n)).
           destruct (decide (pick (rset rows p ∖ rset rows n) = T)) as [->|Hne]; [rewrite decide_True by done|rewrite decide_False by congruence]; unfold Rdiv; ring.
Qed.

Lemma C59_cftp_proof : forall (ord : gset Z -> list Z) (gamma eps : Qc) (cache : option ghcache) (X0 X : csr) (y : list Z),
  set_order ord -> wf_cmat (csr_mat X0) = true -> binary (csr_mat X0) -> first_matrix ord cache X X0 ->
  csr_rows X = csr_rows X0 -> zlen y = csr_rows X0 -> py_set y = {[ 0; 1 ]} ->
  exists s rows, cg_fit ord cache X y = Ok s /\ rows_of X0 rows /\
    let sp := GHSpec true gamma eps rows y in
    let total := pairs_total n_extra rows y in
    let q := (IZR total / IZR (pos_size rows y * n_neg y))%R in
    (forall o, rcan (cg_sample_once ord gamma eps s) o -> o = Ok None \/
       exists p n P N T, is_pos y p /\ is_neg y n /\ rows !! Z.to_nat p = Some P /\ rows !! Z.to_nat n = Some N /\
         o = Ok (Some T) /\ greedy_result ord sp (P ∖ N) T) /\
    (total = 0 -> forall o, rcan (cg_sample_once ord gamma eps s) o -> o = Ok None) /\
    (0 < total -> (0 < q <= 1)%R /\
       hprob (cg_sample_once ord gamma eps s) (Ok None) ((1 - q) ^ 1024) /\
       exists pick : gset Z -> gset Z, (forall P N, P ∈ rows -> N ∈ rows -> P ∖ N <> ∅ -> greedy_result ord sp (P ∖ N) (pick (P ∖ N))) /\
         forall T, hprob (cg_sample_once ord gamma eps s) (Ok (Some T))
           (IZR (pairs_total (fun P N => if decide (pick (P ∖ N) = T) then n_extra P N else 0) rows y) / IZR total * (1 - (1 - q) ^ 1024))).
Proof.
  apply cg_outcomes_gen. right. exists 10. split; [lia|]. split; [vm_compute; reflexivity|lia].
Qed.
