(** Lemmas about the model of the greedy classifiers. *)
From Coq Require Import Reals Lra.
From Verif.Model Require Import PyBase PyReal Sparse Utils Rule GreedyBase PyState Greedy.
From Verif.Spec Require Import SMatrix SRule SGreedy.
From Verif.Proofs Require Import PBase PSparse PUtils PRule PSets PRuleMetric PGreedyBase T_Rule T_GreedyBase.
Open Scope Z_scope.

Lemma tocsc_cols (Y : csr) : wf_cmat (csr_mat Y) = true -> csc_cols (tocsc Y) = csr_cols Y.
Proof.
  intros Hwf. apply wf_cmat_facts in Hwf as []. unfold csc_cols, tocsc, csr_cols. cbn [csc_mat].
  unfold flip_cmat, of_lines. cbn [n_major]. unfold transpose_lines. rewrite zlen_map.
  by apply zlen_py_range.
Qed.

(** ** Equality of rules *)
Lemma rule_eqb_eq a b : rule_eqb a b = true <-> a = b.
Proof.
  unfold rule_eqb. rewrite andb_true_iff, !bool_decide_eq_true. destruct a, b; simpl. naive_solver.
Qed.

Lemma rule_mem_spec r rules : rule_mem r rules = true <-> r ∈ map b_rule rules.
Proof.
  unfold rule_mem. rewrite existsb_exists. rewrite elem_of_map. split.
  - intros (b & Hin & E). apply rule_eqb_eq in E. exists b. split; [done|]. by apply elem_of_list_In.
  - intros (b & E & Hin). exists b. split; [by apply elem_of_list_In|]. by apply rule_eqb_eq.
Qed.

Lemma rule_mem_false r rules : rule_mem r rules = false <-> r ∉ map b_rule rules.
Proof. rewrite <- rule_mem_spec. destruct (rule_mem r rules); naive_solver. Qed.

Lemma bind_rule ord r X Y b : bind_dataset ord r X Y = Ok b -> b_rule b = r.
Proof.
  unfold bind_dataset. intros H.
  apply rbind_ok in H as (? & _ & H). apply rbind_ok in H as (tv & _ & H).
  apply rbind_ok in H as (hv & _ & H).
  destruct (set_len (binary_vector_to_set hv) =? 0); [done|].
  apply rbind_ok in H as (? & _ & H). injection H as <-. done.
Qed.

(** ** max *)
Lemma py_max_spec {A} (key : A -> result R) (f : A -> R) (l : list A) :
  (forall x, x ∈ l -> key x = Ok (f x)) -> l <> [] ->
  exists l1 b l2, py_max key l = Ok b /\ l = l1 ++ b :: l2 /\
    (forall x, x ∈ l1 -> (f x < f b)%R) /\ (forall x, x ∈ l2 -> (f x <= f b)%R).
Proof.
  destruct l as [|x l]; [done|]. intros Hk _. unfold py_max. rewrite (Hk x) by set_solver. simpl.
  assert (forall l b, (forall y, y ∈ l -> key y = Ok (f y)) ->
    exists l1 b' l2, rfold (fun bk y => let! k' := key y in Ok (if Rltb (snd bk) k' then (y, k') else bk))
        (b, f b) l = Ok (b', f b') /\ b :: l = l1 ++ b' :: l2 /\
      (forall x, x ∈ l1 -> (f x < f b')%R) /\ (forall x, x ∈ l2 -> (f x <= f b')%R)) as IHl.
  { clear. induction l as [|y l IH]; intros b Hk.
    - exists [], b, []. split; [done|]. split; [done|]. split; intros z Hz; inversion Hz.
    - cbn [rfold]. rewrite (Hk y) by set_solver. simpl. unfold Rltb.
      destruct (Rlt_dec (f b) (f y)) as [L|L].
      + destruct (IH y) as (l1 & b' & l2 & E & El & H1 & H2); [intros z Hz; apply Hk; set_solver|].
        exists (b :: l1), b', l2. split; [done|]. split; [simpl; by rewrite El|].
        split; [|done]. intros z Hz. apply elem_of_cons in Hz as [Hz|Hz]; [|auto]. subst z.
        assert (f y <= f b')%R; [|lra].
        destruct l1 as [|z l1]; simplify_eq/=; [lra|].
        left. apply H1. set_solver.
      + destruct (IH b) as (l1 & b' & l2 & E & El & H1 & H2); [intros z Hz; apply Hk; set_solver|].
        destruct l1 as [|z l1]; simplify_eq/=.
        * exists [], b', (y :: l2). split; [done|]. split; [done|]. split; [intros z Hz; inversion Hz|].
          intros z Hz. apply elem_of_cons in Hz as [Hz|Hz]; [subst z; lra|auto].
        * exists (z :: y :: l1), b', l2. split; [done|]. split; [done|]. split; [|done].
          intros u Hu. rewrite !elem_of_cons in Hu. destruct Hu as [Hu|[Hu|Hu]].
          -- apply H1. set_solver.
          -- subst u. assert (f z < f b')%R by (apply H1; set_solver). lra.
          -- apply H1. set_solver. }
  destruct (IHl l x) as (l1 & b' & l2 & E & El & H1 & H2); [intros y Hy; apply Hk; set_solver|].
  exists l1, b', l2. rewrite E. split; [done|]. split; [done|]. split; done.
Qed.

Lemma py_max_mem {A} (key : A -> result R) (l : list A) b :
  py_max key l = Ok b -> b ∈ l /\ exists f : A -> R, (forall x, x ∈ l -> key x = Ok (f x)).
Proof.
  destruct l as [|x l]; [done|]. unfold py_max. intros H.
  apply rbind_ok in H as (k & Hk & H). apply rbind_ok in H as ([b' kb] & H & E). injection E as <-.
  assert (forall l bk bk', rfold (fun bk y => let! k' := key y in Ok (if Rltb (snd bk) k' then (y, k') else bk))
      bk l = Ok bk' -> (bk' = bk \/ fst bk' ∈ l) /\ forall y, y ∈ l -> exists v, key y = Ok v) as G.
  { clear. induction l as [|y l IH]; intros bk bk' H.
    - injection H as <-. split; [by left|]. intros y Hy. inversion Hy.
    - cbn [rfold] in H. apply rbind_ok in H as (bk1 & H1 & H2).
      apply rbind_ok in H1 as (k' & Hk' & E). injection E as <-.
      apply IH in H2 as [Hm Hok]. split.
      + destruct Hm as [->|Hm]; [|right; set_solver].
        destruct (Rltb _ _); [right; simpl; set_solver|by left].
      + intros z Hz. apply elem_of_cons in Hz as [->|Hz]; [eauto|auto]. }
  apply G in H as [Hm Hok]. split.
  - destruct Hm as [E|Hm]; [injection E as -> ->; simpl; set_solver|set_solver].
  - exists (fun y => match key y with Ok v => v | Err _ => 0%R end).
    intros y Hy. apply elem_of_cons in Hy as [->|Hy].
    + rewrite Hk. done.
    + destruct (Hok y Hy) as [v Hv]. rewrite Hv. done.
Qed.

(** ** Candidate generation *)
Lemma add_candidate_ok ord X Y tail rules h rules' :
  add_candidate ord X Y tail rules h = Ok rules' ->
  exists head, h = Some head /\
    ((rules' = rules /\ new_rule (ord head) (ord tail) ∈ map b_rule rules) \/
     exists b, rules' = rules ++ [b] /\ new_rule (ord head) (ord tail) ∉ map b_rule rules /\
       bind_dataset ord (new_rule (ord head) (ord tail)) (tocsc X) (tocsc Y) = Ok b).
Proof.
  destruct h as [head|]; [|done]. cbn [add_candidate]. intros H. exists head. split; [done|].
  destruct (rule_mem _ rules) eqn:E.
  - left. injection H as <-. split; [done|]. by apply rule_mem_spec.
  - right. apply rbind_ok in H as (b & Hb & H). injection H as <-. exists b. split; [done|].
    split; [by apply rule_mem_false|done].
Qed.

(** Invariant of a rule list under construction. *)
Definition built (ord : gset Z -> list Z) (X Y : csr) (rules : list bound) : Prop :=
  NoDup (map b_rule rules) /\
  forall b, b ∈ rules -> bind_dataset ord (b_rule b) (tocsc X) (tocsc Y) = Ok b.

Lemma add_heads_ok ord X Y tail heads rules rules' :
  rfold (add_candidate ord X Y tail) rules heads = Ok rules' ->
  built ord X Y rules ->
  built ord X Y rules' /\ (length rules' <= length rules + length heads)%nat /\
  Forall is_Some heads /\
  forall r, r ∈ map b_rule rules' <-> r ∈ map b_rule rules \/
     exists head, Some head ∈ heads /\ r = new_rule (ord head) (ord tail).
Proof.
  revert rules. induction heads as [|h heads IH]; intros rules H Hb.
  - injection H as <-. split; [done|]. split; [simpl; lia|]. split; [constructor|].
    intros r. split; [by left|]. intros [Hr|(head & Hin & _)]; [done|inversion Hin].
  - cbn [rfold] in H. apply rbind_ok in H as (rs & H1 & H2).
    apply add_candidate_ok in H1 as (head & -> & Hc).
    assert (built ord X Y rs /\ (length rs <= length rules + 1)%nat /\
      forall r, r ∈ map b_rule rs <-> r ∈ map b_rule rules \/ r = new_rule (ord head) (ord tail))
      as (Hrs & Hlen & Hin).
    { destruct Hc as [[-> Hm]|(b & -> & Hm & Hbd)].
      - split; [done|]. split; [lia|]. intros r. split; [by left|]. intros [Hr| ->]; done.
      - assert (b_rule b = new_rule (ord head) (ord tail)) as Er by (eapply bind_rule; eauto).
        split; [|split].
        + split.
          * rewrite map_app. simpl. rewrite Er. apply NoDup_app. split; [apply Hb|].
            split; [|apply NoDup_singleton]. intros r Hr Hr'.
            apply elem_of_list_singleton in Hr'. subst r. done.
          * intros b' Hb'. apply elem_of_app in Hb' as [Hb'|Hb']; [by apply Hb|].
            apply elem_of_list_singleton in Hb'. subst b'. rewrite Er. done.
        + rewrite app_length. simpl. lia.
        + intros r. rewrite map_app, elem_of_app. simpl. rewrite elem_of_list_singleton, Er. done. }
    destruct (IH rs H2 Hrs) as (Hb' & Hl & Hs & Hm). split; [done|]. split; [simpl; lia|].
    split; [constructor; [eauto|done]|]. intros r. rewrite Hm, Hin. split.
    + intros [[Hr| ->]|(hd & Hh & ->)]; [by left|right..].
      * exists head. split; [set_solver|done].
      * exists hd. split; [set_solver|done].
    + intros [Hr|(hd & Hh & ->)]; [by left; left|].
      apply elem_of_cons in Hh as [Hh|Hh]; [injection Hh as ->; left; by right|].
      right. eauto.
Qed.

Lemma sbind_ok {S A B} (m : sx S A) (f : A -> sx S B) s b s' :
  sbind m f s = (Ok b, s') <-> exists a s1, m s = (Ok a, s1) /\ f a s1 = (Ok b, s').
Proof.
  unfold sbind. destruct (m s) as [[a|e] s1].
  - split; [eauto|]. intros (a' & s2 & E & H). by simplify_eq.
  - split; [done|]. intros (a' & s2 & E & H). done.
Qed.

Lemma sbind_err {S A B} (m : sx S A) (f : A -> sx S B) s e s' :
  sbind m f s = (Err e, s') <-> m s = (Err e, s') \/ exists a s1, m s = (Ok a, s1) /\ f a s1 = (Err e, s').
Proof.
  unfold sbind. destruct (m s) as [[a|e'] s1].
  - split; [eauto|]. intros [E|(a' & s2 & E & H)]; by simplify_eq.
  - split; [intros E; simplify_eq; by left|]. intros [E|(a' & s2 & E & H)]; by simplify_eq.
Qed.

Lemma slift_ok {S A} (r : result A) (s s' : S) x : slift r s = (x, s') <-> r = x /\ s = s'.
Proof. unfold slift. naive_solver. Qed.

Lemma generate_loop_ok {W} (S : samplers W) ord X Y nh n rules w rules' w' :
  set_order ord -> wf_cmat (csr_mat Y) = true ->
  generate_loop S ord X Y nh n rules w = (Ok rules', w') -> built ord X Y rules ->
  exists ds, draws_from S X Y nh n w ds w' /\
    built ord X Y rules' /\
    (forall k, (forall th, th ∈ ds -> (length (snd th) <= k)%nat) ->
       (length rules' <= length rules + n * k)%nat) /\
    (forall th, th ∈ ds -> Forall is_Some (snd th)) /\
    (forall r, r ∈ map b_rule rules' <-> r ∈ map b_rule rules \/
       exists tail heads head, (tail, heads) ∈ ds /\ Some head ∈ heads /\ r = new_rule (ord head) (ord tail)).
Proof.
  intros Hord Hwf. revert rules w. induction n as [|n IH]; intros rules w H Hb.
  - cbn [generate_loop] in H. unfold sret in H. simplify_eq. exists []. split; [constructor|]. split; [done|].
    split; [intros k _; lia|]. split; [intros th Hth; inversion Hth|].
    intros r. split; [by left|]. intros [Hr|(? & ? & ? & Hin & _)]; [done|inversion Hin].
  - cbn [generate_loop] in H.
    apply sbind_ok in H as (tail & w1 & Ht & H). apply sbind_ok in H as (y & w1' & Hy & H).
    apply slift_ok in Hy as [Hy <-].
    apply sbind_ok in H as ([] & w2 & Hf & H). apply sbind_ok in H as (heads & w3 & Hh & H).
    apply sbind_ok in H as (rs & w3' & Hr & H). apply slift_ok in Hr as [Hr <-].
    destruct (add_heads_ok _ _ _ _ _ _ _ Hr Hb) as (Hb' & Hl & Hs & Hm).
    destruct (IH rs w3 H Hb') as (ds & Hd & Hb2 & Hk & Hs2 & Hm2).
    exists ((tail, heads) :: ds). split; [|split; [done|split; [|split]]].
    + econstructor; try done. intros Hne Hval.
      destruct (conj_v2_ok ord (tocsc Y) (ord tail)) as (v & Ev & Hv).
      * done.
      * by apply flip_wf.
      * intros E. apply Hne. apply set_eq. intros x. rewrite <- (set_order_elem ord) by done. rewrite E.
        set_solver.
      * intros c Hc. apply (set_order_elem ord tail c Hord) in Hc. apply Hval in Hc.
        rewrite tocsc_cols; done.
      * rewrite Hy in Ev. injection Ev as ->. destruct Hv as [Hlv Hv]. split.
        -- rewrite Hlv. done.
        -- intros i Hi. rewrite (Hv i) by done. unfold row_matches. setoid_rewrite (set_order_elem ord tail _ Hord).
           setoid_rewrite tocsc_has; [|done]. naive_solver.
    + intros k Hkk. specialize (Hk k). assert (length heads <= k)%nat by (apply (Hkk (tail, heads)); set_solver).
      assert (length rules' <= length rs + n * k)%nat by (apply Hk; intros th Hth; apply Hkk; set_solver). lia.
    + intros th Hth. apply elem_of_cons in Hth as [->|Hth]; [done|]. by apply Hs2.
    + intros r. rewrite Hm2, Hm. split.
      * intros [[Hr'|(head & Hin & ->)]|(t & hs & head & Hin & Hi2 & ->)]; [by left|right..].
        -- exists tail, heads, head. split; [set_solver|done].
        -- exists t, hs, head. split; [set_solver|done].
      * intros [Hr'|(t & hs & head & Hin & Hi2 & ->)]; [by left; left|].
        apply elem_of_cons in Hin as [E|Hin]; [simplify_eq; left; right; eauto|]. right. eauto 10.
Qed.

(** ** One round of fitting *)
Definition pick {W} (S : samplers W) (cls : greedy_class) (Y : csr) (g : gs W) (cands : list bound)
    : result (bound * bool) :=
  let! best := select_best_candidate cls (p_lambd (g_params g)) (g_rules g) (rule_iter S (g_world g) cands) in
  let! _ := log_choice (g_rules g) best in
  let! stop := should_stop cls (g_params g) Y (g_rules g) best in
  Ok (best, stop).

Inductive round_out {W} (S : samplers W) (cls : greedy_class) (ord : gset Z -> list Z) (X Y : csr) (g : gs W)
    : result bool -> gs W -> Prop :=
| RO_exhausted w :
    generate_candidate_rules S ord (g_params g) X Y (g_world g) = (Err NoMoreSamples, w) ->
    round_out S cls ord X Y g (Ok true) (with_world w (tick g))
| RO_gen_err e w :
    generate_candidate_rules S ord (g_params g) X Y (g_world g) = (Err e, w) -> e <> NoMoreSamples ->
    round_out S cls ord X Y g (Err e) (with_world w (tick g))
| RO_err c w g1 e :
    generate_candidate_rules S ord (g_params g) X Y (g_world g) = (Ok c, w) ->
    g1 = keep_candidates cls c (with_world w (tick g)) ->
    pick S cls Y g1 c = Err e -> round_out S cls ord X Y g (Err e) g1
| RO_stop c w g1 best :
    generate_candidate_rules S ord (g_params g) X Y (g_world g) = (Ok c, w) ->
    g1 = keep_candidates cls c (with_world w (tick g)) ->
    pick S cls Y g1 c = Ok (best, true) -> round_out S cls ord X Y g (Ok true) g1
| RO_add_err c w g1 best e w2 :
    generate_candidate_rules S ord (g_params g) X Y (g_world g) = (Ok c, w) ->
    g1 = keep_candidates cls c (with_world w (tick g)) ->
    pick S cls Y g1 c = Ok (best, false) ->
    tail_update S (b_support best) (py_set (r_tail (b_rule best))) w = (Err e, w2) ->
    round_out S cls ord X Y g (Err e) (with_world w2 g1)
| RO_add c w g1 best w2 :
    generate_candidate_rules S ord (g_params g) X Y (g_world g) = (Ok c, w) ->
    g1 = keep_candidates cls c (with_world w (tick g)) ->
    pick S cls Y g1 c = Ok (best, false) ->
    tail_update S (b_support best) (py_set (r_tail (b_rule best))) w = (Ok tt, w2) ->
    round_out S cls ord X Y g (Ok false) (with_rules (g_rules g ++ [Bound best]) (with_world w2 g1)).

Lemma keep_est {W} cls c (g : gs W) : g_est (keep_candidates cls c g) = g_est g.
Proof. unfold keep_candidates. destruct (keeps_candidates cls); done. Qed.
Lemma keep_rules {W} cls c (g : gs W) : g_rules (keep_candidates cls c g) = g_rules g.
Proof. unfold g_rules. by rewrite keep_est. Qed.
Lemma keep_params {W} cls c (g : gs W) : g_params (keep_candidates cls c g) = g_params g.
Proof. unfold g_params. by rewrite keep_est. Qed.
Lemma keep_world {W} cls c (g : gs W) : g_world (keep_candidates cls c g) = g_world g.
Proof. unfold keep_candidates. destruct (keeps_candidates cls); done. Qed.
Lemma keep_rounds {W} cls c (g : gs W) : g_rounds (keep_candidates cls c g) = g_rounds g.
Proof. unfold keep_candidates. destruct (keeps_candidates cls); done. Qed.

Lemma fit_round_out {W} (S : samplers W) cls ord X Y (g : gs W) r g' :
  fit_round S cls ord X Y g = (r, g') -> round_out S cls ord X Y g r g'.
Proof.
  unfold fit_round, add_rule, scatch, on_world, sbind, sget, smod, slift, sret, g_rules.
  cbv beta iota zeta. change (g_world (tick g)) with (g_world g).
  destruct (generate_candidate_rules S ord (g_params g) X Y (g_world g)) as [[c|e] w] eqn:G.
  - intros H.
    set (g1 := keep_candidates cls c (with_world w (tick g))) in *.
    assert (g_params g1 = g_params g) as Ep by (unfold g1; by rewrite keep_params).
    assert (g_rules g1 = g_rules g) as Er by (unfold g1; by rewrite keep_rules).
    assert (g_world g1 = w) as Ew by (unfold g1; by rewrite keep_world).
    cbv beta iota zeta in H. fold (g_rules g1) in H.
    destruct (select_best_candidate cls (p_lambd (g_params g)) (g_rules g1) (rule_iter S (g_world g1) c))
      as [best|e] eqn:E1.
    2: { simplify_eq. eapply RO_err; try done. unfold pick. rewrite Ep, E1. done. }
    destruct (log_choice (g_rules g1) best) as [[]|e] eqn:E2.
    2: { simplify_eq. eapply RO_err; try done. unfold pick. rewrite Ep, E1. simpl. rewrite E2. done. }
    destruct (should_stop cls (g_params g) Y (g_rules g1) best) as [[]|e] eqn:E3.
    + simplify_eq. eapply RO_stop; try done. unfold pick. rewrite Ep, E1. simpl.
      rewrite E2. simpl. rewrite E3. done.
    + rewrite Ew in H.
      assert (pick S cls Y g1 c = Ok (best, false)) as Hp.
      { unfold pick. rewrite Ep, E1. simpl. rewrite E2. simpl. rewrite E3. done. }
      destruct (tail_update S (b_support best) (py_set (r_tail (b_rule best))) w) as [[[]|e] w2] eqn:E4.
      * simplify_eq.
        change (e_rules (g_est (with_world w2 g1))) with (g_rules g1). rewrite Er. eapply RO_add; done.
      * simplify_eq. eapply RO_add_err; done.
    + simplify_eq. eapply RO_err; try done. unfold pick. rewrite Ep, E1. simpl. rewrite E2. simpl.
      rewrite E3. done.
  - destruct (decide (e = NoMoreSamples)) as [->|Hne].
    + intros H. simplify_eq. by apply RO_exhausted.
    + intros H. simplify_eq. by apply RO_gen_err.
Qed.

(** ** Which exceptions the building blocks raise *)
Definition errs {A} (P : exn -> Prop) (r : result A) : Prop := forall e, r = Err e -> P e.

Lemma errs_ok {A} P (a : A) : errs P (Ok a).
Proof. intros e H. done. Qed.
Lemma errs_err {A} (P : exn -> Prop) e : P e -> errs P (@Err A e).
Proof. intros H e' [= ->]. done. Qed.
Lemma errs_bind {A B} P (r : result A) (f : A -> result B) :
  errs P r -> (forall a, r = Ok a -> errs P (f a)) -> errs P (rbind r f).
Proof. intros Hr Hf e. destruct r as [a|e']; simpl; [by apply Hf|]. intros [= ->]. by apply Hr. Qed.
Lemma errs_impl {A} (P Q : exn -> Prop) (r : result A) : (forall e, P e -> Q e) -> errs P r -> errs Q r.
Proof. intros H Hr e He. apply H. by apply Hr. Qed.
Lemma errs_rmap {A B} P (f : A -> result B) l : (forall x, x ∈ l -> errs P (f x)) -> errs P (rmap f l).
Proof.
  induction l as [|x l IH]; intros H; simpl; [apply errs_ok|].
  apply errs_bind; [apply H; set_solver|]. intros y _. apply errs_bind; [apply IH; intros z Hz; apply H; set_solver|].
  intros ys _. apply errs_ok.
Qed.
Lemma errs_rfold {A S} P (f : S -> A -> result S) s l : (forall s x, errs P (f s x)) -> errs P (rfold f s l).
Proof.
  intros H. revert s. induction l as [|x l IH]; intros s; cbn [rfold]; [apply errs_ok|].
  apply errs_bind; [apply H|]. intros s' _. apply IH.
Qed.

Lemma errs_py_index {A} (l : list A) i : errs (fun e => e = IndexError) (py_index l i).
Proof. intros e H. by eapply py_index_err. Qed.
Lemma errs_py_setitem {A} (l : list A) i v : errs (fun e => e = IndexError) (py_setitem l i v).
Proof. intros e. unfold py_setitem. destruct (_ || _); [intros [= <-]; done|done]. Qed.

Lemma errs_line_set m i : errs (fun e => e = IndexError) (line_set m i).
Proof.
  unfold line_set. apply errs_bind; [apply errs_py_index|]. intros a _.
  apply errs_bind; [apply errs_py_index|]. intros b _. apply errs_ok.
Qed.

Lemma errs_conj_v2 ord m cols :
  errs (fun e => e = AssertionError \/ e = IndexError) (conjunctive_collapse_v2 ord m cols).
Proof.
  unfold conjunctive_collapse_v2. destruct (zlen cols <=? 0); [by apply errs_err; left|].
  apply errs_bind.
  { apply errs_rmap. intros x _. eapply errs_impl; [|apply errs_line_set]. intros e ->. by right. }
  intros sets _. destruct (merge_sort size_le sets); [by apply errs_err; right|].
  unfold set_true. apply errs_rfold. intros v x. eapply errs_impl; [|apply errs_py_setitem]. intros e ->. by right.
Qed.

Lemma errs_bind_dataset ord r X Y :
  errs (fun e => e = ValueError \/ e = AssertionError \/ e = IndexError) (bind_dataset ord r X Y).
Proof.
  unfold bind_dataset. apply errs_bind.
  { unfold check_head. apply errs_rfold. intros _ x. destruct (_ || _); [by apply errs_err; left|apply errs_ok]. }
  intros _ _. apply errs_bind.
  { eapply errs_impl; [|apply errs_conj_v2]. intros e [->| ->]; auto. }
  intros tv _. apply errs_bind.
  { eapply errs_impl; [|apply errs_conj_v2]. intros e [->| ->]; auto. }
  intros hv _. destruct (_ =? 0); [by apply errs_err; left|].
  apply errs_bind; [|intros; apply errs_ok]. unfold logical_and.
  destruct (_ =? _); [apply errs_ok|]. destruct (_ =? 1); [apply errs_ok|].
  destruct (_ =? 1); [apply errs_ok|]. by apply errs_err; left.
Qed.

Lemma errs_py_div a b : errs (fun e => e = ZeroDivisionError) (py_div a b).
Proof. unfold py_div. destruct (b =? 0); [by apply errs_err|apply errs_ok]. Qed.

Lemma errs_distance a b : errs (fun e => e = ZeroDivisionError) (distance a b).
Proof. unfold distance. apply errs_bind; [apply errs_py_div|]. intros; apply errs_ok. Qed.

Lemma errs_marginal_coverage P b refs : errs P (marginal_coverage b refs).
Proof. rewrite marginal_coverage_size. apply errs_ok. Qed.

Lemma errs_KL b : errs (fun e => e = ZeroDivisionError \/ e = NonFinite) (KL b).
Proof.
  unfold KL. apply errs_bind; [eapply errs_impl; [|apply errs_py_div]; intros e ->; by left|].
  intros p _. apply errs_bind; [eapply errs_impl; [|apply errs_py_div]; intros e ->; by left|].
  intros q _. destruct (Rltb p q); [apply errs_ok|]. unfold entropy.
  apply errs_bind; [|intros; apply errs_ok]. apply errs_rmap. intros xy _. unfold rel_entr.
  destruct (Rlt_dec _ _); [destruct (Rlt_dec _ _); [apply errs_ok|by apply errs_err; right]|].
  destruct (Req_EM_T _ _); [destruct (Rle_dec _ _); [apply errs_ok|by apply errs_err; right]|].
  by apply errs_err; right.
Qed.

Lemma errs_bounds rs : errs (fun e => e = AttributeError) (bounds_of rs).
Proof. apply errs_rmap. intros [b|r] _; [apply errs_ok|by apply errs_err]. Qed.

Lemma errs_quality cls sel b : errs (fun e => e = ZeroDivisionError \/ e = NonFinite) (quality_of_rule cls sel b).
Proof.
  unfold quality_of_rule. apply errs_bind; [apply errs_marginal_coverage|]. intros c _.
  apply errs_bind; [apply errs_KL|]. intros; apply errs_ok.
Qed.

Lemma errs_objective_of_rule cls l sel b :
  errs (fun e => e = ZeroDivisionError \/ e = NonFinite) (objective_of_rule cls l sel b).
Proof.
  assert (errs (fun e => e = ZeroDivisionError \/ e = NonFinite)
    (let! q := quality_of_rule cls sel b in let! d := diversity_of_rule sel b in Ok (q + l * d)%R)) as H.
  { apply errs_bind; [apply errs_quality|]. intros q _. apply errs_bind; [|intros; apply errs_ok].
    unfold diversity_of_rule. apply errs_bind; [|intros; apply errs_ok]. apply errs_rmap. intros x _.
    eapply errs_impl; [|apply errs_distance]. intros e ->. by left. }
  destruct cls; simpl; try exact H.
  apply errs_bind; [apply errs_marginal_coverage|]. intros c _.
  apply errs_bind; [apply errs_KL|]. intros; apply errs_ok.
Qed.

Lemma errs_py_max {A} (P : exn -> Prop) (key : A -> result R) l : P ValueError ->
  (forall x, x ∈ l -> errs P (key x)) -> errs P (py_max key l).
Proof.
  intros HV Hk. destruct l as [|x l]; simpl; [by apply errs_err|].
  apply errs_bind; [apply Hk; set_solver|]. intros k _. apply errs_bind; [|intros; apply errs_ok].
  assert (forall y, y ∈ l -> errs P (key y)) as Hl by (intros y Hy; apply Hk; set_solver). clear Hk.
  generalize (x, k). induction l as [|y l IH]; intros s; cbn [rfold]; [apply errs_ok|].
  apply errs_bind; [|intros; apply IH; intros z Hz; apply Hl; set_solver].
  apply errs_bind; [apply Hl; set_solver|]. intros; apply errs_ok.
Qed.

Definition pick_err (e : exn) : Prop :=
  e = ValueError \/ e = ZeroDivisionError \/ e = NonFinite \/ e = AttributeError \/ e = TypeError.

Lemma errs_select cls l rules cands : errs pick_err (select_best_candidate cls l rules cands).
Proof.
  unfold select_best_candidate. apply errs_py_max; [by left|]. intros b _.
  apply errs_bind; [eapply errs_impl; [|apply errs_bounds]; intros e ->; unfold pick_err; tauto|].
  intros sel _. eapply errs_impl; [|apply errs_objective_of_rule]. unfold pick_err. tauto.
Qed.

Lemma errs_log_choice rules b : errs pick_err (log_choice rules b).
Proof.
  unfold log_choice. apply errs_bind; [eapply errs_impl; [|apply errs_py_div]; unfold pick_err; tauto|].
  intros _ _. apply errs_bind; [eapply errs_impl; [|apply errs_py_div]; unfold pick_err; tauto|].
  intros _ _. apply errs_bind; [eapply errs_impl; [|apply errs_bounds]; unfold pick_err; tauto|].
  intros sel _. apply errs_bind; [apply errs_marginal_coverage|]. intros _ _.
  apply errs_bind; [eapply errs_impl; [|apply errs_KL]; unfold pick_err; tauto|]. intros; apply errs_ok.
Qed.

Lemma mcr_value Y sel b : marginal_coverage_ratio Y sel b = py_div (Z.of_nat (size (new_cells b sel))) (nnz (csr_mat Y)).
Proof.
  unfold marginal_coverage_ratio. rewrite marginal_coverage_size. simpl.
  destruct (Z.ltb_spec (Z.of_nat (size (new_cells b sel))) 0); [lia|done].
Qed.

Lemma errs_should_stop cls p Y rules b : errs pick_err (should_stop cls p Y rules b).
Proof.
  unfold should_stop. destruct (p_n_max p); [apply errs_ok|].
  destruct cls; try (apply errs_err; unfold pick_err; tauto).
  apply errs_bind; [eapply errs_impl; [|apply errs_bounds]; unfold pick_err; tauto|]. intros sel _.
  rewrite mcr_value. apply errs_bind; [eapply errs_impl; [|apply errs_py_div]; unfold pick_err; tauto|].
  intros; apply errs_ok.
Qed.

Lemma errs_pick {W} (S : samplers W) cls Y g cands : errs pick_err (pick S cls Y g cands).
Proof.
  unfold pick. apply errs_bind; [apply errs_select|]. intros best _.
  apply errs_bind; [apply errs_log_choice|]. intros _ _.
  apply errs_bind; [apply errs_should_stop|]. intros; apply errs_ok.
Qed.

(** an error of generate_candidate_rules comes from a sampler or is one of four *)
Lemma generate_loop_err {W} (S : samplers W) ord X Y nh n rules w e w' :
  generate_loop S ord X Y nh n rules w = (Err e, w') ->
  (exists w1, fst (tail_sample_once S w1) = Err e) \/
  (exists X y w1, fst (head_fit S X y w1) = Err e) \/
  (exists k w1, fst (head_sample S k w1) = Err e) \/
  e = TypeError \/ e = ValueError \/ e = AssertionError \/ e = IndexError.
Proof.
  revert rules w. induction n as [|n IH]; intros rules w H; cbn [generate_loop] in H; [done|].
  apply sbind_err in H as [H|(tail & w1 & _ & H)]; [left; exists w; by rewrite H|].
  apply sbind_err in H as [H|(y & w1' & Hy & H)].
  { apply slift_ok in H as [H _]. apply errs_conj_v2 in H. tauto. }
  apply slift_ok in Hy as [_ <-].
  apply sbind_err in H as [H|([] & w2 & _ & H)]; [right; left; exists X, y, w1; by rewrite H|].
  apply sbind_err in H as [H|(heads & w3 & _ & H)]; [right; right; left; exists nh, w2; by rewrite H|].
  apply sbind_err in H as [H|(rs & w3' & Hr & H)]; [|by eapply IH].
  apply slift_ok in H as [H _]. right; right; right. revert H.
  apply (errs_rfold (fun e => e = TypeError \/ e = ValueError \/ e = AssertionError \/ e = IndexError)).
  clear. intros rules [h|]; [|apply errs_err; tauto]. cbn [add_candidate].
  destruct (rule_mem _ _); [apply errs_ok|].
  apply errs_bind; [|intros; apply errs_ok]. eapply errs_impl; [|apply errs_bind_dataset]. tauto.
Qed.

Lemma generate_sane {W} (S : samplers W) ord p X Y w :
  sane S -> fst (generate_candidate_rules S ord p X Y w) <> Err OutOfFuel.
Proof.
  intros (_ & H1 & _ & H2 & H3) E. unfold generate_candidate_rules in E.
  destruct (generate_loop S ord X Y (p_n_heads p) (Z.to_nat (p_n_tails p)) [] w) as [r w'] eqn:G.
  simpl in E. subst r.
  apply generate_loop_err in G as [[w1 E]|[(X' & y & w1 & E)|[(k & w1 & E)|E]]].
  - by apply H1 in E.
  - by apply H2 in E.
  - by apply H3 in E.
  - naive_solver.
Qed.

(** ** The loop *)

(** what one round keeps *)
Lemma round_keeps {W} (S : samplers W) cls ord X Y (g : gs W) r g' :
  round_out S cls ord X Y g r g' ->
  g_params g' = g_params g /\ e_train (g_est g') = e_train (g_est g) /\
  e_num_labels (g_est g') = e_num_labels (g_est g) /\ e_num_features (g_est g') = e_num_features (g_est g) /\
  g_rounds g' = Datatypes.S (g_rounds g) /\
  g_obj1 g' = g_obj1 g /\ g_obj2 g' = g_obj2 g /\ g_obj g' = g_obj g /\ g_round1 g' = g_round1 g /\
  (r <> Ok false -> g_rules g' = g_rules g).
Proof.
  destruct 1; subst; unfold g_params, g_rules; cbn [with_world with_rules with_est g_est g_rounds tick
    e_params e_train e_num_labels e_num_features e_rules g_obj1 g_obj2 g_obj g_round1];
    rewrite ?keep_est, ?keep_rounds; try done;
    unfold keep_candidates; destruct (keeps_candidates cls); done.
Qed.

Lemma pick_max {W} (S : samplers W) cls Y (g : gs W) c best stop k :
  p_n_max (g_params g) = Some k -> pick S cls Y g c = Ok (best, stop) -> stop = (k <=? zlen (g_rules g)).
Proof.
  intros Hk H. unfold pick in H. apply rbind_ok in H as (b & _ & H). apply rbind_ok in H as (? & _ & H).
  apply rbind_ok in H as (st & Hs & H). injection H as -> ->. unfold should_stop in Hs. rewrite Hk in Hs.
  by injection Hs as <-.
Qed.
