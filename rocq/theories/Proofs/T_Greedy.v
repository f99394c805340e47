(** Proofs of the property theorems of Properties/P_Greedy.v. *)
From Coq Require Import Reals Lra.
From Verif.Model Require Import PyBase PyReal Sparse Utils Rule GreedyBase PyState Greedy.
From Verif.Model Require Import Cftp.
From Verif.Spec Require Import SMatrix SRule SGreedy.
Open Scope Z_scope.
From Verif.Proofs Require Import PBase PSparse PUtils PRule PSets PRuleMetric PGreedyBase T_Rule T_GreedyBase PGreedy.
From Verif.Proofs Require PRandR.
Open Scope Z_scope.


Lemma C40_candidates_proof : forall W (S : samplers W) (ord : gset Z -> list Z) (p : gparams) (X Y : csr) w rules w',
  set_order ord -> wf_cmat (csr_mat Y) = true ->
  generate_candidate_rules S ord p X Y w = (Ok rules, w') ->
  exists draws, draws_from S X Y (p_n_heads p) (Z.to_nat (p_n_tails p)) w draws w' /\
    (forall i j a b, rules !! i = Some a -> rules !! j = Some b ->
       py_set (r_head (b_rule a)) = py_set (r_head (b_rule b)) ->
       py_set (r_tail (b_rule a)) = py_set (r_tail (b_rule b)) -> i = j) /\
    (forall b, b ∈ rules -> exists tail heads head, (tail, heads) ∈ draws /\ Some head ∈ heads /\
       bind_dataset ord (new_rule (ord head) (ord tail)) (tocsc X) (tocsc Y) = Ok b /\
       py_set (r_head (b_rule b)) = head /\ py_set (r_tail (b_rule b)) = tail) /\
    (forall tail heads h, (tail, heads) ∈ draws -> h ∈ heads ->
       exists b, b ∈ rules /\ py_set (r_tail (b_rule b)) = tail /\ h = Some (py_set (r_head (b_rule b)))) /\
    ((forall tail heads, (tail, heads) ∈ draws -> zlen heads <= p_n_heads p) ->
       zlen rules <= Z.max 0 (p_n_tails p) * Z.max 0 (p_n_heads p)).
Proof.
  intros W S ord p X Y w rules w' Hord Hwf H. unfold generate_candidate_rules in H.
  destruct (generate_loop_ok _ _ _ _ _ _ _ _ _ _ Hord Hwf H) as (ds & Hd & Hb & Hk & Hs & Hm).
  { split; [constructor|]. intros b Hb. inversion Hb. }
  assert (Hset : forall s : gset Z, py_set (py_sorted (ord s)) = s).
  { intros s. apply set_eq. intros x. rewrite elem_of_py_set, py_sorted_perm. by apply set_order_elem. }
  assert (Hnr : forall b, b ∈ rules -> exists tail heads head, (tail, heads) ∈ ds /\ Some head ∈ heads /\
     b_rule b = new_rule (ord head) (ord tail)).
  { intros b Hin. assert (b_rule b ∈ map b_rule rules) as Hr by (apply elem_of_map; eauto).
    apply Hm in Hr as [Hr|Hr]; [inversion Hr|]. destruct Hr as (t & hs & hd & ? & ? & ?). eauto 10. }
  exists ds. split; [done|]. split; [|split; [|split]].
  - intros i j a b Ha Hb' Eh Et. destruct Hb as [Hnd _].
    assert (b_rule a = b_rule b) as E.
    { destruct (Hnr a) as (t1 & hs1 & h1 & _ & _ & E1); [by eapply elem_of_list_lookup_2|].
      destruct (Hnr b) as (t2 & hs2 & h2 & _ & _ & E2); [by eapply elem_of_list_lookup_2|].
      rewrite E1, E2 in Eh, Et. unfold new_rule in Eh, Et. simpl in Eh, Et. rewrite !Hset in Eh, Et.
      subst. by rewrite E1, E2. }
    apply (NoDup_lookup (map b_rule rules) i j (b_rule a)).
    + done.
    + rewrite list_lookup_fmap, Ha. done.
    + rewrite list_lookup_fmap, Hb', E. done.
  - intros b Hin. destruct (Hnr b Hin) as (t & hs & hd & H1 & H2 & E). exists t, hs, hd.
    split; [done|]. split; [done|]. split; [rewrite <- E; by apply Hb|].
    rewrite E. unfold new_rule. simpl. rewrite !Hset. done.
  - intros t hs h Hin Hh. pose proof (Hs _ Hin) as Hsome. simpl in Hsome. rewrite list.Forall_forall in Hsome.
    destruct (Hsome h Hh) as [hd ->].
    assert (new_rule (ord hd) (ord t) ∈ map b_rule rules) as Hr by (apply Hm; right; eauto 10).
    apply elem_of_map in Hr as (b & E & Hin'). exists b. split; [done|]. rewrite <- E. unfold new_rule. simpl.
    rewrite !Hset. done.
  - intros Hl. assert (length rules <= length (@nil bound) + Z.to_nat (p_n_tails p) * Z.to_nat (p_n_heads p))%nat as L.
    { apply Hk. intros [t hs] Hin. specialize (Hl t hs Hin). unfold zlen in Hl. simpl. lia. }
    simpl in L. unfold zlen. nia.
Qed.



Lemma C40_candidates_returned_proof : forall W (S : samplers W) (ord : gset Z -> list Z) (p : gparams) (X Y : csr) w
    (draws : list (gset Z * list (option (gset Z)))) w',
  set_order ord -> wf_cmat (csr_mat Y) = true ->
  draws_from S X Y (p_n_heads p) (Z.to_nat (p_n_tails p)) w draws w' ->
  (forall tail heads h, (tail, heads) ∈ draws -> tail <> ∅ /\ (forall c, c ∈ tail -> 0 <= c < csr_cols Y) /\
     (h ∈ heads -> exists head, h = Some head /\
        is_ok (bind_dataset ord (new_rule (ord head) (ord tail)) (tocsc X) (tocsc Y)) = true)) ->
  exists rules, generate_candidate_rules S ord p X Y w = (Ok rules, w').
Proof.
  intros W S ord p X Y w draws w' Hord Hwf Hd. unfold generate_candidate_rules.
  generalize (@nil bound). induction Hd as [w|n w w1 w2 w3 w4 tail y heads ds Ht Hy Hf Hh Hd IH]; intros rules Hok.
  - exists rules. done.
  - cbn [generate_loop]. unfold sbind at 1. rewrite Ht.
    destruct (Hok tail heads None) as (Hne & Hval & _); [set_solver|].
    destruct (conj_v2_ok ord (tocsc Y) (ord tail)) as (v & Ev & Hlv & Hv).
    + done.
    + by apply flip_wf.
    + intros E. apply Hne. apply set_eq. intros x. rewrite <- (set_order_elem ord) by done. rewrite E. set_solver.
    + intros c Hc. apply (set_order_elem ord tail c Hord) in Hc. apply Hval in Hc. by rewrite tocsc_cols.
    + assert (v = y) as ->.
      { destruct (Hy Hne Hval) as [Hly Hy']. apply bool_vector_ext; [rewrite Hlv, Hly; done|].
        rewrite Hlv. intros i Hi. rewrite (Hv i Hi), (Hy' i) by done.
        setoid_rewrite (set_order_elem ord tail _ Hord). setoid_rewrite tocsc_has; [|done]. done. }
      unfold sbind at 1. unfold slift at 1. rewrite Ev. unfold sbind at 1. rewrite Hf.
      unfold sbind at 1. rewrite Hh.
      assert (exists rs, rfold (add_candidate ord X Y tail) rules heads = Ok rs) as [rs Hrs].
      { assert (forall h, h ∈ heads -> exists head, h = Some head /\
          is_ok (bind_dataset ord (new_rule (ord head) (ord tail)) (tocsc X) (tocsc Y)) = true) as Hb.
        { intros h Hin. destruct (Hok tail heads h) as (_ & _ & G); [set_solver|]. auto. }
        clear -Hb. revert rules. induction heads as [|h heads IHh]; intros rules; [by exists rules|].
        cbn [rfold]. destruct (Hb h) as (head & -> & Hok); [set_solver|]. cbn [add_candidate].
        assert (forall rs, exists rs', rfold (add_candidate ord X Y tail) rs heads = Ok rs') as G.
        { intros rs. apply IHh. intros h Hin. apply Hb. set_solver. }
        destruct (rule_mem _ _); [apply G|].
        destruct (bind_dataset _ _ _ _) as [b|e]; [apply G|done]. }
      unfold sbind at 1, slift at 1. rewrite Hrs. apply IH. intros t hs h Hin. apply Hok. set_solver.
Qed.



Lemma C41_best_candidate_proof : forall (cls : greedy_class) (lambd : R) (sel cands : list bound) (f : bound -> R) (order : list bound),
  order ≡ₚ cands ->
  (forall b, b ∈ cands -> objective_of_rule cls lambd sel b = Ok (f b)) ->
  (cands <> [] -> exists best before after,
     select_best_candidate cls lambd (map Bound sel) order = Ok best /\
     best ∈ cands /\ (forall b, b ∈ cands -> (f b <= f best)%R) /\
     order = before ++ best :: after /\ (forall b, b ∈ before -> (f b < f best)%R)) /\
  (select_best_candidate cls lambd (map Bound sel) order = Err ValueError <-> cands = []).
Proof.
  intros cls lambd sel cands f order Hp Hf.
  assert (Hb : bounds_of (map Bound sel) = Ok sel).
  { clear. induction sel as [|b sel IH]; [done|]. cbn. unfold bounds_of in IH. rewrite IH. done. }
  assert (Hk : forall b, b ∈ order ->
     (let! sel := bounds_of (map Bound sel) in objective_of_rule cls lambd sel b) = Ok (f b)).
  { intros b Hin. rewrite Hb. cbn. apply Hf. by rewrite <- Hp. }
  split.
  - intros Hne. destruct (py_max_spec _ f order Hk) as (l1 & b & l2 & E & El & H1 & H2).
    { intros ->. apply Hne. by apply Permutation_nil in Hp. }
    exists b, l1, l2. split; [done|]. split; [rewrite <- Hp, El; set_solver|]. split; [|done].
    intros x Hx. rewrite <- Hp, El, elem_of_app, elem_of_cons in Hx.
    destruct Hx as [Hx|[Hx|Hx]]; [apply Rlt_le; auto|subst x; lra|auto].
  - split.
    + intros E. destruct order as [|b order]; [by apply Permutation_nil in Hp|].
      destruct (py_max_spec _ f (b :: order) Hk) as (l1 & b' & l2 & E' & _); [done|].
      unfold select_best_candidate in E. rewrite E' in E. done.
    + intros ->. symmetry in Hp. apply Permutation_nil in Hp as ->. done.
Qed.



(** ** Lemmas on the loop *)
Lemma fit_start_out {W} (S : samplers W) cls X Y (g : gs W) r g' :
  fit_start S cls X Y g = (r, g') ->
  g_rules g' = g_rules g /\ g_params g' = g_params g /\ g_rounds g' = g_rounds g /\
  e_train (g_est g') = Some (X, Y) /\ g_world g' = snd (tail_fit S Y (g_world g)) /\
  r = fst (tail_fit S Y (g_world g)) /\
  (r = Ok tt -> keeps_candidates cls = true -> g_cands g' = Some []) /\
  (keeps_candidates cls = false -> g_cands g' = g_cands g).
Proof.
  unfold fit_start, sbind, smod, on_world. cbn [with_est g_world g_est].
  destruct (tail_fit S Y (g_world g)) as [[[]|e] w]; intros H; simplify_eq; simpl.
  - destruct (keeps_candidates cls); simpl; repeat split; done.
  - repeat split; done.
Qed.

(** what the loop keeps, and that it only appends rules *)
Lemma fit_loop_extends {W} (S : samplers W) cls ord X Y fuel (g : gs W) r g' :
  fit_loop S cls ord X Y fuel g = (r, g') ->
  g_params g' = g_params g /\ e_train (g_est g') = e_train (g_est g) /\
  exists new, g_rules g' = g_rules g ++ map Bound new /\
    (g_rounds g' <= g_rounds g + length new + 1)%nat /\ (g_rounds g' <= g_rounds g + fuel)%nat.
Proof.
  revert g. induction fuel as [|fuel IH]; intros g H; cbn [fit_loop] in H.
  - unfold serr in H. simplify_eq. split; [done|]. split; [done|]. exists []. simpl. rewrite app_nil_r. split; [done|lia].
  - unfold sbind in H. destruct (fit_round S cls ord X Y g) as [r1 g1] eqn:E.
    pose proof (fit_round_out _ _ _ _ _ _ _ _ E) as Ro.
    destruct (round_keeps _ _ _ _ _ _ _ _ Ro) as (Kp & Kt & _ & _ & Kr & _ & _ & _ & _ & Kn).
    assert (r1 <> Ok false -> (r, g') = (match r1 with Ok _ => Ok tt | Err e => Err e end, g1) ->
      g_params g' = g_params g /\ e_train (g_est g') = e_train (g_est g) /\
      exists new, g_rules g' = g_rules g ++ map Bound new /\
        (g_rounds g' <= g_rounds g + length new + 1)%nat /\ (g_rounds g' <= g_rounds g + Datatypes.S fuel)%nat) as Hend.
    { intros Hne Eq. simplify_eq. rewrite Kp, Kt. split; [done|]. split; [done|]. exists [].
      simpl. rewrite app_nil_r. split; [by apply Kn|]. lia. }
    destruct r1 as [[]|e]; [by apply Hend|clear Hend|by apply Hend].
    inversion Ro; subst.
    apply IH in H as (P1 & P2 & new & P3 & P4 & P5). rewrite P1, P2, Kp, Kt.
    split; [done|]. split; [done|]. exists (best :: new). rewrite P3.
    split.
    { unfold g_rules at 1. cbn [with_rules with_est g_est e_rules]. rewrite <- app_assoc. done. }
    rewrite Kr in P4, P5. simpl. lia.
Qed.

Lemma zlen_map_bound (l : list srule) (new : list bound) : zlen (l ++ map Bound new) = zlen l + zlen new.
Proof. unfold zlen. rewrite app_length, map_length. lia. Qed.

Lemma fit_loop_budget {W} (S : samplers W) cls ord X Y fuel (g : gs W) r g' k :
  p_n_max (g_params g) = Some k ->
  fit_loop S cls ord X Y fuel g = (r, g') ->
  zlen (g_rules g') <= Z.max k (zlen (g_rules g)) /\
  (sane S -> (Z.to_nat (k - zlen (g_rules g)) < fuel)%nat -> r <> Err OutOfFuel) /\
  (r = Ok tt -> k <= zlen (g_rules g') \/
     exists w, generate_candidate_rules S ord (g_params g) X Y w = (Err NoMoreSamples, g_world g')).
Proof.
  revert g. induction fuel as [|fuel IH]; intros g Hk H; cbn [fit_loop] in H.
  - unfold serr in H. simplify_eq. split; [lia|]. split; [|done]. lia.
  - unfold sbind in H. destruct (fit_round S cls ord X Y g) as [r1 g1] eqn:E.
    pose proof (fit_round_out _ _ _ _ _ _ _ _ E) as Ro.
    destruct (round_keeps _ _ _ _ _ _ _ _ Ro) as (Kp & _ & _ & _ & _ & _ & _ & _ & _ & Kn).
    destruct r1 as [[]|e].
    + unfold sret in H. simplify_eq. rewrite Kn by done. split; [lia|]. split; [done|]. intros _.
      inversion Ro; subst.
      * right. exists (g_world g). done.
      * left. match goal with Hp : pick _ _ _ _ _ = Ok (_, true) |- _ => apply (pick_max _ _ _ _ _ _ _ k) in Hp end.
        -- rewrite keep_rules in *. apply eq_sym, Z.leb_le in H1. done.
        -- rewrite keep_params. done.
    + inversion Ro; subst.
      match goal with Hp : pick _ _ _ _ _ = Ok (_, false) |- _ => apply (pick_max _ _ _ _ _ _ _ k) in Hp end.
      2: { rewrite keep_params. done. }
      rewrite keep_rules in *. apply eq_sym, Z.leb_gt in H2. change (zlen (g_rules g) < k) in H2.
      assert (p_n_max (g_params (with_rules (g_rules g ++ [Bound best])
         (with_world w2 (keep_candidates cls c (with_world w (tick g)))))) = Some k) as Hk'.
      { unfold g_params. cbn [with_rules with_est with_world g_est e_params]. rewrite keep_est. done. }
      destruct (IH _ Hk' H) as (P1 & P2 & P3).
      assert (Er : zlen (g_rules (with_rules (g_rules g ++ [Bound best])
         (with_world w2 (keep_candidates cls c (with_world w (tick g)))))) = zlen (g_rules g) + 1).
      { unfold g_rules at 1. cbn [with_rules with_est g_est e_rules]. rewrite zlen_app. done. }
      rewrite Er in P1, P2. split; [lia|]. split; [intros Hs Hf; apply P2; [done|lia]|].
      intros Hr. destruct (P3 Hr) as [P|[w3 P]]; [by left|right]. exists w3. rewrite Kp in P. done.
    + simplify_eq. rewrite Kn by done. split; [lia|]. split; [|done]. intros Hs _ Heq. injection Heq as ->.
      inversion Ro; subst.
      * match goal with Hg : generate_candidate_rules _ _ _ _ _ _ = (Err _, _) |- _ =>
          pose proof (generate_sane S ord (g_params g) X Y (g_world g) Hs) as G; rewrite Hg in G; by apply G end.
      * match goal with Hp : pick _ _ _ _ _ = Err _ |- _ => apply errs_pick in Hp end.
        unfold pick_err in *. naive_solver.
      * destruct Hs as (_ & _ & Hu & _).
        match goal with Hg : tail_update _ _ _ _ = (Err _, _) |- _ =>
          eapply (Hu (b_support best)); rewrite Hg; done end.
Qed.

(** enough fuel: more fuel changes nothing *)
Lemma fit_loop_mono {W} (S : samplers W) cls ord X Y fuel fuel' (g : gs W) r g' : (fuel <= fuel')%nat ->
  fit_loop S cls ord X Y fuel g = (r, g') -> r <> Err OutOfFuel -> fit_loop S cls ord X Y fuel' g = (r, g').
Proof.
  revert fuel' g. induction fuel as [|fuel IH]; intros fuel' g Hf H Hr; cbn [fit_loop] in H.
  - unfold serr in H. simplify_eq.
  - destruct fuel' as [|fuel']; [lia|]. cbn [fit_loop]. unfold sbind in *.
    destruct (fit_round S cls ord X Y g) as [[[]|e] g1]; try done.
    apply IH; try done. lia.
Qed.

Lemma errs_log_coverage ord e : errs (fun x => x = AttributeError \/ x = IndexError) (log_coverage ord e).
Proof.
  unfold log_coverage. intros x. destruct (coverage_ratio ord e) as [v|y] eqn:E; [done|].
  assert (errs (fun x => x = AttributeError \/ x = IndexError \/ x = NonFinite) (coverage_ratio ord e)) as G.
  { unfold coverage_ratio. destruct (e_train e) as [[X Y]|]; [|apply errs_err; by left].
    unfold coverage_ratio_of. apply errs_bind.
    - apply errs_rfold. intros m s. apply errs_bind.
      + destruct s; [apply errs_ok|apply errs_err; by left].
      + intros supp _. apply errs_rfold. intros m' c. unfold csr_set0.
        apply errs_bind; [intros x' Hx; unfold norm_col in Hx; destruct (_ || _); simplify_eq; auto|].
        intros i _. apply errs_bind; [intros x' Hx; unfold norm_col in Hx; destruct (_ || _); simplify_eq; auto|].
        intros j _. apply errs_ok.
    - intros m _. apply errs_bind; [|intros; apply errs_ok]. unfold np_div.
      destruct (_ =? 0); [apply errs_err; auto|apply errs_ok]. }
  apply G in E. destruct E as [->|[->| ->]]; intros Ex; simplify_eq; auto.
Qed.

Lemma log_coverage_sane ord e : log_coverage ord e <> Err OutOfFuel.
Proof. intros E. apply errs_log_coverage in E. naive_solver. Qed.

Lemma errs_objective cls l sel rules : errs (fun e => e = ZeroDivisionError \/ e = NonFinite) (objective cls l sel rules).
Proof.
  unfold objective. apply errs_bind; [apply errs_rmap; intros x _; apply errs_quality|]. intros qs _.
  apply errs_bind; [|intros; apply errs_ok]. apply errs_rmap. intros x _.
  eapply errs_impl; [|apply errs_distance]. auto.
Qed.

Lemma errs_objective_of_selected {W} cls (g : gs W) :
  errs (fun e => e = AttributeError \/ e = ZeroDivisionError \/ e = NonFinite) (objective_of_selected cls g).
Proof.
  apply errs_bind; [eapply errs_impl; [|apply errs_bounds]; auto|]. intros sel _.
  eapply errs_impl; [|apply errs_objective]. intros e [->| ->]; auto.
Qed.

Lemma objective_selected_sane {W} cls (g : gs W) : objective_of_selected cls g <> Err OutOfFuel.
Proof. intros E. apply errs_objective_of_selected in E. naive_solver. Qed.

(** V2, V3 and Submod: what follows the loop changes [obj] only *)
Lemma fit_simple_out {W} (S : samplers W) cls ord fuel X Y (g : gs W) r g' :
  cls <> DivMax -> fit S cls ord fuel X Y g = (r, g') ->
  exists r0 g0, fit_start S cls X Y g = (r0, g0) /\
    match r0 with
    | Err e => r = Err e /\ g' = g0
    | Ok _ => exists r1 g1, fit_loop S cls ord X Y fuel g0 = (r1, g1) /\
        g_rules g' = g_rules g1 /\ g_params g' = g_params g1 /\ g_rounds g' = g_rounds g1 /\
        g_world g' = g_world g1 /\ e_train (g_est g') = e_train (g_est g1) /\
        (forall e, r1 = Err e -> r = Err e /\ g' = g1) /\
        (r = Err OutOfFuel -> r1 = Err OutOfFuel) /\ (r = Ok tt -> r1 = Ok tt)
    end.
Proof.
  intros Hc H.
  assert (fit S cls ord fuel X Y = match cls with Submod => fit_submod S ord fuel X Y | _ => fit_v2 S cls ord fuel X Y end) as E.
  { destruct cls; done. }
  rewrite E in H. clear E.
  destruct (fit_start S cls X Y g) as [r0 g0] eqn:E0. exists r0, g0. split; [done|].
  assert (fit_v2 S cls ord fuel X Y g = (r, g') \/ (cls = Submod /\ fit_submod S ord fuel X Y g = (r, g'))) as [H'|[-> H']]
    by (destruct cls; auto); clear H.
  - unfold fit_v2, sbind in H'. rewrite E0 in H'. destruct r0 as [[]|e]; [|by simplify_eq].
    destruct (fit_loop S cls ord X Y fuel g0) as [r1 g1] eqn:E1. exists r1, g1. split; [done|].
    destruct r1 as [[]|e].
    + unfold sget, slift, smod in H'. destruct (objective_of_selected cls g1) as [o|e] eqn:Eo.
      * simplify_eq. repeat split; try done. intros Hx. by apply log_coverage_sane in Hx.
      * simplify_eq. repeat split; try done. intros Hx. injection Hx as ->. by apply objective_selected_sane in Eo.
    + simplify_eq. repeat split; try done; naive_solver.
  - unfold fit_submod, sbind in H'. rewrite E0 in H'. destruct r0 as [[]|e]; [|by simplify_eq].
    destruct (fit_loop S Submod ord X Y fuel g0) as [r1 g1] eqn:E1. exists r1, g1. split; [done|].
    destruct r1 as [[]|e].
    + unfold sget, slift in H'. simplify_eq. repeat split; try done. intros Hx. by apply log_coverage_sane in Hx.
    + simplify_eq. repeat split; try done; naive_solver.
Qed.

(** the second round appends picks of the candidates *)
Lemma second_loop_out {W} (S : samplers W) cands n (g : gs W) r g' :
  second_loop S cands n g = (r, g') ->
  exists picks, g' = with_rules (g_rules g ++ map Bound picks) g /\ (length picks <= n)%nat /\
    (r = Ok tt -> length picks = n) /\ r <> Err OutOfFuel /\
    forall i b, picks !! i = Some b ->
      select_best_candidate DivMax (p_lambd (g_params g)) (g_rules g ++ map Bound (take i picks))
        (rule_iter S (g_world g) cands) = Ok b.
Proof.
  revert g. induction n as [|n IH]; intros g H; cbn [second_loop] in H.
  - unfold sret in H. simplify_eq. exists []. simpl. rewrite app_nil_r. split.
    { destruct g' as [e ? ? ? ? ? ? ?]. destruct e. done. }
    split; [lia|]. split; [done|]. split; [done|]. intros i b Hi. done.
  - unfold sbind, sget, slift, smod in H.
    assert (forall e, r = Err e -> g' = g -> e <> OutOfFuel ->
      exists picks, g' = with_rules (g_rules g ++ map Bound picks) g /\ (length picks <= Datatypes.S n)%nat /\
      (r = Ok tt -> length picks = Datatypes.S n) /\ r <> Err OutOfFuel /\
      forall i b, picks !! i = Some b ->
      select_best_candidate DivMax (p_lambd (g_params g)) (g_rules g ++ map Bound (take i picks))
        (rule_iter S (g_world g) cands) = Ok b) as Hend.
    { intros e -> -> Hne. exists []. simpl. rewrite app_nil_r. split.
      { destruct g as [e' ? ? ? ? ? ? ?]. destruct e'. done. }
      split; [lia|]. split; [done|]. split; [congruence|]. intros i b Hi. done. }
    destruct (select_best_candidate DivMax (p_lambd (g_params g)) (g_rules g) (rule_iter S (g_world g) cands))
      as [best|e] eqn:E1.
    2: { simplify_eq. eapply Hend; [done|done|]. apply errs_select in E1. unfold pick_err in E1. naive_solver. }
    destruct (log_choice (g_rules g) best) as [[]|e] eqn:E2.
    2: { simplify_eq. eapply Hend; [done|done|]. apply errs_log_choice in E2. unfold pick_err in E2. naive_solver. }
    destruct (IH _ H) as (picks & Eg & Hl & Hok & Hne & Hp).
    exists (best :: picks). split.
    { rewrite Eg. unfold g_rules at 1. cbn [with_rules with_est g_est e_rules]. rewrite <- app_assoc. done. }
    split; [simpl; lia|]. split; [intros Hr; simpl; by rewrite Hok|]. split; [done|].
    intros [|i] b Hi; simpl in Hi.
    + injection Hi as <-. simpl. rewrite app_nil_r. done.
    + specialize (Hp i b Hi).
      change (g_rules (with_rules (g_rules g ++ [Bound best]) g)) with (g_rules g ++ [Bound best]) in Hp.
      rewrite <- app_assoc in Hp. exact Hp.
Qed.

Lemma second_round_out {W} (S : samplers W) ord (g : gs W) r g' :
  fit_2nd_round S ord g = (r, g') ->
  r <> Err OutOfFuel /\ g_rounds g' = g_rounds g /\ g_params g' = g_params g /\ g_world g' = g_world g /\
  g_round1 g' = Some (g_rules g) /\ g_obj1 g' = g_obj1 g /\
  e_train (g_est g') = e_train (g_est g) /\
  (length (g_rules g') <= length (g_rules g))%nat /\
  (forall rs, r = Ok rs -> rs = g_rules g' /\ length rs = length (g_rules g) /\
     objective_of_selected DivMax g' = rbind (Ok tt) (fun _ => match g_obj2 g' with Some o => Ok o | None => Err TypeError end) /\
     is_Some (g_obj2 g') /\
     exists cands picks, g_cands g = Some cands /\ cands <> [] /\ rs = map Bound picks /\
       forall i b, picks !! i = Some b ->
         select_best_candidate DivMax (p_lambd (g_params g)) (map Bound (take i picks)) (rule_iter S (g_world g) cands) = Ok b).
Proof.
  unfold fit_2nd_round, sbind, sget, smod. intros H.
  destruct (g_cands g) as [[|c cands]|] eqn:Ec.
  - unfold serr in H. simplify_eq. repeat split; try done. simpl. lia.
  - destruct (second_loop S (c :: cands) (length (g_rules g)) (with_rules [] (with_round1 (g_rules g) g)))
      as [r1 g1] eqn:E1.
    destruct (second_loop_out _ _ _ _ _ _ E1) as (picks & Eg & Hl & Hok & Hne & Hp).
    assert (g_rules g1 = map Bound picks) as Er by (rewrite Eg; done).
    assert (Hk : g_rounds g1 = g_rounds g /\ g_params g1 = g_params g /\ g_world g1 = g_world g /\
      g_round1 g1 = Some (g_rules g) /\ g_obj1 g1 = g_obj1 g /\ e_train (g_est g1) = e_train (g_est g)) by (rewrite Eg; done).
    destruct Hk as (K1 & K2 & K3 & K4 & K5 & K6).
    destruct r1 as [[]|e].
    2: { injection H as <- <-. repeat split; try done; [intros Hx; injection Hx as ->; by apply Hne|]. rewrite Er, map_length. done. }
    unfold slift, sret in H. destruct (log_coverage ord (g_est g1)) as [[]|e] eqn:E2.
    2: { injection H as <- <-. repeat split; try done.
         - intros Heq. injection Heq as ->. by apply log_coverage_sane in E2.
         - rewrite Er, map_length. done. }
    destruct (objective_of_selected DivMax g1) as [o|e] eqn:E3.
    2: { injection H as <- <-. repeat split; try done.
         - intros Heq. injection Heq as ->. by apply objective_selected_sane in E3.
         - rewrite Er, map_length. done. }
    injection H as <- <-. cbn [with_obj2 g_rounds g_params g_world g_round1 g_obj1 g_obj2 g_est g_rules].
    split; [done|]. split; [done|]. split; [done|]. split; [done|]. split; [done|]. split; [done|]. split; [done|].
    unfold g_rules at 1. cbn [with_obj2 g_est]. fold (g_rules g1). split; [rewrite Er, map_length; done|].
    intros rs Hrs. injection Hrs as <-. split; [done|]. split; [rewrite Er, map_length; auto|].
    split.
    { unfold objective_of_selected in *. exact E3. }
    split; [eauto|]. exists (c :: cands), picks. split; [done|]. split; [done|]. split; [done|]. intros i b Hi.
    specialize (Hp i b Hi). exact Hp.
  - unfold serr in H. simplify_eq. repeat split; try done. simpl. lia.
Qed.

Lemma first_round_out {W} (S : samplers W) ord fuel X Y (g : gs W) r g' :
  fit_1st_round S ord fuel X Y g = (r, g') ->
  exists r0 g0, fit_start S DivMax X Y g = (r0, g0) /\
    match r0 with
    | Err e => r = Err e /\ g' = g0
    | Ok _ => exists r1 g1, fit_loop S DivMax ord X Y fuel g0 = (r1, g1) /\
        g_rules g' = g_rules g1 /\ g_params g' = g_params g1 /\ g_rounds g' = g_rounds g1 /\
        g_world g' = g_world g1 /\ e_train (g_est g') = e_train (g_est g1) /\ g_cands g' = g_cands g1 /\
        (forall e, r1 = Err e -> r = Err e /\ g' = g1) /\
        (r = Err OutOfFuel -> r1 = Err OutOfFuel) /\
        (forall rs, r = Ok rs -> r1 = Ok tt /\ rs = g_rules g' /\
           exists o, g_obj1 g' = Some o /\ objective_of_selected DivMax g' = Ok o)
    end.
Proof.
  intros H. destruct (fit_start S DivMax X Y g) as [r0 g0] eqn:E0. exists r0, g0. split; [done|].
  unfold fit_1st_round, sbind in H. rewrite E0 in H. destruct r0 as [[]|e]; [|by simplify_eq].
  destruct (fit_loop S DivMax ord X Y fuel g0) as [r1 g1] eqn:E1. exists r1, g1. split; [done|].
  destruct r1 as [[]|e].
  - unfold sget, slift, smod, sret in H. destruct (log_coverage ord (g_est g1)) as [[]|e] eqn:E2.
    + destruct (objective_of_selected DivMax g1) as [o|e] eqn:E3.
      * simplify_eq. repeat split; try done; [naive_solver|]. simpl. exists o. split; [done|].
        unfold objective_of_selected in *. exact E3.
      * simplify_eq. repeat split; try done. intros Hx. injection Hx as ->. by apply objective_selected_sane in E3.
    + simplify_eq. repeat split; try done. intros Hx. injection Hx as ->. by apply log_coverage_sane in E2.
  - simplify_eq. repeat split; try done; naive_solver.
Qed.

Lemma C42_budget_proof : forall W (S : samplers W) (cls : greedy_class) (ord : gset Z -> list Z) (fuel : nat) (X Y : csr)
    (g : gs W) r g' (k : Z),
  sane S -> p_n_max (g_params g) = Some k -> (Z.to_nat (k - zlen (g_rules g)) < fuel)%nat ->
  fit S cls ord fuel X Y g = (r, g') ->
  r <> Err OutOfFuel /\
  zlen (g_rules g') <= Z.max k (zlen (g_rules g)) /\
  (g_rounds g' <= g_rounds g + Z.to_nat (k - zlen (g_rules g)) + 1)%nat /\
  (r = Ok tt -> k <= zlen (g_rules g') \/
     exists w, generate_candidate_rules S ord (g_params g) X Y w = (Err NoMoreSamples, g_world g')).
Proof.
  intros W S cls ord fuel X Y g r g' k Hs Hk Hf H.
  assert (Hst : forall r0 g0, fit_start S cls X Y g = (r0, g0) -> r0 <> Err OutOfFuel).
  { intros r0 g0 E. apply fit_start_out in E as (_ & _ & _ & _ & _ & -> & _). apply Hs. }
  assert (Hloop : forall r0 g0 r1 g1, fit_start S cls X Y g = (r0, g0) ->
     fit_loop S cls ord X Y fuel g0 = (r1, g1) ->
     g_params g1 = g_params g /\ r1 <> Err OutOfFuel /\ zlen (g_rules g1) <= Z.max k (zlen (g_rules g)) /\
     (g_rounds g1 <= g_rounds g + Z.to_nat (k - zlen (g_rules g)) + 1)%nat /\
     (r1 = Ok tt -> k <= zlen (g_rules g1) \/
       exists w, generate_candidate_rules S ord (g_params g) X Y w = (Err NoMoreSamples, g_world g1))).
  { intros r0 g0 r1 g1 E0 E1. apply fit_start_out in E0 as (Er & Ep & En & _).
    assert (p_n_max (g_params g0) = Some k) as Hk0 by by rewrite Ep.
    destruct (fit_loop_budget _ _ _ _ _ _ _ _ _ k Hk0 E1) as (B1 & B2 & B3).
    destruct (fit_loop_extends _ _ _ _ _ _ _ _ _ E1) as (X1 & _ & new & X3 & X4 & _).
    rewrite Er, En, Ep in *. split; [done|]. split; [by apply B2|]. split; [done|]. split; [|done].
    rewrite X3, zlen_map_bound in B1. unfold zlen in *. lia. }
  assert (cls = DivMax \/ cls <> DivMax) as [->|Hc] by (destruct cls; auto).
  - change (fit S DivMax ord fuel X Y g) with (fit_divmax S ord fuel X Y g) in H.
    unfold fit_divmax, sbind in H. destruct (fit_1st_round S ord fuel X Y g) as [ra ga] eqn:Ea.
    destruct (first_round_out _ _ _ _ _ _ _ _ Ea) as (r0 & g0 & E0 & Hm).
    specialize (Hst _ _ E0).
    destruct r0 as [[]|e].
    2: { destruct Hm as [-> ->]. injection H as <- <-. apply fit_start_out in E0 as (Er & Ep & En & _).
         rewrite Er, En. split; [congruence|]. split; [lia|]. split; [lia|]. done. }
    destruct Hm as (r1 & g1 & E1 & M1 & M2 & M3 & M4 & M5 & M6 & M7 & M8 & M9).
    destruct (Hloop _ _ _ _ E0 E1) as (L0 & L1 & L2 & L3 & L4).
    destruct ra as [rs1|e].
    2: { injection H as <- <-. rewrite M1, M3. split; [|done]. intros Hx. injection Hx as ->. auto. }
    destruct (M9 rs1 eq_refl) as (-> & -> & _). specialize (L4 eq_refl).
    destruct (fit_2nd_round S ord ga) as [rb gb] eqn:Eb.
    destruct (second_round_out _ _ _ _ _ Eb) as (N1 & N2 & N3 & N4 & _ & _ & _ & N5 & N6).
    assert (zlen (g_rules gb) <= Z.max k (zlen (g_rules g))) as Hlen.
    { rewrite M1 in N5. unfold zlen in *. lia. }
    destruct rb as [rs2|e].
    2: { injection H as <- <-. rewrite N2, M3. split; [congruence|]. done. }
    destruct (N6 rs2 eq_refl) as (-> & N7 & _). unfold sget in H.
    destruct (g_obj1 gb) as [o1|], (g_obj2 gb) as [o2|];
      try (unfold serr in H; injection H as <- <-; rewrite N2, M3; done).
    unfold smod in H. injection H as <- <-.
    unfold g_rules at 1. cbn [with_rules with_obj with_est g_est e_rules g_rounds g_world].
    assert (zlen (if Rltb o2 o1 then g_rules ga else g_rules gb) = zlen (g_rules g1)) as E.
    { destruct (Rltb o2 o1); [by rewrite M1|]. unfold zlen. rewrite N7, M1. done. }
    rewrite E. rewrite N2, M3. split; [done|]. split; [lia|]. split; [done|]. intros _.
    unfold g_rules at 1. cbn [with_rules with_obj with_est g_est e_rules g_rounds g_world]. rewrite E, N4, M4. done.
  - destruct (fit_simple_out _ _ _ _ _ _ _ _ _ Hc H) as (r0 & g0 & E0 & Hm).
    specialize (Hst _ _ E0). destruct r0 as [[]|e].
    2: { destruct Hm as [-> ->]. apply fit_start_out in E0 as (Er & Ep & En & _).
         rewrite Er, En. split; [done|]. split; [lia|]. split; [lia|]. done. }
    destruct Hm as (r1 & g1 & E1 & M1 & M2 & M3 & M4 & M5 & M6 & M7 & M8).
    destruct (Hloop _ _ _ _ E0 E1) as (L0 & L1 & L2 & L3 & L4).
    rewrite M1, M3, M4. split; [auto|]. split; [done|]. split; [done|]. auto.
Qed.


Lemma C42_same_for_every_bound_proof : forall W (S : samplers W) (cls : greedy_class) (ord : gset Z -> list Z) (fuel fuel' : nat)
    (X Y : csr) (g : gs W) (k : Z),
  sane S -> p_n_max (g_params g) = Some k ->
  (Z.to_nat (k - zlen (g_rules g)) < fuel)%nat -> (Z.to_nat (k - zlen (g_rules g)) < fuel')%nat ->
  fit S cls ord fuel X Y g = fit S cls ord fuel' X Y g.
Proof.
  intros W S cls ord fuel fuel' X Y g k Hs Hk H1 H2.
  assert (forall r0 g0, fit_start S cls X Y g = (r0, g0) ->
    fit_loop S cls ord X Y fuel g0 = fit_loop S cls ord X Y fuel' g0) as Hl.
  { intros r0 g0 E0. apply fit_start_out in E0 as (Er & Ep & En & _).
    assert (p_n_max (g_params g0) = Some k) as Hk0 by by rewrite Ep.
    destruct (fit_loop S cls ord X Y fuel g0) as [r1 g1] eqn:E1.
    destruct (fit_loop S cls ord X Y fuel' g0) as [r2 g2] eqn:E2.
    destruct (fit_loop_budget _ _ _ _ _ _ _ _ _ k Hk0 E1) as (_ & B1 & _).
    destruct (fit_loop_budget _ _ _ _ _ _ _ _ _ k Hk0 E2) as (_ & B2 & _).
    rewrite Er in B1, B2. specialize (B1 Hs H1). specialize (B2 Hs H2).
    apply (fit_loop_mono _ _ _ _ _ _ (Nat.max fuel fuel')) in E1, E2; try done; [congruence|lia|lia]. }
  destruct cls; cbn [fit]; unfold fit_divmax, fit_1st_round, fit_v2, fit_submod, sbind;
    destruct (fit_start S _ X Y g) as [[[]|e] g0] eqn:E0; try done; by rewrite (Hl _ _ eq_refl).
Qed.



(** ** Rules and their cells *)
Lemma covering_facts ord X Y b A : set_order ord -> dataset X Y -> covering ord X Y b A ->
  label_occs b = A /\ NoDup (r_tail (b_rule b)) /\ sized b /\ counts_ok b.
Proof.
  intros Hord Hd (h & t & Hnd & Hpos & Hb & HA). split; [eapply bound_new_cells; eauto|].
  destruct (bound_new_tail _ _ _ _ _ _ Hord Hd Hpos Hnd Hb) as [H1 H2].
  split; [done|]. split; [done|]. eapply bound_new_counts; eauto.
Qed.

Lemma covers_somewhere_facts ord b A : set_order ord -> covers_somewhere ord b A ->
  label_occs b = A /\ NoDup (r_tail (b_rule b)) /\ sized b /\ counts_ok b.
Proof. intros Hord (X & Y & Hd & Hc). by eapply covering_facts. Qed.

Lemma set_order_NoDup (ord : gset Z -> list Z) (s : gset Z) : set_order ord -> NoDup (ord s).
Proof. intros H. rewrite (H s). apply NoDup_elements. Qed.

Lemma generated_covering {W} (S : samplers W) ord p X Y w c w' b :
  set_order ord -> wf_cmat (csr_mat Y) = true -> tails_valid S (csr_cols Y) ->
  dataset (tocsc X) (tocsc Y) ->
  generate_candidate_rules S ord p X Y w = (Ok c, w') -> b ∈ c ->
  covering ord (tocsc X) (tocsc Y) b (label_occs b).
Proof.
  intros Hord Hwf Hv Hd H Hb. unfold generate_candidate_rules in H.
  destruct (generate_loop_ok _ _ _ _ _ _ _ _ _ _ Hord Hwf H) as (ds & Hds & [_ Hbu] & _ & _ & Hr).
  { split; [constructor|]. intros b' Hb'. inversion Hb'. }
  assert (b_rule b ∈ map b_rule c) as Hin by (apply elem_of_map; eauto).
  apply Hr in Hin as [Hin|(tail & heads & head & Hin & _ & E)]; [inversion Hin|].
  assert (forall ds w w' n, draws_from S X Y (p_n_heads p) n w ds w' -> forall tail heads, (tail, heads) ∈ ds ->
     forall c, c ∈ tail -> 0 <= c) as Hpos.
  { clear -Hv. induction 1 as [|n w w1 w2 w3 w4 t y hs ds Ht _ _ _ _ IH]; intros tail heads Hin c Hc; [inversion Hin|].
    apply elem_of_cons in Hin as [Hin|Hin]; [|by eapply IH].
    injection Hin as -> ->. apply (Hv _ _ _ Ht c) in Hc. lia. }
  assert (forall c, c ∈ ord tail -> 0 <= c) as Hp.
  { intros x Hx. apply set_order_elem in Hx; [|done]. by eapply Hpos. }
  assert (bind_dataset ord (new_rule (ord head) (ord tail)) (tocsc X) (tocsc Y) = Ok b) as Hbd.
  { rewrite <- E. auto. }
  exists (ord head), (ord tail). split; [by apply set_order_NoDup|]. split; [done|]. split; [done|].
  intros x. rewrite (label_occs_covers _ _ _ _ x (bound_new _ _ _ _ _ _ Hord Hd Hp Hbd)). simpl.
  apply covers_perm; apply py_sorted_perm.
Qed.

Lemma bounds_map bs : bounds_of (map Bound bs) = Ok bs.
Proof. induction bs as [|b bs IH]; [done|]. cbn. unfold bounds_of in IH. rewrite IH. done. Qed.

Lemma new_cells_diff b bs : new_cells b bs = label_occs b ∖ union_occs bs.
Proof.
  apply set_eq. intros c. rewrite elem_of_new_cells, elem_of_difference, elem_of_union_occs. naive_solver.
Qed.

Lemma all_cells_map bs : all_cells (map label_occs bs) = union_occs bs.
Proof. done. Qed.

Lemma Forall2_cells ord bs As : set_order ord -> Forall2 (covers_somewhere ord) bs As -> As = map label_occs bs.
Proof.
  intros Hord. induction 1 as [|b A bs As H _ IH]; [done|]. cbn. f_equal; [|done].
  by apply covers_somewhere_facts in H as [H _].
Qed.

Lemma fresh_new_cells b bs : fresh (label_occs b) (map label_occs bs) = IZR (Z.of_nat (size (new_cells b bs))).
Proof. unfold fresh. rewrite all_cells_map, <- new_cells_diff. apply INR_IZR_INZ. Qed.

Lemma pick_inv {W} (S : samplers W) cls Y (g : gs W) c best stop : iter_ok S ->
  pick S cls Y g c = Ok (best, stop) ->
  best ∈ c /\ should_stop cls (g_params g) Y (g_rules g) best = Ok stop.
Proof.
  intros Hi H. unfold pick in H. apply rbind_ok in H as (b & Hb & H). apply rbind_ok in H as (? & _ & H).
  apply rbind_ok in H as (st & Hs & H). injection H as -> ->. split; [|done].
  apply py_max_mem in Hb as [Hb _]. by rewrite (Hi _ c) in Hb.
Qed.

Definition occ_set (Y : csr) : gset (Z * Z) := list_to_set (cell_list Y).
Lemma occ_size (Y : csr) : wf_cmat (csr_mat Y) = true -> Z.of_nat (size (occ_set Y)) <= nnz (csr_mat Y).
Proof.
  intros Hwf. rewrite nnz_lines by done. unfold occ_set.
  assert (length (cell_list Y) = length (concat (lines (csr_mat Y)))) as E.
  { unfold cell_list, lines, csr_rows. induction (py_range _) as [|i l IH]; simpl; [done|].
    rewrite !app_length, map_length. lia. }
  unfold zlen. rewrite <- E. clear E. generalize (cell_list Y). intros l. apply inj_le.
  induction l as [|x l IH]; [done|]. rewrite list_to_set_cons. cbn [length].
  pose proof (size_union_inter {[x]} (list_to_set l : gset (Z * Z))) as E. rewrite size_singleton in E. lia.
Qed.

Lemma covering_occ (ord : gset Z -> list Z) (X Y : csr) b : wf_cmat (csr_mat Y) = true ->
  covering ord (tocsc X) (tocsc Y) b (label_occs b) -> label_occs b ⊆ occ_set Y.
Proof.
  intros Hwf (h & t & _ & _ & _ & HA) c Hc. apply HA in Hc. destruct c as [i j].
  unfold occ_set. apply elem_of_list_to_set, elem_of_cell_list; [done|].
  by apply (covers_occ X Y h t (i, j) Hwf).
Qed.

Lemma zsum_cons x l : zsum (x :: l) = x + zsum l.
Proof. done. Qed.

Lemma size_left (O : gset (Z * Z)) (old : list bound) (best : bound) : label_occs best ⊆ O ->
  size (O ∖ union_occs old) = (size (O ∖ union_occs (old ++ [best])) + size (new_cells best old))%nat.
Proof.
  intros Hsub. rewrite union_occs_app, new_cells_diff. generalize dependent (label_occs best).
  generalize (union_occs old). intros U A HA. rewrite <- size_union by set_solver. f_equal. apply set_eq. intros x.
  rewrite elem_of_union, !elem_of_difference, elem_of_union, elem_of_difference. specialize (HA x).
  destruct (decide (x ∈ A)), (decide (x ∈ U)); tauto.
Qed.

(** the loop in tolerance mode *)
Lemma fit_loop_tolerance {W} (S : samplers W) ord X Y fuel (g : gs W) r g' old :
  set_order ord -> iter_ok S -> tails_valid S (csr_cols Y) -> wf_cmat (csr_mat Y) = true ->
  dataset (tocsc X) (tocsc Y) ->
  p_n_max (g_params g) = None -> (0 <= p_tolerance (g_params g))%R -> g_rules g = map Bound old ->
  fit_loop S DivMax ord X Y fuel g = (r, g') ->
  (sane S -> (size (occ_set Y ∖ union_occs old) < fuel)%nat -> r <> Err OutOfFuel) /\
  (g_rounds g' <= g_rounds g + size (occ_set Y ∖ union_occs old) + 1)%nat /\
  exists new, g_rules g' = map Bound (old ++ new) /\
    (forall b, b ∈ new -> covering ord (tocsc X) (tocsc Y) b (label_occs b)) /\
    (forall i b, new !! i = Some b ->
       (p_tolerance (g_params g) * IZR (nnz (csr_mat Y)) < IZR (Z.of_nat (size (new_cells b (old ++ take i new)))))%R) /\
    Z.of_nat (size (occ_set Y ∖ union_occs old)) >= zsum (marg_list old new) /\
    (new <> [] -> 0 < nnz (csr_mat Y)) /\
    (r = Ok tt -> (exists w, generate_candidate_rules S ord (g_params g) X Y w = (Err NoMoreSamples, g_world g')) \/
       exists w c best, generate_candidate_rules S ord (g_params g) X Y w = (Ok c, g_world g') /\ best ∈ c /\
         covering ord (tocsc X) (tocsc Y) best (label_occs best) /\
         (IZR (Z.of_nat (size (new_cells best (old ++ new)))) <= p_tolerance (g_params g) * IZR (nnz (csr_mat Y)))%R).
Proof.
  intros Hord Hi Hv Hwf Hd. revert g old. induction fuel as [|fuel IH]; intros g old Hk Ht Hold H; cbn [fit_loop] in H.
  - unfold serr in H. simplify_eq. split; [lia|]. split; [lia|]. exists []. rewrite app_nil_r. split; [done|].
    split; [intros b Hb; inversion Hb|]. split; [done|]. split; [cbn; lia|]. done.
  - unfold sbind in H. destruct (fit_round S DivMax ord X Y g) as [r1 g1] eqn:E.
    pose proof (fit_round_out _ _ _ _ _ _ _ _ E) as Ro.
    destruct (round_keeps _ _ _ _ _ _ _ _ Ro) as (Kp & _ & _ & _ & Kr & _ & _ & _ & _ & Kn).
    assert (Hnn : 0 <= nnz (csr_mat Y)) by (pose proof (occ_size Y Hwf); lia).
    assert (Hstop : forall best stop (g2 : gs W), g_params g2 = g_params g -> g_rules g2 = g_rules g ->
      should_stop DivMax (g_params g2) Y (g_rules g2) best = Ok stop ->
      0 < nnz (csr_mat Y) /\
      if stop then (IZR (Z.of_nat (size (new_cells best old))) <= p_tolerance (g_params g) * IZR (nnz (csr_mat Y)))%R
      else (p_tolerance (g_params g) * IZR (nnz (csr_mat Y)) < IZR (Z.of_nat (size (new_cells best old))))%R).
    { clear - Hk Hold Hnn. intros best stop g2 E1 E2 Hst. rewrite E1, E2 in Hst. unfold should_stop in Hst. rewrite Hk, Hold in Hst.
      rewrite bounds_map in Hst. cbn [rbind] in Hst. rewrite mcr_value in Hst. unfold py_div in Hst.
      destruct (Z.eqb_spec (nnz (csr_mat Y)) 0) as [E0|E0]; [done|]. cbn [rbind] in Hst. injection Hst as <-.
      assert (0 < IZR (nnz (csr_mat Y)))%R as Hp by (apply IZR_lt; lia).
      split; [lia|]. unfold Rleb. set (c := IZR (Z.of_nat (size (new_cells best old)))) in *.
      set (n := IZR (nnz (csr_mat Y))) in *. assert (c = c / n * n)%R as Ec by (field; lra).
      destruct (Rle_dec (c / n) (p_tolerance (g_params g))) as [Hle|Hle].
      - rewrite Ec. apply Rmult_le_compat_r; lra.
      - rewrite Ec. apply Rmult_lt_compat_r; lra. }
    destruct r1 as [[]|e].
    + unfold sret in H. injection H as <- <-. rewrite Kr, Kn by done. split; [done|]. split; [lia|].
      exists []. rewrite app_nil_r. split; [done|]. split; [intros b Hb; inversion Hb|]. split; [done|].
      split; [cbn; lia|]. split; [done|]. intros _. inversion Ro; subst.
      * left. exists (g_world g). done.
      * right. exists (g_world g), c, best. rewrite keep_world. split; [done|].
        match goal with Hp : pick _ _ _ _ _ = Ok (_, true) |- _ => apply pick_inv in Hp as [Hb Hst]; [|done] end.
        split; [done|]. split; [by eapply generated_covering|].
        by destruct (Hstop best _ (keep_candidates DivMax c (with_world w (tick g))) (keep_params DivMax c (with_world w (tick g))) (keep_rules DivMax c (with_world w (tick g))) Hst) as [_ Hst'].
    + inversion Ro; subst.
      match goal with Hp : pick _ _ _ _ _ = Ok (_, false) |- _ => apply pick_inv in Hp as [Hb Hst]; [|done] end.
      destruct (Hstop best _ (keep_candidates DivMax c (with_world w (tick g))) (keep_params DivMax c (with_world w (tick g))) (keep_rules DivMax c (with_world w (tick g))) Hst) as [Hnz Hst']. clear Hst. rename Hst' into Hst.
      assert (Hcov : covering ord (tocsc X) (tocsc Y) best (label_occs best)) by by eapply generated_covering.
      pose proof (covering_occ _ _ _ _ Hwf Hcov) as Hsub.
      assert (Hsz : size (occ_set Y ∖ union_occs old) =
        (size (occ_set Y ∖ union_occs (old ++ [best])) + size (new_cells best old))%nat).
      { by apply size_left. }
      assert (Hpos : (0 < size (new_cells best old))%nat).
      { assert (0 < IZR (Z.of_nat (size (new_cells best old))))%R as Hlt.
        { eapply Rle_lt_trans; [|exact Hst]. apply Rmult_le_pos; [done|]. apply IZR_le. lia. }
        apply lt_IZR in Hlt. lia. }
      match type of H with fit_loop _ _ _ _ _ _ ?g2 = _ => set (g3 := g2) in * end.
      destruct (IH g3 (old ++ [best])) as (I1 & I2 & new & I3 & I4 & I5 & I6 & I7 & I8); [| | |exact H|].
      { by rewrite Kp. }
      { by rewrite Kp. }
      { change (g_rules g ++ [Bound best] = map Bound (old ++ [best])). by rewrite Hold, map_app. }
      rewrite Kp in I5, I8. rewrite Kr in I2.
      split; [intros Hs Hf; apply I1; [done|lia]|]. split; [lia|].
      exists (best :: new). rewrite <- app_assoc in I3. split; [done|].
      split; [intros b' Hb'; apply elem_of_cons in Hb' as [->|Hb']; auto|].
      split.
      { intros [|i] b' Hl; simpl in Hl.
        - injection Hl as <-. simpl. rewrite app_nil_r. done.
        - specialize (I5 i b' Hl). rewrite <- app_assoc in I5. exact I5. }
      split; [cbn [marg_list]; rewrite zsum_cons; lia|]. split; [done|].
      intros Hr. destruct (I8 Hr) as [G|G]; [by left|right].
      destruct G as (w3 & c3 & b3 & G1 & G2 & G3 & G4). exists w3, c3, b3.
      split; [done|]. split; [done|]. split; [done|]. rewrite <- app_assoc in G4. exact G4.
    + injection H as <- <-. rewrite Kr, Kn by done. split.
      { intros Hs _ Heq. injection Heq as ->. inversion Ro; subst.
        * match goal with Hg : generate_candidate_rules _ _ _ _ _ _ = (Err _, _) |- _ =>
            pose proof (generate_sane S ord (g_params g) X Y (g_world g) Hs) as G; rewrite Hg in G; by apply G end.
        * match goal with Hp : pick _ _ _ _ _ = Err _ |- _ => apply errs_pick in Hp end.
          unfold pick_err in *. naive_solver.
        * destruct Hs as (_ & _ & Hu & _).
          match goal with Hg : tail_update _ _ _ _ = (Err _, _) |- _ =>
            eapply (Hu (b_support best)); rewrite Hg; done end. }
      split; [lia|]. exists []. rewrite app_nil_r. split; [done|]. split; [intros b Hb; inversion Hb|]. split; [done|].
      split; [cbn; lia|]. done.
Qed.

Lemma C43_tolerance_proof : forall W (S : samplers W) (ord : gset Z -> list Z) (fuel : nat) (X Y : csr) (g : gs W) r g'
    (old : list bound) (Bs : list (gset (Z * Z))),
  sane S -> iter_ok S -> tails_valid S (csr_cols Y) -> set_order ord ->
  wf_cmat (csr_mat X) = true -> wf_cmat (csr_mat Y) = true -> csr_rows X = csr_rows Y ->
  let tol := p_tolerance (g_params g) in
  let n := IZR (nnz (csr_mat Y)) in
  p_n_max (g_params g) = None -> (0 <= tol)%R ->
  g_rules g = map Bound old -> Forall2 (covers_somewhere ord) old Bs ->
  (Z.to_nat (nnz (csr_mat Y)) < fuel)%nat ->
  fit_1st_round S ord fuel X Y g = (r, g') ->
  r <> Err OutOfFuel /\ (g_rounds g' <= g_rounds g + Z.to_nat (nnz (csr_mat Y)) + 1)%nat /\
  exists (new : list bound) (As : list (gset (Z * Z))), g_rules g' = map Bound (old ++ new) /\
    Forall2 (covering ord (tocsc X) (tocsc Y)) new As /\
    (forall i A, As !! i = Some A -> (tol * n < fresh A (Bs ++ take i As))%R) /\
    ((0 < tol)%R -> (INR (length new) < 1 / tol)%R) /\
    (forall rs, r = Ok rs -> rs = g_rules g' /\
      ((exists w, generate_candidate_rules S ord (g_params g) X Y w = (Err NoMoreSamples, g_world g')) \/
       exists w cands best A, generate_candidate_rules S ord (g_params g) X Y w = (Ok cands, g_world g') /\
         best ∈ cands /\ covering ord (tocsc X) (tocsc Y) best A /\ (fresh A (Bs ++ As) <= tol * n)%R)).
Proof.
  intros W S ord fuel X Y g r g' old Bs Hs Hi Hv Hord HwfX HwfY Hrows tol n Hk Ht Hold HB Hf H.
  assert (Hd : dataset (tocsc X) (tocsc Y)) by by apply dataset_tocsc.
  apply (Forall2_cells ord _ _ Hord) in HB. subst Bs.
  destruct (first_round_out _ _ _ _ _ _ _ _ H) as (r0 & g0 & E0 & Hm).
  apply fit_start_out in E0 as E0'. destruct E0' as (Er & Ep & En & _ & _ & Ert & _).
  pose proof (occ_size Y HwfY) as Hocc.
  assert (Hrle : (size (occ_set Y ∖ union_occs old) <= size (occ_set Y))%nat) by (apply subseteq_size; set_solver).
  destruct r0 as [[]|e].
  2: { destruct Hm as [-> ->]. split.
       { intros Heq. injection Heq as ->. destruct Hs as [Hs _]. by apply (Hs Y (g_world g)). }
       rewrite En. split; [lia|]. exists [], []. rewrite app_nil_r, Er. split; [done|]. split; [constructor|].
       split; [done|]. split; [|done]. intros Htp. cbn. apply Rlt_gt, Rdiv_lt_0_compat; lra. }
  destruct Hm as (r1 & g1 & E1 & M1 & M2 & M3 & M4 & M5 & M6 & M7 & M8 & M9).
  unfold tol in *. rewrite <- Ep in *. rewrite <- Er in Hold.
  destruct (fit_loop_tolerance _ _ _ _ _ _ _ _ old Hord Hi Hv HwfY Hd Hk Ht Hold E1)
    as (L1 & L2 & new & L3 & L4 & L5 & L6 & L7 & L8).
  split; [intros Hx; apply M8 in Hx; revert Hx; apply L1; [done|lia]|].
  split; [rewrite M3; lia|]. exists new, (map label_occs new). rewrite M1. split; [done|].
  split.
  { apply list.Forall2_fmap_r. apply Forall_Forall2_diag. apply list.Forall_forall. exact L4. }
  split.
  { intros i A HA. rewrite list_lookup_fmap in HA. destruct (new !! i) as [b|] eqn:Eb; [|done].
    injection HA as <-. rewrite <- fmap_take, <- map_app, fresh_new_cells. by apply L5. }
  split.
  { intros Htp. destruct new as [|b0 new0] eqn:Enew.
    { cbn. apply Rlt_gt, Rdiv_lt_0_compat; lra. }
    rewrite <- Enew in *. assert (0 < nnz (csr_mat Y)) as Hnz by (apply L7; by rewrite Enew).
    assert (0 < n)%R as Hn by (unfold n; apply IZR_lt; lia).
    assert (INR (length new) * (p_tolerance (g_params g0) * n) < n)%R as Hlt.
    { apply Rlt_le_trans with (IZR (zsum (marg_list old new))).
      - assert (forall pre l, (forall i z, marg_list pre l !! i = Some z -> (p_tolerance (g_params g0) * n < IZR z)%R) ->
          l <> [] -> (INR (length l) * (p_tolerance (g_params g0) * n) < IZR (zsum (marg_list pre l)))%R) as G.
        { clear. intros pre l. revert pre. induction l as [|b l IH]; intros pre Hl Hne; [done|].
          cbn [marg_list length] in *. rewrite zsum_cons, plus_IZR, S_INR.
          pose proof (Hl 0%nat _ eq_refl) as H0. destruct l as [|b' l].
          - cbn [length marg_list]. change (zsum []) with 0. cbn [INR]. lra.
          - assert (INR (length (b' :: l)) * (p_tolerance (g_params g0) * n) < IZR (zsum (marg_list (pre ++ [b]) (b' :: l))))%R.
            { apply IH; [|done]. intros i z Hz. by apply (Hl (Datatypes.S i)). }
            lra. }
        apply G; [|by rewrite Enew]. intros i z Hz.
        destruct (new !! i) as [b|] eqn:Eb.
        + rewrite (lookup_marg_list _ _ _ _ Eb) in Hz. injection Hz as <-. by apply L5.
        + apply lookup_ge_None in Eb. apply lookup_lt_Some in Hz. rewrite length_marg_list in Hz. lia.
      - unfold n. apply IZR_le. lia. }
    apply (Rmult_lt_reg_r (p_tolerance (g_params g0) * n)); [by apply Rmult_lt_0_compat|].
    replace (1 / p_tolerance (g_params g0) * (p_tolerance (g_params g0) * n))%R with n by (field; lra). done. }
  intros rs Hrs. destruct (M9 rs Hrs) as (Hr1 & -> & _). split; [by rewrite M1|].
  rewrite M4. destruct (L8 Hr1) as [G|(w & c & best & G1 & G2 & G3 & G4)]; [by left|right].
  exists w, c, best, (label_occs best). split; [done|]. split; [done|]. split; [done|].
  rewrite <- map_app, fresh_new_cells. done.
Qed.


(** ** A run that never ends *)
Definition divX : csr := Csr (of_lines 2 [[(0,1);(1,1)]; [(0,1)]; [(1,1)]]).
Definition divY : csr := Csr (of_lines 2 [[(0,1);(1,1)]; [(0,1)]; [(1,1)]]).
Definition divB : bound :=
  match bind_dataset elements (new_rule [0] [0]) (tocsc divX) (tocsc divY) with
  | Ok b => b
  | Err _ => MkBound (new_rule [] []) 0 0 0 0 ∅ 0 ∅ 0 ∅ 0
  end.
(** samplers that always answer tail {0} and head {0} *)
Definition divS : samplers unit := Samplers
  (fun _ w => (Ok tt, w)) (fun w => (Ok {[0]}, w)) (fun _ _ w => (Ok tt, w))
  (fun _ _ w => (Ok tt, w)) (fun _ w => (Ok [Some {[0]}], w)) (fun _ l => l).

Lemma divB_counts : counts_ok divB.
Proof. constructor; vm_compute; intuition congruence. Qed.

Lemma rmap_replicate {A B} (f : A -> result B) x v n : f x = Ok v -> rmap f (replicate n x) = Ok (replicate n v).
Proof. intros H. induction n as [|n IH]; [done|]. cbn [replicate rmap]. rewrite H, IH. done. Qed.

Lemma divB_select n lambd c0 : c0 <> Submod ->
  select_best_candidate c0 lambd (replicate n (Bound divB)) [divB] = Ok divB /\
  log_choice (replicate n (Bound divB)) divB = Ok tt.
Proof.
  intros Hc.
  assert (Hm : replicate n (Bound divB) = map Bound (replicate n divB)) by (symmetry; apply fmap_replicate).
  split.
  - unfold select_best_candidate, py_max. rewrite Hm, bounds_map. cbn [rbind].
    assert (exists d, diversity_of_rule (replicate n divB) divB = Ok d) as [d Hd].
    { unfold diversity_of_rule. assert (exists v, distance divB divB = Ok v) as [v Hv] by (eexists; vm_compute; reflexivity).
      rewrite (rmap_replicate _ _ _ _ Hv). cbn [rbind]. eauto. }
    assert (exists q, quality_of_rule c0 (replicate n divB) divB = Ok q) as [q Hq].
    { unfold quality_of_rule. rewrite marginal_coverage_size. cbn [rbind].
      rewrite KL_ok by apply divB_counts. cbn [rbind]. eauto. }
    assert (exists v, objective_of_rule c0 lambd (replicate n divB) divB = Ok v) as [v ->].
    { destruct c0; try done; unfold objective_of_rule; rewrite Hq; cbn [rbind]; rewrite Hd; cbn [rbind]; eauto. }
    done.
  - unfold log_choice. rewrite tpr_ok, base_rate_ok by apply divB_counts. cbn [rbind].
    rewrite Hm, bounds_map. cbn [rbind]. rewrite marginal_coverage_size. cbn [rbind].
    rewrite KL_ok by apply divB_counts. done.
Qed.

Lemma divB_pick n l tol lambd k c0 (g : gs unit) : g_rules g = replicate n (Bound divB) ->
  g_params g = GParams lambd 1 1 k tol -> l = [divB] -> c0 <> Submod ->
  pick divS c0 divY g l = let! stop := should_stop c0 (g_params g) divY (g_rules g) divB in Ok (divB, stop).
Proof.
  intros Hr Hp -> Hc. unfold pick. rewrite Hp, Hr. cbn [p_lambd].
  destruct (divB_select n lambd c0 Hc) as [Hs Hl].
  change (rule_iter divS (g_world g) [divB]) with [divB]. rewrite Hs. cbn [rbind]. rewrite Hl. done.
Qed.

Lemma divS_round c0 n tol lambd k (g : gs unit) : g_rules g = replicate n (Bound divB) ->
  g_params g = GParams lambd 1 1 k tol -> c0 <> Submod ->
  should_stop c0 (g_params g) divY (g_rules g) divB = Ok false ->
  exists g', fit_round divS c0 elements divX divY g = (Ok false, g') /\
    g_rules g' = replicate (Datatypes.S n) (Bound divB) /\ g_params g' = GParams lambd 1 1 k tol.
Proof.
  intros Hr Hp Hc Hst. destruct (fit_round divS c0 elements divX divY g) as [r g'] eqn:E.
  pose proof (fit_round_out _ _ _ _ _ _ _ _ E) as Ro.
  destruct (round_keeps _ _ _ _ _ _ _ _ Ro) as (Kp & _).
  assert (Hg : generate_candidate_rules divS elements (g_params g) divX divY (g_world g) = (Ok [divB], g_world g)).
  { rewrite Hp. destruct (g_world g). vm_compute. reflexivity. }
  assert (Hpick : forall g1, g_rules g1 = g_rules g -> g_params g1 = g_params g ->
     pick divS c0 divY g1 [divB] = Ok (divB, false)).
  { intros g1 E1 E2. rewrite (divB_pick n _ tol lambd k); [|by rewrite E1|by rewrite E2|done|done].
    rewrite E1, E2, Hst. done. }
  exists (with_rules (g_rules g ++ [Bound divB]) (with_world (g_world g) (keep_candidates c0 [divB] (with_world (g_world g) (tick g))))).
  assert (forall r g', round_out divS c0 elements divX divY g r g' -> r = Ok false /\
    g' = with_rules (g_rules g ++ [Bound divB]) (with_world (g_world g) (keep_candidates c0 [divB] (with_world (g_world g) (tick g))))) as G.
  { clear - Hg Hpick.
    assert (Hpk : forall c w, (Ok c, w) = (Ok [divB], g_world g) ->
      pick divS c0 divY (keep_candidates c0 c (with_world w (tick g))) c = Ok (divB, false)).
    { intros c w Eq. injection Eq as -> ->. apply Hpick; [by rewrite keep_rules|by rewrite keep_params]. }
    destruct 1 as [w H|e w H|c w g1 e H -> H2|c w g1 b H -> H2|c w g1 b e w2 H -> H2 H3|c w g1 b w2 H -> H2 H3];
      rewrite H in Hg; try done; specialize (Hpk _ _ Hg); rewrite Hpk in H2; try done.
    injection H2 as <-. injection Hg as -> ->. cbn in H3. injection H3 as <-. done. }
  destruct (G _ _ Ro) as [-> ->]. split; [done|]. split; [|by rewrite Kp].
  change (g_rules g ++ [Bound divB] = replicate (Datatypes.S n) (Bound divB)). rewrite Hr.
  by rewrite <- replicate_S_end.
Qed.

(** complete runs of these samplers with a budget, used as examples *)
Lemma divS_loop c0 k n lambd tol (g : gs unit) : c0 <> Submod ->
  g_rules g = replicate n (Bound divB) -> g_params g = GParams lambd 1 1 (Some (Z.of_nat (n + k))) tol ->
  exists g', fit_loop divS c0 elements divX divY (Datatypes.S k) g = (Ok tt, g') /\
    g_rules g' = replicate (n + k) (Bound divB).
Proof.
  intros Hc. revert n g. induction k as [|k IH]; intros n g Hr Hp.
  - cbn [fit_loop]. unfold sbind.
    destruct (fit_round divS c0 elements divX divY g) as [r g'] eqn:E.
    pose proof (fit_round_out _ _ _ _ _ _ _ _ E) as Ro.
    assert (Hg : generate_candidate_rules divS elements (g_params g) divX divY (g_world g) = (Ok [divB], g_world g)).
    { rewrite Hp. destruct (g_world g). vm_compute. reflexivity. }
    assert (Hst : should_stop c0 (g_params g) divY (g_rules g) divB = Ok true).
    { rewrite Hp, Hr. unfold should_stop. cbn [p_n_max]. unfold zlen. rewrite replicate_length. f_equal. apply Z.leb_le. lia. }
    assert (Hpk : forall c w, (Ok c, w) = (Ok [divB], g_world g) ->
      pick divS c0 divY (keep_candidates c0 c (with_world w (tick g))) c = Ok (divB, true)).
    { intros c w Eq. injection Eq as -> ->.
      rewrite (divB_pick n _ tol lambd (Some (Z.of_nat (n + 0)))); [|by rewrite keep_rules|by rewrite keep_params|done|done].
      rewrite keep_rules, keep_params. change (g_params (with_world (g_world g) (tick g))) with (g_params g).
      change (g_rules (with_world (g_world g) (tick g))) with (g_rules g). rewrite Hst. done. }
    assert (r = Ok true /\ g_rules g' = g_rules g) as [-> Hr'].
    { clear E. destruct Ro as [w H|e w H|c w g1 e H -> H2|c w g1 b H -> H2|c w g1 b e w2 H -> H2 H3|c w g1 b w2 H -> H2 H3];
        rewrite H in Hg; try done; specialize (Hpk _ _ Hg); rewrite Hpk in H2; try done.
      split; [done|]. by rewrite keep_rules. }
    exists g'. split; [done|]. rewrite Hr', Hr. f_equal. lia.
  - destruct (divS_round c0 n tol lambd (Some (Z.of_nat (n + Datatypes.S k))) g Hr Hp Hc) as (g1 & E & Hr1 & Hp1).
    { rewrite Hp, Hr. unfold should_stop. cbn [p_n_max]. unfold zlen. rewrite replicate_length. f_equal. apply Z.leb_gt. lia. }
    cbn [fit_loop]. unfold sbind at 1. rewrite E.
    destruct (IH (Datatypes.S n) g1 Hr1) as (g2 & E2 & Hr2).
    { rewrite Hp1. do 3 f_equal. lia. }
    exists g2. split; [exact E2|]. rewrite Hr2. f_equal. lia.
Qed.

Lemma C43_negative_tolerance_runs_forever_proof : exists W (S : samplers W) (X Y : csr) (w : W),
  sane S /\ iter_ok S /\ tails_valid S (csr_cols Y) /\ wf_cmat (csr_mat X) = true /\ wf_cmat (csr_mat Y) = true /\
  csr_rows X = csr_rows Y /\
  forall (lambd tol : R) (fuel : nat), (tol < 0)%R ->
    exists g', fit_1st_round S elements fuel X Y (new_classifier (GParams lambd 1 1 None tol) w) = (Err OutOfFuel, g') /\
      length (g_rules g') = fuel.
Proof.
  exists unit, divS, divX, divY, tt. split; [repeat split; done|]. split; [intros w l; done|].
  split.
  { intros w w' tail H c Hc. cbn in H. injection H as <- _. apply elem_of_singleton in Hc as ->. vm_compute. split; congruence. }
  split; [by_compute|]. split; [by_compute|]. split; [by_compute|].
  intros lambd tol fuel Ht.
  assert (forall fuel n (g : gs unit), g_rules g = replicate n (Bound divB) -> g_params g = GParams lambd 1 1 None tol ->
    exists g', fit_loop divS DivMax elements divX divY fuel g = (Err OutOfFuel, g') /\
      g_rules g' = replicate (n + fuel) (Bound divB)) as G.
  { clear fuel. induction fuel as [|fuel IH]; intros n g Hr Hp; cbn [fit_loop].
    - exists g. split; [done|]. by rewrite Nat.add_0_r.
    - destruct (divS_round DivMax n tol lambd None g Hr Hp) as (g1 & E & Hr1 & Hp1); [done| |].
      { rewrite Hp. unfold should_stop. cbn [p_n_max p_tolerance].
        rewrite Hr. replace (replicate n (Bound divB)) with (map Bound (replicate n divB)) by apply fmap_replicate.
        rewrite bounds_map. cbn [rbind]. rewrite mcr_value.
        unfold py_div. replace (nnz (csr_mat divY)) with 4 by by_compute. cbn [Z.eqb rbind].
        unfold Rleb. destruct (Rle_dec _ _) as [Hle|Hle]; [|done]. exfalso.
        assert (0 <= IZR (Z.of_nat (size (new_cells divB (replicate n divB)))))%R by (apply IZR_le; lia). lra. }
      unfold sbind. rewrite E. destruct (IH _ _ Hr1 Hp1) as (g2 & E2 & Hr2). exists g2. split; [done|].
      rewrite Hr2. f_equal. lia. }
  unfold fit_1st_round, sbind.
  destruct (fit_start divS DivMax divX divY (new_classifier (GParams lambd 1 1 None tol) tt)) as [r0 g0] eqn:E0.
  apply fit_start_out in E0 as (Er & Ep & _ & _ & _ & -> & _). cbn [divS tail_fit fst].
  destruct (G fuel 0%nat g0 Er Ep) as (g' & E & Hr). rewrite E. exists g'. split; [done|].
  rewrite Hr, replicate_length. done.
Qed.


(** ** The reported objective *)
Lemma pair_diversity_cons A As : pair_diversity (A :: As) = (rsum (map (jaccard A) As) + pair_diversity As)%R.
Proof.
  unfold pair_diversity. rewrite imap_cons. cbn [concat]. rewrite PRandR.rsum_app. f_equal.
Qed.

Lemma elem_of_combinations2 {A} (l : list A) a b :
  (a, b) ∈ combinations2 l <-> exists i j, (i < j)%nat /\ l !! i = Some a /\ l !! j = Some b.
Proof.
  induction l as [|x l IH]; cbn [combinations2].
  - split; [intros H; inversion H|]. intros (i & j & _ & H & _). done.
  - rewrite elem_of_app, elem_of_map, IH. split.
    + intros [(y & E & Hy)|(i & j & Hlt & Hi & Hj)].
      * simplify_eq. apply elem_of_list_lookup in Hy as [j Hj]. exists 0%nat, (Datatypes.S j). split; [lia|]. done.
      * exists (Datatypes.S i), (Datatypes.S j). split; [lia|]. done.
    + intros ([|i] & [|j] & Hlt & Hi & Hj); try lia; simpl in Hi, Hj.
      * left. injection Hi as ->. exists b. split; [done|]. by eapply elem_of_list_lookup_2.
      * right. exists i, j. split; [lia|]. done.
Qed.

Definition fine (b : bound) : Prop := NoDup (r_tail (b_rule b)) /\ sized b /\ counts_ok b.

Lemma rmap_distance (ps : list (bound * bound)) : (forall a b, (a, b) ∈ ps -> fine a /\ fine b) ->
  ((forall a b, (a, b) ∈ ps -> label_occs a ∪ label_occs b <> ∅) ->
     rmap (fun ab => distance (fst ab) (snd ab)) ps = Ok (map (fun ab => jaccard (label_occs (fst ab)) (label_occs (snd ab))) ps)) /\
  (forall a b, (a, b) ∈ ps -> label_occs a ∪ label_occs b = ∅ ->
     rmap (fun ab => distance (fst ab) (snd ab)) ps = Err ZeroDivisionError).
Proof.
  induction ps as [|[a b] ps IH]; intros Hf.
  - split; [done|]. intros a b H. inversion H.
  - destruct (Hf a b) as [(Ha1 & Ha2 & _) (Hb1 & Hb2 & _)]; [set_solver|].
    destruct IH as [IH1 IH2]; [intros a' b' H'; apply Hf; set_solver|].
    cbn [rmap fst snd map]. rewrite distance_jaccard by done. split.
    + intros Hne. rewrite bool_decide_eq_false_2 by (apply Hne; set_solver). cbn [rbind].
      rewrite IH1 by (intros a' b' H'; apply Hne; set_solver). done.
    + intros a' b' Hin He. case_bool_decide as Hd; [done|]. cbn [rbind].
      apply elem_of_cons in Hin as [Hin|Hin]; [by simplify_eq|]. by rewrite (IH2 a' b').
Qed.

Lemma rsum_zeros {A} (l : list A) : rsum (map (fun _ => 0%R) l) = 0%R.
Proof. induction l as [|x l IH]; [done|]. cbn [map]. rewrite PRandR.rsum_cons, IH. lra. Qed.

Lemma objective_fine cls lambd sel : (forall b, b ∈ sel -> fine b) ->
  (pairs_covered (map label_occs sel) ->
     objective cls lambd sel sel = Ok (lambd * pair_diversity (map label_occs sel))%R) /\
  (~ pairs_covered (map label_occs sel) -> objective cls lambd sel sel = Err ZeroDivisionError).
Proof.
  intros Hf.
  assert (Hq : rmap (quality_of_rule cls sel) sel = Ok (map (fun _ => 0%R) sel)).
  { assert (forall l, (forall b, b ∈ l -> b ∈ sel) -> rmap (quality_of_rule cls sel) l = Ok (map (fun _ => 0%R) l)) as G; [|auto].
    induction l as [|b l IH]; intros Hl; [done|]. cbn [rmap map].
    assert (quality_of_rule cls sel b = Ok 0%R) as ->.
    { unfold quality_of_rule. rewrite marginal_coverage_size.
      assert (new_cells b sel = ∅) as ->.
      { apply set_eq. intros c. rewrite elem_of_new_cells. split; [|set_solver]. intros [H1 H2]. exfalso.
        apply (H2 b); [apply Hl; set_solver|done]. }
      rewrite size_empty. change (Z.of_nat 0) with 0. cbn [rbind]. rewrite KL_ok by (apply (Hf b), Hl; set_solver). cbn [rbind].
      destruct cls; rewrite ?sqrt_0, Rmult_0_l; done. }
    cbn [rbind]. rewrite IH by (intros b' Hb'; apply Hl; set_solver). done. }
  unfold objective. rewrite Hq. cbn [rbind].
  destruct (rmap_distance (combinations2 sel)) as [D1 D2].
  { intros a b H. apply elem_of_combinations2 in H as (i & j & _ & Hi & Hj). apply elem_of_list_lookup_2 in Hi, Hj. auto. }
  split.
  - intros Hp. rewrite D1.
    + cbn [rbind]. rewrite rsum_zeros. f_equal. rewrite Rplus_0_l. f_equal.
      clear. induction sel as [|a sel IH]; [done|]. cbn [combinations2]. rewrite map_app, PRandR.rsum_app.
      cbn [map]. rewrite pair_diversity_cons, IH. f_equal. rewrite !map_map. done.
    + intros a b H. apply elem_of_combinations2 in H as (i & j & Hlt & Hi & Hj).
      eapply (Hp i j); [done| |]; by rewrite list_lookup_fmap, ?Hi, ?Hj.
  - intros Hn. assert (exists a b, (a, b) ∈ combinations2 sel /\ label_occs a ∪ label_occs b = ∅) as (a & b & H & He).
    { destruct (decide (Exists (fun ab => label_occs (fst ab) ∪ label_occs (snd ab) = ∅) (combinations2 sel))) as [Hx|Hx].
      - apply list.Exists_exists in Hx as ([a b] & H1 & H2). eauto.
      - exfalso. apply Hn. intros i j A B Hlt Hi Hj He. apply Hx. apply list.Exists_exists.
        rewrite list_lookup_fmap in Hi, Hj. destruct (sel !! i) as [a|] eqn:Ei; [|done].
        destruct (sel !! j) as [b|] eqn:Ej; [|done]. cbn in Hi, Hj. simplify_eq.
        exists (a, b). split; [|done]. apply elem_of_combinations2. eauto. }
    by rewrite (D2 a b H He).
Qed.

Lemma Forall2_fine ord bs As : set_order ord -> Forall2 (covers_somewhere ord) bs As -> forall b, b ∈ bs -> fine b.
Proof.
  intros Hord. induction 1 as [|b A bs As H _ IH]; intros b' Hb'; [inversion Hb'|].
  apply elem_of_cons in Hb' as [->|Hb']; [|auto]. apply covers_somewhere_facts in H; [|done]. unfold fine. tauto.
Qed.

Lemma C45_objective_is_diversity_proof : forall (cls : greedy_class) (ord : gset Z -> list Z) (lambd : R) (sel : list bound)
    (As : list (gset (Z * Z))),
  set_order ord -> cls <> Submod -> Forall2 (covers_somewhere ord) sel As ->
  (pairs_covered As -> objective cls lambd sel sel = Ok (lambd * pair_diversity As)%R) /\
  (~ pairs_covered As -> objective cls lambd sel sel = Err ZeroDivisionError).
Proof.
  intros cls ord lambd sel As Hord _ HF. pose proof (Forall2_fine _ _ _ Hord HF) as Hf.
  apply (Forall2_cells ord _ _ Hord) in HF as ->. by apply objective_fine.
Qed.


Lemma C45_reported_proof : forall W (S : samplers W) (cls : greedy_class) (ord : gset Z -> list Z) (fuel : nat) (X Y : csr)
    (g g' : gs W) (bs : list bound) (As : list (gset (Z * Z))),
  set_order ord -> cls = DivMaxV2 \/ cls = DivMaxV3 ->
  fit S cls ord fuel X Y g = (Ok tt, g') ->
  g_rules g' = map Bound bs -> Forall2 (covers_somewhere ord) bs As ->
  pairs_covered As /\ g_obj g' = Some (p_lambd (g_params g) * pair_diversity As)%R.
Proof.
  intros W S cls ord fuel X Y g g' bs As Hord Hc H Hr HF.
  assert (fit_v2 S cls ord fuel X Y g = (Ok tt, g')) as H' by (destruct Hc; subst; exact H). clear H.
  unfold fit_v2, sbind in H'. destruct (fit_start S cls X Y g) as [[[]|e] g0] eqn:E0; [|done].
  apply fit_start_out in E0 as (Er & Ep & _).
  destruct (fit_loop S cls ord X Y fuel g0) as [[[]|e] g1] eqn:E1; [|done].
  apply fit_loop_extends in E1 as (Ep1 & _).
  unfold sget, slift, smod in H'. destruct (objective_of_selected cls g1) as [o|e] eqn:Eo; [|done].
  injection H' as _ <-. change (g_rules g1 = map Bound bs) in Hr. cbn [with_obj g_obj].
  unfold objective_of_selected in Eo. rewrite Hr, bounds_map in Eo. cbn [rbind] in Eo.
  destruct (C45_objective_is_diversity_proof cls ord (p_lambd (g_params g1)) bs As) as [H1 H2]; try done.
  { destruct Hc; subst; done. }
  assert (~ ~ pairs_covered As) as Hnn.
  { intros Hn. rewrite H2 in Eo by done. done. }
  assert (pairs_covered As) as Hp.
  { intros i j A B Hlt Hi Hj He. apply Hnn. intros Hp. by eapply Hp. }
  split; [done|]. rewrite H1 in Eo by done. injection Eo as <-. rewrite Ep1, Ep. done.
Qed.


(** ** Candidates kept by the first round *)
Lemma union_rules_elem old new b : b ∈ union_rules old new -> b ∈ old \/ b ∈ new.
Proof.
  unfold union_rules. revert old. induction new as [|x new IH]; intros old; cbn [fold_left]; [by left|].
  intros H. apply IH in H as [H|H]; [|right; by right].
  destruct (rule_mem (b_rule x) old); [by left|]. apply elem_of_app in H as [H|H]; [by left|right].
  apply elem_of_list_singleton in H as ->. left.
Qed.

Definition generated {W} (S : samplers W) (ord : gset Z -> list Z) (p : gparams) (X Y : csr) (b : bound) : Prop :=
  exists w cs w', generate_candidate_rules S ord p X Y w = (Ok cs, w') /\ b ∈ cs.

Lemma fit_loop_cands {W} (S : samplers W) ord X Y fuel (g : gs W) r g' cs :
  g_cands g = Some cs -> (forall b, b ∈ cs -> generated S ord (g_params g) X Y b) ->
  fit_loop S DivMax ord X Y fuel g = (r, g') ->
  exists cs', g_cands g' = Some cs' /\ forall b, b ∈ cs' -> generated S ord (g_params g) X Y b.
Proof.
  revert g cs. induction fuel as [|fuel IH]; intros g cs Hc Hg H; cbn [fit_loop] in H.
  - unfold serr in H. injection H as _ <-. eauto.
  - unfold sbind in H. destruct (fit_round S DivMax ord X Y g) as [r1 g1] eqn:E.
    pose proof (fit_round_out _ _ _ _ _ _ _ _ E) as Ro.
    destruct (round_keeps _ _ _ _ _ _ _ _ Ro) as (Kp & _).
    assert (exists cs1, g_cands g1 = Some cs1 /\ forall b, b ∈ cs1 -> generated S ord (g_params g) X Y b) as (cs1 & Hc1 & Hg1).
    { assert (forall c w, generate_candidate_rules S ord (g_params g) X Y (g_world g) = (Ok c, w) ->
        exists cs1, Some (union_rules cs c) = Some cs1 /\ forall b, b ∈ cs1 -> generated S ord (g_params g) X Y b) as G.
      { intros c w Hgen. eexists. split; [done|]. intros b Hb. apply union_rules_elem in Hb as [Hb|Hb]; [auto|].
        exists (g_world g), c, w. done. }
      destruct Ro; subst; cbn [keep_candidates keeps_candidates with_world with_cands with_rules with_est tick g_cands];
        rewrite ?Hc; cbn [option_map]; eauto. }
    destruct r1 as [[]|e].
    + unfold sret in H. injection H as _ <-. eauto.
    + destruct (IH g1 cs1 Hc1) as (cs' & H1 & H2); [by rewrite Kp|exact H|]. exists cs'. rewrite Kp in H2. done.
    + injection H as _ <-. eauto.
Qed.

Lemma C44_better_round_worse_objective_proof : forall W (S : samplers W) (ord : gset Z -> list Z) (fuel : nat) (X Y : csr) (g g' : gs W),
  set_order ord -> iter_ok S -> fit S DivMax ord fuel X Y g = (Ok tt, g') ->
  let lambd := p_lambd (g_params g) in
  exists (r1 r2 : list srule) (g1 : gs W) (o1 o2 : R) (cands picks : list bound),
    fit_1st_round S ord fuel X Y g = (Ok r1, g1) /\ length r1 = length r2 /\
    ((o2 < o1)%R /\ g_rules g' = r1 \/ (o1 <= o2)%R /\ g_rules g' = r2) /\
    g_obj g' = Some (Rmin o1 o2) /\ g_obj1 g' = Some o1 /\ g_obj2 g' = Some o2 /\ g_round1 g' = Some r1 /\
    (forall bs As, r1 = map Bound bs -> Forall2 (covers_somewhere ord) bs As -> o1 = (lambd * pair_diversity As)%R) /\
    (forall As, Forall2 (covers_somewhere ord) picks As -> o2 = (lambd * pair_diversity As)%R) /\
    r2 = map Bound picks /\ cands <> [] /\
    (forall b, b ∈ cands -> exists w cs w', generate_candidate_rules S ord (g_params g) X Y w = (Ok cs, w') /\ b ∈ cs) /\
    (forall i b, picks !! i = Some b -> b ∈ cands /\
       forall f : bound -> R, (forall c, c ∈ cands -> objective_of_rule DivMax lambd (take i picks) c = Ok (f c)) ->
         forall c, c ∈ cands -> (f c <= f b)%R).
Proof.
  intros W S ord fuel X Y g g' Hord Hi H lambd.
  change (fit S DivMax ord fuel X Y g) with (fit_divmax S ord fuel X Y g) in H.
  unfold fit_divmax, sbind in H. destruct (fit_1st_round S ord fuel X Y g) as [[rs1|e] ga] eqn:Ea; [|done].
  destruct (first_round_out _ _ _ _ _ _ _ _ Ea) as (r0 & g0 & E0 & Hm).
  apply fit_start_out in E0 as E0'. destruct E0' as (Er0 & Ep0 & _ & _ & _ & _ & Ec0 & _).
  destruct r0 as [[]|e]; [|by destruct Hm].
  destruct Hm as (r1 & g1 & E1 & M1 & M2 & M3 & M4 & M5 & M6 & M7 & M8 & M9).
  destruct (M9 rs1 eq_refl) as (-> & -> & o1 & Ho1 & Hobj1).
  destruct (fit_loop_extends _ _ _ _ _ _ _ _ _ E1) as (Ep1 & _).
  assert (Hpa : g_params ga = g_params g) by (rewrite M2, Ep1, Ep0; done).
  destruct (fit_loop_cands S ord X Y fuel g0 (Ok tt) g1 [] (Ec0 eq_refl eq_refl)) as (cs & Hcs & Hgen); [|exact E1|].
  { intros b Hb. inversion Hb. }
  rewrite Ep0 in Hgen. rewrite <- M6 in Hcs.
  destruct (fit_2nd_round S ord ga) as [[rs2|e] gb] eqn:Eb; [|done].
  destruct (second_round_out _ _ _ _ _ Eb) as (_ & _ & N3 & _ & N5 & N6 & _ & _ & N8).
  destruct (N8 rs2 eq_refl) as (-> & Hlen & Hobj2 & [o2 Ho2] & cands & picks & Hc & Hne & Hp & Hsel).
  rewrite Hcs in Hc. injection Hc as ->.
  unfold sget in H. rewrite N6, Ho1, Ho2 in H. unfold smod in H. injection H as <-.
  exists (g_rules ga), (g_rules gb), ga, o1, o2, cands, picks.
  split; [done|]. split; [done|]. split.
  { change (g_rules (with_rules ?x ?y)) with x. unfold Rltb. destruct (Rlt_dec o2 o1); [left; done|right].
    split; [lra|done]. }
  split; [done|]. split; [cbn; by rewrite N6|]. split; [done|]. split; [done|].
  assert (Hobj : forall (g2 : gs W) bs As o, g_params g2 = g_params g -> g_rules g2 = map Bound bs ->
     objective_of_selected DivMax g2 = Ok o -> Forall2 (covers_somewhere ord) bs As -> o = (lambd * pair_diversity As)%R).
  { intros g2 bs As o E2 Eb2 Ho HF. unfold objective_of_selected in Ho. rewrite Eb2, bounds_map, E2 in Ho.
    cbn [rbind] in Ho. destruct (C45_objective_is_diversity_proof DivMax ord lambd bs As) as [H1 H2]; try done.
    fold lambd in Ho.
    assert (~ ~ pairs_covered As) as Hnn by (intros Hn; rewrite H2 in Ho; done).
    assert (pairs_covered As) as Hpc.
    { intros i j A B Hlt HA HB He. apply Hnn. intros Hpc. by eapply Hpc. }
    rewrite H1 in Ho by done. by injection Ho as <-. }
  split; [intros bs As Eb2 HF; by eapply (Hobj ga)|].
  split.
  { intros As HF. eapply (Hobj gb picks); try done; [by rewrite N3|]. rewrite Hobj2, Ho2. done. }
  split; [done|]. split; [done|]. split; [done|].
  intros i b Hib. specialize (Hsel i b Hib). rewrite Hpa in Hsel.
  apply py_max_mem in Hsel as Hmem. destruct Hmem as [Hmem _]. rewrite (Hi _ cands) in Hmem. split; [done|].
  intros f Hf c Hcin.
  destruct (C41_best_candidate_proof DivMax lambd (take i picks) cands f (rule_iter S (g_world ga) cands) (Hi _ _) Hf) as [HC _].
  destruct (HC Hne) as (best & ? & ? & Hbest & _ & Hmax & _).
  fold lambd in Hsel. rewrite Hsel in Hbest. injection Hbest as <-. auto.
Qed.


Lemma C46_refit_extends_proof : forall W (S : samplers W) (cls : greedy_class) (ord : gset Z -> list Z) (fuel : nat) (X Y : csr)
    (g : gs W) r g',
  cls <> DivMax -> fit S cls ord fuel X Y g = (r, g') ->
  e_train (g_est g') = Some (X, Y) /\
  (exists new : list bound, g_rules g' = g_rules g ++ map Bound new) /\
  (forall k, p_n_max (g_params g) = Some k -> k <= zlen (g_rules g) -> g_rules g' = g_rules g).
Proof.
  intros W S cls ord fuel X Y g r g' Hc H.
  destruct (fit_simple_out _ _ _ _ _ _ _ _ _ Hc H) as (r0 & g0 & E0 & Hm).
  apply fit_start_out in E0 as (Er & Ep & _ & Et & _).
  destruct r0 as [[]|e].
  2: { destruct Hm as [_ ->]. split; [done|]. split; [exists []; by rewrite app_nil_r, Er|]. intros. by rewrite Er. }
  destruct Hm as (r1 & g1 & E1 & M1 & M2 & M3 & M4 & M5 & _).
  destruct (fit_loop_extends _ _ _ _ _ _ _ _ _ E1) as (_ & Ht & new & Hn & _).
  split; [by rewrite M5, Ht|]. rewrite M1, Hn, Er. split; [eauto|]. intros k Hk Hle.
  assert (p_n_max (g_params g0) = Some k) as Hk0 by by rewrite Ep.
  destruct (fit_loop_budget _ _ _ _ _ _ _ _ _ k Hk0 E1) as (B & _). rewrite Hn, zlen_map_bound, Er in B.
  destruct new as [|b new]; [by rewrite app_nil_r|]. rewrite zlen_cons in B. pose proof (zlen_nonneg new). lia.
Qed.


Lemma C46_refit_divmax_proof : forall W (S : samplers W) (ord : gset Z -> list Z) (fuel : nat) (X Y : csr) (g g' : gs W),
  set_order ord -> iter_ok S -> fit S DivMax ord fuel X Y g = (Ok tt, g') ->
  exists new picks : list bound,
    g_round1 g' = Some (g_rules g ++ map Bound new) /\
    (g_rules g' = g_rules g ++ map Bound new \/ g_rules g' = map Bound picks) /\
    length (g_rules g') = (length (g_rules g) + length new)%nat /\
    (forall b, b ∈ picks -> exists w cs w', generate_candidate_rules S ord (g_params g) X Y w = (Ok cs, w') /\ b ∈ cs) /\
    (forall k, p_n_max (g_params g) = Some k -> k <= zlen (g_rules g) -> new = []).
Proof.
  intros W S ord fuel X Y g g' Hord Hi H.
  destruct (C44_better_round_worse_objective_proof W S ord fuel X Y g g' Hord Hi H)
    as (r1 & r2 & g1 & o1 & o2 & cands & picks & H1 & Hlen & Hsel & _ & _ & _ & Hr1 & _ & _ & Hp & _ & Hgen & Hpk).
  destruct (first_round_out _ _ _ _ _ _ _ _ H1) as (r0 & g0 & E0 & Hm).
  apply fit_start_out in E0 as (Er & Ep & _).
  destruct r0 as [[]|e]; [|by destruct Hm].
  destruct Hm as (r3 & g3 & E1 & M1 & M2 & M3 & M4 & M5 & M6 & M7 & M8 & M9).
  destruct (M9 r1 eq_refl) as (_ & -> & _).
  destruct (fit_loop_extends _ _ _ _ _ _ _ _ _ E1) as (_ & _ & new & Hn & _).
  exists new, picks. rewrite M1, Hn, Er in *. split; [done|].
  assert (length (g_rules g ++ map Bound new) = (length (g_rules g) + length new)%nat) as Hl
    by (rewrite app_length, map_length; done).
  split; [destruct Hsel as [[_ Hs]|[_ Hs]]; rewrite Hs; auto|].
  split; [destruct Hsel as [[_ Hs]|[_ Hs]]; rewrite Hs; congruence|].
  split.
  { intros b Hb. apply elem_of_list_lookup in Hb as [i Hb]. apply Hpk in Hb as [Hb _]. auto. }
  intros k Hk Hle.
  assert (p_n_max (g_params g0) = Some k) as Hk0 by by rewrite Ep.
  destruct (fit_loop_budget _ _ _ _ _ _ _ _ _ k Hk0 E1) as (B & _). rewrite Hn, zlen_map_bound, Er in B.
  destruct new as [|b new]; [done|]. rewrite zlen_cons in B. pose proof (zlen_nonneg new). lia.
Qed.


Lemma C48_objectives_proof : forall (ord : gset Z -> list Z) (X Y : csc) (head tail : list Z) (b : bound) (A : gset (Z * Z))
    (H T : gset Z) (sel : list bound) (As : list (gset (Z * Z))) (lambd : R),
  set_order ord -> dataset X Y -> (forall c, c ∈ tail -> 0 <= c) -> NoDup tail ->
  bind_dataset ord (new_rule head tail) X Y = Ok b ->
  (forall c, c ∈ A <-> covers X Y head tail c) ->
  (forall i, i ∈ H <-> row_matches X head i) -> (forall i, i ∈ T <-> row_matches Y tail i) ->
  Forall2 (covers_somewhere ord) sel As ->
  let kl := kl_quality (INR (size (H ∩ T)) / INR (size H)) (INR (size T) / IZR (csc_rows X)) in
  let dist := rsum (map (jaccard A) As) in
  (0 <= kl)%R /\
  objective_of_rule Submod lambd sel b
    = Ok ((if decide (A ⊆ all_cells As) then 0 else kl) + lambd * SGreedy.fresh A As)%R /\
  ((forall B, B ∈ As -> A ∪ B <> ∅) ->
     objective_of_rule DivMax lambd sel b = Ok (SGreedy.fresh A As * kl + lambd * dist)%R /\
     objective_of_rule DivMaxV2 lambd sel b = Ok (SGreedy.fresh A As * kl + lambd * dist)%R /\
     objective_of_rule DivMaxV3 lambd sel b = Ok (R_sqrt.sqrt (SGreedy.fresh A As) * kl + lambd * dist)%R) /\
  (forall B cls, B ∈ As -> A ∪ B = ∅ -> cls <> Submod ->
     objective_of_rule cls lambd sel b = Err ZeroDivisionError).
Proof.
  intros ord X Y head tail b A H T sel As lambd Hord Hd Hpos Hnd Hb HA HH HT HF kl dist.
  assert (Hcov : covering ord X Y b A) by (exists head, tail; done).
  destruct (covering_facts _ _ _ _ _ Hord Hd Hcov) as (EA & Hf1 & Hf2 & Hf3).
  pose proof (Forall2_fine _ _ _ Hord HF) as Hfine.
  apply (Forall2_cells ord _ _ Hord) in HF as ->. subst A.
  destruct (C08_rates_proof ord X Y head tail b H T (H ∩ T)) as (R1 & _ & R2 & _); try done.
  destruct (C08_KL_proof ord X Y head tail b _ _ Hord Hd Hpos Hb R1 R2) as (v & Hv & Hv0 & Hv1 & Hv2).
  assert (kl = v) as Ekl.
  { unfold kl, kl_quality. destruct (Rlt_dec _ _) as [Hlt|Hlt]; [by destruct (Hv2 Hlt) as [-> _]|].
    rewrite Hv1; [done|lra]. }
  rewrite Ekl. split; [done|].
  assert (Hmc : marginal_coverage b sel = Ok (Z.of_nat (size (new_cells b sel)))) by apply marginal_coverage_size.
  split.
  { unfold objective_of_rule. rewrite Hmc. cbn [rbind]. rewrite Hv. cbn [rbind]. rewrite fresh_new_cells.
    f_equal. f_equal. rewrite new_cells_diff, all_cells_map.
    destruct (Z.ltb_spec 0 (Z.of_nat (size (label_occs b ∖ union_occs sel)))) as [Hlt|Hge];
      destruct (decide (label_occs b ⊆ union_occs sel)) as [Hs|Hs]; try lra.
    - exfalso. assert (label_occs b ∖ union_occs sel = ∅) as E by set_solver. rewrite E, size_empty in Hlt. lia.
    - exfalso. apply Hs. assert (size (label_occs b ∖ union_occs sel) = 0%nat) as E by lia.
      apply size_empty_inv in E. intros c Hc. destruct (decide (c ∈ union_occs sel)); [done|]. set_solver. }
  assert (Hdiv : (forall B, B ∈ map label_occs sel -> label_occs b ∪ B <> ∅) -> diversity_of_rule sel b = Ok dist).
  { intros Hne. unfold diversity_of_rule, dist. rewrite map_map.
    assert (rmap (distance b) sel = Ok (map (fun x => jaccard (label_occs b) (label_occs x)) sel)) as ->; [|done].
    revert Hne Hfine. clear - Hf1 Hf2. induction sel as [|x sel IH]; intros Hne Hfine; [done|]. cbn [rmap map].
    destruct (Hfine x) as (F1 & F2 & _); [set_solver|].
    rewrite distance_jaccard by done. rewrite bool_decide_eq_false_2 by (apply Hne; left). cbn [rbind].
    rewrite IH; [done| |]; [intros B HB; apply Hne; by right|intros y Hy; apply Hfine; by right]. }
  assert (Hq : forall cls, quality_of_rule cls sel b =
     Ok (match cls with DivMaxV3 => R_sqrt.sqrt (SGreedy.fresh (label_occs b) (map label_occs sel)) * v
         | _ => SGreedy.fresh (label_occs b) (map label_occs sel) * v end)%R).
  { intros cls. unfold quality_of_rule. rewrite Hmc. cbn [rbind]. rewrite Hv. cbn [rbind]. by rewrite fresh_new_cells. }
  split.
  { intros Hne. specialize (Hdiv Hne). unfold objective_of_rule. rewrite !Hq. cbn [rbind]. rewrite Hdiv. done. }
  intros B cls HB He Hcls.
  assert (diversity_of_rule sel b = Err ZeroDivisionError) as Hz.
  { unfold diversity_of_rule.
    assert (rmap (distance b) sel = Err ZeroDivisionError) as ->; [|done].
    apply elem_of_map in HB as (x & -> & Hx). revert x Hx He Hfine. clear - Hf1 Hf2.
    induction sel as [|y sel IH]; intros x Hx He Hfine; [inversion Hx|]. cbn [rmap].
    destruct (Hfine y) as (F1 & F2 & _); [left|].
    rewrite distance_jaccard by done. case_bool_decide as Hd; [done|]. cbn [rbind].
    apply elem_of_cons in Hx as [->|Hx]; [done|].
    rewrite (IH x Hx He); [done|]. intros z Hz. apply Hfine. by right. }
  destruct cls; try done; unfold objective_of_rule; rewrite Hq; cbn [rbind]; rewrite Hz; done.
Qed.


Lemma C48_coverage_antitone_proof : forall (b : bound) (sel more : list bound) (m m' : Z),
  (forall x, x ∈ sel -> x ∈ more) ->
  marginal_coverage b sel = Ok m -> marginal_coverage b more = Ok m' -> 0 <= m' <= m.
Proof.
  intros b sel more m m' Hsub H1 H2. rewrite marginal_coverage_size in H1, H2. injection H1 as <-. injection H2 as <-.
  split; [lia|]. apply inj_le, subseteq_size. intros c Hc. apply elem_of_new_cells in Hc as [Hc Hn].
  apply elem_of_new_cells. split; [done|]. intros r Hr. apply Hn. auto.
Qed.


(** ** Errors *)
Lemma generate_prefix {W} (S : samplers W) ord X Y nh k w draws w1 m :
  set_order ord -> wf_cmat (csr_mat Y) = true ->
  draws_from S X Y nh k w draws w1 ->
  (forall tail heads h, (tail, heads) ∈ draws -> tail <> ∅ /\ (forall c, c ∈ tail -> 0 <= c < csr_cols Y) /\
     (h ∈ heads -> exists head, h = Some head /\
        is_ok (bind_dataset ord (new_rule (ord head) (ord tail)) (tocsc X) (tocsc Y)) = true)) ->
  forall rules, exists rules', generate_loop S ord X Y nh (k + m) rules w = generate_loop S ord X Y nh m rules' w1.
Proof.
  intros Hord Hwf Hd.
  induction Hd as [w|n w w1 w2 w3 w4 tail y heads ds Ht Hy Hf Hh Hd IH]; intros Hok rules.
  - exists rules. done.
  - cbn [Nat.add generate_loop]. unfold sbind at 1. rewrite Ht.
    destruct (Hok tail heads None) as (Hne & Hval & _); [left|].
    destruct (conj_v2_ok ord (tocsc Y) (ord tail)) as (v & Ev & Hlv & Hv).
    + done.
    + by apply flip_wf.
    + intros E. apply Hne. apply set_eq. intros x. rewrite <- (set_order_elem ord) by done. rewrite E. set_solver.
    + intros c Hc. apply (set_order_elem ord tail c Hord) in Hc. apply Hval in Hc. by rewrite tocsc_cols.
    + assert (v = y) as ->.
      { destruct (Hy Hne Hval) as [Hly Hy']. apply bool_vector_ext; [rewrite Hlv, Hly; done|].
        rewrite Hlv. intros i Hi. rewrite (Hv i Hi), (Hy' i) by done.
        setoid_rewrite (set_order_elem ord tail _ Hord). setoid_rewrite tocsc_has; [|done]. done. }
      unfold sbind at 1. unfold slift at 1. rewrite Ev. unfold sbind at 1. rewrite Hf.
      unfold sbind at 1. rewrite Hh.
      assert (exists rs, rfold (add_candidate ord X Y tail) rules heads = Ok rs) as [rs Hrs].
      { assert (forall h, h ∈ heads -> exists head, h = Some head /\
          is_ok (bind_dataset ord (new_rule (ord head) (ord tail)) (tocsc X) (tocsc Y)) = true) as Hb.
        { intros h Hin. destruct (Hok tail heads h) as (_ & _ & G); [left|]. auto. }
        clear -Hb. revert rules. induction heads as [|h heads IHh]; intros rules; [by exists rules|].
        cbn [rfold]. destruct (Hb h) as (head & -> & Hok); [left|]. cbn [add_candidate].
        assert (forall rs, exists rs', rfold (add_candidate ord X Y tail) rs heads = Ok rs') as G.
        { intros rs. apply IHh. intros h Hin. apply Hb. by right. }
        destruct (rule_mem _ _); [apply G|].
        destruct (bind_dataset _ _ _ _) as [b|e]; [apply G|done]. }
      unfold sbind at 1, slift at 1. rewrite Hrs. apply IH. intros t hs h Hin. apply Hok. by right.
Qed.

(** the vector of the tail *)
Lemma tail_vector (ord : gset Z -> list Z) (Y : csr) (tail : gset Z) :
  set_order ord -> wf_cmat (csr_mat Y) = true -> tail <> ∅ -> (forall c, c ∈ tail -> 0 <= c < csr_cols Y) ->
  exists v, conjunctive_collapse_v2 ord (tocsc Y) (ord tail) = Ok v /\ zlen v = csr_rows Y /\
    forall i, 0 <= i < csr_rows Y -> (v !! Z.to_nat i = Some true <-> forall c, c ∈ tail -> csr_has Y i c).
Proof.
  intros Hord Hwf Hne Hval.
  destruct (conj_v2_ok ord (tocsc Y) (ord tail)) as (v & Ev & Hlv & Hv).
  - done.
  - by apply flip_wf.
  - intros E. apply Hne. apply set_eq. intros x. rewrite <- (set_order_elem ord) by done. rewrite E. set_solver.
  - intros c Hc. apply (set_order_elem ord tail c Hord) in Hc. apply Hval in Hc. by rewrite tocsc_cols.
  - exists v. split; [done|]. split; [done|]. intros i Hi. rewrite (Hv i Hi).
    setoid_rewrite (set_order_elem ord tail _ Hord). setoid_rewrite tocsc_has; [|done]. done.
Qed.

Lemma add_heads_none ord X Y tail pre post rules :
  (forall h, h ∈ pre -> exists head, h = Some head /\
     is_ok (bind_dataset ord (new_rule (ord head) (ord tail)) (tocsc X) (tocsc Y)) = true) ->
  rfold (add_candidate ord X Y tail) rules (pre ++ None :: post) = Err TypeError.
Proof.
  revert rules. induction pre as [|h pre IH]; intros rules Hb; [done|]. cbn [app rfold].
  destruct (Hb h) as (head & -> & Hok); [left|]. cbn [add_candidate].
  assert (forall rs, rfold (add_candidate ord X Y tail) rs (pre ++ None :: post) = Err TypeError) as G.
  { intros rs. apply IH. intros h Hin. apply Hb. by right. }
  destruct (rule_mem _ _); [apply G|].
  destruct (bind_dataset _ _ _ _) as [b|e]; [apply G|done].
Qed.

Lemma C47_none_head_proof : forall W (S : samplers W) (ord : gset Z -> list Z) (p : gparams) (X Y : csr) w
    (draws : list (gset Z * list (option (gset Z)))) w1 (k : nat) t y pre post w2,
  set_order ord -> wf_cmat (csr_mat Y) = true ->
  draws_from S X Y (p_n_heads p) k w draws w1 ->
  (forall tail heads h, (tail, heads) ∈ draws -> tail <> ∅ /\ (forall c, c ∈ tail -> 0 <= c < csr_cols Y) /\
     (h ∈ heads -> exists head, h = Some head /\
        is_ok (bind_dataset ord (new_rule (ord head) (ord tail)) (tocsc X) (tocsc Y)) = true)) ->
  (k < Z.to_nat (p_n_tails p))%nat ->
  proposes S X Y (p_n_heads p) w1 t y (pre ++ None :: post) w2 ->
  (forall h, h ∈ pre -> exists head, h = Some head /\
     is_ok (bind_dataset ord (new_rule (ord head) (ord t)) (tocsc X) (tocsc Y)) = true) ->
  generate_candidate_rules S ord p X Y w = (Err TypeError, w2).
Proof.
  intros W S ord p X Y w draws w1 k t y pre post w2 Hord Hwf Hd Hok Hk
    (w3 & w4 & Ht & Hne & Hval & Hly & Hy & Hf & Hh) Hpre.
  unfold generate_candidate_rules. replace (Z.to_nat (p_n_tails p)) with (k + Datatypes.S (Z.to_nat (p_n_tails p) - k - 1))%nat by lia.
  destruct (generate_prefix S ord X Y _ _ _ _ _ (Datatypes.S (Z.to_nat (p_n_tails p) - k - 1)) Hord Hwf Hd Hok []) as [rules' ->].
  cbn [generate_loop]. unfold sbind at 1. rewrite Ht.
  destruct (tail_vector ord Y t Hord Hwf Hne Hval) as (v & Ev & Hlv & Hv).
  assert (v = y) as ->.
  { apply bool_vector_ext; [congruence|]. rewrite Hlv. intros i Hi. by rewrite (Hv i Hi), (Hy i Hi). }
  unfold sbind at 1, slift at 1. rewrite Ev. unfold sbind at 1. rewrite Hf. unfold sbind at 1. rewrite Hh.
  unfold sbind at 1, slift at 1. rewrite add_heads_none by done. done.
Qed.


Lemma C47_constant_tail_proof : forall W (S : samplers W) (ord : gset Z -> list Z) (p : gparams) (X Y : csr) w
    (draws : list (gset Z * list (option (gset Z)))) w1 (k : nat) (t : gset Z) w2,
  set_order ord -> wf_cmat (csr_mat Y) = true ->
  (forall y w, exists prune alpha pd cache, fst (head_fit S X y w) =
     match cds_fit ord prune alpha pd cache X (map Z.b2z y) with Ok _ => Ok tt | Err e => Err e end) ->
  draws_from S X Y (p_n_heads p) k w draws w1 ->
  (forall tail heads h, (tail, heads) ∈ draws -> tail <> ∅ /\ (forall c, c ∈ tail -> 0 <= c < csr_cols Y) /\
     (h ∈ heads -> exists head, h = Some head /\
        is_ok (bind_dataset ord (new_rule (ord head) (ord tail)) (tocsc X) (tocsc Y)) = true)) ->
  (k < Z.to_nat (p_n_tails p))%nat ->
  tail_sample_once S w1 = (Ok t, w2) -> t <> ∅ -> (forall c, c ∈ t -> 0 <= c < csr_cols Y) ->
  (forall i, 0 <= i < csr_rows Y -> forall c, c ∈ t -> csr_has Y i c) \/
    (forall i, 0 <= i < csr_rows Y -> ~ forall c, c ∈ t -> csr_has Y i c) ->
  fst (generate_candidate_rules S ord p X Y w) = Err AssertionError.
Proof.
  intros W S ord p X Y w draws w1 k t w2 Hord Hwf Hcds Hd Hok Hk Ht Hne Hval Hall.
  unfold generate_candidate_rules. replace (Z.to_nat (p_n_tails p)) with (k + Datatypes.S (Z.to_nat (p_n_tails p) - k - 1))%nat by lia.
  destruct (generate_prefix S ord X Y _ _ _ _ _ (Datatypes.S (Z.to_nat (p_n_tails p) - k - 1)) Hord Hwf Hd Hok []) as [rules' ->].
  cbn [generate_loop]. unfold sbind at 1. rewrite Ht.
  destruct (tail_vector ord Y t Hord Hwf Hne Hval) as (v & Ev & Hlv & Hv).
  unfold sbind at 1, slift at 1. rewrite Ev. unfold sbind at 1.
  destruct (Hcds v w2) as (pr & al & pd & ca & Hf).
  assert (cds_fit ord pr al pd ca X (map Z.b2z v) = Err AssertionError) as E.
  { unfold cds_fit. rewrite bool_decide_eq_false_2; [done|]. intros Eq.
    assert (forall bb, bb ∈ v -> exists i, 0 <= i < csr_rows Y /\ v !! Z.to_nat i = Some bb) as Hat.
    { intros bb Hb. apply elem_of_list_lookup in Hb as [i Hi]. exists (Z.of_nat i). rewrite Nat2Z.id. split; [|done].
      apply lookup_lt_Some in Hi. rewrite <- Hlv. unfold zlen. lia. }
    assert (forall z, z ∈ ({[0; 1]} : gset Z) -> exists bb, z = Z.b2z bb /\ bb ∈ v) as Hz.
    { intros z Hin. rewrite <- Eq in Hin. apply elem_of_py_set, elem_of_map in Hin. naive_solver. }
    destruct (Hz 0) as ([] & E0 & H0); [set_solver|done|]. destruct (Hz 1) as ([] & E1 & H1); [set_solver| |done].
    destruct (Hat _ H0) as (i0 & Hi0 & L0). destruct (Hat _ H1) as (i1 & Hi1 & L1).
    destruct Hall as [Ha|Ha].
    - apply (Hv i0 Hi0) in Ha as Ha'; [congruence|done].
    - apply (Ha i1 Hi1). by apply (Hv i1 Hi1). }
  rewrite E in Hf. destruct (head_fit S X v w2) as [r w3]. cbn in Hf. subst r. done.
Qed.


Lemma C47_generation_errors_proof : forall W (S : samplers W) (cls : greedy_class) (ord : gset Z -> list Z) (fuel : nat) (X Y : csr)
    (g : gs W) e w,
  generate_candidate_rules S ord (g_params g) X Y (g_world g) = (Err e, w) ->
  exists g', g_rules g' = g_rules g /\ g_world g' = w /\
    fit_loop S cls ord X Y (Datatypes.S fuel) g = ((if decide (e = NoMoreSamples) then Ok tt else Err e), g').
Proof.
  intros W S cls ord fuel X Y g e w H. exists (with_world w (tick g)). split; [done|]. split; [done|].
  cbn [fit_loop]. unfold fit_round, scatch, on_world, sbind, sget, smod, sret. cbv beta iota zeta.
  change (g_world (tick g)) with (g_world g). rewrite H. cbv beta iota zeta. destruct (decide (e = NoMoreSamples)); done.
Qed.


Lemma C47_no_candidates_proof : forall W (S : samplers W) (cls : greedy_class) (ord : gset Z -> list Z) (fuel : nat) (X Y : csr)
    (g : gs W) w,
  iter_ok S ->
  (generate_candidate_rules S ord (g_params g) X Y (g_world g) = (Ok [], w) ->
   exists g', g_rules g' = g_rules g /\ fit_loop S cls ord X Y (Datatypes.S fuel) g = (Err ValueError, g')) /\
  (p_n_tails (g_params g) <= 0 ->
     generate_candidate_rules S ord (g_params g) X Y (g_world g) = (Ok [], g_world g)).
Proof.
  intros W S cls ord fuel X Y g w Hi. split.
  - intros H. exists (keep_candidates cls [] (with_world w (tick g))). split; [by rewrite keep_rules|].
    cbn [fit_loop]. unfold sbind at 1.
    assert (fit_round S cls ord X Y g = (Err ValueError, keep_candidates cls [] (with_world w (tick g)))) as E.
    { unfold fit_round, scatch, on_world, sbind, sget, smod, sret, slift. cbv beta iota zeta.
      change (g_world (tick g)) with (g_world g). rewrite H. cbv beta iota zeta.
      assert (forall w0, rule_iter S w0 [] = []) as Hn.
      { intros w0. apply Permutation_nil. symmetry. apply Hi. }
      rewrite Hn. done. }
    rewrite E. done.
  - intros Hle. unfold generate_candidate_rules. replace (Z.to_nat (p_n_tails (g_params g))) with 0%nat by lia. done.
Qed.


Lemma C47_loop_error_is_fit_error_proof : forall W (S : samplers W) (cls : greedy_class) (ord : gset Z -> list Z) (fuel : nat)
    (X Y : csr) (g g0 g1 : gs W) e,
  fit_start S cls X Y g = (Ok tt, g0) -> fit_loop S cls ord X Y fuel g0 = (Err e, g1) ->
  fit S cls ord fuel X Y g = (Err e, g1).
Proof.
  intros W S cls ord fuel X Y g g0 g1 e E0 E1.
  destruct cls; cbn [fit]; unfold fit_divmax, fit_1st_round, fit_v2, fit_submod, sbind; rewrite E0, E1; done.
Qed.


Lemma C47_nothing_to_sample_proof : forall W (S : samplers W) (ord : gset Z -> list Z) (fuel : nat) (X Y : csr) (g : gs W) w,
  fst (tail_fit S Y (g_world g)) = Ok tt ->
  generate_candidate_rules S ord (g_params g) X Y (snd (tail_fit S Y (g_world g))) = (Err NoMoreSamples, w) ->
  g_rules g = [] ->
  (exists g', fit S DivMax ord (Datatypes.S fuel) X Y g = (Err InsufficientCandidates, g') /\ g_rules g' = []) /\
  forall cls, cls <> DivMax -> exists g', fit S cls ord (Datatypes.S fuel) X Y g = (Ok tt, g') /\ g_rules g' = [].
Proof.
  intros W S ord fuel X Y g w Ht Hg Hr.
  assert (forall cls, exists g0 g1, fit_start S cls X Y g = (Ok tt, g0) /\
     fit_loop S cls ord X Y (Datatypes.S fuel) g0 = (Ok tt, g1) /\ g_rules g1 = [] /\
     e_train (g_est g1) = Some (X, Y) /\ g_params g1 = g_params g /\
     (cls = DivMax -> g_cands g1 = Some [])) as Hall.
  { intros cls. destruct (fit_start S cls X Y g) as [r0 g0] eqn:E0. pose proof E0 as E0'.
    apply fit_start_out in E0 as (Er & Ep & _ & Etr & Ew & Ert & Ec & _). rewrite Ht in Ert. subst r0.
    rewrite <- Ep, <- Ew in Hg. exists g0, (with_world w (tick g0)). split; [done|]. split.
    - cbn [fit_loop]. unfold fit_round, scatch, on_world, sbind, sget, smod, sret. cbv beta iota zeta.
      change (g_world (tick g0)) with (g_world g0). rewrite Hg. cbv beta iota zeta. done.
    - split; [change (g_rules g0 = []); congruence|]. split; [done|]. split; [done|]. intros ->. by apply Ec. }
  assert (Hcov : forall g1 : gs W, g_rules g1 = [] -> e_train (g_est g1) = Some (X, Y) -> log_coverage ord (g_est g1) = Ok tt).
  { intros g1 H1 H2. unfold log_coverage, coverage_ratio. rewrite H2. unfold g_rules in H1. rewrite H1.
    unfold coverage_ratio_of. cbn [rfold rbind]. unfold np_div. destruct (_ =? 0); done. }
  split.
  - destruct (Hall DivMax) as (g0 & g1 & E0 & E1 & H1 & H2 & H3 & H4). specialize (H4 eq_refl).
    assert (objective_of_selected DivMax g1 = Ok (0 + p_lambd (g_params g1) * 0)%R) as Ho.
    { unfold objective_of_selected. rewrite H1. done. }
    eexists. cbn [fit]. unfold fit_divmax, fit_1st_round, fit_2nd_round, sbind, sget, slift, smod, sret.
    rewrite E0, E1. rewrite Hcov, Ho by done. cbv beta iota zeta. cbn [with_obj1 g_cands]. rewrite H4. split; [done|]. done.
  - intros cls Hc. destruct (Hall cls) as (g0 & g1 & E0 & E1 & H1 & H2 & H3 & _).
    assert (objective_of_selected cls g1 = Ok (0 + p_lambd (g_params g1) * 0)%R) as Ho.
    { unfold objective_of_selected. rewrite H1. done. }
    destruct cls; try done; eexists; cbn [fit]; unfold fit_v2, fit_submod, sbind, sget, slift, smod;
      rewrite E0, E1; rewrite ?Ho, Hcov by done; split; done.
Qed.


Lemma C47_exhaustive_proof : forall W (S : samplers W) (cls : greedy_class) (ord : gset Z -> list Z) (fuel : nat) (X Y : csr)
    (g : gs W) e g',
  fit S cls ord fuel X Y g = (Err e, g') ->
  (exists w, fst (tail_fit S Y w) = Err e) \/
  (exists s t w, fst (tail_update S s t w) = Err e) \/
  (e <> NoMoreSamples /\
    ((exists w, fst (tail_sample_once S w) = Err e) \/
     (exists X y w, fst (head_fit S X y w) = Err e) \/
     (exists n w, fst (head_sample S n w) = Err e))) \/
  e = TypeError \/ e = ValueError \/ e = AssertionError \/ e = IndexError \/ e = ZeroDivisionError \/
  e = AttributeError \/ e = NonFinite \/ e = OutOfFuel \/ (e = InsufficientCandidates /\ cls = DivMax).
Proof.
  intros W S cls ord fuel X Y g e g' H.
  match goal with |- ?G => set (Goal := G) end.
  assert (Hpe : pick_err e -> Goal) by (unfold pick_err, Goal; naive_solver).
  assert (Hround : forall g1 g2, fit_round S cls ord X Y g1 = (Err e, g2) -> Goal).
  { intros g1 g2 E. apply fit_round_out in E.
    inversion E as [|e0 w Hg Hne|c w g3 e0 Hg Eg Hp| |c w g3 b e0 w2 Hg Eg Hp Hu|]; subst.
    - apply generate_loop_err in Hg as [Hx|[Hx|[Hx|Hx]]]; unfold Goal; [tauto|tauto|tauto|naive_solver].
    - apply Hpe. by eapply errs_pick.
    - unfold Goal. right. left. eexists _, _, _. rewrite Hu. done. }
  assert (Hloop : forall fuel g1 g2, fit_loop S cls ord X Y fuel g1 = (Err e, g2) -> Goal).
  { clear - Hround. induction fuel as [|fuel IH]; intros g1 g2 E; cbn [fit_loop] in E.
    - unfold serr in E. injection E as <- _. unfold Goal. tauto.
    - unfold sbind in E. destruct (fit_round S cls ord X Y g1) as [[[]|e'] g3] eqn:E2.
      + done.
      + by eapply IH.
      + injection E as -> ->. by eapply Hround. }
  assert (Hstart : forall g2, fit_start S cls X Y g = (Err e, g2) -> Goal).
  { intros g2 E. apply fit_start_out in E as (_ & _ & _ & _ & _ & E & _). left. eauto. }
  assert (Hlog : forall es, log_coverage ord es = Err e -> Goal).
  { intros es E. apply errs_log_coverage in E. unfold Goal. naive_solver. }
  assert (Hobj : forall g1 : gs W, objective_of_selected cls g1 = Err e -> Goal).
  { intros g1 E. apply errs_objective_of_selected in E. unfold Goal. naive_solver. }
  assert (cls = DivMax \/ cls <> DivMax) as [->|Hc] by (destruct cls; auto).
  - change (fit S DivMax ord fuel X Y g) with (fit_divmax S ord fuel X Y g) in H.
    unfold fit_divmax, sbind in H. destruct (fit_1st_round S ord fuel X Y g) as [ra ga] eqn:Ea.
    assert (ra = Err e -> Goal) as Hra.
    { intros ->. unfold fit_1st_round, sbind, sget, slift, smod, sret in Ea.
      destruct (fit_start S DivMax X Y g) as [[[]|e0] g0] eqn:E0; [|injection Ea as -> _; by eapply Hstart].
      destruct (fit_loop S DivMax ord X Y fuel g0) as [[[]|e1] g1] eqn:E1; [|injection Ea as -> _; by eapply Hloop].
      destruct (log_coverage ord (g_est g1)) as [[]|e2] eqn:E2; [|injection Ea as -> _; by eapply Hlog].
      destruct (objective_of_selected DivMax g1) as [o|e3] eqn:E3; [|injection Ea as -> _; by eapply Hobj].
      done. }
    destruct ra as [r1|e1]; [|injection H as -> _; by apply Hra]. clear Hra.
    destruct (first_round_out _ _ _ _ _ _ _ _ Ea) as (r0 & g0 & E0 & Hm).
    apply fit_start_out in E0 as (_ & _ & _ & _ & _ & _ & Ec0 & _).
    destruct r0 as [[]|e0]; [|by destruct Hm].
    destruct Hm as (r3 & g3 & E3 & _ & _ & _ & _ & _ & M6 & _).
    assert (exists cs, g_cands ga = Some cs) as [cs Hcs].
    { destruct (fit_loop_cands S ord X Y fuel g0 r3 g3 [] (Ec0 eq_refl eq_refl)) as (cs & Hcs & _); [|exact E3|].
      - intros b Hb. inversion Hb.
      - exists cs. congruence. }
    destruct (fit_2nd_round S ord ga) as [rb gb] eqn:Eb.
    assert (rb = Err e -> Goal) as Hrb.
    { intros ->. unfold fit_2nd_round, sbind, sget, slift, smod, sret in Eb. rewrite Hcs in Eb.
      destruct cs as [|c cs]; [unfold serr in Eb; injection Eb as <- _; unfold Goal; do 11 right; done|].
      destruct (second_loop S (c :: cs) (length (g_rules ga)) (with_rules [] (with_round1 (g_rules ga) ga))) as [[[]|e1] g1] eqn:E1.
      - destruct (log_coverage ord (g_est g1)) as [[]|e2] eqn:E2; [|injection Eb as -> _; by eapply Hlog].
        destruct (objective_of_selected DivMax g1) as [o|e4] eqn:E4; [|injection Eb as -> _; by eapply Hobj].
        done.
      - injection Eb as -> _. apply Hpe. revert E1. generalize (with_rules [] (with_round1 (g_rules ga) ga)).
        generalize (length (g_rules ga)). clear. intros n. induction n as [|n IH]; intros g0 E1; cbn [second_loop] in E1; [done|].
        unfold sbind, sget, slift, smod in E1.
        destruct (select_best_candidate DivMax (p_lambd (g_params g0)) (g_rules g0) (rule_iter S (g_world g0) (c :: cs)))
          as [best|e1] eqn:E2; [|injection E1 as -> _; by apply errs_select in E2].
        destruct (log_choice (g_rules g0) best) as [[]|e1] eqn:E3; [|injection E1 as -> _; by apply errs_log_choice in E3].
        by eapply IH. }
    destruct rb as [r2|e2]; [|injection H as -> _; by apply Hrb].
    unfold sget in H. destruct (g_obj1 gb) as [o1|], (g_obj2 gb) as [o2|]; try done;
      unfold serr in H; injection H as <- _; unfold Goal; do 8 right; left; done.
  - assert (fit_v2 S cls ord fuel X Y g = (Err e, g') \/ (cls = Submod /\ fit_submod S ord fuel X Y g = (Err e, g'))) as [H'|[-> H']]
      by (clear Goal Hpe Hround Hloop Hstart Hlog Hobj; destruct cls; auto; done); clear H.
    + unfold fit_v2, sbind, sget, slift, smod in H'.
      destruct (fit_start S cls X Y g) as [[[]|e0] g0] eqn:E0; [|injection H' as -> _; by eapply Hstart].
      destruct (fit_loop S cls ord X Y fuel g0) as [[[]|e1] g1] eqn:E1; [|injection H' as -> _; by eapply Hloop].
      destruct (objective_of_selected cls g1) as [o|e3] eqn:E3; [|injection H' as -> _; by eapply Hobj].
      injection H' as H' _. by eapply Hlog.
    + unfold fit_submod, sbind, sget, slift in H'.
      destruct (fit_start S Submod X Y g) as [[[]|e0] g0] eqn:E0; [|injection H' as -> _; by eapply Hstart].
      destruct (fit_loop S Submod ord X Y fuel g0) as [[[]|e1] g1] eqn:E1; [|injection H' as -> _; by eapply Hloop].
      injection H' as H' _. by eapply Hlog.
Qed.


(** ** Complete runs used as examples *)
Lemma divB_covering : covering elements (tocsc divX) (tocsc divY) divB {[(0,0); (1,0)]}.
Proof.
  assert (Hd : dataset (tocsc divX) (tocsc divY)) by (apply dataset_tocsc; by_compute).
  assert (bind_dataset elements (new_rule [0] [0]) (tocsc divX) (tocsc divY) = Ok divB) as Hb by (vm_compute; reflexivity).
  exists [0], [0]. split; [apply NoDup_singleton|]. split; [intros c Hc; apply elem_of_list_singleton in Hc as ->; lia|].
  split; [exact Hb|]. intros c.
  rewrite (covers_perm _ _ [0] (py_sorted [0]) [0] (py_sorted [0])) by (symmetry; apply py_sorted_perm).
  change (py_sorted [0]) with (r_head (new_rule [0] [0])) at 1.
  change (py_sorted [0]) with (r_tail (new_rule [0] [0])).
  rewrite <- (label_occs_covers (tocsc divX) (tocsc divY) (new_rule [0] [0]) divB c).
  - replace (label_occs divB) with ({[(0,0); (1,0)]} : gset (Z * Z)) by by_compute. done.
  - apply (bound_new elements); [intros s; done|done| |exact Hb]. intros x Hx. apply elem_of_list_singleton in Hx as ->. lia.
Qed.

Lemma divB_somewhere n : Forall2 (covers_somewhere elements) (replicate n divB) (replicate n {[(0,0); (1,0)]}).
Proof.
  induction n as [|n IH]; [constructor|]. cbn [replicate]. constructor; [|done].
  exists (tocsc divX), (tocsc divY). split; [apply dataset_tocsc; by_compute|]. apply divB_covering.
Qed.

Lemma divB_pairs n : pairs_covered (replicate n {[(0,0); (1,0)]}).
Proof.
  intros i j A B _ HA HB. apply lookup_replicate in HA as [-> _]. apply lookup_replicate in HB as [-> _]. set_solver.
Qed.

Lemma divS_objective cls n (g : gs unit) : cls <> Submod -> g_rules g = replicate n (Bound divB) ->
  exists o, objective_of_selected cls g = Ok o.
Proof.
  intros Hc Hr. unfold objective_of_selected. rewrite Hr.
  replace (replicate n (Bound divB)) with (map Bound (replicate n divB)) by apply fmap_replicate.
  rewrite bounds_map. cbn [rbind]. eexists.
  apply (C45_objective_is_diversity_proof cls elements _ (replicate n divB) (replicate n {[(0,0); (1,0)]})).
  - intros s. done.
  - done.
  - apply divB_somewhere.
  - apply divB_pairs.
Qed.

Lemma divS_coverage n (g : gs unit) : g_rules g = replicate n (Bound divB) -> e_train (g_est g) = Some (divX, divY) ->
  log_coverage elements (g_est g) = Ok tt.
Proof.
  intros Hr Ht. unfold log_coverage.
  assert (exists v, coverage_ratio elements (g_est g) = Ok v) as [v ->]; [|done].
  unfold coverage_ratio. rewrite Ht. unfold g_rules in Hr. rewrite Hr.
  replace (replicate n (Bound divB)) with (map Bound (replicate n divB)) by apply fmap_replicate.
  set (O := {[(0,0); (0,1); (1,0); (2,1)]} : gset (Z * Z)).
  assert (HO : forall c, c ∈ O <-> csr_has divY (fst c) (snd c)).
  { intros [i j]. replace O with (occ_set divY) by by_compute. unfold occ_set.
    rewrite elem_of_list_to_set. apply elem_of_cell_list. by_compute. }
  eexists. apply (coverage_ratio_closed elements divY (replicate n divB) O).
  - intros s. done.
  - by_compute.
  - apply binary_b_ok; by_compute.
  - exact HO.
  - unfold O. set_solver.
  - intros b c Hb Hx. apply elem_of_replicate in Hb as [-> _].
    replace (label_occs divB) with ({[(0,0); (1,0)]} : gset (Z * Z)) in Hx by by_compute. unfold O. set_solver.
Qed.

Lemma divS_cands lambd k tol fuel (g g' : gs unit) : g_params g = GParams lambd 1 1 k tol ->
  g_cands g = Some [] \/ g_cands g = Some [divB] ->
  fit_loop divS DivMax elements divX divY fuel g = (Ok tt, g') -> g_cands g' = Some [divB].
Proof.
  revert g. induction fuel as [|fuel IH]; intros g Hp Hc H; cbn [fit_loop] in H; [done|].
  unfold sbind in H. destruct (fit_round divS DivMax elements divX divY g) as [r g1] eqn:E.
  pose proof (fit_round_out _ _ _ _ _ _ _ _ E) as Ro.
  destruct (round_keeps _ _ _ _ _ _ _ _ Ro) as (Kp & _).
  assert (Hg : generate_candidate_rules divS elements (g_params g) divX divY (g_world g) = (Ok [divB], g_world g)).
  { rewrite Hp. destruct (g_world g). vm_compute. reflexivity. }
  assert (forall x, r = Ok x -> g_cands g1 = Some [divB]) as Hc1.
  { intros x Ex. clear E H.
    assert (forall c w, (Ok c, w) = (Ok [divB], g_world g) ->
      g_cands (keep_candidates DivMax c (with_world w (tick g))) = Some [divB]) as G.
    { intros c w Eq. injection Eq as -> ->. unfold keep_candidates. cbn [keeps_candidates with_cands g_cands with_world tick].
      destruct Hc as [-> | ->]; vm_compute; reflexivity. }
    destruct Ro as [w H|e w H|c w g2 e H -> H2|c w g2 b H -> H2|c w g2 b e w2 H -> H2 H3|c w g2 b w2 H -> H2 H3];
      rewrite H in Hg; try done; by apply (G _ _ Hg). }
  destruct r as [[]|e]; [|by apply (IH g1); [rewrite Kp| right; apply (Hc1 false)|]|done].
  unfold sret in H. injection H as <-. by apply (Hc1 true).
Qed.

Lemma divS_fit_v2 cls k lambd tol (g : gs unit) : cls = DivMaxV2 \/ cls = DivMaxV3 ->
  g_rules g = [] -> g_params g = GParams lambd 1 1 (Some (Z.of_nat k)) tol ->
  exists g', fit divS cls elements (Datatypes.S k) divX divY g = (Ok tt, g') /\ g_rules g' = replicate k (Bound divB).
Proof.
  intros Hc Hr Hp. assert (cls <> Submod) as Hs by (destruct Hc; subst; done).
  assert (fit divS cls elements (Datatypes.S k) divX divY g = fit_v2 divS cls elements (Datatypes.S k) divX divY g) as ->
    by (destruct Hc; subst; done).
  unfold fit_v2, sbind. destruct (fit_start divS cls divX divY g) as [r0 g0] eqn:E0.
  apply fit_start_out in E0 as (Er & Ep & _ & Et & _ & -> & _). cbn [divS tail_fit fst].
  destruct (divS_loop cls k 0 lambd tol g0 Hs) as (g1 & E1 & Hr1); [by rewrite Er|by rewrite Ep|].
  destruct (fit_loop_extends _ _ _ _ _ _ _ _ _ E1) as (_ & Ht1 & _). change divS with divS in E1. fold divS. rewrite E1.
  destruct (divS_objective cls k g1 Hs Hr1) as [o Ho]. unfold sget, slift, smod. rewrite Ho.
  rewrite (divS_coverage k g1 Hr1) by by rewrite Ht1.
  eexists. split; [done|]. exact Hr1.
Qed.

Lemma divS_second n m (g : gs unit) : g_rules g = replicate n (Bound divB) ->
  exists g', second_loop divS [divB] m g = (Ok tt, g') /\ g_rules g' = replicate (n + m) (Bound divB).
Proof.
  revert n g. induction m as [|m IH]; intros n g Hr; cbn [second_loop].
  - exists g. split; [done|]. rewrite Hr. f_equal. lia.
  - destruct (divB_select n (p_lambd (g_params g)) DivMax) as [H1 H2]; [done|].
    unfold sbind, sget, slift, smod. change (rule_iter divS (g_world g) [divB]) with [divB].
    rewrite Hr, H1, H2. destruct (IH (Datatypes.S n) (with_rules (replicate n (Bound divB) ++ [Bound divB]) g)) as (g' & E & Hr').
    { change (replicate n (Bound divB) ++ [Bound divB] = replicate (Datatypes.S n) (Bound divB)). by rewrite <- replicate_S_end. }
    exists g'. split; [exact E|]. rewrite Hr'. f_equal. lia.
Qed.

Lemma divS_fit_divmax k lambd tol (g : gs unit) :
  g_rules g = [] -> g_params g = GParams lambd 1 1 (Some (Z.of_nat k)) tol ->
  exists g', fit divS DivMax elements (Datatypes.S k) divX divY g = (Ok tt, g') /\ g_rules g' = replicate k (Bound divB) /\
    g_round1 g' = Some (replicate k (Bound divB)).
Proof.
  intros Hr Hp. change (fit divS DivMax elements (Datatypes.S k) divX divY g) with (fit_divmax divS elements (Datatypes.S k) divX divY g).
  unfold fit_divmax, fit_1st_round. unfold sbind at 1 2. destruct (fit_start divS DivMax divX divY g) as [r0 g0] eqn:E0.
  apply fit_start_out in E0 as (Er & Ep & _ & Et & _ & -> & Ec & _). cbn [divS tail_fit fst] in *. specialize (Ec eq_refl eq_refl).
  destruct (divS_loop DivMax k 0 lambd tol g0) as (g1 & E1 & Hr1); [done|by rewrite Er|by rewrite Ep|].
  destruct (fit_loop_extends _ _ _ _ _ _ _ _ _ E1) as (Ep1 & Ht1 & _).
  assert (g_cands g1 = Some [divB]) as Hc1.
  { eapply (divS_cands lambd _ tol _ g0 g1); [by rewrite Ep, Hp|by left|exact E1]. }
  fold divS. unfold sbind at 1. rewrite E1. unfold sbind at 1, sget at 1. unfold sbind at 1, slift at 1.
  rewrite (divS_coverage k g1 Hr1) by by rewrite Ht1.
  destruct (divS_objective DivMax k g1) as [o1 Ho1]; [done|done|]. unfold sbind at 1, slift at 1. rewrite Ho1.
  unfold sbind at 1, smod at 1, sret at 1.
  unfold fit_2nd_round. unfold sbind at 1 2, sget at 1. unfold sbind at 1, smod at 1. unfold sbind at 1, smod at 1.
  change (g_cands (with_obj1 o1 g1)) with (g_cands g1). rewrite Hc1. change (g_rules (with_obj1 o1 g1)) with (g_rules g1).
  rewrite Hr1. change (0 + k)%nat with k. rewrite replicate_length.
  set (g2 := with_rules [] _). destruct (second_loop divS [divB] k g2) as [r3 g3] eqn:E3.
  destruct (divS_second 0 k g2 eq_refl) as (g3' & E3' & Hr3). rewrite E3 in E3'. injection E3' as -> <-.
  destruct (second_loop_out _ _ _ _ _ _ E3) as (picks & K & _).
  unfold sbind at 1. rewrite E3. unfold sbind at 1, sget at 1. unfold sbind at 1, slift at 1.
  rewrite (divS_coverage k g3 Hr3) by (rewrite K; change (e_train (g_est g1) = Some (divX, divY)); by rewrite Ht1).
  destruct (divS_objective DivMax k g3) as [o2 Ho2]; [done|done|]. unfold sbind at 1, slift at 1. rewrite Ho2.
  unfold sbind at 1, smod at 1, sret at 1. unfold sbind at 1, sget at 1.
  assert (g_obj1 (with_obj2 o2 g3) = Some o1) as -> by (rewrite K; done).
  change (g_obj2 (with_obj2 o2 g3)) with (Some o2). cbv beta iota. unfold sbind, smod.
  eexists. split; [done|]. split.
  - change (g_rules (with_rules ?x ?y)) with x. rewrite Hr3. by destruct (Rltb o2 o1).
  - change (g_round1 g3 = Some (replicate k (Bound divB))). rewrite K. done.
Qed.
