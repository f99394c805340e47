(** Proofs of the property theorems of Properties/P_Pcv.v. *)
From Coq Require Import Reals Lra.
From Verif.Model Require Import PyBase PyReal Sparse Utils Rand PyState Plot Data Synth Reader Pcv.
From Verif.Spec Require Import SPcv.
From Verif.Proofs Require Import PBase PRand T_Data T_Plot T_Synth T_Reader.
Open Scope Z_scope.

(** ** Groups *)
Lemma group_add_spec (gs : list (Z * list Z)) x n :
  (x ∉ map fst gs /\ group_add gs x n = gs ++ [(x, [n])]) \/
  exists pre g post, gs = pre ++ (x, g) :: post /\ group_add gs x n = pre ++ (x, g ++ [n]) :: post.
Proof.
  induction gs as [|[l g] gs IH]; cbn [group_add map fst]. { left. split; [apply not_elem_of_nil|done]. }
  destruct (Z.eqb_spec l x) as [->|Hl]. { right. by exists [], g, gs. }
  destruct IH as [[H1 H2]|(pre & g' & post & H1 & H2)].
  - left. rewrite H2. split; [|done]. by apply not_elem_of_cons.
  - right. exists ((l, g) :: pre), g', post. rewrite H2. by subst gs.
Qed.
Lemma enumerate_snoc {A} (l : list A) x : enumerate (l ++ [x]) = enumerate l ++ [(zlen l, x)].
Proof.
  unfold enumerate, py_range. rewrite zlen_app. change (zlen [x]) with 1. pose proof (zlen_nonneg l). rewrite seqZ_app by lia.
  rewrite zip_with_app by (rewrite seqZ_length; unfold zlen; lia). done.
Qed.
Definition ginv (labels : list Z) (gs : list (Z * list Z)) : Prop :=
  NoDup (map fst gs) /\
  (forall l g, (l, g) ∈ gs -> g <> [] /\ StronglySorted Z.lt g /\ forall i, i ∈ g <-> 0 <= i /\ labels !! Z.to_nat i = Some l) /\
  (forall i l, labels !! i = Some l -> l ∈ map fst gs) /\
  StronglySorted Z.lt (omap head (map snd gs)).
Lemma sorted_snoc (g : list Z) n : StronglySorted Z.lt g -> (forall i, i ∈ g -> i < n) -> StronglySorted Z.lt (g ++ [n]).
Proof.
  intros Hs. induction Hs as [|a g Hs IH Ha]; intros H; cbn [app]; [repeat constructor|]. constructor; [apply IH; intros i Hi; apply H; by right|].
  apply Forall_app. split; [done|]. constructor; [apply H; by left|constructor].
Qed.
Lemma lookup_snoc_Z (labels : list Z) x i l : 0 <= i -> (labels ++ [x]) !! Z.to_nat i = Some l <-> labels !! Z.to_nat i = Some l \/ (i = zlen labels /\ l = x).
Proof.
  intros Hi. unfold zlen. destruct (decide (Z.to_nat i < length labels)%nat) as [H|H].
  - rewrite lookup_app_l by done. split; [by left|]. intros [?|[-> _]]; [done|]. lia.
  - rewrite lookup_app_r by lia. rewrite (lookup_ge_None_2 labels) by lia. destruct (decide (Z.to_nat i = length labels)) as [E|E].
    + rewrite E, Nat.sub_diag. cbn. split; [intros [= ->]; right; split; [lia|done]|]. intros [?|[_ ->]]; done.
    + rewrite lookup_ge_None_2 by (cbn; lia). split; [done|]. intros [?|[-> _]]; [done|lia].
Qed.
Lemma groups_inv labels : ginv labels (foldl (fun groups (il : Z * Z) => group_add groups (snd il) (fst il)) [] (enumerate labels)).
Proof.
  induction labels as [|x labels IH] using rev_ind.
  { unfold ginv. cbn. split_and!; [constructor|intros l g H; by apply elem_of_nil in H|by intros i l H|constructor]. }
  rewrite enumerate_snoc, foldl_app. cbn [foldl fst snd]. set (gs := foldl _ _ _) in *. clearbody gs. destruct IH as (I1 & I2 & I3 & I4).
  set (n := zlen labels) in *. pose proof (zlen_nonneg labels) as Hn. fold n in Hn.
  assert (Hlt : forall l g i, (l, g) ∈ gs -> i ∈ g -> i < n).
  { intros l g i Hg Hi. apply I2 in Hg as (_ & _ & Hm). apply Hm in Hi as [H0 Hi]. apply lookup_lt_Some in Hi. unfold n, zlen. lia. }
  destruct (group_add_spec gs x n) as [[H1 H2]|(pre & g & post & H1 & H2)]; rewrite H2.
  - split_and!.
    + rewrite map_app. apply NoDup_app. split_and!; [done| |apply NoDup_singleton]. intros y Hy Hy2. apply elem_of_list_singleton in Hy2. cbn in Hy2. congruence.
    + intros l g [Hg|Hg]%elem_of_app.
      * destruct (I2 l g Hg) as (J1 & J2 & J3). split_and!; [done|done|]. intros i. rewrite J3. split; intros [K1 K2]; (split; [done|]).
        -- rewrite lookup_snoc_Z by done. by left.
        -- rewrite lookup_snoc_Z in K2 by done. destruct K2 as [?|[_ ->]]; [done|]. exfalso. apply H1. apply elem_of_map. by exists (x, g).
      * apply elem_of_list_singleton in Hg as [= -> ->]. split_and!; [done|repeat constructor|]. intros i. rewrite elem_of_list_singleton. split.
        -- intros ->. split; [done|]. rewrite lookup_snoc_Z by done. by right.
        -- intros [K1 K2]. rewrite lookup_snoc_Z in K2 by done. destruct K2 as [K2|[-> _]]; [|done]. by apply I3 in K2.
    + intros i l Hi. rewrite map_app. apply elem_of_app. destruct (decide (i < length labels)%nat).
      * rewrite lookup_app_l in Hi by done. left. by eapply I3.
      * rewrite lookup_app_r in Hi by lia. right. destruct (i - length labels)%nat; [injection Hi as ->; by left|done].
    + rewrite map_app, omap_app. cbn. apply sorted_snoc; [done|]. intros i Hi. apply elem_of_list_omap in Hi as (g & Hg & Hh). apply elem_of_map in Hg as ([l g'] & -> & Hg). cbn in Hh.
      apply (Hlt l g'); [done|]. destruct g'; [done|]. injection Hh as ->. by left.
  - subst gs. split_and!.
    + rewrite map_app in *. done.
    + intros l h Hh. assert (Hcase : ((l, h) ∈ pre ++ post) \/ (l = x /\ h = g ++ [n])).
      { apply elem_of_app in Hh as [?|[[= -> ->]|?]%elem_of_cons]; [left; apply elem_of_app; auto|by right|left; apply elem_of_app; auto]. }
      destruct Hcase as [Hc|[-> ->]].
      * assert (Hg' : (l, h) ∈ pre ++ (x, g) :: post) by (apply elem_of_app in Hc as [?|?]; apply elem_of_app; [by left|right; by right]).
        destruct (I2 l h Hg') as (J1 & J2 & J3). split_and!; [done|done|]. intros i. rewrite J3. split; intros [K1 K2]; (split; [done|]).
        -- rewrite lookup_snoc_Z by done. by left.
        -- rewrite lookup_snoc_Z in K2 by done. destruct K2 as [?|[_ ->]]; [done|]. exfalso.
           rewrite map_app in I1. apply NoDup_app in I1 as (Q1 & Q2 & Q3). cbn [map fst] in *. apply list.NoDup_cons in Q3 as [Q3 _].
           apply elem_of_app in Hc as [Hc|Hc].
           ++ apply (Q2 x); [apply elem_of_map; by exists (x, h)|left].
           ++ apply Q3. apply elem_of_map. by exists (x, h).
      * destruct (I2 x g) as (J1 & J2 & J3). { apply elem_of_app. right. left. }
        split_and!; [by destruct g|apply sorted_snoc; [done|]; intros i Hi; apply (Hlt x g); [apply elem_of_app; right; left|done]|].
        intros i. rewrite elem_of_app, elem_of_list_singleton, J3. split.
        -- intros [[K1 K2]| ->]; (split; [done|]); rewrite lookup_snoc_Z by done; [by left|by right].
        -- intros [K1 K2]. rewrite lookup_snoc_Z in K2 by done. destruct K2 as [?|[-> _]]; [by left|by right].
    + intros i l Hi. rewrite map_app. cbn [map fst]. assert (Hx : map fst pre ++ x :: map fst post = map fst (pre ++ (x, g) :: post)) by (by rewrite map_app). rewrite Hx.
      destruct (decide (i < length labels)%nat).
      * rewrite lookup_app_l in Hi by done. by eapply I3.
      * rewrite lookup_app_r in Hi by lia. rewrite <- Hx. apply elem_of_app. right. destruct (i - length labels)%nat; [injection Hi as ->; by left|done].
    + rewrite map_app in *. cbn [map snd] in *. rewrite omap_app in *. cbn [omap list_omap] in *. destruct (I2 x g) as (J1 & _). { apply elem_of_app. right. left. }
      destruct g; [done|]. exact I4.
Qed.

Lemma C75_groups_proof : forall labels, groups_of labels (kmeans_groups labels).
Proof.
  intros labels. unfold kmeans_groups. destruct (groups_inv labels) as (I1 & I2 & I3 & I4). set (gs := foldl _ _ _) in *. clearbody gs.
  assert (Hg : forall g, g ∈ map snd gs <-> exists l, (l, g) ∈ gs). { intros g. rewrite elem_of_map. split; [intros ([l g'] & -> & H); by exists l|intros (l & H); by exists (l, g)]. }
  assert (HND : NoDup (concat (map snd gs))).
  { clear I3 I4 Hg. induction gs as [|[l g] gs IH]; [constructor|]. cbn [map concat snd fst] in *. apply list.NoDup_cons in I1 as [Hl I1]. apply NoDup_app. split_and!.
    - destruct (I2 l g) as (_ & Hs & _); [by left|]. clear - Hs. induction Hs as [|a g Hs IH Ha]; constructor; [|done]. intros H. eapply (proj1 (list.Forall_forall _ _)) in Ha; [|exact H]. lia.
    - intros i Hi Hc. apply elem_of_concat in Hc as (h & Hh & Hi'). apply elem_of_map in Hh as ([l' h'] & -> & Hh). cbn [snd] in Hi'.
      destruct (I2 l g) as (_ & _ & J1); [by left|]. destruct (I2 l' h') as (_ & _ & J2); [by right|]. apply J1 in Hi as [_ Hi]. apply J2 in Hi' as [_ Hi']. rewrite Hi in Hi'. injection Hi' as ->.
      apply Hl. apply elem_of_map. by exists (l', h').
    - apply IH; [done|]. intros l' h Hh. apply I2. by right. }
  split_and!.
  - apply NoDup_Permutation; [done|apply NoDup_py_range|]. intros i. rewrite elem_of_concat, elem_of_seqZ. split.
    + intros (g & (l & Hl)%Hg & Hi). destruct (I2 l g Hl) as (_ & _ & J). apply J in Hi as [H0 Hi]. apply lookup_lt_Some in Hi. unfold zlen. lia.
    + intros Hi. destruct (lookup_lt_is_Some_2 labels (Z.to_nat i)) as [l Hl]; [unfold zlen in Hi; lia|]. apply I3 in Hl as Hm. apply elem_of_map in Hm as ([l' g] & -> & Hm).
      exists g. split; [apply Hg; by exists l'|]. destruct (I2 l' g Hm) as (_ & _ & J). apply J. split; [lia|done].
  - apply list.Forall_forall. intros g (l & Hl)%Hg. by destruct (I2 l g Hl) as (J1 & J2 & _).
  - intros g i j (l & Hl)%Hg Hi. destruct (I2 l g Hl) as (_ & _ & J). apply J in Hi as [H0 Hi]. rewrite J, Hi. split.
    + intros [H1 H2]. rewrite H2. split; [|done]. apply lookup_lt_Some in H2. unfold zlen. lia.
    + intros [[H1 _] H2]. done.
  - done.
Qed.


(** ** The threshold *)
Open Scope R_scope.
Lemma ln_kl a b : 0 < a -> 0 < b -> a <> b -> a - b < a * (ln a - ln b).
Proof.
  intros Ha Hb Hab. assert (Hne : ln b - ln a <> 0). { intros E. apply Hab. apply ln_inv; [done|done|lra]. }
  pose proof (exp_ineq1 _ Hne) as H. unfold Rminus in H at 2. rewrite exp_plus, exp_Ropp, !exp_ln in H by done.
  apply (Rmult_lt_compat_l a) in H; [|done]. replace (a * (b * / a)) with b in H by (field; lra). nra.
Qed.
Lemma threshold_ln p q : 0 < q -> q < p -> p < 1 ->
  let A := ln (1 - q) - ln (1 - p) in let D := ln p - ln q + A in
  0 < A /\ 0 < D /\ rounding_threshold p q = A / D.
Proof.
  intros H1 H2 H3 A D. assert (HA : 0 < A). { unfold A. assert (ln (1 - p) < ln (1 - q)) by (apply ln_increasing; lra). lra. }
  assert (HD : 0 < D). { unfold D. assert (ln q < ln p) by (apply ln_increasing; lra). lra. }
  split_and!; [done|done|]. unfold rounding_threshold, log2.
  assert (ln 2 <> 0). { pose proof ln_lt_2. lra. }
  assert (Hdiv : forall x y, 0 < x -> 0 < y -> ln (x / y) = ln x - ln y). { intros x y Hx Hy. unfold Rdiv. rewrite ln_mult, ln_Rinv; [done|done|done|by apply Rinv_0_lt_compat]. }
  rewrite Hdiv by lra. replace (p * (1 - q) / q / (1 - p)) with (p / q * ((1 - q) / (1 - p))) by (field; lra).
  rewrite ln_mult; [|apply Rdiv_lt_0_compat; lra|apply Rdiv_lt_0_compat; lra]. rewrite !Hdiv by lra. fold A. fold D. field. lra.
Qed.
Lemma likelihood_exp r x m : 0 < r < 1 -> (0 <= x <= m)%Z -> likelihood r x m = exp (IZR x * ln r + IZR (m - x) * ln (1 - r)).
Proof.
  intros Hr Hx. unfold likelihood. rewrite exp_plus. f_equal.
  - rewrite <- (exp_ln r) at 1 by lra.
    rewrite <- Rpower_pow by (apply exp_pos). unfold Rpower. rewrite ln_exp, INR_IZR_INZ, Z2Nat.id by lia. done.
  - rewrite <- (exp_ln (1 - r)) at 1 by lra.
    rewrite <- Rpower_pow by (apply exp_pos). unfold Rpower. rewrite ln_exp, INR_IZR_INZ, Z2Nat.id by lia. done.
Qed.
Lemma threshold_likely p q x m : 0 < q -> q < p -> p < 1 -> (0 <= x <= m)%Z ->
  IZR m * rounding_threshold p q < IZR x <-> likelihood q x m < likelihood p x m.
Proof.
  intros H1 H2 H3 Hx. destruct (threshold_ln p q H1 H2 H3) as (HA & HD & ->). rewrite !likelihood_exp by (first [lra|lia]).
  set (A := ln (1 - q) - ln (1 - p)) in *. set (D := ln p - ln q + A) in *.
  assert (Hd : IZR m * (A / D) < IZR x <-> IZR m * A < IZR x * D).
  { split; intros H.
    - apply (Rmult_lt_compat_r D) in H; [|done]. replace (IZR m * (A / D) * D) with (IZR m * A) in H by (field; lra). done.
    - apply (Rmult_lt_reg_r D); [done|]. replace (IZR m * (A / D) * D) with (IZR m * A) by (field; lra). done. }
  rewrite Hd, minus_IZR. unfold D, A. split; intros H.
  - apply exp_increasing. lra.
  - apply exp_lt_inv in H. lra.
Qed.

Lemma C76_between_proof : forall p q, (0 < q)%R -> (q < p)%R -> (p < 1)%R -> (q < rounding_threshold p q < p)%R.
Proof.
  intros p q H1 H2 H3. destruct (threshold_ln p q H1 H2 H3) as (HA & HD & ->).
  set (A := ln (1 - q) - ln (1 - p)) in *. set (D := ln p - ln q + A) in *.
  pose proof (ln_kl p q ltac:(lra) ltac:(lra) ltac:(lra)) as K1. pose proof (ln_kl (1 - p) (1 - q) ltac:(lra) ltac:(lra) ltac:(lra)) as K2.
  pose proof (ln_kl q p ltac:(lra) ltac:(lra) ltac:(lra)) as K3. pose proof (ln_kl (1 - q) (1 - p) ltac:(lra) ltac:(lra) ltac:(lra)) as K4.
  split.
  - apply (Rmult_lt_reg_r D); [done|]. replace (A / D * D) with A by (field; lra). unfold D, A. lra.
  - apply (Rmult_lt_reg_r D); [done|]. replace (A / D * D) with A by (field; lra). unfold D, A. lra.
Qed.

Close Scope R_scope.
Open Scope Z_scope.

(** ** The vote *)
Definition cellz (row : list Z) (c : Z) : Z := match row !! Z.to_nat c with Some v => v | None => 0 end.
Lemma table_cell n B row c : table n B -> row ∈ B -> 0 <= c < n -> py_index row c = Ok (cellz row c) /\ (cellz row c = 0 \/ cellz row c = 1) /\ row !! Z.to_nat c = Some (cellz row c).
Proof.
  intros [_ HT] Hr Hc. eapply (proj1 (list.Forall_forall _ _)) in HT as [HL HF]; [|exact Hr]. destruct (py_index_in_range row c) as (a & H1 & H2); [lia|].
  unfold cellz. rewrite H2. split_and!; [done| |done]. eapply (proj1 (list.Forall_forall _ _)) in HF; [exact HF|]. by eapply elem_of_list_lookup_2.
Qed.
Lemma votes_count n B c : table n B -> 0 <= c < n -> zlen (List.filter (fun v => negb (v =? 0)) (map (fun row => cellz row c) B)) = votes B c.
Proof.
  intros HT Hc. unfold votes. assert (HR : forall row, row ∈ B -> (cellz row c = 0 \/ cellz row c = 1) /\ row !! Z.to_nat c = Some (cellz row c)) by (intros row Hr; by apply (table_cell n B row c)).
  clear HT. induction B as [|row B IH]; [done|]. cbn [map List.filter]. rewrite filter_cons. destruct (HR row) as [H01 HS]; [left|].
  assert (IH' : zlen (List.filter (fun v => negb (v =? 0)) (map (fun row => cellz row c) B)) = zlen (filter (fun row => row !! Z.to_nat c = Some 1) B)) by (apply IH; intros r Hr; apply HR; by right).
  destruct H01 as [H0|H0]; rewrite HS, H0; cbn [negb Z.eqb].
  - rewrite decide_False by done. done.
  - rewrite decide_True by done. rewrite !zlen_cons, IH'. done.
Qed.
Lemma votes_range B c : 0 <= votes B c <= zlen B.
Proof. unfold votes, zlen. pose proof (filter_length (fun row : list Z => row !! Z.to_nat c = Some 1) B). lia. Qed.
Lemma table_column n B c : table n B -> 0 <= c < n -> column n B c = Ok (map (fun row => cellz row c) B).
Proof.
  intros HT Hc. unfold column. destruct (Z.ltb_spec c (- n)); [lia|]. destruct (Z.leb_spec n c); [lia|]. cbn [orb]. apply rmap_id. intros row Hr. by apply (table_cell n B row c).
Qed.
Lemma enumerate_votes n (f : Z -> Z) : 0 <= n -> enumerate (map f (seqZ 0 n)) = map (fun c => (c, f c)) (seqZ 0 n).
Proof.
  intros Hn. unfold enumerate, py_range. replace (zlen (map f (seqZ 0 n))) with n by (rewrite zlen_map; unfold zlen; rewrite seqZ_length; lia).
  induction (seqZ 0 n) as [|x l IH]; [done|]. cbn [map zip_with zip]. by rewrite <- IH.
Qed.
Lemma Rltb_spec a b : Rltb a b = true <-> (a < b)%R.
Proof. unfold Rltb. destruct (Rlt_dec a b); split; done. Qed.
Lemma majority_ok ord n B t : set_order ord -> table n B -> exists cs, majority_single ord n B t = Ok cs /\
  lists cs (fun c => 0 <= c < n /\ (IZR (zlen B) * t < IZR (votes B c))%R).
Proof.
  intros Ho HT. unfold majority_single.
  rewrite (rmap_id _ (votes B)). 2:{ intros c Hc. apply elem_of_py_range in Hc. rewrite (table_column n) by done. cbn [rbind]. by rewrite (votes_count n). }
  cbn [rbind]. eexists. split; [done|]. split; [by apply set_order_NoDup|]. intros c. rewrite (set_order_elem ord) by done. rewrite elem_of_py_set, elem_of_map.
  unfold py_range. rewrite enumerate_votes by apply HT. split.
  - intros ([c' k] & -> & H). apply elem_of_lfilter in H as [H2 H1]. apply elem_of_map in H1 as (c'' & [= -> ->] & H1). apply elem_of_seqZ in H1. cbn in *. rewrite Rltb_spec in H2. split; [lia|done].
  - intros [H1 H2]. exists (c, votes B c). split; [done|]. apply elem_of_lfilter. split; [by apply Rltb_spec|]. apply elem_of_map. exists c. split; [done|]. apply elem_of_seqZ. lia.
Qed.
Lemma lists_ext cs P Q : (forall c, P c <-> Q c) -> lists cs P -> lists cs Q.
Proof. intros H [H1 H2]. split; [done|]. intros c. by rewrite H2. Qed.
Lemma lists_perm cs ds P : lists cs P -> lists ds P -> cs ≡ₚ ds.
Proof. intros [H1 H2] [H3 H4]. apply NoDup_Permutation; [done|done|]. intros c. by rewrite H2, H4. Qed.

Lemma C76_likelier_proof : forall ord p q n B, set_order ord -> (0 < q)%R -> (q < p)%R -> (p < 1)%R -> table n B ->
  exists cs, majority_single ord n B (rounding_threshold p q) = Ok cs /\ lists cs (elected p q n B).
Proof.
  intros ord p q n B Ho H1 H2 H3 HT. destruct (majority_ok ord n B (rounding_threshold p q) Ho HT) as (cs & E & HL). exists cs. split; [done|].
  eapply lists_ext; [|exact HL]. intros c. unfold elected. rewrite threshold_likely; [done|done|done|done|apply votes_range].
Qed.


(** ** The estimates *)
Lemma zsum_cons1 a l : zsum (a :: l) = a + zsum l.
Proof. done. Qed.
Lemma zsum_plus1 {A} (f g : A -> Z) l : zsum (map (fun x => f x + g x) l) = zsum (map f l) + zsum (map g l).
Proof. induction l as [|x l IH]; [done|]. cbn [map]. rewrite !zsum_cons1, IH. lia. Qed.
Lemma zsum_ext1 {A} (f g : A -> Z) l : (forall x, x ∈ l -> f x = g x) -> zsum (map f l) = zsum (map g l).
Proof. intros H. f_equal. apply map_ext_in. intros x Hx. apply H. by apply elem_of_list_In. Qed.
Lemma zsum_zero1 {A} (l : list A) : zsum (map (fun _ => 0) l) = 0.
Proof. induction l as [|x l IH]; [done|]. cbn [map]. by rewrite zsum_cons1, IH. Qed.
Lemma votes_sum n B c : table n B -> 0 <= c < n -> votes B c = zsum (map (fun row => cellz row c) B).
Proof.
  intros HT Hc. rewrite <- (votes_count n) by done.
  assert (HR : forall row, row ∈ B -> cellz row c = 0 \/ cellz row c = 1) by (intros row Hr; by apply (table_cell n B row c)). clear HT.
  induction B as [|row B IH]; [done|]. cbn [map List.filter]. rewrite zsum_cons1, <- IH by (intros r Hr; apply HR; by right).
  destruct (HR row (elem_of_list_here _ _)) as [H|H]; rewrite H; [change (0 =? 0) with true|change (1 =? 0) with false]; cbn [negb]; [lia|]. rewrite zlen_cons. lia.
Qed.
Lemma sum_swap n B cs : table n B -> (forall c, c ∈ cs -> 0 <= c < n) -> zsum (map zsum (map (fun row => map (cellz row) cs) B)) = zsum (map (votes B) cs).
Proof.
  intros HT Hcs. rewrite (zsum_ext1 (votes B) (fun c => zsum (map (fun row => cellz row c) B))) by (intros c Hc; apply (votes_sum n); auto). clear Hcs HT.
  induction B as [|row B IH]. { cbn [map]. rewrite zsum_zero1. done. }
  cbn [map]. rewrite zsum_cons1, IH, <- zsum_plus1. done.
Qed.
Lemma table_rows n B : table n B -> map (fun row => map (cellz row) (seqZ 0 n)) B = B.
Proof.
  intros [Hn HT]. rewrite <- (map_id B) at 2. apply map_ext_in. intros row Hr%elem_of_list_In. eapply (proj1 (list.Forall_forall _ _)) in HT as [HL _]; [|exact Hr].
  apply list_eq. intros i. change (map (cellz row) (seqZ 0 n)) with (cellz row <$> seqZ 0 n). rewrite list_lookup_fmap. destruct (decide (i < length row)%nat).
  - rewrite lookup_seqZ_lt by (unfold zlen in HL; lia). cbn. unfold cellz. replace (Z.to_nat (0 + Z.of_nat i)) with i by lia.
    destruct (lookup_lt_is_Some_2 row i) as [v Hv]; [done|]. by rewrite Hv.
  - rewrite lookup_seqZ_ge by (unfold zlen in HL; lia). rewrite lookup_ge_None_2 by lia. done.
Qed.
Lemma zlen_perm (l l' : list Z) : l ≡ₚ l' -> zlen l = zlen l'.
Proof. intros H. unfold zlen. by rewrite H. Qed.
Lemma share_perm d B cs ds : cs ≡ₚ ds -> share d B cs = share d B ds.
Proof. intros H. unfold share. rewrite (zlen_perm _ _ H). assert (E : zsum (map (votes B) cs) = zsum (map (votes B) ds)) by (apply zsum_perm; by apply Permutation_map). by rewrite E. Qed.
Lemma estimate_ok ord p q n B : set_order ord -> (0 < q)%R -> (q < p)%R -> (p < 1)%R -> table n B ->
  exists inside outside, lists inside (elected p q n B) /\ lists outside (fun c => 0 <= c < n /\ c ∉ inside) /\
    estimate_single ord p q n B = Ok (share 1 B inside, share 0 B outside, inside).
Proof.
  intros Ho H1 H2 H3 HT. destruct (C76_likelier_proof ord p q n B Ho H1 H2 H3 HT) as (cs & E & HL).
  exists cs, (filter (fun c => c ∉ cs) (seqZ 0 n)). split_and!; [done| |].
  { split; [apply list.NoDup_filter, NoDup_py_range|]. intros c. rewrite elem_of_list_filter, elem_of_seqZ. split; [intros [K1 K2]; split; [lia|done]|intros [K1 K2]; split; [done|lia]]. }
  set (os := filter _ _). assert (Hperm : seqZ 0 n ≡ₚ cs ++ os).
  { apply NoDup_Permutation; [apply NoDup_py_range| |].
    - apply NoDup_app. split_and!; [apply HL| |apply list.NoDup_filter, NoDup_py_range]. intros c Hc Hc'. by apply elem_of_list_filter in Hc' as [? _].
    - intros c. unfold os. rewrite elem_of_app, elem_of_list_filter, elem_of_seqZ. split.
      + intros Hc. destruct (decide (c ∈ cs)); [by left|by right].
      + intros [Hc|[_ Hc]]; [|done]. apply HL in Hc as [Hc _]. lia. }
  assert (Hcs : forall c, c ∈ cs -> 0 <= c < n). { intros c Hc. apply HL in Hc as [Hc _]. done. }
  unfold estimate_single. rewrite E. cbn [rbind].
  rewrite (rmap_id _ (fun row => map (cellz row) cs)). 2:{ intros row Hr. apply rmap_id. intros c Hc. apply (table_cell n B row c); auto. }
  cbn [rbind]. rewrite (sum_swap n) by done.
  assert (Htot : zsum (map zsum B) = zsum (map (votes B) cs) + zsum (map (votes B) os)).
  { rewrite <- (table_rows n B) at 1 by done. rewrite (sum_swap n); [|done|intros c Hc; apply elem_of_seqZ in Hc; lia].
    rewrite <- zsum_app, <- map_app. apply zsum_perm. by apply Permutation_map. }
  rewrite Htot. replace (zsum (map (votes B) cs) + zsum (map (votes B) os) - zsum (map (votes B) cs)) with (zsum (map (votes B) os)) by lia.
  assert (Hlen : n - zlen cs = zlen os). { apply zlen_perm in Hperm. rewrite zlen_app in Hperm. destruct HT as [Hn _]. unfold zlen in Hperm at 1. rewrite seqZ_length in Hperm. lia. }
  rewrite Hlen. done.
Qed.
Lemma misfit_fun n B pq e e' : misfit n B pq e -> misfit n B pq e' -> e = e'.
Proof.
  intros (i & o & H1 & H2 & ->) (i' & o' & H1' & H2' & ->). assert (Hi : i ≡ₚ i') by (by eapply lists_perm).
  rewrite (share_perm 1 B i i') by done. rewrite (share_perm 0 B o o'); [done|]. eapply lists_perm; [exact H2|]. eapply lists_ext; [|exact H2']. intros c. by rewrite Hi.
Qed.

(** ** The search *)
Definition pstep ord n B (s : pq_state) (pq : R * R) : result pq_state :=
  let! '(est_p, est_q, cluster) := estimate_single ord (fst pq) (snd pq) n B in
  let diff := (Rabs (fst pq - est_p) + Rabs (snd pq - est_q))%R in
  if (match pq_min s with None => true | Some d => Rltb diff d end) then Ok (PQ (Some diff) (fst pq) (snd pq) cluster) else Ok s.
Lemma rfold_app1 {A S} (f : S -> A -> result S) s l l' : rfold f s (l ++ l') = (let! s' := rfold f s l in rfold f s' l').
Proof. revert s. induction l as [|x l IH]; intros s; cbn [app rfold]; [done|]. destruct (f s x); [|done]. cbn [rbind]. apply IH. Qed.
Lemma rfold_ext1 {A S} (f g : S -> A -> result S) s l : (forall s x, f s x = g s x) -> rfold f s l = rfold g s l.
Proof. intros H. revert s. induction l as [|x l IH]; intros s; cbn [rfold]; [done|]. rewrite H. destruct (g s x); [|done]. cbn [rbind]. apply IH. Qed.
Lemma search_pairs ord n B ps qs s : rfold (fun s p => rfold (pq_step ord n B p) s qs) s ps = rfold (pstep ord n B) s (pairs ps qs).
Proof.
  unfold pairs. revert s. induction ps as [|p ps IH]; intros s; cbn [map concat rfold]; [done|]. rewrite rfold_app1.
  assert (E : forall s, rfold (pq_step ord n B p) s qs = rfold (pstep ord n B) s (map (pair p) (List.filter (fun q => if Rlt_dec q p then true else false) qs))).
  { clear IH s. induction qs as [|q qs IHq]; intros s; [done|]. cbn [List.filter rfold]. unfold pq_step at 1, Rleb. destruct (Rle_dec p q) as [Hle|Hle], (Rlt_dec q p) as [Hlt|Hlt]; try (exfalso; lra).
    - cbn [rbind]. apply IHq.
    - cbn [map rfold]. unfold pstep at 1. cbn [fst snd]. destruct (estimate_single ord p q n B) as [[[a b] c]|]; [|done]. cbn [rbind].
      match goal with |- context [if ?b then _ else _] => destruct b end; cbn [rbind]; apply IHq. }
  rewrite E. destruct (rfold _ _ _) as [s'|]; [|done]. cbn [rbind]. apply IH.
Qed.
Definition searched n B (l : list (R * R)) (s : pq_state) : Prop :=
  match pq_min s with
  | None => l = [] /\ s = PQ None 1%R 0%R []
  | Some e => exists before after, l = before ++ (pq_p s, pq_q s) :: after /\ misfit n B (pq_p s, pq_q s) e /\ lists (pq_cluster s) (elected (pq_p s) (pq_q s) n B) /\
      (forall pq' e', pq' ∈ before -> misfit n B pq' e' -> (e < e')%R) /\ (forall pq' e', pq' ∈ after -> misfit n B pq' e' -> (e <= e')%R)
  end.
Definition proper_pair (pq : R * R) : Prop := (0 < snd pq)%R /\ (snd pq < fst pq)%R /\ (fst pq < 1)%R.
Lemma search_ok ord n B l : set_order ord -> table n B -> Forall proper_pair l ->
  exists s, rfold (pstep ord n B) (PQ None 1%R 0%R []) l = Ok s /\ searched n B l s.
Proof.
  intros Ho HT. induction l as [|pq l IH] using rev_ind; intros HP. { eexists. split; [done|]. unfold searched. cbn. done. }
  apply Forall_app in HP as [HP Hpq]. apply list.Forall_cons in Hpq as [(P1 & P2 & P3) _]. destruct (IH HP) as (s & E & Hs). rewrite rfold_app1, E. cbn [rbind rfold].
  destruct pq as [p q]. cbn [fst snd] in *. destruct (estimate_ok ord p q n B Ho P1 P2 P3 HT) as (i & o & Hi & Hout & Ee). unfold pstep. cbn [fst snd]. rewrite Ee. cbn [rbind].
  set (d := (Rabs (p - share 1 B i) + Rabs (q - share 0 B o))%R). assert (Hd : misfit n B (p, q) d) by (exists i, o; done).
  unfold searched in Hs. destruct (pq_min s) as [e|] eqn:Em.
  - destruct Hs as (b & a & -> & Hm & Hc & Hb & Ha). unfold Rltb. destruct (Rlt_dec d e) as [Hlt|Hge]; cbn [rbind].
    + eexists. split; [done|]. unfold searched. cbn [pq_min pq_p pq_q pq_cluster]. exists (b ++ (pq_p s, pq_q s) :: a), []. split_and!; [done|done|done| |].
      * intros pq' e' [H|[->|H]%elem_of_cons]%elem_of_app Hm'; [specialize (Hb _ _ H Hm'); lra|rewrite (misfit_fun n B (pq_p s, pq_q s) e' e); [done|done|done]|specialize (Ha _ _ H Hm'); lra].
      * intros pq' e' H. by apply elem_of_nil in H.
    + exists s. split; [done|]. unfold searched. rewrite Em. exists b, (a ++ [(p, q)]). split_and!; [by rewrite <- app_assoc|done|done|done|].
      intros pq' e' [H|H]%elem_of_app Hm'; [by eapply Ha|]. apply elem_of_list_singleton in H as ->. rewrite (misfit_fun n B (p, q) e' d) by done. lra.
  - destruct Hs as [-> ->]. cbn [rbind]. eexists. split; [done|]. unfold searched. cbn [pq_min pq_p pq_q pq_cluster]. exists [], []. split_and!; [done|done|done| |]; intros pq' e' H; by apply elem_of_nil in H.
Qed.
Lemma pairs_proper ps qs : Forall (fun p => (p < 1)%R) ps -> Forall (fun q => (0 < q)%R) qs -> Forall proper_pair (pairs ps qs).
Proof.
  intros Hp Hq. apply list.Forall_forall. intros [p q] H. unfold pairs in H. apply elem_of_concat in H as (l & Hl & H). apply elem_of_map in Hl as (p' & -> & Hp').
  apply elem_of_map in H as (q' & [= -> ->] & H). apply elem_of_lfilter in H as [H1 H2]. destruct (Rlt_dec q' p'); [|done].
  eapply (proj1 (list.Forall_forall _ _)) in Hp; [|exact Hp']. eapply (proj1 (list.Forall_forall _ _)) in Hq; [|exact H2]. done.
Qed.

Lemma C77_search_proof : forall ord ps qs n B, set_order ord -> table n B -> Forall (fun p => (p < 1)%R) ps -> Forall (fun q => (0 < q)%R) qs ->
  (pairs ps qs = [] -> estimate_pq ord ps qs n B = Ok (1%R, 0%R, [])) /\
  (pairs ps qs <> [] -> exists p q cs, estimate_pq ord ps qs n B = Ok (p, q, cs) /\ best_pair n B (pairs ps qs) (p, q) /\ lists cs (elected p q n B)).
Proof.
  intros ord ps qs n B Ho HT Hp Hq. unfold estimate_pq. rewrite search_pairs. destruct (search_ok ord n B (pairs ps qs) Ho HT (pairs_proper _ _ Hp Hq)) as (s & E & Hs).
  split.
  - intros H0. rewrite H0. done.
  - intros H0. rewrite E. cbn [rbind]. unfold searched in Hs. destruct (pq_min s) as [e|]; [|by destruct Hs]. destruct Hs as (b & a & Hl & Hm & Hc & Hb & Ha).
    exists (pq_p s), (pq_q s), (pq_cluster s). split_and!; [done| |done]. exists b, a, e. done.
Qed.


(** ** PCV *)
Lemma grid_pairs : pairs grid_ps grid_qs = grid.
Proof.
  assert (Hf : forall p, p ∈ grid_ps -> List.filter (fun q => if Rlt_dec q p then true else false) grid_qs = grid_qs).
  { intros p Hp. assert (H3 : (3 / 10 <= p)%R). { unfold grid_ps in Hp. cbn [map] in Hp. repeat (apply elem_of_cons in Hp as [->|Hp]; [lra|]). by apply elem_of_nil in Hp. }
    unfold grid_qs. cbn [map List.filter]. repeat (destruct (Rlt_dec _ p) as [_|Hn]; [|exfalso; lra]). done. }
  unfold pairs. rewrite (map_ext_in _ (fun p => map (pair p) grid_qs)). 2:{ intros p Hp%elem_of_list_In. by rewrite Hf. }
  done.
Qed.
Lemma grid_ok : Forall (fun p => (p < 1)%R) grid_ps /\ Forall (fun q => (0 < q)%R) grid_qs.
Proof. unfold grid_ps, grid_qs. cbn [map]. split; repeat (constructor; [lra|]); constructor. Qed.
Lemma take_rows_of B g : (forall i, i ∈ g -> 0 <= i < zlen B) -> exists sub, take_rows B g = Ok sub /\ rows_of B g sub.
Proof.
  intros H. unfold take_rows, rows_of. induction g as [|i g IH]; [exists []; split; [done|constructor]|]. destruct IH as (sub & E & HF); [intros j Hj; apply H; by right|].
  destruct (py_index_in_range B i (H i (elem_of_list_here _ _))) as (row & E1 & E2). exists (row :: sub). cbn [rmap]. rewrite E1. cbn [rbind]. rewrite E. split; [done|].
  constructor; [|done]. split; [|done]. apply H. left.
Qed.
Lemma rows_of_table n B g sub : table n B -> rows_of B g sub -> table n sub /\ zlen sub = zlen g.
Proof.
  intros [Hn HT] HR. split.
  - split; [done|]. induction HR as [|i row g sub [_ Hi] HR IH]; constructor; [|done]. eapply (proj1 (list.Forall_forall _ _)) in HT; [exact HT|]. by eapply elem_of_list_lookup_2.
  - unfold zlen. by rewrite (Forall2_length _ _ _ HR).
Qed.
Lemma vote_one_ok ord n B t heuristic g : set_order ord -> table n B -> (forall i, i ∈ g -> 0 <= i < zlen B) ->
  exists r, vote_one ord n B t heuristic g = Ok r /\ columns_of heuristic t n B g r.
Proof.
  intros Ho HT Hg. destruct (take_rows_of B g Hg) as (sub & E & HR). destruct (rows_of_table n B g sub HT HR) as [HS HL]. unfold vote_one. rewrite E. cbn [rbind]. unfold columns_of. destruct heuristic.
  - destruct grid_ok as [G1 G2]. destruct (C77_search_proof ord grid_ps grid_qs n sub Ho HS G1 G2) as [_ H]. rewrite grid_pairs in H. destruct H as (p & q & cs & E2 & Hb & Hl); [done|].
    rewrite E2. cbn [rbind]. exists cs. split; [done|]. exists sub. split; [done|]. by exists p, q.
  - destruct (majority_ok ord n sub t Ho HS) as (cs & E2 & Hl). exists cs. split; [done|]. exists sub. split; [done|]. by rewrite <- HL.
Qed.

Lemma C78_pcv_proof : forall ord labels n B t min_size (heuristic : bool), set_order ord -> table n B -> zlen labels = zlen B ->
  exists rights, pcv ord labels n B t min_size heuristic = Ok (kmeans_groups labels, rights) /\ groups_of labels (kmeans_groups labels) /\
    Forall2 (columns_of heuristic t n B) (kmeans_groups labels) rights.
Proof.
  intros ord labels n B t mcs heuristic Ho HT HL. pose proof (C75_groups_proof labels) as HG. unfold pcv. cbv zeta.
  assert (Hi : forall g i, g ∈ kmeans_groups labels -> i ∈ g -> 0 <= i < zlen B).
  { intros g i Hg Hi. rewrite <- HL. destruct HG as [HP _]. assert (H : i ∈ concat (kmeans_groups labels)) by (apply elem_of_concat; by exists g).
    rewrite HP in H. apply elem_of_seqZ in H. lia. }
  assert (E : exists rights, rmap (vote_one ord n B t heuristic) (kmeans_groups labels) = Ok rights /\ Forall2 (columns_of heuristic t n B) (kmeans_groups labels) rights).
  { clear HG. induction (kmeans_groups labels) as [|g gs IH]; [exists []; split; [done|constructor]|].
    destruct (vote_one_ok ord n B t heuristic g Ho HT) as (r & E1 & Hr); [intros i; apply Hi; left|]. destruct IH as (rs & E2 & Hrs); [intros h i Hh; apply Hi; by right|].
    exists (r :: rs). cbn [rmap]. rewrite E1. cbn [rbind]. rewrite E2. split; [done|]. by constructor. }
  destruct E as (rs & E & HF). exists rs. unfold majority_vote.
  assert (Hf : List.filter (fun g : list Z => negb (zlen g <? 0)) (kmeans_groups labels) = kmeans_groups labels).
  { clear. induction (kmeans_groups labels) as [|g gs IH]; [done|]. cbn [List.filter]. pose proof (zlen_nonneg g). destruct (Z.ltb_spec (zlen g) 0); [lia|]. cbn [negb]. by rewrite IH. }
  rewrite Hf, E. done.
Qed.
