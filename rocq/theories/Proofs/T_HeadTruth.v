(** Proofs of the property theorems of Properties/P_HeadTruth.v. *)
From Coq Require Import Lra.
From Verif.Model Require Import PyBase PyReal Sparse Rand RandR Cftp GreedyHead HeadTruth.
From Verif.Spec Require Import SMatrix SCftp SBoley SGreedyHead.
Open Scope Z_scope.
From Verif.Model Require Import Utils Assign GreedyArea.
From Verif.Proofs Require Import PBase PSparse PAssign PRand PRandR PCftp T_Cftp T_Boley T_GreedyHead.
Open Scope Z_scope.

(** ** the same rows as lists *)
Section embed.
  Context (ord : gset Z -> list Z) (Ho : set_order ord).

  Lemma py_set_ord (r : gset Z) : py_set (ord r) = r.
  Proof. apply set_eq. intros a. unfold py_set. rewrite elem_of_list_to_set, (Ho r), elem_of_elements. done. Qed.

  Lemma py_index_map (rows : list (gset Z)) i : py_index (map ord rows) i = (let! r := py_index rows i in Ok (ord r)).
  Proof.
    unfold py_index. assert (E : zlen (map ord rows) = zlen rows) by (unfold zlen; by rewrite map_length). rewrite E.
    change (map ord rows) with (ord <$> rows). repeat (case_match; try done); rewrite ?list_lookup_fmap in *; by simplify_option_eq.
  Qed.

  Lemma row_of_map (rows : list (gset Z)) i : py_set (row_of (map ord rows) i) = rset rows i.
  Proof.
    unfold row_of, rset. change (map ord rows) with (ord <$> rows). rewrite list_lookup_fmap. destruct (rows !! Z.to_nat i); simpl; [apply py_set_ord|done].
  Qed.

  Lemma pw_map rows p n : pw (map ord rows) p n = n_extra (rset rows p) (rset rows n).
  Proof. unfold pw, n_extra. by rewrite !row_of_map. Qed.

  Lemma count_map P rows y a : count_rows P (map ord rows) y a = set_count P rows y {[ a ]}.
  Proof.
    unfold count_rows, set_count. revert y. induction rows as [|r rows IH]; intros [|v y]; try done. cbn [map zip zip_with List.filter fst snd].
    assert (E : bool_decide (a ∈ ord r) = bool_decide ({[ a ]} ⊆ r)).
    { apply bool_decide_ext. rewrite (Ho r), elem_of_elements. clear. set_solver. }
    rewrite E. specialize (IH y). unfold zlen in *. destruct (bool_decide ({[a]} ⊆ r)), (P v); cbn [andb length]; lia.
  Qed.

  Lemma discrim_map rows y a : discrim (map ord rows) y a = pattern_discrim rows y {[ a ]}.
  Proof. unfold discrim, pattern_discrim, supp_pos, supp_neg. by rewrite !count_map. Qed.

  (** a discriminativity sampler with these rows *)
  Lemma embed_fit (rows : list (gset Z)) (n : Z) X y : 0 <= n -> (forall r a, r ∈ rows -> a ∈ r -> 0 <= a < n) ->
    zlen rows = csr_rows X -> zlen y = csr_rows X -> py_set y = {[ 0; 1 ]} ->
    exists s, cds_fit ord true 0%Qc Tight (Some (replicate (Z.to_nat n) ∅, map ord rows)) X y = Ok s /\ fitted_rows X y s /\
      zlen (cds_space s) = n /\ cds_rows s = map ord rows /\ cds_pos s = pos_indices y /\ cds_neg s = neg_indices y.
  Proof.
    intros Hn Hr Hlen Hy Hy01. set (space := replicate (Z.to_nat n) (∅ : gset Z)). set (lr := map ord rows).
    assert (Hsl : zlen space = n) by (unfold space, zlen; rewrite replicate_length; lia).
    assert (Hll : zlen lr = csr_rows X) by (unfold lr; rewrite <- Hlen; unfold zlen; by rewrite map_length).
    assert (Hl : length lr = length y) by (unfold zlen in *; lia).
    assert (Hsr : sample_rows (zlen space) lr).
    { intros r Hin. unfold lr in Hin. apply elem_of_map in Hin as (r' & -> & Hin). split; [rewrite (Ho r'); apply NoDup_elements|].
      intros k Hk. rewrite Hsl. rewrite (Ho r'), elem_of_elements in Hk. eauto. }
    destruct (cwd_ok Tight space lr (pos_indices y)) as (Wd & Ew & HW).
    pose proof (cds_dom Tight space lr y Wd Hsr Hl HW) as Hdom.
    set (c := the_cftp Wd Wd (pos_indices y) (neg_indices y) (pair_weight lr) 1024 (pweight Wd) (pweight Wd)).
    exists (CDS space lr (pos_indices y) (neg_indices y) Wd c). split.
    - unfold cds_fit. rewrite bool_decide_eq_true_2 by done. cbn [negb rbind]. rewrite <- Hll, Ew. cbn [rbind].
      rewrite (init_ok Wd Wd (pos_indices y) (neg_indices y) (pair_weight lr) 1024 (pweight Wd) (pweight Wd) (dom1 _ _ _ _ _ _ Hdom) (dom2 _ _ _ _ _ _ Hdom)). done.
    - split_and!; done.
  Qed.

  (** the functions agree *)
  Lemma truth_eq (s : ghead) (s' : cds) : cds_rows s' = map ord (gc_rows (gh_c s)) -> cds_pos s' = gh_pos s -> cds_neg s' = gh_neg s ->
    gh_truth_pairs s = ground_truth_pairs s' /\ gh_truth_samples ord s = ground_truth_samples ord s'.
  Proof.
    intros Er Ep En. assert (E : gh_pairs s = pn_pairs s') by (unfold gh_pairs, pn_pairs; by rewrite Ep, En).
    unfold gh_truth_pairs, ground_truth_pairs, gh_truth_samples, ground_truth_samples. rewrite E, Er. generalize (pn_pairs s') as prs. clear E Er Ep En. intros prs. split.
    - f_equal. generalize (∅ : gmap (Z * Z) Z), 0. induction prs as [|w l IH]; intros d t; [done|]. cbn [rfold]. unfold pair_weight at 1.
      rewrite !py_index_map. destruct (py_index (gc_rows (gh_c s)) w.1) as [rp|e]; [|done]. cbn [rbind].
      destruct (py_index (gc_rows (gh_c s)) w.2) as [rn|e]; [|done]. cbn [rbind]. rewrite !py_set_ord. apply IH.
    - f_equal. generalize (∅ : gmap Z Z). induction prs as [|w l IH]; intros d; [done|]. cbn [rfold].
      rewrite !py_index_map. destruct (py_index (gc_rows (gh_c s)) w.1) as [rp|e]; [|done]. cbn [rbind].
      destruct (py_index (gc_rows (gh_c s)) w.2) as [rn|e]; [|done]. cbn [rbind]. rewrite !py_set_ord. apply IH.
  Qed.
End embed.

(** ** the keys *)
Lemma pair_keys (rows : list (gset Z)) prs : forall (d : gmap (Z * Z) Z) (t : Z) d' (t' : Z),
  rfold (fun dt (pn : Z * Z) =>
      let! rp := py_index rows (fst pn) in
      let! rn := py_index rows (snd pn) in
      let cnt := Z.of_nat (size (rp ∖ rn)) in
      Ok (<[pn := cnt]> (fst dt), snd dt + cnt)) (d, t) prs = Ok (d', t') ->
  forall k, is_Some (d' !! k) -> is_Some (d !! k) \/ k ∈ prs.
Proof.
  induction prs as [|w prs IH]; intros d t d' t' E k Hk; cbn [rfold] in E.
  - injection E as <- <-. by left.
  - destruct (py_index rows w.1) as [rp|e]; [|done]. cbn [rbind] in E. destruct (py_index rows w.2) as [rn|e]; [|done]. cbn [rbind fst snd] in E.
    destruct (IH _ _ _ _ E k Hk) as [H|H]; [|right; by apply elem_of_list_further].
    destruct (decide (w = k)) as [->|Hne]; [right; apply elem_of_list_here|]. rewrite lookup_insert_ne in H by done. by left.
Qed.

Lemma div_keys {K} `{Countable K} (total : Z) (l : list (K * Z)) : forall (m m' : gmap K R),
  rfold (fun m kv => let! q := py_div (snd kv) total in Ok (<[fst kv := q]> m)) m l = Ok m' ->
  forall k, is_Some (m' !! k) -> is_Some (m !! k) \/ exists c, (k, c) ∈ l.
Proof.
  induction l as [|[k0 c0] l IH]; intros m m' E k Hk; cbn [rfold] in E.
  - injection E as <-. by left.
  - cbn [fst snd] in E. destruct (py_div c0 total) as [q|e]; [|done]. cbn [rbind] in E.
    destruct (IH _ _ E k Hk) as [Hm|[c Hc]]; [|right; exists c; by apply elem_of_list_further].
    destruct (decide (k0 = k)) as [->|Hne]; [right; exists c0; apply elem_of_list_here|]. rewrite lookup_insert_ne in Hm by done. by left.
Qed.

Lemma truth_keys s mp k : gh_truth_pairs s = Ok mp -> is_Some (mp !! k) -> k ∈ gh_pairs s.
Proof.
  unfold gh_truth_pairs. intros E Hk. destruct (rfold _ _ (gh_pairs s)) as [[d t]|e] eqn:E1; [|done]. cbn [rbind] in E.
  destruct (div_keys t _ _ _ E k Hk) as [H|[c Hc]]; [rewrite lookup_empty in H; by destruct H|].
  apply elem_of_map_to_list in Hc. destruct (pair_keys _ _ _ _ _ _ E1 k ltac:(eauto)) as [H|H]; [rewrite lookup_empty in H; by destruct H|done].
Qed.

Lemma elem_of_gh_pairs s p n : (p, n) ∈ gh_pairs s -> p ∈ gh_pos s /\ n ∈ gh_neg s.
Proof.
  unfold gh_pairs. intros H. apply elem_of_list_In, in_concat in H as (l & Hl & Hin). apply in_map_iff in Hl as (p' & <- & Hp). apply in_map_iff in Hin as (n' & [= -> ->] & Hn).
  split; by apply elem_of_list_In.
Qed.

Lemma extra_list ord (P N : gset Z) : set_order ord -> zlen (List.filter (fun k => bool_decide (k ∉ ord N)) (ord P)) = n_extra P N.
Proof.
  intros Ho. unfold n_extra, zlen. f_equal. rewrite <- (size_list_to_set (C := gset Z)).
  - f_equal. apply set_eq. intros a. rewrite elem_of_list_to_set, elem_of_list_In, filter_In, <- elem_of_list_In, bool_decide_eq_true, !(Ho _), !elem_of_elements.
    clear. set_solver.
  - apply NoDup_ListNoDup, List.NoDup_filter, NoDup_ListNoDup. rewrite (Ho P). apply NoDup_elements.
Qed.

(** ** the values *)
Lemma truth_values ord gamma eps norm X0 y s : set_order ord -> wf_cmat (csr_mat X0) = true -> binary (csr_mat X0) ->
  zlen y = csr_rows X0 -> py_set y = {[ 0; 1 ]} -> let rows := gc_rows (gh_c s) in rows_of X0 rows -> ok_state (GHSpec norm gamma eps rows y) (csr_cols X0) s ->
  let total := pairs_total n_extra rows y in
  (total = 0 -> gh_truth_samples ord s = Ok ∅ /\ gh_truth_pairs s = Err ZeroDivisionError) /\
  (total <> 0 -> exists mp ms, gh_truth_pairs s = Ok mp /\ gh_truth_samples ord s = Ok ms /\
     (forall p n v, mp !! (p, n) = Some v <-> exists P N, is_pos y p /\ is_neg y n /\ rows !! Z.to_nat p = Some P /\ rows !! Z.to_nat n = Some N /\
        v = (IZR (n_extra P N) / IZR total)%R) /\
     (forall a v, ms !! a = Some v <-> 0 < pattern_discrim rows y {[ a ]} /\ v = (IZR (pattern_discrim rows y {[ a ]}) / IZR total)%R) /\
     rsum (map snd (map_to_list mp)) = 1%R /\ rsum (map snd (map_to_list ms)) = 1%R).
Proof.
  intros Ho Hwf Hb Hy Hy01 rows Hr Hs total.
  assert (Hcols : 0 <= csr_cols X0). { unfold csr_cols. apply wf_cmat_facts in Hwf. destruct Hwf. lia. }
  assert (Hl : length rows = length y) by (destruct Hr as [Hr _]; unfold zlen in *; lia).
  assert (Hbound : forall r a, r ∈ rows -> a ∈ r -> 0 <= a < csr_cols X0).
  { intros r a Hin Ha. apply elem_of_list_lookup in Hin as [i Hi]. 
    apply (diff_ok X0 rows (Z.of_nat i) r ∅ a Hr Hb Hwf ltac:(lia)); [by rewrite Nat2Z.id|]. set_solver. }
  destruct (embed_fit ord Ho rows (csr_cols X0) X0 y Hcols Hbound (proj1 Hr) Hy Hy01) as (s' & Efit & Hf & Esp & Er & Ep & En).
  destruct (truth_eq ord Ho s s' Er) as [E1 E2].
  { by rewrite Ep, (ok_pos _ _ _ Hs). } { by rewrite En, (ok_neg _ _ _ Hs). }
  rewrite E1, E2.
  assert (Etot : total_discrim (zlen (cds_space s')) (cds_rows s') y = total).
  { assert (Hf' := Hf). destruct Hf' as (_ & Hf2 & Hs').
    rewrite (total_discrim_eq (cds_space s') (cds_rows s') y Hs') by (unfold zlen in *; lia).
    unfold total. rewrite pair_sum_eq by done. rewrite Er. unfold total_weight, SCftp.total_weight. f_equal. apply map_ext. intros p. f_equal. apply map_ext. intros n. apply (pw_map ord Ho). }
  destruct (C36_ground_truth_proof _ _ _ _ _ _ _ _ Ho Efit Hf) as [H0 H1]. rewrite Etot in H0, H1. split; [exact H0|].
  intros Hne. destruct (H1 Hne) as (mp & ms & Emp & Ems & Hms & Hmp & Ss & Sp). exists mp, ms. split_and!; [done..| | |done|done].
  - assert (Hval : forall p n P N, is_pos y p -> is_neg y n -> rows !! Z.to_nat p = Some P -> rows !! Z.to_nat n = Some N ->
      mp !! (p, n) = Some (IZR (n_extra P N) / IZR total)%R).
    { intros p n P N Hp Hn EP EN. rewrite (Hmp p n (ord P) (ord N) Hp Hn), extra_list; [done..| |];
        rewrite Er; change (map ord (gc_rows (gh_c s))) with (ord <$> rows); rewrite list_lookup_fmap; [by rewrite EP|by rewrite EN]. }
    intros p n v. split.
    + intros Hv. rewrite <- E1 in Emp. destruct (elem_of_gh_pairs s p n (truth_keys s mp _ Emp ltac:(eauto))) as [Hp Hn].
      rewrite (ok_pos _ _ _ Hs) in Hp. rewrite (ok_neg _ _ _ Hs) in Hn. cbn [sp_y] in Hp, Hn.
      destruct (lookup_lt_is_Some_2 rows (Z.to_nat p)) as [P EP]; [apply (pos_range' rows y p Hl) in Hp; unfold zlen in *; lia|].
      destruct (lookup_lt_is_Some_2 rows (Z.to_nat n)) as [N EN]; [apply (neg_range' rows y n Hl) in Hn; unfold zlen in *; lia|].
      apply elem_of_pos in Hp. apply elem_of_neg in Hn. exists P, N. split_and!; try done. symmetry in Er.
      rewrite (Hval p n P N Hp Hn EP EN) in Hv. by injection Hv as <-.
    + intros (P & N & Hp & Hn & EP & EN & ->). by apply Hval.
  - intros a v. rewrite Hms, Er, (discrim_map ord Ho). destruct (decide _) as [Hd|Hd]; split; intros H.
    + injection H as <-. done.
    + destruct H as [_ ->]. done.
    + done.
    + tauto.
Qed.

Lemma rows_of_unique X rows rows' : rows_of X rows -> rows_of X rows' -> rows = rows'.
Proof.
  intros [L H] [L' H']. apply list_eq. intros i. destruct (rows !! i) as [F|] eqn:E, (rows' !! i) as [F'|] eqn:E'; [|exfalso..|done].
  - f_equal. apply set_eq. intros a. rewrite <- (Nat2Z.id i) in E, E'. rewrite (H (Z.of_nat i) F), (H' (Z.of_nat i) F'); [done|lia|done|lia|done].
  - apply lookup_lt_Some in E. apply lookup_ge_None in E'. unfold zlen in *. lia.
  - apply lookup_lt_Some in E'. apply lookup_ge_None in E. unfold zlen in *. lia.
Qed.

Lemma C84_truth_proof : forall (ord : gset Z -> list Z) (cache : option ghcache) (X0 X : csr) (y : list Z),
  set_order ord -> wf_cmat (csr_mat X0) = true -> binary (csr_mat X0) -> first_matrix ord cache X X0 ->
  zlen y = csr_rows X0 -> py_set y = {[ 0; 1 ]} ->
  exists s rows, gh_fit ord cache X y = Ok s /\ rows_of X0 rows /\
    let total := pairs_total n_extra rows y in
    (total = 0 -> gh_truth_samples ord s = Ok ∅ /\ gh_truth_pairs s = Err ZeroDivisionError) /\
    (total <> 0 -> exists mp ms, gh_truth_pairs s = Ok mp /\ gh_truth_samples ord s = Ok ms /\
       (forall p n v, mp !! (p, n) = Some v <-> exists P N, is_pos y p /\ is_neg y n /\ rows !! Z.to_nat p = Some P /\ rows !! Z.to_nat n = Some N /\
          v = (IZR (n_extra P N) / IZR total)%R) /\
       (forall a v, ms !! a = Some v <-> 0 < pattern_discrim rows y {[ a ]} /\ v = (IZR (pattern_discrim rows y {[ a ]}) / IZR total)%R) /\
       rsum (map snd (map_to_list mp)) = 1%R /\ rsum (map snd (map_to_list ms)) = 1%R).
Proof.
  intros ord cache X0 X y Ho Hwf Hb Hfm Hy Hy01. destruct (fit_ok ord true 0%Qc 0%Qc cache X0 X y Ho Hwf Hb Hfm Hy Hy01) as (s & E & Hr & _ & Hs).
  exists s, (gc_rows (gh_c s)). split; [done|]. split; [done|]. exact (truth_values ord 0%Qc 0%Qc true X0 y s Ho Hwf Hb Hy Hy01 Hr Hs).
Qed.


Lemma pair_prob (s : cghead) D v : (forall o, rcan (cftp_draw (cg_cftp s) false) o -> exists D', o = Ok (RetPair D')) ->
  hprob (cftp_draw (cg_cftp s) false) (Ok (RetPair D)) v -> hprob (cg_sample_pair s) (Ok D) v.
Proof.
  intros Hc H. unfold hprob in *. unfold cg_sample_pair. eapply hbind; [exact H| |].
  - intros r Hr. destruct (Hc _ Hr) as [D' [= ->]]. cbn beta iota. 
    match goal with |- hexpect ?f _ ?v => replace v with (f (Ok D')) end; [constructor|].
    cbn beta. destruct (decide (Ok D' = Ok D)) as [E|E], (decide (Ok (RetPair D') = Ok (RetPair D))) as [E'|E']; congruence.
  - intros e. rewrite !decide_False by done. done.
Qed.

Lemma pair_law_gen (N : nat) (HN : Z.of_nat N = 2 ^ 10) : forall (ord : gset Z -> list Z) (cache : option ghcache) (X0 X : csr) (y : list Z),
  set_order ord -> wf_cmat (csr_mat X0) = true -> binary (csr_mat X0) -> first_matrix ord cache X X0 ->
  csr_rows X = csr_rows X0 -> zlen y = csr_rows X0 -> py_set y = {[ 0; 1 ]} ->
  exists s rows, cg_fit ord cache X y = Ok s /\ rows_of X0 rows /\
    let total := pairs_total n_extra rows y in
    let q := (IZR total / IZR (pos_size rows y * n_neg y))%R in
    (total = 0 -> gh_truth_pairs (cg_h s) = Err ZeroDivisionError /\ forall o, rcan (cg_sample_pair s) o -> o = Ok None) /\
    (0 < total -> exists mp, gh_truth_pairs (cg_h s) = Ok mp /\ (0 < q <= 1)%R /\
       (forall p n v, mp !! (p, n) = Some v -> hprob (cg_sample_pair s) (Ok (Some (p, n))) (v * (1 - (1 - q) ^ N))) /\
       (forall p n, mp !! (p, n) = None -> ~ rcan (cg_sample_pair s) (Ok (Some (p, n)))) /\
       hprob (cg_sample_pair s) (Ok None) ((1 - q) ^ N)).
Proof.
  intros ord cache X0 X y Ho Hwf Hb Hfm Hrows Hy Hy01.
  destruct (cg_fit_ok ord 0%Qc 0%Qc cache X0 X y Ho Hwf Hb Hfm Hrows Hy Hy01) as (s & Wd & Efit & Hr & Hl & Hs & HW & Hdom & Ei).
  destruct (truth_values ord 0%Qc 0%Qc true X0 y (cg_h s) Ho Hwf Hb Hy Hy01 Hr Hs) as [H0 H1].
  set (rows := gc_rows (gh_c (cg_h s))) in *. exists s, rows. split; [done|]. split; [done|]. intros total q. fold total in H0, H1.
  assert (Hrset : forall i, 0 <= i < zlen rows -> rows !! Z.to_nat i = Some (rset rows i)).
  { intros i Hi. unfold rset. destruct (lookup_lt_is_Some_2 rows (Z.to_nat i)) as [F EF]; [unfold zlen in Hi; lia|]. by rewrite EF. }
  assert (Hcan : forall o, rcan (cftp_draw (cg_cftp s) false) o -> exists D', o = Ok (RetPair D') /\
     (D' = None \/ exists p n, D' = Some (p, n) /\ p ∈ pos_indices y /\ n ∈ neg_indices y /\ 0 < gw rows p n)).
  { intros o H. apply (C32_usable_pair_proof _ _ _ _ _ _ _ _ _ Hdom Ei) in H as [->|(p & n & -> & Hp & Hn & Hw)]; eexists; (split; [reflexivity|]); [by left|right; eauto 10]. }
  assert (Hcan' : forall o, rcan (cg_sample_pair s) o -> exists D', o = Ok D' /\
     (D' = None \/ exists p n, D' = Some (p, n) /\ p ∈ pos_indices y /\ n ∈ neg_indices y /\ 0 < gw rows p n)).
  { intros o H. unfold cg_sample_pair in H. apply rcan_bind in H as [(r & Hr' & H)|(e & He & ->)].
    - destruct (Hcan _ Hr') as (D' & [= ->] & HD). cbn in H. eauto.
    - destruct (Hcan _ He) as (D' & ? & _). done. }
  assert (Htot : total = SCftp.total_weight (gw rows) (pos_indices y) (neg_indices y)) by (by apply pair_sum_eq).
  assert (Hgw0 : forall p n, 0 <= gw rows p n) by (intros; unfold gw; lia).
  split.
  - intros Hz. split; [by apply H0|]. intros o Hc. destruct (Hcan' _ Hc) as (D' & -> & [->|(p & n & -> & Hp & Hn & Hw)]); [done|]. exfalso.
    rewrite Htot in Hz. apply (f_equal IZR) in Hz. unfold SCftp.total_weight in Hz. rewrite <- rsum_IZR in Hz.
    apply (rsum_zero_iff _ _ p) in Hz; [| |done].
    2:{ intros. rewrite <- rsum_IZR. apply rsum_nonneg. intros. by apply (IZR_le 0). }
    cbn beta in Hz. rewrite <- rsum_IZR in Hz. apply (rsum_zero_iff _ _ n) in Hz; [|intros; by apply (IZR_le 0)|done]. apply (eq_IZR _ 0) in Hz. lia.
  - intros Ht. destruct (H1 ltac:(lia)) as (mp & ms & Emp & _ & Hmp & _). exists mp. split; [done|].
    assert (Hposs : exists p n, p ∈ pos_indices y /\ n ∈ neg_indices y /\ 0 < gw rows p n).
    { destruct (decide (Exists (fun p => Exists (fun n => 0 < gw rows p n) (neg_indices y)) (pos_indices y))) as [He|He].
      - apply list.Exists_exists in He as (p & Hp & He'). apply list.Exists_exists in He' as (n & Hn & Hpn). eauto.
      - exfalso. assert (total = 0); [|lia]. apply eq_IZR. rewrite Htot. unfold SCftp.total_weight. rewrite <- rsum_IZR. apply rsum_zero. intros p Hp. rewrite <- rsum_IZR. apply rsum_zero. intros n Hn.
        pose proof (Hgw0 p n). assert (E : gw rows p n = 0); [|by rewrite E]. destruct (Z.eq_dec (gw rows p n) 0); [done|]. exfalso. apply He.
        apply list.Exists_exists. exists p. split; [done|]. apply list.Exists_exists. exists n. split; [done|]. lia. }
    destruct (mass_pos_gen _ _ _ _ _ Hdom Hposs) as [Hsp Hsn].
    pose proof (gproposal_mass rows y _ Hl HW) as Hpm.
    assert (Hq : q = accept_mass Wd Wd (pos_indices y) (neg_indices y) (gw rows)).
    { unfold q, accept_mass. by rewrite <- Htot, Hpm. }
    destruct (C34_exact_proof _ _ _ _ _ _ _ 10 _ Hdom Ei (NoDup_sel (fun v => 0 <? v) _) (NoDup_sel (fun v => v =? 0) _) Hsp Hsn ltac:(lia) ltac:(done)) as (Hq01 & Hpn & Hnone).
    rewrite <- HN, Nat2Z.id in Hpn, Hnone. change (sel (fun v => 0 <? v) y) with (pos_indices y) in *. change (sel (fun v => v =? 0) y) with (neg_indices y) in *.
    rewrite <- Hq in Hq01, Hpn, Hnone. rewrite <- Htot in Hpn.
    assert (Hq0 : (0 < q)%R).
    { unfold q. apply Rdiv_lt_0_compat; [by apply (IZR_lt 0)|]. rewrite <- Hpm. by apply Rmult_lt_0_compat. }
    split; [lra|]. split_and!.
    + intros p n v Hv. apply Hmp in Hv as (P & M & Hp & Hn & EP & EN & ->). apply pair_prob; [intros o Hc; destruct (Hcan o Hc) as (D' & -> & _); eauto|].
      rewrite <- (rset_lookup rows p P EP), <- (rset_lookup rows n M EN). apply Hpn; [by apply elem_of_pos|by apply elem_of_neg].
    + intros p n Hv Hc. destruct (Hcan' _ Hc) as (D' & [= <-] & [?|(p' & n' & [= <- <-] & Hp & Hn & _)]); [done|].
      assert (mp !! (p, n) = Some (IZR (n_extra (rset rows p) (rset rows n)) / IZR total)%R); [|congruence].
      apply Hmp. exists (rset rows p), (rset rows n). split_and!; [by apply elem_of_pos|by apply elem_of_neg|apply Hrset; by apply (pos_range' rows y)|apply Hrset; by apply (neg_range' rows y)|done].
    + apply pair_prob; [intros o Hc; destruct (Hcan o Hc) as (D' & -> & _); eauto|]. exact Hnone.
Qed.

Lemma C84_pair_law_proof : forall (ord : gset Z -> list Z) (cache : option ghcache) (X0 X : csr) (y : list Z),
  set_order ord -> wf_cmat (csr_mat X0) = true -> binary (csr_mat X0) -> first_matrix ord cache X X0 ->
  csr_rows X = csr_rows X0 -> zlen y = csr_rows X0 -> py_set y = {[ 0; 1 ]} ->
  exists s rows, cg_fit ord cache X y = Ok s /\ rows_of X0 rows /\
    let total := pairs_total n_extra rows y in
    let q := (IZR total / IZR (pos_size rows y * n_neg y))%R in
    (total = 0 -> gh_truth_pairs (cg_h s) = Err ZeroDivisionError /\ forall o, rcan (cg_sample_pair s) o -> o = Ok None) /\
    (0 < total -> exists mp, gh_truth_pairs (cg_h s) = Ok mp /\ (0 < q <= 1)%R /\
       (forall p n v, mp !! (p, n) = Some v -> hprob (cg_sample_pair s) (Ok (Some (p, n))) (v * (1 - (1 - q) ^ 1024))) /\
       (forall p n, mp !! (p, n) = None -> ~ rcan (cg_sample_pair s) (Ok (Some (p, n)))) /\
       hprob (cg_sample_pair s) (Ok None) ((1 - q) ^ 1024)).
Proof. apply pair_law_gen. vm_compute. reflexivity. Qed.
