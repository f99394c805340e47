(** Proofs of the property theorems of Properties/P_Cftp.v. *)
From Coq Require Import Lra.
From Verif.Model Require Import PyBase PyReal Sparse Utils Graph Cliques Trie Assign RandR Cftp.
From Verif.Spec Require Import SMatrix SAssign SCftp.
Open Scope Z_scope.
From Verif.Proofs Require Import PBase PSparse PUtils PTrie PAssign PGraph PCliques PRand PRandR PUncovered T_Assign T_Graph T_Uncovered PCftp.
Open Scope Z_scope.

Section prog.
  Context (Wpos Wneg : gmap Z R) (pos neg : list Z) (weight : Z -> Z -> result Z) (max_iters : Z).
  Context (wp wn : Z -> R) (w2 : Z -> Z -> Z).
  Hypothesis H1 : forall p, p ∈ pos -> Wpos !! p = Some (wp p) /\ (0 <= wp p)%R.
  Hypothesis H2 : forall n, n ∈ neg -> Wneg !! n = Some (wn n) /\ (0 <= wn n)%R.
  Hypothesis H3 : forall p n, p ∈ pos -> n ∈ neg -> weight p n = Ok (w2 p n) /\ 0 <= w2 p n /\ (IZR (w2 p n) <= wp p * wn n)%R.

  Definition the_cftp : cftp := Cftp Wpos Wneg pos neg weight max_iters (map wp pos) (map wn neg).
  Notation c := the_cftp.
  Definition W (pn : Z * Z) : R := IZR (w2 pn.1 pn.2).

  Lemma dicts_ok (d : gmap Z R) (f : Z -> R) l : (forall x, x ∈ l -> d !! x = Some (f x) /\ (0 <= f x)%R) ->
    rmap (dict_get d) l = Ok (map f l).
  Proof.
    intros H. rewrite <- rmap_ok_map. apply rmap_ext. intros x Hx. unfold dict_get. by destruct (H x Hx) as [-> _].
  Qed.

  Lemma init_ok : cftp_init Wpos Wneg pos neg weight max_iters = Ok c.
  Proof. unfold cftp_init. rewrite (dicts_ok Wpos wp), (dicts_ok Wneg wn) by done. done. Qed.

  Lemma HWp' p : p ∈ pos -> (0 <= wp p)%R.
  Proof. apply H1. Qed.
  Lemma HWn' n : n ∈ neg -> (0 <= wn n)%R.
  Proof. apply H2. Qed.
  Lemma HW' p n : p ∈ pos -> n ∈ neg -> (0 <= W (p, n) <= wp p * wn n)%R.
  Proof. intros Hp Hn. destruct (H3 p n Hp Hn) as (_ & Ha & Hb). split; [|done]. by apply (IZR_le 0). Qed.

  Notation run := (run wp wn W).
  Notation wS := (wS W).
  Notation wbS := (wbS wp wn).
  Notation goodX := (goodX pos neg wp wn).
  Notation goodS := (goodS pos neg W).

  Lemma sim_step_ok s x : goodS s -> goodX x ->
    exists e, sim_step c (s, wS s, wbS s) x = Ok ((mstep wp wn W s x, wS (mstep wp wn W s x), wbS (mstep wp wn W s x)), e).
  Proof.
    intros Hs ((Hp & Hn) & Hb & Hu). destruct x as [[p n] u]. simpl in *. unfold dict_get.
    destruct (H1 p Hp) as [-> _], (H2 n Hn) as [-> _], (H3 p n Hp Hn) as [-> _]. cbn [rbind].
    assert (Hws : (0 < wS s)%R) by (destruct s; simpl in *; [tauto|lra]). unfold wb in Hb. simpl in Hb.
    unfold float_div. destruct (Req_EM_T (wp p * wn n * wS s) 0) as [E|_].
    { pose proof (Rmult_lt_0_compat _ _ Hb Hws). lra. }
    cbn [rbind]. unfold mstep, ratio, W, wb. simpl. destruct (Rltb u _); eexists; reflexivity.
  Qed.

  Lemma sim_fold_ok l : forall s h, goodS s -> Forall goodX l -> exists h',
    rfold (fun sh x => let! '(s', e) := sim_step c (fst sh) x in Ok (s', snd sh ++ [e])) ((s, wS s, wbS s), h) l
    = Ok ((run s l, wS (run s l), wbS (run s l)), h ++ h') /\ length h' = length l.
  Proof.
    induction l as [|x l IH]; intros s h Hs Hl.
    - exists []. simpl. by rewrite app_nil_r.
    - inversion Hl as [|? ? Hx Hl']; subst. destruct (sim_step_ok s x Hs Hx) as [e He]. cbn [rfold fst snd]. rewrite He. cbn [rbind].
      assert (Hg : goodS (mstep wp wn W s x)) by exact (mstep_good pos neg wp wn W HW' s x Hs Hx).
      destruct (IH _ (h ++ [e]) Hg Hl') as (h' & E & Hlen).
      rewrite E. exists (e :: h'). rewrite <- app_assoc. simpl. split; [done|lia].
  Qed.

  Definition trip (st : cstate) : list (Z * Z * R) := zip (zip (cs_pos st) (cs_neg st)) (cs_u st).

  Lemma simulate_ok st : Forall goodX (trip st) ->
    exists h, simulate_backwards c st = Ok (run None (trip st), h) /\ length h = length (trip st).
  Proof.
    intros Hl. unfold simulate_backwards. fold (trip st). destruct (sim_fold_ok (trip st) None [] I Hl) as (h & E & Hlen).
    simpl in E. rewrite E. cbn [rbind]. exists h. done.
  Qed.

  (** states all of whose lists have length k and whose draws can happen *)
  Definition stlen (st : cstate) (k : nat) : Prop :=
    length (cs_u st) = k /\ length (cs_pos st) = k /\ length (cs_neg st) = k.
  Definition draws (k : nat) (us : list R) (ps ns : list Z) : Prop :=
    length us = k /\ length ps = k /\ length ns = k /\
    Forall (fun u => 0 <= u < 1)%R us /\ Forall (fun p => p ∈ pos /\ (0 < wp p)%R) ps /\ Forall (fun n => n ∈ neg /\ (0 < wn n)%R) ns.
  Definition prepend (us : list R) (ps ns : list Z) (st : cstate) : cstate :=
    CState (us ++ cs_u st) (ps ++ cs_pos st) (ns ++ cs_neg st).

  Lemma draws_good k us ps ns : draws k us ps ns -> Forall goodX (zip (zip ps ns) us).
  Proof.
    intros (Hu & Hp & Hn & Fu & Fp & Fn). apply list.Forall_forall. intros [[p n] u] Hx.
    apply elem_of_list_lookup in Hx as [i Hi]. rewrite !lookup_zip_with in Hi.
    destruct (ps !! i) as [p'|] eqn:Ep; [|done]. destruct (ns !! i) as [n'|] eqn:En; [|done]. simpl in Hi.
    destruct (us !! i) as [u'|] eqn:Eu; [|done]. simpl in Hi. injection Hi as -> -> ->.
    destruct (Forall_lookup_1 _ _ _ _ Fp Ep), (Forall_lookup_1 _ _ _ _ Fn En). pose proof (Forall_lookup_1 _ _ _ _ Fu Eu).
    split_and!; try done; simpl; [unfold wb; simpl; by apply Rmult_lt_0_compat|lra|lra].
  Qed.

  Lemma zip_app {A B} (l1 l2 : list A) (k1 k2 : list B) : length l1 = length k1 -> zip (l1 ++ l2) (k1 ++ k2) = zip l1 k1 ++ zip l2 k2.
  Proof.
    revert k1. induction l1 as [|x l1 IH]; intros [|y k1] Hl; try done. simpl. f_equal. apply IH. simpl in Hl. lia.
  Qed.

  Lemma trip_prepend k us ps ns st : draws k us ps ns -> trip (prepend us ps ns st) = zip (zip ps ns) us ++ trip st.
  Proof.
    intros (Hu & Hp & Hn & _). unfold trip. simpl. rewrite zip_app by lia. apply zip_app. rewrite zip_with_length. lia.
  Qed.

  Lemma prepend_len k m us ps ns st : draws m us ps ns -> stlen st k -> stlen (prepend us ps ns st) (m + k).
  Proof. intros (Hu & Hp & Hn & _) (Ha & Hb & Hc). unfold stlen. simpl. rewrite !app_length. lia. Qed.

  (** the case of positive weight sums *)
  Hypothesis HSp : (0 < Sp pos wp)%R.
  Hypothesis HSn : (0 < Sn neg wn)%R.
  Notation K := (K pos neg wp wn W).

  Lemma norm_distr (f : Z -> R) l : (forall x, x ∈ l -> (0 <= f x)%R) -> (0 < rsum (map f l))%R -> distr (rnormalize (map f l)).
  Proof.
    intros Hf Hs. unfold rnormalize. rewrite map_map. split.
    - intros p Hp. apply elem_of_map in Hp as (x & -> & Hx). apply div_nonneg; [auto|lra].
    - unfold Rdiv. rewrite rsum_scal_r. apply Rinv_r. lra.
  Qed.
  Lemma norm_length (l : list R) : length (rnormalize l) = length l.
  Proof. apply map_length. Qed.
  Lemma zip_norm (f : Z -> R) l : zip l (rnormalize (map f l)) = map (fun x => (x, (f x / rsum (map f l))%R)) l.
  Proof.
    unfold rnormalize. rewrite map_map. generalize (rsum (map f l)). intros s. induction l as [|x l IH]; [done|]. simpl. by rewrite IH.
  Qed.
  Lemma norm_pos (f : Z -> R) l x : (forall x, x ∈ l -> (0 <= f x)%R) -> (0 < rsum (map f l))%R ->
    ((exists p, (x, p) ∈ zip l (rnormalize (map f l)) /\ p <> 0%R) <-> x ∈ l /\ (0 < f x)%R).
  Proof.
    intros Hf Hs. rewrite zip_norm. split.
    - intros (p & Hp & Hn). apply elem_of_map in Hp as (y & [= <- ->] & Hy). split; [done|]. pose proof (Hf x Hy).
      destruct (Req_dec (f x) 0) as [E|]; [|lra]. exfalso. apply Hn. rewrite E. unfold Rdiv. lra.
    - intros [Hx Hp]. exists (f x / rsum (map f l))%R. split; [apply elem_of_map; eauto|].
      intros E. pose proof (Rdiv_lt_0_compat _ _ Hp Hs). lra.
  Qed.

  Lemma add_data_unfold st k n : stlen st k -> Z.of_nat k <= n -> 0 < n ->
    cftp_add_data c st n =
      let* us := runiform (Z.to_nat n - k) in
      let* ps := rchoices (Z.to_nat n - k) pos (rnormalize (map wp pos)) in
      let* ns := rchoices (Z.to_nat n - k) neg (rnormalize (map wn neg)) in
      if negb (zlen (ps ++ cs_pos st) =? n) || negb (zlen (ns ++ cs_neg st) =? n) || negb (zlen (us ++ cs_u st) =? n)
      then RFail ValueError else RRet (prepend us ps ns st).
  Proof.
    intros (Hu & _ & _) Hk Hn. unfold cftp_add_data. unfold zlen at 1 2. rewrite Hu.
    destruct (Z.leb_spec n 0); [lia|]. destruct (Z.ltb_spec (n - Z.of_nat k) 0); [lia|].
    unfold zlen at 1 2 3. rewrite Hu. replace (Z.to_nat (n - Z.of_nat k)) with (Z.to_nat n - k)%nat by lia. done.
  Qed.

  Lemma add_data_can st k n o : stlen st k -> Z.of_nat k <= n -> 0 < n ->
    (rcan (cftp_add_data c st n) o <-> exists us ps ns, draws (Z.to_nat n - k) us ps ns /\ o = Ok (prepend us ps ns st)).
  Proof.
    intros Hst Hk Hn. rewrite (add_data_unfold st k n) by done. set (m := (Z.to_nat n - k)%nat).
    pose proof (norm_distr wp pos HWp' HSp) as Hdp. pose proof (norm_distr wn neg HWn' HSn) as Hdn.
    assert (Hlp : length (rnormalize (map wp pos)) = length pos) by (by rewrite norm_length, map_length).
    assert (Hln : length (rnormalize (map wn neg)) = length neg) by (by rewrite norm_length, map_length).
    assert (Hfin : forall us ps ns, length us = m -> length ps = m -> length ns = m ->
      (if negb (zlen (ps ++ cs_pos st) =? n) || negb (zlen (ns ++ cs_neg st) =? n) || negb (zlen (us ++ cs_u st) =? n)
        then RFail ValueError else RRet (prepend us ps ns st)) = RRet (prepend us ps ns st)).
    { intros us ps ns Ea Eb Ec. destruct Hst as (E1 & E2 & E3). unfold zlen. rewrite !app_length.
      destruct (Z.eqb_spec (Z.of_nat (length ps + length (cs_pos st))) n); [|lia].
      destruct (Z.eqb_spec (Z.of_nat (length ns + length (cs_neg st))) n); [|lia].
      destruct (Z.eqb_spec (Z.of_nat (length us + length (cs_u st))) n); [|lia]. done. }
    rewrite rcan_bind. setoid_rewrite rcan_runiform. split.
    - intros [(us & (us' & Eus & Hu & Fu) & Hq0)|(e & (l & ? & _) & _)]; [|done]. injection Eus as <-.
      apply rcan_bind in Hq0 as [(ps & Hps & Hq)|(e & He & ->)].
      2:{ apply rcan_rchoices in He as (l & ? & _); done. }
      apply rcan_rchoices in Hps as (ps' & [= <-] & Hp & Fp); [|done..].
      apply rcan_bind in Hq as [(ns & Hns & Hr)|(e & He & ->)].
      2:{ apply rcan_rchoices in He as (l & ? & _); done. }
      apply rcan_rchoices in Hns as (ns' & [= <-] & Hn' & Fn); [|done..].
      rewrite Hfin in Hr by done. simpl in Hr. exists us, ps, ns. split; [|done]. split_and!; try done.
      + eapply list.Forall_impl; [exact Fp|]. intros p. simpl. intros Hp'. apply (norm_pos wp pos p HWp' HSp). done.
      + eapply list.Forall_impl; [exact Fn|]. intros p. simpl. intros Hp'. apply (norm_pos wn neg p HWn' HSn). done.
    - intros (us & ps & ns & (Hu & Hp & Hn' & Fu & Fp & Fn) & ->). left. exists us. split; [eauto|].
      apply rcan_bind. left. exists ps. split.
      { apply rcan_rchoices; [done..|]. exists ps. split_and!; try done. eapply list.Forall_impl; [exact Fp|]. intros p. simpl.
        apply (norm_pos wp pos p HWp' HSp). }
      apply rcan_bind. left. exists ns. split.
      { apply rcan_rchoices; [done..|]. exists ns. split_and!; try done. eapply list.Forall_impl; [exact Fn|]. intros p. simpl.
        apply (norm_pos wn neg p HWn' HSn). }
      by rewrite Hfin.
  Qed.

  Lemma add_data_expect st k n J phi g : stlen st k -> Z.of_nat k <= n -> 0 < n ->
    (forall a, a ∈ J -> okS pos neg a.2) ->
    (forall us ps ns, draws (Z.to_nat n - k) us ps ns ->
       g (Ok (prepend us ps ns st)) = comb J (fun s => phi (run s (zip (zip ps ns) us)))) ->
    hexpect g (cftp_add_data c st n) (comb J (Nat.iter (Z.to_nat n - k) K phi)).
  Proof.
    intros Hst Hk Hn HJ Hg.
    pose proof (norm_distr wp pos HWp' HSp) as Hdp. pose proof (norm_distr wn neg HWn' HSn) as Hdn.
    assert (Hlp : length (rnormalize (map wp pos)) = length pos) by (by rewrite norm_length, map_length).
    assert (Hln : length (rnormalize (map wn neg)) = length neg) by (by rewrite norm_length, map_length).
    rewrite (add_data_unfold st k n) by done. set (m := (Z.to_nat n - k)%nat) in *.
    set (gm := fun us ps ns => comb J (fun s => phi (run s (zip (zip ps ns) us)))).
    set (g1 := fun o => match o with
                 | Ok us => SumL m (zip pos (rnormalize (map wp pos))) (fun ps => SumL m (zip neg (rnormalize (map wn neg))) (fun ns => gm us ps ns))
                 | Err e => g (Err e) end).
    apply (hbind _ _ _ g1).
    { apply hexpect_runiform. unfold g1. rewrite !zip_norm.
      exact (block pos neg wp wn W HWp' HWn' HW' m J phi HJ). }
    2:{ done. }
    intros us Hus. apply rcan_runiform in Hus as (us' & [= <-] & Hu & Fu).
    set (g2 := fun o => match o with
                 | Ok ps => SumL m (zip neg (rnormalize (map wn neg))) (fun ns => gm us ps ns)
                 | Err e => g (Err e) end).
    apply (hbind _ _ _ g2).
    { unfold g1. apply (hexpect_rchoices m pos (rnormalize (map wp pos)) Hlp Hdp g2). }
    2:{ done. }
    intros ps Hps. apply rcan_rchoices in Hps as (ps' & [= <-] & Hp & Fp); [|done..].
    set (g3 := fun o => match o with Ok ns => gm us ps ns | Err e => g (Err e) end).
    apply (hbind _ _ _ g3).
    { unfold g2. apply (hexpect_rchoices m neg (rnormalize (map wn neg)) Hln Hdn g3). }
    2:{ done. }
    intros ns Hns. apply rcan_rchoices in Hns as (ns' & [= <-] & Hn' & Fn); [|done..].
    assert (Hd : draws m us ps ns).
    { split_and!; try done.
      - eapply list.Forall_impl; [exact Fp|]. intros p. simpl. intros Hp'. apply (norm_pos wp pos p HWp' HSp). done.
      - eapply list.Forall_impl; [exact Fn|]. intros p. simpl. intros Hp'. apply (norm_pos wn neg p HWn' HSn). done. }
    destruct Hst as (E1 & E2 & E3). unfold zlen. rewrite !app_length.
    destruct (Z.eqb_spec (Z.of_nat (length ps + length (cs_pos st))) n); [|lia].
    destruct (Z.eqb_spec (Z.of_nat (length ns + length (cs_neg st))) n); [|lia].
    destruct (Z.eqb_spec (Z.of_nat (length us + length (cs_u st))) n); [|lia]. simpl.
    unfold gm. rewrite <- Hg by done. constructor.
  Qed.

  (** ** the loop *)

  (** N is the largest power of two up to max_iters (0 if there is none) *)
  Definition horizon (N : Z) : Prop :=
    (max_iters < 1 /\ N = 0) \/ exists k, 0 <= k /\ N = 2 ^ k /\ 2 ^ k <= max_iters < 2 ^ (k + 1).

  (** the number of draws in front of round i *)
  Definition before (i : Z) : nat := if i =? 0 then 0%nat else Z.to_nat (2 ^ (i - 1)).

  Lemma before_next i : 0 <= i -> before (i + 1) = Z.to_nat (2 ^ i).
  Proof. intros Hi. unfold before. destruct (Z.eqb_spec (i + 1) 0); [lia|]. do 2 f_equal. lia. Qed.

  Lemma before_le i : 0 <= i -> Z.of_nat (before i) <= 2 ^ i.
  Proof.
    intros Hi. unfold before. pose proof (Z.pow_pos_nonneg 2 i). destruct (Z.eqb_spec i 0); [lia|].
    rewrite Z2Nat.id by (apply Z.pow_nonneg; lia). apply Z.pow_le_mono_r; lia.
  Qed.

  Lemma horizon_stop i N : horizon N -> 0 <= i -> max_iters < 2 ^ i -> (i = 0 \/ 2 ^ (i - 1) <= max_iters) -> Z.of_nat (before i) = N.
  Proof.
    intros [[Hm ->]|(k & Hk & -> & Hm)] Hi Hgt Hlow; unfold before.
    - destruct (Z.eqb_spec i 0); [done|]. destruct Hlow; [done|]. pose proof (Z.pow_pos_nonneg 2 (i - 1)). lia.
    - destruct (Z.eqb_spec i 0) as [->|].
      + pose proof (Z.pow_pos_nonneg 2 k). lia.
      + destruct Hlow; [done|]. rewrite Z2Nat.id by (apply Z.pow_nonneg; lia).
        assert (k < i) by (apply (Z.pow_lt_mono_r_iff 2); lia).
        assert (i - 1 < k + 1) by (apply (Z.pow_lt_mono_r_iff 2); lia). f_equal. lia.
  Qed.

  Lemma horizon_ge i N : horizon N -> 0 <= i -> 2 ^ i <= max_iters -> 2 ^ i <= N.
  Proof.
    intros [[Hm ->]|(k & Hk & -> & Hm)] Hi Hle.
    - pose proof (Z.pow_pos_nonneg 2 i). lia.
    - apply Z.pow_le_mono_r; [lia|]. assert (i < k + 1); [|lia]. apply (Z.pow_lt_mono_r_iff 2); lia.
  Qed.

  Lemma sums_nz : (if Req_EM_T (rsum (cf_pos_weights c)) 0%R then true else false)
           || (if Req_EM_T (rsum (cf_neg_weights c)) 0%R then true else false) = false.
  Proof.
    simpl. unfold Sp, Sn in *. destruct (Req_EM_T (rsum (map wp pos)) 0); [lra|]. destruct (Req_EM_T (rsum (map wn neg)) 0); [lra|]. done.
  Qed.

  Definition allst (J0 : R) (g : Z * Z -> R) : list (R * option (Z * Z)) :=
    (J0, None) :: concat (map (fun p => map (fun n => (g (p, n), Some (p, n))) neg) pos).

  Lemma comb_allst J0 g phi : comb (allst J0 g) phi = (J0 * phi None + S2 pos neg (fun pn => g pn * phi (Some pn)))%R.
  Proof.
    unfold comb, allst. cbn [map]. rewrite rsum_cons. f_equal. rewrite rsum_concat. unfold S2. apply rsum_map_ext. intros p _.
    rewrite map_map. done.
  Qed.

  Lemma allst_ok J0 g a : a ∈ allst J0 g -> okS pos neg a.2.
  Proof.
    intros Ha. apply elem_of_cons in Ha as [->|Ha]; [done|].
    apply elem_of_list_In, in_concat in Ha as (l & Hl & Ha). apply in_map_iff in Hl as (p & <- & Hp). apply in_map_iff in Ha as (n & <- & Hn).
    apply elem_of_list_In in Hp, Hn. done.
  Qed.

  Notation Law := (Law pos neg wp wn W).

  Lemma Law_comb n phi : Law n phi = comb (allst ((1 - acc pos neg wp wn W) ^ n)%R (fun pn => (1 - (1 - acc pos neg wp wn W) ^ n) * (W pn / Zt pos neg W))%R) phi.
  Proof. rewrite comb_allst. done. Qed.

  Lemma loop_expect N (F : option (Z * Z) -> R) f : horizon N ->
    (forall D h st, f (Ok (Some (D, h), st)) = F D) ->
    forall fuel i hist st, 0 <= i -> stlen st (before i) -> Forall goodX (trip st) -> run None (trip st) = None ->
      (i = 0 \/ 2 ^ (i - 1) <= max_iters) -> max_iters + 2 <= Z.of_nat fuel + i -> (1 <= fuel)%nat ->
      hexpect f (sample_loop fuel c i hist st) (Law (Z.to_nat N - before i) (fun s => F (run s (trip st)))).
  Proof.
    intros HN Hf. induction fuel as [|fuel IH]; intros i hist st Hi Hst Hgood Hnone Hlow Hfuel Hf1; [lia|].
    cbn [sample_loop]. cbn [cf_max_iters the_cftp]. destruct (Z.ltb_spec max_iters (2 ^ i)) as [Hgt|Hle].
    - rewrite <- (horizon_stop i N) by done. rewrite Nat2Z.id, Nat.sub_diag.
      assert (Law 0 (fun s => F (run s (trip st))) = F None) as ->.
      { unfold PCftp.Law. rewrite Hnone. simpl. rewrite (S2_ext pos neg _ (fun _ => 0 * 0)%R) by (intros; ring). rewrite S2_scal. ring. }
      rewrite <- (Hf None hist st). constructor.
    - pose proof sums_nz as Hnz. cbn [the_cftp] in Hnz. rewrite Hnz.
      pose proof (before_le i Hi) as Hb. pose proof (Z.pow_pos_nonneg 2 i ltac:(lia) Hi) as Hp2.
      pose proof (horizon_ge i N HN Hi Hle) as Hge.
      set (m := (Z.to_nat (2 ^ i) - before i)%nat). set (r := (Z.to_nat N - Z.to_nat (2 ^ i))%nat).
      assert (Hir : i < 2 ^ i) by (apply Z.pow_gt_lin_r; lia).
      replace (Z.to_nat N - before i)%nat with (r + m)%nat by lia.
      rewrite <- (Law_iter pos neg wp wn W HWp' HWn' HW' HSp HSn m r).
      rewrite Law_comb.
      set (g := fun o : result cstate => match o with Ok st' => Law r (fun s => F (run s (trip st'))) | Err e => f (Err e) end).
      apply (hbind _ _ _ g).
      + apply (add_data_expect st (before i) (2 ^ i) _ (fun s => F (run s (trip st)))); [done..|lia| |].
        * intros a. apply allst_ok.
        * intros us ps ns Hd. unfold g. rewrite <- Law_comb. rewrite (trip_prepend _ _ _ _ _ Hd).
          unfold PCftp.Law. rewrite PCftp.run_app. f_equal. apply S2_ext. intros pn _. by rewrite PCftp.run_app.
      + intros st' Hst'. apply (add_data_can st (before i)) in Hst' as (us & ps & ns & Hd & [= ->]); [|done|done|lia].
        assert (Hgood' : Forall goodX (trip (prepend us ps ns st))).
        { rewrite (trip_prepend _ _ _ _ _ Hd). apply Forall_app. split; [by eapply draws_good|done]. }
        destruct (simulate_ok _ Hgood') as (h & Eh & _). rewrite Eh. cbn [rlift rrbind]. unfold g.
        destruct (run None (trip (prepend us ps ns st))) as [d|] eqn:Er.
        * rewrite (Law_const pos neg wp wn W HW' r (F (Some d))).
          -- rewrite <- (Hf (Some d) (Some h) (prepend us ps ns st)). constructor.
          -- by rewrite Er.
          -- intros pn Hin Hw. f_equal. apply (run_coalesce pos neg wp wn W HW'); [split; done|done|done].
        * unfold r. rewrite <- before_next by done. apply IH; try done; try lia.
          -- rewrite before_next by done. replace (Z.to_nat (2 ^ i)) with (m + before i)%nat by lia. by apply prepend_len.
          -- right. replace (i + 1 - 1) with i by lia. done.
      + intros e He. apply (add_data_can st (before i)) in He as (us & ps & ns & Hd & ?); [done|done|done|lia].
  Qed.

  (** every outcome of the loop *)
  Lemma loop_can : forall fuel i hist st o, 0 <= i -> stlen st (before i) -> Forall goodX (trip st) -> run None (trip st) = None ->
      (i = 0 \/ 2 ^ (i - 1) <= max_iters) -> max_iters + 2 <= Z.of_nat fuel + i -> (1 <= fuel)%nat ->
      rcan (sample_loop fuel c i hist st) o ->
      exists m us ps ns j D h, draws m us ps ns /\ o = Ok (Some (D, h), prepend us ps ns st) /\
        D = run None (trip (prepend us ps ns st)) /\ i <= j /\ stlen (prepend us ps ns st) (before j) /\
        (j = i -> m = 0%nat /\ h = hist) /\
        (i < j -> exists h', h = Some h' /\ length h' = before j) /\
        (D = None -> max_iters < 2 ^ j) /\ (j = 0 \/ 2 ^ (j - 1) <= max_iters).
  Proof.
    induction fuel as [|fuel IH]; intros i hist st o Hi Hst Hgood Hnone Hlow Hfuel Hf1; [lia|].
    cbn [sample_loop]. cbn [cf_max_iters the_cftp]. destruct (Z.ltb_spec max_iters (2 ^ i)) as [Hgt|Hle].
    - intros Ho. simpl in Ho. exists 0%nat, [], [], [], i, None, hist.
      assert (prepend [] [] [] st = st) as -> by (by destruct st). split_and!; try done. lia.
    - pose proof sums_nz as Hnz. cbn [the_cftp] in Hnz. rewrite Hnz.
      pose proof (before_le i Hi) as Hb. pose proof (Z.pow_pos_nonneg 2 i ltac:(lia) Hi) as Hp2.
      assert (Hir : i < 2 ^ i) by (apply Z.pow_gt_lin_r; lia).
      intros Ho. apply rcan_bind in Ho as [(st' & Hst' & Ho)|(e & He & ->)].
      2:{ apply (add_data_can st (before i)) in He as (us & ps & ns & Hd & ?); [done|done|done|lia]. }
      apply (add_data_can st (before i)) in Hst' as (us & ps & ns & Hd & [= ->]); [|done|done|lia].
      assert (Hgood' : Forall goodX (trip (prepend us ps ns st))).
      { rewrite (trip_prepend _ _ _ _ _ Hd). apply Forall_app. split; [by eapply draws_good|done]. }
      assert (Hlen' : stlen (prepend us ps ns st) (before (i + 1))).
      { rewrite before_next by done. replace (Z.to_nat (2 ^ i)) with ((Z.to_nat (2 ^ i) - before i) + before i)%nat by lia. by apply prepend_len. }
      destruct (simulate_ok _ Hgood') as (h & Eh & Hlh). rewrite Eh in Ho. cbn [rlift rrbind] in Ho.
      assert (Hlt : length (trip (prepend us ps ns st)) = before (i + 1)).
      { unfold trip. rewrite !zip_with_length. destruct Hlen' as (-> & -> & ->). lia. }
      destruct (run None (trip (prepend us ps ns st))) as [d|] eqn:Er.
      + simpl in Ho. exists (Z.to_nat (2 ^ i) - before i)%nat, us, ps, ns, (i + 1), (Some d), (Some h).
        split_and!; try done; try lia.
        * intros _. exists h. split; [done|lia].
        * right. replace (i + 1 - 1) with i by lia. done.
      + apply IH in Ho; try done; try lia.
        2:{ right. replace (i + 1 - 1) with i by lia. done. }
        destruct Ho as (m & us' & ps' & ns' & j & D & h' & Hd' & -> & HD & Hij & Hsl & Hj1 & Hj2 & HDn & Hjl).
        assert (Hpp : prepend us' ps' ns' (prepend us ps ns st) = prepend (us' ++ us) (ps' ++ ps) (ns' ++ ns) st).
        { unfold prepend. simpl. by rewrite !app_assoc. }
        rewrite Hpp in *. exists (m + (Z.to_nat (2 ^ i) - before i))%nat, (us' ++ us), (ps' ++ ps), (ns' ++ ns), j, D, h'.
        split_and!; try done; try lia.
        * destruct Hd as (? & ? & ? & ? & ? & ?), Hd' as (? & ? & ? & ? & ? & ?). unfold draws. rewrite !app_length, !Forall_app. split_and!; (done || lia).
        * intros Hlt'. destruct (Z.eq_dec j (i + 1)) as [->|].
          -- destruct (Hj1 eq_refl) as [_ ->]. exists h. split; [done|lia].
          -- apply Hj2. lia.
  Qed.

  Lemma loop_can_conv N : horizon N -> forall fuel i hist st us ps ns, 0 <= i -> stlen st (before i) -> Forall goodX (trip st) -> run None (trip st) = None ->
      (i = 0 \/ 2 ^ (i - 1) <= max_iters) -> max_iters + 2 <= Z.of_nat fuel + i -> (1 <= fuel)%nat ->
      draws (Z.to_nat N - before i) us ps ns ->
      exists h st', rcan (sample_loop fuel c i hist st) (Ok (Some (run None (trip (prepend us ps ns st)), h), st')).
  Proof.
    intros HN. induction fuel as [|fuel IH]; intros i hist st us ps ns Hi Hst Hgood Hnone Hlow Hfuel Hf1 Hd; [lia|].
    cbn [sample_loop]. cbn [cf_max_iters the_cftp]. destruct (Z.ltb_spec max_iters (2 ^ i)) as [Hgt|Hle].
    - assert (E : Z.of_nat (before i) = N) by by apply horizon_stop. rewrite <- E, Nat2Z.id, Nat.sub_diag in Hd.
      exists hist, st. destruct Hd as (Hu & Hp & Hn & _). apply nil_length_inv in Hu, Hp, Hn. subst.
      assert (prepend [] [] [] st = st) as -> by (by destruct st). rewrite Hnone. done.
    - pose proof sums_nz as Hnz. cbn [the_cftp] in Hnz. rewrite Hnz.
      pose proof (before_le i Hi) as Hb. pose proof (Z.pow_pos_nonneg 2 i ltac:(lia) Hi) as Hp2.
      pose proof (horizon_ge i N HN Hi Hle) as Hge. assert (Hir : i < 2 ^ i) by (apply Z.pow_gt_lin_r; lia).
      set (m := (Z.to_nat (2 ^ i) - before i)%nat). set (r := (Z.to_nat N - Z.to_nat (2 ^ i))%nat).
      destruct Hd as (Hu & Hp & Hn & Fu & Fp & Fn).
      rewrite <- (take_drop r us) in Fu. rewrite <- (take_drop r ps) in Fp. rewrite <- (take_drop r ns) in Fn.
      apply Forall_app in Fu as [Fu1 Fu2]. apply Forall_app in Fp as [Fp1 Fp2]. apply Forall_app in Fn as [Fn1 Fn2].
      assert (Hd1 : draws r (take r us) (take r ps) (take r ns)).
      { split_and!; try done; rewrite take_length; lia. }
      assert (Hd2 : draws m (drop r us) (drop r ps) (drop r ns)).
      { split_and!; try done; rewrite drop_length; lia. }
      set (st' := prepend (drop r us) (drop r ps) (drop r ns) st).
      assert (Hpp : prepend us ps ns st = prepend (take r us) (take r ps) (take r ns) st').
      { unfold st', prepend. simpl. by rewrite !app_assoc, !take_drop. }
      assert (Hgood' : Forall goodX (trip st')).
      { unfold st'. rewrite (trip_prepend _ _ _ _ _ Hd2). apply Forall_app. split; [by eapply draws_good|done]. }
      assert (Hcan : rcan (cftp_add_data c st (2 ^ i)) (Ok st')).
      { apply (add_data_can st (before i)); [done|done|lia|]. eauto. }
      destruct (simulate_ok _ Hgood') as (h & Eh & _). rewrite Hpp.
      destruct (run None (trip st')) as [d|] eqn:Er.
      + exists (Some h), st'. apply rcan_bind. left. exists st'. split; [done|]. rewrite Eh. cbn [rlift rrbind].
        rewrite (trip_prepend _ _ _ _ _ Hd1), PCftp.run_app.
        rewrite (run_coalesce pos neg wp wn W HW' (trip st') _ d); [done| |done|done].
        apply (run_good pos neg wp wn W HW'); [done|]. by eapply draws_good.
      + destruct (IH (i + 1) (Some h) st' (take r us) (take r ps) (take r ns)) as (h' & st'' & Hrc); try done; try lia.
        * rewrite before_next by done. replace (Z.to_nat (2 ^ i)) with (m + before i)%nat by lia. by apply prepend_len.
        * right. replace (i + 1 - 1) with i by lia. done.
        * by rewrite before_next.
        * exists h', st''. apply rcan_bind. left. exists st'. split; [done|]. rewrite Eh. done.
  Qed.
End prog.

Section top.
  Context (Wpos Wneg : gmap Z R) (pos neg : list Z) (weight : Z -> Z -> result Z) (max_iters : Z) (w : Z -> Z -> Z) (c : cftp).
  Hypothesis Hdom : dominated Wpos Wneg pos neg weight w.
  Hypothesis Hinit : cftp_init Wpos Wneg pos neg weight max_iters = Ok c.

  Lemma dom1 p : p ∈ pos -> Wpos !! p = Some (pweight Wpos p) /\ (0 <= pweight Wpos p)%R.
  Proof. intros Hp. destruct Hdom as (H & _). destruct (H p Hp) as (a & E & Ha). unfold pweight. rewrite E. done. Qed.
  Lemma dom2 p : p ∈ neg -> Wneg !! p = Some (pweight Wneg p) /\ (0 <= pweight Wneg p)%R.
  Proof. intros Hp. destruct Hdom as (_ & H & _). destruct (H p Hp) as (a & E & Ha). unfold pweight. rewrite E. done. Qed.
  Lemma dom3 p n : p ∈ pos -> n ∈ neg -> weight p n = Ok (w p n) /\ 0 <= w p n /\ (IZR (w p n) <= pweight Wpos p * pweight Wneg n)%R.
  Proof. intros Hp Hn. destruct Hdom as (_ & _ & H). apply H; [done|done|by apply dom1|by apply dom2]. Qed.

  Lemma the_c : c = the_cftp Wpos Wneg pos neg weight max_iters (pweight Wpos) (pweight Wneg).
  Proof.
    pose proof (init_ok Wpos Wneg pos neg weight max_iters (pweight Wpos) (pweight Wneg) dom1 dom2) as E.
    rewrite Hinit in E. by injection E.
  Qed.

  Notation tc := (the_cftp Wpos Wneg pos neg weight max_iters (pweight Wpos) (pweight Wneg)).
  Notation run := (run (pweight Wpos) (pweight Wneg) (W w)).

  Lemma pd_good k st : possible_draws Wpos Wneg pos neg k st ->
    draws pos neg (pweight Wpos) (pweight Wneg) k (cs_u st) (cs_pos st) (cs_neg st).
  Proof.
    intros (Hu & Hp & Hn & Fu & Fp & Fn). split_and!; try done; apply list.Forall_forall; auto.
  Qed.
  Lemma good_pd k us ps ns : draws pos neg (pweight Wpos) (pweight Wneg) k us ps ns -> possible_draws Wpos Wneg pos neg k (CState us ps ns).
  Proof.
    intros (Hu & Hp & Hn & Fu & Fp & Fn). rewrite list.Forall_forall in Fu. rewrite list.Forall_forall in Fp. rewrite list.Forall_forall in Fn.
    split_and!; done.
  Qed.

  Lemma pd_trip k st : possible_draws Wpos Wneg pos neg k st -> Forall (goodX pos neg (pweight Wpos) (pweight Wneg)) (trip st).
  Proof. intros H. apply pd_good in H. by eapply draws_good. Qed.

  Lemma sim_pd k st : possible_draws Wpos Wneg pos neg k st -> exists h, simulate_backwards c st = Ok (run None (trip st), h) /\ length h = k.
  Proof.
    intros H. rewrite the_c. destruct (simulate_ok _ _ _ _ _ max_iters _ _ _ dom1 dom2 dom3 st (pd_trip _ _ H)) as (h & E & Hl).
    exists h. split; [done|]. rewrite Hl. unfold trip. rewrite !zip_with_length. destruct H as (-> & -> & -> & _). lia.
  Qed.

  Lemma pmass_nonneg_pos : (0 <= pmass Wpos pos)%R.
  Proof. apply rsum_nonneg. intros p Hp. by apply dom1. Qed.
  Lemma pmass_nonneg_neg : (0 <= pmass Wneg neg)%R.
  Proof. apply rsum_nonneg. intros p Hp. by apply dom2. Qed.

  Lemma zero_loop fuel i hist st : (pmass Wpos pos = 0 \/ pmass Wneg neg = 0)%R -> 2 ^ i <= max_iters ->
    sample_loop (Datatypes.S fuel) c i hist st = RRet (None, st).
  Proof.
    intros Hz Hi. rewrite the_c. cbn [sample_loop]. cbn [cf_max_iters the_cftp cf_pos_weights cf_neg_weights].
    destruct (Z.ltb_spec max_iters (2 ^ i)); [lia|]. unfold pmass in Hz.
    destruct (Req_EM_T (rsum (map (pweight Wpos) pos)) 0); [done|]. destruct (Req_EM_T (rsum (map (pweight Wneg) neg)) 0); [done|]. tauto.
  Qed.

  Lemma nomax_loop fuel hist st : max_iters < 1 -> sample_loop (Datatypes.S fuel) c 0 hist st = RRet (Some (None, hist), st).
  Proof.
    intros Hm. rewrite the_c. cbn [sample_loop]. cbn [cf_max_iters the_cftp]. change (2 ^ 0) with 1. destruct (Z.ltb_spec max_iters 1); [done|lia].
  Qed.

  Lemma sample_unfold details : cftp_sample c details cstate_empty =
    let* '(r, st') := sample_loop (Z.to_nat max_iters + 2) c 0 None cstate_empty in
    match r with
    | None => RRet (RetPair None, st')
    | Some (D, hist) =>
        if details then match hist with None => RFail UnboundLocalError | Some h => RRet (RetDetails D (zlen h), cstate_empty) end
        else RRet (RetPair D, cstate_empty)
    end.
  Proof. unfold cftp_sample. rewrite the_c at 1. done. Qed.

  Lemma fuel2 : exists f, (Z.to_nat max_iters + 2)%nat = Datatypes.S f.
  Proof. exists (Z.to_nat max_iters + 1)%nat. lia. Qed.

  Lemma stlen0 : stlen cstate_empty (before 0).
  Proof. done. Qed.
  Lemma prepend0 us ps ns : prepend us ps ns cstate_empty = CState us ps ns.
  Proof. unfold prepend. simpl. by rewrite !app_nil_r. Qed.

  Section positive.
    Hypothesis HSp : (0 < pmass Wpos pos)%R.
    Hypothesis HSn : (0 < pmass Wneg neg)%R.
    Notation L := (Law pos neg (pweight Wpos) (pweight Wneg) (W w)).

    Lemma sample_outcome o : rcan (sample_loop (Z.to_nat max_iters + 2) c 0 None cstate_empty) o ->
      exists st j D h, possible_draws Wpos Wneg pos neg (before j) st /\ o = Ok (Some (D, h), st) /\ D = run None (trip st) /\
        0 <= j /\ (j = 0 -> h = None) /\ (0 < j -> exists h', h = Some h' /\ length h' = before j) /\
        (D = None -> max_iters < 2 ^ j) /\ (j = 0 \/ 2 ^ (j - 1) <= max_iters).
    Proof.
      intros Ho. rewrite the_c in Ho.
      apply (loop_can Wpos Wneg pos neg weight max_iters _ _ w dom1 dom2 dom3 HSp HSn) in Ho; try done; try lia; [|by left].
      destruct Ho as (m & us & ps & ns & j & D & h & Hd & -> & HD & Hij & Hsl & Hj1 & Hj2 & HDn & Hjl).
      rewrite prepend0 in *. exists (CState us ps ns), j, D, h. split_and!; try done.
      - apply good_pd. destruct Hsl as (E1 & E2 & E3), Hd as (E4 & E5 & E6 & Hd). simpl in *. split_and!; try done; apply Hd.
      - intros ->. by destruct Hj1.
    Qed.

    Lemma draw_expect N F : horizon max_iters N ->
      hexpect F (cftp_draw c false) (L (Z.to_nat N) (fun s => F (Ok (RetPair s)))).
    Proof.
      intros HN. unfold cftp_draw. rewrite sample_unfold.
      set (g := fun o : result (sample_ret * cstate) => match o with Ok (r, _) => F (Ok r) | Err e => F (Err e) end).
      assert (Hg : hexpect g (let* '(r, st') := sample_loop (Z.to_nat max_iters + 2) c 0 None cstate_empty in
         match r with
         | None => RRet (RetPair None, st')
         | Some (D, hist) => RRet (RetPair D, cstate_empty)
         end) (L (Z.to_nat N) (fun s => F (Ok (RetPair s))))).
      { set (f := fun o : result (option (option (Z * Z) * option (list hentry)) * cstate) =>
                  match o with Ok (Some (D, _), _) => F (Ok (RetPair D)) | _ => 0%R end).
        apply (hbind _ _ _ f).
        - rewrite the_c.
          pose proof (loop_expect Wpos Wneg pos neg weight max_iters _ _ w dom1 dom2 dom3 HSp HSn N (fun s => F (Ok (RetPair s))) f HN ltac:(done)
            (Z.to_nat max_iters + 2) 0 None cstate_empty) as H.
          change (before 0) with 0%nat in H. rewrite Nat.sub_0_r in H. apply H; try done; try lia. by left.
        - intros [r st'] Hr. apply sample_outcome in Hr as (st & j & D & h & _ & [= -> ->] & _). simpl.
          change (F (Ok (RetPair D))) with (g (Ok (RetPair D, cstate_empty))). constructor.
        - intros e He. apply sample_outcome in He as (st & j & D & h & _ & ? & _). done. }
      apply (hbind _ _ _ g); [exact Hg| |].
      - intros [r st'] _. simpl. change (g (Ok (r, st'))) with (F (Ok r)). constructor.
      - done.
    Qed.

    Lemma full_expect N F : 0 < N ->
      hexpect F (let* st := cftp_add_data c cstate_empty N in
                 let* '(D, _) := rlift (simulate_backwards c st) in RRet (RetPair D))
        (L (Z.to_nat N) (fun s => F (Ok (RetPair s)))).
    Proof.
      intros HN.
      set (g := fun o => match o with Ok st => F (Ok (RetPair (run None (trip st)))) | Err e => F (Err e) end).
      rewrite <- (Nat.add_0_l (Z.to_nat N)).
      rewrite <- (Law_iter pos neg _ _ _ (fun p Hp => proj2 (dom1 p Hp)) (fun p Hp => proj2 (dom2 p Hp))
        (HW' pos neg weight _ _ w dom3) HSp HSn (Z.to_nat N) 0).
      rewrite (Law_comb pos neg _ _ w). apply (hbind _ _ _ g).
      - rewrite the_c. pose proof (add_data_expect Wpos Wneg pos neg weight max_iters _ _ w dom1 dom2 dom3 HSp HSn cstate_empty 0 N) as H.
        rewrite Nat.sub_0_r in H. apply H; try done; try lia.
        + intros a. apply allst_ok.
        + intros us ps ns Hd. unfold g. rewrite prepend0.
          rewrite comb_allst. rewrite (S2_ext pos neg _ (fun _ => 0 * 0)%R) by (intros; simpl; ring). rewrite S2_scal. unfold trip. simpl. ring.
      - intros st Hst. rewrite the_c in Hst.
        apply (add_data_can Wpos Wneg pos neg weight max_iters _ _ dom1 dom2 HSp HSn cstate_empty 0) in Hst as (us & ps & ns & Hd & [= ->]); try done; try lia.
        rewrite Nat.sub_0_r, ?prepend0 in *. apply good_pd in Hd. destruct (sim_pd _ _ Hd) as (h & E & _). rewrite E. simpl.
        constructor.
      - intros e He. rewrite the_c in He.
        apply (add_data_can Wpos Wneg pos neg weight max_iters _ _ dom1 dom2 HSp HSn cstate_empty 0) in He as (us & ps & ns & Hd & ?); try done; try lia.
    Qed.
  End positive.
End top.

Lemma horizon_pow max_iters k : 0 <= k -> 2 ^ k <= max_iters < 2 ^ (k + 1) -> horizon max_iters (2 ^ k).
Proof. intros. right. eauto. Qed.

Lemma horizon_exists max_iters : 1 <= max_iters -> exists k, 0 <= k /\ 2 ^ k <= max_iters < 2 ^ (k + 1).
Proof.
  intros H. exists (Z.log2 max_iters). split; [apply Z.log2_nonneg|]. replace (Z.log2 max_iters + 1) with (Z.succ (Z.log2 max_iters)) by lia.
  apply Z.log2_spec. lia.
Qed.

Lemma total_S2 (w : Z -> Z -> Z) pos neg : Zt pos neg (W w) = IZR (total_weight w pos neg).
Proof.
  unfold Zt, S2, total_weight. rewrite <- rsum_IZR. apply rsum_map_ext. intros p _. rewrite <- rsum_IZR. done.
Qed.

Lemma acc_mass Wpos Wneg pos neg w : acc pos neg (pweight Wpos) (pweight Wneg) (W w) = accept_mass Wpos Wneg pos neg w.
Proof. unfold acc, accept_mass. rewrite total_S2. done. Qed.

Lemma C32_usable_pair_proof : forall (Wpos Wneg : gmap Z R) (pos neg : list Z) (weight : Z -> Z -> result Z) (w : Z -> Z -> Z) (max_iters : Z) (c : cftp) (o : result sample_ret),
  dominated Wpos Wneg pos neg weight w -> cftp_init Wpos Wneg pos neg weight max_iters = Ok c ->
  rcan (cftp_draw c false) o ->
  o = Ok (RetPair None) \/
  exists p n, o = Ok (RetPair (Some (p, n))) /\ p ∈ pos /\ n ∈ neg /\ 0 < w p n.
Proof.
  intros Wpos Wneg pos neg weight w max_iters c o Hdom Hinit Ho.
  unfold cftp_draw in Ho. rewrite (sample_unfold Wpos Wneg pos neg weight max_iters w c Hdom Hinit) in Ho.
  destruct (fuel2 max_iters) as [f Ef].
  destruct (Z_lt_le_dec max_iters 1) as [Hm|Hm].
  { rewrite Ef, (nomax_loop Wpos Wneg pos neg weight max_iters w c Hdom Hinit) in Ho by done. simpl in Ho. by left. }
  pose proof (pmass_nonneg_pos _ _ _ _ _ _ Hdom) as Hp. pose proof (pmass_nonneg_neg _ _ _ _ _ _ Hdom) as Hn.
  destruct (Req_dec (pmass Wpos pos) 0) as [Ez|Ez].
  { rewrite Ef, (zero_loop Wpos Wneg pos neg weight max_iters w c Hdom Hinit) in Ho by (by left || done). simpl in Ho. by left. }
  destruct (Req_dec (pmass Wneg neg) 0) as [Ez'|Ez'].
  { rewrite Ef, (zero_loop Wpos Wneg pos neg weight max_iters w c Hdom Hinit) in Ho by (by right || done). simpl in Ho. by left. }
  apply rcan_bind in Ho as [([r st'] & Hr & Ho)|(e & He & ->)].
  2:{ apply rcan_bind in He as [([r st'] & Hr & He)|(e' & He & [= ->])].
      - apply (sample_outcome Wpos Wneg pos neg weight max_iters w c Hdom Hinit ltac:(lra) ltac:(lra)) in Hr as (st & j & D & h & _ & [= -> ->] & _). done.
      - apply (sample_outcome Wpos Wneg pos neg weight max_iters w c Hdom Hinit ltac:(lra) ltac:(lra)) in He as (st & j & D & h & _ & ? & _). done. }
  apply rcan_bind in Hr as [([r' st''] & Hr & Hr')|(e & He & ?)]; [|done].
  apply (sample_outcome Wpos Wneg pos neg weight max_iters w c Hdom Hinit ltac:(lra) ltac:(lra)) in Hr as (st & j & D & h & Hpd & [= -> ->] & HD & _).
  simpl in Hr'. injection Hr' as -> ->. simpl in Ho. subst o. destruct D as [[p n]|]; [|by left]. right. exists p, n. split; [done|].
  assert (Hg : goodS pos neg (W w) (Some (p, n))).
  { rewrite HD. apply (run_good pos neg _ _ _ (HW' pos neg weight _ _ w (dom3 _ _ _ _ _ _ Hdom))); [done|]. by eapply pd_trip. }
  destruct Hg as [[Hpin Hnin] Hw]. split_and!; try done. unfold W in Hw. simpl in Hw. by apply lt_IZR.
Qed.


Lemma C33_coalesced_proof : forall (Wpos Wneg : gmap Z R) (pos neg : list Z) (weight : Z -> Z -> result Z) (w : Z -> Z -> Z) (max_iters : Z) (c : cftp)
    (k : nat) (st : cstate) (d : Z * Z) (h : list hentry),
  dominated Wpos Wneg pos neg weight w -> cftp_init Wpos Wneg pos neg weight max_iters = Ok c ->
  possible_draws Wpos Wneg pos neg k st -> simulate_backwards c st = Ok (Some d, h) ->
  (forall k' old, possible_draws Wpos Wneg pos neg k' old ->
     exists h', simulate_backwards c (older_first old st) = Ok (Some d, h') /\ length h' = (k' + k)%nat) /\
  (forall p n a b, p ∈ pos -> n ∈ neg -> 0 < w p n -> Wpos !! p = Some a -> Wneg !! n = Some b ->
     exists wd wdbar, rfold (fun s x => let! '(s', _) := sim_step c s x in Ok s') (Some (p, n), IZR (w p n), (a * b)%R)
        (zip (zip (cs_pos st) (cs_neg st)) (cs_u st)) = Ok (Some d, wd, wdbar)).
Proof.
  intros Wpos Wneg pos neg weight w max_iters c k st d h Hdom Hinit Hpd Hsim.
  destruct (sim_pd _ _ _ _ _ _ _ _ Hdom Hinit _ _ Hpd) as (h0 & E & _). rewrite Hsim in E. injection E as Hrun _.
  pose proof (HW' pos neg weight _ _ w (dom3 _ _ _ _ _ _ Hdom)) as HW.
  pose proof (pd_trip _ _ _ _ _ _ Hpd) as Hgood. split.
  - intros k' old Hold. pose proof (pd_good _ _ _ _ _ _ Hold) as Hd.
    assert (E : older_first old st = prepend (cs_u old) (cs_pos old) (cs_neg old) st) by done.
    assert (Hpd' : possible_draws Wpos Wneg pos neg (k' + k) (older_first old st)).
    { destruct Hpd as (A1 & A2 & A3 & A4 & A5 & A6), Hold as (B1 & B2 & B3 & B4 & B5 & B6). unfold possible_draws, older_first. simpl.
      rewrite !app_length. split_and!; try lia; intros x; rewrite elem_of_app; naive_solver. }
    destruct (sim_pd _ _ _ _ _ _ _ _ Hdom Hinit _ _ Hpd') as (h' & E' & Hl). exists h'. split; [|done]. rewrite E'. do 2 f_equal.
    rewrite E, (trip_prepend _ _ _ _ _ _ _ _ st Hd), PCftp.run_app. apply (run_coalesce pos neg _ _ _ HW); [|done|done].
    apply (run_good pos neg _ _ _ HW); [done|]. by eapply draws_good.
  - intros p n a b Hp Hn Hw Ha Hb. fold (trip st).
    assert (HE : forall l s, goodS pos neg (W w) s -> Forall (goodX pos neg (pweight Wpos) (pweight Wneg)) l ->
      rfold (fun s x => let! '(s', _) := sim_step c s x in Ok s') (s, wS (W w) s, wbS (pweight Wpos) (pweight Wneg) s) l
      = Ok (run (pweight Wpos) (pweight Wneg) (W w) s l, wS (W w) (run (pweight Wpos) (pweight Wneg) (W w) s l), wbS (pweight Wpos) (pweight Wneg) (run (pweight Wpos) (pweight Wneg) (W w) s l))).
    { clear Hsim Hrun h0 Hgood. induction l as [|x l IH]; intros s Hs Hl; [done|]. inversion Hl as [|? ? Hx Hl']; subst.
      cbn [rfold]. rewrite (the_c _ _ _ _ _ _ _ _ Hdom Hinit).
      destruct (sim_step_ok Wpos Wneg pos neg weight max_iters _ _ w (dom1 _ _ _ _ _ _ Hdom) (dom2 _ _ _ _ _ _ Hdom) (dom3 _ _ _ _ _ _ Hdom) s x Hs Hx) as [e ->].
      cbn [rbind]. rewrite <- (the_c _ _ _ _ _ _ _ _ Hdom Hinit). apply IH; [|done].
      exact (mstep_good pos neg _ _ _ HW s x Hs Hx). }
    assert (Hgs : goodS pos neg (W w) (Some (p, n))) by (split; [done|]; by apply (IZR_lt 0)).
    pose proof (HE (trip st) (Some (p, n)) Hgs Hgood) as H. rewrite (run_coalesce pos neg _ _ _ HW (trip st) _ d Hgs Hgood) in H by done.
    cbn [wS wbS] in H. unfold wb, W, pweight in H. simpl in H. rewrite Ha, Hb in H. simpl in H. eauto.
Qed.


Lemma C33_full_horizon_proof : forall (Wpos Wneg : gmap Z R) (pos neg : list Z) (weight : Z -> Z -> result Z) (w : Z -> Z -> Z) (max_iters k : Z) (c : cftp),
  dominated Wpos Wneg pos neg weight w -> cftp_init Wpos Wneg pos neg weight max_iters = Ok c ->
  (0 < pmass Wpos pos)%R -> (0 < pmass Wneg neg)%R -> 0 <= k -> 2 ^ k <= max_iters < 2 ^ (k + 1) ->
  (forall F v, hexpect F (cftp_draw c false) v <->
     hexpect F (let* st := cftp_add_data c cstate_empty (2 ^ k) in
                let* '(D, _) := rlift (simulate_backwards c st) in RRet (RetPair D)) v) /\
  (forall D, rcan (cftp_draw c false) (Ok (RetPair D)) <->
     exists st h, possible_draws Wpos Wneg pos neg (Z.to_nat (2 ^ k)) st /\ simulate_backwards c st = Ok (D, h)).
Proof.
  intros Wpos Wneg pos neg weight w max_iters k c Hdom Hinit HSp HSn Hk Hmax.
  pose proof (horizon_pow max_iters k Hk Hmax) as HN. pose proof (Z.pow_pos_nonneg 2 k ltac:(lia) Hk) as Hpk. split.
  - intros F v. pose proof (draw_expect _ _ _ _ _ _ _ _ Hdom Hinit HSp HSn (2 ^ k) F HN) as E1.
    pose proof (full_expect _ _ _ _ _ _ _ _ Hdom Hinit HSp HSn (2 ^ k) F Hpk) as E2. split; intros H.
    + rewrite (hexpect_unique _ _ _ _ H E1). done.
    + rewrite (hexpect_unique _ _ _ _ H E2). done.
  - intros D. unfold cftp_draw. rewrite (sample_unfold Wpos Wneg pos neg weight max_iters w c Hdom Hinit).
    pose proof (HW' pos neg weight _ _ w (dom3 _ _ _ _ _ _ Hdom)) as HW. split.
    + intros Ho. apply rcan_bind in Ho as [([r st'] & Hr & Ho)|(e & He & ?)]; [|done]. injection Ho as <-.
      apply rcan_bind in Hr as [([r' st''] & Hr & Hr')|(e & He & ?)]; [|done].
      apply (sample_outcome Wpos Wneg pos neg weight max_iters w c Hdom Hinit HSp HSn) in Hr as (st & j & D' & h & Hpd & [= -> ->] & HD & Hj & Hj0 & _ & HNone & Hjl).
      simpl in Hr'. injection Hr' as -> _.
      (* older randomness to fill the horizon *)
      assert (Hbj : (before j <= Z.to_nat (2 ^ k))%nat).
      { unfold before. destruct (Z.eqb_spec j 0); [lia|]. destruct Hjl as [?|Hjl]; [lia|]. apply Z2Nat.inj_le; [apply Z.pow_nonneg; lia|lia|].
        apply (horizon_ge max_iters); [done|lia|done]. }
      assert (Hne : exists p n, p ∈ pos /\ (0 < pweight Wpos p)%R /\ n ∈ neg /\ (0 < pweight Wneg n)%R).
      { assert (Hex : forall (f : Z -> R) l, (0 < rsum (map f l))%R -> exists x, x ∈ l /\ (0 < f x)%R).
        { intros f l. induction l as [|x l IH]; cbn [map]; [unfold rsum; simpl; lra|]. rewrite rsum_cons. intros Hs.
          destruct (Rlt_dec 0 (f x)) as [Hx|Hx]; [exists x; split; [left|done]|]. destruct IH as (y & Hy & Hfy); [lra|]. exists y. split; [by right|done]. }
        destruct (Hex _ _ HSp) as (p & ? & ?), (Hex _ _ HSn) as (n & ? & ?). eauto 10. }
      destruct Hne as (p & n & Hp & Hwp & Hn & Hwn).
      set (m := (Z.to_nat (2 ^ k) - before j)%nat). set (old := CState (replicate m 0%R) (replicate m p) (replicate m n)).
      assert (Hold : possible_draws Wpos Wneg pos neg m old).
      { unfold old. split_and!; simpl; rewrite ?replicate_length; try done; intros x Hx; apply elem_of_replicate in Hx as [-> _]; [lra|done|done]. }
      destruct (sim_pd _ _ _ _ _ _ _ _ Hdom Hinit _ _ Hpd) as (h0 & E0 & _). rewrite <- HD in E0.
      destruct D' as [d|].
      * exists (older_first old st).
        destruct (C33_coalesced_proof _ _ _ _ _ _ _ _ _ _ _ _ Hdom Hinit Hpd E0) as [Hco _]. destruct (Hco _ _ Hold) as (h' & E' & _).
        exists h'. split; [|done].
        destruct Hpd as (A1 & A2 & A3 & A4 & A5 & A6), Hold as (B1 & B2 & B3 & B4 & B5 & B6). unfold possible_draws, older_first. cbn [cs_u cs_pos cs_neg].
        rewrite !app_length. split_and!; try lia; intros x; rewrite elem_of_app; naive_solver.
      * exists st, h0. split; [|done]. specialize (HNone eq_refl).
        assert (E : Z.of_nat (before j) = 2 ^ k) by by apply (horizon_stop max_iters). rewrite <- E, Nat2Z.id. done.
    + intros (st & h & Hpd & Hsim). destruct (sim_pd _ _ _ _ _ _ _ _ Hdom Hinit _ _ Hpd) as (h0 & E0 & _). rewrite Hsim in E0. injection E0 as -> _.
      destruct (loop_can_conv Wpos Wneg pos neg weight max_iters _ _ w (dom1 _ _ _ _ _ _ Hdom) (dom2 _ _ _ _ _ _ Hdom) (dom3 _ _ _ _ _ _ Hdom) HSp HSn (2 ^ k) HN
        (Z.to_nat max_iters + 2) 0 None cstate_empty (cs_u st) (cs_pos st) (cs_neg st)) as (h' & st' & Hrc); try done; try lia.
      { by left. }
      { change (before 0) with 0%nat. rewrite Nat.sub_0_r. by apply pd_good. }
      rewrite <- (the_c _ _ _ _ _ _ _ _ Hdom Hinit), prepend0 in Hrc. replace (CState (cs_u st) (cs_pos st) (cs_neg st)) with st in Hrc by (by destruct st).
      apply rcan_bind. left. eexists (_, cstate_empty). split; [|done]. apply rcan_bind. left. eexists (Some (_, h'), st'). split; [exact Hrc|done].
Qed.


Lemma C34_exact_proof : forall (Wpos Wneg : gmap Z R) (pos neg : list Z) (weight : Z -> Z -> result Z) (w : Z -> Z -> Z) (max_iters k : Z) (c : cftp),
  dominated Wpos Wneg pos neg weight w -> cftp_init Wpos Wneg pos neg weight max_iters = Ok c ->
  NoDup pos -> NoDup neg -> (0 < pmass Wpos pos)%R -> (0 < pmass Wneg neg)%R ->
  0 <= k -> 2 ^ k <= max_iters < 2 ^ (k + 1) ->
  let q := accept_mass Wpos Wneg pos neg w in
  let N := Z.to_nat (2 ^ k) in
  (0 <= q <= 1)%R /\
  (forall p n, p ∈ pos -> n ∈ neg ->
     hprob (cftp_draw c false) (Ok (RetPair (Some (p, n)))) (IZR (w p n) / IZR (total_weight w pos neg) * (1 - (1 - q) ^ N))) /\
  hprob (cftp_draw c false) (Ok (RetPair None)) ((1 - q) ^ N).
Proof.
  intros Wpos Wneg pos neg weight w max_iters k c Hdom Hinit Hnp Hnn HSp HSn Hk Hmax q N.
  pose proof (horizon_pow max_iters k Hk Hmax) as HN. pose proof (HW' pos neg weight _ _ w (dom3 _ _ _ _ _ _ Hdom)) as HW.
  pose proof (fun F => draw_expect _ _ _ _ _ _ _ _ Hdom Hinit HSp HSn (2 ^ k) F HN) as E. fold N in E. unfold Law in E.
  rewrite acc_mass, total_S2 in E. fold q in E.
  assert (Hq : (0 <= q <= 1)%R).
  { unfold q. rewrite <- acc_mass. unfold acc. pose proof (Zb_pos pos neg _ _ HSp HSn) as Hzb. pose proof (Zt_nonneg pos neg _ _ _ HW) as Hzt.
    split; [apply div_nonneg; lra|]. apply (Rmult_le_reg_r (Zb pos neg (pweight Wpos) (pweight Wneg))); [done|]. unfold Rdiv. rewrite Rmult_assoc, Rinv_l by lra.
    rewrite Rmult_1_l, Rmult_1_r, <- S2_wb. apply rsum_le. intros p Hp. apply rsum_le. intros n Hn. apply HW; done. }
  split; [done|]. split.
  - intros p n Hp Hn. unfold hprob. set (F := fun o : result sample_ret => _).
    replace (IZR (w p n) / IZR (total_weight w pos neg) * (1 - (1 - q) ^ N))%R with
      ((1 - q) ^ N * F (Ok (RetPair None)) + S2 pos neg (fun c => (1 - (1 - q) ^ N) * (W w c / IZR (total_weight w pos neg)) * F (Ok (RetPair (Some c)))))%R; [apply E|].
    assert (F (Ok (RetPair None)) = 0%R) as -> by (unfold F; by rewrite decide_False).
    unfold S2. rewrite (rsum_map_ext _ (fun p' => ((1 - (1 - q) ^ N) * (IZR (w p' n) / IZR (total_weight w pos neg))) * (if decide (p' = p) then 1 else 0))%R).
    + rewrite (rsum_indicator (fun p' => (1 - (1 - q) ^ N) * (IZR (w p' n) / IZR (total_weight w pos neg)))%R pos p) by done. ring.
    + intros p' Hp'. destruct (decide (p' = p)) as [->|Hne].
      * rewrite Rmult_1_r. rewrite (rsum_map_ext _ (fun n' => ((1 - (1 - q) ^ N) * (IZR (w p n') / IZR (total_weight w pos neg))) * (if decide (n' = n) then 1 else 0))%R).
        -- by rewrite (rsum_indicator (fun n' => (1 - (1 - q) ^ N) * (IZR (w p n') / IZR (total_weight w pos neg)))%R neg n).
        -- intros n' _. unfold W, F. simpl. f_equal. destruct (decide (n' = n)) as [->|]; [by rewrite decide_True|].
           rewrite decide_False; [done|]. congruence.
      * rewrite Rmult_0_r. apply rsum_zero. intros n' _. unfold F. rewrite decide_False; [ring|]. congruence.
  - unfold hprob. set (F := fun o : result sample_ret => _).
    replace ((1 - q) ^ N)%R with
      ((1 - q) ^ N * F (Ok (RetPair None)) + S2 pos neg (fun c => (1 - (1 - q) ^ N) * (W w c / IZR (total_weight w pos neg)) * F (Ok (RetPair (Some c)))))%R; [apply E|].
    assert (F (Ok (RetPair None)) = 1%R) as -> by (unfold F; by rewrite decide_True).
    rewrite (S2_ext pos neg _ (fun _ => 0 * 0)%R).
    + rewrite S2_scal. ring.
    + intros d _. unfold F. rewrite decide_False by done. ring.
Qed.


Lemma C37_bookkeeping_proof : forall (Wpos Wneg : gmap Z R) (pos neg : list Z) (weight : Z -> Z -> result Z) (w : Z -> Z -> Z) (max_iters : Z) (c : cftp),
  dominated Wpos Wneg pos neg weight w -> cftp_init Wpos Wneg pos neg weight max_iters = Ok c ->
  (forall details o, rcan (cftp_sample c details cstate_empty) o ->
     (o = Err UnboundLocalError /\ details = true /\ max_iters < 1) \/ exists r, o = Ok (r, cstate_empty)) /\
  (forall D n st, rcan (cftp_sample c true cstate_empty) (Ok (RetDetails D n, st)) ->
     exists j, 0 <= j /\ n = 2 ^ j /\ 2 ^ j <= max_iters /\ (D = None -> max_iters < 2 ^ (j + 1))) /\
  ((0 < pmass Wpos pos)%R -> (0 < pmass Wneg neg)%R -> forall k st n o, possible_draws Wpos Wneg pos neg k st -> Z.of_nat k <= n -> 0 < n ->
     (rcan (cftp_add_data c st n) o <->
      exists old, possible_draws Wpos Wneg pos neg (Z.to_nat n - k) old /\ o = Ok (older_first old st))).
Proof.
  intros Wpos Wneg pos neg weight w max_iters c Hdom Hinit.
  pose proof (pmass_nonneg_pos _ _ _ _ _ _ Hdom) as Hp. pose proof (pmass_nonneg_neg _ _ _ _ _ _ Hdom) as Hn.
  assert (Hcases : (max_iters < 1) \/ ((pmass Wpos pos = 0 \/ pmass Wneg neg = 0)%R /\ 1 <= max_iters) \/ ((0 < pmass Wpos pos)%R /\ (0 < pmass Wneg neg)%R /\ 1 <= max_iters)).
  { destruct (Z_lt_le_dec max_iters 1); [by left|right]. destruct (Req_dec (pmass Wpos pos) 0); [left; tauto|]. destruct (Req_dec (pmass Wneg neg) 0); [left; tauto|].
    right. split; [lra|]. split; [lra|done]. }
  destruct (fuel2 max_iters) as [f Ef]. split; [|split].
  - intros details o Ho. rewrite (sample_unfold Wpos Wneg pos neg weight max_iters w c Hdom Hinit) in Ho.
    destruct Hcases as [Hm|[[Hz Hm]|(Hsp & Hsn & Hm)]].
    + rewrite Ef, (nomax_loop Wpos Wneg pos neg weight max_iters w c Hdom Hinit) in Ho by done. destruct details; simpl in Ho; [left|right]; eauto.
    + rewrite Ef, (zero_loop Wpos Wneg pos neg weight max_iters w c Hdom Hinit) in Ho by done. simpl in Ho. right. eauto.
    + apply rcan_bind in Ho as [([r st'] & Hr & Ho)|(e & He & ->)].
      2:{ apply (sample_outcome Wpos Wneg pos neg weight max_iters w c Hdom Hinit Hsp Hsn) in He as (st & j & D & h & _ & ? & _). done. }
      apply (sample_outcome Wpos Wneg pos neg weight max_iters w c Hdom Hinit Hsp Hsn) in Hr as (st & j & D & h & Hpd & [= -> ->] & HD & Hj & Hj0 & Hj1 & HN & _).
      destruct details; simpl in Ho; [|by right; eauto].
      destruct h as [h|]; [by right; eauto|]. exfalso.
      assert (j = 0) as ->. { destruct (Z.eq_dec j 0); [done|]. destruct Hj1 as (h' & ? & _); [lia|done]. }
      change (before 0) with 0%nat in Hpd. destruct Hpd as (E1 & E2 & E3 & _). apply nil_length_inv in E1, E2, E3.
      destruct st as [us ps ns]. simpl in *. subst. simpl in HN. specialize (HN eq_refl). change (2 ^ 0) with 1 in HN. lia.
  - intros D n st Ho. rewrite (sample_unfold Wpos Wneg pos neg weight max_iters w c Hdom Hinit) in Ho.
    destruct Hcases as [Hm|[[Hz Hm]|(Hsp & Hsn & Hm)]].
    + rewrite Ef, (nomax_loop Wpos Wneg pos neg weight max_iters w c Hdom Hinit) in Ho by done. done.
    + rewrite Ef, (zero_loop Wpos Wneg pos neg weight max_iters w c Hdom Hinit) in Ho by done. done.
    + apply rcan_bind in Ho as [([r st'] & Hr & Ho)|(e & He & ?)]; [|done].
      apply (sample_outcome Wpos Wneg pos neg weight max_iters w c Hdom Hinit Hsp Hsn) in Hr as (st0 & j & D' & h & Hpd & [= -> ->] & HD & Hj & Hj0 & Hj1 & HN & Hjl).
      destruct h as [h|]; simpl in Ho; [|done]. injection Ho as -> -> ->.
      destruct (Z.eq_dec j 0) as [->|Hj']; [by specialize (Hj0 eq_refl)|]. destruct Hj1 as (h' & [= <-] & Hlen); [lia|].
      exists (j - 1). destruct Hjl as [?|Hjl]; [done|]. split_and!; try lia.
      * unfold zlen. rewrite Hlen. unfold before. destruct (Z.eqb_spec j 0); [lia|]. rewrite Z2Nat.id; [done|]. apply Z.pow_nonneg. lia.
      * replace (j - 1 + 1) with j by lia. intros ->. by apply HN.
  - intros Hsp Hsn k st n o Hpd Hk Hn0. rewrite (the_c _ _ _ _ _ _ _ _ Hdom Hinit).
    assert (Hst : stlen st k) by (destruct Hpd as (? & ? & ? & _); done).
    rewrite (add_data_can Wpos Wneg pos neg weight max_iters _ _ (dom1 _ _ _ _ _ _ Hdom) (dom2 _ _ _ _ _ _ Hdom) Hsp Hsn st k n o Hst Hk Hn0). split.
    + intros (us & ps & ns & Hd & ->). exists (CState us ps ns). split; [by apply good_pd|done].
    + intros (old & Hold & ->). exists (cs_u old), (cs_pos old), (cs_neg old). split; [by apply pd_good|done].
Qed.


Lemma C37_none_proof : forall (Wpos Wneg : gmap Z R) (pos neg : list Z) (weight : Z -> Z -> result Z) (w : Z -> Z -> Z) (max_iters : Z) (c : cftp),
  dominated Wpos Wneg pos neg weight w -> cftp_init Wpos Wneg pos neg weight max_iters = Ok c ->
  ((pmass Wpos pos = 0 \/ pmass Wneg neg = 0)%R -> forall o, rcan (cftp_draw c false) o <-> o = Ok (RetPair None)) /\
  (forall k, (0 < pmass Wpos pos)%R -> (0 < pmass Wneg neg)%R -> 0 <= k -> 2 ^ k <= max_iters < 2 ^ (k + 1) ->
     (rcan (cftp_draw c false) (Ok (RetPair None)) <->
      exists st, possible_draws Wpos Wneg pos neg (Z.to_nat (2 ^ k)) st /\
        forall j, 0 <= j <= k -> exists h, simulate_backwards c (recent (Z.to_nat (2 ^ j)) st) = Ok (None, h))).
Proof.
  intros Wpos Wneg pos neg weight w max_iters c Hdom Hinit. destruct (fuel2 max_iters) as [f Ef]. split.
  - intros Hz o. unfold cftp_draw. rewrite (sample_unfold Wpos Wneg pos neg weight max_iters w c Hdom Hinit). rewrite Ef.
    destruct (Z_lt_le_dec max_iters 1) as [Hm|Hm].
    + by rewrite (nomax_loop Wpos Wneg pos neg weight max_iters w c Hdom Hinit).
    + by rewrite (zero_loop Wpos Wneg pos neg weight max_iters w c Hdom Hinit).
  - intros k Hsp Hsn Hk Hmax. pose proof (Z.pow_pos_nonneg 2 k ltac:(lia) Hk) as Hpk.
    destruct (C33_full_horizon_proof _ _ _ _ _ _ _ _ _ Hdom Hinit Hsp Hsn Hk Hmax) as [_ Hr]. rewrite Hr.
    assert (Hrec : forall st j, possible_draws Wpos Wneg pos neg (Z.to_nat (2 ^ k)) st -> 0 <= j <= k ->
      exists old, possible_draws Wpos Wneg pos neg (Z.to_nat (2 ^ k) - Z.to_nat (2 ^ j)) old /\
        possible_draws Wpos Wneg pos neg (Z.to_nat (2 ^ j)) (recent (Z.to_nat (2 ^ j)) st) /\ older_first old (recent (Z.to_nat (2 ^ j)) st) = st).
    { intros st j (A1 & A2 & A3 & A4 & A5 & A6) Hj. pose proof (Z.pow_pos_nonneg 2 j). pose proof (Z.pow_le_mono_r 2 j k).
      set (r := (Z.to_nat (2 ^ k) - Z.to_nat (2 ^ j))%nat). exists (CState (take r (cs_u st)) (take r (cs_pos st)) (take r (cs_neg st))).
      unfold recent. rewrite A1, A2, A3. fold r. unfold possible_draws, older_first. cbn [cs_u cs_pos cs_neg]. rewrite !take_drop, !take_length, !drop_length.
      assert (Hsub : forall A (l : list A) x m, x ∈ take m l -> x ∈ l) by (intros A l x m Hx; rewrite <- (take_drop m l); apply elem_of_app; by left).
      assert (Hsub' : forall A (l : list A) x m, x ∈ drop m l -> x ∈ l) by (intros A l x m Hx; rewrite <- (take_drop m l); apply elem_of_app; by right).
      split_and!; try lia; eauto. by destruct st. }
    split.
    + intros (st & h & Hpd & Hsim). exists st. split; [done|]. intros j Hj. destruct (Hrec st j Hpd Hj) as (old & Hold & Hnew & E).
      destruct (sim_pd _ _ _ _ _ _ _ _ Hdom Hinit _ _ Hnew) as (h0 & E0 & _).
      destruct (run (pweight Wpos) (pweight Wneg) (W w) None (trip (recent (Z.to_nat (2 ^ j)) st))) as [d|] eqn:Er; [|eauto].
      destruct (C33_coalesced_proof _ _ _ _ _ _ _ _ _ _ _ _ Hdom Hinit Hnew E0) as [Hco _].
      destruct (Hco _ _ Hold) as (h' & E' & _). rewrite E in E'. congruence.
    + intros (st & Hpd & Hall). destruct (Hall k ltac:(lia)) as (h & Hh). exists st, h. split; [done|].
      assert (recent (Z.to_nat (2 ^ k)) st = st) as E. { destruct Hpd as (A1 & A2 & A3 & _). unfold recent. rewrite A1, A2, A3, Nat.sub_diag. by destruct st. }
      by rewrite E in Hh.
Qed.


(** ** the discriminativity sampler *)

Definition row_of (rows : list (list Z)) (i : Z) : list Z := default [] (rows !! Z.to_nat i).
Definition sel (P : Z -> bool) (y : list Z) : list Z := map fst (List.filter (fun iv : Z * Z => P (snd iv)) (enumerate y)).
Definition selrows (P : Z -> bool) (rows : list (list Z)) (y : list Z) : list (list Z) :=
  map fst (List.filter (fun ry : list Z * Z => P (snd ry)) (zip rows y)).

Lemma rows_sel_gen {A} (d : A) P (rows : list A) y : length rows = length y ->
  map (fun i => default d (rows !! Z.to_nat i)) (sel P y) = map fst (List.filter (fun ry : A * Z => P (snd ry)) (zip rows y)).
Proof.
  intros Hl. unfold sel, enumerate, py_range.
  assert (H : forall pre (rows : list A) y, length rows = length y ->
    map (fun i => default d ((pre ++ rows) !! Z.to_nat i)) (map fst (List.filter (fun iv : Z * Z => P (snd iv)) (zip (seqZ (Z.of_nat (length pre)) (zlen y)) y)))
    = map fst (List.filter (fun ry : A * Z => P (snd ry)) (zip rows y))).
  { clear. intros pre rows y. revert pre rows. induction y as [|v y IH]; intros pre [|r rows] Hl; try done. simpl in Hl.
    unfold zlen. cbn [length]. rewrite seqZ_cons by lia.
    replace (Z.pred (Z.of_nat (Datatypes.S (length y)))) with (zlen y) by (unfold zlen; lia).
    pose proof (IH (pre ++ [r]) rows ltac:(lia)) as E. rewrite app_length in E. cbn [length] in E.
    replace (Z.of_nat (length pre + 1)) with (Z.succ (Z.of_nat (length pre))) in E by lia. rewrite <- app_assoc in E. simpl in E.
    cbn [zip_with List.filter snd].
    destruct (P v).
    - cbn [map fst]. f_equal; [|exact E]. rewrite Nat2Z.id, lookup_app_r, Nat.sub_diag by lia. done.
    - exact E. }
  apply (H [] rows y Hl).
Qed.

Lemma rows_sel P rows y : length rows = length y -> map (row_of rows) (sel P y) = selrows P rows y.
Proof. apply rows_sel_gen. Qed.

Lemma elem_of_enumerate {A} (l : list A) i x : (i, x) ∈ enumerate l <-> 0 <= i /\ l !! Z.to_nat i = Some x.
Proof.
  unfold enumerate. rewrite elem_of_list_lookup. split.
  - intros [j Hj]. rewrite lookup_zip_with in Hj. destruct (py_range (zlen l) !! j) as [i'|] eqn:E; [|done]. simpl in Hj.
    destruct (l !! j) as [x'|] eqn:Ex; [|done]. injection Hj as -> ->.
    unfold py_range in E. apply lookup_seqZ in E as [-> Hb]. split; [lia|]. by replace (Z.to_nat (0 + Z.of_nat j)) with j by lia.
  - intros [Hi Hx]. exists (Z.to_nat i). rewrite lookup_zip_with. pose proof (lookup_lt_Some _ _ _ Hx).
    rewrite lookup_py_range by (unfold zlen; lia). simpl. by rewrite Hx.
Qed.

Lemma elem_of_sel P y i : i ∈ sel P y <-> 0 <= i /\ exists v, y !! Z.to_nat i = Some v /\ P v = true.
Proof.
  unfold sel. rewrite elem_of_map. split.
  - intros ([i' v] & -> & Hx). apply elem_of_list_In, filter_In in Hx as [Hx HP]. apply elem_of_list_In, elem_of_enumerate in Hx as [Hi Hx]. eauto.
  - intros (Hi & v & Hv & HP). exists (i, v). split; [done|]. apply elem_of_list_In, filter_In. split; [|done]. apply elem_of_list_In, elem_of_enumerate. done.
Qed.

Lemma NoDup_sel P y : NoDup (sel P y).
Proof.
  unfold sel. assert (H : NoDup (map fst (enumerate y))).
  { unfold enumerate. assert (E : map fst (zip (py_range (zlen y)) y) = py_range (zlen y)).
    { assert (Hl : length (py_range (zlen y)) = length y) by (rewrite length_py_range; unfold zlen; lia).
      revert Hl. generalize (py_range (zlen y)). intros l. revert y. induction l as [|a l IH]; intros [|v y] Hl; try done. simpl. f_equal. apply IH. simpl in Hl. lia. }
    rewrite E. apply NoDup_py_range. }
  revert H. generalize (enumerate y). intros l. induction l as [|[i v] l IH]; simpl; [done|]. intros Hn. inversion Hn as [|? ? Hi Hn']; subst.
  destruct (P v); [|auto]. simpl. constructor; [|auto]. intros Hin. apply Hi.
  apply elem_of_map in Hin as (x & -> & Hx). apply elem_of_map. exists x. split; [done|]. apply elem_of_list_In in Hx. apply filter_In in Hx as [Hx _]. by apply elem_of_list_In.
Qed.

Lemma pos_sel y : pos_indices y = sel (fun v => 0 <? v) y.
Proof. done. Qed.
Lemma neg_sel y : neg_indices y = sel (fun v => v =? 0) y.
Proof. done. Qed.

Lemma row_of_ok rows i : 0 <= i < zlen rows -> py_index rows i = Ok (row_of rows i) /\ row_of rows i ∈ rows.
Proof.
  intros Hi. destruct (py_index_in_range rows i Hi) as (r & E & Er). unfold row_of. rewrite E, Er. simpl. split; [done|]. by eapply elem_of_list_lookup_2.
Qed.

Definition wt (pd : proposal) (n : Z) (rows : list (list Z)) (pos : list Z) (i : Z) : R :=
  if bool_decide (i ∈ pos) then match pd with Tight => IZR (zlen (row_of rows i)) | Original => R_sqrt.sqrt (IZR (zlen (row_of rows i))) end
  else match pd with Tight => 1%R | Original => R_sqrt.sqrt (IZR (n - zlen (row_of rows i))) end.

Lemma rfold_insert (g : Z -> R) (step : gmap Z R -> Z -> result (gmap Z R)) l :
  (forall d i, i ∈ l -> step d i = Ok (<[i := g i]> d)) -> forall d, exists d', rfold step d l = Ok d' /\
    forall i, (i ∈ l -> d' !! i = Some (g i)) /\ (i ∉ l -> d' !! i = d !! i).
Proof.
  induction l as [|x l IH]; intros Hs d.
  - exists d. split; [done|]. intros i. split; [intros Hi; inversion Hi|done].
  - simpl. rewrite (Hs d x) by left. simpl. destruct (IH ltac:(intros; apply Hs; by right) (<[x := g x]> d)) as (d' & E & Hd). exists d'. split; [done|].
    intros i. destruct (Hd i) as [Ha Hb]. split.
    + intros Hi. destruct (decide (i ∈ l)) as [Hil|Hil]; [auto|]. rewrite Hb by done. apply elem_of_cons in Hi as [->|]; [|done]. apply lookup_insert.
    + intros Hi. apply not_elem_of_cons in Hi as [Hne Hi]. rewrite Hb by done. by apply lookup_insert_ne.
Qed.

Lemma cwd_ok pd space rows pos : exists W, compute_weight_dict pd (zlen rows) space rows pos = Ok W /\
  forall i, 0 <= i < zlen rows -> W !! i = Some (wt pd (zlen space) rows pos i).
Proof.
  destruct (rfold_insert (wt pd (zlen space) rows pos) (fun d i =>
    if bool_decide (i ∈ pos) then
      let! r := py_index rows i in
      Ok (<[i := match pd with Tight => IZR (zlen r) | Original => R_sqrt.sqrt (IZR (zlen r)) end]> d)
    else
      match pd with
      | Tight => Ok (<[i := 1%R]> d)
      | Original => let! r := py_index rows i in Ok (<[i := R_sqrt.sqrt (IZR (zlen space - zlen r))]> d)
      end) (py_range (zlen rows))) with (d := (∅ : gmap Z R)) as (d' & E & Hd).
  - intros d i Hi. apply elem_of_py_range in Hi. destruct (row_of_ok rows i Hi) as [-> _]. unfold wt. destruct (bool_decide (i ∈ pos)), pd; done.
  - exists d'. split; [exact E|]. intros i Hi. apply Hd. by apply elem_of_py_range.
Qed.

Definition pw (rows : list (list Z)) (p n : Z) : Z := Z.of_nat (size (py_set (row_of rows p) ∖ py_set (row_of rows n))).

Lemma size_py_set l : NoDup l -> Z.of_nat (size (py_set l)) = zlen l.
Proof. intros H. unfold py_set, zlen. f_equal. by apply size_list_to_set. Qed.

Lemma py_set_size_range l n : 0 <= n -> (forall k, k ∈ l -> 0 <= k < n) -> Z.of_nat (size (py_set l)) <= n.
Proof.
  intros Hn H. assert (py_set l ⊆ py_set (py_range n)) as Hs.
  { intros k Hk. unfold py_set in *. apply elem_of_list_to_set in Hk. apply elem_of_list_to_set, elem_of_py_range. auto. }
  apply subseteq_size in Hs. unfold py_set in Hs at 2. rewrite size_list_to_set in Hs by apply NoDup_py_range. rewrite length_py_range in Hs. lia.
Qed.

Section cds.
  Context (pd : proposal) (space : list (gset Z)) (rows : list (list Z)) (y : list Z) (Wd : gmap Z R).
  Hypothesis Hrows : sample_rows (zlen space) rows.
  Hypothesis Hlen : length rows = length y.
  Notation pos := (pos_indices y).
  Notation neg := (neg_indices y).
  Hypothesis HW : forall i, 0 <= i < zlen rows -> Wd !! i = Some (wt pd (zlen space) rows pos i).

  Lemma pos_range p : p ∈ pos -> 0 <= p < zlen rows.
  Proof. rewrite pos_sel, elem_of_sel. intros (Hp & v & Hv & _). apply lookup_lt_Some in Hv. unfold zlen. lia. Qed.
  Lemma neg_range p : p ∈ neg -> 0 <= p < zlen rows.
  Proof. rewrite neg_sel, elem_of_sel. intros (Hp & v & Hv & _). apply lookup_lt_Some in Hv. unfold zlen. lia. Qed.
  Lemma neg_not_pos p : p ∈ neg -> p ∉ pos.
  Proof. rewrite neg_sel, pos_sel, !elem_of_sel. intros (Hp & v & Hv & Hz) (_ & v' & Hv' & Hz'). assert (v = v') by congruence. subst. lia. Qed.

  Lemma row_facts i : 0 <= i < zlen rows -> NoDup (row_of rows i) /\ (forall k, k ∈ row_of rows i -> 0 <= k < zlen space) /\ zlen (row_of rows i) <= zlen space.
  Proof.
    intros Hi. destruct (row_of_ok rows i Hi) as [_ Hin]. destruct (Hrows _ Hin) as [Hnd Hr]. split_and!; try done.
    rewrite <- size_py_set by done. apply py_set_size_range; [apply zlen_nonneg|done].
  Qed.

  Lemma diff_le p n : 0 <= p < zlen rows -> 0 <= n < zlen rows -> pw rows p n <= zlen (row_of rows p) /\ pw rows p n <= zlen space - zlen (row_of rows n).
  Proof.
    intros Hp Hn. destruct (row_facts p Hp) as (Hndp & Hrp & _), (row_facts n Hn) as (Hndn & Hrn & _). unfold pw. split.
    - rewrite <- size_py_set by done. apply Nat2Z.inj_le, subseteq_size. set_solver.
    - rewrite <- (size_py_set (row_of rows n)) by done.
      assert (Hu : Z.of_nat (size ((py_set (row_of rows p) ∖ py_set (row_of rows n)) ∪ py_set (row_of rows n))) <= zlen space).
      { assert (E : ((py_set (row_of rows p) ∖ py_set (row_of rows n)) ∪ py_set (row_of rows n)) = py_set (row_of rows p ++ row_of rows n)).
        { unfold py_set. rewrite list_to_set_app_L. apply set_eq. intros x. destruct (decide (x ∈ (list_to_set (row_of rows n) : gset Z))); set_solver. }
        rewrite E. apply py_set_size_range; [apply zlen_nonneg|]. intros k Hk. apply elem_of_app in Hk as [Hk|Hk]; auto. }
      rewrite size_union in Hu by set_solver. lia.
  Qed.

  Lemma cds_dom : dominated Wd Wd pos neg (pair_weight rows) (pw rows).
  Proof.
    assert (Hnn : forall i, 0 <= i < zlen rows -> (0 <= wt pd (zlen space) rows pos i)%R).
    { intros i Hi. unfold wt. destruct (bool_decide (i ∈ pos)), pd.
      - apply (IZR_le 0). apply zlen_nonneg.
      - apply R_sqrt.sqrt_pos.
      - lra.
      - apply R_sqrt.sqrt_pos. }
    split_and!.
    - intros p Hp. apply pos_range in Hp. rewrite (HW p Hp). eauto.
    - intros p Hp. apply neg_range in Hp. rewrite (HW p Hp). eauto.
    - intros p n a b Hp Hn. pose proof (pos_range p Hp) as Hp'. pose proof (neg_range n Hn) as Hn'. rewrite (HW p Hp'), (HW n Hn'). intros [= <-] [= <-].
      split_and!.
      + unfold pair_weight. destruct (row_of_ok rows p Hp') as [-> _], (row_of_ok rows n Hn') as [-> _]. done.
      + unfold pw. lia.
      + destruct (diff_le p n Hp' Hn') as [H1 H2]. pose proof (neg_not_pos n Hn) as Hnp. unfold wt.
        rewrite (bool_decide_eq_true_2 (p ∈ pos)) by done. rewrite (bool_decide_eq_false_2 (n ∈ pos)) by done. destruct pd.
        * rewrite Rmult_1_r. by apply IZR_le.
        * assert (H0 : 0 <= pw rows p n) by (unfold pw; lia).
          rewrite <- (R_sqrt.sqrt_sqrt (IZR (pw rows p n))) by (by apply (IZR_le 0)).
          apply Rmult_le_compat; try apply R_sqrt.sqrt_pos; apply R_sqrt.sqrt_le_1_alt; by apply IZR_le.
  Qed.

  Lemma pmass_sel P : rsum (map (pweight Wd) (sel P y)) = rsum (map (wt pd (zlen space) rows pos) (sel P y)).
  Proof.
    apply rsum_map_ext. intros i Hi. apply elem_of_sel in Hi as (Hi & v & Hv & _). apply lookup_lt_Some in Hv. unfold pweight. rewrite HW by (unfold zlen; lia). done.
  Qed.

  Lemma row_sum_sel (f : list Z -> R) P : row_sum f P rows y = rsum (map (fun i => f (row_of rows i)) (sel P y)).
  Proof.
    unfold row_sum. rewrite <- (map_map (row_of rows) f), rows_sel by done. unfold selrows. by rewrite map_map.
  Qed.

  Lemma n_neg_sel : n_neg y = zlen neg.
  Proof.
    clear HW Hlen. rewrite neg_sel. unfold n_neg, sel, enumerate, zlen. f_equal. rewrite map_length.
    assert (Hl : length (py_range (Z.of_nat (length y))) = length y) by (rewrite length_py_range; lia). revert Hl. generalize (py_range (Z.of_nat (length y))).
    induction y as [|v y' IH]; intros [|i l] Hl; try done. simpl. simpl in Hl. assert (length l = length y') as Hl' by lia. pose proof (IH l Hl') as E.
    destruct (v =? 0); simpl; [f_equal|]; exact E.
  Qed.

  Lemma proposal_mass : (pmass Wd pos * pmass Wd neg)%R = proposal_total pd (zlen space) rows y.
  Proof.
    unfold pmass. rewrite pos_sel, neg_sel, !pmass_sel. unfold proposal_total. destruct pd.
    - f_equal.
      + rewrite row_sum_sel. apply rsum_map_ext. intros i Hi. unfold wt. by rewrite bool_decide_eq_true_2.
      + rewrite n_neg_sel. rewrite <- (Rmult_1_l (IZR _)), <- rsum_const. apply rsum_map_ext. intros i Hi. unfold wt. rewrite bool_decide_eq_false_2; [done|]. by apply neg_not_pos.
    - f_equal; rewrite row_sum_sel; apply rsum_map_ext; intros i Hi; unfold wt; [by rewrite bool_decide_eq_true_2|].
      rewrite bool_decide_eq_false_2; [done|]. by apply neg_not_pos.
  Qed.

  (** discriminativity as a sum over pairs *)
  Definition hit (k p n : Z) : R := if decide (k ∈ py_set (row_of rows p) ∖ py_set (row_of rows n)) then 1%R else 0%R.

  Lemma count_sel P k : IZR (count_rows P rows y k) = rsum (map (fun i => if decide (k ∈ row_of rows i) then 1 else 0)%R (sel P y)).
  Proof.
    transitivity (row_sum (fun r : list Z => if decide (k ∈ r) then 1 else 0)%R P rows y); [|apply row_sum_sel]. unfold row_sum, count_rows. generalize (zip rows y). intros l.
    induction l as [|[r v] l IH]; [done|]. cbn [List.filter fst snd]. destruct (P v).
    - cbn [map fst]. rewrite rsum_cons. destruct (decide (k ∈ r)) as [Hk|Hk].
      + rewrite bool_decide_eq_true_2 by done. cbn [andb]. unfold zlen. cbn [length]. rewrite Nat2Z.inj_succ, succ_IZR. unfold zlen in IH. rewrite IH. lra.
      + rewrite bool_decide_eq_false_2 by done. cbn [andb]. rewrite IH. lra.
    - rewrite andb_false_r. exact IH.
  Qed.

  Lemma discrim_S2 k : IZR (discrim rows y k) = rsum (map (fun p => rsum (map (fun n => hit k p n) neg)) pos).
  Proof.
    clear HW Hrows. unfold discrim, supp_pos, supp_neg. rewrite mult_IZR, minus_IZR, !count_sel, n_neg_sel.
    change (sel (fun v => 0 <? v) y) with pos. change (sel (fun v => v =? 0) y) with neg.
    rewrite <- rsum_scal_r. apply rsum_map_ext. intros p _.
    rewrite <- (Rmult_1_l (IZR (zlen neg))), <- rsum_const. unfold Rminus.
    replace (- rsum (map (fun i => if decide (k ∈ row_of rows i) then 1 else 0) neg))%R with ((-1) * rsum (map (fun i => if decide (k ∈ row_of rows i) then 1 else 0) neg))%R by lra.
    rewrite <- rsum_scal, <- rsum_plus, <- rsum_scal. apply rsum_map_ext. intros n _. unfold hit, py_set.
    destruct (decide (k ∈ row_of rows p)), (decide (k ∈ row_of rows n)), (decide (k ∈ _ ∖ _)); try lra; exfalso; set_solver.
  Qed.

  Lemma hit_sum p n : 0 <= p < zlen rows -> rsum (map (fun k => hit k p n) (py_range (zlen space))) = IZR (pw rows p n).
  Proof.
    clear HW Hlen. intros Hp. destruct (row_facts p Hp) as (_ & Hr & _). unfold hit, pw.
    set (D := py_set (row_of rows p) ∖ py_set (row_of rows n)).
    assert (HD : forall k, k ∈ D -> k ∈ py_range (zlen space)).
    { intros k Hk. apply elem_of_py_range. apply Hr. unfold D, py_set in Hk. set_solver. }
    assert (Hgen : forall l : list Z, NoDup l -> rsum (map (fun k => if decide (k ∈ D) then 1%R else 0%R) l) = IZR (Z.of_nat (size (D ∩ list_to_set l)))).
    { clear. induction l as [|k l IH]; intros Hnd.
      - simpl. replace (D ∩ ∅) with (∅ : gset Z) by set_solver. rewrite size_empty. done.
      - inversion Hnd as [|? ? Hk Hnd']; subst. cbn [map]. rewrite rsum_cons, IH by done. rewrite list_to_set_cons.
        destruct (decide (k ∈ D)) as [HkD|HkD].
        + assert (E : D ∩ ({[k]} ∪ list_to_set l) = {[k]} ∪ D ∩ list_to_set l) by (apply set_eq; set_solver).
          assert (E2 : size ({[k]} ∪ D ∩ list_to_set l : gset Z) = (1 + size (D ∩ list_to_set l : gset Z))%nat).
          { rewrite size_union by set_solver. by rewrite size_singleton. }
          rewrite E, E2, Nat2Z.inj_add, plus_IZR. done.
        + assert (E : D ∩ ({[k]} ∪ list_to_set l) = D ∩ list_to_set l) by (apply set_eq; set_solver). rewrite E. lra. }
    rewrite Hgen by apply NoDup_py_range. do 3 f_equal. apply set_eq. intros k. rewrite elem_of_intersection, elem_of_list_to_set. naive_solver.
  Qed.

  Lemma total_discrim_eq : total_discrim (zlen space) rows y = total_weight (pw rows) pos neg.
  Proof.
    apply eq_IZR. unfold total_discrim. rewrite <- rsum_IZR. rewrite (rsum_map_ext _ _ _ (fun k _ => discrim_S2 k)).
    rewrite rsum_swap. unfold total_weight. rewrite <- rsum_IZR. apply rsum_map_ext. intros p Hp. rewrite rsum_swap, <- rsum_IZR. apply rsum_map_ext. intros n _.
    apply hit_sum. by apply pos_range.
  Qed.

  Lemma discrim_nonneg k : 0 <= discrim rows y k.
  Proof.
    apply le_IZR. rewrite discrim_S2. apply rsum_nonneg. intros p _. apply rsum_nonneg. intros n _. unfold hit. destruct (decide _); lra.
  Qed.

  Lemma discrim_pos k : 0 < discrim rows y k <-> exists p n, p ∈ pos /\ n ∈ neg /\ k ∈ row_of rows p /\ k ∉ row_of rows n.
  Proof.
    clear HW Hrows. assert (Hh : forall p n, (0 <= hit k p n)%R) by (intros; unfold hit; destruct (decide _); lra). split.
    - intros Hd. destruct (decide (Exists (fun p => Exists (fun n => k ∈ row_of rows p /\ k ∉ row_of rows n) neg) pos)) as [He|He].
      + apply list.Exists_exists in He as (p & Hp & He'). apply list.Exists_exists in He' as (n & Hn & Ha & Hb). exists p, n. done.
      + exfalso. apply IZR_lt in Hd. rewrite discrim_S2 in Hd.
        rewrite rsum_zero in Hd; [lra|]. intros p Hp. apply rsum_zero. intros n Hn. unfold hit. rewrite decide_False; [done|].
        intros Hk. apply He. apply list.Exists_exists. exists p. split; [done|]. apply list.Exists_exists. exists n. split; [done|]. unfold py_set in Hk. set_solver.
    - intros (p & n & Hp & Hn & Hkp & Hkn). apply lt_IZR. rewrite discrim_S2.
      destruct (Rle_lt_or_eq_dec 0 (rsum (map (fun p => rsum (map (fun n => hit k p n) neg)) pos))) as [H|H]; [|done|].
      { apply rsum_nonneg. intros. apply rsum_nonneg. auto. }
      exfalso. symmetry in H. apply (rsum_zero_iff _ _ p) in H; [|intros; apply rsum_nonneg; auto|done].
      apply (rsum_zero_iff _ _ n) in H; [|auto|done]. unfold hit in H. rewrite decide_True in H; [lra|]. unfold py_set. set_solver.
  Qed.
End cds.

Lemma cds_fit_inv ord prune alpha pd cache X y s : cds_fit ord prune alpha pd cache X y = Ok s -> fitted_rows X y s ->
  (forall i, 0 <= i < zlen (cds_rows s) -> cds_weights s !! i = Some (wt pd (zlen (cds_space s)) (cds_rows s) (pos_indices y) i)) /\
  cds_pos s = pos_indices y /\ cds_neg s = neg_indices y /\
  cftp_init (cds_weights s) (cds_weights s) (pos_indices y) (neg_indices y) (pair_weight (cds_rows s)) 1024 = Ok (cds_cftp s) /\
  dominated (cds_weights s) (cds_weights s) (pos_indices y) (neg_indices y) (pair_weight (cds_rows s)) (pw (cds_rows s)) /\
  length (cds_rows s) = length y.
Proof.
  unfold cds_fit. destruct (negb _); [done|].
  destruct (match cache with Some sr => Ok sr | None => _ end) as [[space rows]|] eqn:Ec; [|done]. cbn [rbind].
  destruct (compute_weight_dict pd (csr_rows X) space rows (pos_indices y)) as [Wd|] eqn:Ew; [|done]. cbn [rbind].
  destruct (cftp_init Wd Wd (pos_indices y) (neg_indices y) (pair_weight rows) 1024) as [c|] eqn:Ei; [|done]. cbn [rbind].
  intros [= <-] (Hy & Hr & Hs). cbn [cds_rows cds_space cds_weights cds_pos cds_neg cds_cftp] in *.
  assert (Hl : length rows = length y) by (unfold zlen in *; lia).
  destruct (cwd_ok pd space rows (pos_indices y)) as (W' & E & HW). rewrite Hr, Ew in E. injection E as <-.
  split_and!; try done. by eapply cds_dom.
Qed.

Lemma mass_pos_gen (Wd : gmap Z R) pos neg weight w : dominated Wd Wd pos neg weight w ->
  (exists p n, p ∈ pos /\ n ∈ neg /\ 0 < w p n) -> (0 < pmass Wd pos)%R /\ (0 < pmass Wd neg)%R.
Proof.
  intros Hdom (p & n & Hp & Hn & Hw). destruct (dom3 _ _ _ _ _ _ Hdom p n Hp Hn) as (_ & _ & Hle).
  destruct (dom1 _ _ _ _ _ _ Hdom p Hp) as [_ Ha]. destruct (dom2 _ _ _ _ _ _ Hdom n Hn) as [_ Hb]. apply IZR_lt in Hw.
  assert (Hpa : (0 < pweight Wd p)%R). { destruct (Req_dec (pweight Wd p) 0) as [E|]; [rewrite E in Hle; lra|lra]. }
  assert (Hpb : (0 < pweight Wd n)%R). { destruct (Req_dec (pweight Wd n) 0) as [E|]; [rewrite E in Hle; lra|lra]. }
  assert (Hgen : forall l x, (forall i, i ∈ l -> (0 <= pweight Wd i)%R) -> x ∈ l -> (0 < pweight Wd x)%R -> (0 < pmass Wd l)%R).
  { intros l x Hl Hx Hpos. unfold pmass. destruct (Rle_lt_or_eq_dec _ _ (rsum_nonneg (pweight Wd) l Hl)) as [?|E]; [done|].
    symmetry in E. apply (rsum_zero_iff _ _ x Hl) in E; [lra|done]. }
  split; [apply (Hgen _ p)|apply (Hgen _ n)]; try done; intros i Hi; [by apply (dom1 _ _ _ _ _ _ Hdom)|by apply (dom2 _ _ _ _ _ _ Hdom)].
Qed.

Lemma cds_mass_pos (Wd : gmap Z R) y rows : dominated Wd Wd (pos_indices y) (neg_indices y) (pair_weight rows) (pw rows) ->
  (exists p n, p ∈ pos_indices y /\ n ∈ neg_indices y /\ 0 < pw rows p n) -> (0 < pmass Wd (pos_indices y))%R /\ (0 < pmass Wd (neg_indices y))%R.
Proof. apply mass_pos_gen. Qed.

Lemma size_pos_ne (S : gset Z) : S <> ∅ -> (0 < size S)%nat.
Proof. intros H. destruct (size S) eqn:E; [|lia]. exfalso. apply H. apply size_empty_inv in E. by apply leibniz_equiv in E. Qed.

Lemma ord_diff_ne ord (S : gset Z) : set_order ord -> (0 < size S)%nat -> ord S <> [].
Proof.
  intros Ho Hs E. pose proof (Ho S) as Hp. rewrite E in Hp. apply Permutation_nil in Hp. apply elements_empty_inv in Hp.
  assert (size S = 0%nat); [|lia]. apply size_empty_iff. done.
Qed.

Lemma index_can ord prune alpha pd cache X y s o : set_order ord -> cds_fit ord prune alpha pd cache X y = Ok s -> fitted_rows X y s ->
  rcan (cds_sample_index ord s) o ->
  o = Ok None \/ exists p n k, o = Ok (Some k) /\ p ∈ pos_indices y /\ n ∈ neg_indices y /\ k ∈ row_of (cds_rows s) p /\ k ∉ row_of (cds_rows s) n.
Proof.
  intros Ho Hfit Hf Hcan. destruct (cds_fit_inv _ _ _ _ _ _ _ _ Hfit Hf) as (HW & Ep & En & Ei & Hdom & Hl).
  unfold cds_sample_index in Hcan. apply rcan_bind in Hcan as [(r & Hr & Hcan)|(e & He & ->)].
  2:{ apply (C32_usable_pair_proof _ _ _ _ _ _ _ _ _ Hdom Ei) in He as [?|(p & n & ? & _)]; done. }
  apply (C32_usable_pair_proof _ _ _ _ _ _ _ _ _ Hdom Ei) in Hr as [[= ->]|(p & n & [= ->] & Hp & Hn & Hw)]; [by left|]. right.
  pose proof (pos_range (cds_rows s) y Hl p Hp) as Hp'. pose proof (neg_range (cds_rows s) y Hl n Hn) as Hn'.
  destruct (row_of_ok _ _ Hp') as [E1 _], (row_of_ok _ _ Hn') as [E2 _]. rewrite E1, E2 in Hcan. cbn [rlift rrbind] in Hcan.
  assert (Hne : ord (py_set (row_of (cds_rows s) p) ∖ py_set (row_of (cds_rows s) n)) <> []).
  { apply ord_diff_ne; [done|]. unfold pw in Hw. lia. }
  apply rcan_bind in Hcan as [(k & Hk & Hcan)|(e & He & ->)].
  2:{ apply rcan_py_choice in He as (x & _ & ?); done. }
  apply rcan_py_choice in Hk as (x & Hx & [= <-]); [|done]. simpl in Hcan. subst o.
  exists p, n, k. rewrite (Ho _), elem_of_elements in Hx. unfold py_set in Hx. set_solver.
Qed.

Lemma C32_head_sample_proof : forall (ord : gset Z -> list Z) (prune : bool) (alpha : Qc) (pd : proposal)
    (cache : option (list (gset Z) * list (list Z))) (X : csr) (y : list Z) (s : cds) (o : result (option Z)) (o' : result (option (gset Z))),
  set_order ord -> cds_fit ord prune alpha pd cache X y = Ok s -> fitted_rows X y s ->
  (rcan (cds_sample_index ord s) o -> o = Ok None \/
     exists k p n rp rn, o = Ok (Some k) /\ is_pos y p /\ is_neg y n /\
       cds_rows s !! Z.to_nat p = Some rp /\ cds_rows s !! Z.to_nat n = Some rn /\ k ∈ rp /\ k ∉ rn) /\
  (rcan (cds_sample_once ord s) o' -> o' = Ok None \/
     exists k x p n rp rn, o' = Ok (Some x) /\ 0 <= k /\ cds_space s !! Z.to_nat k = Some x /\ is_pos y p /\ is_neg y n /\
       cds_rows s !! Z.to_nat p = Some rp /\ cds_rows s !! Z.to_nat n = Some rn /\ k ∈ rp /\ k ∉ rn).
Proof.
  intros ord prune alpha pd cache X y s o o' Ho Hfit Hf.
  destruct (cds_fit_inv _ _ _ _ _ _ _ _ Hfit Hf) as (HW & Ep & En & Ei & Hdom & Hl).
  assert (H : forall p n k, p ∈ pos_indices y -> n ∈ neg_indices y -> k ∈ row_of (cds_rows s) p -> k ∉ row_of (cds_rows s) n ->
    0 <= k < zlen (cds_space s) /\ exists rp rn, is_pos y p /\ is_neg y n /\ cds_rows s !! Z.to_nat p = Some rp /\ cds_rows s !! Z.to_nat n = Some rn /\ k ∈ rp /\ k ∉ rn).
  { intros p n k Hp Hn Hkp Hkn. pose proof (pos_range (cds_rows s) y Hl p Hp) as Hp'. pose proof (neg_range (cds_rows s) y Hl n Hn) as Hn'.
    destruct (row_of_ok _ _ Hp') as [_ Hin]. destruct Hf as (_ & _ & Hs). split; [by apply (Hs _ Hin)|].
    destruct (py_index_in_range _ _ Hp') as (rp & _ & Erp), (py_index_in_range _ _ Hn') as (rn & _ & Ern).
    assert (is_pos y p). { rewrite pos_sel, elem_of_sel in Hp. destruct Hp as (? & v & Ev & Hv). split; [done|]. exists v. split; [done|]. by apply Z.ltb_lt. }
    assert (is_neg y n). { rewrite neg_sel, elem_of_sel in Hn. destruct Hn as (? & v & Ev & Hv). split; [done|]. rewrite Ev. f_equal. by apply Z.eqb_eq. }
    unfold row_of in *. rewrite Erp in Hkp. rewrite Ern in Hkn. simpl in *. exists rp, rn. done. }
  split.
  - intros Hcan. eapply index_can in Hcan as [->|(p & n & k & -> & Hp & Hn & Hkp & Hkn)]; [by left| |done..]. right.
    destruct (H p n k Hp Hn Hkp Hkn) as (_ & rp & rn & Hall). exists k, p, n, rp, rn. split; [done|exact Hall].
  - intros Hcan. unfold cds_sample_once in Hcan. apply rcan_bind in Hcan as [(k0 & Hk0 & Hcan)|(e & He & ->)].
    2:{ eapply index_can in He as [?|(p & n & k & ? & _)]; done. }
    eapply index_can in Hk0 as [[= ->]|(p & n & k & [= ->] & Hp & Hn & Hkp & Hkn)]; [by left| |done..]. right.
    destruct (H p n k Hp Hn Hkp Hkn) as (Hk & rp & rn & Hall). destruct (py_index_in_range _ _ Hk) as (x & Ex & Ex').
    rewrite Ex in Hcan. simpl in Hcan. exists k, x, p, n, rp, rn. split_and!; try done; try apply Hall. lia.
Qed.


Lemma C32_fresh_fit_proof : forall (ord : gset Z -> list Z) (prune : bool) (alpha : Qc) (pd : proposal) (X : csr) (y : list Z),
  set_order ord -> wf_cmat (csr_mat X) = true -> binary (csr_mat X) -> zlen y = csr_rows X -> (forall v, v ∈ y <-> v = 0 \/ v = 1) ->
  exists s, cds_fit ord prune alpha pd None X y = Ok s /\ fitted_rows X y s /\
    forall x, rcan (cds_sample_once ord s) (Ok (Some x)) ->
      x ∈ cds_space s /\ x <> ∅ /\ exists p n, is_pos y p /\ is_neg y n /\
        (forall a, a ∈ x -> csr_has X p a) /\ ~ (forall a, a ∈ x -> csr_has X n a).
Proof.
  intros ord prune alpha pd X y Ho Hwf Hb Hy Hset.
  destruct (C25_sample_space_proof ord X prune alpha DfsV2 Ho Hwf Hb ltac:(done)) as (g & space & Eg & Es & Hnd & Hemp & _ & Hr & _).
  destruct (pretti_rows_ok ord space X Ho Hwf Hb Hr) as (rows & Er & Hlen & Hval & Hrows).
  destruct (cwd_ok pd space rows (pos_indices y)) as (Wd & Ew & HW).
  assert (Hl : length rows = length y) by (unfold zlen in *; lia).
  assert (Hsr : sample_rows (zlen space) rows).
  { intros r Hin. split.
    - apply elem_of_list_lookup in Hin as [i Hi]. apply (Hrows (Z.of_nat i) r); [lia|by rewrite Nat2Z.id].
    - intros k Hk. by apply (Hval r). }
  pose proof (cds_dom pd space rows y Wd Hsr Hl HW) as Hdom.
  set (c := the_cftp Wd Wd (pos_indices y) (neg_indices y) (pair_weight rows) 1024 (pweight Wd) (pweight Wd)).
  set (s := CDS space rows (pos_indices y) (neg_indices y) Wd c).
  assert (Hfit : cds_fit ord prune alpha pd None X y = Ok s).
  { unfold cds_fit. rewrite bool_decide_eq_true_2.
    2:{ apply set_eq. intros v. unfold py_set. rewrite elem_of_list_to_set, Hset. set_solver. }
    cbn [negb]. rewrite Eg. cbn [rbind]. rewrite Es. cbn [rbind]. rewrite Er. cbn [rbind]. rewrite <- Hlen, Ew. cbn [rbind].
    rewrite (init_ok Wd Wd (pos_indices y) (neg_indices y) (pair_weight rows) 1024 (pweight Wd) (pweight Wd) (dom1 _ _ _ _ _ _ Hdom) (dom2 _ _ _ _ _ _ Hdom)).
    done. }
  assert (Hf : fitted_rows X y s) by (split_and!; done).
  exists s. split; [done|]. split; [done|]. intros x Hx.
  destruct (C32_head_sample_proof ord prune alpha pd None X y s (Ok None) (Ok (Some x)) Ho Hfit Hf) as [_ H].
  destruct (H Hx) as [?|(k & x' & p & n & rp & rn & [= <-] & Hk & Exk & Hp & Hn & Erp & Ern & Hkp & Hkn)]; [done|]. simpl in *.
  assert (Hxin : x ∈ space) by (by eapply elem_of_list_lookup_2). split; [done|]. split; [by intros ->|].
  exists p, n. split; [done|]. split; [done|]. destruct Hp as [Hp0 _], Hn as [Hn0 _]. split.
  - apply (proj2 (Hrows p rp Hp0 Erp)) in Hkp as (_ & x' & Ex' & Ha). assert (x' = x) by congruence. by subst.
  - intros Ha. apply Hkn, (proj2 (Hrows n rn Hn0 Ern)). split; [done|]. eauto.
Qed.


Lemma C35_dominates_proof : forall (ord : gset Z -> list Z) (prune : bool) (alpha : Qc) (pd : proposal)
    (cache : option (list (gset Z) * list (list Z))) (X : csr) (y : list Z) (s : cds) (p n : Z),
  cds_fit ord prune alpha pd cache X y = Ok s -> fitted_rows X y s -> is_pos y p -> is_neg y n ->
  exists (a b : R) (rp rn : list Z), cds_weights s !! p = Some a /\ cds_weights s !! n = Some b /\ (0 <= a)%R /\ (0 <= b)%R /\
    cds_rows s !! Z.to_nat p = Some rp /\ cds_rows s !! Z.to_nat n = Some rn /\
    let diff := IZR (zlen (List.filter (fun k => bool_decide (k ∉ rn)) rp)) in
    pair_weight (cds_rows s) p n = Ok (zlen (List.filter (fun k => bool_decide (k ∉ rn)) rp)) /\
    (diff <= a * b)%R /\ ((0 < a * b)%R -> (diff * 1 / (a * b * 1) <= 1)%R).
Proof.
  intros ord prune alpha pd cache X y s p n Hfit Hf Hp Hn.
  destruct (cds_fit_inv _ _ _ _ _ _ _ _ Hfit Hf) as (HW & Ep & En & Ei & Hdom & Hl).
  assert (Hp' : p ∈ pos_indices y). { rewrite pos_sel, elem_of_sel. destruct Hp as (? & v & ? & ?). split; [done|]. exists v. split; [done|]. by apply Z.ltb_lt. }
  assert (Hn' : n ∈ neg_indices y). { rewrite neg_sel, elem_of_sel. destruct Hn as (? & ?). split; [done|]. exists 0. done. }
  pose proof (pos_range (cds_rows s) y Hl p Hp') as Hpr. pose proof (neg_range (cds_rows s) y Hl n Hn') as Hnr.
  destruct (dom1 _ _ _ _ _ _ Hdom p Hp') as [Ea Ha]. destruct (dom2 _ _ _ _ _ _ Hdom n Hn') as [Eb Hb].
  destruct (dom3 _ _ _ _ _ _ Hdom p n Hp' Hn') as (Ew & Hw0 & Hw).
  destruct (py_index_in_range _ _ Hpr) as (rp & _ & Erp), (py_index_in_range _ _ Hnr) as (rn & _ & Ern).
  exists (pweight (cds_weights s) p), (pweight (cds_weights s) n), rp, rn.
  assert (Hd : pw (cds_rows s) p n = zlen (List.filter (fun k => bool_decide (k ∉ rn)) rp)).
  { unfold pw, row_of. rewrite Erp, Ern. simpl. destruct Hf as (_ & _ & Hs). destruct (Hs rp) as [Hnd _]; [by eapply elem_of_list_lookup_2|].
    assert (Hndf : NoDup (List.filter (fun k => bool_decide (k ∉ rn)) rp)).
    { clear -Hnd. induction Hnd as [|k l Hk Hnd IH]; simpl; [constructor|]. destruct (bool_decide (k ∉ rn)); [|done]. constructor; [|done].
      intros Hin. apply elem_of_list_In, filter_In in Hin as [Hin _]. apply Hk. by apply elem_of_list_In. }
    rewrite <- size_py_set by done. do 2 f_equal. apply set_eq. intros k. unfold py_set. rewrite elem_of_difference, !elem_of_list_to_set.
    rewrite (elem_of_list_In (List.filter _ _)), filter_In, <- elem_of_list_In, bool_decide_eq_true. done. }
  cbn zeta. rewrite <- Hd. split_and!; try done.
  intros Hpos. rewrite !Rmult_1_r. apply (Rmult_le_reg_r (pweight (cds_weights s) p * pweight (cds_weights s) n)); [done|].
  unfold Rdiv. rewrite Rmult_assoc, Rinv_l by lra. lra.
Qed.


Lemma head_law_gen (N : nat) (HN : horizon 1024 (Z.of_nat N)) : forall (ord : gset Z -> list Z) (prune : bool) (alpha : Qc) (pd : proposal)
    (cache : option (list (gset Z) * list (list Z))) (X : csr) (y : list Z) (s : cds),
  set_order ord -> cds_fit ord prune alpha pd cache X y = Ok s -> fitted_rows X y s ->
  let total := total_discrim (zlen (cds_space s)) (cds_rows s) y in
  let q := (IZR total / proposal_total pd (zlen (cds_space s)) (cds_rows s) y)%R in
  (total = 0 -> forall o, rcan (cds_sample_index ord s) o -> o = Ok None) /\
  (0 < total -> (0 < q <= 1)%R /\
     (forall k, hprob (cds_sample_index ord s) (Ok (Some k)) (IZR (discrim (cds_rows s) y k) / IZR total * (1 - (1 - q) ^ N))) /\
     hprob (cds_sample_index ord s) (Ok None) ((1 - q) ^ N)).
Proof.
  intros ord prune alpha pd cache X y s Ho Hfit Hf total q.
  destruct (cds_fit_inv _ _ _ _ _ _ _ _ Hfit Hf) as (HW & Ep & En & Ei & Hdom & Hl). destruct Hf as (Hf1 & Hf2 & Hs).
  assert (Htot : total = total_weight (pw (cds_rows s)) (pos_indices y) (neg_indices y)) by (by apply (total_discrim_eq (cds_space s))).
  assert (Hw0 : forall p n, 0 <= pw (cds_rows s) p n) by (intros; unfold pw; lia).
  assert (Hcase : total = 0 \/ exists p n, p ∈ pos_indices y /\ n ∈ neg_indices y /\ 0 < pw (cds_rows s) p n).
  { destruct (decide (Exists (fun p => Exists (fun n => 0 < pw (cds_rows s) p n) (neg_indices y)) (pos_indices y))) as [He|He].
    - right. apply list.Exists_exists in He as (p & Hp & He'). apply list.Exists_exists in He' as (n & Hn & Hpn). eauto.
    - left. apply eq_IZR. rewrite Htot. unfold total_weight. rewrite <- rsum_IZR. apply rsum_zero. intros p Hp. rewrite <- rsum_IZR. apply rsum_zero. intros n Hn.
      pose proof (Hw0 p n). assert (E : pw (cds_rows s) p n = 0); [|by rewrite E]. destruct (Z.eq_dec (pw (cds_rows s) p n) 0); [done|]. exfalso. apply He.
      apply list.Exists_exists. exists p. split; [done|]. apply list.Exists_exists. exists n. split; [done|]. lia. }
  assert (Hposs : 0 < total -> exists p n, p ∈ pos_indices y /\ n ∈ neg_indices y /\ 0 < pw (cds_rows s) p n) by (intros; destruct Hcase; [lia|done]).
  assert (Htp : forall p n, p ∈ pos_indices y -> n ∈ neg_indices y -> 0 < pw (cds_rows s) p n -> total <> 0).
  { intros p n Hp Hn Hpn Hz. rewrite Htot in Hz. apply (f_equal IZR) in Hz. unfold total_weight in Hz. rewrite <- rsum_IZR in Hz.
    apply (rsum_zero_iff _ _ p) in Hz; [| |done].
    2:{ intros. rewrite <- rsum_IZR. apply rsum_nonneg. intros. by apply (IZR_le 0). }
    cbn beta in Hz. rewrite <- rsum_IZR in Hz. apply (rsum_zero_iff _ _ n) in Hz; [|intros; by apply (IZR_le 0)|done]. apply (eq_IZR _ 0) in Hz. lia. }
  split.
  - intros Hz o Hcan. eapply index_can in Hcan as [->|(p & n & k & -> & Hp & Hn & Hkp & Hkn)]; [done| |done|done|split_and!; done].
    exfalso. apply (Htp p n Hp Hn); [|done]. unfold pw.
    assert (py_set (row_of (cds_rows s) p) ∖ py_set (row_of (cds_rows s) n) <> ∅) as Hne by (unfold py_set; set_solver).
    apply size_pos_ne in Hne. lia.
  - intros Ht. destruct (cds_mass_pos _ _ _ Hdom (Hposs Ht)) as [Hsp Hsn].
    assert (Hq : q = accept_mass (cds_weights s) (cds_weights s) (pos_indices y) (neg_indices y) (pw (cds_rows s))).
    { unfold q, accept_mass. rewrite <- Htot. f_equal. symmetry. by apply (proposal_mass pd (cds_space s) (cds_rows s) y). }
    destruct (C34_exact_proof _ _ _ _ _ _ _ 10 _ Hdom Ei (NoDup_sel (fun v => 0 <? v) _) (NoDup_sel (fun v => v =? 0) _) Hsp Hsn ltac:(lia) ltac:(done)) as (Hq01 & _ & _).
    rewrite <- Hq in Hq01.
    assert (Hqpos : (0 < q)%R).
    { destruct (Req_dec q 0) as [E|]; [|lra]. exfalso. unfold q in E. pose proof (proposal_mass pd (cds_space s) (cds_rows s) y (cds_weights s) Hl HW) as Hpm.
      pose proof (Rmult_lt_0_compat _ _ Hsp Hsn) as Hpp. rewrite Hpm in Hpp. apply IZR_lt in Ht. pose proof (Rdiv_lt_0_compat _ _ Ht Hpp). lra. }
    split; [lra|].
    (* general expectation *)
    assert (HE : forall F, hexpect F (cftp_draw (cds_cftp s) false) ((1 - q) ^ N * F (Ok (RetPair None)) +
        S2 (pos_indices y) (neg_indices y) (fun c => (1 - (1 - q) ^ N) * (W (pw (cds_rows s)) c / IZR total) * F (Ok (RetPair (Some c)))))%R).
    { intros F. pose proof (draw_expect _ _ _ _ _ _ _ _ Hdom Ei Hsp Hsn (Z.of_nat N) F HN) as E.
      unfold Law in E. rewrite Nat2Z.id in E. rewrite acc_mass, total_S2, <- Hq, <- Htot in E. exact E. }
    assert (Hgen : forall (f : result (option Z) -> R), hexpect f (cds_sample_index ord s) ((1 - q) ^ N * f (Ok None) +
        S2 (pos_indices y) (neg_indices y) (fun c => (1 - (1 - q) ^ N) * (W (pw (cds_rows s)) c / IZR total) *
          (rsum (map (fun k => f (Ok (Some k))) (ord (py_set (row_of (cds_rows s) c.1) ∖ py_set (row_of (cds_rows s) c.2)))) / W (pw (cds_rows s)) c)))%R).
    { intros f. set (F := fun o : result sample_ret => match o with
         | Ok (RetPair None) => f (Ok None)
         | Ok (RetPair (Some c)) => (rsum (map (fun k => f (Ok (Some k))) (ord (py_set (row_of (cds_rows s) c.1) ∖ py_set (row_of (cds_rows s) c.2)))) / W (pw (cds_rows s)) c)%R
         | Ok (RetDetails _ _) => 0%R | Err e => f (Err e) end).
      unfold cds_sample_index. apply (hbind _ _ _ F); [apply (HE F)| |].
      - intros r Hr. apply (C32_usable_pair_proof _ _ _ _ _ _ _ _ _ Hdom Ei) in Hr as [[= ->]|(p & n & [= ->] & Hp & Hn & Hw)]; [constructor|].
        pose proof (pos_range (cds_rows s) y Hl p Hp) as Hp'. pose proof (neg_range (cds_rows s) y Hl n Hn) as Hn'.
        destruct (row_of_ok _ _ Hp') as [-> _], (row_of_ok _ _ Hn') as [-> _]. cbn [rlift rrbind F fst snd].
        set (S := py_set (row_of (cds_rows s) p) ∖ py_set (row_of (cds_rows s) n)).
        assert (Hne : ord S <> []). { apply ord_diff_ne; [done|]. unfold pw in Hw. fold S in Hw. lia. }
        apply (hbind _ _ _ (fun o => match o with Ok k => f (Ok (Some k)) | Err e => f (Err e) end)).
        + replace (W (pw (cds_rows s)) (p, n)) with (IZR (zlen (ord S))); [apply (py_choice_expect (ord S) (fun o => match o with Ok k => f (Ok (Some k)) | Err e => f (Err e) end)); done|].
          unfold W, pw. simpl. fold S. unfold zlen. rewrite (Permutation_length (Ho S)). done.
        + intros k _. constructor.
        + intros e _. done.
      - intros e _. done. }
    split.
    + intros k. unfold hprob. set (f := fun o : result (option Z) => _).
      replace (IZR (discrim (cds_rows s) y k) / IZR total * (1 - (1 - q) ^ N))%R with
        ((1 - q) ^ N * f (Ok None) + S2 (pos_indices y) (neg_indices y) (fun c => (1 - (1 - q) ^ N) * (W (pw (cds_rows s)) c / IZR total) *
          (rsum (map (fun k => f (Ok (Some k))) (ord (py_set (row_of (cds_rows s) c.1) ∖ py_set (row_of (cds_rows s) c.2)))) / W (pw (cds_rows s)) c)))%R; [apply Hgen|].
      assert (f (Ok None) = 0%R) as -> by (unfold f; by rewrite decide_False). rewrite Rmult_0_r, Rplus_0_l.
      rewrite discrim_S2 by done.
      transitivity (S2 (pos_indices y) (neg_indices y) (fun c => hit (cds_rows s) k c.1 c.2) * (/ IZR total * (1 - (1 - q) ^ N)))%R;
        [|unfold S2, Rdiv; cbn [fst snd]; ring].
      rewrite <- S2_scal_r. apply S2_ext. intros [p n] [Hp Hn]. cbn [fst snd] in *.
      set (S := py_set (row_of (cds_rows s) p) ∖ py_set (row_of (cds_rows s) n)).
      assert (Hsum : rsum (map (fun k' => f (Ok (Some k'))) (ord S)) = hit (cds_rows s) k p n).
      { unfold hit. fold S. assert (HndS : NoDup (ord S)) by (rewrite (Ho S); apply NoDup_elements).
        destruct (decide (k ∈ S)) as [Hk|Hk].
        - rewrite (rsum_map_ext _ (fun k' => 1 * (if decide (k' = k) then 1 else 0))%R).
          + apply (rsum_indicator (fun _ => 1%R)); [done|]. rewrite (Ho S). by apply elem_of_elements.
          + intros k' _. unfold f. rewrite Rmult_1_l. destruct (decide (k' = k)) as [->|]; [by rewrite decide_True|]. rewrite decide_False; [done|]. congruence.
        - apply rsum_zero. intros k' Hk'. unfold f. rewrite decide_False; [done|]. intros [= ->]. apply Hk. rewrite (Ho S) in Hk'. by apply elem_of_elements. }
      rewrite Hsum. unfold hit. fold S. destruct (decide (k ∈ S)) as [Hk|Hk]; [|unfold Rdiv; ring].
      assert (Hwp : (0 < W (pw (cds_rows s)) (p, n))%R).
      { unfold W, pw. simpl. fold S. apply (IZR_lt 0). assert (S <> ∅) as HneS by set_solver. apply size_pos_ne in HneS. lia. }
      apply IZR_lt in Ht. field. split; lra.
    + unfold hprob. set (f := fun o : result (option Z) => _).
      replace ((1 - q) ^ N)%R with
        ((1 - q) ^ N * f (Ok None) + S2 (pos_indices y) (neg_indices y) (fun c => (1 - (1 - q) ^ N) * (W (pw (cds_rows s)) c / IZR total) *
          (rsum (map (fun k => f (Ok (Some k))) (ord (py_set (row_of (cds_rows s) c.1) ∖ py_set (row_of (cds_rows s) c.2)))) / W (pw (cds_rows s)) c)))%R; [apply Hgen|].
      assert (f (Ok None) = 1%R) as -> by (unfold f; by rewrite decide_True).
      rewrite (S2_ext _ _ _ (fun _ => 0 * 0)%R); [rewrite S2_scal; ring|].
      intros c _. rewrite rsum_zero; [unfold Rdiv; ring|]. intros k _. unfold f. by rewrite decide_False.
Qed.

Lemma C36_head_law_proof : forall (ord : gset Z -> list Z) (prune : bool) (alpha : Qc) (pd : proposal)
    (cache : option (list (gset Z) * list (list Z))) (X : csr) (y : list Z) (s : cds),
  set_order ord -> cds_fit ord prune alpha pd cache X y = Ok s -> fitted_rows X y s ->
  let total := total_discrim (zlen (cds_space s)) (cds_rows s) y in
  let q := (IZR total / proposal_total pd (zlen (cds_space s)) (cds_rows s) y)%R in
  (total = 0 -> forall o, rcan (cds_sample_index ord s) o -> o = Ok None) /\
  (0 < total -> (0 < q <= 1)%R /\
     (forall k, hprob (cds_sample_index ord s) (Ok (Some k)) (IZR (discrim (cds_rows s) y k) / IZR total * (1 - (1 - q) ^ 1024))) /\
     hprob (cds_sample_index ord s) (Ok None) ((1 - q) ^ 1024)).
Proof.
  apply head_law_gen. right. exists 10. split; [lia|]. split; [vm_compute; reflexivity|lia].
Qed.


(** ** ground truth *)

Lemma rsum_perm l l' : l ≡ₚ l' -> rsum l = rsum l'.
Proof. induction 1 as [|x l l' _ IH|x y l|l l' l'' _ IH1 _ IH2]; rewrite ?rsum_cons; [done|by rewrite IH|lra|by rewrite IH1]. Qed.

Section ratio_map.
  Context {Kt : Type} `{Countable Kt}.

  Lemma ratio_fold (total : Z) (l : list (Kt * Z)) : total <> 0 -> NoDup l.*1 -> forall m : gmap Kt R,
    exists m', rfold (fun m kv => let! q := py_div (snd kv) total in Ok (<[fst kv := q]> m)) m l = Ok m' /\
      forall k, m' !! k = match (list_to_map l : gmap Kt Z) !! k with Some v => Some (IZR v / IZR total)%R | None => m !! k end.
  Proof.
    intros Ht. induction l as [|[k v] l IH]; intros Hnd m.
    - exists m. split; [done|]. intros k. by rewrite list_to_map_nil, lookup_empty.
    - inversion Hnd as [|? ? Hk Hnd']; subst. cbn [rfold fst snd]. unfold py_div at 1. destruct (Z.eqb_spec total 0); [done|]. cbn [rbind].
      destruct (IH Hnd' (<[k := (IZR v / IZR total)%R]> m)) as (m' & E & Hm'). exists m'. split; [exact E|].
      intros k'. rewrite Hm'. simpl. destruct (decide (k' = k)) as [->|Hne].
      + rewrite lookup_insert. assert ((list_to_map l : gmap Kt Z) !! k = None) as -> by (apply not_elem_of_list_to_map_1; exact Hk). by rewrite lookup_insert.
      + rewrite !lookup_insert_ne by done. done.
  Qed.

  Lemma ratio_map (total : Z) (d : gmap Kt Z) : total <> 0 ->
    rfold (fun m kv => let! q := py_div (snd kv) total in Ok (<[fst kv := q]> m)) (∅ : gmap Kt R) (map_to_list d)
    = Ok ((fun v => IZR v / IZR total)%R <$> d).
  Proof.
    intros Ht. destruct (ratio_fold total (map_to_list d) Ht (NoDup_fst_map_to_list d) ∅) as (m' & -> & Hm). f_equal. apply map_eq. intros k.
    rewrite Hm, list_to_map_to_list, lookup_fmap, lookup_empty. by destruct (d !! k).
  Qed.

  Lemma ratio_map_zero (d : gmap Kt Z) (k : Kt) v : d !! k = Some v ->
    rfold (fun m kv => let! q := py_div (snd kv) 0 in Ok (<[fst kv := q]> m)) (∅ : gmap Kt R) (map_to_list d) = Err ZeroDivisionError.
  Proof.
    intros Hk. apply elem_of_map_to_list in Hk. destruct (map_to_list d) as [|kv l]; [inversion Hk|]. done.
  Qed.

  Lemma ratio_sum (total : Z) (d : gmap Kt Z) : total <> 0 -> zsum (map snd (map_to_list d)) = total ->
    rsum (map snd (map_to_list ((fun v => IZR v / IZR total)%R <$> d))) = 1%R.
  Proof.
    intros Ht Hs. rewrite (rsum_perm _ (map snd (map (prod_map Datatypes.id (λ v : Z, (IZR v / IZR total)%R)) (map_to_list d : list (Kt * Z))))) by (apply Permutation_map, map_to_list_fmap).
    rewrite map_map. cbn [snd prod_map].
    rewrite (rsum_map_ext _ (fun kv : Kt * Z => IZR (snd kv) * / IZR total)%R) by (intros [k v] _; done).
    rewrite rsum_scal_r, rsum_IZR, Hs. apply Rinv_r. intros E. apply Ht. by apply (eq_IZR _ 0).
  Qed.

  Lemma map_sum_range (d : gmap Kt Z) (l : list Kt) : NoDup l -> (forall k, is_Some (d !! k) -> k ∈ l) ->
    zsum (map snd (map_to_list d)) = zsum (map (fun k => default 0 (d !! k)) l).
  Proof.
    intros Hnd. induction d as [|k v d Hk IH] using map_ind; intros Hin.
    - rewrite map_to_list_empty. clear. induction l as [|x l IH]; [done|]. simpl. rewrite lookup_empty. simpl. simpl in IH. lia.
    - rewrite (zsum_perm _ (map snd ((k, v) :: map_to_list d))) by (apply Permutation_map, map_to_list_insert; done).
      cbn [map snd]. change (zsum (v :: map snd (map_to_list d))) with (v + zsum (map snd (map_to_list d))). rewrite IH.
      2:{ intros k' [v' Hk']. apply Hin. destruct (decide (k' = k)) as [->|]; [by rewrite lookup_insert|]. rewrite lookup_insert_ne by done. eauto. }
      assert (Hkl : k ∈ l) by (apply Hin; rewrite lookup_insert; eauto). clear IH Hin.
      induction Hnd as [|x l Hx Hnd IH]; [inversion Hkl|]. cbn [map]. 
      change (zsum (default 0 (d !! x) :: map (λ k0, default 0 (d !! k0)) l)) with (default 0 (d !! x) + zsum (map (λ k0, default 0 (d !! k0)) l)).
      change (zsum (default 0 (<[k:=v]> d !! x) :: map (λ k0, default 0 (<[k:=v]> d !! k0)) l)) with (default 0 (<[k:=v]> d !! x) + zsum (map (λ k0, default 0 (<[k:=v]> d !! k0)) l)).
      apply elem_of_cons in Hkl as [->|Hkl].
      + rewrite lookup_insert, Hk. simpl.
        assert (E : map (fun k0 => default 0 (<[x:=v]> d !! k0)) l = map (fun k0 => default 0 (d !! k0)) l).
        { apply map_ext_in. intros k' Hk'. apply elem_of_list_In in Hk'. rewrite lookup_insert_ne; [done|]. intros ->. done. }
        rewrite E. lia.
      + rewrite lookup_insert_ne by (intros ->; done). rewrite <- IH by done. lia.
  Qed.
End ratio_map.

Definition hitz (rows : list (list Z)) (k p n : Z) : Z := if decide (k ∈ py_set (row_of rows p) ∖ py_set (row_of rows n)) then 1 else 0.

Lemma elem_of_pn_pairs s p n : (p, n) ∈ pn_pairs s <-> p ∈ cds_pos s /\ n ∈ cds_neg s.
Proof.
  unfold pn_pairs. rewrite elem_of_list_In, in_concat. split.
  - intros (l & Hl & Hpn). apply in_map_iff in Hl as (p' & <- & Hp). apply in_map_iff in Hpn as (n' & [= -> ->] & Hn). by rewrite !elem_of_list_In.
  - intros [Hp Hn]. apply elem_of_list_In in Hp, Hn. exists (map (pair p) (cds_neg s)). split; [apply in_map_iff; by exists p|by apply in_map].
Qed.

Lemma pn_pairs_sum (f : Z -> Z -> Z) s : zsum (map (fun pn => f pn.1 pn.2) (pn_pairs s)) = zsum (map (fun p => zsum (map (f p) (cds_neg s))) (cds_pos s)).
Proof.
  unfold pn_pairs. induction (cds_pos s) as [|p l IH]; [done|]. cbn [map concat]. rewrite map_app, zsum_app, IH, map_map. done.
Qed.

Lemma NoDup_pn_pairs s : NoDup (cds_pos s) -> NoDup (cds_neg s) -> NoDup (pn_pairs s).
Proof.
  intros Hp Hn. unfold pn_pairs. induction Hp as [|p l Hx Hp IH]; [constructor|]. cbn [map concat]. apply NoDup_app. split_and!; [|..|done].
  - apply (NoDup_fmap_2 (pair p)). done.
  - intros [p' n] Hin Hin'. apply elem_of_map in Hin as (n' & [= -> ->] & _).
    apply elem_of_list_In, in_concat in Hin' as (l' & Hl' & Hin'). apply in_map_iff in Hl' as (p'' & <- & Hp''). apply in_map_iff in Hin' as (? & [= -> ->] & _).
    apply Hx. by apply elem_of_list_In.
Qed.

Lemma count_inner {Kt} `{Countable Kt} (l : list Kt) : NoDup l -> forall d : gmap Kt Z, forall k,
  fold_left (fun d k => <[k := match d !! k with Some c => c + 1 | None => 1 end]> d) l d !! k
  = if decide (k ∈ l) then Some (default 0 (d !! k) + 1) else d !! k.
Proof.
  induction 1 as [|x l Hx Hnd IH]; intros d k; [done|]. cbn [fold_left]. rewrite IH.
  destruct (decide (k = x)) as [->|Hne].
  - rewrite (decide_False (P := x ∈ l)) by done. rewrite decide_True by left. rewrite lookup_insert. f_equal. by destruct (d !! x).
  - rewrite lookup_insert_ne by done. destruct (decide (k ∈ l)) as [Hk|Hk].
    + rewrite decide_True by (by right). done.
    + rewrite decide_False; [done|]. intros Hc. apply elem_of_cons in Hc as [?|?]; done.
Qed.

Lemma count_outer ord rows : set_order ord -> forall (prs : list (Z * Z)) (d : gmap Z Z),
  (forall p n, (p, n) ∈ prs -> (0 <= p < zlen rows) /\ (0 <= n < zlen rows)) ->
  (forall k v, d !! k = Some v -> 0 < v) ->
  exists d', rfold (fun d pn => let! rp := py_index rows (fst pn) in let! rn := py_index rows (snd pn) in
      Ok (fold_left (fun d k => <[k := match d !! k with Some c => c + 1 | None => 1 end]> d) (ord (py_set rp ∖ py_set rn)) d)) d prs = Ok d' /\
    (forall k v, d' !! k = Some v -> 0 < v) /\
    forall k, default 0 (d' !! k) = default 0 (d !! k) + zsum (map (fun pn => hitz rows k pn.1 pn.2) prs).
Proof.
  intros Ho. induction prs as [|[p n] prs IH]; intros d Hr Hpos.
  - exists d. split_and!; [done|done|]. intros k. simpl. lia.
  - destruct (Hr p n ltac:(left)) as [Hp Hn]. cbn [rfold fst snd]. destruct (row_of_ok rows p Hp) as [-> _], (row_of_ok rows n Hn) as [-> _]. cbn [rbind].
    set (S := py_set (row_of rows p) ∖ py_set (row_of rows n)).
    set (d1 := fold_left _ (ord S) d).
    assert (Hd1 : forall k, d1 !! k = if decide (k ∈ S) then Some (default 0 (d !! k) + 1) else d !! k).
    { intros k. unfold d1. rewrite count_inner by (rewrite (Ho S); apply NoDup_elements).
      destruct (decide (k ∈ ord S)) as [Hk|Hk]; rewrite (Ho S), elem_of_elements in Hk; [by rewrite decide_True|by rewrite decide_False]. }
    assert (Hnn : forall k, 0 <= default 0 (d !! k)).
    { intros k. destruct (d !! k) as [v|] eqn:E; simpl; [|lia]. apply Hpos in E. lia. }
    destruct (IH d1) as (d' & E & Hpos' & Hd').
    { intros p' n' Hin. apply Hr. by right. }
    { intros k v. rewrite Hd1. destruct (decide (k ∈ S)); [intros [= <-]; specialize (Hnn k); lia|apply Hpos]. }
    exists d'. split_and!; [exact E|done|]. intros k. rewrite Hd', Hd1. cbn [map fst snd].
    change (zsum (hitz rows k p n :: map (fun pn => hitz rows k pn.1 pn.2) prs)) with (hitz rows k p n + zsum (map (fun pn => hitz rows k pn.1 pn.2) prs)).
    unfold hitz at 2. fold S. destruct (decide (k ∈ S)); simpl; lia.
Qed.

Lemma pairs_fold rows : forall (prs : list (Z * Z)) (d : gmap (Z * Z) Z) t,
  (forall p n, (p, n) ∈ prs -> (0 <= p < zlen rows) /\ (0 <= n < zlen rows)) ->
  exists d', rfold (fun dt pn => let! cnt := pair_weight rows (fst pn) (snd pn) in Ok (<[pn := cnt]> (fst dt), snd dt + cnt)) (d, t) prs
      = Ok (d', t + zsum (map (fun pn => pw rows pn.1 pn.2) prs)) /\
    forall pn, d' !! pn = if decide (pn ∈ prs) then Some (pw rows pn.1 pn.2) else d !! pn.
Proof.
  induction prs as [|[p n] prs IH]; intros d t Hr.
  - exists d. split; [simpl; do 2 f_equal; lia|]. intros pn. by rewrite decide_False by (intros H; inversion H).
  - destruct (Hr p n ltac:(left)) as [Hp Hn]. cbn [rfold fst snd].
    assert (pair_weight rows p n = Ok (pw rows p n)) as ->.
    { unfold pair_weight. destruct (row_of_ok rows p Hp) as [-> _], (row_of_ok rows n Hn) as [-> _]. done. }
    cbn [rbind fst snd]. destruct (IH (<[(p, n) := pw rows p n]> d) (t + pw rows p n)) as (d' & -> & Hd').
    { intros p' n' Hin. apply Hr. by right. }
    exists d'. split.
    + cbn [map fst snd]. change (zsum (pw rows p n :: map (fun pn => pw rows pn.1 pn.2) prs)) with (pw rows p n + zsum (map (fun pn => pw rows pn.1 pn.2) prs)). do 2 f_equal. lia.
    + intros pn. rewrite Hd'. destruct (decide (pn = (p, n))) as [->|Hne].
      * rewrite (decide_True (P := (p, n) ∈ (p, n) :: prs)) by left. destruct (decide _); [done|]. by rewrite lookup_insert.
      * rewrite lookup_insert_ne by done. destruct (decide (pn ∈ prs)); [by rewrite decide_True by (by right)|].
        rewrite decide_False; [done|]. intros Hc. apply elem_of_cons in Hc as [?|?]; done.
Qed.

Lemma discrim_hitz rows y k : length rows = length y ->
  discrim rows y k = zsum (map (fun p => zsum (map (hitz rows k p) (neg_indices y))) (pos_indices y)).
Proof.
  intros Hl. apply eq_IZR. rewrite (discrim_S2 rows y Hl). rewrite <- rsum_IZR. apply rsum_map_ext. intros p _. rewrite <- rsum_IZR. apply rsum_map_ext. intros n _.
  unfold hit, hitz. by destruct (decide _).
Qed.

Lemma C36_ground_truth_proof : forall (ord : gset Z -> list Z) (prune : bool) (alpha : Qc) (pd : proposal)
    (cache : option (list (gset Z) * list (list Z))) (X : csr) (y : list Z) (s : cds),
  set_order ord -> cds_fit ord prune alpha pd cache X y = Ok s -> fitted_rows X y s ->
  let total := total_discrim (zlen (cds_space s)) (cds_rows s) y in
  (total = 0 -> ground_truth_samples ord s = Ok ∅ /\ ground_truth_pairs s = Err ZeroDivisionError) /\
  (total <> 0 -> exists mp ms, ground_truth_pairs s = Ok mp /\ ground_truth_samples ord s = Ok ms /\
     (forall k, ms !! k = if decide (0 < discrim (cds_rows s) y k) then Some (IZR (discrim (cds_rows s) y k) / IZR total)%R else None) /\
     (forall p n rp rn, is_pos y p -> is_neg y n -> cds_rows s !! Z.to_nat p = Some rp -> cds_rows s !! Z.to_nat n = Some rn ->
        mp !! (p, n) = Some (IZR (zlen (List.filter (fun k => bool_decide (k ∉ rn)) rp)) / IZR total)%R) /\
     rsum (map snd (map_to_list ms)) = 1%R /\ rsum (map snd (map_to_list mp)) = 1%R).
Proof.
  intros ord prune alpha pd cache X y s Ho Hfit Hf total.
  destruct (cds_fit_inv _ _ _ _ _ _ _ _ Hfit Hf) as (HW & Ep & En & Ei & Hdom & Hl).
  assert (Hne : exists p n, p ∈ cds_pos s /\ n ∈ cds_neg s).
  { unfold cds_fit in Hfit. destruct (decide (py_set y = {[0; 1]})) as [Hy|Hy]; [|by rewrite bool_decide_eq_false_2 in Hfit].
    assert (H0 : 0 ∈ y) by (apply (elem_of_list_to_set (C := gset Z)); fold (py_set y); rewrite Hy; set_solver).
    assert (H1 : 1 ∈ y) by (apply (elem_of_list_to_set (C := gset Z)); fold (py_set y); rewrite Hy; set_solver).
    apply elem_of_list_lookup in H0 as [n H0], H1 as [p H1]. exists (Z.of_nat p), (Z.of_nat n). rewrite Ep, En, pos_sel, neg_sel, !elem_of_sel, !Nat2Z.id.
    split; (split; [lia|]); [exists 1|exists 0]; done. }
  destruct Hf as (Hf1 & Hf2 & Hs).
  assert (Hrange : forall p n, (p, n) ∈ pn_pairs s -> (0 <= p < zlen (cds_rows s)) /\ (0 <= n < zlen (cds_rows s))).
  { intros p n Hpn. apply elem_of_pn_pairs in Hpn as [Hp Hn]. rewrite Ep in Hp. rewrite En in Hn. split; [by eapply pos_range|by eapply neg_range]. }
  assert (Htot : total = zsum (map (fun pn => pw (cds_rows s) pn.1 pn.2) (pn_pairs s))).
  { rewrite pn_pairs_sum, Ep, En. unfold total. by rewrite (total_discrim_eq (cds_space s) (cds_rows s) y Hs Hl). }
  destruct (pairs_fold (cds_rows s) (pn_pairs s) ∅ 0 Hrange) as (d & Ed & Hd). rewrite Z.add_0_l, <- Htot in Ed.
  destruct (count_outer ord (cds_rows s) Ho (pn_pairs s) ∅ Hrange ltac:(intros ? ? Hx; rewrite lookup_empty in Hx; done)) as (cnt & Ec & Hcpos & Hcnt).
  assert (Hcd : forall k, default 0 (cnt !! k) = discrim (cds_rows s) y k).
  { intros k. rewrite Hcnt, lookup_empty. simpl. rewrite pn_pairs_sum, Ep, En, (discrim_hitz _ _ _ Hl). done. }
  assert (Hct : zsum (map snd (map_to_list cnt)) = total).
  { rewrite (map_sum_range cnt (py_range (zlen (cds_space s)))); [|apply NoDup_py_range|].
    - unfold total, total_discrim. f_equal. apply map_ext. done.
    - intros k [v Hk]. pose proof (Hcpos k v Hk) as Hv. specialize (Hcd k). rewrite Hk in Hcd. simpl in Hcd. subst v.
      apply (discrim_pos (cds_rows s) y Hl) in Hv as (p & n & Hp & _ & Hkp & _). apply elem_of_py_range.
      destruct (row_of_ok _ _ (pos_range _ _ Hl _ Hp)) as [_ Hin]. by apply (Hs _ Hin). }
  assert (Ecnt : ground_truth_samples ord s = rfold (fun m kv => let! q := py_div (snd kv) total in Ok (<[fst kv := q]> m)) (∅ : gmap Z R) (map_to_list cnt)).
  { unfold ground_truth_samples. rewrite Ec. cbn [rbind]. by rewrite Hct. }
  assert (Epr : ground_truth_pairs s = rfold (fun m kv => let! q := py_div (snd kv) total in Ok (<[fst kv := q]> m)) (∅ : gmap (Z * Z) R) (map_to_list d)).
  { unfold ground_truth_pairs. rewrite Ed. done. }
  split.
  - intros Hz. rewrite Ecnt, Epr, Hz. split.
    + assert (cnt = ∅) as ->; [|done]. apply map_eq. intros k. rewrite lookup_empty. destruct (cnt !! k) as [v|] eqn:Ek; [|done]. exfalso.
      pose proof (Hcpos k v Ek). assert (Hge : v <= zsum (map snd (map_to_list cnt))); [|lia].
      rewrite (zsum_perm _ (map snd ((k, v) :: map_to_list (delete k cnt)))) by (apply Permutation_map; symmetry; by apply map_to_list_delete).
      cbn [map snd]. change (zsum (v :: map snd (map_to_list (delete k cnt)))) with (v + zsum (map snd (map_to_list (delete k cnt)))).
      assert (0 <= zsum (map snd (map_to_list (delete k cnt)))); [|lia]. apply zsum_nonneg. apply list.Forall_forall. intros v' Hv'.
      apply elem_of_map in Hv' as ([k' v''] & -> & Hin). apply elem_of_map_to_list in Hin. apply lookup_delete_Some in Hin as [_ Hin]. apply Hcpos in Hin. simpl. lia.
    + destruct Hne as (p & n & Hp & Hn). apply (ratio_map_zero d (p, n) (pw (cds_rows s) p n)). rewrite Hd, decide_True; [done|]. by apply elem_of_pn_pairs.
  - intros Hnz. exists ((fun v => IZR v / IZR total)%R <$> d), ((fun v => IZR v / IZR total)%R <$> cnt).
    rewrite Ecnt, Epr, !ratio_map by done. split; [done|]. split; [done|]. split_and!.
    + intros k. rewrite lookup_fmap. specialize (Hcd k). destruct (cnt !! k) as [v|] eqn:Ek; simpl in *.
      * apply Hcpos in Ek. subst v. by rewrite decide_True.
      * rewrite <- Hcd. by rewrite decide_False.
    + intros p n rp rn Hp Hn Erp Ern. rewrite lookup_fmap, Hd, decide_True.
      * simpl. do 3 f_equal. destruct (C35_dominates_proof _ _ _ _ _ _ _ _ _ _ Hfit (conj Hf1 (conj Hf2 Hs)) Hp Hn) as (a & b & rp' & rn' & _ & _ & _ & _ & Erp' & Ern' & Hw & _).
        assert (rp' = rp) by congruence. assert (rn' = rn) by congruence. subst rp' rn'.
        assert (Hr' : (p, n) ∈ pn_pairs s).
        { apply elem_of_pn_pairs. rewrite Ep, En, pos_sel, neg_sel, !elem_of_sel. destruct Hp as (? & v & ? & ?), Hn as (? & ?). split; (split; [done|]); [exists v|exists 0]; (split; [done|]); [by apply Z.ltb_lt|done]. }
        destruct (Hrange p n Hr') as [Hp' Hn']. unfold pair_weight in Hw. destruct (row_of_ok _ _ Hp') as [E1 _], (row_of_ok _ _ Hn') as [E2 _]. rewrite E1, E2 in Hw. cbn [rbind] in Hw.
        injection Hw as Hw. exact Hw.
      * apply elem_of_pn_pairs. rewrite Ep, En, pos_sel, neg_sel, !elem_of_sel. destruct Hp as (? & v & ? & ?), Hn as (? & ?). split; (split; [done|]); [exists v|exists 0]; (split; [done|]); [by apply Z.ltb_lt|done].
    + by apply ratio_sum.
    + apply ratio_sum; [done|]. rewrite (map_sum_range d (pn_pairs s)).
      * rewrite Htot. f_equal. apply map_ext_in. intros pn Hpn. apply elem_of_list_In in Hpn. rewrite Hd, decide_True by done. done.
      * apply NoDup_pn_pairs; rewrite ?Ep, ?En; [apply (NoDup_sel (fun v => 0 <? v))|apply (NoDup_sel (fun v => v =? 0))].
      * intros pn [v Hv]. rewrite Hd in Hv. destruct (decide (pn ∈ pn_pairs s)); [done|]. by rewrite lookup_empty in Hv.
Qed.
