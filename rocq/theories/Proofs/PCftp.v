(** Coupling from the past: the Markov chain, its stationary distribution and the coalescence argument, for any
    pair weights w dominated by product proposal weights. *)
From Coq Require Import Lra.
From Verif.Model Require Import PyBase PyReal RandR Cftp.
From Verif.Proofs Require Import PBase PRandR.
Open Scope R_scope.

Section chain.
  Context (pos neg : list Z) (Wp Wn : Z -> R) (w : Z * Z -> R).
  Hypothesis HWp : forall p, p ∈ pos -> 0 <= Wp p.
  Hypothesis HWn : forall n, n ∈ neg -> 0 <= Wn n.
  Hypothesis Hw : forall p n, p ∈ pos -> n ∈ neg -> 0 <= w (p, n) <= Wp p * Wn n.

  Definition wb (c : Z * Z) : R := Wp c.1 * Wn c.2.
  Definition Sp : R := rsum (map Wp pos).
  Definition Sn : R := rsum (map Wn neg).
  Hypothesis HSp : 0 < Sp.
  Hypothesis HSn : 0 < Sn.

  Definition inp (c : Z * Z) : Prop := c.1 ∈ pos /\ c.2 ∈ neg.

  (** sums over all pairs *)
  Definition S2 (F : Z * Z -> R) : R := rsum (map (fun p => rsum (map (fun n => F (p, n)) neg)) pos).

  Lemma S2_ext F G : (forall c, inp c -> F c = G c) -> S2 F = S2 G.
  Proof. intros H. apply rsum_map_ext. intros p Hp. apply rsum_map_ext. intros n Hn. by apply H. Qed.
  Lemma S2_plus F G : S2 (fun c => F c + G c) = S2 F + S2 G.
  Proof.
    unfold S2. rewrite <- rsum_plus. apply rsum_map_ext. intros p _. apply rsum_plus.
  Qed.
  Lemma S2_scal a F : S2 (fun c => a * F c) = a * S2 F.
  Proof. unfold S2. rewrite <- rsum_scal. apply rsum_map_ext. intros p _. apply rsum_scal. Qed.
  Lemma S2_scal_r a F : S2 (fun c => F c * a) = S2 F * a.
  Proof. unfold S2. rewrite <- rsum_scal_r. apply rsum_map_ext. intros p _. apply rsum_scal_r. Qed.
  Lemma S2_rsum {A} (F : A -> Z * Z -> R) l : S2 (fun c => rsum (map (fun a => F a c) l)) = rsum (map (fun a => S2 (F a)) l).
  Proof.
    unfold S2. rewrite (rsum_map_ext _ (fun p => rsum (map (fun a => rsum (map (fun n => F a (p, n)) neg)) l))).
    - apply rsum_swap.
    - intros p _. apply rsum_swap.
  Qed.
  Lemma S2_swap (F : Z * Z -> Z * Z -> R) : S2 (fun c => S2 (F c)) = S2 (fun d => S2 (fun c => F c d)).
  Proof.
    unfold S2 at 2. rewrite S2_rsum. unfold S2 at 3. apply rsum_map_ext. intros p _. rewrite S2_rsum. done.
  Qed.
  Lemma S2_nonneg F : (forall c, inp c -> 0 <= F c) -> 0 <= S2 F.
  Proof. intros H. apply rsum_nonneg. intros p Hp. apply rsum_nonneg. intros n Hn. by apply H. Qed.
  Lemma S2_zero F c : (forall c, inp c -> 0 <= F c) -> S2 F = 0 -> inp c -> F c = 0.
  Proof.
    intros H H0 [Hp Hn]. destruct c as [p n]. simpl in *.
    assert (H1 : rsum (map (fun n => F (p, n)) neg) = 0).
    { apply (rsum_zero_iff (fun p => rsum (map (fun n => F (p, n)) neg)) pos p); [|done|done].
      intros p' Hp'. apply rsum_nonneg. intros n' Hn'. by apply H. }
    apply (rsum_zero_iff (fun n => F (p, n)) neg n); [|done|done]. intros n' Hn'. by apply H.
  Qed.
  Lemma S2_prod f g : S2 (fun c => f c.1 * g c.2) = rsum (map f pos) * rsum (map g neg).
  Proof.
    unfold S2. rewrite <- rsum_scal_r. apply rsum_map_ext. intros p _. simpl. apply rsum_scal.
  Qed.

  Definition Zt : R := S2 w.
  Definition Zb : R := Sp * Sn.
  Definition acc : R := Zt / Zb.

  Lemma wb_nonneg c : inp c -> 0 <= wb c.
  Proof. intros [H1 H2]. unfold wb. apply Rmult_le_pos; auto. Qed.
  Lemma w_nonneg c : inp c -> 0 <= w c.
  Proof. destruct c. intros [H1 H2]. by apply Hw. Qed.
  Lemma w_le c : inp c -> w c <= wb c.
  Proof. destruct c. intros [H1 H2]. by apply Hw. Qed.
  Lemma Zb_pos : 0 < Zb.
  Proof. by apply Rmult_lt_0_compat. Qed.
  Lemma Zt_nonneg : 0 <= Zt.
  Proof. apply S2_nonneg. apply w_nonneg. Qed.
  Lemma S2_wb : S2 wb = Zb.
  Proof. apply S2_prod. Qed.

  (** the chain *)
  Definition wS (s : option (Z * Z)) : R := match s with None => 1 | Some d => w d end.
  Definition wbS (s : option (Z * Z)) : R := match s with None => 1 | Some d => wb d end.
  Definition ratio (s : option (Z * Z)) (c : Z * Z) : R := (w c * wbS s) / (wb c * wS s).
  Definition mstep (s : option (Z * Z)) (x : Z * Z * R) : option (Z * Z) :=
    if Rltb x.2 (ratio s x.1) then Some x.1 else s.
  Definition run (s : option (Z * Z)) (l : list (Z * Z * R)) : option (Z * Z) := fold_left mstep l s.

  Definition okS (s : option (Z * Z)) : Prop := match s with None => True | Some d => inp d end.
  (** a state the chain can be in: its weight is positive *)
  Definition goodS (s : option (Z * Z)) : Prop := match s with None => True | Some d => inp d /\ 0 < w d end.
  (** a draw that can happen *)
  Definition goodX (x : Z * Z * R) : Prop := inp x.1 /\ 0 < wb x.1 /\ 0 <= x.2 < 1.

  Lemma goodS_okS s : goodS s -> okS s.
  Proof. destruct s; simpl; tauto. Qed.

  Lemma wS_nonneg s : okS s -> 0 <= wS s.
  Proof. destruct s; simpl; [apply w_nonneg|lra]. Qed.
  Lemma wbS_nonneg s : okS s -> 0 <= wbS s.
  Proof. destruct s; simpl; [apply wb_nonneg|lra]. Qed.
  Lemma wS_le s : okS s -> wS s <= wbS s.
  Proof. destruct s; simpl; [apply w_le|lra]. Qed.

  Lemma div_nonneg a b : 0 <= a -> 0 <= b -> 0 <= a / b.
  Proof.
    intros Ha Hb. unfold Rdiv. destruct (Req_dec b 0) as [->|Hn].
    - rewrite Rinv_0. lra.
    - apply Rmult_le_pos; [done|]. left. apply Rinv_0_lt_compat. lra.
  Qed.

  Lemma ratio_nonneg s c : okS s -> inp c -> 0 <= ratio s c.
  Proof.
    intros Hs Hc. unfold ratio. apply div_nonneg; apply Rmult_le_pos; auto using w_nonneg, wb_nonneg, wS_nonneg, wbS_nonneg.
  Qed.

  Lemma mstep_good s x : goodS s -> goodX x -> goodS (mstep s x).
  Proof.
    intros Hs (Hi & Hb & Hu). unfold mstep, Rltb. destruct (Rlt_dec x.2 (ratio s x.1)) as [Hlt|]; [|done].
    simpl. split; [done|]. pose proof (w_nonneg x.1 Hi). destruct (Req_dec (w x.1) 0) as [E|]; [|lra].
    unfold ratio in Hlt. rewrite E in Hlt. unfold Rdiv in Hlt. rewrite !Rmult_0_l in Hlt. lra.
  Qed.

  Lemma run_good l : forall s, goodS s -> Forall goodX l -> goodS (run s l).
  Proof.
    induction l as [|x l IH]; intros s Hs Hl; [done|]. inversion Hl; subst. simpl. apply IH; [|done]. by apply mstep_good.
  Qed.

  Lemma run_app s l l' : run s (l ++ l') = run (run s l) l'.
  Proof. apply fold_left_app. Qed.

  (** ** coalescence: a pair accepted from None is accepted from every state *)

  Lemma ratio_mono s c : goodS s -> inp c -> 0 < wb c -> ratio None c <= ratio s c.
  Proof.
    intros Hs Hc Hb. destruct s as [d|]; [|lra]. destruct Hs as [Hd Hwd]. unfold ratio. simpl.
    pose proof (w_le d Hd) as Hle. pose proof (w_nonneg c Hc) as Hcn.
    replace (w c * wb d / (wb c * w d)) with ((w c * 1 / (wb c * 1)) * (wb d / w d)).
    2:{ field. lra. }
    rewrite <- (Rmult_1_r (w c * 1 / (wb c * 1))) at 1. apply Rmult_le_compat_l.
    - apply div_nonneg; lra.
    - apply Rmult_le_reg_r with (w d); [done|]. unfold Rdiv. rewrite Rmult_assoc, Rinv_l; lra.
  Qed.

  Lemma mstep_coalesce s x d : goodS s -> goodX x -> mstep None x = Some d -> mstep s x = Some d.
  Proof.
    intros Hs (Hi & Hb & Hu). unfold mstep, Rltb.
    destruct (Rlt_dec x.2 (ratio None x.1)) as [Hlt|]; [|done]. intros [= <-].
    pose proof (ratio_mono s x.1 Hs Hi Hb). destruct (Rlt_dec x.2 (ratio s x.1)); [done|lra].
  Qed.

  Lemma run_coalesce l : forall s d, goodS s -> Forall goodX l -> run None l = Some d -> run s l = Some d.
  Proof.
    induction l as [|x l IH]; intros s d Hs Hl; [done|]. inversion Hl as [|? ? Hx Hl']; subst. simpl.
    destruct (mstep None x) as [c|] eqn:E.
    - intros Hr. rewrite (mstep_coalesce s x c) by done. done.
    - intros Hr. apply IH; [by apply mstep_good|done|done].
  Qed.

  (** ** the transition kernel *)

  Definition qp (p : Z) : R := Wp p / Sp.
  Definition qn (n : Z) : R := Wn n / Sn.
  Definition qc (c : Z * Z) : R := qp c.1 * qn c.2.
  Definition alpha (s : option (Z * Z)) (c : Z * Z) : R := Rmin 1 (ratio s c).
  Definition K (psi : option (Z * Z) -> R) (s : option (Z * Z)) : R :=
    S2 (fun c => qc c * (alpha s c * psi (Some c) + (1 - alpha s c) * psi s)).

  Lemma qc_eq c : qc c = wb c / Zb.
  Proof. unfold qc, qp, qn, wb, Zb. field. lra. Qed.
  Lemma S2_qc : S2 qc = 1.
  Proof.
    rewrite (S2_ext _ (fun c => wb c * / Zb)) by (intros; apply qc_eq). rewrite S2_scal_r, S2_wb. apply Rinv_r.
    pose proof Zb_pos. lra.
  Qed.

  Lemma alpha_None c : inp c -> qc c * alpha None c = w c / Zb.
  Proof.
    intros Hc. rewrite qc_eq. unfold alpha, ratio. simpl. pose proof (w_le c Hc). pose proof (w_nonneg c Hc). pose proof Zb_pos.
    destruct (Req_dec (wb c) 0) as [E|Hn].
    - rewrite E. assert (w c = 0) as -> by lra. unfold Rdiv. lra.
    - assert (0 < wb c) by lra. rewrite Rmin_right.
      + field. lra.
      + rewrite !Rmult_1_r. apply Rmult_le_reg_r with (wb c); [done|]. unfold Rdiv. rewrite Rmult_assoc, Rinv_l; lra.
  Qed.

  Lemma K_None psi : K psi None = (1 - acc) * psi None + S2 (fun c => w c / Zb * psi (Some c)).
  Proof.
    unfold K. rewrite (S2_ext _ (fun c => (w c / Zb * psi (Some c) + psi None * qc c) + (- psi None) * (w c / Zb))).
    2:{ intros c Hc. rewrite <- alpha_None by done. ring. }
    rewrite !S2_plus, !S2_scal, S2_qc. unfold Rdiv at 2. rewrite S2_scal_r. fold Zt. unfold acc, Rdiv. ring.
  Qed.

  Lemma alpha_sym c d : inp c -> inp d -> 0 < w d ->
    w d * (qc c * alpha (Some d) c) = Rmin (w d * wb c) (w c * wb d) / Zb.
  Proof.
    intros Hc Hd Hwd. rewrite qc_eq. unfold alpha, ratio. simpl. pose proof Zb_pos.
    pose proof (wb_nonneg c Hc) as Hbc. pose proof (wb_nonneg d Hd) as Hbd. pose proof (w_le c Hc). pose proof (w_nonneg c Hc).
    destruct (Req_dec (wb c) 0) as [E|Hn].
    - rewrite E. assert (w c = 0) as -> by lra. replace (w d * 0) with 0 by ring. replace (0 * wb d) with 0 by ring.
      rewrite (Rmin_left 0 0) by lra. unfold Rdiv. ring.
    - assert (0 < wb c) by lra. assert (Hp : 0 < w d * wb c) by (by apply Rmult_lt_0_compat).
      destruct (Rle_dec (w d * wb c) (w c * wb d)) as [Hle|Hle].
      + rewrite (Rmin_left (w d * wb c)) by done. rewrite Rmin_left; [field; lra|].
        apply Rmult_le_reg_r with (wb c * w d); [lra|]. unfold Rdiv. rewrite Rmult_assoc, Rinv_l by lra. lra.
      + apply Rnot_le_lt in Hle. rewrite (Rmin_right (w d * wb c)) by lra. rewrite Rmin_right; [field; lra|].
        apply Rmult_le_reg_r with (wb c * w d); [lra|]. unfold Rdiv. rewrite Rmult_assoc, Rinv_l by lra. lra.
  Qed.

  (** w is reversible for the kernel, hence stationary *)
  Lemma stationary psi : S2 (fun d => w d * K psi (Some d)) = S2 (fun d => w d * psi (Some d)).
  Proof.
    set (M := fun d c => if Req_EM_T (w d) 0 then 0 else if Req_EM_T (w c) 0 then 0 else Rmin (w d * wb c) (w c * wb d) / Zb).
    assert (HM : forall d c, inp d -> inp c -> w d * (qc c * alpha (Some d) c) = M d c).
    { intros d c Hd Hc. unfold M. destruct (Req_EM_T (w d) 0) as [->|Hn]; [lra|].
      pose proof (w_nonneg d Hd). rewrite alpha_sym by (done || lra).
      destruct (Req_EM_T (w c) 0) as [E|]; [|done]. rewrite E, Rmult_0_l, Rmin_right; [unfold Rdiv; lra|].
      apply Rmult_le_pos; [done|]. by apply wb_nonneg. }
    assert (Hs : forall d c, M d c = M c d).
    { intros d c. unfold M. destruct (Req_EM_T (w d) 0), (Req_EM_T (w c) 0); try done. by rewrite Rmin_comm. }
    assert (HK : forall d, inp d -> w d * K psi (Some d) = w d * psi (Some d) + S2 (fun c => M d c * psi (Some c) + (- M d c) * psi (Some d))).
    { intros d Hd. unfold K. rewrite <- S2_scal.
      rewrite (S2_ext _ (fun c => (M d c * psi (Some c) + (- M d c) * psi (Some d)) + (w d * psi (Some d)) * qc c)).
      2:{ intros c Hc. rewrite <- HM by done. ring. }
      rewrite S2_plus, S2_scal, S2_qc. ring. }
    rewrite (S2_ext _ _ HK), S2_plus.
    assert (S2 (fun d => S2 (fun c => M d c * psi (Some c) + - M d c * psi (Some d))) = 0) as ->; [|ring].
    rewrite (S2_ext _ (fun d => S2 (fun c => M d c * psi (Some c)) + (-1) * S2 (fun c => M d c * psi (Some d)))).
    2:{ intros d Hd. rewrite <- S2_scal, <- S2_plus. apply S2_ext. intros c Hc. ring. }
    rewrite S2_plus, S2_scal, (S2_swap (fun d c => M d c * psi (Some c))).
    rewrite (S2_ext (fun d => S2 (fun c => M c d * psi (Some d))) (fun d => S2 (fun c => M d c * psi (Some d)))).
    2:{ intros d _. apply S2_ext. intros c _. by rewrite Hs. }
    ring.
  Qed.

  (** the law of the chain after n steps from None *)
  Definition Law (n : nat) (psi : option (Z * Z) -> R) : R :=
    (1 - acc) ^ n * psi None + S2 (fun c => (1 - (1 - acc) ^ n) * (w c / Zt) * psi (Some c)).

  Lemma acc_0 : Zt = 0 -> acc = 0.
  Proof. intros E. unfold acc. rewrite E. unfold Rdiv. lra. Qed.

  Lemma Law_K n psi : Law n (K psi) = Law (Datatypes.S n) psi.
  Proof.
    unfold Law. rewrite K_None. destruct (Req_dec Zt 0) as [E|Hn].
    - rewrite (acc_0 E). rewrite !Rminus_0_r, !pow1. rewrite !(S2_ext (fun c => (1 - 1) * _ * _) (fun c => 0 * 0)) by (intros; ring).
      rewrite S2_scal. rewrite (S2_ext (fun c => w c / Zb * _) (fun c => 0 * 0)).
      + rewrite S2_scal. ring.
      + intros c Hc. assert (w c = 0) as -> by (apply (S2_zero w c w_nonneg E Hc)). unfold Rdiv. ring.
    - rewrite (S2_ext (fun c => (1 - (1 - acc) ^ n) * (w c / Zt) * K psi (Some c)) (fun c => ((1 - (1 - acc) ^ n) / Zt) * (w c * K psi (Some c))))
        by (intros; unfold Rdiv; ring).
      rewrite S2_scal, stationary.
      rewrite (S2_ext (fun c => (1 - (1 - acc) ^ Datatypes.S n) * (w c / Zt) * psi (Some c)) (fun c => ((1 - (1 - acc) ^ Datatypes.S n) / Zt) * (w c * psi (Some c))))
        by (intros; unfold Rdiv; ring).
      rewrite S2_scal.
      rewrite (S2_ext (fun c => w c / Zb * psi (Some c)) (fun c => / Zb * (w c * psi (Some c)))) by (intros; unfold Rdiv; ring).
      rewrite S2_scal. unfold acc. pose proof Zb_pos. simpl. field. lra.
  Qed.

  Lemma Law_iter m : forall n psi, Law n (Nat.iter m K psi) = Law (n + m) psi.
  Proof.
    induction m as [|m IH]; intros n psi; simpl; [by rewrite Nat.add_0_r|]. rewrite Law_K, IH. f_equal. lia.
  Qed.

  Lemma Law_const n (a : R) psi : psi None = a -> (forall c, inp c -> 0 < w c -> psi (Some c) = a) -> Law n psi = a.
  Proof.
    intros H0 Hc. unfold Law. rewrite H0. rewrite (S2_ext _ (fun c => w c * ((1 - (1 - acc) ^ n) / Zt * a))).
    2:{ intros c Hi. pose proof (w_nonneg c Hi). destruct (Req_dec (w c) 0) as [->|]; [unfold Rdiv; ring|].
        rewrite Hc by (done || lra). unfold Rdiv. ring. }
    rewrite S2_scal_r. fold Zt. destruct (Req_dec Zt 0) as [E|Hn].
    - rewrite (acc_0 E), E, Rminus_0_r, pow1. lra.
    - field. done.
  Qed.

  (** ** integrating one block of draws *)

  Definition qpos : list (Z * R) := map (fun p => (p, qp p)) pos.
  Definition qneg : list (Z * R) := map (fun n => (n, qn n)) neg.

  Definition comb (J : list (R * option (Z * Z))) (phi : option (Z * Z) -> R) : R :=
    rsum (map (fun a => a.1 * phi a.2) J).

  Lemma two_sums m (G : list Z -> list Z -> R) :
    SumL (Datatypes.S m) qpos (fun ps => SumL (Datatypes.S m) qneg (fun ns => G ps ns)) =
    S2 (fun c => qc c * SumL m qpos (fun ps => SumL m qneg (fun ns => G (c.1 :: ps) (c.2 :: ns)))).
  Proof.
    assert (Hqp : forall F : Z * R -> R, rsum (map F qpos) = rsum (map (fun p => F (p, qp p)) pos)) by (intros; unfold qpos; by rewrite map_map).
    assert (Hqn : forall F : Z * R -> R, rsum (map F qneg) = rsum (map (fun p => F (p, qn p)) neg)) by (intros; unfold qneg; by rewrite map_map).
    cbn [SumL]. rewrite Hqp. unfold S2. apply rsum_map_ext. intros p _. cbn [fst snd].
    rewrite (SumL_sum m qpos (fun xp => xp.2) (fun xp ps => SumL m qneg (fun ns => G (p :: ps) (xp.1 :: ns))) qneg).
    rewrite Hqn, <- rsum_scal. apply rsum_map_ext. intros n _. unfold qc. simpl. ring.
  Qed.

  Lemma mstep_isR s c psi : okS s -> inp c ->
    isR (fun u => psi (mstep s (c, u))) 0 1 (alpha s c * psi (Some c) + (1 - alpha s c) * psi s).
  Proof.
    intros Hs Hc. unfold alpha.
    apply (Coquelicot.RInt.is_RInt_ext (V := Coquelicot.Hierarchy.R_NormedModule) (fun u => if Rltb u (ratio s c) then psi (Some c) else psi s)).
    - intros u _. unfold mstep. simpl. by destruct (Rltb u (ratio s c)).
    - apply isR_step. by apply ratio_nonneg.
  Qed.

  Lemma block m : forall J phi, (forall a, a ∈ J -> okS a.2) ->
    IntL m (fun us => SumL m qpos (fun ps => SumL m qneg (fun ns =>
        comb J (fun s => phi (run s (zip (zip ps ns) us))))))
      (comb J (Nat.iter m K phi)).
  Proof.
    induction m as [|m IH]; intros J phi HJ; [done|].
    set (J' := fun u => concat (map (fun a => concat (map (fun p => map (fun n => (qc (p, n) * a.1, mstep a.2 ((p, n), u))) neg) pos)) J)).
    exists (fun u => comb (J' u) (Nat.iter m K phi)).
    assert (HJ' : forall u psi, comb (J' u) psi = rsum (map (fun a => S2 (fun c => qc c * a.1 * psi (mstep a.2 (c, u)))) J)).
    { intros u psi. unfold comb, J'. rewrite rsum_concat. apply rsum_map_ext. intros a _. rewrite rsum_concat. unfold S2.
      apply rsum_map_ext. intros p _. rewrite map_map. done. }
    split.
    - intros u Hu. eapply IntL_ext; [|apply (IH (J' u) phi)].
      + intros us Hus _. cbv beta. rewrite (two_sums m (fun ps ns => comb J (fun s => phi (run s (zip (zip ps ns) (u :: us)))))).
        cbn [zip zip_with run fold_left].
        rewrite (SumL_ext m qpos _ (fun ps => S2 (fun c => qc c * SumL m qneg (fun ns => comb J (fun s => phi (run (mstep s (c, u)) (zip (zip ps ns) us))))))).
        2:{ intros ps _ _. rewrite (SumL_ext m qneg _ (fun ns => S2 (fun c => qc c * comb J (fun s => phi (run (mstep s (c, u)) (zip (zip ps ns) us)))))).
            2:{ intros ns _ _. rewrite HJ'. unfold comb. rewrite <- S2_rsum. apply S2_ext. intros c _. rewrite <- rsum_scal. apply rsum_map_ext.
                intros a _. ring. }
            unfold S2 at 1. rewrite (SumL_ext m qneg _ (fun ns => rsum (map (fun p => 1 * rsum (map (fun n => qc (p, n) * comb J (fun s => phi (run (mstep s (p, n, u)) (zip (zip ps ns) us)))) neg)) pos))).
            2:{ intros ns _ _. apply rsum_map_ext. intros; ring. }
            rewrite (SumL_sum m qneg (fun _ => 1) (fun p ns => rsum (map (fun n => qc (p, n) * comb J (fun s => phi (run (mstep s (p, n, u)) (zip (zip ps ns) us)))) neg)) pos).
            unfold S2. apply rsum_map_ext. intros p _. rewrite Rmult_1_l.
            apply (SumL_sum m qneg (fun n => qc (p, n)) (fun n ns => comb J (fun s => phi (run (mstep s (p, n, u)) (zip (zip ps ns) us)))) neg). }
        unfold S2 at 1. rewrite (SumL_ext m qpos _ (fun ps => rsum (map (fun p => 1 * rsum (map (fun n => qc (p, n) * SumL m qneg (fun ns => comb J (fun s => phi (run (mstep s (p, n, u)) (zip (zip ps ns) us))))) neg)) pos))).
        2:{ intros ps _ _. apply rsum_map_ext. intros; ring. }
        rewrite (SumL_sum m qpos (fun _ => 1) (fun p ps => rsum (map (fun n => qc (p, n) * SumL m qneg (fun ns => comb J (fun s => phi (run (mstep s (p, n, u)) (zip (zip ps ns) us))))) neg)) pos).
        unfold S2. apply rsum_map_ext. intros p _. rewrite Rmult_1_l.
        apply (SumL_sum m qpos (fun n => qc (p, n)) (fun n ps => SumL m qneg (fun ns => comb J (fun s => phi (run (mstep s (p, n, u)) (zip (zip ps ns) us))))) neg).
      + intros a Ha. unfold J' in Ha. apply elem_of_list_In, in_concat in Ha as (l & Hl & Ha). apply in_map_iff in Hl as (b & <- & Hb).
        apply in_concat in Ha as (l' & Hl' & Ha). apply in_map_iff in Hl' as (p & <- & Hp). apply in_map_iff in Ha as (n & <- & Hn).
        apply elem_of_list_In in Hb, Hp, Hn. simpl. unfold mstep. simpl. destruct (Rltb u _); [done|]. by apply HJ.
    - apply (Coquelicot.RInt.is_RInt_ext (V := Coquelicot.Hierarchy.R_NormedModule)
        (fun u => rsum (map (fun a => rsum (map (fun p => rsum (map (fun n => qc (p, n) * a.1 * Nat.iter m K phi (mstep a.2 (p, n, u))) neg)) pos)) J))).
      { intros u _. rewrite HJ'. done. }
      unfold comb. apply isR_rsum. intros a Ha. set (psi := Nat.iter m K phi).
      assert (E : a.1 * Nat.iter (Datatypes.S m) K phi a.2 = rsum (map (fun p => rsum (map (fun n =>
         qc (p, n) * a.1 * (alpha a.2 (p, n) * psi (Some (p, n)) + (1 - alpha a.2 (p, n)) * psi a.2)) neg)) pos)).
      { change (Nat.iter (Datatypes.S m) K phi a.2) with (K psi a.2). unfold K, S2. rewrite <- rsum_scal. apply rsum_map_ext. intros p _.
        rewrite <- rsum_scal. apply rsum_map_ext. intros n _. ring. }
      rewrite E. apply isR_rsum. intros p Hp. apply isR_rsum. intros n Hn.
      apply isR_scal. apply mstep_isR; [by apply HJ|done].
  Qed.
End chain.
